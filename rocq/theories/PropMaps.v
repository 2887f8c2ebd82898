(** C115: the shipped maps are usable as they are. *)
From Coq Require Import Reals ZArith Lra Lia List String.
From Verif Require Import Base BaseFacts ModelFloat ModelInterp ModelMaps ModelShare ModelConfig ModelComponent ModelShipped ModelWhole ModelInstruct
  ModelRandgen ModelPlugins SpecInterp SpecMaps SpecRandgen ProofFloat ProofLikelihood2 ProofLikelihood3 ProofRandgen ProofPlugins ProofMaps
  PropRandgen PropPlugins PropSpectra.
Local Open Scope R_scope.

(** ** The files one by one *)
Ltac one_number pos := destruct pos as [|? [|? ?]]; try discriminate.
Ltac two_numbers pos := destruct pos as [|? [|? [|? ?]]]; try discriminate.
Ltac three_numbers pos := destruct pos as [|? [|? [|? [|? ?]]]]; try discriminate.
Ltac dec_value := unfold dec; repeat match goal with |- context [(10 ^ Z.of_nat ?k)%Z] =>
  let p := eval vm_compute in (10 ^ Z.of_nat k)%Z in change (10 ^ Z.of_nat k)%Z with p end; lra.

Lemma points_apply m f c v pos : f_type f = TypeOne "point" -> f_content f = Points c v -> (exists s, f_name f = NameOne s /\ s <> "pdf"%string) ->
  List.length pos = 1%nat -> exists prob x, pos = [x] /\ apply_file m f pos = map_point m prob false c v x.
Proof.
  intros Ht Hc (s & Hs & Hn) Hp. destruct pos as [|x [|? ?]]; try discriminate. clear Hp.
  unfold apply_file. rewrite Ht. unfold apply_points. rewrite Hc, Hs.
  destruct (String.eqb_spec s "cdf") as [->|N]; [exists true, x; split; reflexivity|exists false, x; split; [reflexivity|]].
  destruct s as [|a s]; [reflexivity|].
  destruct a as [[] [] [] [] [] [] [] []]; try reflexivity; destruct s as [|a s]; try reflexivity;
  destruct a as [[] [] [] [] [] [] [] []]; try reflexivity; destruct s as [|a s]; try reflexivity;
  destruct a as [[] [] [] [] [] [] [] []]; try reflexivity; destruct s as [|a s]; try reflexivity; congruence.
Qed.

Lemma constant_points f kc kv c v w val : f_type f = TypeOne "point" -> f_content f = Points (decs kc c) (decs kv v) ->
  (exists s, f_name f = NameOne s /\ s <> "pdf"%string) ->
  table_ok c v = true -> forallb (Z.eqb w) v = true -> dec kv w = val -> everywhere f val.
Proof.
  intros Ht Hc Hs Hok Hw <- m pos Hm Hp. assert (Hp' : List.length pos = 1%nat) by (unfold axes in Hp; destruct Hs as (s & Es & _); rewrite Es in Hp; exact Hp).
  destruct (points_apply m f _ _ pos Ht Hc Hs Hp') as (prob & x & _ & ->). apply table_constant_any; assumption.
Qed.

(** The values of the constant maps. *)
Theorem C115_constant :
  everywhere file_elife 12000 /\ everywhere file_posrec_reso (/ 10) /\
  everywhere file_s1_bias 0 /\ everywhere file_s2_bias 0 /\
  everywhere file_s1_cut_acc 1 /\ everywhere file_s2_cut_acc 1 /\
  everywhere file_efield_map 23 /\ everywhere file_gas_gain_relative 1 /\
  everywhere file_s1_correction 1 /\ everywhere file_s2_correction 1.
Proof.
  repeat split.
  - eapply (constant_points _ 1 0 file_elife_c file_elife_v 12000); try reflexivity; [eexists; split; [reflexivity|discriminate]|dec_value].
  - eapply (constant_points _ 0 1 file_posrec_reso_c file_posrec_reso_v 1); try reflexivity; [eexists; split; [reflexivity|discriminate]|dec_value].
  - eapply (constant_points _ 0 0 file_s1_bias_c file_s1_bias_v 0); try reflexivity; [eexists; split; [reflexivity|discriminate]|dec_value].
  - eapply (constant_points _ 0 0 file_s2_bias_c file_s2_bias_v 0); try reflexivity; [eexists; split; [reflexivity|discriminate]|dec_value].
  - eapply (constant_points _ 0 0 file_s1_cut_acc_c file_s1_cut_acc_v 1); try reflexivity; [eexists; split; [reflexivity|discriminate]|dec_value].
  - eapply (constant_points _ 0 0 file_s2_cut_acc_c file_s2_cut_acc_v 1); try reflexivity; [eexists; split; [reflexivity|discriminate]|dec_value].
  - intros m pos Hm Hp. two_numbers pos. replace 23 with (dec 0 23) by dec_value. apply constant_2d; try exact Hm; try lia; try (apply dec_lt; lia).
    apply look2_constant; try lia; reflexivity.
  - intros m pos Hm Hp. two_numbers pos. replace 1 with (dec 0 1) by dec_value. apply constant_2d; try exact Hm; try lia; try (apply dec_lt; lia).
    apply look2_constant; try lia; reflexivity.
  - intros m pos Hm Hp. three_numbers pos. replace 1 with (dec 0 1) by dec_value. apply constant_3d; try exact Hm; try lia; try (apply dec_lt; lia).
    apply look3_constant; try lia; reflexivity.
  - intros m pos Hm Hp. two_numbers pos. replace 1 with (dec 0 1) by dec_value. apply constant_2d; try exact Hm; try lia; try (apply dec_lt; lia).
    apply look2_constant; try lia; reflexivity.
Qed.

(** The efficiency of a threefold coincidence; "NN" is the method of the plugin. *)
Theorem C115_threefold : forall x,
  (x <= 5 / 2 -> apply_file NN file_recon_eff_3fold [x] = Ok 0) /\
  (5 / 2 < x -> apply_file NN file_recon_eff_3fold [x] = Ok 1) /\
  forall m, a_curve m ->
    (x <= 2 -> apply_file m file_recon_eff_3fold [x] = Ok 0) /\ (3 <= x -> apply_file m file_recon_eff_3fold [x] = Ok 1) /\
    (2 <= x <= 3 -> apply_file m file_recon_eff_3fold [x] = Ok (x - 2)).
Proof.
  assert (P : forall m x, apply_file m file_recon_eff_3fold [x] = map_point m false false (decs 0 file_recon_eff_3fold_c) (decs 0 file_recon_eff_3fold_v) x) by reflexivity.
  intros x. rewrite P. split; [|split].
  - intros H. destruct (table_nearest false 0 0 file_recon_eff_3fold_c file_recon_eff_3fold_v x eq_refl) as (k & E & Hk & A & B). rewrite E. f_equal.
    change (List.length file_recon_eff_3fold_c) with 6%nat in *.
    do 3 (destruct k as [|k]; [cbn [nth file_recon_eff_3fold_v]; dec_value|]). exfalso.
    specialize (B 2%nat ltac:(lia)). revert B. unfold file_recon_eff_3fold_c.
    assert (Hk' : (k = 0 \/ k = 1 \/ k = 2)%nat) by lia. destruct Hk' as [->|[->| ->]]; cbn [nth]; unfold dec; cbn [Z.of_nat Z.pow];
      unfold Rabs; repeat destruct Rcase_abs; lra.
  - intros H. destruct (table_nearest false 0 0 file_recon_eff_3fold_c file_recon_eff_3fold_v x eq_refl) as (k & E & Hk & A & B). rewrite E. f_equal.
    change (List.length file_recon_eff_3fold_c) with 6%nat in *.
    specialize (A 3%nat ltac:(lia)). revert A. unfold file_recon_eff_3fold_c.
    assert (Hk' : (k = 0 \/ k = 1 \/ k = 2 \/ k = 3 \/ k = 4 \/ k = 5)%nat) by lia.
    destruct Hk' as [->|[->|[->|[->|[->| ->]]]]]; cbn [nth file_recon_eff_3fold_v]; unfold dec; cbn [Z.of_nat Z.pow];
      unfold Rabs; repeat destruct Rcase_abs; lra.
  - intros m Hm. rewrite P.
    destruct (table_facts 0 0 file_recon_eff_3fold_c file_recon_eff_3fold_v eq_refl) as (F1 & F2 & F3).
    split; [|split]; intros H.
    + replace 0 with (dec 0 0) by dec_value. apply (table_prefix m false 0 0 file_recon_eff_3fold_c file_recon_eff_3fold_v Hm eq_refl 2 0); [cbn; lia| |cbn [nth file_recon_eff_3fold_c]; unfold dec; cbn [Z.of_nat Z.pow]; lra].
      intros i Hi. assert (Hi' : (i = 0 \/ i = 1 \/ i = 2)%nat) by lia. destruct Hi' as [->|[->| ->]]; reflexivity.
    + destruct (table_from m false 0 0 file_recon_eff_3fold_c file_recon_eff_3fold_v 3 1 1 Hm eq_refl ltac:(cbn; lia) eq_refl x) as (y & E & Hy).
      { cbn [nth file_recon_eff_3fold_c]; unfold dec; cbn [Z.of_nat Z.pow]; lra. }
      rewrite E. f_equal. revert Hy. unfold dec. cbn [Z.of_nat Z.pow]. lra.
    + destruct (PropInterp.C33_linear m false _ (decs 0 file_recon_eff_3fold_v) x Hm F3 F1) as (_ & _ & L). rewrite (L 2%nat).
      * f_equal. unfold line, ent, decs. cbn [map nth file_recon_eff_3fold_c file_recon_eff_3fold_v]. unfold dec. cbn [Z.of_nat Z.pow]. field.
      * cbn; lia.
      * unfold ent, decs. cbn [map nth file_recon_eff_3fold_c]. unfold dec. cbn [Z.of_nat Z.pow]. lra.
Qed.


Ltac decn k := unfold dec; let p := eval vm_compute in (10 ^ Z.of_nat k)%Z in change (10 ^ Z.of_nat k)%Z with p.

(** The spectrum: a rising function from the unit interval onto the energies between its ends. *)
Theorem C115_spectrum : forall m, a_curve m ->
  (forall u, exists E, apply_file m file_nr_spectrum [u] = Ok E /\ 29 / 100 < E <= 4) /\
  (forall u u' E E', u <= u' -> apply_file m file_nr_spectrum [u] = Ok E -> apply_file m file_nr_spectrum [u'] = Ok E' -> E <= E') /\
  (exists E, apply_file m file_nr_spectrum [0] = Ok E /\ Rabs (E - 3 / 10) < / 10 ^ 15) /\
  apply_file m file_nr_spectrum [1] = Ok 4.
Proof.
  intros m Hm.
  assert (P : forall x, apply_file m file_nr_spectrum [x] = map_point m true false (decs 18 file_nr_spectrum_c) (decs 17 file_nr_spectrum_v) x) by reflexivity.
  split; [|split; [|split]].
  - intros u. rewrite P.
    destruct (table_within m true 18 17 file_nr_spectrum_c file_nr_spectrum_v Hm eq_refl 29999999999999993 400000000000000000 eq_refl u) as (E & Q & B).
    exists E. split; [exact Q|]. revert B. decn 17%nat. lra.
  - intros u u' E E' L. rewrite !P. apply (table_rising m true 18 17 file_nr_spectrum_c file_nr_spectrum_v Hm eq_refl eq_refl u u' E E' L).
  - eexists. split.
    + rewrite P. replace 0 with (dec 18 (nth 0 file_nr_spectrum_c 0%Z)) by apply dec_0. apply (table_node m true 18 17 file_nr_spectrum_c file_nr_spectrum_v Hm eq_refl 0). cbn. lia.
    + change (nth 0 file_nr_spectrum_v 0%Z) with 29999999999999993%Z. decn 17%nat. unfold Rabs. destruct Rcase_abs; lra.
  - rewrite P. replace 1 with (dec 18 (nth 200 file_nr_spectrum_c 0%Z)).
    + rewrite (table_node m true 18 17 file_nr_spectrum_c file_nr_spectrum_v Hm eq_refl 200) by (vm_compute; lia). f_equal.
      change (nth 200 file_nr_spectrum_v 0%Z) with 400000000000000000%Z. decn 17%nat. lra.
    + change (nth 200 file_nr_spectrum_c 0%Z) with 1000000000000000000%Z. decn 18%nat. lra.
Qed.

(** The yields of nuclear recoils: nothing up to 0.199 keV; positive from 0.219 keV on. *)
Theorem C115_yields : forall m E, a_curve m ->
  exists l q, apply_file m file_nr_ly [E] = Ok l /\ apply_file m file_nr_qy [E] = Ok q /\
    0 <= l <= 8.66 /\ 0 <= q <= 6.35 /\
    (E <= 0.199 -> l = 0 /\ q = 0) /\ (0.219 <= E -> 2.4 < l /\ 2.3 < q).
Proof.
  intros m E Hm.
  assert (P : apply_file m file_nr_ly [E] = map_point m false false (decs 17 file_nr_ly_c) (decs 16 file_nr_ly_v) E) by reflexivity.
  assert (P' : apply_file m file_nr_qy [E] = map_point m false false (decs 17 file_nr_qy_c) (decs 16 file_nr_qy_v) E) by reflexivity.
  rewrite P, P'.
  destruct (table_within m false 17 16 file_nr_ly_c file_nr_ly_v Hm eq_refl 0 86556501748245190 eq_refl E) as (l & L & BL).
  destruct (table_within m false 17 16 file_nr_qy_c file_nr_qy_v Hm eq_refl 0 63457171781040530 eq_refl E) as (q & Q & BQ).
  exists l, q. split; [exact L|]. split; [exact Q|].
  split; [revert BL; decn 16%nat; lra|]. split; [revert BQ; decn 16%nat; lra|]. split.
  - intros H. split.
    + rewrite (table_prefix m false 17 16 file_nr_ly_c file_nr_ly_v Hm eq_refl 5 0) in L.
      * injection L as <-. apply dec_0.
      * vm_compute; lia.
      * intros i Hi. do 6 (destruct i as [|i]; [reflexivity|]). lia.
      * change (nth 5 file_nr_ly_c 0%Z) with 19900000000000000%Z. decn 17%nat. lra.
    + rewrite (table_prefix m false 17 16 file_nr_qy_c file_nr_qy_v Hm eq_refl 5 0) in Q.
      * injection Q as <-. apply dec_0.
      * vm_compute; lia.
      * intros i Hi. do 6 (destruct i as [|i]; [reflexivity|]). lia.
      * change (nth 5 file_nr_qy_c 0%Z) with 19900000000000000%Z. decn 17%nat. lra.
  - intros H. split.
    + destruct (table_from m false 17 16 file_nr_ly_c file_nr_ly_v 6 24514653126076977 86556501748245190 Hm eq_refl) with (x := E) as (y & Y & B).
      * vm_compute; lia.
      * reflexivity.
      * change (nth 6 file_nr_ly_c 0%Z) with 21880000000000002%Z. decn 17%nat. lra.
      * rewrite L in Y. injection Y as <-. revert B. decn 16%nat. lra.
    + destruct (table_from m false 17 16 file_nr_qy_c file_nr_qy_v 6 23996988343171440 63457171781040530 Hm eq_refl) with (x := E) as (y & Y & B).
      * vm_compute; lia.
      * reflexivity.
      * change (nth 6 file_nr_qy_c 0%Z) with 21880000000000002%Z. decn 17%nat. lra.
      * rewrite Q in Y. injection Y as <-. revert B. decn 16%nat. lra.
Qed.

(** Every energy of the shipped spectrum lies where both yields are positive. *)
Theorem C115_spectrum_yields : forall m m' u, a_curve m -> a_curve m' ->
  exists E l q, apply_file m file_nr_spectrum [u] = Ok E /\ apply_file m' file_nr_ly [E] = Ok l /\ apply_file m' file_nr_qy [E] = Ok q /\
    0 < l /\ 0 < q.
Proof.
  intros m m' u Hm Hm'. destruct (C115_spectrum m Hm) as (A & _). destruct (A u) as (E & HE & B).
  destruct (C115_yields m' E Hm') as (l & q & L & Q & _ & _ & _ & H). exists E, l, q. repeat (split; [assumption|]).
  assert (H' : 0.219 <= E) by lra. specialize (H H'). lra.
Qed.

(** The smearings: positive, and smaller for larger signals. *)
Theorem C115_smearing : forall m, a_curve m ->
  (forall x, exists s, apply_file m file_s1_smearing [x] = Ok s /\ 0.04 <= s <= 0.231) /\
  (forall x, exists s, apply_file m file_s2_smearing [x] = Ok s /\ 0.006 <= s <= 0.0425) /\
  (forall f x x' s s', f = file_s1_smearing \/ f = file_s2_smearing -> x <= x' ->
     apply_file m f [x] = Ok s -> apply_file m f [x'] = Ok s' -> s' <= s).
Proof.
  intros m Hm.
  assert (P : forall x, apply_file m file_s1_smearing [x] = map_point m false false (decs 0 file_s1_smearing_c) (decs 18 file_s1_smearing_v) x) by reflexivity.
  assert (P' : forall x, apply_file m file_s2_smearing [x] = map_point m false false (decs 14 file_s2_smearing_c) (decs 19 file_s2_smearing_v) x) by reflexivity.
  split; [|split].
  - intros x. rewrite P. destruct (table_within m false 0 18 file_s1_smearing_c file_s1_smearing_v Hm eq_refl 40000000000000000 231000000000000000 eq_refl x) as (s & S1 & B).
    exists s. split; [exact S1|]. revert B. decn 18%nat. lra.
  - intros x. rewrite P'. destruct (table_within m false 14 19 file_s2_smearing_c file_s2_smearing_v Hm eq_refl 60000000000000000 425000000000000000 eq_refl x) as (s & S1 & B).
    exists s. split; [exact S1|]. revert B. decn 19%nat. lra.
  - intros f x x' s s' [-> | ->] L.
    + rewrite !P. apply (table_falling m false 0 18 file_s1_smearing_c file_s1_smearing_v Hm eq_refl); [reflexivity|exact L].
    + rewrite !P'. apply (table_falling m false 14 19 file_s2_smearing_c file_s2_smearing_v Hm eq_refl); [reflexivity|exact L].
Qed.

(** ** Every map is there and usable *)
Lemma everywhere_usable f v : everywhere f v -> usable f.
Proof. intros H m pos Hm Hp. exists v. apply H; assumption. Qed.
Lemma table_usable f kc kv c v : f_type f = TypeOne "point" -> f_content f = Points (decs kc c) (decs kv v) ->
  (exists s, f_name f = NameOne s /\ s <> "pdf"%string) -> table_ok c v = true -> usable f.
Proof.
  intros Ht Hc Hs Hok m pos Hm Hp. assert (Hp' : List.length pos = 1%nat) by (unfold axes in Hp; destruct Hs as (s & Es & _); rewrite Es in Hp; exact Hp).
  destruct (points_apply m f _ _ pos Ht Hc Hs Hp') as (prob & x & _ & ->).
  destruct (table_facts kc kv c v Hok) as (A & B & D). destruct Hm as [Hm|[Hm|Hm]].
  - destruct (PropInterp.C33_bounded m prob (decs kc c) (decs kv v) x (or_introl Hm) D B A) as (y & -> & _). eauto.
  - destruct (PropInterp.C33_bounded m prob (decs kc c) (decs kv v) x (or_intror Hm) D B A) as (y & -> & _). eauto.
  - subst m. destruct (table_nearest prob kc kv c v x Hok) as (k & -> & _). eauto.
Qed.

Theorem C115_usable : forall s f, get s shipped_maps = Some f -> usable f.
Proof.
  intros s f H. apply get_In in H. destruct C115_constant as (A1 & A2 & A3 & A4 & A5 & A6 & A7 & A8 & A9 & A10).
  unfold shipped_maps in H. cbn [In] in H.
  repeat (destruct H as [H|H]; [injection H as <- <-|]); [..|destruct H];
    try (eapply everywhere_usable; eassumption);
    (eapply table_usable; [reflexivity|reflexivity|eexists; split; [reflexivity|discriminate]|reflexivity]).
Qed.

(** Every file that a config of a shipped plugin names by default is shipped. *)
Theorem C115_named : forall n p c cf s, get n published_classes = Some p -> get c (p_configs p) = Some cf -> In s (files_of cf) ->
  exists f, get s shipped_maps = Some f /\ usable f.
Proof.
  intros n p c cf s Hn Hc Hs.
  assert (T : forallb (fun np => forallb (fun nc => forallb (fun s => match get s shipped_maps with Some _ => true | None => false end)
                (files_of (snd nc))) (p_configs (snd np))) published_classes = true) by (vm_compute; reflexivity).
  apply get_In in Hn, Hc. rewrite forallb_forall in T. specialize (T _ Hn). cbn [snd] in T. rewrite forallb_forall in T. specialize (T _ Hc).
  cbn [snd] in T. rewrite forallb_forall in T. specialize (T _ Hs). destruct (get s shipped_maps) as [f|] eqn:E; [|discriminate].
  exists f. split; [reflexivity|exact (C115_usable s f E)].
Qed.

(** Every JSON file that the configs of a shipped instruction name is shipped. *)
Definition ends_json (s : string) : bool := String.eqb (substring (String.length s - 5) 5 s) ".json".
Lemma substring_after p q : substring (String.length p) (String.length q) (p ++ q) = q.
Proof. induction p as [|a p IH]; [|exact IH]. cbn [append String.length]. induction q as [|b q IHq]; [reflexivity|]. cbn. f_equal. exact IHq. Qed.
Lemma length_app p q : String.length (p ++ q) = (String.length p + String.length q)%nat.
Proof. induction p as [|a p IH]; [reflexivity|]. cbn. f_equal. exact IH. Qed.
Lemma ends_json_names s : names_json s -> ends_json s = true.
Proof.
  intros (p & ->). unfold ends_json. rewrite length_app. change (String.length ".json") with 5%nat.
  replace (String.length p + 5 - 5)%nat with (String.length p) by lia. change 5%nat with (String.length ".json") at 1.
  rewrite substring_after. reflexivity.
Qed.
Theorem C115_instructs : forall i ps c v s, In (i, ps) shipped_instructs -> get c (in_configs i) = Some v -> In s (strings v) -> names_json s ->
  exists f, get s shipped_maps = Some f /\ usable f.
Proof.
  intros i ps c v s Hi Hc Hs Hj.
  assert (T : forallb (fun ip => forallb (fun cv => forallb (fun s => if ends_json s then match get s shipped_maps with Some _ => true | None => false end else true)
                (strings (snd cv))) (in_configs (fst ip))) shipped_instructs = true) by (vm_compute; reflexivity).
  apply get_In in Hc. rewrite forallb_forall in T. specialize (T _ Hi). cbn [fst] in T. rewrite forallb_forall in T. specialize (T _ Hc).
  cbn [snd] in T. rewrite forallb_forall in T. specialize (T _ Hs). rewrite (ends_json_names s Hj) in T.
  destruct (get s shipped_maps) as [f|] eqn:E; [|discriminate].
  exists f. split; [reflexivity|exact (C115_usable s f E)].
Qed.

(** ** What the shipped maps mean for the simulated events *)
Lemma at1_value m f r v : apply_file m f [r] = Ok v -> at1 m f (Fin r) = Fin v.
Proof. intros H. unfold at1. rewrite H. reflexivity. Qed.
Lemma at2_everywhere m f a b v : everywhere f v -> axes f = 2%nat -> a_method m -> at2 m f (Fin a) (Fin b) = Fin v.
Proof. intros H A M. unfold at2. rewrite H by (assumption || (rewrite A; reflexivity)). reflexivity. Qed.
Lemma at3_everywhere m f a b c v : everywhere f v -> axes f = 3%nat -> a_method m -> at3 m f (Fin a) (Fin b) (Fin c) = Fin v.
Proof. intros H A M. unfold at3. rewrite H by (assumption || (rewrite A; reflexivity)). reflexivity. Qed.

(** The field is 23 V/cm at every place. *)
Theorem C115_field : forall m field x y z k e, a_method m -> finite (x e) -> finite (y e) -> finite (z e) ->
  result (EField true (at2 m file_efield_map) field x y z) k e = Fin 23.
Proof.
  intros m field x y z k e Hm (a & Ha) (b & Hb) (c & Hc). unfold EField. ret_result. cbv beta. rewrite Ha, Hb, Hc. farith.
  rewrite fsqrt_Fin by nra. apply at2_everywhere; [apply C115_constant|reflexivity|exact Hm].
Qed.

(** The corrections do nothing: cS1 is S1, and cS2 is S2 corrected for the drift alone. *)
Definition corrected_s1 (m : fl -> fl -> fl -> fl) (s1 x y z : arr fl) : M (arr fl) :=
  c <- S1Correction m x y z;; cS1 s1 c.
Definition corrected_s2 (m : fl -> fl -> fl) (s2 p x y : arr fl) : M (arr fl) :=
  c <- S2Correction m x y;; cS2 s2 c p.
Theorem C115_corrections : forall m s1 s2 p x y z k e, a_method m -> finite (x e) -> finite (y e) -> finite (z e) ->
  finite (s1 e) -> finite (s2 e) ->
  result (corrected_s1 (at3 m file_s1_correction) s1 x y z) k e = s1 e /\
  result (corrected_s2 (at2 m file_s2_correction) s2 p x y) k e = fdiv (s2 e) (p e).
Proof.
  intros m s1 s2 p x y z k e Hm (a & Ha) (b & Hb) (c & Hc) (u & Hu) (w & Hw).
  unfold corrected_s1, corrected_s2, S1Correction, S2Correction, cS1, cS2. rewrite !bind_result. repeat ret_result. cbv beta.
  rewrite Ha, Hb, Hc, Hu, Hw.
  rewrite (at3_everywhere m file_s1_correction a b c 1); [|apply C115_constant|reflexivity|exact Hm].
  rewrite (at2_everywhere m file_s2_correction a b 1); [|apply C115_constant|reflexivity|exact Hm].
  rewrite !fdiv_Fin by lra. replace (u / 1) with u by field. replace (w / 1) with w by field. split; reflexivity.
Qed.

(** An event is accepted if its S2 exceeds the threshold and at least three photons were detected. The
    three parameters of the bands of the efficiencies, given or not, have no influence. *)
Theorem C115_efficiency : forall t s_recon s_cut1 s_cut2 phd s1 s2 k e A B, s1 e = Fin A -> s2 e = Fin B ->
  let f3 := file_recon_eff_3fold in let f1 := file_s1_cut_acc in let f2 := file_s2_cut_acc in
  result (eff_chain (Fin t) (sigma_at NN f3 f3 f3 s_recon) (sigma_at LERP f1 f1 f1 s_cut1) (sigma_at LERP f2 f2 f2 s_cut2) phd s1 s2) k e =
  if Rlt_dec t B then if Z.leb 3 (phd e) then Fin 1 else Fin 0 else Fin 0.
Proof.
  intros t sr sc1 sc2 phd s1 s2 k e A B HA HB f3 f1 f2.
  assert (SA : forall s v, sigma_apply s v v v = v) by (intros s v; unfold sigma_apply; destruct (Rlt_dec _ _); ring).
  set (a := if Z.leb 3 (phd e) then 1 else 0).
  rewrite (C44_product t _ _ _ phd s1 s2 k e B a 1 1 HB).
  - destruct (Rlt_dec t B); [|reflexivity]. unfold a. destruct (Z.leb 3 (phd e)); f_equal; unfold Rmin, Rmax; repeat destruct (Rle_dec _ _); lra.
  - unfold of_int, sigma_at, f3. destruct (C115_threefold (IZR (phd e))) as (L & H & _).
    assert (Q : apply_file NN file_recon_eff_3fold [IZR (phd e)] = Ok a).
    { unfold a. destruct (Z.leb_spec 3 (phd e)) as [G|G].
      - apply H. apply IZR_le in G. lra.
      - apply L. assert (G' : (phd e <= 2)%Z) by lia. apply IZR_le in G'. lra. }
    rewrite !(at1_value _ _ _ _ Q), SA. reflexivity.
  - rewrite HA. unfold sigma_at, f1. rewrite !(at1_value LERP file_s1_cut_acc A 1), SA; [reflexivity|].
    apply C115_constant; [right; left; reflexivity|reflexivity].
  - rewrite HB. unfold sigma_at, f2. rewrite !(at1_value LERP file_s2_cut_acc B 1), SA; [reflexivity|].
    apply C115_constant; [right; left; reflexivity|reflexivity].
Qed.

(** The electron lifetime does not fluctuate: 12000 ns, scaled by the parameter. *)
Theorem C115_lifetime : forall o m v sigma z k e Z, lawful o -> a_method m -> 0 < v -> -1 < sigma -> z e = Fin Z ->
  result (DriftLoss o (at1 m file_elife) (Fin v) (Fin sigma) z) k e = Fin (exp (- (Rabs Z / (v * (12000 * (1 + sigma)))))).
Proof.
  intros o m v sigma z k e Z L Hm Hv Hs HZ.
  destruct (C62_drift o (at1 m file_elife) v sigma z k e Z (fun _ => 12000) L Hv) as (p & x & _ & E & _ & Ex); [|exact HZ|].
  - intros p Hp. split; [|lra]. apply at1_value. apply C115_constant; [exact Hm|reflexivity].
  - rewrite E, Ex. reflexivity.
Qed.

Lemma clip_pos_id r : 0 <= r -> clip_pos (Fin r) = Fin r.
Proof. intros H. rewrite clip_pos_Fin. f_equal. apply Rmax_left. exact H. Qed.
(** The energies of nuclear recoils: between 0.29 and 4 keV, each with positive yields, so long as the
    parameters of the yields are not below -1. *)
Theorem C115_recoils : forall o k e t, lawful o -> -1 < t ->
  exists E, result (FixedEnergySpectra o (at1 LERP file_nr_spectrum)) k e = Fin E /\ 29 / 100 < E <= 4 /\
    (forall energy k', energy e = Fin E ->
       (exists l, result (LightYield (at1 LERP file_nr_ly) (Fin t) energy) k' e = Fin l /\ 0 < l) /\
       (exists q, result (ChargeYield (at1 LERP file_nr_qy) (Fin t) energy) k' e = Fin q /\ 0 < q)).
Proof.
  intros o k e t L Ht. destruct (C115_spectrum LERP (or_intror eq_refl)) as (A & _).
  unfold FixedEnergySpectra. rewrite bind_result. ret_result. cbv beta.
  rewrite (uniform_value o (fun _ => Fin 0) (fun _ => Fin 1) k e 0 1 L eq_refl eq_refl ltac:(lra)).
  set (u := _ * _ + _). destruct (A u) as (E & HE & B). exists E. split; [apply at1_value, HE|]. split; [exact B|].
  intros energy k' He. destruct (C115_yields LERP E (or_intror eq_refl)) as (l & q & Hl & Hq & _ & _ & _ & P).
  specialize (P ltac:(lra)). unfold LightYield, ChargeYield. split.
  - exists (l * (1 + t)). ret_result. cbv beta. rewrite He, (at1_value _ _ _ _ Hl). farith. split; [apply clip_pos_id; nra|nra].
  - exists (q * (1 + t)). ret_result. cbv beta. rewrite He, (at1_value _ _ _ _ Hq). farith. split; [apply clip_pos_id; nra|nra].
Qed.

(** ** Cases *)
Example C115_case_yield : apply_file LERP file_nr_ly [0.1] = Ok 0.
Proof. destruct (C115_yields LERP 0.1 (or_intror eq_refl)) as (l & q & L & _ & _ & _ & Z & _). rewrite L. f_equal. apply Z. lra. Qed.
Example C115_case_efficiency : result (eff_chain (Fin 200) (sigma_at NN file_recon_eff_3fold file_recon_eff_3fold file_recon_eff_3fold (Some 2))
    (sigma_at LERP file_s1_cut_acc file_s1_cut_acc file_s1_cut_acc (Some (-1)))
    (sigma_at LERP file_s2_cut_acc file_s2_cut_acc file_s2_cut_acc None) (fun e => Z.of_nat e) (fun _ => Fin 4) (fun _ => Fin 300)) [] 2%nat = Fin 0.
Proof. rewrite (C115_efficiency 200 _ _ _ _ _ _ _ _ 4 300) by reflexivity. destruct (Rlt_dec 200 300); [reflexivity|lra]. Qed.
Example C115_case_lifetime : result (DriftLoss toy (at1 IDW file_elife) (Fin 1) (Fin 0) (fun _ => Fin (-12000))) [] 0%nat = Fin (exp (-1)).
Proof.
  rewrite (C115_lifetime toy IDW 1 0 _ [] 0%nat (-12000) toy_lawful (or_introl eq_refl)) by (reflexivity || lra).
  f_equal. f_equal. rewrite Rabs_left by lra. field.
Qed.
Example C115_case_named : files_of (snd (cf_sigma "s1_eff_3f" (VStr "_3fold_recon_eff.json"))) = ["_3fold_recon_eff.json"%string].
Proof. reflexivity. Qed.
Example C115_case_instructs : exists f, get "_nr_qy.json" shipped_maps = Some f /\ usable f.
Proof.
  apply (C115_instructs neutron_low neutron_low_parameters "qy_median" (VStr "_nr_qy.json")); [cbn; tauto|reflexivity|left; reflexivity|exists "_nr_qy"%string; reflexivity].
Qed.

Print Assumptions C115_constant.
Print Assumptions C115_threefold.
Print Assumptions C115_spectrum.
Print Assumptions C115_yields.
Print Assumptions C115_spectrum_yields.
Print Assumptions C115_smearing.
Print Assumptions C115_usable.
Print Assumptions C115_named.
Print Assumptions C115_instructs.
Print Assumptions C115_field.
Print Assumptions C115_corrections.
Print Assumptions C115_efficiency.
Print Assumptions C115_lifetime.
Print Assumptions C115_recoils.
