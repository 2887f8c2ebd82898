(** Properties of the literature likelihood: C78 (twohalfnorm, norm), C79 (band). *)
From Coq Require Import Reals Lra Lia Sorted Permutation.
From Verif Require Import Base BaseFacts ModelFloat ModelTwoHalf ModelInterp ModelLikelihood SpecLikelihood
  SpecInterp ModelLit SpecLit ProofFloat ProofLikelihood ProofLikelihood2 ProofLikelihood3 ProofInterp
  ProofParameter ProofLit.
Local Open Scope R_scope.
Local Open Scope string_scope.

(* ------------------------------------------------------------------ *)
(** * The run of one likelihood *)

Section Run.
  Context {K : Type} (alias : dict string) (name : string) (sim : simulate_fun K) (key : K) (p : params).
  Hypothesis Hsep : separate alias.
  Hypothesis Hnda : NoDup (keys alias).
  Hypothesis Hndp : NoDup (keys p).

  Lemma run_eq L b key' en ys eff : simulates sim alias key p key' en ys eff ->
    lit_log_likelihood L alias [(name, sim)] key b p =
    match logpdf L en ys with
    | Err e => Err e
    | Ok l => match weigh l eff with Err e => Err e | Ok s => Ok (key', s) end
    end.
  Proof.
    intros H. unfold lit_log_likelihood, simulate_yields. rewrite replace_alias_idem by assumption.
    unfold simulates in H. rewrite H. reflexivity.
  Qed.

  Lemma argument_arg n d args v : argument n d args v -> arg n d args = v.
  Proof. unfold arg. intros [->|[-> ->]]; reflexivity. Qed.

  Lemma at_most_only names args : at_most names args -> only names args = true.
  Proof.
    intros H. unfold only. apply forallb_forall. intros [k v] Hk. cbn [fst].
    apply existsb_exists. exists k. split; [|apply String.eqb_refl].
    apply H. unfold keys. apply (in_map fst) in Hk. exact Hk.
  Qed.

  Lemma new_twohalf bins_on args L mus sps sns :
    new_lit "twohalfnorm" bins_on args = Some (Ok L) -> at_most ["mu"; "sigma_pos"; "sigma_neg"] args ->
    argument "mu" [Fin 0] args mus -> argument "sigma_pos" [Fin 1] args sps -> argument "sigma_neg" [Fin 1] args sns ->
    L = mk_lit (DTwoHalf mus sps sns) false.
  Proof.
    intros H Ha Hm Hp Hn. unfold new_lit in H. cbn [existsb String.eqb Ascii.eqb Bool.eqb negb orb] in H.
    destruct (negb (Nat.eqb (List.length bins_on) 2)); [discriminate|].
    rewrite (at_most_only _ _ Ha) in H. rewrite (argument_arg _ _ _ _ Hm), (argument_arg _ _ _ _ Hp), (argument_arg _ _ _ _ Hn) in H.
    cbn [negb] in H. congruence.
  Qed.

  Lemma new_norm bins_on args L locs scales :
    new_lit "norm" bins_on args = Some (Ok L) -> at_most ["loc"; "scale"] args ->
    argument "loc" [Fin 0] args locs -> argument "scale" [Fin 1] args scales ->
    L = mk_lit (DNorm locs scales) false.
  Proof.
    intros H Ha Hm Hp. unfold new_lit in H. cbn [existsb String.eqb Ascii.eqb Bool.eqb negb orb] in H.
    destruct (negb (Nat.eqb (List.length bins_on) 2)); [discriminate|].
    rewrite (at_most_only _ _ Ha) in H. rewrite (argument_arg _ _ _ _ Hm), (argument_arg _ _ _ _ Hp) in H.
    cbn [negb] in H. congruence.
  Qed.

  (** twohalfnorm: the sum over the literature points of efficiency times the logarithm of the
      two-half-normal density at the simulated yield; one simulated event may be compared with many
      points, and arguments may be common to all points. *)
  Theorem C78_twohalf {P} (pts : list P) (m sp sn y e : P -> R) bins_on args L b key' en ys eff mus sps sns :
    new_lit "twohalfnorm" bins_on args = Some (Ok L) -> at_most ["mu"; "sigma_pos"; "sigma_neg"] args ->
    argument "mu" [Fin 0] args mus -> argument "sigma_pos" [Fin 1] args sps -> argument "sigma_neg" [Fin 1] args sns ->
    simulates sim alias key p key' en ys eff ->
    pts <> [] -> gives (fun q => Fin (m q)) pts mus -> gives (fun q => Fin (sp q)) pts sps ->
    gives (fun q => Fin (sn q)) pts sns -> gives (fun q => Fin (y q)) pts ys -> gives (fun q => Fin (e q)) pts eff ->
    some_full pts [mus; sps; sns; ys; eff] ->
    (forall q, In q pts -> 0 < sp q /\ 0 < sn q) ->
    lit_log_likelihood L alias [(name, sim)] key b p
    = Ok (key', Fin (sum_over (fun q => e q * ln (two_half (m q) (sp q) (sn q) (y q))) pts)).
  Proof.
    intros HL Ha Hm Hp Hn Hsim Hne Gm Gp Gn Gy Ge Hfull Hpos.
    rewrite (run_eq L b key' en ys eff Hsim). rewrite (new_twohalf _ _ _ _ _ _ HL Ha Hm Hp Hn).
    unfold logpdf. cbn [l_badargs l_density].
    destruct (twohalf_array_gives pts _ _ _ _ ys mus sps sns Hne Gy Gm Gp Gn) as (l & El & Gl & Ll).
    { intros q Hq. apply flt_Fin. apply Hpos, Hq. }
    { intros q Hq. apply flt_Fin. apply Hpos, Hq. }
    rewrite El.
    rewrite (weigh_Fin pts (fun q => ln (two_half (m q) (sp q) (sn q) (y q))) e l eff Hne); [reflexivity| |exact Ge|].
    - apply (gives_ext pts _ _ l) with (2 := Gl). intros q Hq. apply twohalf_entry_Fin; apply Hpos, Hq.
    - destruct Hfull as (a & Ha' & Hla). cbn [In] in Ha'.
      destruct Ha' as [<-|[<-|[<-|[<-|[<-|[]]]]]]; [left|left|left|left|right; exact Hla]; apply Ll;
        [exists mus|exists sps|exists sns|exists ys]; (split; [cbn [In]; tauto|exact Hla]).
  Qed.

  (** norm: the same with the normal density. *)
  Theorem C78_norm {P} (pts : list P) (m s y e : P -> R) bins_on args L b key' en ys eff locs scales :
    new_lit "norm" bins_on args = Some (Ok L) -> at_most ["loc"; "scale"] args ->
    argument "loc" [Fin 0] args locs -> argument "scale" [Fin 1] args scales ->
    simulates sim alias key p key' en ys eff ->
    pts <> [] -> gives (fun q => Fin (m q)) pts locs -> gives (fun q => Fin (s q)) pts scales ->
    gives (fun q => Fin (y q)) pts ys -> gives (fun q => Fin (e q)) pts eff ->
    some_full pts [locs; scales; ys; eff] ->
    (forall q, In q pts -> 0 < s q) ->
    lit_log_likelihood L alias [(name, sim)] key b p
    = Ok (key', Fin (sum_over (fun q => e q * ln (gauss (m q) (s q) (y q))) pts)).
  Proof.
    intros HL Ha Hm Hp Hsim Hne Gm Gp Gy Ge Hfull Hpos.
    rewrite (run_eq L b key' en ys eff Hsim). rewrite (new_norm _ _ _ _ _ HL Ha Hm Hp).
    unfold logpdf. cbn [l_badargs l_density].
    destruct (norm_array_gives pts _ _ _ ys locs scales Hne Gy Gm Gp) as (l & El & Gl & Ll).
    rewrite El.
    rewrite (weigh_Fin pts (fun q => ln (gauss (m q) (s q) (y q))) e l eff Hne); [reflexivity| |exact Ge|].
    - apply (gives_ext pts _ _ l) with (2 := Gl). intros q Hq. apply norm_entry_Fin; apply Hpos, Hq.
    - destruct Hfull as (a & Ha' & Hla). cbn [In] in Ha'.
      destruct Ha' as [<-|[<-|[<-|[<-|[]]]]]; [left|left|left|right; exact Hla]; apply Ll;
        [exists locs|exists scales|exists ys]; (split; [cbn [In]; tauto|exact Hla]).
  Qed.

  Lemma finite_column_fins l : finite_column (fins l) = Some l.
  Proof. induction l as [|a l IH]; [reflexivity|]. cbn [fins map finite_column]. fold (fins l). rewrite IH. reflexivity. Qed.

  Lemma new_lit_band bins_on args L tx ty tu tl :
    new_lit "band" bins_on args = Some (Ok L) ->
    get "x" args = Some (fins tx) -> get "y" args = Some (fins ty) ->
    get "yerr_upper" args = Some (fins tu) -> get "yerr_lower" args = Some (fins tl) ->
    tx <> [] /\ List.length ty = List.length tx /\ List.length tu = List.length tx /\ List.length tl = List.length tx /\
    L = mk_lit (DBand (mk_band (sorted_table (combine tx ty)) (sorted_table (combine tx tu)) (sorted_table (combine tx tl)))) false.
  Proof.
    intros H Hx Hy Hu Hl. unfold new_lit in H. cbn [existsb String.eqb Ascii.eqb Bool.eqb negb orb] in H.
    destruct (negb (Nat.eqb (List.length bins_on) 2)); [discriminate|].
    destruct (negb (only _ args)); [discriminate|].
    rewrite Hx, Hy, Hu, Hl, !finite_column_fins in H.
    destruct tx as [|t0 tx]; [discriminate|]. unfold new_band, interp1d in H.
    destruct (Nat.eqb (List.length (t0 :: tx)) (List.length ty)) eqn:E1; [|discriminate].
    destruct (Nat.eqb (List.length (t0 :: tx)) (List.length tu)) eqn:E2; [|discriminate].
    destruct (Nat.eqb (List.length (t0 :: tx)) (List.length tl)) eqn:E3; [|discriminate].
    apply Nat.eqb_eq in E1, E2, E3. split; [discriminate|]. split; [congruence|]. split; [congruence|]. split; [congruence|].
    congruence.
  Qed.

  (** band: as for twohalfnorm, with centre and widths read off the polygons through the table. *)
  Theorem C79_value {P} (evs : list P) (x y e mu sp sn : P -> R) bins_on args L b key' en ys eff tx ty tu tl :
    new_lit "band" bins_on args = Some (Ok L) ->
    get "x" args = Some (fins tx) -> get "y" args = Some (fins ty) ->
    get "yerr_upper" args = Some (fins tu) -> get "yerr_lower" args = Some (fins tl) ->
    NoDup tx ->
    simulates sim alias key p key' en ys eff ->
    evs <> [] -> gives (fun q => Fin (x q)) evs en -> gives (fun q => Fin (y q)) evs ys ->
    gives (fun q => Fin (e q)) evs eff -> some_full evs [en; ys; eff] ->
    (forall q, In q evs -> on_curve (combine tx ty) (x q) (mu q) /\ on_curve (combine tx tu) (x q) (sp q) /\
       on_curve (combine tx tl) (x q) (sn q) /\ 0 < sp q /\ 0 < sn q) ->
    lit_log_likelihood L alias [(name, sim)] key b p
    = Ok (key', Fin (sum_over (fun q => e q * ln (two_half (mu q) (sp q) (sn q) (y q))) evs)).
  Proof.
    intros HL Hx Hy Hu Hl Hnd Hsim Hne Gx Gy Ge Hfull Hc.
    destruct (new_lit_band _ _ _ _ _ _ _ HL Hx Hy Hu Hl) as (Htx & L1 & L2 & L3 & ->).
    rewrite (run_eq _ b key' en ys eff Hsim). unfold logpdf. cbn [l_badargs l_density].
    set (bd := mk_band _ _ _).
    assert (V : forall q, In q evs -> interp1d_at (b_y bd) (Fin (x q)) = Fin (mu q) /\
                interp1d_at (b_up bd) (Fin (x q)) = Fin (sp q) /\ interp1d_at (b_lo bd) (Fin (x q)) = Fin (sn q)).
    { intros q Hq. destruct (Hc q Hq) as (C1 & C2 & C3 & _). unfold bd. cbn [b_y b_up b_lo].
      split; [|split]; apply table_at; try assumption; try (apply combine_ne; assumption);
        rewrite combine_fst by assumption; exact Hnd. }
    destruct (band_array_gives evs bd _ _ en ys Hne Gx Gy) as (l & El & Gl & Ll).
    { intros q Hq. destruct (V q Hq) as (_ & -> & _). apply flt_Fin. apply Hc, Hq. }
    { intros q Hq. destruct (V q Hq) as (_ & _ & ->). apply flt_Fin. apply Hc, Hq. }
    rewrite El.
    rewrite (weigh_Fin evs (fun q => ln (two_half (mu q) (sp q) (sn q) (y q))) e l eff Hne); [reflexivity| |exact Ge|].
    - apply (gives_ext evs _ _ l) with (2 := Gl). intros q Hq. destruct (V q Hq) as (-> & -> & ->).
      apply twohalf_entry_Fin; apply Hc, Hq.
    - destruct Hfull as (a & Ha' & Hla). cbn [In] in Ha'.
      destruct Ha' as [<-|[<-|[<-|[]]]]; [left|left|right; exact Hla]; apply Ll;
        [exists en|exists ys]; (split; [cbn [In]; tauto|exact Hla]).
  Qed.

  (** A NaN yield makes the value -inf, whatever the efficiencies. *)
  Theorem C78_nan_yield {P} (pts : list P) (fy : P -> fl) (m sp sn : P -> R) (fe : P -> fl) mus sps sns b key' en ys eff q0 :
    simulates sim alias key p key' en ys eff ->
    gives (fun q => Fin (m q)) pts mus -> gives (fun q => Fin (sp q)) pts sps ->
    gives (fun q => Fin (sn q)) pts sns -> gives fy pts ys -> gives fe pts eff ->
    some_full pts [mus; sps; sns; ys; eff] ->
    (forall q, In q pts -> 0 < sp q /\ 0 < sn q) -> In q0 pts -> fy q0 = NaN ->
    lit_log_likelihood (mk_lit (DTwoHalf mus sps sns) false) alias [(name, sim)] key b p = Ok (key', NInf).
  Proof.
    intros Hsim Gm Gp Gn Gy Ge Hfull Hpos Hq0 Hy0.
    assert (Hne : pts <> []) by (intros ->; destruct Hq0).
    rewrite (run_eq _ b key' en ys eff Hsim). unfold logpdf. cbn [l_badargs l_density].
    destruct (twohalf_array_gives pts _ _ _ _ ys mus sps sns Hne Gy Gm Gp Gn) as (l & El & Gl & Ll).
    { intros q Hq. apply flt_Fin. apply Hpos, Hq. }
    { intros q Hq. apply flt_Fin. apply Hpos, Hq. }
    rewrite El. rewrite (weigh_gives pts _ _ l eff Hne Gl Ge).
    - cbv zeta. rewrite fsum_NaN; [reflexivity|].
      apply in_map_iff. exists q0. split; [|exact Hq0]. rewrite Hy0.
      unfold twohalf_entry. cbn [flt fsub fadd fneg fsqr]. apply fmul_NaN_l.
    - destruct Hfull as (a & Ha' & Hla). cbn [In] in Ha'.
      destruct Ha' as [<-|[<-|[<-|[<-|[<-|[]]]]]]; [left|left|left|left|right; exact Hla]; apply Ll;
        [exists mus|exists sps|exists sns|exists ys]; (split; [cbn [In]; tauto|exact Hla]).
  Qed.

  (** A width of a twohalfnorm point that is not positive is refused with an AssertionError ... *)
  Theorem C78_width_refused mus sps sns b key' en ys eff s :
    simulates sim alias key p key' en ys eff -> In s (sps ++ sns)%list -> (s = NaN \/ fle s (Fin 0) = true) ->
    lit_log_likelihood (mk_lit (DTwoHalf mus sps sns) false) alias [(name, sim)] key b p = Err AssertionError.
  Proof.
    intros Hsim Hi Hs. rewrite (run_eq _ b key' en ys eff Hsim). unfold logpdf. cbn [l_badargs l_density].
    unfold twohalf_array. replace (all_positive sps && all_positive sns)%bool with false; [reflexivity|].
    symmetry. apply Bool.not_true_iff_false. rewrite Bool.andb_true_iff, !all_positive_spec. intros [H1 H2].
    assert (H : flt (Fin 0) s = true) by (apply in_app_or in Hi; destruct Hi as [Hi|Hi]; [apply H1|apply H2]; exact Hi).
    destruct Hs as [->|Hs]; [discriminate|]. destruct s as [r| | |]; try discriminate.
    apply flt_Fin in H. apply fle_Fin in Hs. lra.
  Qed.

  (** ... but a scale of norm that is not positive gives -inf without a word. *)
  Theorem C78_scale_silent {P} (pts : list P) (fy fm fs fe : P -> fl) locs scales b key' en ys eff q0 :
    simulates sim alias key p key' en ys eff ->
    gives fm pts locs -> gives fs pts scales -> gives fy pts ys -> gives fe pts eff ->
    some_full pts [locs; scales; ys; eff] ->
    In q0 pts -> (fs q0 = NaN \/ fle (fs q0) (Fin 0) = true) ->
    lit_log_likelihood (mk_lit (DNorm locs scales) false) alias [(name, sim)] key b p = Ok (key', NInf).
  Proof.
    intros Hsim Gm Gp Gy Ge Hfull Hq0 Hs0.
    assert (Hne : pts <> []) by (intros ->; destruct Hq0).
    rewrite (run_eq _ b key' en ys eff Hsim). unfold logpdf. cbn [l_badargs l_density].
    destruct (norm_array_gives pts _ _ _ ys locs scales Hne Gy Gm Gp) as (l & El & Gl & Ll).
    rewrite El. rewrite (weigh_gives pts _ _ l eff Hne Gl Ge).
    - cbv zeta. rewrite fsum_NaN; [reflexivity|].
      apply in_map_iff. exists q0. split; [|exact Hq0].
      unfold norm_entry. replace (flt (Fin 0) (fs q0)) with false; [apply fmul_NaN_l|].
      symmetry. apply Bool.not_true_iff_false. intros H. destruct Hs0 as [E|E]; [rewrite E in H; discriminate|].
      destruct (fs q0) as [r| | |]; try discriminate. apply flt_Fin in H. apply fle_Fin in E. lra.
    - destruct Hfull as (a & Ha' & Hla). cbn [In] in Ha'.
      destruct Ha' as [<-|[<-|[<-|[<-|[]]]]]; [left|left|left|right; exact Hla]; apply Ll;
        [exists locs|exists scales|exists ys]; (split; [cbn [In]; tauto|exact Hla]).
  Qed.

  (** Arrays that do not fit each other are refused with a ValueError. *)
  Theorem C78_mismatch mus sps sns b key' en ys eff a1 a2 :
    simulates sim alias key p key' en ys eff ->
    (forall s, In s (sps ++ sns)%list -> flt (Fin 0) s = true) ->
    In a1 [mus; sps; sns; ys; eff] -> In a2 [mus; sps; sns; ys; eff] ->
    List.length a1 <> 1%nat -> List.length a2 <> 1%nat -> List.length a1 <> List.length a2 ->
    lit_log_likelihood (mk_lit (DTwoHalf mus sps sns) false) alias [(name, sim)] key b p = Err ValueError.
  Proof.
    intros Hsim Hs H1 H2 L1 L2 L12. rewrite (run_eq _ b key' en ys eff Hsim). unfold logpdf. cbn [l_badargs l_density].
    unfold twohalf_array. replace (all_positive sps && all_positive sns)%bool with true.
    2:{ symmetry. rewrite Bool.andb_true_iff, !all_positive_spec. split; intros s Hi; apply Hs, in_or_app; auto. }
    destruct (broadcast _ _) as [n|e] eqn:E.
    2:{ apply broadcast_err in E. subst e. reflexivity. }
    unfold weigh. destruct (broadcast (List.length (map _ _)) _) as [k|e] eqn:E'.
    2:{ apply broadcast_err in E'. subst e. reflexivity. }
    exfalso. rewrite map_length, seq_length in E'.
    apply broadcast_inv in E. apply broadcast_inv in E'. destruct E as [E1 E2], E' as [E3 E4].
    assert (F : forall a, In a [mus; sps; sns; ys; eff] -> List.length a <> 1%nat -> List.length a = k).
    { intros a Ha Hl. cbn [In] in E2, E4, Ha.
      pose proof (E2 (List.length mus) ltac:(auto)). pose proof (E2 (List.length sps) ltac:(auto)).
      pose proof (E2 (List.length sns) ltac:(auto)). pose proof (E4 (List.length eff) ltac:(auto)).
      destruct Ha as [<-|[<-|[<-|[<-|[<-|[]]]]]]; lia. }
    apply L12. rewrite (F a1), (F a2) by assumption. reflexivity.
  Qed.

  (** band: an event whose energy is outside the table (or NaN) makes the value -inf, whatever its
      efficiency (zero included) and whatever the other events. *)
  Theorem C79_outside {P} (evs : list P) (fx fy fe : P -> fl) bins_on args L b key' en ys eff tx ty tu tl q0 :
    new_lit "band" bins_on args = Some (Ok L) ->
    get "x" args = Some (fins tx) -> get "y" args = Some (fins ty) ->
    get "yerr_upper" args = Some (fins tu) -> get "yerr_lower" args = Some (fins tl) ->
    NoDup tx -> (forall u, In u tu -> 0 < u) -> (forall u, In u tl -> 0 < u) ->
    simulates sim alias key p key' en ys eff ->
    gives fx evs en -> gives fy evs ys -> gives fe evs eff -> some_full evs [en; ys; eff] ->
    (forall q, In q evs -> nonneg_eff (fe q)) ->
    In q0 evs -> (forall v, fx q0 = Fin v -> ~ within tx v) ->
    lit_log_likelihood L alias [(name, sim)] key b p = Ok (key', NInf).
  Proof.
    intros HL Hx Hy Hu Hl Hnd Pu Pl Hsim Gx Gy Ge Hfull He Hq0 Hout.
    assert (Hne : evs <> []) by (intros ->; destruct Hq0).
    destruct (new_lit_band _ _ _ _ _ _ _ HL Hx Hy Hu Hl) as (Htx & L1 & L2 & L3 & ->).
    rewrite (run_eq _ b key' en ys eff Hsim). unfold logpdf. cbn [l_badargs l_density].
    set (bd := mk_band _ _ _).
    destruct (band_array_gives evs bd _ _ en ys Hne Gx Gy) as (l & El & Gl & Ll).
    { intros q Hq. apply (width_positive tx tu (fx q)); try assumption. }
    { intros q Hq. apply (width_positive tx tl (fx q)); try assumption. }
    rewrite El. pose proof (weigh_gives evs _ _ l eff Hne Gl Ge) as W.
    assert (Hpi : ~ In PInf l).
    { apply (logpdf_not_pinf (mk_lit (DBand bd) false) en ys). exact El. }
    cbv beta in W. rewrite W; clear W.
    - cbv zeta. set (terms := map _ evs).
      assert (T0 : In NInf terms \/ In NaN terms).
      { assert (E0 : is_nan (interp1d_at (b_y bd) (fx q0)) = true).
        { unfold bd. cbn [b_y]. rewrite table_outside; [reflexivity|rewrite combine_fst by assumption; exact Hnd|apply combine_ne; assumption|].
          rewrite combine_fst by assumption. exact Hout. }
        destruct (fmul_ninf_eff (fe q0) (He q0 Hq0)) as [E|E]; [left|right];
          apply in_map_iff; exists q0; (split; [rewrite E0; exact E|exact Hq0]). }
      assert (T1 : ~ In PInf terms).
      { intros H. apply in_map_iff in H. destruct H as (q & H & Hq). revert H. apply fmul_eff_not_pinf.
        - intros E. apply Hpi. rewrite <- E. exact (gives_in evs _ l q Gl Hq).
        - left. apply He, Hq. }
      destruct T0 as [T0|T0].
      + destruct (fsum_ninf terms T1 T0) as [-> | ->]; reflexivity.
      + rewrite (fsum_NaN terms T0). reflexivity.
    - destruct Hfull as (a & Ha' & Hla). cbn [In] in Ha'.
      destruct Ha' as [<-|[<-|[<-|[]]]]; [left|left|right; exact Hla]; apply Ll;
        [exists en|exists ys]; (split; [cbn [In]; tauto|exact Hla]).
  Qed.
End Run.

(* ------------------------------------------------------------------ *)
(** * C78: what holds for every density *)

(** The component is asked for exactly one event whatever the batch size: nothing else of it matters. *)
Theorem C78_one_event {K} L alias name name' (sim sim' : simulate_fun K) key b b' p :
  (forall k q, sim k 1%nat q = sim' k 1%nat q) ->
  lit_log_likelihood L alias [(name, sim)] key b p = lit_log_likelihood L alias [(name', sim')] key b' p.
Proof. intros H. unfold lit_log_likelihood, simulate_yields. rewrite H. reflexivity. Qed.

(** The value is never NaN, and never +inf when no efficiency is negative. *)
Theorem C78_never_nan {K} L alias cs (key : K) b p key' v :
  lit_log_likelihood L alias cs key b p = Ok (key', v) -> v <> NaN.
Proof.
  unfold lit_log_likelihood. destruct (simulate_yields _ _ _ _ _) as [[k r]|e]; [|discriminate].
  destruct r as [|en [|ys [|eff [|? ?]]]]; try discriminate. destruct (logpdf L en ys) as [l|e]; [|discriminate].
  destruct (weigh l eff) as [s|e] eqn:E; [|discriminate]. intros H. assert (s = v) by congruence. subst s.
  apply weigh_not_nan with l eff. exact E.
Qed.

Theorem C78_below_infinity {K} L alias name (sim : simulate_fun K) key b p key' v :
  (forall k q k' en ys eff, sim k 1%nat q = Ok (k', [en; ys; eff]) -> forall e, In e eff -> nonneg_eff e) ->
  lit_log_likelihood L alias [(name, sim)] key b p = Ok (key', v) -> v = NInf \/ exists r, v = Fin r.
Proof.
  intros He H. pose proof (C78_never_nan _ _ _ _ _ _ _ _ H) as Hn.
  unfold lit_log_likelihood, simulate_yields in H.
  destruct (sim _ _ _) as [[k r]|e] eqn:Es; [|discriminate].
  destruct r as [|en [|ys [|eff [|? ?]]]]; try discriminate. destruct (logpdf L en ys) as [l|e] eqn:El; [|discriminate].
  destruct (weigh l eff) as [s|e] eqn:E; [|discriminate]. assert (s = v) by congruence. subst s.
  pose proof (weigh_not_pinf l eff v (logpdf_not_pinf _ _ _ _ El) (He _ _ _ _ _ _ Es) E) as Hp.
  destruct v as [r| | |]; [right; eauto|contradiction|left; reflexivity|contradiction].
Qed.

(** Outside a band the energies have no influence. *)
Theorem C78_energies_ignored {K} vt bins_on args L alias name (sim sim' : simulate_fun K) key b p key' en en' ys eff :
  vt <> "band" -> new_lit vt bins_on args = Some (Ok L) ->
  sim key 1%nat (replace_alias alias (replace_alias alias p)) = Ok (key', [en; ys; eff]) ->
  sim' key 1%nat (replace_alias alias (replace_alias alias p)) = Ok (key', [en'; ys; eff]) ->
  lit_log_likelihood L alias [(name, sim)] key b p = lit_log_likelihood L alias [(name, sim')] key b p.
Proof.
  intros Hvt HL H1 H2. unfold lit_log_likelihood, simulate_yields. rewrite H1, H2.
  assert (logpdf L en ys = logpdf L en' ys) as ->; [|reflexivity].
  unfold new_lit in HL. destruct (negb (existsb _ _)) eqn:E; [discriminate|].
  destruct (negb (Nat.eqb _ 2)); [discriminate|].
  destruct (String.eqb vt "twohalfnorm") eqn:E1.
  { assert (HL' : L = mk_lit (DTwoHalf (arg "mu" [Fin 0] args) (arg "sigma_pos" [Fin 1] args)
                               (arg "sigma_neg" [Fin 1] args))
                     (negb (only ["mu"; "sigma_pos"; "sigma_neg"] args))) by congruence. rewrite HL'. reflexivity. }
  destruct (String.eqb vt "norm") eqn:E2.
  { assert (HL' : L = mk_lit (DNorm (arg "loc" [Fin 0] args) (arg "scale" [Fin 1] args))
                     (negb (only ["loc"; "scale"] args))) by congruence. rewrite HL'. reflexivity. }
  exfalso. apply Bool.negb_false_iff in E. cbn [existsb] in E. rewrite E1, E2 in E. cbn [orb] in E.
  rewrite Bool.orb_false_r in E. apply String.eqb_eq in E. contradiction.
Qed.

(** With no negative efficiency the value is largest when the yields are the measured centres, and
    smaller as soon as one point of positive efficiency is off its centre. *)
Theorem C78_best {P} (pts : list P) (m sp sn y e : P -> R) :
  (forall q, In q pts -> 0 < sp q /\ 0 < sn q /\ 0 <= e q) ->
  let value y := sum_over (fun q => e q * ln (two_half (m q) (sp q) (sn q) (y q))) pts in
  value y <= value m /\ ((exists q, In q pts /\ 0 < e q /\ y q <> m q) -> value y < value m).
Proof.
  intros H value.
  assert (Le : forall q, In q pts -> e q * ln (two_half (m q) (sp q) (sn q) (y q)) <= e q * ln (two_half (m q) (sp q) (sn q) (m q))).
  { intros q Hq. destruct (H q Hq) as (H1 & H2 & H3). apply Rmult_le_compat_l; [exact H3|].
    apply two_half_mode; assumption. }
  split; [apply sum_over_le; exact Le|].
  intros (q & Hq & Hqe & Hne). apply sum_over_lt with q; [exact Hq| |exact Le].
  apply Rmult_lt_compat_l; [exact Hqe|]. destruct (H q Hq) as (H1 & H2 & _). apply two_half_mode; assumption.
Qed.

Theorem C78_best_norm {P} (pts : list P) (m s y e : P -> R) :
  (forall q, In q pts -> 0 < s q /\ 0 <= e q) ->
  let value y := sum_over (fun q => e q * ln (gauss (m q) (s q) (y q))) pts in
  value y <= value m /\ ((exists q, In q pts /\ 0 < e q /\ y q <> m q) -> value y < value m).
Proof.
  intros H value.
  assert (Le : forall q, In q pts -> e q * ln (gauss (m q) (s q) (y q)) <= e q * ln (gauss (m q) (s q) (m q))).
  { intros q Hq. destruct (H q Hq) as (H1 & H3). apply Rmult_le_compat_l; [exact H3|].
    apply gauss_mode; assumption. }
  split; [apply sum_over_le; exact Le|].
  intros (q & Hq & Hqe & Hne). apply sum_over_lt with q; [exact Hq| |exact Le].
  apply Rmult_lt_compat_l; [exact Hqe|]. destruct (H q Hq) as (H1 & _). apply gauss_mode; assumption.
Qed.

(** What is refused: another density, a number of observables other than two, a number of
    components other than one, a component that does not give energies, yields and efficiencies,
    and (at the first evaluation only) an argument that the density does not have. *)
Theorem C78_refused :
  (forall vt bins_on args, ~ In vt ["twohalfnorm"; "norm"; "band"] -> new_lit vt bins_on args = Some (Err RuntimeError)) /\
  (forall vt bins_on args, In vt ["twohalfnorm"; "norm"; "band"] -> List.length bins_on <> 2%nat ->
     new_lit vt bins_on args = Some (Err AssertionError)) /\
  (forall K L alias (cs : dict (simulate_fun K)) key b p, List.length cs <> 1%nat ->
     lit_log_likelihood L alias cs key b p = Err AssertionError) /\
  (forall K L alias name (sim : simulate_fun K) key b p key' cols,
     sim key 1%nat (replace_alias alias (replace_alias alias p)) = Ok (key', cols) -> List.length cols <> 3%nat ->
     lit_log_likelihood L alias [(name, sim)] key b p = Err ValueError) /\
  (forall K vt bins_on args alias name (sim : simulate_fun K) key b p key' en ys eff k,
     In (vt, true) [("twohalfnorm", negb (existsb (String.eqb k) ["mu"; "sigma_pos"; "sigma_neg"]));
                    ("norm", negb (existsb (String.eqb k) ["loc"; "scale"]))] ->
     List.length bins_on = 2%nat -> In k (keys args) ->
     sim key 1%nat (replace_alias alias (replace_alias alias p)) = Ok (key', [en; ys; eff]) ->
     exists L, new_lit vt bins_on args = Some (Ok L) /\
       lit_log_likelihood L alias [(name, sim)] key b p = Err TypeError).
Proof.
  split; [|split; [|split; [|split]]].
  - intros vt bo args H. unfold new_lit. replace (existsb _ _) with false; [reflexivity|].
    symmetry. apply Bool.not_true_iff_false. intros E. apply existsb_exists in E. destruct E as (k & Hk & E).
    apply String.eqb_eq in E. subst k. contradiction.
  - intros vt bo args H Hl. unfold new_lit. replace (existsb _ _) with true.
    2:{ symmetry. apply existsb_exists. exists vt. split; [exact H|apply String.eqb_refl]. }
    cbn [negb]. apply Nat.eqb_neq in Hl. rewrite Hl. reflexivity.
  - intros K L alias cs key b p Hl. unfold lit_log_likelihood, simulate_yields.
    destruct cs as [|[? ?] [|? ?]]; [reflexivity|cbn in Hl; lia|reflexivity].
  - intros K L alias name sim key b p key' cols Hs Hl. unfold lit_log_likelihood, simulate_yields. rewrite Hs.
    destruct cols as [|? [|? [|? [|? ?]]]]; try reflexivity. cbn in Hl. lia.
  - intros K vt bo args alias name sim key b p key' en ys eff k Hk Hl Hin Hs.
    assert (Hbad : forall names, negb (existsb (String.eqb k) names) = true -> only names args = false).
    { intros names Hn. apply Bool.not_true_iff_false. intros E. unfold only in E. rewrite forallb_forall in E.
      apply in_map_iff in Hin. destruct Hin as ([k' v] & Ek & Hkv). cbn in Ek. subst k'. specialize (E _ Hkv). cbn [fst] in E.
      rewrite E in Hn. discriminate. }
    cbn [In] in Hk. destruct Hk as [Hk|[Hk|[]]].
    + assert (vt = "twohalfnorm") by congruence. assert (E : negb (existsb (String.eqb k) ["mu"; "sigma_pos"; "sigma_neg"]) = true) by congruence.
      subst vt. unfold new_lit. rewrite Hl. cbn [existsb String.eqb Ascii.eqb Bool.eqb negb orb Nat.eqb].
      eexists. split; [reflexivity|]. unfold lit_log_likelihood, simulate_yields. rewrite Hs. unfold logpdf. cbn [l_badargs].
      rewrite (Hbad _ E). reflexivity.
    + assert (vt = "norm") by congruence. assert (E : negb (existsb (String.eqb k) ["loc"; "scale"]) = true) by congruence.
      subst vt. unfold new_lit. rewrite Hl. cbn [existsb String.eqb Ascii.eqb Bool.eqb negb orb Nat.eqb].
      eexists. split; [reflexivity|]. unfold lit_log_likelihood, simulate_yields. rewrite Hs. unfold logpdf. cbn [l_badargs].
      rewrite (Hbad _ E). reflexivity.
Qed.

(* ------------------------------------------------------------------ *)
(** * C79: the band *)

(** Every energy within the table has a centre and widths. *)
Theorem C79_defined tx ty x : NoDup tx -> List.length ty = List.length tx ->
  (within tx x <-> exists v, on_curve (combine tx ty) x v).
Proof.
  intros Hnd Hl. pose proof (combine_fst tx ty Hl) as E. split.
  - intros H. apply within_on_curve; rewrite E; assumption.
  - intros (v & H). apply on_curve_within in H. rewrite E in H. exact H.
Qed.

(** The order of the rows of the table does not matter. *)
Theorem C79_row_order rows rows' bins_on L L' :
  Permutation rows rows' -> NoDup (map (fun r : R * R * R * R => fst (fst (fst r))) rows) ->
  let args rows := [("x", fins (map (fun r : R * R * R * R => fst (fst (fst r))) rows));
                    ("y", fins (map (fun r => snd (fst (fst r))) rows));
                    ("yerr_upper", fins (map (fun r => snd (fst r)) rows));
                    ("yerr_lower", fins (map snd rows))] in
  new_lit "band" bins_on (args rows) = Some (Ok L) -> new_lit "band" bins_on (args rows') = Some (Ok L') -> L = L'.
Proof.
  intros Hp Hnd args H H'.
  destruct (new_lit_band _ _ _ _ _ _ _ H eq_refl eq_refl eq_refl eq_refl) as (_ & _ & _ & _ & ->).
  destruct (new_lit_band _ _ _ _ _ _ _ H' eq_refl eq_refl eq_refl eq_refl) as (_ & _ & _ & _ & ->).
  assert (C : forall (f g : R * R * R * R -> R) l, combine (map f l) (map g l) = map (fun r => (f r, g r)) l).
  { intros f g l. induction l as [|a l IH]; [reflexivity|]. cbn. rewrite IH. reflexivity. }
  assert (G : forall (f g : R * R * R * R -> R), NoDup (map f rows) ->
    sorted_table (combine (map f rows) (map g rows)) = sorted_table (combine (map f rows') (map g rows'))).
  { intros f g Hf. rewrite !C. apply sorted_table_order; [apply Permutation_map; exact Hp|].
    rewrite map_map. exact Hf. }
  rewrite !(G (fun r => fst (fst (fst r)))) by exact Hnd. reflexivity.
Qed.

(** A table with widths that are not positive is accepted; an event at an energy where the width is
    not positive raises AssertionError. *)
Theorem C79_width_refused {K P} alias name (sim : simulate_fun K) key p (evs : list P) (fx : P -> fl)
    bins_on args L b key' en ys eff tx ty tu tl q0 x0 u :
  separate alias -> NoDup (keys alias) -> NoDup (keys p) ->
  new_lit "band" bins_on args = Some (Ok L) ->
  get "x" args = Some (fins tx) -> get "y" args = Some (fins ty) ->
  get "yerr_upper" args = Some (fins tu) -> get "yerr_lower" args = Some (fins tl) ->
  NoDup tx -> simulates sim alias key p key' en ys eff ->
  gives fx evs en -> In q0 evs -> fx q0 = Fin x0 ->
  on_curve (combine tx tu) x0 u \/ on_curve (combine tx tl) x0 u -> u <= 0 ->
  lit_log_likelihood L alias [(name, sim)] key b p = Err AssertionError.
Proof.
  intros Hsep Hnda Hndp HL Hx Hy Hu Hl Hnd Hsim Gx Hq0 Hx0 Hc Hu0.
  destruct (new_lit_band _ _ _ _ _ _ _ HL Hx Hy Hu Hl) as (Htx & L1 & L2 & L3 & ->).
  rewrite (run_eq alias name sim key p Hsep Hnda Hndp _ b key' en ys eff Hsim). unfold logpdf. cbn [l_badargs l_density].
  unfold band_array. cbn [b_y b_up b_lo]. unfold twohalf_array.
  replace (all_positive _ && all_positive _)%bool with false; [reflexivity|].
  symmetry. apply Bool.not_true_iff_false. rewrite Bool.andb_true_iff, !all_positive_spec. intros [H1 H2].
  assert (Hin : In (fx q0) en) by (apply (gives_in evs); assumption).
  assert (Hv : flt (Fin 0) (Fin u) = true).
  { destruct Hc as [Hc|Hc]; [apply H1|apply H2]; rewrite map_map; apply in_map_iff; exists (fx q0); (split; [|exact Hin]); rewrite Hx0.
    - rewrite (table_at (combine tx tu) ltac:(rewrite combine_fst by assumption; exact Hnd) x0 u (combine_ne _ _ Htx L2) Hc). reflexivity.
    - rewrite (table_at (combine tx tl) ltac:(rewrite combine_fst by assumption; exact Hnd) x0 u (combine_ne _ _ Htx L3) Hc). reflexivity. }
  apply flt_Fin in Hv. lra.
Qed.

(* ------------------------------------------------------------------ *)
(** * Cases *)

Definition const_sim (cols : list (list fl)) : simulate_fun nat := fun key _ _ => Ok (S key, cols).

Lemma no_alias : separate [] /\ NoDup (keys (V := string) []).
Proof. split; [intros k v H; destruct H|constructor]. Qed.

(** Two points of light yield, one event each, the second with half efficiency. *)
Example C78_case : exists L,
  new_lit "twohalfnorm" ["energy"; "light_yield"]
    (logpdf_args ["mu"; "sigma_pos"; "sigma_neg"] [[Fin 5; Fin 6]; [Fin 1]; [Fin 2]]) = Some (Ok L) /\
  lit_log_likelihood L [] [("nr", const_sim [[Fin 1; Fin 2]; [Fin 4; Fin 7]; [Fin 1; Fin (1/2)]])] 3%nat 100%nat []
  = Ok (4%nat, Fin (1 * ln (two_half 5 1 2 4) + (1/2 * ln (two_half 6 1 2 7) + 0))).
Proof.
  eexists. split; [reflexivity|].
  destruct no_alias as [N1 N2].
  apply (C78_twohalf [] "nr" _ 3%nat [] N1 N2 (NoDup_nil _) [(5, 4, 1); (6, 7, 1/2)]
    (fun q => fst (fst q)) (fun _ => 1) (fun _ => 2) (fun q => snd (fst q)) snd ["energy"; "light_yield"]
    (logpdf_args ["mu"; "sigma_pos"; "sigma_neg"] [[Fin 5; Fin 6]; [Fin 1]; [Fin 2]]) _ 100%nat 4%nat
    [Fin 1; Fin 2] [Fin 4; Fin 7] [Fin 1; Fin (1/2)] [Fin 5; Fin 6] [Fin 1] [Fin 2]).
  - reflexivity.
  - intros k Hk. exact Hk.
  - left. reflexivity.
  - left. reflexivity.
  - left. reflexivity.
  - reflexivity.
  - discriminate.
  - left. reflexivity.
  - right. exists (Fin 1). split; reflexivity.
  - right. exists (Fin 2). split; reflexivity.
  - left. reflexivity.
  - left. reflexivity.
  - exists [Fin 5; Fin 6]. split; [left; reflexivity|reflexivity].
  - intros q _. lra.
Qed.

Definition ex_band : dict (list fl) :=
  [("x", fins [1; 2]); ("y", fins [5; 7]); ("yerr_upper", fins [1; 3]); ("yerr_lower", fins [2; 2])].

Lemma ex_nodup : NoDup [1; 2].
Proof. constructor; [intros [H|[]]; lra|]. constructor; [intros []|constructor]. Qed.

(** An event at the energy half way between two rows. *)
Example C79_case : exists L,
  new_lit "band" ["energy"; "light_yield"] ex_band = Some (Ok L) /\
  lit_log_likelihood L [] [("nr", const_sim [[Fin (3/2)]; [Fin 4]; [Fin 1]])] 3%nat 1%nat []
  = Ok (4%nat, Fin (1 * ln (two_half 6 2 2 4) + 0)).
Proof.
  eexists. split; [reflexivity|]. destruct no_alias as [N1 N2].
  apply (C79_value [] "nr" _ 3%nat [] N1 N2 (NoDup_nil _) [tt] (fun _ => 3/2) (fun _ => 4) (fun _ => 1)
    (fun _ => 6) (fun _ => 2) (fun _ => 2) ["energy"; "light_yield"] ex_band _ 1%nat 4%nat
    [Fin (3/2)] [Fin 4] [Fin 1] [1; 2] [5; 7] [1; 3] [2; 2]).
  - reflexivity.
  - reflexivity.
  - reflexivity.
  - reflexivity.
  - reflexivity.
  - exact ex_nodup.
  - reflexivity.
  - discriminate.
  - left. reflexivity.
  - left. reflexivity.
  - left. reflexivity.
  - exists [Fin 4]. split; [right; left; reflexivity|reflexivity].
  - assert (B : forall y0 y1 v, v = y0 + (3/2 - 1) / (2 - 1) * (y1 - y0) -> on_curve [(1, y0); (2, y1)] (3/2) v).
    { intros y0 y1 v E. apply (oc_between _ _ _ 1 y0 2 y1); [left; reflexivity|right; left; reflexivity|lra| |exact E].
      intros q [<-|[<-|[]]]; cbn [fst]; lra. }
    intros q _. cbn [combine].
    split; [apply B; field|]. split; [apply B; field|]. split; [apply B; field|]. lra.
Qed.

(** An event of efficiency zero outside the table is not ignored: it makes the value -inf, although
    the value without it is finite. *)
Theorem C79_zero_efficiency_refuted : exists L r,
  new_lit "band" ["energy"; "light_yield"] ex_band = Some (Ok L) /\
  lit_log_likelihood L [] [("nr", const_sim [[Fin (3/2)]; [Fin 4]; [Fin 1]])] 3%nat 1%nat [] = Ok (4%nat, Fin r) /\
  lit_log_likelihood L [] [("nr", const_sim [[Fin (3/2); Fin 3]; [Fin 4; Fin 4]; [Fin 1; Fin 0]])] 3%nat 1%nat []
  = Ok (4%nat, NInf).
Proof.
  destruct C79_case as (L & HL & HV). exists L. eexists. split; [exact HL|]. split; [exact HV|].
  destruct no_alias as [N1 N2].
  apply (C79_outside [] "nr" _ 3%nat [] N1 N2 (NoDup_nil _) [(3/2, 1); (3, 0)] (fun q => Fin (fst q)) (fun _ => Fin 4)
    (fun q => Fin (snd q)) ["energy"; "light_yield"] ex_band L 1%nat 4%nat
    [Fin (3/2); Fin 3] [Fin 4; Fin 4] [Fin 1; Fin 0] [1; 2] [5; 7] [1; 3] [2; 2] (3, 0)).
  - exact HL.
  - reflexivity.
  - reflexivity.
  - reflexivity.
  - reflexivity.
  - exact ex_nodup.
  - intros u [<-|[<-|[]]]; lra.
  - intros u [<-|[<-|[]]]; lra.
  - reflexivity.
  - left. reflexivity.
  - left. reflexivity.
  - left. reflexivity.
  - exists [Fin (3/2); Fin 3]. split; [left; reflexivity|reflexivity].
  - intros q [<-|[<-|[]]]; [exists 1|exists 0]; (split; [reflexivity|cbn; lra]).
  - right. left. reflexivity.
  - intros v E. cbn [fst] in E. injection E as <-. intros (a & b & Ha & Hb & H).
    destruct Hb as [<-|[<-|[]]]; lra.
Qed.

(** The table "ly_lux_2022" of the instructions shipped in instructs/literature_lyqy.json starts at
    0.45 keV, but the energy of the one simulated event is drawn between clip_lower_energy = 0 and
    clip_upper_energy = 2.5: below 0.45 keV the likelihood is -inf whatever the parameters. *)
Definition lux : dict (list fl) :=
  [("x", fins [0.45; 0.8; 2; 4; 6; 8; 15; 40]);
   ("y", fins [3.06; 3.72; 4.63; 5.53; 6.31; 6.92; 8.4; 10.8]);
   ("yerr_upper", fins [0.908; 1.003; 0.763; 0.65; 0.741; 0.817; 0.986; 1.264]);
   ("yerr_lower", fins [0.781; 0.869; 0.708; 0.65; 0.741; 0.817; 0.986; 1.264])].

Theorem C79_shipped_band_refuted : exists L,
  new_lit "band" ["energy"; "light_yield"] lux = Some (Ok L) /\
  forall e y, 0 <= e < 0.45 -> 
    lit_log_likelihood L [] [("nr", const_sim [[Fin e]; [y]; [Fin 1]])] 3%nat 1%nat [] = Ok (4%nat, NInf).
Proof.
  eexists. split; [reflexivity|]. intros e y He. destruct no_alias as [N1 N2].
  apply (C79_outside [] "nr" _ 3%nat [] N1 N2 (NoDup_nil _) [tt] (fun _ => Fin e) (fun _ => y)
    (fun _ => Fin 1) ["energy"; "light_yield"] lux _ 1%nat 4%nat [Fin e] [y] [Fin 1]
    [0.45; 0.8; 2; 4; 6; 8; 15; 40] [3.06; 3.72; 4.63; 5.53; 6.31; 6.92; 8.4; 10.8]
    [0.908; 1.003; 0.763; 0.65; 0.741; 0.817; 0.986; 1.264] [0.781; 0.869; 0.708; 0.65; 0.741; 0.817; 0.986; 1.264] tt).
  - reflexivity.
  - reflexivity.
  - reflexivity.
  - reflexivity.
  - reflexivity.
  - repeat (constructor; [cbn [In]; lra|]). constructor.
  - intros u Hu. cbn [In] in Hu. lra.
  - intros u Hu. cbn [In] in Hu. lra.
  - reflexivity.
  - left. reflexivity.
  - left. reflexivity.
  - left. reflexivity.
  - exists [y]. split; [right; left; reflexivity|reflexivity].
  - intros q _. exists 1. split; [reflexivity|lra].
  - left. destruct tt. reflexivity.
  - intros v E. assert (v = e) by congruence. subst v. intros (a & b & Ha & _ & H). cbn [In] in Ha. lra.
Qed.

Print Assumptions C78_twohalf.
Print Assumptions C78_norm.
Print Assumptions C79_value.
Print Assumptions C78_nan_yield.
Print Assumptions C78_width_refused.
Print Assumptions C78_scale_silent.
Print Assumptions C78_mismatch.
Print Assumptions C79_outside.
Print Assumptions C78_one_event.
Print Assumptions C78_never_nan.
Print Assumptions C78_below_infinity.
Print Assumptions C78_energies_ignored.
Print Assumptions C78_best.
Print Assumptions C78_best_norm.
Print Assumptions C78_refused.
Print Assumptions C79_defined.
Print Assumptions C79_row_order.
Print Assumptions C79_width_refused.
Print Assumptions C79_zero_efficiency_refuted.
Print Assumptions C79_shipped_band_refuted.
