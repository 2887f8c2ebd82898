(** Lemmas about utils.py. *)
From Coq Require Import Reals Lra.
From Verif Require Import Base BaseFacts ModelComponent ModelParameter ModelUtils SpecUtils ProofParameter ProofParameter2.
From Coq Require Import Permutation.
Local Open Scope string_scope.

(* ------------------------------------------------------------------ *)
(** * GPU memory *)

Lemma int_of_spec (x : R) : (IZR (int_of x) <= x < IZR (int_of x) + 1)%R.
Proof. unfold int_of. rewrite minus_IZR. destruct (archimed x). lra. Qed.

Lemma int_of_unique (x : R) (n : Z) : (IZR n <= x < IZR n + 1)%R -> int_of x = n.
Proof.
  intros H. pose proof (int_of_spec x).
  assert (int_of x < n + 1)%Z by (apply lt_IZR; rewrite plus_IZR; lra).
  assert (n < int_of x + 1)%Z by (apply lt_IZR; rewrite plus_IZR; lra). lia.
Qed.

Lemma decimal_1 n : (0 <= n < 10)%Z -> decimal n = [Z.to_nat n].
Proof.
  intros H. unfold decimal. cbn [digits_of]. destruct (Z.ltb_spec n 10); [|lia]. rewrite Z.mod_small by assumption. reflexivity.
Qed.

Lemma decimal_2 n : (10 <= n < 100)%Z -> decimal n = [Z.to_nat (n / 10); Z.to_nat (n mod 10)].
Proof.
  intros H. unfold decimal. assert (L : (3 <= Z.log2 n)%Z) by (apply Z.log2_le_pow2; lia).
  destruct (Z.to_nat (Z.log2 n)) as [|f] eqn:E; [lia|]. cbn [digits_of].
  destruct (Z.ltb_spec n 10); [lia|]. assert (Q : (0 <= n / 10 < 10)%Z). { split; [apply Z.div_pos; lia|apply Z.div_lt_upper_bound; lia]. }
  destruct (Z.ltb_spec (n / 10) 10); [|lia]. rewrite (Z.mod_small (n / 10)) by assumption. reflexivity.
Qed.

Lemma INR_to_nat n : (0 <= n)%Z -> INR (Z.to_nat n) = IZR n.
Proof. intros H. rewrite INR_IZR_INZ, Z2Nat.id by assumption. reflexivity. Qed.

Lemma denotes_1 n : (0 <= n < 10)%Z -> denotes ("." ++ print (decimal n)) (IZR n / 10).
Proof.
  intros H. eexists. split; [reflexivity|]. rewrite decimal_1 by assumption. cbn [print].
  replace (IZR n / 10)%R with ((INR (Z.to_nat n) + 0) / 10)%R by (rewrite INR_to_nat by lia; lra).
  apply dec_digit; [lia|constructor].
Qed.

Lemma denotes_2 n : (10 <= n < 100)%Z -> denotes ("." ++ print (decimal n)) (IZR n / 100).
Proof.
  intros H. eexists. split; [reflexivity|]. rewrite decimal_2 by assumption. cbn [print].
  pose proof (Z.mod_pos_bound n 10 ltac:(lia)). pose proof (Z.div_mod n 10 ltac:(lia)) as D.
  assert (Q : (0 <= n / 10 < 10)%Z). { split; [apply Z.div_pos; lia|apply Z.div_lt_upper_bound; lia]. }
  replace (IZR n / 100)%R with ((INR (Z.to_nat (n / 10)) + (INR (Z.to_nat (n mod 10)) + 0) / 10) / 10)%R.
  - apply dec_digit; [lia|]. apply dec_digit; [lia|constructor].
  - rewrite !INR_to_nat by lia. rewrite D at 3. rewrite plus_IZR, mult_IZR. lra.
Qed.

(** A text denotes one number. *)
Lemma decimals_fun s x y : decimals s x -> decimals s y -> x = y.
Proof.
  intros H. revert y. induction H as [|d s x Hd H IH]; intros y Hy.
  - inversion Hy. reflexivity.
  - inversion Hy as [|d' s' x' Hd' H' E E']. subst. rewrite (IH _ H'). f_equal. f_equal. f_equal.
    match goal with e : ascii_of_nat _ = ascii_of_nat _ |- _ => apply (f_equal nat_of_ascii) in e; rewrite !nat_ascii_embedding in e by lia end. lia.
Qed.

Lemma denotes_fun s x y : denotes s x -> denotes s y -> x = y.
Proof.
  intros (s1 & E1 & H1) (s2 & E2 & H2). rewrite E1 in E2. cbn in E2. injection E2 as E2. subst. eapply decimals_fun; eassumption.
Qed.

(* ------------------------------------------------------------------ *)
(** * Extensions *)

Lemma add_extension_keeps m c base m' r a : add_extension m c base false = (m', r) ->
  has a (m_attrs m) = true -> get a (m_attrs m') = get a (m_attrs m).
Proof.
  unfold add_extension. intros E Ha. rewrite andb_true_r in E.
  destruct (c_is_base c); [injection E as <- <-; reflexivity|].
  destruct (issubclass c base && _); [|injection E as <- <-; reflexivity].
  destruct (has (c_name c) (m_attrs m)) eqn:H; [injection E as <- <-; reflexivity|].
  injection E as <- <-. cbn. apply get_set_neq. intros ->. congruence.
Qed.

Lemma add_extension_grows m c base force m' r a : add_extension m c base force = (m', r) ->
  has a (m_attrs m) = true -> has a (m_attrs m') = true.
Proof.
  unfold add_extension. intros E Ha.
  destruct (c_is_base c); [injection E as <- <-; assumption|].
  destruct (issubclass c base && _); [|injection E as <- <-; assumption].
  destruct (has (c_name c) (m_attrs m) && _) eqn:H; [injection E as <- <-; assumption|].
  injection E as <- <-. cbn. unfold has in *. rewrite get_set. destruct (String.eqb a (c_name c)); [reflexivity|assumption].
Qed.

Lemma add_classes_keeps names : forall attrs2 m base m' r a, add_classes names attrs2 m base false = (m', r) ->
  has a (m_attrs m) = true -> get a (m_attrs m') = get a (m_attrs m).
Proof.
  induction names as [|x names IH]; intros attrs2 m base m' r a E Ha; cbn [add_classes] in E.
  - injection E as <- <-. reflexivity.
  - destruct (get x attrs2) as [[c|?|?]|]; try (apply (IH _ _ _ _ _ _ E Ha)).
    destruct (add_extension m c base false) as [m1 r1] eqn:E1. pose proof (add_extension_keeps _ _ _ _ _ a E1 Ha) as K.
    destruct r1.
    + rewrite <- K. apply (IH _ _ _ _ _ _ E). eapply add_extension_grows; eassumption.
    + injection E as <- <-. assumption.
Qed.

Lemma offered_takes base c : c_is_base c = false -> In (c_id base) (c_mro c) -> c_id c <> c_id base ->
  issubclass c base && negb (Nat.eqb (c_id c) (c_id base)) = true.
Proof.
  intros _ I N. apply andb_true_iff. split.
  - unfold issubclass. apply existsb_exists. exists (c_id base). split; [assumption|apply Nat.eqb_refl].
  - apply negb_true_iff. apply Nat.eqb_neq. assumption.
Qed.

Lemma dir_In m x : In x (dir m) <-> has x (m_attrs m) = true.
Proof. unfold dir. rewrite has_keys. split; apply Permutation_in; [|symmetry]; apply sorted_perm. Qed.

Lemma dir_NoDup m : NoDup (keys (m_attrs m)) -> NoDup (dir m).
Proof. intros H. unfold dir. eapply Permutation_NoDup; [symmetry; apply sorted_perm|assumption]. Qed.

Definition takes (base c : cls) : Prop := c_is_base c = false /\ In (c_id base) (c_mro c) /\ c_id c <> c_id base.

Lemma add_extension_takes m c base force : takes base c ->
  add_extension m c base force = if has (c_name c) (m_attrs m) && negb force then (m, Err ValueError)
    else (setattr m (c_name c) (AClass c), Ok tt).
Proof. intros (B & I & N). unfold add_extension. rewrite B, offered_takes by assumption. reflexivity. Qed.

Lemma add_extension_other m c base force : ~ takes base c -> add_extension m c base force = (m, Ok tt).
Proof.
  intros N. unfold add_extension. destruct (c_is_base c) eqn:B; [reflexivity|].
  destruct (issubclass c base && negb (Nat.eqb (c_id c) (c_id base))) eqn:T; [|reflexivity].
  exfalso. apply N. apply andb_true_iff in T. destruct T as [T1 T2]. apply existsb_exists in T1. destruct T1 as (i & I & E).
  apply Nat.eqb_eq in E. subst. apply negb_true_iff in T2. apply Nat.eqb_neq in T2. repeat split; assumption.
Qed.

Lemma takes_dec base c : takes base c \/ ~ takes base c.
Proof.
  unfold takes. destruct (c_is_base c); [right; intros [H _]; discriminate|].
  destruct (in_dec Nat.eq_dec (c_id base) (c_mro c)); [|right; tauto].
  destruct (Nat.eq_dec (c_id c) (c_id base)); [right; tauto|left; tauto].
Qed.

Lemma has_setattr m a x b : has a (m_attrs (setattr m b x)) = String.eqb a b || has a (m_attrs m).
Proof. cbn. unfold has. rewrite get_set. destruct (String.eqb a b); reflexivity. Qed.

(** Success without force: every taken class was new and is there afterwards. *)
Lemma add_classes_ok names : forall attrs2 m base m', NoDup names -> add_classes names attrs2 m base false = (m', Ok tt) ->
  forall x c, In x names -> get x attrs2 = Some (AClass c) -> takes base c ->
    has (c_name c) (m_attrs m) = false /\ get (c_name c) (m_attrs m') = Some (AClass c) /\
    forall y c', In y names -> get y attrs2 = Some (AClass c') -> takes base c' -> c_name c' = c_name c -> y = x.
Proof.
  induction names as [|z names IH]; intros attrs2 m base m' ND E x c Ix Gx T; [destruct Ix|].
  inversion ND as [|? ? Nz ND']; subst. cbn [add_classes] in E.
  (* the class of z, if it is taken, is new and names is run after it *)
  assert (Z : (exists cz, get z attrs2 = Some (AClass cz) /\ takes base cz /\ has (c_name cz) (m_attrs m) = false /\
                 add_classes names attrs2 (setattr m (c_name cz) (AClass cz)) base false = (m', Ok tt)) \/
              ((forall cz, get z attrs2 = Some (AClass cz) -> ~ takes base cz) /\ add_classes names attrs2 m base false = (m', Ok tt))).
  { destruct (get z attrs2) as [[cz|?|?]|]; try (right; split; [intros; discriminate|assumption]).
    destruct (takes_dec base cz) as [Tz|Tz].
    - left. exists cz. rewrite (add_extension_takes _ _ _ _ Tz) in E. rewrite andb_true_r in E.
      destruct (has (c_name cz) (m_attrs m)) eqn:H; [discriminate|]. auto.
    - right. rewrite (add_extension_other _ _ _ _ Tz) in E. split; [|assumption]. intros c0 [= <-]. assumption. }
  destruct Z as [(cz & Gz & Tz & Hz & E')|[Nt E']].
  - destruct Ix as [->|Ix].
    + rewrite Gx in Gz. injection Gz as <-. split; [assumption|]. split.
      * rewrite (add_classes_keeps _ _ _ _ _ _ (c_name c) E'); [apply get_set_eq|]. rewrite has_setattr, String.eqb_refl. reflexivity.
      * intros y c' [->|Iy] Gy Ty En; [reflexivity|]. exfalso.
        destruct (IH _ _ _ _ ND' E' y c' Iy Gy Ty) as [F _]. rewrite has_setattr, En, String.eqb_refl in F. discriminate.
    + destruct (IH _ _ _ _ ND' E' x c Ix Gx T) as (F & G & U). rewrite has_setattr in F. apply orb_false_iff in F. destruct F as [F1 F2].
      split; [assumption|]. split; [assumption|]. intros y c' [->|Iy] Gy Ty En.
      * rewrite Gy in Gz. injection Gz as <-. rewrite En, String.eqb_refl in F1. discriminate.
      * eapply U; eassumption.
  - destruct Ix as [->|Ix]; [exfalso; eapply Nt; eassumption|].
    destruct (IH _ _ _ _ ND' E' x c Ix Gx T) as (F & G & U). split; [assumption|]. split; [assumption|].
    intros y c' [->|Iy] Gy Ty En; [exfalso; eapply Nt; eassumption|]. eapply U; eassumption.
Qed.

(** And conversely: without clashes it succeeds. *)
Lemma add_classes_succeeds names : forall attrs2 m base, NoDup names ->
  (forall x c, In x names -> get x attrs2 = Some (AClass c) -> takes base c -> has (c_name c) (m_attrs m) = false) ->
  (forall x y c c', In x names -> In y names -> get x attrs2 = Some (AClass c) -> get y attrs2 = Some (AClass c') ->
     takes base c -> takes base c' -> c_name c = c_name c' -> x = y) ->
  snd (add_classes names attrs2 m base false) = Ok tt.
Proof.
  induction names as [|z names IH]; intros attrs2 m base ND New Uniq; [reflexivity|].
  inversion ND as [|? ? Nz ND']; subst. cbn [add_classes].
  assert (K : forall m1, (forall x c, In x names -> get x attrs2 = Some (AClass c) -> takes base c -> has (c_name c) (m_attrs m1) = false) ->
     snd (add_classes names attrs2 m1 base false) = Ok tt).
  { intros m1 New1. apply IH; [assumption|assumption|]. intros x y c c' Ix Iy. apply Uniq; right; assumption. }
  destruct (get z attrs2) as [[cz|?|?]|] eqn:Gz; try (apply K; intros x c Ix; apply New; right; assumption).
  destruct (takes_dec base cz) as [Tz|Tz].
  - rewrite (add_extension_takes _ _ _ _ Tz). rewrite (New z cz (or_introl eq_refl) Gz Tz). cbn [andb]. apply K.
    intros x c Ix Gx Tx. rewrite has_setattr, (New x c (or_intror Ix) Gx Tx), orb_false_r. apply String.eqb_neq. intros En.
    apply Nz. rewrite <- (Uniq x z c cz (or_intror Ix) (or_introl eq_refl) Gx Gz Tx Tz En). assumption.
  - rewrite (add_extension_other _ _ _ _ Tz). apply K. intros x c Ix. apply New. right. assumption.
Qed.

Lemma add_classes_fails names : forall attrs2 m base force m' e, add_classes names attrs2 m base force = (m', Err e) -> e = ValueError.
Proof.
  induction names as [|z names IH]; intros attrs2 m base force m' e E; cbn [add_classes] in E; [discriminate|].
  destruct (get z attrs2) as [[cz|?|?]|]; try (eapply IH; eassumption).
  destruct (takes_dec base cz) as [Tz|Tz].
  - rewrite (add_extension_takes _ _ _ _ Tz) in E. destruct (_ && _); [congruence|]. eapply IH; eassumption.
  - rewrite (add_extension_other _ _ _ _ Tz) in E. eapply IH; eassumption.
Qed.

(** With force it always succeeds; the name of every taken class then holds a class of that name. *)
Lemma add_classes_force names : forall attrs2 m base, 
  exists m', add_classes names attrs2 m base true = (m', Ok tt) /\
    forall x c, In x names -> get x attrs2 = Some (AClass c) -> takes base c ->
      exists c', get (c_name c) (m_attrs m') = Some (AClass c') /\ takes base c' /\ c_name c' = c_name c.
Proof.
  intros attrs2. 
  assert (G : forall m base (Keep : string -> Prop), 
    (forall a, Keep a -> exists c', get a (m_attrs m) = Some (AClass c') /\ takes base c' /\ c_name c' = a) ->
    exists m', add_classes names attrs2 m base true = (m', Ok tt) /\
      (forall a, Keep a \/ (exists x c, In x names /\ get x attrs2 = Some (AClass c) /\ takes base c /\ c_name c = a) ->
         exists c', get a (m_attrs m') = Some (AClass c') /\ takes base c' /\ c_name c' = a)).
  { induction names as [|z names IH]; intros m base Keep HK.
    - exists m. split; [reflexivity|]. intros a [K|(x & c & [] & _)]. auto.
    - cbn [add_classes].
      assert (Skip : (forall cz, get z attrs2 = Some (AClass cz) -> ~ takes base cz) ->
        exists m', add_classes names attrs2 m base true = (m', Ok tt) /\
          (forall a, Keep a \/ (exists x c, In x (z :: names) /\ get x attrs2 = Some (AClass c) /\ takes base c /\ c_name c = a) ->
           exists c', get a (m_attrs m') = Some (AClass c') /\ takes base c' /\ c_name c' = a)).
      { intros N. destruct (IH m base Keep HK) as (m' & E & P). exists m'. split; [assumption|]. intros a [K|(x & c & [->|Ix] & Gx & T & En)].
        - apply P. left. assumption.
        - exfalso. eapply N; eassumption.
        - apply P. right. exists x, c. auto. }
      destruct (get z attrs2) as [[cz|?|?]|] eqn:Gz; try (apply Skip; intros; discriminate).
      destruct (takes_dec base cz) as [Tz|Tz].
      + rewrite (add_extension_takes _ _ _ _ Tz). rewrite andb_false_r.
        destruct (IH (setattr m (c_name cz) (AClass cz)) base (fun a => Keep a \/ a = c_name cz)) as (m' & E & P).
        { intros a K. cbn. rewrite get_set. destruct (String.eqb_spec a (c_name cz)) as [->|N]; [exists cz; auto|].
          destruct K as [K|K]; [auto|contradiction]. }
        exists m'. split; [assumption|]. intros a [K|(x & c & [->|Ix] & Gx & T & En)].
        * apply P. left. left. assumption.
        * apply P. left. right. rewrite Gz in Gx. injection Gx as ->. symmetry. assumption.
        * apply P. right. exists x, c. auto.
      + rewrite (add_extension_other _ _ _ _ Tz). apply Skip. intros c0 [= <-]. assumption. }
  intros m base. destruct (G m base (fun _ => False)) as (m' & E & P); [intros a []|]. exists m'. split; [assumption|].
  intros x c Ix Gx T. apply P. right. exists x, c. auto.
Qed.

(* ------------------------------------------------------------------ *)
(** * Graphs *)

Section Graph.
  Variable reg : registry.

  (** Everything in [seen] is drawn with its dependencies, which are in [seen] too. *)
  Definition complete (g : graph) (seen : list string) : Prop :=
    forall d, In d seen -> d <> "batch_size" /\ In d (g_nodes g) /\ exists p, get d reg = Some p /\
      forall b, In b (p_depends p) -> In (d, b) (g_edges g) /\ (In b seen \/ (b = "batch_size" /\ In b (g_nodes g))).

  Definition within_graph (g g' : graph) : Prop := incl (g_nodes g) (g_nodes g') /\ incl (g_edges g) (g_edges g').

  (** Nothing else than needed nodes and their edges is added. *)
  Definition sound (names : list string) (g g' : graph) (seen seen' : list string) : Prop :=
    (forall d, In d (g_nodes g') -> In d (g_nodes g) \/ needed reg names d) /\
    (forall a b, In (a, b) (g_edges g') -> In (a, b) (g_edges g) \/
       (needed reg names a /\ a <> "batch_size" /\ exists p, get a reg = Some p /\ In b (p_depends p))) /\
    (forall d, In d seen' -> In d seen \/ needed reg names d).

  Definition good (names : list string) (g : graph) (seen : list string) (g' : graph) (seen' : list string) : Prop :=
    within_graph g g' /\ incl seen seen' /\ (complete g seen -> complete g' seen') /\
    (forall d, In d names -> In d seen' \/ (d = "batch_size" /\ In d (g_nodes g'))) /\ sound names g g' seen seen'.

  Lemma complete_mono g g' seen : within_graph g g' -> complete g seen -> complete g' seen.
  Proof.
    intros [Wn We] C d Hd. destruct (C d Hd) as (N & I & p & G & P). split; [assumption|]. split; [auto|]. exists p. split; [assumption|].
    intros b Hb. destruct (P b Hb) as [E [S|[S1 S2]]]; split; auto.
  Qed.

  Lemma needed_mono names names' d : (forall x, In x names -> needed reg names' x) -> needed reg names d -> needed reg names' d.
  Proof. intros H N. induction N as [d I|a p b _ IH Na G I]; [auto|]. eapply need_dep; eassumption. Qed.

  Lemma good_weaken names names' g seen g' seen' : (forall x, In x names -> needed reg names' x) ->
    sound names g g' seen seen' -> sound names' g g' seen seen'.
  Proof.
    intros H (S1 & S2 & S3). split; [|split].
    - intros d Hd. destruct (S1 d Hd); [left; assumption|right; eapply needed_mono; eassumption].
    - intros a b Hab. destruct (S2 a b Hab) as [?|(N & R)]; [left; assumption|right]. split; [eapply needed_mono; eassumption|assumption].
    - intros d Hd. destruct (S3 d Hd); [left; assumption|right; eapply needed_mono; eassumption].
  Qed.

  Lemma sound_trans names g1 g2 g3 s1 s2 s3 : sound names g1 g2 s1 s2 -> sound names g2 g3 s2 s3 -> sound names g1 g3 s1 s3.
  Proof.
    intros (A1 & A2 & A3) (B1 & B2 & B3). split; [|split].
    - intros d Hd. destruct (B1 d Hd) as [H|H]; [apply A1; assumption|right; assumption].
    - intros a b Hd. destruct (B2 a b Hd) as [H|H]; [apply A2; assumption|right; assumption].
    - intros d Hd. destruct (B3 d Hd) as [H|H]; [apply A3; assumption|right; assumption].
  Qed.

  Lemma within_trans g1 g2 g3 : within_graph g1 g2 -> within_graph g2 g3 -> within_graph g1 g3.
  Proof. intros [A B] [C D]. split; eapply incl_tran; eassumption. Qed.
  Lemma within_refl g : within_graph g g.
  Proof. split; apply incl_refl. Qed.

  (** The loop over the dependencies of a data name. *)
  Lemma each_edge_good rec d p :
    (forall names g seen g' seen', rec names g seen = Ok (g', seen') -> good names g seen g' seen') ->
    get d reg = Some p -> d <> "batch_size" ->
    forall deps g seen g' seen', incl deps (p_depends p) ->
    each_edge rec (fun dep g => Ok (add_edge d dep g)) (fun _ => false) (p_depends p) deps g seen = Ok (g', seen') ->
    within_graph g g' /\ incl seen seen' /\ (complete g seen -> complete g' seen') /\
    (forall b, In b deps -> In (d, b) (g_edges g')) /\
    (deps <> [] -> forall b, In b (p_depends p) -> In b seen' \/ (b = "batch_size" /\ In b (g_nodes g'))) /\ sound [d] g g' seen seen'.
  Proof.
    intros HR Gd Nd. induction deps as [|dep deps IH]; intros g seen g' seen' Inc E; cbn [each_edge] in E.
    - injection E as <- <-. split; [apply within_refl|]. split; [apply incl_refl|]. split; [auto|]. split; [intros b []|]. split; [intros H; contradiction|].
      split; [|split]; auto.
    - destruct (rec (p_depends p) (add_edge d dep g) seen) as [[g2 seen2]|] eqn:ER; [|discriminate].
      destruct (HR _ _ _ _ _ ER) as (W & I & C & A & S).
      assert (W0 : within_graph g (add_edge d dep g)). { split; cbn; [apply incl_refl|apply incl_appl, incl_refl]. }
      destruct (IH g2 seen2 g' seen' ltac:(intros x Hx; apply Inc; right; assumption) E) as (W' & I' & C' & A' & D' & S').
      split; [eapply within_trans; [exact W0|]; eapply within_trans; eassumption|]. split; [eapply incl_tran; eassumption|].
      split; [intros K; apply C', C; eapply complete_mono; eassumption|]. split; [|split].
      + intros b [<-|Hb]; [|auto]. apply W', W. cbn. apply in_or_app. right. left. reflexivity.
      + intros _ b Hb. destruct (A b Hb) as [H|[H1 H2]]; [left; auto|right; split; [assumption|]]. apply W'. assumption.
      + eapply sound_trans; [|eassumption]. eapply sound_trans with (g2 := add_edge d dep g) (s2 := seen).
        * split; [auto|]. split; [|auto]. intros a b H. cbn in H. apply in_app_or in H. destruct H as [H|[[= <- <-]|[]]]; [left; assumption|right].
          split; [apply need_asked; left; reflexivity|]. split; [assumption|]. exists p. split; [assumption|]. apply Inc. left. reflexivity.
        * eapply good_weaken; [|exact S]. intros x Hx. eapply need_dep; [apply need_asked; left; reflexivity|assumption|eassumption|assumption].
  Qed.

  Lemma add_deps_good fuel : forall names g seen g' seen', add_deps_to_graph_tree reg fuel names g seen = Ok (g', seen') -> good names g seen g' seen'.
  Proof.
    induction fuel as [|fuel IHf]; intros names g seen g' seen' E; [discriminate|]. cbn [add_deps_to_graph_tree] in E.
    revert g seen E. induction names as [|d names IHn]; intros g seen E; cbn [each_name] in E.
    - injection E as <- <-. split; [apply within_refl|]. split; [apply incl_refl|]. split; [auto|]. split; [intros d []|]. split; [|split]; auto.
    - assert (Up : forall x, In x names -> needed reg (d :: names) x) by (intros x Hx; apply need_asked; right; assumption).
      destruct (mem d seen) eqn:M.
      + destruct (IHn _ _ E) as (W & I & C & A & S). split; [assumption|]. split; [assumption|]. split; [assumption|]. split.
        * intros x [<-|Hx]; [|auto]. left. apply I, mem_In. assumption.
        * eapply good_weaken; eassumption.
      + assert (W0 : within_graph g (add_node d g)). { split; cbn; [apply incl_appl, incl_refl|apply incl_refl]. }
        assert (S0 : sound (d :: names) g (add_node d g) seen seen).
        { split; [|split; auto]. intros x H. cbn in H. apply in_app_or in H. destruct H as [H|[<-|[]]]; [left; assumption|right].
          apply need_asked. left. reflexivity. }
        destruct (String.eqb_spec d "batch_size") as [B|B].
        * destruct (IHn _ _ E) as (W & I & C & A & S). split; [eapply within_trans; eassumption|]. split; [assumption|].
          split; [intros K; apply C; eapply complete_mono; eassumption|]. split.
          -- intros x [<-|Hx]; [|auto]. right. split; [assumption|]. apply W. cbn. apply in_or_app. right. left. reflexivity.
          -- eapply sound_trans; [exact S0|]. eapply good_weaken; eassumption.
        * destruct (get d reg) as [p|] eqn:G; [|discriminate].
          destruct (each_edge _ _ _ _ _ _ _) as [[g2 seen2]|] eqn:EE; [|discriminate].
          destruct (each_edge_good (add_deps_to_graph_tree reg fuel) d p IHf G B _ _ _ _ _ (incl_refl _) EE) as (W1 & I1 & C1 & A1 & D1 & S1).
          destruct (IHn _ _ E) as (W & I & C & A & S).
          split; [eapply within_trans; [exact W0|]; eapply within_trans; eassumption|].
          split; [eapply incl_tran; [exact I1|]; eapply incl_tran; [|exact I]; apply incl_appl, incl_refl|]. split; [|split].
          -- intros K. apply C. assert (K2 : complete g2 seen2) by (apply C1; eapply complete_mono; eassumption).
             intros x Hx. apply in_app_or in Hx. destruct Hx as [Hx|[<-|[]]].
             ++ destruct (K2 x Hx) as (N & In1 & q & Gq & P). split; [assumption|]. split; [assumption|]. exists q. split; [assumption|].
                intros b Hb. destruct (P b Hb) as [Eb [Sb|Sb]]; (split; [assumption|]); [left; apply in_or_app; left; assumption|right; assumption].
             ++ split; [assumption|]. split; [apply W1; cbn; apply in_or_app; right; left; reflexivity|]. exists p. split; [assumption|].
                intros b Hb. split; [auto|]. destruct (D1 ltac:(intros Z; rewrite Z in Hb; destruct Hb) b Hb) as [H|H]; [left; apply in_or_app; left; assumption|right; assumption].
          -- intros x [<-|Hx]; [|auto]. left. apply I, in_or_app. right. left. reflexivity.
          -- eapply sound_trans; [exact S0|]. eapply sound_trans with (g2 := g2) (s2 := (seen2 ++ [d])%list).
             ++ eapply sound_trans with (g2 := g2) (s2 := seen2).
                ** eapply good_weaken; [|exact S1]. intros x [<-|[]]. apply need_asked. left. reflexivity.
                ** split; [auto|]. split; [auto|]. intros x Hx. apply in_app_or in Hx. destruct Hx as [Hx|[<-|[]]]; [left; assumption|right].
                   apply need_asked. left. reflexivity.
             ++ eapply good_weaken; eassumption.
  Qed.

  (** Fuel above the ranks suffices. *)
  Lemma add_deps_total rank : well_founded_registry reg rank -> forall fuel names g seen,
    (forall d, In d names -> d <> "batch_size" -> S (rank d) < fuel) -> 0 < fuel -> all_registered reg names ->
    exists g' seen', add_deps_to_graph_tree reg fuel names g seen = Ok (g', seen').
  Proof.
    intros WF. induction fuel as [|fuel IHf]; intros names g seen HR Pos Reg; [lia|]. cbn [add_deps_to_graph_tree].
    revert g seen. induction names as [|d names IHn]; intros g seen; cbn [each_name]; [eauto|].
    assert (Reg' : all_registered reg names).
    { intros x Hx. apply Reg. eapply needed_mono; [|exact Hx]. intros y Hy. apply need_asked. right. assumption. }
    specialize (IHn ltac:(intros x Hx; apply HR; right; assumption) Reg').
    destruct (mem d seen); [apply IHn|]. destruct (String.eqb_spec d "batch_size") as [B|B]; [apply IHn|].
    destruct (Reg d ltac:(apply need_asked; left; reflexivity) B) as [p G]. rewrite G.
    assert (EE : forall deps g seen, exists g' seen',
      each_edge (add_deps_to_graph_tree reg fuel) (fun dep g => Ok (add_edge d dep g)) (fun _ => false) (p_depends p) deps g seen = Ok (g', seen')).
    { intros deps. destruct deps as [|dep0 deps0]; [cbn; eauto|].
      induction (dep0 :: deps0) as [|dep deps IHd]; intros g0 s0; cbn [each_edge]; [eauto|].
      assert (F : exists g' seen', add_deps_to_graph_tree reg fuel (p_depends p) (add_edge d dep g0) s0 = Ok (g', seen')).
      { pose proof (HR d (or_introl eq_refl) B) as Rd. apply IHf; [|lia|].
        - intros x Hx Nx. specialize (WF d p x G Hx Nx). lia.
        - intros x Hx Nx. apply Reg; [|assumption]. eapply needed_mono; [|exact Hx].
          intros y Hy. eapply need_dep; [apply need_asked; left; reflexivity|assumption|eassumption|assumption]. }
      destruct F as (g1 & s1 & ->). apply IHd. }
    destruct (EE (p_depends p) (add_node d g) seen) as (g2 & s2 & ->). apply IHn.
  Qed.

  (** Plugins: [seen] holds names of plugins. *)
  Definition provided (d P : string) : Prop := d <> "batch_size" /\ exists p, get d reg = Some p /\ p_name p = P.

  Definition pcomplete (g : graph) (seen : list string) : Prop :=
    forall P, In P seen -> In P (g_nodes g) /\ exists d p, d <> "batch_size" /\ get d reg = Some p /\ p_name p = P /\
      forall b, In b (p_depends p) -> b <> "batch_size" -> exists q, get b reg = Some q /\ In (P, p_name q) (g_edges g) /\ In (p_name q) seen.

  Definition psound (names : list string) (g g' : graph) (seen seen' : list string) : Prop :=
    (forall P, In P (g_nodes g') -> In P (g_nodes g) \/ exists d, needed reg names d /\ provided d P) /\
    (forall P Q, In (P, Q) (g_edges g') -> In (P, Q) (g_edges g) \/
       exists d p b, needed reg names d /\ d <> "batch_size" /\ get d reg = Some p /\ p_name p = P /\ In b (p_depends p) /\ provided b Q) /\
    (forall P, In P seen' -> In P seen \/ exists d, needed reg names d /\ provided d P).

  Definition pgood (names : list string) (g : graph) (seen : list string) (g' : graph) (seen' : list string) : Prop :=
    within_graph g g' /\ incl seen seen' /\ (pcomplete g seen -> pcomplete g' seen') /\
    (forall d, In d names -> d <> "batch_size" -> exists p, get d reg = Some p /\ In (p_name p) seen') /\ psound names g g' seen seen'.

  Lemma pcomplete_mono g g' seen : within_graph g g' -> pcomplete g seen -> pcomplete g' seen.
  Proof.
    intros [Wn We] C P HP. destruct (C P HP) as (N & d & p & Nd & G & E & K). split; [auto|]. exists d, p. split; [assumption|].
    split; [assumption|]. split; [assumption|]. intros b Hb Nb. destruct (K b Hb Nb) as (q & Gq & Eq & Sq). exists q. auto.
  Qed.

  Lemma psound_weaken names names' g seen g' seen' : (forall x, In x names -> needed reg names' x) ->
    psound names g g' seen seen' -> psound names' g g' seen seen'.
  Proof.
    intros H (S1 & S2 & S3). split; [|split].
    - intros P HP. destruct (S1 P HP) as [?|(d & N & R)]; [left; assumption|right]. exists d. split; [eapply needed_mono; eassumption|assumption].
    - intros P Q HP. destruct (S2 P Q HP) as [?|(d & p & b & N & R)]; [left; assumption|right]. exists d, p, b. split; [eapply needed_mono; eassumption|assumption].
    - intros P HP. destruct (S3 P HP) as [?|(d & N & R)]; [left; assumption|right]. exists d. split; [eapply needed_mono; eassumption|assumption].
  Qed.

  Lemma psound_trans names g1 g2 g3 s1 s2 s3 : psound names g1 g2 s1 s2 -> psound names g2 g3 s2 s3 -> psound names g1 g3 s1 s3.
  Proof.
    intros (A1 & A2 & A3) (B1 & B2 & B3). split; [|split].
    - intros d Hd. destruct (B1 d Hd) as [H|H]; [apply A1; assumption|right; assumption].
    - intros a b Hd. destruct (B2 a b Hd) as [H|H]; [apply A2; assumption|right; assumption].
    - intros d Hd. destruct (B3 d Hd) as [H|H]; [apply A3; assumption|right; assumption].
  Qed.

  Lemma each_edge_pgood rec d p :
    (forall names g seen g' seen', rec names g seen = Ok (g', seen') -> pgood names g seen g' seen') ->
    get d reg = Some p -> d <> "batch_size" ->
    forall deps g seen g' seen', incl deps (p_depends p) ->
    each_edge rec (plugin_edge reg (p_name p)) (fun dep => String.eqb dep "batch_size") (p_depends p) deps g seen = Ok (g', seen') ->
    within_graph g g' /\ incl seen seen' /\ (pcomplete g seen -> pcomplete g' seen') /\
    (forall b, In b deps -> b <> "batch_size" -> exists q, get b reg = Some q /\ In (p_name p, p_name q) (g_edges g') /\ In (p_name q) seen') /\
    psound [d] g g' seen seen'.
  Proof.
    intros HR Gd Nd. induction deps as [|dep deps IH]; intros g seen g' seen' Inc E; cbn [each_edge] in E.
    - injection E as <- <-. split; [apply within_refl|]. split; [apply incl_refl|]. split; [auto|]. split; [intros b []|]. split; [|split]; auto.
    - destruct (String.eqb_spec dep "batch_size") as [B|B].
      + destruct (IH g seen g' seen' ltac:(intros x Hx; apply Inc; right; assumption) E) as (W & I & C & A & S).
        split; [assumption|]. split; [assumption|]. split; [assumption|]. split; [|assumption]. intros b [<-|Hb] Nb; [contradiction|auto].
      + unfold plugin_edge in E at 1. destruct (get dep reg) as [q|] eqn:Gq; [|discriminate].
        destruct (rec (p_depends p) (add_edge (p_name p) (p_name q) g) seen) as [[g2 seen2]|] eqn:ER; [|discriminate].
        destruct (HR _ _ _ _ _ ER) as (W & I & C & A & S).
        assert (W0 : within_graph g (add_edge (p_name p) (p_name q) g)). { split; cbn; [apply incl_refl|apply incl_appl, incl_refl]. }
        destruct (IH g2 seen2 g' seen' ltac:(intros x Hx; apply Inc; right; assumption) E) as (W' & I' & C' & A' & S').
        split; [eapply within_trans; [exact W0|]; eapply within_trans; eassumption|]. split; [eapply incl_tran; eassumption|].
        split; [intros K; apply C', C; eapply pcomplete_mono; eassumption|]. split.
        * intros b [<-|Hb] Nb; [|auto]. destruct (A dep (Inc dep (or_introl eq_refl)) B) as (q' & Gq' & Sq').
          rewrite Gq in Gq'. injection Gq' as <-. exists q. split; [assumption|]. split; [|auto].
          apply W', W. cbn. apply in_or_app. right. left. reflexivity.
        * eapply psound_trans; [|eassumption]. eapply psound_trans with (g2 := add_edge (p_name p) (p_name q) g) (s2 := seen).
          -- split; [auto|]. split; [|auto]. intros P Q H. cbn in H. apply in_app_or in H. destruct H as [H|[[= <- <-]|[]]]; [left; assumption|right].
             exists d, p, dep. split; [apply need_asked; left; reflexivity|]. split; [assumption|]. split; [assumption|]. split; [reflexivity|].
             split; [apply Inc; left; reflexivity|]. split; [assumption|]. exists q. auto.
          -- eapply psound_weaken; [|exact S]. intros x Hx. eapply need_dep; [apply need_asked; left; reflexivity|assumption|eassumption|assumption].
  Qed.

  Lemma add_plugins_good fuel : forall names g seen g' seen',
    add_plugins_to_graph_tree reg fuel names g seen = Ok (g', seen') -> pgood names g seen g' seen'.
  Proof.
    induction fuel as [|fuel IHf]; intros names g seen g' seen' E; [discriminate|]. cbn [add_plugins_to_graph_tree] in E.
    revert g seen E. induction names as [|d names IHn]; intros g seen E; cbn [each_plugin] in E.
    - injection E as <- <-. split; [apply within_refl|]. split; [apply incl_refl|]. split; [auto|]. split; [intros d []|]. split; [|split]; auto.
    - assert (Up : forall x, In x names -> needed reg (d :: names) x) by (intros x Hx; apply need_asked; right; assumption).
      assert (Me : needed reg (d :: names) d) by (apply need_asked; left; reflexivity).
      destruct (String.eqb_spec d "batch_size") as [B|B].
      + destruct (IHn _ _ E) as (W & I & C & A & S). split; [assumption|]. split; [assumption|]. split; [assumption|]. split.
        * intros x [<-|Hx] Nx; [contradiction|auto].
        * eapply psound_weaken; eassumption.
      + destruct (get d reg) as [p|] eqn:G; [|discriminate]. destruct (mem (p_name p) seen) eqn:M.
        * destruct (IHn _ _ E) as (W & I & C & A & S). split; [assumption|]. split; [assumption|]. split; [assumption|]. split.
          -- intros x [<-|Hx] Nx; [|auto]. exists p. split; [assumption|]. apply I, mem_In. assumption.
          -- eapply psound_weaken; eassumption.
        * assert (W0 : within_graph g (add_node (p_name p) g)). { split; cbn; [apply incl_appl, incl_refl|apply incl_refl]. }
          assert (Pd : provided d (p_name p)) by (split; [assumption|exists p; auto]).
          assert (S0 : psound (d :: names) g (add_node (p_name p) g) seen seen).
          { split; [|split; auto]. intros x H. cbn in H. apply in_app_or in H. destruct H as [H|[<-|[]]]; [left; assumption|right]. exists d. auto. }
          destruct (each_edge _ _ _ _ _ _ _) as [[g2 seen2]|] eqn:EE; [|discriminate].
          destruct (each_edge_pgood (add_plugins_to_graph_tree reg fuel) d p IHf G B _ _ _ _ _ (incl_refl _) EE) as (W1 & I1 & C1 & A1 & S1).
          destruct (IHn _ _ E) as (W & I & C & A & S).
          split; [eapply within_trans; [exact W0|]; eapply within_trans; eassumption|].
          split; [eapply incl_tran; [exact I1|]; eapply incl_tran; [|exact I]; apply incl_appl, incl_refl|]. split; [|split].
          -- intros K. apply C. assert (K2 : pcomplete g2 seen2) by (apply C1; eapply pcomplete_mono; eassumption).
             intros P HP. apply in_app_or in HP. destruct HP as [HP|[<-|[]]].
             ++ destruct (K2 P HP) as (N & x & px & Nx & Gx & Ex & Kx). split; [assumption|]. exists x, px. split; [assumption|]. split; [assumption|].
                split; [assumption|]. intros b Hb Nb. destruct (Kx b Hb Nb) as (q & Gq & Eq & Sq). exists q. split; [assumption|]. split; [assumption|].
                apply in_or_app. left. assumption.
             ++ split; [apply W1; cbn; apply in_or_app; right; left; reflexivity|]. exists d, p. split; [assumption|]. split; [assumption|].
                split; [reflexivity|]. intros b Hb Nb. destruct (A1 b Hb Nb) as (q & Gq & Eq & Sq). exists q. split; [assumption|]. split; [assumption|].
                apply in_or_app. left. assumption.
          -- intros x [<-|Hx] Nx; [|auto]. exists p. split; [assumption|]. apply I, in_or_app. right. left. reflexivity.
          -- eapply psound_trans; [exact S0|]. eapply psound_trans with (g2 := g2) (s2 := (seen2 ++ [p_name p])%list).
             ++ eapply psound_trans with (g2 := g2) (s2 := seen2).
                ** eapply psound_weaken; [|exact S1]. intros x [<-|[]]. assumption.
                ** split; [auto|]. split; [auto|]. intros x Hx. apply in_app_or in Hx. destruct Hx as [Hx|[<-|[]]]; [left; assumption|right]. exists d. auto.
             ++ eapply psound_weaken; eassumption.
  Qed.

  Lemma add_plugins_total rank : well_founded_registry reg rank -> forall fuel names g seen,
    (forall d, In d names -> d <> "batch_size" -> S (rank d) < fuel) -> 0 < fuel -> all_registered reg names ->
    exists g' seen', add_plugins_to_graph_tree reg fuel names g seen = Ok (g', seen').
  Proof.
    intros WF. induction fuel as [|fuel IHf]; intros names g seen HR Pos Reg; [lia|]. cbn [add_plugins_to_graph_tree].
    revert g seen. induction names as [|d names IHn]; intros g seen; cbn [each_plugin]; [eauto|].
    assert (Reg' : all_registered reg names).
    { intros x Hx. apply Reg. eapply needed_mono; [|exact Hx]. intros y Hy. apply need_asked. right. assumption. }
    specialize (IHn ltac:(intros x Hx; apply HR; right; assumption) Reg').
    destruct (String.eqb_spec d "batch_size") as [B|B]; [apply IHn|].
    destruct (Reg d ltac:(apply need_asked; left; reflexivity) B) as [p G]. rewrite G. destruct (mem (p_name p) seen); [apply IHn|].
    assert (Sub : forall y, In y (p_depends p) -> needed reg (d :: names) y).
    { intros y Hy. eapply need_dep; [apply need_asked; left; reflexivity|assumption|eassumption|assumption]. }
    assert (EE : forall deps, incl deps (p_depends p) -> forall g seen, exists g' seen',
      each_edge (add_plugins_to_graph_tree reg fuel) (plugin_edge reg (p_name p)) (fun dep => String.eqb dep "batch_size") (p_depends p) deps g seen = Ok (g', seen')).
    { induction deps as [|dep deps IHd]; intros Inc g0 s0; cbn [each_edge]; [eauto|].
      assert (Inc' : incl deps (p_depends p)) by (intros x Hx; apply Inc; right; assumption).
      destruct (String.eqb_spec dep "batch_size") as [Bd|Bd]; [apply IHd; assumption|].
      destruct (Reg dep (Sub dep (Inc dep (or_introl eq_refl))) Bd) as [q Gq]. unfold plugin_edge at 1. rewrite Gq.
      destruct (IHf (p_depends p) (add_edge (p_name p) (p_name q) g0) s0) as (g1 & s1 & ->).
      - intros x Hx Nx. specialize (WF d p x G Hx Nx). pose proof (HR d (or_introl eq_refl) B). lia.
      - pose proof (HR d (or_introl eq_refl) B). lia.
      - intros x Hx Nx. apply Reg; [|assumption]. eapply needed_mono; [|exact Hx]. assumption.
      - apply IHd. assumption. }
    destruct (EE (p_depends p) (incl_refl _) (add_node (p_name p) g) seen) as (g2 & s2 & ->). apply IHn.
  Qed.
End Graph.
