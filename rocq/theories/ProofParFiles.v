(** Lemmas about the parameter files that appletree ships. *)
From Coq Require Import Reals Lra.
From Verif Require Import Base BaseFacts ModelFloat ModelParameter ModelContext ModelParFiles SpecParameter SpecContext SpecParFiles
  ProofParameter ProofParameter2 ProofContext ProofShipped PropParameter PropContext.
Local Open Scope string_scope.
Local Open Scope list_scope.
Local Open Scope R_scope.

(** The five forms of entries. *)
Inductive form (s : setting) : Prop :=
| f_norm m sd lo hi im isd :
    s = mk_setting (Some "norm") (Some [("mean", Fin m); ("std", Fin sd)]) (Some (Fin lo, Fin hi)) (Some (Fin im)) (Some (Fin isd)) ->
    0 < sd -> lo <= m <= hi -> lo <= im <= hi -> 0 < isd -> form s
| f_twohalf m sp sn lo hi im isd :
    s = mk_setting (Some "twohalfnorm") (Some [("mu", Fin m); ("sigma_pos", Fin sp); ("sigma_neg", Fin sn)])
          (Some (Fin lo, Fin hi)) (Some (Fin im)) (Some (Fin isd)) ->
    lo <= m <= hi -> lo <= im <= hi -> 0 < isd -> form s
| f_uniform lo hi im isd :
    s = mk_setting (Some "uniform") (Some [("lower", Fin lo); ("upper", Fin hi)]) (Some (Fin lo, Fin hi)) (Some (Fin im)) (Some (Fin isd)) ->
    lo <= im <= hi -> 0 < isd -> form s
| f_free lo hi im isd :
    s = mk_setting (Some "free") (Some []) (Some (Fin lo, Fin hi)) (Some (Fin im)) (Some (Fin isd)) ->
    lo <= im <= hi -> 0 < isd -> form s
| f_fixed v : s = mk_setting (Some "fixed") (Some [("val", Fin v)]) None None None -> form s.

Lemma fin_range ty args lo hi im isd x : lo <= x <= hi ->
  in_range (mk_setting ty args (Some (Fin lo, Fin hi)) im isd) (Fin x).
Proof.
  intros [H1 H2]. exists (Fin lo), (Fin hi). split; [reflexivity|]. cbn.
  destruct (Rle_dec lo x) as [|N]; [|contradiction]. destruct (Rle_dec x hi) as [|N]; [|contradiction]. auto.
Qed.

Lemma fin_le a b : a <= b -> fle (Fin a) (Fin b) = true.
Proof. intros H. cbn. destruct (Rle_dec a b); [reflexivity|lra]. Qed.

Lemma form_sound sigmas cfg n s : solvable sigmas cfg -> In (n, s) cfg -> form s -> sound_setting sigmas s.
Proof.
  intros Hs Hi F. assert (Hs' := fun args ep en => Hs n s args ep en Hi). clear Hs Hi.
  destruct F as [m sd lo hi im isd -> H1 H2 H3 H4|m sp sn lo hi im isd -> H2 H3 H4|lo hi im isd -> H3 H4|lo hi im isd -> H3 H4|v ->].
  - clear Hs'. constructor.
    + exists "norm". split; [reflexivity|]. cbn. auto.
    + eapply drawable_norm; try reflexivity; [exact H1|apply fin_le; lra].
    + eapply startable_guess; try reflexivity; [discriminate|exact H4|apply fin_le; lra].
    + intros _. split; [eapply proper_norm; try reflexivity; [exact H1|discriminate|discriminate]|].
      split; [eexists _, _; split; [reflexivity|split; discriminate]|]. exists (Fin im). split; [reflexivity|]. apply fin_range, H3.
    + intros args x E. injection E as <-. cbn. intros [E|E]; [injection E as <-|discriminate E]. apply fin_range, H2.
    + discriminate.
  - destruct (Hs' _ _ _ eq_refl eq_refl eq_refl eq_refl) as (a & b & E & Ha & Hb). clear Hs'. constructor.
    + exists "twohalfnorm". split; [reflexivity|]. cbn. auto.
    + eapply drawable_twohalf; try reflexivity; [exact E|exact Ha|exact Hb|apply fin_le; lra].
    + eapply startable_guess; try reflexivity; [discriminate|exact H4|apply fin_le; lra].
    + intros _. split; [eapply proper_twohalf; try reflexivity; [exact E|exact Ha|exact Hb|discriminate|discriminate]|].
      split; [eexists _, _; split; [reflexivity|split; discriminate]|]. exists (Fin im). split; [reflexivity|]. apply fin_range, H3.
    + intros args x E'. injection E' as <-. cbn. intros [E'|E']; [discriminate E'|injection E' as <-]. apply fin_range, H2.
    + discriminate.
  - clear Hs'. constructor.
    + exists "uniform". split; [reflexivity|]. cbn. auto 6.
    + eapply drawable_uniform; try reflexivity. apply fin_le; lra.
    + eapply startable_guess; try reflexivity; [discriminate|exact H4|apply fin_le; lra].
    + intros _. split; [eapply proper_flat; try reflexivity; discriminate|].
      split; [eexists _, _; split; [reflexivity|split; discriminate]|]. exists (Fin im). split; [reflexivity|]. apply fin_range, H3.
    + intros args x E. injection E as <-. cbn. intros [E|E]; discriminate E.
    + intros _. eexists _, _, _. repeat split; reflexivity.
  - clear Hs'. constructor.
    + exists "free". split; [reflexivity|]. cbn. auto 7.
    + eapply drawable_free; try reflexivity; [exact H4|apply fin_le; lra].
    + eapply startable_guess; try reflexivity; [discriminate|exact H4|apply fin_le; lra].
    + intros _. split; [eapply proper_flat; try reflexivity; discriminate|].
      split; [eexists _, _; split; [reflexivity|split; discriminate]|]. exists (Fin im). split; [reflexivity|]. apply fin_range, H3.
    + intros args x E. injection E as <-. cbn. intros [E|E]; discriminate E.
    + discriminate.
  - clear Hs'. constructor.
    + exists "fixed". split; [reflexivity|]. cbn. auto.
    + eapply drawable_fixed; reflexivity.
    + eapply startable_fixed; reflexivity.
    + intros H. exfalso. apply H. reflexivity.
    + intros args x E. injection E as <-. cbn. intros [E|E]; discriminate E.
    + discriminate.
Qed.

Ltac solve_form :=
  first [ eapply f_fixed; reflexivity
        | eapply f_free; [reflexivity|lra|lra]
        | eapply f_norm; [reflexivity|lra|lra|lra|lra]
        | eapply f_uniform; [reflexivity|lra|lra]
        | eapply f_twohalf; [reflexivity|lra|lra|lra] ].

Lemma er_forms : Forall (fun ns => form (snd ns)) par_er.
Proof. unfold par_er. repeat (constructor; [cbn [snd]; solve_form|]). constructor. Qed.
Lemma er_rn220_ar37_forms : Forall (fun ns => form (snd ns)) par_er_rn220_ar37.
Proof. unfold par_er_rn220_ar37. repeat (constructor; [cbn [snd]; solve_form|]). constructor. Qed.
Lemma nr_low_forms : Forall (fun ns => form (snd ns)) par_nr_low.
Proof. unfold par_nr_low. repeat (constructor; [cbn [snd]; solve_form|]). constructor. Qed.
Lemma nestv2_forms : Forall (fun ns => form (snd ns)) par_nestv2.
Proof. unfold par_nestv2. repeat (constructor; [cbn [snd]; solve_form|]). constructor. Qed.
Lemma nestv2_yield_only_forms : Forall (fun ns => form (snd ns)) par_nestv2_yield_only.
Proof. unfold par_nestv2_yield_only. repeat (constructor; [cbn [snd]; solve_form|]). constructor. Qed.
Lemma er_nestv2_forms : Forall (fun ns => form (snd ns)) par_er_nestv2.
Proof. unfold par_er_nestv2. repeat (constructor; [cbn [snd]; solve_form|]). constructor. Qed.

Lemma shipped_forms f cfg : In (f, cfg) shipped_parameters -> NoDup (keys cfg) /\ Forall (fun ns => form (snd ns)) cfg.
Proof.
  intros H. unfold shipped_parameters in H. cbn [In] in H.
  repeat (destruct H as [H|H]; [apply (f_equal snd) in H; cbn [snd] in H; subst cfg; split|]); try destruct H.
  all: try (apply nodup_b_ok; vm_compute; reflexivity).
  - apply er_forms.
  - apply er_rn220_ar37_forms.
  - apply nr_low_forms.
  - apply nestv2_forms.
  - apply nestv2_yield_only_forms.
  - apply er_nestv2_forms.
Qed.

(** The prior is finite for a state whose parameters have been sampled. *)
Lemma sampled_finite sigmas st cfg : p_config st = cfg -> NoDup (keys cfg) ->
  (forall n, In n (p_fit st) <-> is_free cfg n) -> (forall n s, get n cfg = Some s -> sound_setting sigmas s) ->
  (forall n s, get n cfg = Some s -> exists x, get n (p_values st) = Some x /\ sampled_ok s x) ->
  exists r, log_prior sigmas st = Ok (Fin r).
Proof.
  intros Hc Hn Hfit Hs Hv.
  assert (F : forall n, In n (p_fit st) -> exists s x, get n cfg = Some s /\ get n (p_values st) = Some (Fin x) /\
                proper sigmas s /\ in_range s (Fin x)).
  { intros n Hi. apply Hfit in Hi. destruct Hi as (s & ty & Hi & Et & Hne). apply (In_get n s cfg Hn) in Hi.
    destruct (Hv n s Hi) as (x & Hx & Ok). unfold sampled_ok in Ok. rewrite Et in Ok.
    destruct (String.eqb_spec ty "fixed") as [->|_]; [contradiction|]. destruct Ok as [O1 O2].
    destruct (ss_free _ _ (Hs n s Hi)) as (P1 & P2 & _). { rewrite Et. intros E. injection E as ->. contradiction. }
    destruct (O2 P2) as [r ->]. exists s, r. auto. }
  destruct (C21_value sigmas st) as (rs & _ & H).
  - intros n Hi. destruct (F n Hi) as (s & x & E1 & E2 & E3 & _). exists s, x. rewrite Hc. auto.
  - intros n Hi (s' & v & E1 & E2 & Ho). destruct (F n Hi) as (s & x & G1 & G2 & _ & G3). rewrite Hc in E1.
    rewrite G1 in E1. rewrite G2 in E2. injection E1 as ->. injection E2 as <-. contradiction.
  - eauto.
Qed.
