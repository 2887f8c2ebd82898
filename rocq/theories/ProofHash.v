(** A way to write lineages as strings without collisions, so that the assumptions on hashes in C102
    and C106 can be met. *)
From Coq Require Import Ascii.
From Verif Require Import Base ModelFloat ModelParameter ModelShare ModelConfig ModelComponent ModelCompile
  ModelLineage SpecLineage ModelCtxLineage SpecCtxLineage.
Local Open Scope string_scope.

(** [w a r] is what is written for [a] followed by [r]. *)
Definition writer (A : Type) := A -> string -> string.
Definition exact {A} (w : writer A) : Prop := forall a b r s, w a r = w b s -> a = b /\ r = s.

Fixpoint w_str (s : string) (r : string) : string :=
  match s with EmptyString => "0" ++ r | String c s' => "1" ++ String c (w_str s' r) end.
Fixpoint w_pos (p : positive) (r : string) : string :=
  match p with xH => "0" ++ r | xO q => "1" ++ w_pos q r | xI q => "2" ++ w_pos q r end.
Definition w_Z (z : Z) (r : string) : string :=
  match z with Z0 => "0" ++ r | Zpos p => "1" ++ w_pos p r | Zneg p => "2" ++ w_pos p r end.
Definition w_list {A} (w : writer A) : writer (list A) :=
  fix go l r := match l with [] => "0" ++ r | x :: l' => "1" ++ w x (go l' r) end.
Definition w_pair {A B} (w : writer A) (v : writer B) : writer (A * B) := fun ab r => w (fst ab) (v (snd ab) r).
Definition w_opt {A} (w : writer A) : writer (option A) :=
  fun o r => match o with None => "0" ++ r | Some x => "1" ++ w x r end.
Definition w_by {A B} (f : A -> B) (w : writer B) : writer A := fun a => w (f a).
Fixpoint w_value (v : value) (r : string) : string :=
  match v with
  | VNone => "0" ++ r
  | VBool true => "1" ++ r
  | VBool false => "2" ++ r
  | VNum z => "3" ++ w_Z z r
  | VStr s => "4" ++ w_str s r
  | VList l => "5" ++ (fix go l r := match l with [] => "0" ++ r | x :: l' => "1" ++ w_value x (go l' r) end) l r
  | VDict d => "6" ++ (fix go l r := match l with
      | [] => "0" ++ r | (n, x) :: l' => "1" ++ w_str n (w_value x (go l' r)) end) d r
  end.

Lemma e_str : exact w_str.
Proof.
  intros a. induction a as [|c a IH]; intros [|c' b] r s H; cbn in H; try discriminate; injection H as H; subst.
  - auto.
  - destruct (IH _ _ _ H0). subst. auto.
Qed.
Lemma e_pos : exact w_pos.
Proof.
  intros a. induction a as [a IH|a IH|]; intros [b|b|] r s H; cbn in H; try discriminate; injection H as H; subst;
    try (destruct (IH _ _ _ H); subst); auto.
Qed.
Lemma e_Z : exact w_Z.
Proof.
  intros [|p|p] [|q|q] r s H; cbn in H; try discriminate; injection H as H; auto;
    destruct (e_pos _ _ _ _ H); subst; auto.
Qed.
Lemma e_list {A} (w : writer A) : exact w -> exact (w_list w).
Proof.
  intros E a. induction a as [|x a IH]; intros [|y b] r s H; cbn in H; try discriminate; injection H as H; auto.
  destruct (E _ _ _ _ H) as [-> H1]. destruct (IH _ _ _ H1); subst. auto.
Qed.
Lemma e_pair {A B} (w : writer A) (v : writer B) : exact w -> exact v -> exact (w_pair w v).
Proof.
  intros E F [a a'] [b b'] r s H. unfold w_pair in H. cbn in H. destruct (E _ _ _ _ H) as [-> H1].
  destruct (F _ _ _ _ H1); subst. auto.
Qed.
Lemma e_opt {A} (w : writer A) : exact w -> exact (w_opt w).
Proof.
  intros E [a|] [b|] r s H; cbn in H; try discriminate; injection H as H; auto. destruct (E _ _ _ _ H); subst. auto.
Qed.
Lemma e_by {A B} (f : A -> B) (w : writer B) : (forall a b, f a = f b -> a = b) -> exact w -> exact (w_by f w).
Proof. intros F E a b r s H. destruct (E _ _ _ _ H) as [H1 H2]. auto. Qed.

Lemma e_value : exact w_value.
Proof.
  unfold exact. fix IH 1. intros [|x|z|t|l|d].
  - intros [|y|y|u|l2|d2] r s H; cbn in H; try destruct y; try discriminate. injection H as H; try (subst; split; reflexivity).
  - intros [|y|y|u|l2|d2] r s H; destruct x; cbn in H; try destruct y; try discriminate; injection H as H; try (subst; split; reflexivity).
  - intros [|y|y|u|l2|d2] r s H; cbn in H; try (destruct y; discriminate); try discriminate.
    injection H as H. destruct (e_Z _ _ _ _ H); subst; split; reflexivity.
  - intros [|y|y|u|l2|d2] r s H; cbn in H; try (destruct y; discriminate); try discriminate.
    injection H as H. destruct (e_str _ _ _ _ H); subst; split; reflexivity.
  - intros [|y|y|u|l2|d2] r s H; cbn in H; try (destruct y; discriminate); try discriminate.
    injection H as H.
    enough (E : l = l2 /\ r = s) by (destruct E; subst; split; reflexivity). revert l2 r s H.
    induction l as [|x l IHl]; intros [|y l2] r s H; try discriminate; injection H as H; try (subst; split; reflexivity).
    destruct (IH x _ _ _ H) as [-> H1]. destruct (IHl _ _ _ H1); subst. split; reflexivity.
  - intros [|y|y|u|l2|d2] r s H; cbn in H; try (destruct y; discriminate); try discriminate.
    injection H as H.
    enough (E : d = d2 /\ r = s) by (destruct E; subst; split; reflexivity). revert d2 r s H.
    induction d as [|[n x] d IHl]; intros [|[m y] d2] r s H; try discriminate; injection H as H; try (subst; split; reflexivity).
    destruct (e_str _ _ _ _ H) as [-> H0].
    destruct (IH x _ _ _ H0) as [-> H1]. destruct (IHl _ _ _ H1); subst. split; reflexivity.
Qed.

Definition w_strs := w_list w_str.
Definition w_map : writer map_lineage :=
  w_by (fun m => (ml_llh m, (ml_method m, (ml_file m, ml_sha m))))
    (w_pair (w_opt w_str) (w_pair w_str (w_pair w_str w_str))).
Definition w_config (l : config_lineage) (r : string) : string :=
  match l with
  | LValue llh v => "0" ++ w_pair (w_opt w_str) w_value (llh, v) r
  | LMap m => "1" ++ w_map m r
  | LSigma llh meth ms => "2" ++ w_pair (w_opt w_str) (w_pair w_str (w_list w_map)) (llh, (meth, ms)) r
  end.
Definition w_plugin_lineage : writer plugin_lineage :=
  w_by (fun l => (pl_depends l, (pl_provides l, (pl_params l, pl_configs l))))
    (w_pair w_strs (w_pair w_strs (w_pair w_strs (w_list (w_pair w_str w_config))))).
Definition w_prog : writer prog :=
  w_by (fun p => (pr_imports p, (pr_insts p, (pr_llh p, (pr_func p, (pr_nodep p, (pr_body p, pr_return p)))))))
    (w_pair w_strs (w_pair (w_list (w_pair w_str w_str)) (w_pair w_str (w_pair w_str (w_pair w_str
      (w_pair (w_list (w_pair (w_pair w_strs w_str) w_strs)) w_strs)))))).
Definition w_comp : writer comp_lineage :=
  w_by (fun l => (l_rate l, (l_norm l, (l_code l, (l_insts l, l_bins l)))))
    (w_pair w_str (w_pair w_str (w_pair w_prog (w_pair (w_list (w_pair w_str w_plugin_lineage))
      (w_opt (w_pair w_value w_value)))))).
Definition w_fixed : writer fixed_lineage :=
  w_by (fun l => (fl_rate l, (fl_norm l, (fl_bins l, (fl_file l, fl_sha l)))))
    (w_pair w_str (w_pair w_str (w_pair (w_pair w_value w_value) (w_pair w_str w_str)))).
Definition w_any (l : any_lineage) (r : string) : string :=
  match l with ALSim l => "0" ++ w_comp l r | ALFixed l => "1" ++ w_fixed l r end.

Local Hint Resolve e_str e_Z e_list e_pair e_opt e_value : exact.
Lemma e_map : exact w_map.
Proof. apply e_by; [|auto 10 with exact]. intros [] []; cbn. congruence. Qed.
Local Hint Resolve e_map : exact.
Lemma e_config : exact w_config.
Proof.
  assert (E1 : exact (w_pair (w_opt w_str) w_value)) by auto 10 with exact.
  assert (E2 : exact (w_pair (w_opt w_str) (w_pair w_str (w_list w_map)))) by auto 10 with exact.
  intros [llh v|m|llh meth ms] [llh2 v2|m2|llh2 meth2 ms2] r s H;
    cbn -[w_pair w_map w_list] in H; try discriminate; injection H as H.
  - apply E1 in H. destruct H as [H ->]. injection H as -> ->. auto.
  - apply e_map in H. destruct H; subst; auto.
  - apply E2 in H. destruct H as [H ->]. injection H as -> -> ->. auto.
Qed.
Local Hint Resolve e_config : exact.
Lemma e_plugin : exact w_plugin_lineage.
Proof. apply e_by; [|unfold w_strs; auto 20 with exact]. intros [] []; cbn. congruence. Qed.
Lemma e_prog : exact w_prog.
Proof. apply e_by; [|unfold w_strs; auto 20 with exact]. intros [] []; cbn. congruence. Qed.
Local Hint Resolve e_plugin e_prog : exact.
Lemma e_comp : exact w_comp.
Proof. apply e_by; [|auto 20 with exact]. intros [] []; cbn. congruence. Qed.
Lemma e_fixed : exact w_fixed.
Proof. apply e_by; [|auto 20 with exact]. intros [] []; cbn. congruence. Qed.

(** What is written for a lineage, as its hash. *)
Definition written (l : any_lineage) : string := w_any l "".
Lemma written_exact l l' : written l = written l' -> l = l'.
Proof.
  unfold written. intros H.
  destruct l as [l|l], l' as [l'|l']; cbn -[w_comp w_fixed] in H; try discriminate; injection H as H.
  - apply e_comp in H. destruct H; subst; auto.
  - apply e_fixed in H. destruct H; subst; auto.
Qed.
Lemma same_any_refl l : same_any l l.
Proof.
  destruct l as [l|l]; cbn; [|reflexivity]. unfold same_lineage. repeat split; auto.
  intros n. destruct (get n (l_insts l)); auto. repeat split. 
Qed.
Lemma same_by_refl {A} (R : A -> A -> Prop) d : (forall a, R a a) -> same_by R d d.
Proof. intros H n. destruct (get n d); auto. Qed.
Lemma same_ctx_refl l : same_ctx l l.
Proof.
  split; [|split]; [intros n; reflexivity..|]. apply same_by_refl. intros [c f s ds|c hs]; cbn.
  - repeat split. apply same_by_refl, same_any_refl.
  - split; [reflexivity|]. intros n. reflexivity.
Qed.
Lemma written_no_collision : no_hash_collision written.
Proof. intros l l' H. rewrite (written_exact _ _ H). apply same_any_refl. Qed.
