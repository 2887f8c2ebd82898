(** C134: which file a context made by from_backend is attached to. *)
From Coq Require Import Reals Lra.
From Verif Require Import Base ModelFloat ModelShare ModelParameter ModelFit ModelReopen PropFit.
Local Open Scope string_scope.
Local Open Scope list_scope.

Section Reopen.
  Variable Rng : Type.
  Variable files : string -> option (backend Rng).
  Variable cls : backend Rng -> result (fctx Rng).
  Notation open := (from_backend Rng files cls).

  (** os.path.isfile says yes for the h5 files. *)
  Definition seen (f : fs) := forall p b, files p = Some b -> isfile f p = true.

  (** The name of a file: the context is the one that the constructor makes of the instruct in this file, and its chain is the
      chain in this file, whatever name the instruct has for it. Nothing is looked up. *)
  Theorem C134_own f name c b t tree : isfile f name = true -> files name = Some b -> m_batch (b_meta Rng b) = Some t ->
    cls b = Ok tree -> snd (b_shape Rng b) = List.length (parameter_fit (x_pars Rng tree)) ->
    exists x s, open f name c = (c, Ok x) /\ x_pars Rng x = x_pars Rng tree /\ x_needed Rng x = x_needed Rng tree /\ x_cache Rng x = x_cache Rng tree /\
      x_h5 Rng x = true /\ x_file Rng x = Some b /\ x_sampler Rng x = Some s /\ s_names Rng s = parameter_fit (x_pars Rng tree) /\
      (b_steps Rng b <> [] -> stored Rng x s = Ok (b_steps Rng b)).
  Proof.
    intros Hi Hf Hb Hc Hs. unfold from_backend, get_file_path. rewrite Hi, Hf, Hb, Hc. unfold open_read_only, with_backend, pre_fitting. cbn [x_file x_h5 x_pars].
    rewrite Hf, Nat.eqb_refl, Hs, Nat.eqb_refl. cbn [andb negb]. eexists. eexists. split; [reflexivity|]. unfold with_sampler. cbn [x_pars x_needed x_cache x_h5 x_file x_sampler s_names].
    repeat (split; [reflexivity || exact Hf|]). unfold stored. cbn [s_mem x_file]. intros N. destruct (b_steps Rng b); [contradiction|reflexivity].
  Qed.

  (** A context is made only of the file of this name itself: its instruct and its chain come from the same file. *)
  Theorem C134_only f name c c' x : seen f -> open f name c = (c', Ok x) ->
    isfile f name = true /\ c' = c /\ exists b tree, files name = Some b /\ m_batch (b_meta Rng b) <> None /\ cls b = Ok tree /\
      x_file Rng x = Some b /\ x_pars Rng x = x_pars Rng tree /\ snd (b_shape Rng b) = List.length (parameter_fit (x_pars Rng tree)).
  Proof.
    intros Hs H. unfold from_backend in H. destruct (get_file_path f name c) as [c1 [path|e]] eqn:G; [|discriminate H].
    destruct (files path) as [b|] eqn:Fp; [|discriminate H]. destruct (m_batch (b_meta Rng b)) as [t|] eqn:Hb; [|discriminate H]. destruct (cls b) as [tree|e] eqn:Hc; [|discriminate H].
    unfold open_read_only, with_backend in H. cbn [x_file] in H. destruct (files name) as [b'|] eqn:Fn; [|discriminate H].
    assert (Hi := Hs _ _ Fn). unfold get_file_path in G. rewrite Hi in G. injection G as <- <-. rewrite Fn in Fp. injection Fp as ->.
    split; [exact Hi|]. unfold pre_fitting in H. cbn [x_file x_h5 x_pars] in H. rewrite Nat.eqb_refl in H. cbn [andb] in H.
    destruct (Nat.eqb _ _) eqn:Sh in H; cbn [negb] in H; [|discriminate H]. apply Nat.eqb_eq in Sh. injection H as <- <-. split; [reflexivity|].
    exists b, tree. split; [reflexivity|]. split; [congruence|]. split; [exact Hc|]. split; [reflexivity|]. split; [reflexivity|exact Sh].
  Qed.

  (** What is found in another place is refused, after the context has been made. *)
  Theorem C134_elsewhere f name c c1 path b t tree : seen f -> isfile f name = false -> get_file_path f name c = (c1, Ok path) ->
    files path = Some b -> m_batch (b_meta Rng b) = Some t -> cls b = Ok tree -> open f name c = (c1, Err RuntimeError).
  Proof.
    intros Hs Hi G Fp Hb Hc. unfold from_backend. rewrite G, Fp, Hb, Hc. unfold open_read_only, with_backend. cbn [x_file].
    destruct (files name) as [b'|] eqn:Fn; [|reflexivity]. rewrite (Hs _ _ Fn) in Hi. discriminate Hi.
  Qed.

  (** A file in which no fit has come to its end. *)
  Theorem C134_unfinished f name c b : isfile f name = true -> files name = Some b -> m_batch (b_meta Rng b) = None ->
    open f name c = (c, Err KeyError).
  Proof. intros Hi Hf Hb. unfold from_backend, get_file_path. rewrite Hi, Hf, Hb. reflexivity. Qed.

  (** A parameter configuration with another number of fitted parameters than in the fit. *)
  Theorem C134_other_number f name c b t tree : isfile f name = true -> files name = Some b -> m_batch (b_meta Rng b) = Some t ->
    cls b = Ok tree -> snd (b_shape Rng b) <> List.length (parameter_fit (x_pars Rng tree)) -> open f name c = (c, Err ValueError).
  Proof.
    intros Hi Hf Hb Hc Hs. unfold from_backend, get_file_path. rewrite Hi, Hf, Hb, Hc. unfold open_read_only, with_backend, pre_fitting. cbn [x_file x_h5 x_pars].
    rewrite Hf, Nat.eqb_refl. apply Nat.eqb_neq in Hs. rewrite Hs. reflexivity.
  Qed.
End Reopen.

(** ** Cases *)

(** The file of the fit of PropFit, stored at [at]. *)
Definition ex_files (where_ : string) (p : string) : option (backend nat) := if String.eqb p where_ then x_file nat ex_one else None.
Definition ex_fs (where_ : string) : fs := mk_fs (String.eqb where_) (String.eqb where_) (fun d => "/apt/" ++ d)%string false [] (fun x => x) true (fun _ => None).
(** The constructor gives a context that fits [n], and whose instruct names another file. *)
Definition ex_cls (n : string) (b : backend nat) : result (fctx nat) := Ok (ex_ctx n ex_free false).

Example C134_seen where_ : seen nat (ex_files where_) (ex_fs where_).
Proof. intros p b H. unfold ex_files in H. cbn. rewrite String.eqb_sym. destruct (String.eqb p where_); [reflexivity|discriminate H]. Qed.
Example C134_case : exists x b w, from_backend nat (ex_files "new.h5") (ex_cls "a") (ex_fs "new.h5") "new.h5" empty_rdict = (empty_rdict, Ok x) /\
  x_file nat x = Some b /\ b_steps nat b = [[w]] /\ w_pos w = [Fin 0].
Proof. do 3 eexists. split; [lazy; reflexivity|]. split; [lazy; reflexivity|]. split; lazy; reflexivity. Qed.
Example C134_other_number_case : exists b, x_file nat ex_one = Some b /\ m_batch (b_meta nat b) <> None /\ b_shape nat b = (1, 1)%nat.
Proof. eexists. split; [lazy; reflexivity|]. split; [lazy; discriminate|lazy; reflexivity]. Qed.
Example C134_unfinished_case : exists x' err b, ex_fit 1 3 ex_pair (ex_ctx "a" ex_free true) = (x', Err err) /\ x_file nat x' = Some b /\ m_batch (b_meta nat b) = None.
Proof. do 3 eexists. split; [lazy; reflexivity|]. split; lazy; reflexivity. Qed.

(** The search of get_file_path is of no use for from_backend: the file is found under url_base and a context is made of its
    instruct, but the backend is opened under the bare name. *)
Theorem C134_url_base_refuted : exists c b, contents c = [("url_base", VStr "/data")] /\
  snd (get_file_path (ex_fs "/data/fit.h5") "fit.h5" c) = Ok "/data/fit.h5" /\
  ex_files "/data/fit.h5" "/data/fit.h5" = Some b /\ m_batch (b_meta nat b) <> None /\ is_ok (ex_cls "a" b) = true /\
  snd (from_backend nat (ex_files "/data/fit.h5") (ex_cls "a") (ex_fs "/data/fit.h5") "fit.h5" c) = Err RuntimeError /\
  is_ok (snd (from_backend nat (ex_files "/data/fit.h5") (ex_cls "a") (ex_fs "/data/fit.h5") "/data/fit.h5" c)) = true.
Proof.
  exists (mk_rdict [("url_base", VStr "/data")] []). eexists. split; [reflexivity|]. split; [reflexivity|]. split; [lazy; reflexivity|].
  split; [lazy; discriminate|]. split; [reflexivity|]. split; [lazy; reflexivity|]. lazy. reflexivity.
Qed.

(** The names of the fitted parameters are not compared with those in the file: with a par_config file in which another parameter is
    fitted than in the fit, the context opens and gives the samples of the one to the other. *)
Theorem C134_names_refuted : exists x s b, from_backend nat (ex_files "fit.h5") (ex_cls "b") (ex_fs "fit.h5") "fit.h5" empty_rdict = (empty_rdict, Ok x) /\
  x_file nat x = Some b /\ m_names (b_meta nat b) = Some ["a"] /\ x_sampler nat x = Some s /\ s_names nat s = ["b"] /\ stored nat x s = Ok (b_steps nat b).
Proof. do 3 eexists. split; [lazy; reflexivity|]. repeat (split; [lazy; reflexivity|]). lazy. reflexivity. Qed.

Print Assumptions C134_own.
Print Assumptions C134_only.
Print Assumptions C134_elsewhere.
Print Assumptions C134_unfinished.
Print Assumptions C134_other_number.
Print Assumptions C134_url_base_refuted.
Print Assumptions C134_names_refuted.
