(** Model of Context.get_num_events_accepted and Context.print_context_summary
    (appletree/context.py:136-161, likelihood.py:377-436, 564-586). No proofs in this file.
    Of the printed text the model keeps, for every likelihood, its name, bins_on, data_rate and the components with
    their number, name, type, rate_par and pars. Not kept: bins_type, bins, the file names, logpdf_args and the
    worksheets, and how numbers, lists and sets are printed. *)
From Coq Require Import Reals.
From Verif Require Import Base ModelFloat ModelParameter ModelLikelihood ModelBinning ModelLit ModelContext ModelWhole.
Local Open Scope string_scope.
Local Open Scope list_scope.

Section Summary.
  Variable K : Type.

  (** context.py:156 [hasattr(likelihood, "data_hist")] *)
  Definition has_hist (L : wlik K) : bool := match wl_type L with MDefault _ => true | MLit _ _ => false end.

  (** context.py:147-161 get_num_events_accepted. [fresh i] is the i-th key that randgen.get_key() gives
      (likelihood.py:386). Also the number of keys drawn and the names in the warnings. *)
  Fixpoint events_loop (ls : dict (wlik K)) (fresh : nat -> K) (batch : nat) (p : params) (drawn : nat)
      (warned : list string) (n : fl) : nat * list string * result fl :=
    match ls with
    | [] => (drawn, warned, Ok n)
    | (name, L) :: rest =>
        if has_hist L then
          match get_num_events_accepted (wl_llh L) (fresh drawn) batch p with
          | Err e => (S drawn, warned, Err e)
          | Ok x => events_loop rest fresh batch p (S drawn) warned (fadd n x)
          end
        else events_loop rest fresh batch p drawn (warned ++ [name]) n
    end.

  Definition context_events (c : context K) (fresh : nat -> K) (p : params) (batch : nat)
      : nat * list string * result fl :=
    events_loop (cx_llhs c) fresh batch p 0 [] (Fin 0).

  (** likelihood.py:390-411 _print_components: number and name of a component, and its type, rate_par and pars unless
      it is neither simulated nor fixed. The rate is called after the component (component.py:43). *)
  Inductive ctype := TypeSim | TypeFixed.
  Record cline := mk_cline { cl_number : nat; cl_name : string; cl_rest : option (ctype * string * list string) }.
  Definition component_line (i : nat) (name : string) (c : lcomp K) : cline :=
    mk_cline i name
      match l_kind c with
      | LSim _ => Some (TypeSim, (name ++ "_rate")%string, l_needed c)
      | LFixed _ => Some (TypeFixed, (name ++ "_rate")%string, l_needed c)
      | LOther => None
      end.
  Fixpoint component_lines (i : nat) (cs : dict (lcomp K)) : list cline :=
    match cs with
    | [] => []
    | (name, c) :: rest => component_line i name c :: component_lines (S i) rest
    end.

  (** likelihood.py:413-436, 564-586 print_likelihood_summary; a LikelihoodLit prints no data_rate. *)
  Record lsection := mk_lsection { ls_name : string; ls_on : list string; ls_rate : option fl; ls_components : list cline }.
  Definition likelihood_section (name : string) (L : wlik K) : lsection :=
    mk_lsection name (m_on (wl_type L))
      match wl_type L with MDefault _ => Some (fsum (ll_data (wl_llh L))) | MLit _ _ => None end
      (component_lines 0 (ll_components (wl_llh L))).

  (** context.py:136-145 print_context_summary *)
  Definition context_summary (c : context K) : list lsection * result unit :=
    match sanity_check (cx_needed c) (keys (p_values (cx_pars c))) with
    | Err e => ([], Err e)
    | Ok _ => (map (fun nl => likelihood_section (fst nl) (snd nl)) (cx_llhs c), Ok tt)
    end.
End Summary.
Arguments has_hist {K} _.
Arguments component_line {K} _ _ _.
Arguments component_lines {K} _ _.
Arguments likelihood_section {K} _ _.
Arguments context_summary {K} _.
Arguments context_events {K} _ _ _ _.
Arguments events_loop {K} _ _ _ _ _ _ _.
