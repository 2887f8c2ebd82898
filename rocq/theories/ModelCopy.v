(** Model of new_component (appletree/component.py:34-69, 551-569, 596-608). No proofs in this file. *)
From Verif Require Import Base ModelShare ModelConfig ModelComponent ModelCompile ModelLineage.
Local Open Scope string_scope.

(** A class of simulated components: its name, what its __init__ registers, and its class attributes
    norm_type, add_eps_to_hist and rate_name (component.py:28-32). *)
Record comp_class := mk_class {
  cc_name : string; cc_registry : registry; cc_norm : string; cc_eps : bool; cc_rate : string }.

(** component.py:59-69 set_binning: the bins_type must be irreg, meshgrid or None. *)
Definition bins_type_ok (b : value) : bool :=
  match b with
  | VNone => true
  | VStr s => String.eqb s "irreg" || String.eqb s "meshgrid"
  | _ => false
  end.

(** component.py:34-57, 204-207: making an object of the class; [bins] are the arguments bins and
    bins_type, if both are given. *)
Definition new_object (cls : comp_class) (name llh : option string) (bins : option (value * value))
  : result csim :=
  let n := match name with Some n => n | None => cc_name cls end in
  let l := match llh with Some l => l | None => cc_name cls ++ "_llh" end in
  let k := mk_component n l (cc_rate cls) (cc_registry cls) false [] [] "" None None None in
  match bins with
  | Some b => if bins_type_ok (snd b) then Ok (mk_csim k (cc_norm cls) (Some b) (cc_eps cls)) else Err ValueError
  | None => Ok (mk_csim k (cc_norm cls) None (cc_eps cls))
  end.

(** component.py:551-569 *)
Definition new_component (cls : comp_class) (s : csim) (llh : option string) (pass_binning : bool)
  : result csim :=
  let name := Some (k_name (cs_k s) ++ "_copy") in
  if pass_binning then
    match cs_bins s with
    | Some b => new_object cls name llh (Some b)
    | None => Err ValueError
    end
  else new_object cls name llh None.

(** component.py:603-608: a ComponentFixed is not made without file_name, which line 555 does not
    pass; the copy of a fixed component is never made. *)
Definition new_fixed_component (has_bins pass_binning : bool) (file_name_passed : option string)
  : result string :=
  if pass_binning && negb has_bins then Err ValueError
  else match file_name_passed with
       | Some f => if String.eqb f "" then Err ValueError else Ok f
       | None => Err ValueError
       end.

(** likelihood.py:255-269 register_component: the object made for a likelihood, before deduce. *)
Definition registered (cls : comp_class) (name llh : string) (bins : value * value) : result csim :=
  match new_object cls (Some name) (Some llh) (Some bins) with
  | Err e => Err e
  | Ok s =>
      let k := cs_k s in
      Ok (mk_csim (mk_component (k_name k) (k_llh k) (name ++ "_rate") (k_registry k) (k_noeff k) (k_worksheet k)
                     (k_needed k) (k_func k) (k_code k) (k_compile k) (k_simulate k))
                  (cs_norm s) (cs_bins s) (cs_eps s))
  end.

(** Assigning the attribute rate_name of an object. *)
Definition set_rate (r : string) (s : csim) : csim :=
  let k := cs_k s in
  mk_csim (mk_component (k_name k) (k_llh k) r (k_registry k) (k_noeff k) (k_worksheet k) (k_needed k) (k_func k)
             (k_code k) (k_compile k) (k_simulate k)) (cs_norm s) (cs_bins s) (cs_eps s).

(** component.py:403-438 deduce and compile of the object; the other attributes stay. *)
Definition build_sim (limit : nat) (data_names : list string) (func nodep : string) (noeff : bool) (f : fs)
    (plugins : string -> option plugin) (s : csim) (w : world) : world * csim * result unit :=
  let '(w', k', r) := build_component limit data_names func nodep noeff f plugins (cs_k s) w in
  (w', mk_csim k' (cs_norm s) (cs_bins s) (cs_eps s), r).
