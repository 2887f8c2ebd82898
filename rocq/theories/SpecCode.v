(** Specification vocabulary for the text of the generated code: which names are plain enough to be
    written into Python code, and which names must differ. *)
From Verif Require Import Base ModelShare ModelConfig ModelComponent ModelCode.
Local Open Scope string_scope.

(** The characters of a string. *)
Definition chars (s : string) : list ascii := list_ascii_of_string s.

Definition name_starts : list ascii :=
  chars "abcdefghijklmnopqrstuvwxyzABCDEFGHIJKLMNOPQRSTUVWXYZ_".
Definition name_chars : list ascii := (name_starts ++ chars "0123456789")%list.

(** A Python identifier in ASCII: a letter or an underscore, then letters, digits and underscores,
    and not a reserved word. *)
Definition identifier (x : string) : Prop :=
  (exists c r, x = String c r /\ In c name_starts) /\
  (forall c, In c (chars x) -> In c name_chars) /\
  ~ In x keywords.

(** A string that can be put between single quotes as it is: no quote, backslash, end of line or
    NUL character. *)
Definition quotable (s : string) : Prop :=
  forall c, In c (chars s) -> ~ In c ["'"; "\"; "010"; "013"; "000"]%char.

(** The name under which the instance of a plugin is kept in the namespace. *)
Definition instance_name (name : string) (wk : work) : string := w_plugin wk ++ "_" ++ name.

(** The local variables of the generated function. *)
Definition local_names (nodep : string) (ws : list work) : list string :=
  (["key"; nodep; "parameters"] ++ flat_map w_provides ws)%list.

(** All names are plain, so that the text can be read. *)
Record plain (name llh func nodep : string) (ws : list work) (data_names : list string) : Prop :=
  mk_plain {
  plain_name : forall c, In c (chars name) -> In c name_chars;
  plain_llh : quotable llh;
  plain_func : identifier func;
  plain_nodep : identifier nodep;
  plain_nodep_new : nodep <> "key" /\ nodep <> "parameters";
  plain_plugins : forall wk, In wk ws -> identifier (w_plugin wk);
  plain_provides : forall wk x, In wk ws -> In x (w_provides wk) -> identifier x;
  plain_depends : forall wk x, In wk ws -> In x (w_depends wk) -> identifier x;
  plain_outputs : forall x, In x data_names -> identifier x
}.

(** No name of the module hides another one: plugin classes are not called partial or jit, no
    instance is called like a plugin class, the function or a variable of the function. *)
Record no_clash (name func nodep : string) (ws : list work) : Prop := mk_no_clash {
  no_hidden_decorator : forall wk, In wk ws -> w_plugin wk <> "partial" /\ w_plugin wk <> "jit";
  no_hidden_class : forall wk wk', In wk ws -> In wk' ws -> instance_name name wk <> w_plugin wk';
  no_hidden_instance : forall wk, In wk ws ->
    instance_name name wk <> func /\ ~ In (instance_name name wk) (local_names nodep ws)
}.

(** The function reads only its own variables. *)
Definition reads_locals (nodep : string) (ws : list work) (data_names : list string) : Prop :=
  (forall wk x, In wk ws -> In x (w_depends wk) -> In x (local_names nodep ws)) /\
  (forall x, In x data_names -> In x (local_names nodep ws)).
