(** Vocabulary for lineages that are written to a file: when two objects say the same. *)
From Verif Require Import Base ModelText.
Local Open Scope list_scope.

(** The same constants, numbers and strings in the same places; dictionaries have the same keys with
    values that say the same, in any order. (Unlike Python's ==, not a number says the same as itself and 1 is not
    the same as 1.0 or True.) *)
Inductive says_same : json -> json -> Prop :=
| ss_null : says_same JNull JNull
| ss_bool b : says_same (JBool b) (JBool b)
| ss_nan : says_same JNan JNan
| ss_inf n : says_same (JInf n) (JInf n)
| ss_num n d : says_same (JNum n d) (JNum n d)
| ss_str s : says_same (JStr s) (JStr s)
| ss_list l l' : Forall2 says_same l l' -> says_same (JList l) (JList l')
| ss_dict d d' : List.length d = List.length d' ->
    (forall k v, In (k, v) d -> exists v', In (k, v') d' /\ says_same v v') ->
    says_same (JDict d) (JDict d').
