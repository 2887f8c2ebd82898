(** Vocabulary for writing an instruction to a file and reading it again. *)
From Coq Require Import Ascii NArith Sorted.
From Verif Require Import Base ModelText.
Local Open Scope list_scope.

(** Equality of Python objects: dictionaries are equal if they have the same keys with equal values, in any order. *)
Inductive same : json -> json -> Prop :=
| same_null : same JNull JNull
| same_bool b : same (JBool b) (JBool b)
| same_inf n : same (JInf n) (JInf n)
| same_num n d : same (JNum n d) (JNum n d)
| same_str s : same (JStr s) (JStr s)
| same_list l l' : Forall2 same l l' -> same (JList l) (JList l')
| same_dict d d' : List.length d = List.length d' ->
    (forall k v, In (k, v) d -> exists v', In (k, v') d' /\ same v v') ->
    same (JDict d) (JDict d').

(** [part x v]: x is v or inside v, at any depth. *)
Inductive part (x : json) : json -> Prop :=
| part_self : part x x
| part_item l v : In v l -> part x v -> part x (JList l)
| part_value d k v : In (k, v) d -> part x v -> part x (JDict d).

(** [text_in s v]: s is a string or a key in v. *)
Definition text_in (s : pystr) (v : json) : Prop :=
  part (JStr s) v \/ exists d, part (JDict d) v /\ In s (map fst d).

(** A Python object json can write: numbers are printed as Python prints them, code points are below 0x110000, the
    keys of a dictionary are distinct. *)
Record python_object (v : json) : Prop := mk_po {
  po_num : forall neg d, part (JNum neg d) v -> number d = true /\ ~ (neg = true /\ d = txt "0");
  po_text : forall s, text_in s v -> Forall (fun c => (c < 1114112)%N) s;
  po_keys : forall d, part (JDict d) v -> NoDup (map fst d) }.

(** The values that JSON writes with words of its own. *)
Definition json_word (x : json) : Prop :=
  x = JNull \/ (exists b, x = JBool b) \/ x = JNan \/ (exists n, x = JInf n).
Definition has_word (v : json) : Prop := exists x, json_word x /\ part x v.

(** All strings are in the Basic Multilingual Plane. *)
Definition basic (v : json) : Prop := forall s, text_in s v -> Forall (fun c => (c < 65536)%N) s.

(** Order of strings by code points; every dictionary has its keys in this order. *)
Inductive before : pystr -> pystr -> Prop :=
| before_nil y b : before [] (y :: b)
| before_lt x y a b : (x < y)%N -> before (x :: a) (y :: b)
| before_eq x a b : before a b -> before (x :: a) (x :: b).
Definition key_sorted (v : json) : Prop :=
  forall d, part (JDict d) v -> StronglySorted before (map fst d).

(** What becomes of a string: code points above 0xffff come back as two surrogates, by the definition of UTF-16. *)
Inductive split_up : pystr -> pystr -> Prop :=
| split_nil : split_up [] []
| split_basic c s s' : (c < 65536)%N -> split_up s s' -> split_up (c :: s) (c :: s')
| split_astral c h l s s' : (65536 <= c)%N ->
    (55296 <= h < 56320)%N -> (56320 <= l < 57344)%N ->
    (c = 65536 + (h - 55296) * 1024 + (l - 56320))%N ->
    split_up s s' -> split_up (c :: s) (h :: l :: s').
