(** Model of the way a context is stored in and restored from its backend file:
    json.dumps(self.instruct, sort_keys=True, indent=4) in context.py 380 (JSON_OPTIONS,
    utils.py 31) and eval of that text in from_backend, context.py 63. No proofs in this file.
    The text is modelled as tokens; inside a string token it is modelled character by character
    (characters are code points). Numbers are tokens: repr of a finite number evaluates to the same
    number. White space between tokens is irrelevant inside brackets. Not modelled: values that
    json.dumps refuses or converts (keys that are not strings, tuples), nesting limits. *)
From Coq Require Import ZArith.
From Verif Require Import Base.
Local Open Scope list_scope.

(** A string: its code points. *)
Definition text := list Z.

(** Python values that JSON can carry. [VFinite] is a finite number. *)
Inductive value :=
| VNull
| VBool (b : bool)
| VFinite (n : Z)
| VNanInf
| VText (s : text)
| VArr (l : list value)
| VObj (l : list (text * value)).

(** Tokens of the text. A bare word is one of true, false, null, NaN, Infinity; -Infinity is the
    word after a minus sign, which makes no difference. *)
Inductive tok :=
| TLBrace | TRBrace | TLBrack | TRBrack | TComma | TColon
| TNumber (n : Z)
| TWord
| TString (raw : text).

(** One hexadecimal digit. *)
Definition hex (d : Z) : Z := if (d <? 10)%Z then (48 + d)%Z else (87 + d)%Z.
Definition unhex (c : Z) : option Z :=
  if ((48 <=? c) && (c <=? 57))%Z%bool then Some (c - 48)%Z
  else if ((97 <=? c) && (c <=? 102))%Z%bool then Some (c - 87)%Z
  else None.

(** \uXXXX *)
Definition u4 (n : Z) : text :=
  [92; 117; hex (n / 4096); hex (n / 256 mod 16); hex (n / 16 mod 16); hex (n mod 16)]%Z.

(** json.encoder.py_encode_basestring_ascii, one character. *)
Definition escape1 (c : Z) : text :=
  (if c =? 34 then [92; 34]
   else if c =? 92 then [92; 92]
   else if c =? 10 then [92; 110]
   else if c =? 13 then [92; 114]
   else if c =? 9 then [92; 116]
   else if c =? 12 then [92; 102]
   else if c =? 8 then [92; 98]
   else if (32 <=? c) && (c <=? 126) then [c]
   else if c <? 65536 then u4 c
   else u4 (55296 + (c - 65536) / 1024) ++ u4 (56320 + (c - 65536) mod 1024))%Z%bool.
Definition escape (s : text) : text := flat_map escape1 s.

(** Evaluation of the characters of a Python string literal, as far as the escapes that occur. *)
Fixpoint unescape (raw : text) : option text :=
  match raw with
  | [] => Some []
  | c :: rest =>
      if (c =? 92)%Z then
        match rest with
        | e :: rest' =>
            if (e =? 117)%Z then
              match rest' with
              | a :: b :: c' :: d :: rest'' =>
                  match unhex a, unhex b, unhex c', unhex d, unescape rest'' with
                  | Some a, Some b, Some c', Some d, Some s =>
                      Some ((((a * 16 + b) * 16 + c') * 16 + d)%Z :: s)
                  | _, _, _, _, _ => None
                  end
              | _ => None
              end
            else
              let x := (if e =? 34 then Some 34 else if e =? 92 then Some 92
                        else if e =? 110 then Some 10 else if e =? 114 then Some 13
                        else if e =? 116 then Some 9 else if e =? 102 then Some 12
                        else if e =? 98 then Some 8 else None)%Z in
              match x, unescape rest' with
              | Some x, Some s => Some (x :: s)
              | _, _ => None
              end
        | [] => None
        end
      else match unescape rest with Some s => Some (c :: s) | None => None end
  end.

(** Order of keys for sort_keys=True. *)
Fixpoint text_leb (a b : text) : bool :=
  match a, b with
  | [], _ => true
  | _ :: _, [] => false
  | x :: a', y :: b' => if (x <? y)%Z then true else if (y <? x)%Z then false else text_leb a' b'
  end.
Fixpoint insert_key {V} (kv : text * V) (l : list (text * V)) : list (text * V) :=
  match l with
  | [] => [kv]
  | y :: l' => if text_leb (fst kv) (fst y) then kv :: l else y :: insert_key kv l'
  end.
Definition sort_keys {V} (l : list (text * V)) : list (text * V) := fold_right insert_key [] l.

(** Items separated by commas. *)
Fixpoint join (l : list (list tok)) : list tok :=
  match l with
  | [] => []
  | [x] => x
  | x :: l' => x ++ TComma :: join l'
  end.

(** json.dumps(v, sort_keys=True, indent=4) *)
Fixpoint dumps (v : value) : list tok :=
  match v with
  | VNull | VBool _ | VNanInf => [TWord]
  | VFinite n => [TNumber n]
  | VText s => [TString (escape s)]
  | VArr l => TLBrack :: join (map dumps l) ++ [TRBrack]
  | VObj l =>
      TLBrace :: join (map (fun kv => TString (escape (fst kv)) :: TColon :: snd kv)
                           (sort_keys (map (fun kv => (fst kv, dumps (snd kv))) l))) ++ [TRBrace]
  end.

(** d[k] = v on the dictionary being built by a dict display. *)
Fixpoint tset (k : text) (v : value) (d : list (text * value)) : list (text * value) :=
  match d with
  | [] => [(k, v)]
  | (k', v') :: d' => if list_eq_dec Z.eq_dec k k' then (k, v) :: d' else (k', v') :: tset k v d'
  end.

(** Python's eval of the tokens: a bare word is an unknown name. [fuel] bounds the recursion. *)
Fixpoint eval_value (fuel : nat) (ts : list tok) : result (value * list tok) :=
  match fuel with
  | 0 => Err RecursionError
  | S f =>
      match ts with
      | TNumber n :: r => Ok (VFinite n, r)
      | TWord :: _ => Err NameError
      | TString raw :: r =>
          match unescape raw with Some s => Ok (VText s, r) | None => Err SyntaxError end
      | TLBrack :: TRBrack :: r => Ok (VArr [], r)
      | TLBrack :: r => eval_items f [] r
      | TLBrace :: TRBrace :: r => Ok (VObj [], r)
      | TLBrace :: r => eval_pairs f [] r
      | _ => Err SyntaxError
      end
  end
with eval_items (fuel : nat) (acc : list value) (ts : list tok) : result (value * list tok) :=
  match fuel with
  | 0 => Err RecursionError
  | S f =>
      match eval_value f ts with
      | Err e => Err e
      | Ok (v, TComma :: r) => eval_items f (acc ++ [v]) r
      | Ok (v, TRBrack :: r) => Ok (VArr (acc ++ [v]), r)
      | Ok _ => Err SyntaxError
      end
  end
with eval_pairs (fuel : nat) (acc : list (text * value)) (ts : list tok) : result (value * list tok) :=
  match fuel with
  | 0 => Err RecursionError
  | S f =>
      match ts with
      | TString raw :: TColon :: r =>
          match unescape raw with
          | None => Err SyntaxError
          | Some k =>
              match eval_value f r with
              | Err e => Err e
              | Ok (v, TComma :: r') => eval_pairs f (tset k v acc) r'
              | Ok (v, TRBrace :: r') => Ok (VObj (tset k v acc), r')
              | Ok _ => Err SyntaxError
              end
          end
      | _ => Err SyntaxError
      end
  end.

(** eval(text): the whole text must be one expression. *)
Definition eval_text (fuel : nat) (ts : list tok) : result value :=
  match eval_value fuel ts with
  | Ok (v, []) => Ok v
  | Ok _ => Err SyntaxError
  | Err e => Err e
  end.

(** context.py 380 then 63. *)
Definition restore (fuel : nat) (instruct : value) : result value := eval_text fuel (dumps instruct).
