(** Model of how a fit writes its instruction into the backend file (context.py:358-390, json.dumps
    with the options of utils.py:31) and how from_backend reads it again (context.py:59-72, Python's
    eval). Text is a list of ASCII characters; JSON escapes everything else. No proofs in this
    file. *)
From Coq Require Import Ascii NArith.
From Verif Require Import Base.
Local Open Scope char_scope.
Local Open Scope list_scope.

Definition text := list ascii.
Definition txt (s : string) : text := list_ascii_of_string s.

(** A Python string is a list of code points. *)
Definition pystr := list N.

(** What json can write: None, True/False, numbers, the floats that are not finite, str, list (or tuple) and dict
    with string keys. A finite number is its sign and the digits that repr prints ([number] below);
    the trusted part is that Python reads back the number from these digits. *)
Inductive json :=
| JNull
| JBool (b : bool)
| JNan
| JInf (neg : bool)
| JNum (neg : bool) (digits : text)
| JStr (s : pystr)
| JList (l : list json)
| JDict (d : list (pystr * json)).

(** ** Writing *)

(** Comparison of Python strings, by code points. *)
Fixpoint str_le (a b : pystr) : bool :=
  match a, b with
  | [], _ => true
  | _ :: _, [] => false
  | x :: a', y :: b' => if N.eqb x y then str_le a' b' else N.ltb x y
  end.

(** utils.py:31 sort_keys: [sorted(dct.items())], keys are distinct. *)
Fixpoint insert_key {A} (kv : pystr * A) (d : list (pystr * A)) : list (pystr * A) :=
  match d with
  | [] => [kv]
  | kv' :: d' => if str_le (fst kv) (fst kv') then kv :: d else kv' :: insert_key kv d'
  end.
Fixpoint sort_keys {A} (d : list (pystr * A)) : list (pystr * A) :=
  match d with [] => [] | kv :: d' => insert_key kv (sort_keys d') end.

(** json/encoder.py ESCAPE_ASCII: \uXXXX with lower-case hexadecimal digits. *)
Definition hexchar (n : N) : ascii :=
  if N.ltb n 10 then ascii_of_N (48 + n) else ascii_of_N (87 + n).
Definition hex4 (n : N) : text :=
  [hexchar (n / 4096); hexchar (n / 256 mod 16); hexchar (n / 16 mod 16); hexchar (n mod 16)].
Definition backslash : ascii := "\".
Definition quote : ascii := """".
Definition newline : ascii := ascii_of_N 10.

(** A code point above 0xffff is written as two surrogates. *)
Definition high (n : N) : N := 55296 + (n - 65536) / 1024.
Definition low (n : N) : N := 56320 + (n - 65536) mod 1024.

Definition escape (n : N) : text :=
  (if n =? 34 then [backslash; quote]
   else if n =? 92 then [backslash; backslash]
   else if n =? 10 then [backslash; "n"]
   else if n =? 13 then [backslash; "r"]
   else if n =? 9 then [backslash; "t"]
   else if n =? 12 then [backslash; "f"]
   else if n =? 8 then [backslash; "b"]
   else if (32 <=? n) && (n <=? 126) then [ascii_of_N n]
   else if n <? 65536 then backslash :: "u" :: hex4 n
   else backslash :: "u" :: hex4 (high n) ++ backslash :: "u" :: hex4 (low n))%N.
Definition write_str (s : pystr) : text := quote :: flat_map escape s ++ [quote].

(** The line break and the indentation of four spaces per level (utils.py:31 indent=4). *)
Definition new_line (lvl : nat) : text := newline :: repeat " " (4 * lvl).
Fixpoint join {A} (sep : list A) (l : list (list A)) : list A :=
  match l with
  | [] => []
  | [x] => x
  | x :: l' => x ++ sep ++ join sep l'
  end.

(** json.dumps(..., sort_keys=True, indent=4); a float that is not finite is written as NaN, Infinity or -Infinity. *)
Fixpoint dumps (lvl : nat) (v : json) : text :=
  match v with
  | JNull => txt "null"
  | JBool b => txt (if b then "true" else "false")
  | JNan => txt "NaN"
  | JInf neg => (if neg then ["-"] else []) ++ txt "Infinity"
  | JNum neg digits => (if neg then ["-"] else []) ++ digits
  | JStr s => write_str s
  | JList [] => ["["; "]"]
  | JList l =>
      "[" :: new_line (S lvl) ++ join ("," :: new_line (S lvl)) (map (dumps (S lvl)) l)
      ++ new_line lvl ++ ["]"]
  | JDict [] => ["{"; "}"]
  | JDict d =>
      "{" :: new_line (S lvl)
      ++ join ("," :: new_line (S lvl))
           (map (fun kt => write_str (fst kt) ++ ":" :: " " :: snd kt)
                (sort_keys (map (fun kv => (fst kv, dumps (S lvl) (snd kv))) d)))
      ++ new_line lvl ++ ["}"]
  end.

(** ** Reading: Python's tokens *)

Definition is_digit (c : ascii) : bool := let n := N_of_ascii c in (48 <=? n)%N && (n <=? 57)%N.
Definition is_exp (c : ascii) : bool := Ascii.eqb c "e" || Ascii.eqb c "E".
Definition is_letter (c : ascii) : bool :=
  let n := N_of_ascii c in
  ((65 <=? n) && (n <=? 90) || (97 <=? n) && (n <=? 122) || (n =? 95))%N.

(** A number token goes on with digits, a dot, an exponent and the sign after it. [prev] is the
    character before. *)
Definition goes_on (prev c : ascii) : bool :=
  is_digit c || Ascii.eqb c "." || is_exp c
  || (is_exp prev && (Ascii.eqb c "+" || Ascii.eqb c "-")).
Fixpoint all_go_on (prev : ascii) (s : text) : bool :=
  match s with [] => true | c :: s' => goes_on prev c && all_go_on c s' end.

(** The literals of Python with digits in front: an integer without leading zeros, or digits with a
    fraction or an exponent or both. (Underscores, hexadecimal and complex numbers and a dot without
    digits around are not printed by repr and are refused here.) *)
Inductive nstate := NStart | NZero | NInt | NDot | NFrac | NExp | NSign | NExpDigits.
Definition nstep (st : nstate) (c : ascii) : option nstate :=
  match st with
  | NStart => if Ascii.eqb c "0" then Some NZero else if is_digit c then Some NInt else None
  | NZero => if Ascii.eqb c "." then Some NDot else if is_exp c then Some NExp else None
  | NInt => if is_digit c then Some NInt else if Ascii.eqb c "." then Some NDot
            else if is_exp c then Some NExp else None
  | NDot => if is_digit c then Some NFrac else None
  | NFrac => if is_digit c then Some NFrac else if is_exp c then Some NExp else None
  | NExp => if is_digit c then Some NExpDigits
            else if Ascii.eqb c "+" || Ascii.eqb c "-" then Some NSign else None
  | NSign => if is_digit c then Some NExpDigits else None
  | NExpDigits => if is_digit c then Some NExpDigits else None
  end.
Fixpoint nrun (st : nstate) (s : text) : bool :=
  match s with
  | [] => match st with NZero | NInt | NFrac | NExpDigits => true | _ => false end
  | c :: s' => match nstep st c with Some st' => nrun st' s' | None => false end
  end.
Definition number (s : text) : bool := nrun NStart s.

Inductive token :=
| TOpen | TClose | TBegin | TEnd | TComma | TColon | TMinus     (* { } [ ] , : - *)
| TNum (digits : text)
| TName (n : text)
| TStr (s : pystr).

(** Where the reader is: between tokens, in a number or a name (the characters so far, last one
    first), in a string (the code points so far, last one first), after a backslash, or in the
    hexadecimal digits after \u. *)
Inductive lstate :=
| Between
| InNum (acc : text)
| InName (acc : text)
| InStr (acc : pystr)
| InEsc (acc : pystr)
| InHex (acc : pystr) (k : nat) (n : N).

Definition start (c : ascii) : option (list token * lstate) :=
  if Ascii.eqb c " " || Ascii.eqb c newline then Some ([], Between)
  else if Ascii.eqb c "{" then Some ([TOpen], Between)
  else if Ascii.eqb c "}" then Some ([TClose], Between)
  else if Ascii.eqb c "[" then Some ([TBegin], Between)
  else if Ascii.eqb c "]" then Some ([TEnd], Between)
  else if Ascii.eqb c "," then Some ([TComma], Between)
  else if Ascii.eqb c ":" then Some ([TColon], Between)
  else if Ascii.eqb c "-" then Some ([TMinus], Between)
  else if Ascii.eqb c quote then Some ([], InStr [])
  else if is_digit c then Some ([], InNum [c])
  else if is_letter c then Some ([], InName [c])
  else None.

Definition hexval (c : ascii) : option N :=
  let n := N_of_ascii c in
  (if (48 <=? n) && (n <=? 57) then Some (n - 48)
   else if (97 <=? n) && (n <=? 102) then Some (n - 87)
   else if (65 <=? n) && (n <=? 70) then Some (n - 55)
   else None)%N.

(** Escapes of Python's string literals. Each \uXXXX is one code point: Python does not put
    surrogates together. (\a, \v, \x, \N, octal escapes and backslashes that stand for themselves are
    not written by json and are refused here.) *)
Definition unescape (c : ascii) : option N :=
  (if Ascii.eqb c quote then Some 34
   else if Ascii.eqb c backslash then Some 92
   else if Ascii.eqb c "n" then Some 10
   else if Ascii.eqb c "r" then Some 13
   else if Ascii.eqb c "t" then Some 9
   else if Ascii.eqb c "f" then Some 12
   else if Ascii.eqb c "b" then Some 8
   else None)%N.

Definition cons_tok (t : token) (r : option (list token * lstate)) : option (list token * lstate) :=
  match r with Some (ts, st) => Some (t :: ts, st) | None => None end.

Definition step (st : lstate) (c : ascii) : option (list token * lstate) :=
  match st with
  | Between => start c
  | InNum acc =>
      if goes_on (hd " " acc) c then Some ([], InNum (c :: acc))
      else if number (rev acc) && negb (is_letter c) then cons_tok (TNum (rev acc)) (start c) else None
  | InName acc =>
      if is_letter c || is_digit c then Some ([], InName (c :: acc))
      else cons_tok (TName (rev acc)) (start c)
  | InStr acc =>
      if Ascii.eqb c quote then Some ([TStr (rev acc)], Between)
      else if Ascii.eqb c backslash then Some ([], InEsc acc)
      else if Ascii.eqb c newline then None
      else Some ([], InStr (N_of_ascii c :: acc))
  | InEsc acc =>
      if Ascii.eqb c "u" then Some ([], InHex acc 3 0)
      else match unescape c with Some n => Some ([], InStr (n :: acc)) | None => None end
  | InHex acc k n =>
      match hexval c with
      | None => None
      | Some h =>
          let n' := (n * 16 + h)%N in
          match k with
          | O => Some ([], InStr (n' :: acc))
          | S k' => Some ([], InHex acc k' n')
          end
      end
  end.

Fixpoint lex (st : lstate) (s : text) : option (list token) :=
  match s with
  | [] =>
      match st with
      | Between => Some []
      | InNum acc => if number (rev acc) then Some [TNum (rev acc)] else None
      | InName acc => Some [TName (rev acc)]
      | _ => None
      end
  | c :: s' =>
      match step st c with
      | None => None
      | Some (ts, st') => match lex st' s' with Some ts' => Some (ts ++ ts') | None => None end
      end
  end.

(** ** Reading: Python's expressions *)

Inductive expr :=
| ENum (digits : text)
| EStr (s : pystr)
| EName (n : text)
| ENeg (e : expr)
| EList (l : list expr)
| EDict (d : list (expr * expr)).

(** Displays of lists and dictionaries, negation and atoms; a comma before the closing bracket is
    allowed. Other operators, calls, sets, tuples and comprehensions are not written by json. *)
Fixpoint parse (fuel : nat) (ts : list token) : option (expr * list token) :=
  match fuel with
  | O => None
  | S fuel =>
      match ts with
      | TNum d :: ts => Some (ENum d, ts)
      | TStr s :: ts => Some (EStr s, ts)
      | TName n :: ts => Some (EName n, ts)
      | TMinus :: ts => match parse fuel ts with Some (e, ts) => Some (ENeg e, ts) | None => None end
      | TBegin :: ts => match items fuel ts with Some (l, ts) => Some (EList l, ts) | None => None end
      | TOpen :: ts => match pairs fuel ts with Some (d, ts) => Some (EDict d, ts) | None => None end
      | _ => None
      end
  end
with items (fuel : nat) (ts : list token) : option (list expr * list token) :=
  match fuel with
  | O => None
  | S fuel =>
      match ts with
      | TEnd :: ts => Some ([], ts)
      | _ =>
          match parse fuel ts with
          | Some (e, TEnd :: ts) => Some ([e], ts)
          | Some (e, TComma :: ts) =>
              match items fuel ts with Some (l, ts) => Some (e :: l, ts) | None => None end
          | _ => None
          end
      end
  end
with pairs (fuel : nat) (ts : list token) : option (list (expr * expr) * list token) :=
  match fuel with
  | O => None
  | S fuel =>
      match ts with
      | TClose :: ts => Some ([], ts)
      | _ =>
          match parse fuel ts with
          | Some (k, TColon :: ts) =>
              match parse fuel ts with
              | Some (e, TClose :: ts) => Some ([(k, e)], ts)
              | Some (e, TComma :: ts) =>
                  match pairs fuel ts with Some (d, ts) => Some ((k, e) :: d, ts) | None => None end
              | _ => None
              end
          | _ => None
          end
      end
  end.

(** Setting an entry of a dictionary: an existing key keeps its place. *)
Fixpoint str_eqb (a b : pystr) : bool :=
  match a, b with
  | [], [] => true
  | x :: a', y :: b' => N.eqb x y && str_eqb a' b'
  | _, _ => false
  end.
Fixpoint put (k : pystr) (v : json) (d : list (pystr * json)) : list (pystr * json) :=
  match d with
  | [] => [(k, v)]
  | (k', v') :: d' => if str_eqb k k' then (k', v) :: d' else (k', v') :: put k v d'
  end.

(** Evaluation in from_backend. The three constants of Python are the only names that have a value there
    among those json can write ([true], [false], [null], [NaN], [Infinity] are not defined in
    context.py nor builtin). Keys that are not strings are not written by json: TypeError here. *)
Definition lookup_name (n : text) : result json :=
  if list_eq_dec Ascii.ascii_dec n (txt "None") then Ok JNull
  else if list_eq_dec Ascii.ascii_dec n (txt "True") then Ok (JBool true)
  else if list_eq_dec Ascii.ascii_dec n (txt "False") then Ok (JBool false)
  else Err NameError.
Fixpoint eval (e : expr) : result json :=
  match e with
  | ENum d => Ok (JNum false d)
  | EStr s => Ok (JStr s)
  | EName n => lookup_name n
  | ENeg e =>
      match eval e with
      | Ok (JNum neg d) => Ok (JNum (negb neg) d)
      | Ok (JInf neg) => Ok (JInf (negb neg))
      | Ok _ => Err TypeError
      | Err x => Err x
      end
  | EList l =>
      (fix go l acc :=
         match l with
         | [] => Ok (JList (rev acc))
         | e :: l => match eval e with Ok v => go l (v :: acc) | Err x => Err x end
         end) l []
  | EDict d =>
      (fix go d acc :=
         match d with
         | [] => Ok (JDict acc)
         | (k, e) :: d =>
             match eval k with
             | Ok (JStr s) => match eval e with Ok v => go d (put s v acc) | Err x => Err x end
             | Ok _ => Err TypeError
             | Err x => Err x
             end
         end) d []
  end.

(** eval of a text: reading it completely, then evaluating. (An instruction nested more than some
    two hundred levels deep is too deep for Python; this is not modelled.) *)
Definition py_eval (s : text) : result json :=
  match lex Between s with
  | None => Err SyntaxError
  | Some ts =>
      match parse (2 * S (List.length ts)) ts with
      | Some (e, []) => eval e
      | _ => Err SyntaxError
      end
  end.

(** context.py:377 and 63: the instruction of a context that from_backend makes out of the file of a
    fit. *)
Definition stored_instruct (v : json) : text := dumps 0 v.
Definition reopened_instruct (file_text : text) : result json := py_eval file_text.
