(* Evaluating the texts that repr() gives: a small part of Python's grammar,
   [Name(name=int, name=int)] and [Name([int, int])], and how keyword arguments
   are passed. *)
From Coq Require Import String Ascii ZArith List Bool DecimalString.
From Verif Require Import Py.
Import ListNotations.
Local Open Scope string_scope.
Open Scope list_scope.
Open Scope Z_scope.

(* the longest beginning whose characters satisfy p, and the rest *)
Fixpoint span (p : ascii -> bool) (s : string) : string * string :=
  match s with
  | EmptyString => (EmptyString, EmptyString)
  | String a r => if p a then let (x, y) := span p r in (String a x, y) else (EmptyString, s)
  end.

Definition digit (a : ascii) : bool := let n := nat_of_ascii a in (48 <=? n)%nat && (n <=? 57)%nat.
Definition letter (a : ascii) : bool :=
  let n := nat_of_ascii a in ((65 <=? n)%nat && (n <=? 90)%nat) || ((97 <=? n)%nat && (n <=? 122)%nat) || (n =? 95)%nat.
Definition name_char (a : ascii) : bool := letter a || digit a.
Definition int_char (a : ascii) : bool := digit a || Ascii.eqb a "-".

Fixpoint all_chars (p : ascii -> bool) (s : string) : bool :=
  match s with EmptyString => true | String a r => p a && all_chars p r end.
(* a Python name *)
Definition identifier (s : string) : Prop :=
  all_chars name_char s = true /\ match s with String a _ => letter a = true | EmptyString => False end.

(* an int, and what follows it *)
Definition parse_int (s : string) : option (Z * string) :=
  let (d, r) := span int_char s in
  match NilZero.int_of_string d with Some i => Some (Z.of_int i, r) | None => None end.

(* name=int, and what follows it *)
Definition parse_keyword (s : string) : option ((string * Z) * string) :=
  let (n, r) := span name_char s in
  match n, r with
  | String a _, String "=" r => if letter a then match parse_int r with Some (v, r) => Some ((n, v), r) | None => None end else None
  | _, _ => None
  end.

(* items separated by ", " up to the closing character, after the first *)
Fixpoint parse_more {A} (item : string -> option (A * string)) (close : ascii) (fuel : nat) (s : string) : option (list A * string) :=
  match fuel with
  | O => None
  | S fuel =>
      match s with
      | String c r =>
          if Ascii.eqb c close then Some ([], r)
          else match s with
               | String "," (String " " r) =>
                   match item r with
                   | Some (x, r) => match parse_more item close fuel r with Some (xs, r) => Some (x :: xs, r) | None => None end
                   | None => None
                   end
               | _ => None
               end
      | EmptyString => None
      end
  end.

(* any number of items up to the closing character *)
Definition parse_items {A} (item : string -> option (A * string)) (close : ascii) (s : string) : option (list A * string) :=
  match s with
  | String c r =>
      if Ascii.eqb c close then Some ([], r)
      else match item s with
           | Some (x, r) => match parse_more item close (S (String.length r)) r with Some (xs, r) => Some (x :: xs, r) | None => None end
           | None => None
           end
  | EmptyString => None
  end.

Fixpoint no_repeats (l : list string) : bool :=
  match l with [] => true | x :: l => negb (existsb (String.eqb x) l) && no_repeats l end.

(* A call with keyword arguments: the name that is called and the arguments; None
   is SyntaxError, also for a keyword given twice. *)
Definition keyword_call (s : string) : option (string * list (string * Z)) :=
  let (n, r) := span name_char s in
  match n, r with
  | String a _, String "(" r =>
      if letter a then
        match parse_items parse_keyword ")" r with
        | Some (kws, EmptyString) => if no_repeats (map fst kws) then Some (n, kws) else None
        | _ => None
        end
      else None
  | _, _ => None
  end.

(* Name() or Name([int, ...]): the name that is called and the items of the list *)
Definition list_call (s : string) : option (string * list Z) :=
  let (n, r) := span name_char s in
  match n, r with
  | String a _, String "(" r =>
      if letter a then
        match r with
        | ")" => Some (n, [])
        | String "[" r => match parse_items parse_int "]" r with Some (l, ")") => Some (n, l) | _ => None end
        | _ => None
        end
      else None
  | _, _ => None
  end.

(* Keyword arguments for the parameters of a function: their values in the order
   of the parameters, TypeError if one is missing or unknown. *)
Fixpoint keyword_value (n : string) (kws : list (string * Z)) : res Z :=
  match kws with [] => Err TypeError | (m, v) :: kws => if String.eqb m n then Ok v else keyword_value n kws end.
Definition bind_keywords (params : list string) (kws : list (string * Z)) : res (list Z) :=
  if forallb (fun p => existsb (String.eqb (fst p)) params) kws then map_res (fun n => keyword_value n kws) params
  else Err TypeError.

(* The number a literal like 0x1f or 0X1F stands for. *)
Definition hex_value (c : ascii) : option Z :=
  let n := Z.of_nat (nat_of_ascii c) in
  if (48 <=? n) && (n <=? 57) then Some (n - 48)
  else if (97 <=? n) && (n <=? 102) then Some (n - 87)
  else if (65 <=? n) && (n <=? 70) then Some (n - 55)
  else None.
Fixpoint hex_digits (acc : Z) (s : string) : option Z :=
  match s with
  | EmptyString => Some acc
  | String c r => match hex_value c with Some v => hex_digits (16 * acc + v) r | None => None end
  end.
Definition hex_literal (s : string) : option Z :=
  match s with
  | String z (String x (String c r)) =>
      if ((z =? "0") && ((x =? "x") || (x =? "X")))%char then hex_digits 0 (String c r) else None
  | _ => None
  end.
