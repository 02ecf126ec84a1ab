(** * Specification: the text accepted by [int(str)] in base 10 (Python library reference,
    [int]), for ASCII text.

    This file does not refer to the model of the code. *)
From Coq Require Import List ZArith String Ascii.
From Verif Require Import SpecDer.
Import ListNotations.
Open Scope string_scope.
Open Scope Z_scope.

Definition code (c : ascii) : Z := Z.of_nat (nat_of_ascii c).

(** Tab, line feed, vertical tab, form feed, carriage return, space. *)
Definition blank (c : ascii) : Prop := 9 <= code c <= 13 \/ code c = 32.
Fixpoint blanks (s : string) : Prop :=
  match s with EmptyString => True | String c s' => blank c /\ blanks s' end.

(** Digits, with single underscores between digits. *)
Inductive numeral : string -> Z -> Prop :=
| num_digit c : 48 <= code c <= 57 -> numeral (String c "") (code c - 48)
| num_more s v c : numeral s v -> 48 <= code c <= 57 -> numeral (s ++ String c "") (10 * v + (code c - 48))
| num_under s v c : numeral s v -> 48 <= code c <= 57 ->
    numeral (s ++ "_" ++ String c "") (10 * v + (code c - 48)).

Definition sign (s : string) (f : Z) : Prop := (s = "" \/ s = "+") /\ f = 1 \/ s = "-" /\ f = -1.

Definition int_text (s : string) (v : Z) : Prop :=
  exists sp1 sg body sp2 f n, s = sp1 ++ sg ++ body ++ sp2 /\
    blanks sp1 /\ sign sg f /\ numeral body n /\ blanks sp2 /\ v = f * n.
