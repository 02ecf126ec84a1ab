(** * The fragment of Python used by the model.

    Python byte strings ([bytes] and [bytearray]) are lists of integers, Python
    integers are [Z], exceptions are values.  Indexing and slicing follow the
    Python language reference (negative indices, clamping of slice bounds). *)
From Coq Require Export String.
From Coq Require Export List ZArith Lia Bool.
From Coq Require Export ZifyBool ZifyNat.
Export ListNotations.
Global Open Scope Z_scope.
Ltac Zify.zify_post_hook ::= Z.div_mod_to_equations.

(** Exceptions that can be observed by a caller of the library. *)
Inductive exn : Type :=
| IndexError
| ValueError
| OverflowError
| ZeroDivisionError
| TypeError
| GOSTOIDError (msg : string)
| GOSTCipherError (msg : string)
| GOSTHashError (msg : string)
| GOSTHMACError (msg : string)
| GOSTPBKDFError (msg : string)
| GOSTRandomError (msg : string)
| GOSTSignatureError (msg : string).

(** Result of a computation that may raise. *)
Inductive res (A : Type) : Type :=
| Ok (a : A)
| Err (e : exn).
Arguments Ok {A} a.
Arguments Err {A} e.

Definition bind {A B} (r : res A) (f : A -> res B) : res B :=
  match r with Ok a => f a | Err e => Err e end.

Notation "'let*' x ':=' c 'in' k" := (bind c (fun x => k))
  (at level 61, x pattern, c at next level, k at level 61, right associativity).

Notation bytes := (list Z).

(** A byte value, and a byte string. *)
Definition byte_ok (b : Z) : Prop := 0 <= b < 256.
Definition bytes_ok (l : bytes) : Prop := Forall byte_ok l.

Definition len {A} (l : list A) : Z := Z.of_nat (List.length l).

(** Argument values, as far as [isinstance] and [==] tests can tell them apart. *)
Inductive pyval : Type :=
| VBytes (b : bytes)      (* a bytes or bytearray object *)
| VStr (s : string)       (* a str object *)
| VInt (z : Z)            (* an int object *)
| VNone.                  (* None or any other object *)

(** [range(start, stop, step)]. *)
Definition py_range (start stop step : Z) : list Z :=
  let count :=
    if step >? 0 then (stop - start + step - 1) / step
    else if step <? 0 then (start - stop - step - 1) / (- step)
    else 0 in
  map (fun i => start + step * Z.of_nat i) (seq 0 (Z.to_nat count)).

(** [for x in xs: s = body(x, s)], stopping at the first exception. *)
Fixpoint for_ {A S} (xs : list A) (s : S) (body : A -> S -> res S) : res S :=
  match xs with
  | [] => Ok s
  | x :: xs' => let* s' := body x s in for_ xs' s' body
  end.

(** [l[i]]. *)
Definition py_get {A} (l : list A) (i : Z) : res A :=
  let j := if i <? 0 then i + len l else i in
  if (0 <=? j) && (j <? len l) then
    match nth_error l (Z.to_nat j) with
    | Some x => Ok x
    | None => Err IndexError
    end
  else Err IndexError.

Fixpoint upd {A} (l : list A) (n : nat) (v : A) : list A :=
  match l, n with
  | [], _ => []
  | _ :: l', O => v :: l'
  | x :: l', S n' => x :: upd l' n' v
  end.

(** [l[i] = v] where [l] is a list. *)
Definition py_set_list {A} (l : list A) (i : Z) (v : A) : res (list A) :=
  let j := if i <? 0 then i + len l else i in
  if (0 <=? j) && (j <? len l) then Ok (upd l (Z.to_nat j) v)
  else Err IndexError.

(** [l[i] = v] where [l] is a bytearray: a value outside 0..255 is refused. *)
Definition py_set (l : bytes) (i v : Z) : res bytes :=
  let* l' := py_set_list l i v in
  if (0 <=? v) && (v <? 256) then Ok l' else Err ValueError.

Definition clamp (n i : Z) : Z :=
  let j := if i <? 0 then i + n else i in
  if j <? 0 then 0 else if n <? j then n else j.

(** [l[a:b]]. *)
Definition py_slice {A} (l : list A) (a b : Z) : list A :=
  let a' := clamp (len l) a in
  let b' := clamp (len l) b in
  firstn (Z.to_nat (b' - a')) (skipn (Z.to_nat a') l).

(** [l[a:]]. *)
Definition py_from {A} (l : list A) (a : Z) : list A :=
  skipn (Z.to_nat (clamp (len l) a)) l.

(** [l[:b]]. *)
Definition py_upto {A} (l : list A) (b : Z) : list A :=
  firstn (Z.to_nat (clamp (len l) b)) l.

(** [l[a:b] = v] for a bytearray. *)
Definition py_slice_set {A} (l : list A) (a b : Z) (v : list A) : list A :=
  let a' := clamp (len l) a in
  let b' := Z.max a' (clamp (len l) b) in
  firstn (Z.to_nat a') l ++ v ++ skipn (Z.to_nat b') l.

(** [b * n] / [bytearray(n)]: repetition; a negative count gives nothing. *)
Definition py_repeat {A} (x : A) (n : Z) : list A := repeat x (Z.to_nat n).

(** Dictionary lookup [d.get(k, default)] on an association list. *)
Fixpoint assoc_get {V} (d : list (string * V)) (k : string) (dflt : V) : V :=
  match d with
  | [] => dflt
  | (k', v) :: d' => if String.eqb k k' then v else assoc_get d' k dflt
  end.
