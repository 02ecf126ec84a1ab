(** * Specification: DER object identifiers (X.690 8.1.3, 8.19).

    This file does not refer to the model of the code. *)
From Coq Require Import List ZArith Bool.
Import ListNotations.
Open Scope Z_scope.

(** X.690 8.1.3.4/8.1.3.5: definite length, short or long form.  Returns the length
    and the remaining octets. *)
Definition be_value (l : list Z) : Z := fold_left (fun a b => 256 * a + b) l 0.

Definition der_length (l : list Z) : option (Z * list Z) :=
  match l with
  | [] => None
  | b :: r =>
      if b <? 128 then Some (b, r)
      else
        let n := Z.to_nat (b - 128) in
        if (Nat.eqb n 0) || (Nat.ltb (List.length r) n) then None
        else
          let v := be_value (firstn n r) in
          (* DER 10.1: minimal number of octets *)
          if (v <? 128) || (hd 0 r =? 0) then None
          else Some (v, skipn n r)
  end.

(** X.690 8.19.2: a subidentifier is a base-128 numeral; every octet but the last has
    bit 8 set; the first octet is not 0x80.  [start] is true at the start of a
    subidentifier. *)
Fixpoint subids (l : list Z) (acc : Z) (start : bool) : option (list Z) :=
  match l with
  | [] => if start then Some [] else None
  | b :: r =>
      if start && (b =? 128) then None
      else if b <? 128 then
             match subids r 0 true with
             | Some vs => Some (acc * 128 + b :: vs)
             | None => None
             end
           else subids r (acc * 128 + (b - 128)) false
  end.

(** X.690 8.19.4: the first subidentifier is 40*arc1 + arc2. *)
Definition split_first (v : Z) : Z * Z :=
  if v <? 40 then (0, v) else if v <? 80 then (1, v - 40) else (2, v - 80).

Definition body_arcs (l : list Z) : option (list Z) :=
  match subids l 0 true with
  | Some (v :: vs) => let '(a, b) := split_first v in Some (a :: b :: vs)
  | _ => None
  end.

Definition der_oid (l : list Z) : option (list Z) :=
  match l with
  | t :: r =>
      if t =? 6 then
        match der_length r with
        | Some (n, body) => if n =? Z.of_nat (List.length body) then body_arcs body else None
        | None => None
        end
      else None
  | [] => None
  end.

(** X.660: legal object identifiers. *)
Definition legal_oid (arcs : list Z) : Prop :=
  match arcs with
  | a :: b :: rest =>
      (a = 0 \/ a = 1 \/ a = 2) /\ 0 <= b /\ (a < 2 -> b < 40) /\ Forall (fun v => 0 <= v) rest
  | _ => False
  end.

(** The subidentifier values of an OID. *)
Definition oid_subids (arcs : list Z) : list Z :=
  match arcs with
  | a :: b :: rest => 40 * a + b :: rest
  | _ => []
  end.

(** ** Dotted decimal notation, via the standard library's decimal printer. *)
From Coq Require Import String DecimalString.
Open Scope Z_scope.

Definition decimal (v : Z) : string := NilEmpty.string_of_uint (N.to_uint (Z.to_N v)).

Fixpoint dotted (arcs : list Z) : string :=
  match arcs with
  | [] => EmptyString
  | [a] => decimal a
  | a :: rest => (decimal a ++ "." ++ dotted rest)%string
  end.

(** Total number of bits of the subidentifiers. *)
Definition oid_bits (arcs : list Z) : Z :=
  fold_right (fun v n => (Z.log2 v + 1) + n) 0 (oid_subids arcs).

(** Components joined with dots. *)
Fixpoint join_dot (cs : list string) : string :=
  match cs with
  | [] => EmptyString
  | [c] => c
  | c :: rest => (c ++ "." ++ join_dot rest)%string
  end.

Fixpoint all_chars (p : Ascii.ascii -> bool) (s : string) : bool :=
  match s with EmptyString => true | String c s' => p c && all_chars p s' end.

Definition not_dot (c : Ascii.ascii) : bool := negb (Ascii.nat_of_ascii c =? 46)%nat.

(** Characters that may occur in an integer literal: digits, white space, [_], [+], [-]. *)
Definition numeral_char (c : Ascii.ascii) : bool :=
  let n := Ascii.nat_of_ascii c in
  ((48 <=? n) && (n <=? 57) || (9 <=? n) && (n <=? 13) || (n =? 32) || (n =? 95) || (n =? 43) || (n =? 45))%nat.
