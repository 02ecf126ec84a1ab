(** * Specification of GOST R 34.10-2012

    The group of a curve over the field of [p] elements, and the two equations of the standard.
    This file does not refer to the model of the code. *)
From Coq Require Import ZArith Znumtheory.
From Coq Require Import List.
From Verif Require Import Fp SpecCurve SpecModes.
Open Scope Z_scope.

(** Octet strings are numbers with the most significant octet first; a pair is written as two strings of [size] octets. *)
Definition number (l : list Z) : Z := be_value l.
Definition encode (size x y : Z) : list Z := (be_bytes (Z.to_nat size) x ++ be_bytes (Z.to_nat size) y)%list.

Definition Pt (p : Z) : Type := point (Fp p).
Definition ec_on (p a b : Z) : Pt p -> Prop := on_curve (fp_add p) (fp_mul p) (mk p a) (mk p b).
Definition ec_neg (p : Z) : Pt p -> Pt p := pneg (fp_opp p).
Definition ec_add (p a : Z) : Pt p -> Pt p -> Pt p :=
  padd (mk p 1) (fp_add p) (fp_mul p) (fp_sub p) (fp_opp p) (fp_div p) (fp_eq p) (mk p a).
(** The multiple by a non-negative number. *)
Definition ec_mul (p a k : Z) : Pt p -> Pt p :=
  pmul (mk p 1) (fp_add p) (fp_mul p) (fp_sub p) (fp_opp p) (fp_div p) (fp_eq p) (mk p a) (Z.to_nat k).
Definition ec_disc (p a b : Z) : Fp p := discriminant (mk p 1) (fp_add p) (fp_mul p) (mk p a) (mk p b).
Definition aff (p x y : Z) : Pt p := Aff (mk p x) (mk p y).
Definition x_coord {p : Z} (P : Pt p) : option Z := match P with Inf => None | Aff x _ => Some (val p x) end.
Definition y_coord {p : Z} (P : Pt p) : option Z := match P with Inf => None | Aff _ y => Some (val p y) end.

(** Parameters as the standard demands them, with numbers that fit in [size] bytes. *)
Record gost_domain (size p a b q x y : Z) : Prop := {
  g_size : 0 < size;
  g_p_prime : prime p;
  g_p_odd : 2 < p;
  g_p_fits : p <= 256 ^ size;
  g_disc : ec_disc p a b <> mk p 0;
  g_q_prime : prime q;
  g_q_odd : 2 < q;
  g_q_fits : q <= 256 ^ size;
  g_x : 0 <= x < p;
  g_y : 0 <= y < p;
  g_on : ec_on p a b (aff p x y);
  g_order : ec_mul p a q (aff p x y) = Inf
}.
(** A point other than [Inf] of the subgroup of [q] elements. *)
Definition gost_key (p a b q : Z) (Q : Pt p) : Prop := Q <> Inf /\ ec_on p a b Q /\ ec_mul p a q Q = Inf.

(** The number [e] of a digest (step 2 of both algorithms). *)
Definition gost_e (q alpha : Z) : Z := if alpha mod q =? 0 then 1 else alpha mod q.
(** [(r, s)] is a signature of [e] for the private key [d], made with [k] (steps 3-5 of the generation; 0 is not allowed). *)
Definition gost_signature (p a q : Z) (G : Pt p) (d e k r s : Z) : Prop :=
  (exists x, x_coord (ec_mul p a k G) = Some x /\ r = x mod q) /\ s = (r * d + k * e) mod q /\ r <> 0 /\ s <> 0.
(** [(r, s)] is accepted for [e] and the public key [Q] (the verification; [v] is the inverse of [e]). *)
Definition gost_accepts (p a q : Z) (G Q : Pt p) (e r s : Z) : Prop :=
  0 < r < q /\ 0 < s < q /\
  exists v, (e * v) mod q = 1 /\
  exists x, x_coord (ec_add p a (ec_mul p a ((s * v) mod q) G) (ec_mul p a ((- r * v) mod q) Q)) = Some x /\ x mod q = r.
(** The same with the sum [Inf], which the standard rejects, and [-2 x] in the place of its coordinate. *)
Definition infinity_accepts (p a q : Z) (G Q : Pt p) (e r s : Z) : Prop :=
  0 < r < q /\ 0 < s < q /\
  exists v, (e * v) mod q = 1 /\
  ec_add p a (ec_mul p a ((s * v) mod q) G) (ec_mul p a ((- r * v) mod q) Q) = Inf /\
  exists x, x_coord (ec_mul p a ((s * v) mod q) G) = Some x /\ ((- 2 * x) mod p) mod q = r.
