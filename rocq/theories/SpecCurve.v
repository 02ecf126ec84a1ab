(** * Specification: the group of an elliptic curve y^2 = x^3 + a x + b over a field

    Textbook definitions; this file does not refer to the model of the code. *)
From Coq Require Import ZArith.
From Coq Require Import Field_theory.

Section Curve.
Context {F : Type}.
Variables (f0 f1 : F) (fadd fmul fsub : F -> F -> F) (fopp : F -> F) (fdiv : F -> F -> F) (feq : forall x y : F, {x = y} + {x <> y}).
Variables a b : F.
Infix "+" := fadd.
Infix "*" := fmul.
Infix "-" := fsub.
Infix "/" := fdiv.
Notation "- x" := (fopp x).

Inductive point : Type := Inf | Aff (x y : F).

Definition on_curve (P : point) : Prop :=
  match P with Inf => True | Aff x y => y * y = x * x * x + a * x + b end.
Definition pneg (P : point) : point := match P with Inf => Inf | Aff x y => Aff x (- y) end.

(** The sum from the slope [l] of the line. *)
Definition psum (l x1 y1 x2 : F) : point :=
  let x3 := l * l - x1 - x2 in Aff x3 (l * (x1 - x3) - y1).
Definition padd (P Q : point) : point :=
  match P, Q with
  | Inf, _ => Q
  | _, Inf => P
  | Aff x1 y1, Aff x2 y2 =>
      if feq x1 x2 then
        if feq y1 (- y2) then Inf
        else psum (((f1 + f1 + f1) * x1 * x1 + a) / ((f1 + f1) * y1)) x1 y1 x2
      else psum ((y2 - y1) / (x2 - x1)) x1 y1 x2
  end.

Fixpoint pmul (n : nat) (P : point) : point := match n with O => Inf | S n' => padd P (pmul n' P) end.

(** 4 a^3 + 27 b^2. *)
Definition discriminant : F :=
  let f2 := f1 + f1 in let f3 := f2 + f1 in f2 * f2 * a * a * a + f3 * f3 * f3 * b * b.
End Curve.
Arguments Inf {F}.
Arguments Aff {F}.
Arguments point : clear implicits.
