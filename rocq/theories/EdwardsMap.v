(** * The map from a twisted Edwards curve to the Weierstrass form, over any field *)
From Coq Require Import Ring Field_theory Field.

Section Edwards.
Variable F : Type.
Variables (f0 f1 : F) (fadd fmul fsub : F -> F -> F) (fopp : F -> F) (fdiv : F -> F -> F) (finv : F -> F).
Hypothesis Fth : field_theory f0 f1 fadd fmul fsub fopp fdiv finv (@eq F).
Add Field fe : Fth.
Infix "+" := fadd.
Infix "*" := fmul.
Infix "-" := fsub.
Infix "/" := fdiv.
Notation two := (f1 + f1).
Notation three := (f1 + f1 + f1).
Hypothesis two_ne : two <> f0.
Hypothesis three_ne : three <> f0.
Lemma edwards_point e d u v : let s := (e - d) / (two * two) in let t := (e + d) / (two * three) in
  e * (u * u) + v * v = f1 + d * ((u * u) * (v * v)) -> u <> f0 -> v <> f1 ->
  let x := s * (f1 + v) / (f1 - v) + t in let y := s * (f1 + v) / ((f1 - v) * u) in
  y * y = x * x * x + (s * s - three * (t * t)) * x + (two * (t * t * t) - t * (s * s)).
Proof.
  intros s t HE NU NV x y.
  assert (NW : f1 - v <> f0) by (intros E; apply NV; transitivity (f1 - (f1 - v)); [ring | rewrite E; ring]).
  assert (K : (f1 + v) * (f1 - v) = (u * u) * (e - d * (v * v))).
  { transitivity ((f1 + d * ((u * u) * (v * v))) - v * v - d * ((u * u) * (v * v))); [ring | rewrite <- HE; ring]. }
  set (w := (f1 + v) / (f1 - v)).
  assert (W1 : w / (u * u) = (e - d * (v * v)) / ((f1 - v) * (f1 - v))).
  { unfold w. transitivity (((f1 + v) * (f1 - v)) / ((f1 - v) * (f1 - v) * (u * u))); [field; tauto | rewrite K; field; tauto]. }
  assert (W2 : s * (w * w) + three * (t * w) + s = (e - d * (v * v)) / ((f1 - v) * (f1 - v))).
  { assert (NM : forall y, y <> f0 -> two * y <> f0) by (intros z NZ E; apply NZ; transitivity (two * z / two); [field; exact two_ne | rewrite E; field; exact two_ne]).
    unfold s, t, w. field. split; [exact NW|]. split; [apply NM; exact two_ne|]. apply NM. intros E. apply three_ne. rewrite <- E. ring. }
  assert (EX : x = s * w + t) by (unfold x, w; field; exact NW).
  assert (EY : y = s * w / u) by (unfold y, w; field; tauto).
  rewrite EX, EY. transitivity (s * s * w * (w / (u * u))); [field; exact NU|]. rewrite W1, <- W2. ring.
Qed.
End Edwards.
