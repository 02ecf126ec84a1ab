(** * The field of integers modulo a prime *)
From Coq Require Import ZArith Znumtheory Field_theory Field Lia Eqdep_dec.
From Verif Require Import Euclid.
Open Scope Z_scope.

Section Fp.
Variable p : Z.

Definition Fp : Type := {x : Z | x mod p = x}.
Definition val (x : Fp) : Z := proj1_sig x.
Lemma mk_ok z : (z mod p) mod p = z mod p.
Proof. apply Zmod_mod. Qed.
Definition mk (z : Z) : Fp := exist _ (z mod p) (mk_ok z).

Lemma val_inj x y : val x = val y -> x = y.
Proof. destruct x as [x Hx], y as [y Hy]. cbn. intros E. subst y. f_equal. apply UIP_dec. apply Z.eq_dec. Qed.
Lemma val_mk z : val (mk z) = z mod p.
Proof. reflexivity. Qed.
Lemma val_mod x : val x mod p = val x.
Proof. apply (proj2_sig x). Qed.
Lemma mk_val x : mk (val x) = x.
Proof. apply val_inj. apply val_mod. Qed.
Lemma mk_eq y z : mk y = mk z <-> y mod p = z mod p.
Proof. split; [intros E; now apply (f_equal val) in E | intros E; now apply val_inj]. Qed.

Definition fp_eq (x y : Fp) : {x = y} + {x <> y} :=
  match Z.eq_dec (val x) (val y) with
  | left e => left (val_inj x y e)
  | right n => right (fun e => n (f_equal val e))
  end.
Definition fp_add (x y : Fp) : Fp := mk (val x + val y).
Definition fp_mul (x y : Fp) : Fp := mk (val x * val y).
Definition fp_sub (x y : Fp) : Fp := mk (val x - val y).
Definition fp_opp (x : Fp) : Fp := mk (- val x).
(** The coefficient of [x] in Bezout's identity; that this is the inverse is part of [fp_field]. *)
Definition fp_inv (x : Fp) : Fp := mk (coeff (val x) p).
Definition fp_div (x y : Fp) : Fp := fp_mul x (fp_inv y).

Lemma mk_add y z : mk (y + z) = fp_add (mk y) (mk z).
Proof. apply val_inj. cbn. now rewrite <- Zplus_mod. Qed.
Lemma mk_mul y z : mk (y * z) = fp_mul (mk y) (mk z).
Proof. apply val_inj. cbn. now rewrite <- Zmult_mod. Qed.
Lemma mk_sub y z : mk (y - z) = fp_sub (mk y) (mk z).
Proof. apply val_inj. cbn. now rewrite <- Zminus_mod. Qed.
Lemma mk_opp y : mk (- y) = fp_opp (mk y).
Proof. apply val_inj. change ((- y) mod p = (- (y mod p)) mod p). rewrite <- (Z.sub_0_l y), <- (Z.sub_0_l (y mod p)). now rewrite Zminus_mod_idemp_r. Qed.
Lemma mk_mod y : mk (y mod p) = mk y.
Proof. apply val_inj. cbn. apply Zmod_mod. Qed.

Lemma fp_ring : ring_theory (mk 0) (mk 1) fp_add fp_mul fp_sub fp_opp (@eq Fp).
Proof.
  split; intros; repeat match goal with x : Fp |- _ => rewrite <- (mk_val x); generalize (val x); clear x; intros x end; rewrite <- ?mk_opp, <- ?mk_mul, <- ?mk_sub, <- ?mk_add, <- ?mk_mul, <- ?mk_add; f_equal; try ring.
Qed.

Hypothesis p_prime : prime p.
Lemma p_ge_2 : 2 <= p.
Proof. now apply prime_ge_2. Qed.
Lemma val_range x : 0 <= val x < p.
Proof. rewrite <- val_mod. apply Z.mod_pos_bound. pose proof p_ge_2. lia. Qed.
Lemma fp_field : field_theory (mk 0) (mk 1) fp_add fp_mul fp_sub fp_opp fp_div fp_inv (@eq Fp).
Proof.
  pose proof p_ge_2 as H2. split; [exact fp_ring | | reflexivity|].
  - intros E. apply mk_eq in E. rewrite !Z.mod_small in E by lia. discriminate E.
  - intros x N. apply val_inj. cbn. rewrite Zmult_mod_idemp_l, Z.mul_comm. rewrite (Z.mod_small 1) by lia. apply coeff_prime; [exact p_prime|]. rewrite val_mod. intros E. apply N. apply val_inj. rewrite val_mk, Z.mod_0_l by lia. exact E.
Qed.
Lemma fp_two : 2 < p -> fp_add (mk 1) (mk 1) <> mk 0.
Proof. intros H E. rewrite <- mk_add in E. apply mk_eq in E. rewrite !Z.mod_small in E by lia. discriminate E. Qed.
End Fp.
