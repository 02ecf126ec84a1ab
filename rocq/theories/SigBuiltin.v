(** * The built-in curves: primality, order and the condition on the powers of [p] *)
From Bignums Require Import BigZ.
From Coq Require Import ZArith Znumtheory Lia String List Bool.
From Verif Require Import PyBase Fp SpecCurve SpecSign SigCurves Sig SigProps SigCons BigCert.
From Verif Require Cert256A Cert256B Cert256C Cert256D Cert512A Cert512B Cert512C.
Import ListNotations.
Local Open Scope Z_scope.

(** ** The powers of [p] modulo [q] *)
Fixpoint no_power_is_one (q p acc : B) (n : nat) : bool :=
  match n with
  | O => true
  | S n => let acc := BigZ.modulo (BigZ.mul acc p) q in negb (BigZ.eqb acc BigZ.one) && no_power_is_one q p acc n
  end.
Lemma no_power_ok q p n : 1 < zv q -> forall acc j, 0 <= j -> zv acc mod zv q = zv p ^ j mod zv q -> no_power_is_one q p acc n = true ->
  forall i, j < i <= j + Z.of_nat n -> zv p ^ i mod zv q <> 1.
Proof.
  intros HQ. induction n as [|n IH]; intros acc j Hj EA HC i Hi; [lia|]. cbn [no_power_is_one] in HC. apply andb_true_iff in HC. destruct HC as [HC1 HC2].
  rewrite negb_true_iff, BigZ.spec_eqb, Z.eqb_neq, BigZ.spec_1 in HC1. set (acc' := BigZ.modulo (BigZ.mul acc p) q) in *.
  assert (E' : zv acc' = zv p ^ (j + 1) mod zv q).
  { unfold acc'. rewrite BigZ.spec_modulo, BigZ.spec_mul, <- Zmult_mod_idemp_l, EA, Zmult_mod_idemp_l. f_equal. rewrite Z.pow_add_r, Z.pow_1_r by lia. reflexivity. }
  destruct (Z.eq_dec i (j + 1)) as [->|N]; [rewrite <- E'; exact HC1|].
  apply (IH acc' (j + 1)); [lia | rewrite E', Z.mod_mod by lia; reflexivity | exact HC2 | lia].
Qed.
Lemma powers_of p q n : 1 < q -> no_power_is_one (BigZ.of_Z q) (BigZ.of_Z p) BigZ.one n = true -> forall i, 1 <= i <= Z.of_nat n -> p ^ i mod q <> 1.
Proof.
  intros HQ HC i Hi. pose proof (no_power_ok (BigZ.of_Z q) (BigZ.of_Z p) n) as H. rewrite !BigZ.spec_of_Z in H.
  apply (H HQ BigZ.one 0); [lia | rewrite BigZ.spec_1, Z.pow_0_r; reflexivity | exact HC | lia].
Qed.

(** ** One curve *)

(** What is shown of the object made from [c]. *)
Record valid (mode : Z) (c : curve) : Prop := {
  v_new : sig_new mode c = Ok (sig_attrs mode c);
  v_usable : usable (sig_attrs mode c);
  v_pq : s_p (sig_attrs mode c) <> s_q (sig_attrs mode c);
  v_powers : forall i, 1 <= i <= (if mode =? MODE_256 then 31 else 131) -> s_p (sig_attrs mode c) ^ i mod s_q (sig_attrs mode c) <> 1
}.
Lemma new_is mode c : known_mode mode -> ((s_a (sig_attrs mode c) =? 0) && (s_b (sig_attrs mode c) =? 0) && (s_x (sig_attrs mode c) =? 0) && (s_y (sig_attrs mode c) =? 0))%bool = false ->
  accepted mode (sig_attrs mode c) -> sig_new mode c = Ok (sig_attrs mode c).
Proof. intros K EW A. rewrite sig_new_known by exact K. apply (sig_init_ok _ _ _ K). split; [|exact A]. unfold _edvards_to_canonical. now rewrite EW. Qed.

Ltac closed := vm_compute; match goal with |- _ /\ _ => split | _ => idtac end; (reflexivity || discriminate).
Ltac built_in p_prime q_prime facts :=
  split; [apply new_is; [first [left; reflexivity | right; reflexivity] | vm_compute; reflexivity|]; constructor; [closed | closed | vm_compute; reflexivity | first [left; split; [reflexivity|]; closed | right; split; [reflexivity|]; closed]] |
          constructor; [reflexivity | exact p_prime | vm_compute; reflexivity | vm_compute; discriminate | exact (proj1 facts) | exact q_prime | vm_compute; reflexivity | vm_compute; discriminate |
                        closed | closed | exact (proj1 (proj2 facts)) | exact (proj2 (proj2 facts))] |
          closed | ].
Ltac powers n := intros i Hi; refine (powers_of _ _ n _ _ i Hi); [vm_compute; reflexivity | vm_compute; reflexivity].
Lemma valid_256A : valid MODE_256 curve_2012_256_paramSetA.
Proof. built_in Cert256A.p_is_prime Cert256A.q_is_prime Cert256A.curve_facts. powers 31%nat. Qed.
Lemma valid_256B : valid MODE_256 curve_2012_256_paramSetB.
Proof. built_in Cert256B.p_is_prime Cert256B.q_is_prime Cert256B.curve_facts. powers 31%nat. Qed.
Lemma valid_256C : valid MODE_256 curve_2012_256_paramSetC.
Proof. built_in Cert256C.p_is_prime Cert256C.q_is_prime Cert256C.curve_facts. powers 31%nat. Qed.
Lemma valid_256D : valid MODE_256 curve_2012_256_paramSetD.
Proof. built_in Cert256D.p_is_prime Cert256D.q_is_prime Cert256D.curve_facts. powers 31%nat. Qed.
Lemma valid_512A : valid MODE_512 curve_12_512_paramSetA.
Proof. built_in Cert512A.p_is_prime Cert512A.q_is_prime Cert512A.curve_facts. powers 131%nat. Qed.
Lemma valid_512B : valid MODE_512 curve_12_512_paramSetB.
Proof. built_in Cert512B.p_is_prime Cert512B.q_is_prime Cert512B.curve_facts. powers 131%nat. Qed.
Lemma valid_512C : valid MODE_512 curve_2012_512_paramSetC.
Proof. built_in Cert512C.p_is_prime Cert512C.q_is_prime Cert512C.curve_facts. powers 131%nat. Qed.
