(** * Properties C01-C04: byte-string utilities *)
From Verif Require Import PyBase PyFacts Utils UtilsFacts UtilsLemmas.

Theorem C01_to_int_value : forall b, bytearray_to_int b = be_sum b.
Proof. exact be_sum_eq. Qed.
Print Assumptions C01_to_int_value.

Theorem C01_to_int_of_int : forall v n, 0 <= n -> bytearray_to_int (int_to_bytearray v n) = v mod 256 ^ n.
Proof. exact to_int_of_int. Qed.
Print Assumptions C01_to_int_of_int.

Theorem C01_of_int_to_int : forall b, bytes_ok b -> int_to_bytearray (bytearray_to_int b) (len b) = b.
Proof. exact of_int_to_int. Qed.
Print Assumptions C01_of_int_to_int.

Theorem C01_of_int_shape : forall v n,
  len (int_to_bytearray v n) = Z.max 0 n /\ bytes_ok (int_to_bytearray v n).
Proof. exact int_to_bytearray_shape. Qed.
Print Assumptions C01_of_int_shape.

Example C01_example : bytes_ok [0; 255; 7] /\ bytearray_to_int [0; 255; 7] = 65287 /\
  int_to_bytearray (-1) 2 = [255; 255] /\ be_sum [1; 2] = 258.
Proof. repeat split; repeat constructor; unfold byte_ok; lia. Qed.

Theorem C02_add_xor : forall a b, bytes_ok a -> bytes_ok b ->
  exists r, add_xor_loop a b = Ok r /\ bytes_ok r /\ len r = Z.min (len a) (len b) /\
    forall i, 0 <= i < len r ->
      nth (Z.to_nat i) r 0 = Z.lxor (nth (Z.to_nat i) a 0) (nth (Z.to_nat i) b 0).
Proof. exact add_xor_spec. Qed.
Print Assumptions C02_add_xor.

Theorem C02_add_xor_algebra : forall a b c, bytes_ok a -> bytes_ok b -> bytes_ok c ->
  add_xor_loop a b = add_xor_loop b a /\
  (let* x := add_xor_loop a b in add_xor_loop x c) = (let* x := add_xor_loop b c in add_xor_loop a x) /\
  (len a = len b -> (let* x := add_xor_loop a b in add_xor_loop a x) = Ok b).
Proof. exact add_xor_algebra. Qed.
Print Assumptions C02_add_xor_algebra.

Example C02_example : bytes_ok [1; 2; 3] /\ bytes_ok [255; 254] /\
  add_xor_loop [1; 2; 3] [255; 254] = Ok [254; 252].
Proof. repeat split; repeat constructor; unfold byte_ok; lia. Qed.

Theorem C03_compare : forall a b, bytes_ok a -> bytes_ok b ->
  exists r, compare a b = Ok r /\ (r = true <-> a = b).
Proof. exact compare_total. Qed.
Print Assumptions C03_compare.

Theorem C03_compare_to_zero : forall a, bytes_ok a ->
  exists r, compare_to_zero a = Ok r /\ (r = true <-> Forall (fun b => b = 0) a).
Proof. exact compare_to_zero_forall. Qed.
Print Assumptions C03_compare_to_zero.

Example C03_example : compare [1; 2] [1; 2] = Ok true /\ compare [1; 2] [2; 1] = Ok false /\
  compare [1] [1; 0] = Ok false /\ compare_to_zero [0; 0] = Ok true /\ compare_to_zero [0; 1] = Ok false.
Proof. repeat split. Qed.

Theorem C04_zero_fill_refuted : ~ zeroes zero_fill.
Proof. exact zero_fill_not_zeroes. Qed.
Print Assumptions C04_zero_fill_refuted.

(** What it does instead: four non-zero bytes per byte, depending on the length only. *)
Theorem C04_zero_fill_actual : forall b,
  len (zero_fill b) = 4 * len b /\ ~ In 0 (zero_fill b) /\ bytes_ok (zero_fill b) /\
  (forall b', len b' = len b -> zero_fill b' = zero_fill b).
Proof. exact zero_fill_exact. Qed.
Print Assumptions C04_zero_fill_actual.

Example C04_example : zero_fill [7] = [47; 120; 48; 48].
Proof. reflexivity. Qed.
