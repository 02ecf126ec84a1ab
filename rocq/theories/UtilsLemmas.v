(** * Specification and lemmas for C01-C04 *)
From Verif Require Import PyBase PyFacts Utils UtilsFacts.

(** The big-endian value of a byte string, written as a sum of digits. *)
Definition be_sum (b : bytes) : Z :=
  fold_right Z.add 0
    (map (fun i => nth i b 0 * 256 ^ (len b - 1 - Z.of_nat i)) (seq 0 (List.length b))).

Lemma be_sum_eq b : bytearray_to_int b = be_sum b.
Proof.
  unfold be_sum. induction b as [|x b IH]; [reflexivity|].
  rewrite bytearray_to_int_cons, IH, len_cons. cbn [List.length].
  rewrite <- cons_seq, <- seq_shift. cbn [map fold_right nth]. rewrite map_map.
  f_equal; [f_equal; f_equal; lia|]. f_equal. apply map_ext. intros i. cbn [nth].
  f_equal; f_equal; lia.
Qed.

Lemma int_to_bytearray_shape v n :
  len (int_to_bytearray v n) = Z.max 0 n /\ bytes_ok (int_to_bytearray v n).
Proof. split; [apply int_to_bytearray_len | apply int_to_bytearray_ok]. Qed.

Lemma add_xor_spec a b :
  bytes_ok a -> bytes_ok b ->
  exists r, add_xor_loop a b = Ok r /\ bytes_ok r /\ len r = Z.min (len a) (len b) /\
    forall i, 0 <= i < len r ->
      nth (Z.to_nat i) r 0 = Z.lxor (nth (Z.to_nat i) a 0) (nth (Z.to_nat i) b 0).
Proof.
  intros Ha Hb. exists (add_xor a b). repeat split.
  - now apply add_xor_loop_ok.
  - now apply add_xor_ok.
  - apply add_xor_len.
  - intros i Hi. rewrite add_xor_len in Hi. apply add_xor_nth. unfold len in Hi. lia.
Qed.

Lemma add_xor_algebra a b c : bytes_ok a -> bytes_ok b -> bytes_ok c ->
  add_xor_loop a b = add_xor_loop b a /\
  (let* x := add_xor_loop a b in add_xor_loop x c) = (let* x := add_xor_loop b c in add_xor_loop a x) /\
  (len a = len b -> (let* x := add_xor_loop a b in add_xor_loop a x) = Ok b).
Proof.
  intros Ha Hb Hc. rewrite !add_xor_loop_ok by auto. cbn [bind].
  rewrite !add_xor_loop_ok by auto using add_xor_ok. repeat split.
  - now rewrite add_xor_comm.
  - now rewrite add_xor_assoc.
  - intros H. now rewrite add_xor_cancel.
Qed.

Lemma compare_to_zero_forall a : bytes_ok a ->
  exists r, compare_to_zero a = Ok r /\ (r = true <-> Forall (fun b => b = 0) a).
Proof.
  intros Ha. destruct (compare_to_zero_total a Ha) as (r & Hr & Hi). exists r; split; [exact Hr|].
  rewrite Hi. unfold py_repeat, len. rewrite Nat2Z.id. clear. induction a as [|x a IH]; cbn.
  - split; constructor.
  - split.
    + intros [= Hx Ha]. constructor; [exact Hx | now apply IH].
    + intros H; inversion H as [|? ? Hx Ha]; subst. f_equal. now apply IH.
Qed.

(** C04 in full: zero_fill returns zeros of the same length. *)
Definition zeroes (f : bytes -> bytes) : Prop :=
  forall b, bytes_ok b -> f b = py_repeat 0 (len b).

Lemma zero_fill_not_zeroes : ~ zeroes zero_fill.
Proof.
  intros H. specialize (H [1] ltac:(repeat constructor; unfold byte_ok; lia)). discriminate.
Qed.

Lemma zero_fill_exact b :
  len (zero_fill b) = 4 * len b /\ ~ In 0 (zero_fill b) /\ bytes_ok (zero_fill b) /\
  (forall b', len b' = len b -> zero_fill b' = zero_fill b).
Proof.
  repeat split.
  - apply zero_fill_len.
  - apply zero_fill_no_zero.
  - apply zero_fill_ok.
  - intros b' H. now apply zero_fill_same_len.
Qed.
