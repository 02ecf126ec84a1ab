(** * Streebog: addition, the compression function g, and the object methods *)
From Verif Require Import PyBase PyState PyFacts Utils UtilsFacts StreebogTables Streebog SpecKuznechik SpecStreebog KuzFacts StreebogFacts.

(** ** Addition modulo 2^512 *)

Lemma le_bytes_snoc n : forall v, le_bytes (S n) v = le_bytes n v ++ [(v / 256 ^ Z.of_nat n) mod 256].
Proof.
  induction n as [|n IH]; intros v; [cbn [le_bytes app]; change (256 ^ Z.of_nat 0) with 1; now rewrite Z.div_1_r|].
  change (le_bytes (S (S n)) v) with (v mod 256 :: le_bytes (S n) (v / 256)). rewrite IH. cbn [le_bytes app].
  do 3 f_equal. f_equal. rewrite Z.div_div by lia. f_equal. replace (Z.of_nat (S n)) with (Z.of_nat n + 1) by lia. rewrite Z.pow_add_r by lia. lia.
Qed.

Lemma le_value_app a b : le_value (a ++ b) = le_value a + 256 ^ len a * le_value b.
Proof.
  induction a as [|x a IH]; [cbn [app le_value]; change (256 ^ len (@nil Z)) with 1; lia|].
  cbn [app le_value]. rewrite IH, len_cons. rewrite Z.pow_add_r by (pose proof (len_nonneg a); lia). lia.
Qed.

Lemma skip_skip {A} (l : list A) : forall a b, skipn a (skipn b l) = skipn (b + a) l.
Proof.
  intros a b. revert l. induction b as [|b IH]; intros l; [reflexivity|]. destruct l as [|x l]; [now rewrite !skipn_nil|]. cbn [skipn Nat.add]. apply IH.
Qed.

Lemma firstn_snoc {A} (l : list A) n d : (n < List.length l)%nat -> firstn (S n) l = firstn n l ++ [nth n l d].
Proof.
  revert n. induction l as [|x l IH]; intros n Hn; [cbn in Hn; lia|]. destruct n as [|n]; [reflexivity|].
  change (firstn (S (S n)) (x :: l)) with (x :: firstn (S n) l). rewrite IH by (cbn in Hn; lia). reflexivity.
Qed.

Definition add_body (op_a op_b : bytes) : Z -> Z * bytes -> res (Z * bytes) := fun i '(op_c, result) =>
  let* a := py_get op_a i in
  let* b := py_get op_b i in
  let op_c := a + b + Z.shiftr op_c 8 in
  let* result := py_set result i (Z.land op_c 0xff) in
  Ok (op_c, result).

Lemma add_loop a b : (64 <= List.length a)%nat -> (64 <= List.length b)%nat ->
  forall i, (i <= 64)%nat ->
  exists c, for_ (py_range 0 (Z.of_nat i) 1) (0, py_repeat 0 64) (add_body a b) =
      Ok (c, le_bytes i (le_value (firstn i a) + le_value (firstn i b)) ++ repeat 0 (64 - i)) /\
    Z.shiftr c 8 = (le_value (firstn i a) + le_value (firstn i b)) / 256 ^ Z.of_nat i.
Proof.
  intros Ha Hb. induction i as [|i IH]; intros Hi.
  - exists 0. split; [reflexivity|]. reflexivity.
  - destruct IH as (c & E & Hc); [lia|]. replace (Z.of_nat (S i)) with (Z.of_nat i + 1) by lia.
    rewrite py_range_snoc by lia. rewrite for_app, E. cbn [bind for_ add_body].
    rewrite (py_get_nth a (Z.of_nat i) 0) by (unfold len; lia). cbn [bind]. rewrite (py_get_nth b (Z.of_nat i) 0) by (unfold len; lia). cbn [bind].
    rewrite Nat2Z.id. set (x := nth i a 0). set (y := nth i b 0). set (v := le_value (firstn i a) + le_value (firstn i b)) in *.
    assert (Hpow : 0 < 256 ^ Z.of_nat i) by (apply Z.pow_pos_nonneg; lia).
    assert (Ev : le_value (firstn (S i) a) + le_value (firstn (S i) b) = v + (x + y) * 256 ^ Z.of_nat i).
    { rewrite (firstn_snoc a i 0), (firstn_snoc b i 0) by lia. rewrite !le_value_app. cbn [le_value]. fold x y.
      unfold len. rewrite !firstn_length_le by lia. unfold v. lia. }
    assert (Eq : (v + (x + y) * 256 ^ Z.of_nat i) / 256 ^ Z.of_nat i = x + y + Z.shiftr c 8) by (rewrite Hc, Z.div_add by lia; lia).
    set (c' := x + y + Z.shiftr c 8) in *.
    rewrite py_set_ok.
    2:{ unfold len. rewrite app_length, le_bytes_length, repeat_length. lia. }
    2:{ change 0xff with (Z.ones 8). rewrite Z.land_ones by lia. unfold byte_ok. change (2 ^ 8) with 256. lia. }
    cbn [bind]. exists c'. rewrite Ev. split.
    + do 2 f_equal. rewrite le_bytes_snoc, Eq. replace (64 - i)%nat with (S (64 - S i)) by lia. cbn [repeat].
      change 0xff with (Z.ones 8). rewrite Z.land_ones by lia. change (2 ^ 8) with 256. rewrite Nat2Z.id.
      pose proof (upd_app_mid (le_bytes i v) (repeat 0 (64 - S i)) 0 (c' mod 256)) as HU. rewrite le_bytes_length in HU. rewrite HU. rewrite <- app_assoc. cbn [app]. f_equal.
      rewrite <- (le_bytes_mod i (v + _)). rewrite Z_mod_plus_full. now rewrite le_bytes_mod.
    + rewrite Z.pow_add_r by lia. rewrite <- Z.div_div by lia. rewrite Eq. rewrite Z.shiftr_div_pow2 by lia. reflexivity.
Qed.

(** Operands longer than a block are cut. *)
Lemma add_512_long a b : (64 <= List.length a)%nat -> (64 <= List.length b)%nat ->
  _hash_add_512 a b = Ok (le_bytes 64 (le_value (firstn 64 a) + le_value (firstn 64 b))).
Proof.
  intros Ha Hb. destruct (add_loop a b Ha Hb 64) as (c & E & _); [lia|]. unfold _hash_add_512.
  change (for_ (py_range 0 _BLOCK_SIZE 1) (0, py_repeat 0 _BLOCK_SIZE) _) with (for_ (py_range 0 (Z.of_nat 64) 1) (0, py_repeat 0 64) (add_body a b)).
  rewrite E. cbn [bind]. now rewrite app_nil_r.
Qed.

Lemma add_512_ok a b : block64 a -> block64 b -> _hash_add_512 a b = Ok (le_bytes 64 (le_value a + le_value b)).
Proof. intros [Ha _] [Hb _]. rewrite add_512_long by lia. now rewrite !firstn_all2 by lia. Qed.

Lemma add_512_le n b : block64 b -> _hash_add_512 (le_bytes 64 n) b = Ok (le_bytes 64 ((n + le_value b) mod 2 ^ 512)).
Proof.
  intros Hb. rewrite add_512_ok by (try exact Hb; apply le_bytes_block). rewrite le_value_bytes. f_equal.
  rewrite <- pow_512, le_bytes_mod. rewrite <- (le_bytes_mod 64 (n + le_value b)), <- (le_bytes_mod 64 (_ mod _ + _)).
  now rewrite Zplus_mod_idemp_l.
Qed.

(** ** The compression function *)

Lemma sX_add k a : sX k a = add_xor k a.
Proof. unfold sX. revert a. induction k as [|x k IH]; intros [|y a]; cbn [combine map add_xor fst snd]; try reflexivity. now rewrite IH. Qed.

Lemma add_xor_block a b : block64 a -> block64 b -> block64 (add_xor a b).
Proof. intros [La Ha] [Lb Hb]. split; [rewrite add_xor_length; lia | now apply add_xor_ok]. Qed.

Lemma c_table : forallb (fun i => match py_get _C (Z.of_nat i) with Ok c => if list_eq_dec Z.eq_dec c (le_bytes 64 (nth i iteration_C 0)) then true else false | Err _ => false end) (seq 0 12) = true.
Proof. vm_compute. reflexivity. Qed.

Lemma c_get i : (i < 12)%nat -> py_get _C (Z.of_nat i) = Ok (le_bytes 64 (nth i iteration_C 0)).
Proof.
  intros Hi. pose proof c_table as H. rewrite forallb_forall in H. assert (Hin : In i (seq 0 12)) by (apply in_seq; lia). specialize (H i Hin). cbv beta in H.
  destruct (py_get _C (Z.of_nat i)) as [c|]; [|discriminate H].
  destruct (list_eq_dec Z.eq_dec c (le_bytes 64 (nth i iteration_C 0))) as [->|]; [reflexivity | discriminate H].
Qed.

Lemma get_key_ok k i : block64 k -> (i < 12)%nat ->
  _hash_get_key k (Z.of_nat i) = Ok (LPS (sX k (le_bytes 64 (nth i iteration_C 0)))) /\ block64 (LPS (sX k (le_bytes 64 (nth i iteration_C 0)))).
Proof.
  intros Hk Hi. unfold _hash_get_key. rewrite c_get by exact Hi. cbn [bind]. rewrite sX_add. apply lps_ok.
  apply add_xor_block; [exact Hk | apply le_bytes_block].
Qed.

Definition e_body : Z -> bytes * bytes -> res (bytes * bytes) := fun i '(k, internal) =>
  let* internal := _hash_lps internal in
  let* k := _hash_get_key k i in
  Ok (k, add_xor internal k).

Lemma e_loop : forall n i k m, (i + n = 12)%nat -> block64 k -> block64 m ->
  exists k', for_ (py_range (Z.of_nat i) 12 1) (k, sX k m) e_body = Ok (k', sE_rounds (skipn i iteration_C) k m) /\ block64 (sE_rounds (skipn i iteration_C) k m).
Proof.
  induction n as [|n IH]; intros i k m Hi Hk Hm.
  - replace i with 12%nat by lia. rewrite py_range_empty by lia. exists k. cbn [for_]. split; [reflexivity|].
    change (skipn 12 iteration_C) with (@nil Z). cbn [sE_rounds]. rewrite sX_add. now apply add_xor_block.
  - rewrite py_range_cons by lia. cbn [for_]. unfold e_body at 1.
    destruct (lps_ok (sX k m)) as [E1 B1]; [rewrite sX_add; now apply add_xor_block|]. rewrite E1. cbn [bind].
    destruct (get_key_ok k i Hk) as [E2 B2]; [lia|]. rewrite E2. cbn [bind].
    assert (Es : skipn i iteration_C = nth i iteration_C 0 :: skipn (S i) iteration_C).
    { assert (Hl : (i < List.length iteration_C)%nat) by (change (List.length iteration_C) with 12%nat; lia). revert Hl. generalize iteration_C. clear.
      induction i as [|i IH]; intros [|x l] H; cbn in H |- *; try lia; [reflexivity|]. apply IH. lia. }
    rewrite Es. cbn [sE_rounds]. destruct (IH (S i) (LPS (sX k (le_bytes 64 (nth i iteration_C 0)))) (LPS (sX k m))) as (k' & E & B); [lia | exact B2 | exact B1|].
    exists k'. split; [|exact B]. rewrite <- E. replace (Z.of_nat (S i)) with (Z.of_nat i + 1) by lia.
    rewrite (add_xor_comm (LPS (sX k m))), <- sX_add. reflexivity.
Qed.

Lemma e_ok k m : block64 k -> block64 m -> _hash_e k m = Ok (sE k m) /\ block64 (sE k m).
Proof.
  intros Hk Hm. destruct (e_loop 12 0 k m) as (k' & E & B); [lia | exact Hk | exact Hm|]. unfold _hash_e. rewrite <- sX_add.
  change (for_ (py_range 0 12 1) (k, sX k m) _) with (for_ (py_range (Z.of_nat 0) 12 1) (k, sX k m) e_body). rewrite E. cbn [bind]. split; [reflexivity | exact B].
Qed.

Lemma g_ok h n m : block64 h -> block64 m -> _hash_g h (le_bytes 64 n) m = Ok (sg n h m) /\ block64 (sg n h m).
Proof.
  intros Hh Hm. unfold _hash_g, sg. rewrite (sX_add h), (add_xor_comm h).
  destruct (lps_ok (add_xor (le_bytes 64 n) h)) as [E1 B1]; [apply add_xor_block; [apply le_bytes_block | exact Hh]|]. rewrite E1. cbn [bind].
  destruct (e_ok (LPS (add_xor (le_bytes 64 n) h)) m B1 Hm) as [E2 B2]. rewrite E2. cbn [bind]. rewrite !sX_add. split; [reflexivity|].
  apply add_xor_block; [apply add_xor_block|]; assumption.
Qed.
