(** * Streebog: the compression function of the code is that of the specification *)
From Verif Require Import PyBase PyFacts Utils UtilsFacts StreebogTables Streebog SpecKuznechik SpecStreebog KuzFacts.

Definition block64 (b : bytes) : Prop := List.length b = 64%nat /\ bytes_ok b.

(** ** Little-endian integers *)

Lemma le_bytes_length n : forall v, List.length (le_bytes n v) = n.
Proof. induction n as [|n IH]; intros v; cbn [le_bytes List.length]; [reflexivity | now rewrite IH]. Qed.

Lemma le_bytes_ok n : forall v, bytes_ok (le_bytes n v).
Proof.
  induction n as [|n IH]; intros v; cbn [le_bytes]; [apply Forall_nil|].
  apply Forall_cons; [unfold byte_ok; lia | apply IH].
Qed.

Lemma le_bytes_block v : block64 (le_bytes 64 v).
Proof. split; [apply le_bytes_length | apply le_bytes_ok]. Qed.

Lemma le_value_rev a : le_value a = bytearray_to_int (rev a).
Proof.
  induction a as [|x a IH]; [reflexivity|]. cbn [le_value rev]. rewrite bytearray_to_int_app, IH.
  change (bytearray_to_int [x]) with (0 * 256 + x). change (256 ^ len [x]) with 256. lia.
Qed.

Lemma le_bytes_rev n v : le_bytes n v = rev (int_to_bytearray v (Z.of_nat n)).
Proof.
  revert v. induction n as [|n IH]; intros v; cbn [le_bytes]; [reflexivity|].
  replace (Z.of_nat (S n)) with (Z.of_nat n + 1) by lia. rewrite int_to_bytearray_snoc by lia. rewrite rev_app_distr. cbn [rev app].
  now rewrite IH.
Qed.

Lemma le_value_bound a : bytes_ok a -> 0 <= le_value a < 256 ^ len a.
Proof.
  intros H. rewrite le_value_rev. replace (len a) with (len (rev a)) by (unfold len; now rewrite rev_length).
  apply bytearray_to_int_bound. now apply Forall_rev.
Qed.

Lemma le_value_bytes n v : le_value (le_bytes n v) = v mod 256 ^ Z.of_nat n.
Proof. rewrite le_bytes_rev, le_value_rev, rev_involutive. apply to_int_of_int. lia. Qed.

Lemma le_bytes_value a : bytes_ok a -> le_bytes (List.length a) (le_value a) = a.
Proof.
  intros H. rewrite le_bytes_rev, le_value_rev.
  replace (Z.of_nat (List.length a)) with (len (rev a)) by (unfold len; now rewrite rev_length).
  rewrite of_int_to_int by now apply Forall_rev. apply rev_involutive.
Qed.

Lemma le_bytes_mod n v : le_bytes n (v mod 256 ^ Z.of_nat n) = le_bytes n v.
Proof. rewrite !le_bytes_rev. now rewrite int_to_bytearray_mod by lia. Qed.

Lemma le_bytes_zero n : le_bytes n 0 = repeat 0 n.
Proof. induction n as [|n IH]; [reflexivity|]. cbn [le_bytes repeat]. change (0 mod 256) with 0. change (0 / 256) with 0. now rewrite IH. Qed.

Lemma pow_512 : 256 ^ Z.of_nat 64 = 2 ^ 512.
Proof. reflexivity. Qed.

(** ** The tables *)

(** The part of the linear map that depends on octet [j]. *)
Definition sl8 (j : nat) (b : Z) : Z :=
  xor_sum (map (fun t => if Z.testbit b (Z.of_nat t) then nth (63 - (8 * j + t)) matrix_A 0 else 0) (seq 0 8)).

Lemma xor_sum_app l m : xor_sum (l ++ m) = Z.lxor (xor_sum l) (xor_sum m).
Proof. induction l as [|x l IH]; cbn [app xor_sum fold_right]; [now rewrite Z.lxor_0_l|]. unfold xor_sum in *. now rewrite IH, Z.lxor_assoc. Qed.

Lemma testbit_cons x y k : 0 <= x < 256 -> Z.testbit (x + 256 * y) (Z.of_nat k) = if (k <? 8)%nat then Z.testbit x (Z.of_nat k) else Z.testbit y (Z.of_nat (k - 8)).
Proof.
  intros Hx. destruct (Nat.ltb_spec k 8) as [H|H].
  - rewrite <- (Z.mod_pow2_bits_low (x + 256 * y) 8) by lia. change (2 ^ 8) with 256. f_equal. lia.
  - replace (Z.of_nat k) with (Z.of_nat (k - 8) + 8) by lia. rewrite <- Z.div_pow2_bits by lia. change (2 ^ 8) with 256. f_equal. lia.
Qed.

Definition bit_sum (b : Z) (r : nat -> Z) (n : nat) : Z :=
  xor_sum (map (fun k => if Z.testbit b (Z.of_nat k) then r k else 0) (seq 0 n)).
Fixpoint by_octets (bs : bytes) (r : nat -> Z) : Z :=
  match bs with
  | [] => 0
  | b :: bs' => Z.lxor (bit_sum b r 8) (by_octets bs' (fun k => r (8 + k)%nat))
  end.

Lemma seq_add a n : forall s, seq (a + s) n = map (fun k => (a + k)%nat) (seq s n).
Proof. induction n as [|n IH]; intros s; [reflexivity|]. cbn [seq map]. f_equal. rewrite <- IH. f_equal. lia. Qed.

Lemma bit_sum_octets bs : bytes_ok bs -> forall r, bit_sum (le_value bs) r (8 * List.length bs) = by_octets bs r.
Proof.
  induction 1 as [|b bs Hb HF IH]; intros r; [reflexivity|]. cbn [List.length by_octets le_value].
  rewrite <- IH. unfold bit_sum. replace (8 * S (List.length bs))%nat with (8 + 8 * List.length bs)%nat by lia.
  rewrite seq_app, map_app, xor_sum_app. f_equal.
  - f_equal. apply map_ext_in. intros k Hk. apply in_seq in Hk. rewrite testbit_cons by exact Hb. now replace (k <? 8)%nat with true by (symmetry; apply Nat.ltb_lt; lia).
  - f_equal. change (0 + 8)%nat with 8%nat.
    replace (seq 8 (8 * List.length bs)) with (map (fun k => (8 + k)%nat) (seq 0 (8 * List.length bs))).
    2:{ symmetry. apply (seq_add 8 _ 0). }
    rewrite map_map. apply map_ext_in. intros k Hk. rewrite testbit_cons by exact Hb.
    replace (8 + k <? 8)%nat with false by (symmetry; apply Nat.ltb_ge; lia). now replace (8 + k - 8)%nat with k by lia.
Qed.

Lemma sl_octets bs : List.length bs = 8%nat -> bytes_ok bs -> sl (le_value bs) = by_octets bs (fun k => nth (63 - k) matrix_A 0).
Proof. intros HL H. rewrite <- bit_sum_octets by exact H. unfold sl, bit_sum. rewrite HL. reflexivity. Qed.

Definition t_is (j x : Z) : bool :=
  match (let* row := py_get _T j in py_get row x) with
  | Ok v => (v =? sl8 (Z.to_nat j) (sbox x)) && (0 <=? v) && (v <? 2 ^ 64)
  | Err _ => false
  end.

Lemma t_table : forallb (fun j => forallb (t_is (Z.of_nat j)) (map Z.of_nat (seq 0 256))) (seq 0 8) = true.
Proof. vm_compute. reflexivity. Qed.

Lemma nth_byte l i : bytes_ok l -> byte_ok (nth i l 0).
Proof.
  intros H. destruct (Nat.ltb_spec i (List.length l)) as [L|L].
  - unfold bytes_ok in H. rewrite Forall_forall in H. now apply H, nth_In.
  - rewrite nth_overflow by lia. unfold byte_ok. lia.
Qed.

Lemma t_get_ok data j k : bytes_ok data -> 0 <= k < len data -> (j < 8)%nat ->
  t_get data (Z.of_nat j) k = Ok (sl8 j (sbox (nth (Z.to_nat k) data 0))) /\ 0 <= sl8 j (sbox (nth (Z.to_nat k) data 0)) < 2 ^ 64.
Proof.
  intros Hd Hk Hj. pose proof t_table as HT. rewrite forallb_forall in HT.
  assert (Hin : In j (seq 0 8)) by (apply in_seq; lia). specialize (HT j Hin). cbv beta in HT.
  pose proof (byte_check _ HT (nth (Z.to_nat k) data 0) (nth_byte data _ Hd)) as H.
  unfold t_is in H. rewrite Nat2Z.id in H. unfold t_get. rewrite (py_get_nth data k 0) by lia.
  destruct (py_get _T (Z.of_nat j)) as [row|e]; cbn [bind] in H |- *; [|discriminate H].
  destruct (py_get row (nth (Z.to_nat k) data 0)) as [v|e]; [|discriminate H].
  apply andb_prop in H as [H H3]. apply andb_prop in H as [H1 H2]. apply Z.eqb_eq in H1. split; [now rewrite H1 | rewrite <- H1; lia].
Qed.

Lemma lxor_range n a b : 0 <= n -> 0 <= a < 2 ^ n -> 0 <= b < 2 ^ n -> 0 <= Z.lxor a b < 2 ^ n.
Proof.
  intros Hn Ha Hb. assert (H0 : 0 <= Z.lxor a b) by (apply Z.lxor_nonneg; tauto). split; [exact H0|].
  destruct (Z.eq_dec (Z.lxor a b) 0) as [-> | Hz]; [lia|]. apply Z.log2_lt_pow2; [lia|].
  apply Z.le_lt_trans with (Z.max (Z.log2 a) (Z.log2 b)); [apply Z.log2_lxor; lia|].
  destruct (Z.eq_dec a 0) as [-> | Ea]; destruct (Z.eq_dec b 0) as [-> | Eb]; try (cbn in Hz; lia).
  - rewrite Z.max_r; [apply Z.log2_lt_pow2; lia | change (Z.log2 0) with 0; apply Z.log2_nonneg].
  - rewrite Z.max_l; [apply Z.log2_lt_pow2; lia | change (Z.log2 0) with 0; apply Z.log2_nonneg].
  - apply Z.max_lub_lt; apply Z.log2_lt_pow2; lia.
Qed.

Lemma lps_word_ok data k0 k1 k2 k3 k4 k5 k6 k7 : bytes_ok data ->
  Forall (fun k => 0 <= k < len data) [k0; k1; k2; k3; k4; k5; k6; k7] ->
  lps_word data k0 k1 k2 k3 k4 k5 k6 k7 =
    Ok (le_bytes 8 (sl (le_value (map (fun k => sbox (nth (Z.to_nat k) data 0)) [k0; k1; k2; k3; k4; k5; k6; k7])))).
Proof.
  intros Hd HF. rewrite Forall_forall in HF. unfold lps_word.
  assert (G : forall j k, (j < 8)%nat -> In k [k0; k1; k2; k3; k4; k5; k6; k7] ->
    t_get data (Z.of_nat j) k = Ok (sl8 j (sbox (nth (Z.to_nat k) data 0))) /\ 0 <= sl8 j (sbox (nth (Z.to_nat k) data 0)) < 2 ^ 64)
    by (intros j k Hj Hin; apply t_get_ok; auto).
  destruct (G 0%nat k0) as [E0 R0]; [lia | cbn; tauto|]. destruct (G 1%nat k1) as [E1 R1]; [lia | cbn; tauto|].
  destruct (G 2%nat k2) as [E2 R2]; [lia | cbn; tauto|]. destruct (G 3%nat k3) as [E3 R3]; [lia | cbn; tauto|].
  destruct (G 4%nat k4) as [E4 R4]; [lia | cbn; tauto|]. destruct (G 5%nat k5) as [E5 R5]; [lia | cbn; tauto|].
  destruct (G 6%nat k6) as [E6 R6]; [lia | cbn; tauto|]. destruct (G 7%nat k7) as [E7 R7]; [lia | cbn; tauto|].
  cbn [Z.of_nat Pos.of_succ_nat Pos.succ] in E0, E1, E2, E3, E4, E5, E6, E7.
  rewrite E0, E1, E2, E3, E4, E5, E6, E7. cbn [bind]. clear E0 E1 E2 E3 E4 E5 E6 E7.
  rewrite sl_octets; [|reflexivity|].
  2:{ unfold bytes_ok. rewrite Forall_map. apply Forall_forall. intros k _. apply sbox_table. now apply nth_byte. }
  cbn [map by_octets]. unfold to_bytes_8_little.
  set (v := Z.lxor _ (sl8 7 _)). assert (Hv : 0 <= v < 2 ^ 64) by (unfold v; repeat (apply lxor_range; [lia| |]; try assumption)).
  replace ((0 <=? v) && (v <? 2 ^ 64)) with true by lia. rewrite le_bytes_rev. change (Z.of_nat 8) with 8. do 3 f_equal. unfold v.
  rewrite Z.lxor_0_r, !Z.lxor_assoc. reflexivity.
Qed.

(** ** LPS *)

Lemma clamp_in n i : 0 <= i <= n -> clamp n i = i.
Proof. intros H. unfold clamp. destruct (i <? 0) eqn:E; [lia|]. cbv zeta. rewrite E. destruct (n <? i) eqn:E2; lia. Qed.


Lemma set_from_0 l v : set_from l 0 v = v.
Proof.
  unfold set_from, py_slice_set. pose proof (len_nonneg l) as Hl.
  assert (E0 : clamp (len l) 0 = 0) by (apply clamp_in; lia).
  assert (E1 : clamp (len l) (len l) = len l) by (apply clamp_in; lia).
  rewrite E0, E1. cbn [Z.to_nat firstn app]. rewrite skipn_all2; [apply app_nil_r|]. unfold len. lia.
Qed.

Lemma set_from_end l v a : a = len l -> set_from l a v = l ++ v.
Proof.
  intros ->. unfold set_from, py_slice_set. assert (E : clamp (len l) (len l) = len l) by (apply clamp_in; pose proof (len_nonneg l); lia).
  rewrite E, Z.max_id. unfold len. rewrite Nat2Z.id, firstn_all, skipn_all. now rewrite app_nil_r.
Qed.

Lemma block_map (d : bytes) n : List.length d = n -> d = map (fun i => nth i d 0) (seq 0 n).
Proof.
  intros H. apply nth_ext with 0 0; [now rewrite map_length, seq_length|]. intros i Hi. rewrite H in Hi.
  rewrite (nth_indep (map (fun i => nth i d 0) (seq 0 n)) 0 (nth 0 d 0)) by (rewrite map_length, seq_length; lia).
  rewrite (map_nth (fun i => nth i d 0)). now rewrite seq_nth by lia.
Qed.

Lemma lps_ok d : block64 d -> _hash_lps d = Ok (LPS d) /\ block64 (LPS d).
Proof.
  intros [HL Hd]. assert (Hlen : len d = 64) by (unfold len; lia). split.
  2:{ unfold LPS, sL. split; [cbn [map seq concat]; now rewrite !app_length, !le_bytes_length | ].
      unfold bytes_ok. apply Forall_concat. rewrite Forall_map. apply Forall_forall. intros i _. apply le_bytes_ok. }
  unfold _hash_lps.
  repeat (rewrite lps_word_ok; [cbn [bind] | exact Hd | rewrite Hlen; repeat (apply Forall_cons; [lia|]); apply Forall_nil]).
  rewrite set_from_0. 
  do 7 match goal with |- context [set_from ?l ?a (le_bytes 8 ?w)] =>
    match l with context [set_from] => fail 1 | _ => rewrite (set_from_end l (le_bytes 8 w) a) by (unfold len; rewrite ?app_length, !le_bytes_length; reflexivity) end
  end.
  f_equal. unfold LPS, sL. cbn [map seq concat]. rewrite <- !app_assoc, app_nil_r.
  set (f := fun i => nth i d 0). assert (Ed : d = map f (seq 0 64)) by now apply block_map.
  assert (EP : sP (sS d) = map (fun i => sbox (f (tau i))) (seq 0 64)).
  { unfold sP. apply map_ext_in. intros i Hi. apply in_seq in Hi. unfold sS.
    assert (tau i < 64)%nat by (unfold tau; pose proof (Nat.mod_upper_bound i 8); pose proof (Nat.div_lt_upper_bound i 8 8); lia).
    rewrite (nth_indep _ 0 (sbox 0)) by (rewrite map_length; lia). now rewrite (map_nth sbox). }
  rewrite EP. reflexivity.
Qed.
