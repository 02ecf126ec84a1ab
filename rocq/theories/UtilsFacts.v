(** * Facts about the model of utils.py *)
From Verif Require Import PyBase PyFacts Utils.

(** ** Bytes and xor *)

Lemma lxor_byte a b : byte_ok a -> byte_ok b -> byte_ok (Z.lxor a b).
Proof.
  unfold byte_ok; intros Ha Hb. split.
  - apply Z.lxor_nonneg; lia.
  - destruct (Z.eq_dec (Z.lxor a b) 0) as [->|Hn]; [lia|].
    assert (0 <= Z.lxor a b) by (apply Z.lxor_nonneg; lia).
    apply (Z.log2_lt_pow2 _ 8); [lia|].
    eapply Z.le_lt_trans; [apply Z.log2_lxor; lia|].
    assert (forall x, 0 <= x < 256 -> Z.log2 x < 8).
    { intros x Hx. destruct (Z.eq_dec x 0) as [->|]; [reflexivity|].
      apply Z.log2_lt_pow2; lia. }
    pose proof (H0 a Ha); pose proof (H0 b Hb); lia.
Qed.

Lemma add_xor_nil_r l : add_xor l [] = [].
Proof. destruct l; reflexivity. Qed.

Lemma add_xor_len a b : len (add_xor a b) = Z.min (len a) (len b).
Proof.
  unfold len. revert b; induction a as [|x a IH]; intros [|y b]; cbn [add_xor List.length]; try lia.
  specialize (IH b). lia.
Qed.

Lemma add_xor_length a b :
  List.length (add_xor a b) = Nat.min (List.length a) (List.length b).
Proof. revert b; induction a as [|x a IH]; intros [|y b]; cbn; auto. Qed.

Lemma add_xor_ok a b : bytes_ok a -> bytes_ok b -> bytes_ok (add_xor a b).
Proof.
  revert b; induction a as [|x a IH]; intros [|y b] Ha Hb; cbn; try constructor.
  - apply lxor_byte; [inversion Ha | inversion Hb]; auto.
  - apply IH; [inversion Ha | inversion Hb]; auto.
Qed.

Lemma add_xor_nth a b i :
  (i < Nat.min (List.length a) (List.length b))%nat ->
  nth i (add_xor a b) 0 = Z.lxor (nth i a 0) (nth i b 0).
Proof.
  revert b i; induction a as [|x a IH]; intros [|y b] [|i]; cbn; intros; try lia; auto.
  apply IH; lia.
Qed.

Lemma add_xor_comm a b : add_xor a b = add_xor b a.
Proof. revert b; induction a as [|x a IH]; intros [|y b]; cbn; auto. now rewrite Z.lxor_comm, IH. Qed.

Lemma add_xor_assoc a b c : add_xor a (add_xor b c) = add_xor (add_xor a b) c.
Proof.
  revert b c; induction a as [|x a IH]; intros [|y b] [|z c]; cbn; auto.
  now rewrite Z.lxor_assoc, IH.
Qed.

Lemma add_xor_cancel_le a b :
  (List.length b <= List.length a)%nat -> add_xor a (add_xor a b) = b.
Proof.
  revert b; induction a as [|x a IH]; intros [|y b]; cbn; intros; try lia; auto.
  rewrite <- Z.lxor_assoc, Z.lxor_nilpotent, Z.lxor_0_l, IH by lia; reflexivity.
Qed.

Lemma add_xor_cancel a b : len a = len b -> add_xor a (add_xor a b) = b.
Proof. unfold len; intros; apply add_xor_cancel_le; lia. Qed.

Lemma add_xor_firstn_l a b :
  add_xor (firstn (List.length b) a) b = add_xor a b.
Proof.
  revert b; induction a as [|x a IH]; intros [|y b]; cbn; auto. now rewrite IH.
Qed.

Lemma add_xor_firstn n a b : add_xor (firstn n a) (firstn n b) = firstn n (add_xor a b).
Proof. revert a b; induction n as [|n IH]; intros [|x a] [|y b]; cbn; auto. now rewrite IH. Qed.

Lemma add_xor_app a b c d :
  List.length a = List.length c ->
  add_xor (a ++ b) (c ++ d) = add_xor a c ++ add_xor b d.
Proof.
  revert c; induction a as [|x a IH]; intros [|y c]; cbn; intros; try lia; auto.
  rewrite IH by lia; reflexivity.
Qed.

Lemma add_xor_zeros_r a n : len a <= n -> add_xor a (py_repeat 0 n) = a.
Proof.
  unfold py_repeat, len; intros H. assert (Hn : (List.length a <= Z.to_nat n)%nat) by lia.
  revert Hn; generalize (Z.to_nat n); clear.
  induction a as [|x a IH]; intros [|n] Hn; cbn in *; try lia; auto.
  rewrite Z.lxor_0_r, IH by lia; reflexivity.
Qed.

Lemma add_xor_self a : add_xor a a = py_repeat 0 (len a).
Proof.
  unfold py_repeat, len; rewrite Nat2Z.id.
  induction a as [|x a IH]; cbn; auto. now rewrite Z.lxor_nilpotent, IH.
Qed.

Lemma add_xor_map a b :
  add_xor a b =
  map (fun i => Z.lxor (nth (Z.to_nat i) a 0) (nth (Z.to_nat i) b 0))
      (py_range 0 (Z.min (len a) (len b)) 1).
Proof.
  rewrite py_range_up, map_map.
  replace (Z.to_nat (Z.min (len a) (len b))) with (Nat.min (List.length a) (List.length b))
    by (unfold len; lia).
  revert b; induction a as [|x a IH]; intros [|y b]; try reflexivity.
  cbn [List.length Nat.min seq map add_xor]. f_equal.
  rewrite IH, <- seq_shift, map_map. apply map_ext; intros.
  now rewrite !Nat2Z.id.
Qed.

(** The literal loop computes [add_xor] and never raises. *)
Lemma add_xor_loop_ok a b :
  bytes_ok a -> bytes_ok b -> add_xor_loop a b = Ok (add_xor a b).
Proof.
  intros Ha Hb. unfold add_xor_loop. rewrite add_xor_map.
  apply for_set_loop.
  - rewrite len_repeat. pose proof (len_nonneg a); pose proof (len_nonneg b); lia.
  - intros i l Hi Hl.
    rewrite (py_get_nth a i 0) by lia. rewrite (py_get_nth b i 0) by lia. reflexivity.
  - intros i Hi. apply lxor_byte.
    + unfold bytes_ok in Ha; rewrite Forall_forall in Ha; apply Ha, nth_In; unfold len in Hi; lia.
    + unfold bytes_ok in Hb; rewrite Forall_forall in Hb; apply Hb, nth_In; unfold len in Hi; lia.
Qed.

(** ** Integers and byte strings *)

Lemma bytearray_to_int_acc l acc :
  fold_left (fun acc b => acc * 256 + b) l acc = acc * 256 ^ len l + bytearray_to_int l.
Proof.
  unfold bytearray_to_int.
  revert acc; induction l as [|x l IH]; intros acc; cbn [fold_left].
  - rewrite len_nil; lia.
  - rewrite IH, (IH (0 * 256 + x)), len_cons, Z.pow_add_r by (pose proof (len_nonneg l); lia). lia.
Qed.

Lemma bytearray_to_int_cons x l :
  bytearray_to_int (x :: l) = x * 256 ^ len l + bytearray_to_int l.
Proof. unfold bytearray_to_int at 1; cbn [fold_left]. now rewrite bytearray_to_int_acc. Qed.

Lemma bytearray_to_int_nil : bytearray_to_int [] = 0.
Proof. reflexivity. Qed.

Lemma bytearray_to_int_app l m :
  bytearray_to_int (l ++ m) = bytearray_to_int l * 256 ^ len m + bytearray_to_int m.
Proof. unfold bytearray_to_int at 1. rewrite fold_left_app. now rewrite bytearray_to_int_acc. Qed.

Lemma bytearray_to_int_bound l :
  bytes_ok l -> 0 <= bytearray_to_int l < 256 ^ len l.
Proof.
  induction l as [|x l IH]; intros H.
  - cbn; lia.
  - inversion H as [|? ? Hx Hl]; subst. specialize (IH Hl).
    rewrite bytearray_to_int_cons, len_cons, Z.pow_add_r by (pose proof (len_nonneg l); lia).
    unfold byte_ok in Hx. change (256 ^ 1) with 256. nia.
Qed.

Definition byte_at (v pos : Z) : Z := Z.shiftr (Z.land v (Z.shiftl 0xff (pos * 8))) (pos * 8).

Lemma byte_at_eq v pos : 0 <= pos -> byte_at v pos = (v / 256 ^ pos) mod 256.
Proof.
  intros H; unfold byte_at.
  rewrite Z.shiftr_land, Z.shiftr_shiftl_l by lia.
  replace (pos * 8 - pos * 8) with 0 by lia. rewrite Z.shiftl_0_r.
  change 255 with (Z.ones 8). rewrite Z.land_ones by lia.
  rewrite Z.shiftr_div_pow2 by lia. f_equal. f_equal.
  change 256 with (2 ^ 8). rewrite <- Z.pow_mul_r by lia. f_equal; lia.
Qed.

Lemma py_range_down n :
  py_range (n - 1) (-1) (-1) = map (fun i => n - 1 - Z.of_nat i) (seq 0 (Z.to_nat n)).
Proof.
  unfold py_range. change (-1 >? 0) with false. change (-1 <? 0) with true. cbn match.
  replace (n - 1 - -1 - -1 - 1) with n by lia. replace (- -1) with 1 by lia.
  rewrite Z.div_1_r. apply map_ext; intros; lia.
Qed.

Lemma int_to_bytearray_seq v n :
  int_to_bytearray v n =
  map (fun i => (v / 256 ^ (n - 1 - Z.of_nat i)) mod 256) (seq 0 (Z.to_nat n)).
Proof.
  unfold int_to_bytearray. rewrite py_range_down, map_map.
  apply map_ext_in; intros i Hi; apply in_seq in Hi.
  fold (byte_at v (n - 1 - Z.of_nat i)). apply byte_at_eq; lia.
Qed.

Lemma int_to_bytearray_len v n : len (int_to_bytearray v n) = Z.max 0 n.
Proof. rewrite int_to_bytearray_seq; unfold len; rewrite map_length, seq_length; lia. Qed.

Lemma int_to_bytearray_ok v n : bytes_ok (int_to_bytearray v n).
Proof.
  rewrite int_to_bytearray_seq. apply Forall_forall; intros x Hx.
  apply in_map_iff in Hx as (i & <- & _). unfold byte_ok. apply Z.mod_pos_bound; lia.
Qed.

Lemma int_to_bytearray_0 v n : n <= 0 -> int_to_bytearray v n = [].
Proof. intros; rewrite int_to_bytearray_seq. now replace (Z.to_nat n) with 0%nat by lia. Qed.

(** Last byte split off. *)
Lemma int_to_bytearray_snoc v n :
  0 <= n -> int_to_bytearray v (n + 1) = int_to_bytearray (v / 256) n ++ [v mod 256].
Proof.
  intros H; rewrite !int_to_bytearray_seq.
  replace (Z.to_nat (n + 1)) with (S (Z.to_nat n)) by lia.
  rewrite seq_S, map_app; cbn [map app]. f_equal.
  - apply map_ext_in; intros i Hi; apply in_seq in Hi.
    rewrite Z.div_div by (try apply Z.pow_pos_nonneg; lia). f_equal. f_equal.
    replace (n + 1 - 1 - Z.of_nat i) with (1 + (n - 1 - Z.of_nat i)) by lia.
    rewrite Z.pow_add_r by lia. reflexivity.
  - repeat f_equal. cbn [Nat.add]. replace (n + 1 - 1 - Z.of_nat (Z.to_nat n)) with 0 by lia.
    now rewrite Z.pow_0_r, Z.div_1_r.
Qed.

Lemma to_int_of_int v n :
  0 <= n -> bytearray_to_int (int_to_bytearray v n) = v mod 256 ^ n.
Proof.
  intros H. replace n with (Z.of_nat (Z.to_nat n)) by lia.
  generalize (Z.to_nat n) as m; clear n H. intros m; revert v; induction m as [|m IH]; intros v.
  - rewrite int_to_bytearray_0 by lia. cbn. now rewrite Z.mod_1_r.
  - rewrite Nat2Z.inj_succ. unfold Z.succ. rewrite int_to_bytearray_snoc by lia.
    rewrite bytearray_to_int_app, IH. cbn [bytearray_to_int fold_left]. change (len [v mod 256]) with 1.
    unfold bytearray_to_int; cbn [fold_left].
    rewrite Z.pow_add_r, Z.pow_1_r by lia.
    assert (0 < 256 ^ Z.of_nat m) by (apply Z.pow_pos_nonneg; lia).
    rewrite (Z.mul_comm (256 ^ Z.of_nat m) 256), Z.rem_mul_r by lia. lia.
Qed.

Lemma to_int_of_int_small v n :
  0 <= n -> 0 <= v < 256 ^ n -> bytearray_to_int (int_to_bytearray v n) = v.
Proof. intros; rewrite to_int_of_int, Z.mod_small; auto. Qed.

Lemma of_int_to_int l : bytes_ok l -> int_to_bytearray (bytearray_to_int l) (len l) = l.
Proof.
  induction l as [|x l IH] using rev_ind; intros H; [reflexivity|].
  apply bytes_ok_app in H as [Hl Hx]. apply bytes_ok_cons in Hx as [Hx _].
  rewrite len_app. change (len [x]) with 1.
  rewrite int_to_bytearray_snoc by apply len_nonneg.
  rewrite bytearray_to_int_app. change (len [x]) with 1. rewrite Z.pow_1_r.
  unfold bytearray_to_int at 2 4; cbn [fold_left]. unfold byte_ok in Hx.
  replace ((bytearray_to_int l * 256 + (0 * 256 + x)) / 256) with (bytearray_to_int l) by lia.
  replace ((bytearray_to_int l * 256 + (0 * 256 + x)) mod 256) with x by lia.
  now rewrite IH.
Qed.

Lemma bytearray_to_int_inj l m :
  bytes_ok l -> bytes_ok m -> len l = len m ->
  bytearray_to_int l = bytearray_to_int m -> l = m.
Proof.
  intros Hl Hm Hlen H.
  rewrite <- (of_int_to_int l), <- (of_int_to_int m) by auto. now rewrite H, Hlen.
Qed.

Lemma int_to_bytearray_mod v n : 0 <= n -> int_to_bytearray (v mod 256 ^ n) n = int_to_bytearray v n.
Proof.
  intros H. apply bytearray_to_int_inj; try apply int_to_bytearray_ok.
  - now rewrite !int_to_bytearray_len.
  - rewrite !to_int_of_int by auto. apply Z.mod_mod. pose proof (Z.pow_pos_nonneg 256 n); lia.
Qed.

(** ** Comparison *)

Lemma xor_sum_zero a b :
  List.length a = List.length b -> bytes_ok a -> bytes_ok b -> forall acc, 0 <= acc ->
  0 <= fold_left Z.add (add_xor a b) acc /\
  (fold_left Z.add (add_xor a b) acc = 0 <-> acc = 0 /\ a = b).
Proof.
  revert b; induction a as [|x a IH]; intros [|y b] Hl Ha Hb acc Hacc; cbn in *; try lia.
  - intuition.
  - apply bytes_ok_cons in Ha as [Hx Ha]; apply bytes_ok_cons in Hb as [Hy Hb].
    assert (0 <= Z.lxor x y) by (apply Z.lxor_nonneg; unfold byte_ok in *; lia).
    destruct (IH b) with (acc := acc + Z.lxor x y) as [H1 H2]; auto; [lia|].
    split; [exact H1|]. rewrite H2. split.
    + intros [E ->]. assert (E' : Z.lxor x y = 0) by lia. apply Z.lxor_eq in E'. subst; split; auto; lia.
    + intros [-> E]. inversion E; subst. rewrite Z.lxor_nilpotent. auto.
Qed.

Lemma fold_left_map {A B C} (f : A -> B -> A) (g : C -> B) l a :
  fold_left f (map g l) a = fold_left (fun a c => f a (g c)) l a.
Proof. revert a; induction l as [|x l IH]; intros a; cbn; auto. Qed.

Lemma compare_total a b :
  bytes_ok a -> bytes_ok b -> exists r, compare a b = Ok r /\ (r = true <-> a = b).
Proof.
  intros Ha Hb. unfold compare.
  destruct (len a =? len b) eqn:E; cbn [negb].
  2: { exists false; split; auto. split; [discriminate|]. intros ->. lia. }
  assert (Hl : List.length a = List.length b) by (unfold len in E; lia).
  edestruct (for_fold (py_range 0 (len a) 1) 0
     (fun i res_check => let* a := py_get a i in let* b := py_get b i in Ok (res_check + Z.lxor a b))
     (fun acc i => acc + Z.lxor (nth (Z.to_nat i) a 0) (nth (Z.to_nat i) b 0)) (fun _ => True)) as [F _]; auto.
  { intros i s Hi _. apply in_py_range in Hi. rewrite (py_get_nth a i 0), (py_get_nth b i 0) by lia.
    split; auto. }
  rewrite F; cbn [bind].
  eexists; split; [reflexivity|].
  assert (Hx : fold_left (fun acc i => acc + Z.lxor (nth (Z.to_nat i) a 0) (nth (Z.to_nat i) b 0))
                 (py_range 0 (len a) 1) 0 = fold_left Z.add (add_xor a b) 0).
  { rewrite add_xor_map, fold_left_map. replace (Z.min (len a) (len b)) with (len a) by lia. reflexivity. }
  rewrite Hx.
  destruct (xor_sum_zero a b Hl Ha Hb 0 ltac:(lia)) as [_ H]. rewrite Z.eqb_eq, H. intuition.
Qed.

Lemma compare_true a b : bytes_ok a -> bytes_ok b -> (compare a b = Ok true <-> a = b).
Proof.
  intros Ha Hb. destruct (compare_total a b Ha Hb) as (r & -> & H).
  split; [intros [= ->]; now apply H | intros Heq; now rewrite (proj2 H Heq)].
Qed.

Lemma compare_false a b : bytes_ok a -> bytes_ok b -> (compare a b = Ok false <-> a <> b).
Proof.
  intros Ha Hb. destruct (compare_total a b Ha Hb) as (r & -> & H).
  destruct r; split.
  - intros [= ].
  - intros Hn; exfalso; apply Hn; now apply H.
  - intros _ E; apply H in E; discriminate.
  - reflexivity.
Qed.

Lemma fold_lxor_0 {A} (f : A -> Z) r acc :
  fold_left (fun acc i => acc + Z.lxor (f i) 0) r acc = fold_left (fun acc i => acc + f i) r acc.
Proof.
  revert acc; induction r as [|i r IH]; intros acc; cbn [fold_left]; [reflexivity|].
  now rewrite IH, Z.lxor_0_r.
Qed.

Lemma compare_to_zero_total a :
  bytes_ok a -> exists r, compare_to_zero a = Ok r /\ (r = true <-> a = py_repeat 0 (len a)).
Proof.
  intros Ha. unfold compare_to_zero.
  edestruct (for_fold (py_range 0 (len a) 1) 0
     (fun i res_check => let* v := py_get a i in Ok (res_check + Z.lxor v 0))
     (fun acc i => acc + Z.lxor (nth (Z.to_nat i) a 0) 0) (fun _ => True)) as [F _]; auto.
  { intros i s Hi _. apply in_py_range in Hi. rewrite (py_get_nth a i 0) by lia. split; auto. }
  rewrite F; cbn [bind]. eexists; split; [reflexivity|].
  assert (Hx : fold_left (fun acc i => acc + Z.lxor (nth (Z.to_nat i) a 0) 0)
                 (py_range 0 (len a) 1) 0 = fold_left Z.add (add_xor a (py_repeat 0 (len a))) 0).
  { rewrite add_xor_zeros_r by lia.
    transitivity (fold_left Z.add (map (fun i => nth (Z.to_nat i) a 0) (py_range 0 (len a) 1)) 0).
    2: { now rewrite (map_nth_range (fun x => x) a 0), map_id. }
    rewrite fold_left_map. apply fold_lxor_0. }
  rewrite Hx.
  destruct (xor_sum_zero a (py_repeat 0 (len a))) with (acc := 0) as [_ H]; auto.
  - unfold py_repeat, len; rewrite repeat_length; lia.
  - apply bytes_ok_repeat; unfold byte_ok; lia.
  - lia.
  - rewrite Z.eqb_eq, H. intuition.
Qed.

Lemma int_to_bytearray_zero n : int_to_bytearray 0 n = py_repeat 0 n.
Proof.
  rewrite int_to_bytearray_seq. unfold py_repeat.
  rewrite (map_ext _ (fun _ => 0)) by (intros; now rewrite Zdiv.Zdiv_0_l).
  generalize 0%nat as s; induction (Z.to_nat n) as [|m IH]; intros s; cbn; auto. now rewrite IH.
Qed.

Lemma bytearray_to_int_zero_iff a :
  bytes_ok a -> (bytearray_to_int a = 0 <-> a = py_repeat 0 (len a)).
Proof.
  intros Ha. split.
  - intros H. assert (E := of_int_to_int a Ha). rewrite H, int_to_bytearray_zero in E. now symmetry.
  - intros ->. unfold py_repeat. generalize (Z.to_nat (len a)) as n. clear.
    induction n as [|n IH]; [reflexivity|]. cbn [repeat]. rewrite bytearray_to_int_cons, IH; lia.
Qed.

(** Comparing an encoded integer with zero. *)
Lemma compare_to_zero_int v n :
  0 <= n -> compare_to_zero (int_to_bytearray v n) = Ok (v mod 256 ^ n =? 0).
Proof.
  intros Hn. destruct (compare_to_zero_total (int_to_bytearray v n)) as (r & -> & H).
  { apply int_to_bytearray_ok. }
  f_equal. rewrite <- bytearray_to_int_zero_iff in H by apply int_to_bytearray_ok.
  rewrite to_int_of_int in H by auto.
  destruct r, (v mod 256 ^ n =? 0) eqn:E; intuition; lia.
Qed.

Lemma compare_int v w n :
  0 <= n -> compare (int_to_bytearray v n) (int_to_bytearray w n) =
            Ok (v mod 256 ^ n =? w mod 256 ^ n).
Proof.
  intros Hn.
  destruct (compare_total (int_to_bytearray v n) (int_to_bytearray w n)) as (r & -> & H);
    try apply int_to_bytearray_ok.
  f_equal.
  assert (Hiff : int_to_bytearray v n = int_to_bytearray w n <-> v mod 256 ^ n = w mod 256 ^ n).
  { split; intros E.
    - apply (f_equal bytearray_to_int) in E. now rewrite !to_int_of_int in E.
    - rewrite <- (int_to_bytearray_mod v), <- (int_to_bytearray_mod w) by auto. now rewrite E. }
  rewrite Hiff in H.
  destruct r, (v mod 256 ^ n =? w mod 256 ^ n) eqn:E; intuition; lia.
Qed.

(** ** zero_fill *)

Lemma bytes_mul_len b n : len (bytes_mul b n) = len b * Z.max 0 n.
Proof.
  unfold bytes_mul, py_repeat.
  replace (Z.max 0 n) with (Z.of_nat (Z.to_nat n)) by lia.
  induction (Z.to_nat n) as [|m IH]; cbn [repeat concat]; [rewrite len_nil; lia|].
  rewrite len_app, IH; lia.
Qed.

Lemma zero_fill_len b : len (zero_fill b) = 4 * len b.
Proof.
  unfold zero_fill, zero_fill_val. rewrite bytes_mul_len. change (len slash_x00) with 4.
  pose proof (len_nonneg b); lia.
Qed.

Lemma bytes_mul_ok b n : bytes_ok b -> bytes_ok (bytes_mul b n).
Proof.
  intros H; unfold bytes_mul, py_repeat. induction (Z.to_nat n) as [|m IH]; cbn [repeat concat].
  - constructor.
  - apply bytes_ok_app; auto.
Qed.

Lemma slash_x00_ok : bytes_ok slash_x00.
Proof. repeat constructor; unfold byte_ok; lia. Qed.

Lemma zero_fill_ok b : bytes_ok (zero_fill b).
Proof. apply bytes_mul_ok, slash_x00_ok. Qed.

Lemma zero_fill_no_zero b : ~ In 0 (zero_fill b).
Proof.
  unfold zero_fill, zero_fill_val, bytes_mul. rewrite in_concat. intros (l & Hl & H0).
  unfold py_repeat in Hl. apply repeat_spec in Hl; subst. cbn in H0. intuition discriminate.
Qed.

Lemma zero_fill_same_len a b : len a = len b -> zero_fill a = zero_fill b.
Proof. unfold zero_fill, zero_fill_val; now intros ->. Qed.
