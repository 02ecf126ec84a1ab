(** * Magma: the model refines the specification *)
From Verif Require Import PyBase PyFacts Utils UtilsFacts CipherTables Magma SpecMagma KuzFacts KuzFacts2.

(** ** Arithmetic *)

Lemma land_255 x : Z.land x 0xff = x mod 256.
Proof. change 0xff with (Z.ones 8). now rewrite Z.land_ones by lia. Qed.
Lemma land_15 x : Z.land x 0x0f = x mod 16.
Proof. change 0x0f with (Z.ones 4). now rewrite Z.land_ones by lia. Qed.
Lemma shiftr_8 x : Z.shiftr x 8 = x / 256.
Proof. now rewrite Z.shiftr_div_pow2 by lia. Qed.
Lemma high_nibble x : byte_ok x -> Z.shiftr (Z.land x 0xf0) 4 = x / 16.
Proof.
  intros Hx. apply Z.eqb_eq. revert x Hx.
  apply (byte_check (fun x => Z.shiftr (Z.land x 0xf0) 4 =? x / 16)). vm_compute. reflexivity.
Qed.

Lemma lor_disjoint a b n : 0 <= n -> 0 <= b < 2 ^ n -> Z.lor (Z.shiftl a n) b = a * 2 ^ n + b.
Proof.
  intros Hn Hb. rewrite <- Z.shiftl_mul_pow2 by auto.
  assert (E : Z.land (Z.shiftl a n) b = 0).
  { apply Z.bits_inj'. intros m Hm. rewrite Z.land_spec, Z.bits_0.
    destruct (Z.lt_ge_cases m n).
    - rewrite Z.shiftl_spec_low by auto. reflexivity.
    - rewrite <- (Z.mod_small b (2 ^ n)) by auto.
      rewrite Z.mod_pow2_bits_high by lia. apply andb_false_r. }
  rewrite <- Z.lxor_lor by auto. now rewrite Z.add_nocarry_lxor.
Qed.

Lemma rot_ok x :
  0 <= x < 2 ^ 32 ->
  Z.land (Z.lor (Z.shiftl x 11) (Z.shiftr x 21)) 0xffffffff = rotl11 x.
Proof.
  intros Hx. change 0xffffffff with (Z.ones 32). rewrite Z.land_ones by lia.
  rewrite Z.shiftr_div_pow2 by lia. rewrite lor_disjoint by (try lia; change (2 ^ 32) with 4294967296 in *;
    change (2 ^ 21) with 2097152; change (2 ^ 11) with 2048; lia).
  unfold rotl11. change (2 ^ 32) with 4294967296 in *; change (2 ^ 21) with 2097152; change (2 ^ 11) with 2048.
  lia.
Qed.

Lemma mod_256_lxor a b : Z.lxor (a mod 256) (b mod 256) = Z.lxor a b mod 256.
Proof. rewrite <- !land_255. apply Z.bits_inj'. intros n Hn.
  rewrite !Z.lxor_spec, !Z.land_spec, Z.lxor_spec.
  destruct (Z.testbit a n), (Z.testbit b n), (Z.testbit 0xff n); reflexivity.
Qed.

Lemma add_xor_int a b n :
  add_xor (int_to_bytearray a n) (int_to_bytearray b n) = int_to_bytearray (Z.lxor a b) n.
Proof.
  destruct (Z_le_gt_dec n 0).
  { now rewrite !int_to_bytearray_0 by lia. }
  replace n with (Z.of_nat (Z.to_nat n)) by lia. generalize (Z.to_nat n); clear.
  intros n; revert a b; induction n as [|n IH]; intros a b; [reflexivity|].
  rewrite Nat2Z.inj_succ, <- Z.add_1_r, !int_to_bytearray_snoc by lia.
  rewrite add_xor_app.
  - rewrite IH. cbn [add_xor]. rewrite mod_256_lxor. do 2 f_equal.
    rewrite <- !shiftr_8. now rewrite Z.shiftr_lxor.
  - pose proof (int_to_bytearray_len (a / 256) (Z.of_nat n)).
    pose proof (int_to_bytearray_len (b / 256) (Z.of_nat n)). unfold len in *. lia.
Qed.

Definition word_ok (a : Z) : Prop := 0 <= a < 2 ^ 32.

Lemma lxor_word a b : word_ok a -> word_ok b -> word_ok (Z.lxor a b).
Proof.
  unfold word_ok. intros Ha Hb. 
  assert (E : Z.lxor a b = Z.lxor a b mod 2 ^ 32).
  { rewrite <- Z.land_ones by lia. rewrite <- (Z.mod_small a (2 ^ 32)), <- (Z.mod_small b (2 ^ 32)) at 1 by lia.
    rewrite <- !Z.land_ones by lia. apply Z.bits_inj'. intros n Hn.
    rewrite !Z.lxor_spec, !Z.land_spec, Z.lxor_spec.
    destruct (Z.testbit a n), (Z.testbit b n), (Z.testbit (Z.ones 32) n); reflexivity. }
  rewrite E. apply Z.mod_pos_bound. lia.
Qed.

(** ** Words *)

(** At least four bytes. *)
Definition wide4 (b : bytes) : Prop := bytes_ok b /\ 4 <= len b.
Definition wint (b : bytes) : Z := bytearray_to_int (firstn 4 b).

Lemma wide4_explicit b : wide4 b ->
  exists x0 x1 x2 x3 r, b = x0 :: x1 :: x2 :: x3 :: r /\ byte_ok x0 /\ byte_ok x1 /\ byte_ok x2 /\ byte_ok x3.
Proof.
  intros [Hb Hl]. unfold len in Hl. do 4 (destruct b as [|? b]; [cbn in Hl; lia|]).
  bytes_split Hb. do 5 eexists. split; [reflexivity|]. repeat (split; [assumption|]). assumption.
Qed.

Lemma int_4 a b c d : bytearray_to_int [a; b; c; d] = a * 2 ^ 24 + b * 2 ^ 16 + c * 2 ^ 8 + d.
Proof. unfold bytearray_to_int. cbn [fold_left]. lia. Qed.

Lemma wint_ok b : wide4 b -> word_ok (wint b).
Proof.
  intros Hb. destruct (wide4_explicit b Hb) as (x0&x1&x2&x3&r&->&H0&H1&H2&H3).
  unfold wint. cbn [firstn]. rewrite int_4. unfold word_ok, byte_ok in *. lia.
Qed.

Lemma word_bytes a : word_ok a ->
  int_to_bytearray a 4 = [a / 2 ^ 24; (a / 2 ^ 16) mod 256; (a / 2 ^ 8) mod 256; a mod 256].
Proof.
  intros Ha. unfold word_ok in Ha.
  change 4 with (0 + 1 + 1 + 1 + 1) at 1. rewrite !int_to_bytearray_snoc by lia.
  rewrite int_to_bytearray_0 by lia. cbn [app].
  change (2 ^ 32) with 4294967296 in *; change (2 ^ 24) with 16777216; change (2 ^ 16) with 65536; change (2 ^ 8) with 256.
  repeat (apply f_equal2; [lia|]); reflexivity.
Qed.

Lemma cipher_add_32_ok k a : wide4 k -> wide4 a ->
  _cipher_add_32 k a = Ok (int_to_bytearray ((wint a + wint k) mod 2 ^ 32) 4).
Proof.
  intros Hk Ha.
  destruct (wide4_explicit k Hk) as (k0&k1&k2&k3&rk&->&K0&K1&K2&K3).
  destruct (wide4_explicit a Ha) as (a0&a1&a2&a3&ra&->&A0&A1&A2&A3).
  unfold _cipher_add_32. change (py_range 3 (-1) (-1)) with [3; 2; 1; 0].
  change (py_repeat 0 4) with [0; 0; 0; 0]. cbn [for_].
  rewrite !(py_get_nth _ _ 0) by (rewrite !len_cons; pose proof (len_nonneg rk); pose proof (len_nonneg ra); lia).
  change (Z.to_nat 3) with 3%nat. change (Z.to_nat 2) with 2%nat. change (Z.to_nat 1) with 1%nat. change (Z.to_nat 0) with 0%nat.
  cbn [nth bind].
  assert (HB : forall x, byte_ok (Z.land x 255)) by (intros; rewrite land_255; apply Z.mod_pos_bound; lia).
  rewrite (py_set_ok [0;0;0;0] 3) by (auto; cbn; lia). change (Z.to_nat 3) with 3%nat. cbn [upd bind].
  rewrite (py_set_ok _ 2) by (auto; cbn; lia). change (Z.to_nat 2) with 2%nat. cbn [upd bind].
  rewrite (py_set_ok _ 1) by (auto; cbn; lia). change (Z.to_nat 1) with 1%nat. cbn [upd bind].
  rewrite (py_set_ok _ 0) by (auto; cbn; lia). change (Z.to_nat 0) with 0%nat. cbn [upd bind].
  rewrite !land_255, !shiftr_8. change (0 / 256) with 0.
  unfold wint. cbn [firstn]. rewrite !int_4.
  rewrite word_bytes by (apply Z.mod_pos_bound; lia).
  unfold byte_ok in *. f_equal.
  change (2 ^ 24) with 16777216; change (2 ^ 16) with 65536; change (2 ^ 8) with 256; change (2 ^ 32) with 4294967296.
  repeat (apply f_equal2; [lia|]); reflexivity.
Qed.

Lemma cipher_add_32_short k a : wide4 k -> bytes_ok a -> len a < 4 -> _cipher_add_32 k a = Err IndexError.
Proof.
  intros Hk Ha Hl. unfold _cipher_add_32. change (py_range 3 (-1) (-1)) with [3; 2; 1; 0].
  cbn [for_]. rewrite (py_get_nth k 3 0) by (destruct Hk; lia). cbn [bind].
  now rewrite (py_get_out a 3) by lia.
Qed.

(** ** Substitution *)

Definition mrow (i : Z) : list Z := nth (Z.to_nat i) _S_BOX_MAGMA [].
Definition msub (i x : Z) : Z := nth (Z.to_nat x) (nth (Z.to_nat i) magma_pi []) 0.

Lemma mrow_get i : 0 <= i < 8 -> py_get _S_BOX_MAGMA i = Ok (mrow i).
Proof. intros H. apply py_get_nth. change (len _S_BOX_MAGMA) with 8. exact H. Qed.

Lemma msub_get i x : 0 <= i < 8 -> 0 <= x < 16 -> py_get (mrow i) x = Ok (msub i x) /\ 0 <= msub i x < 16.
Proof.
  intros Hi Hx.
  assert (Hc : forallb (fun i => forallb (fun x => match py_get (mrow i) x with
       | Ok v => (v =? msub i x) && (0 <=? v) && (v <? 16) | Err _ => false end)
     (map Z.of_nat (seq 0 16))) (map Z.of_nat (seq 0 8)) = true) by (vm_compute; reflexivity).
  rewrite forallb_forall in Hc.
  assert (Hi' : In i (map Z.of_nat (seq 0 8))) by (apply in_map_iff; exists (Z.to_nat i); rewrite in_seq; lia).
  assert (Hx' : In x (map Z.of_nat (seq 0 16))) by (apply in_map_iff; exists (Z.to_nat x); rewrite in_seq; lia).
  specialize (Hc i Hi'). rewrite forallb_forall in Hc. specialize (Hc x Hx').
  destruct (py_get (mrow i) x) as [v|]; [|discriminate Hc].
  assert (E : v = msub i x) by lia. subst v. split; [reflexivity | lia].
Qed.

Lemma mt_eq a : mt a =
  msub 0 (a mod 16) + (msub 1 (a / 16 mod 16) * 16 + (msub 2 (a / 16 ^ 2 mod 16) * 16 ^ 2 +
  (msub 3 (a / 16 ^ 3 mod 16) * 16 ^ 3 + (msub 4 (a / 16 ^ 4 mod 16) * 16 ^ 4 +
  (msub 5 (a / 16 ^ 5 mod 16) * 16 ^ 5 + (msub 6 (a / 16 ^ 6 mod 16) * 16 ^ 6 +
  msub 7 (a / 16 ^ 7 mod 16) * 16 ^ 7)))))).
Proof.
  unfold mt, msub. cbn [seq map fold_right].
  change (Z.of_nat 0) with 0; change (Z.of_nat 1) with 1; change (Z.of_nat 2) with 2; change (Z.of_nat 3) with 3;
  change (Z.of_nat 4) with 4; change (Z.of_nat 5) with 5; change (Z.of_nat 6) with 6; change (Z.of_nat 7) with 7.
  change (Z.to_nat 0) with 0%nat; change (Z.to_nat 1) with 1%nat; change (Z.to_nat 2) with 2%nat; change (Z.to_nat 3) with 3%nat;
  change (Z.to_nat 4) with 4%nat; change (Z.to_nat 5) with 5%nat; change (Z.to_nat 6) with 6%nat; change (Z.to_nat 7) with 7%nat.
  change (16 ^ 0) with 1. change (16 ^ 1) with 16. rewrite Z.div_1_r, Z.mul_1_r, Z.add_0_r. reflexivity.
Qed.

Global Opaque mrow msub.

Lemma mt_word a : word_ok (mt a).
Proof.
  rewrite mt_eq. unfold word_ok.
  assert (H : forall i x, 0 <= i < 8 -> 0 <= msub i (x mod 16) < 16).
  { intros i x Hi. apply msub_get; auto. apply Z.mod_pos_bound; lia. }
  pose proof (H 0 a). pose proof (H 1 (a / 16)). pose proof (H 2 (a / 16 ^ 2)). pose proof (H 3 (a / 16 ^ 3)).
  pose proof (H 4 (a / 16 ^ 4)). pose proof (H 5 (a / 16 ^ 5)). pose proof (H 6 (a / 16 ^ 6)). pose proof (H 7 (a / 16 ^ 7)).
  clear H. repeat match goal with H : ?P -> _ |- _ => specialize (H ltac:(lia)) end.
  repeat match goal with |- context [msub ?i ?x] => generalize dependent (msub i x); intros end. lia.
Qed.

Lemma cipher_t_ok a : word_ok a ->
  exists t0 t1 t2 t3, _cipher_t (int_to_bytearray a 4) = Ok [t0; t1; t2; t3] /\
    bytes_ok [t0; t1; t2; t3] /\ bytearray_to_int [t0; t1; t2; t3] = mt a.
Proof.
  intros Ha. rewrite word_bytes by auto. unfold word_ok in Ha.
  set (d0 := a / 2 ^ 24). set (d1 := (a / 2 ^ 16) mod 256). set (d2 := (a / 2 ^ 8) mod 256). set (d3 := a mod 256).
  assert (D : a = d0 * 2 ^ 24 + d1 * 2 ^ 16 + d2 * 2 ^ 8 + d3 /\ byte_ok d0 /\ byte_ok d1 /\ byte_ok d2 /\ byte_ok d3).
  { subst d0 d1 d2 d3. unfold byte_ok. change (2 ^ 24) with 16777216; change (2 ^ 16) with 65536; change (2 ^ 8) with 256. lia. }
  destruct D as (Da & B0 & B1 & B2 & B3). clearbody d0 d1 d2 d3.
  unfold _cipher_t. change (py_range 0 4 1) with [0; 1; 2; 3]. change (py_repeat 0 4) with [0; 0; 0; 0].
  cbn [for_].
  change (py_get [d0; d1; d2; d3] 0) with (Ok d0). change (py_get [d0; d1; d2; d3] 1) with (Ok d1).
  change (py_get [d0; d1; d2; d3] 2) with (Ok d2). change (py_get [d0; d1; d2; d3] 3) with (Ok d3). cbn [bind].
  change ((3 - 0) * 2 + 1) with 7; change ((3 - 0) * 2) with 6; change ((3 - 1) * 2 + 1) with 5; change ((3 - 1) * 2) with 4;
  change ((3 - 2) * 2 + 1) with 3; change ((3 - 2) * 2) with 2; change ((3 - 3) * 2 + 1) with 1; change ((3 - 3) * 2) with 0.
  rewrite !mrow_get by lia. cbn [bind]. rewrite !land_15, !high_nibble by auto.
  assert (L : forall d, 0 <= d mod 16 < 16) by (intros; apply Z.mod_pos_bound; lia).
  assert (HH : forall d, byte_ok d -> 0 <= d / 16 < 16) by (unfold byte_ok; intros; lia).
  destruct (msub_get 6 (d0 mod 16) ltac:(lia) (L _)) as [-> R6]. 
  destruct (msub_get 7 (d0 / 16) ltac:(lia) (HH _ B0)) as [-> R7].
  destruct (msub_get 4 (d1 mod 16) ltac:(lia) (L _)) as [-> R4]. 
  destruct (msub_get 5 (d1 / 16) ltac:(lia) (HH _ B1)) as [-> R5].
  destruct (msub_get 2 (d2 mod 16) ltac:(lia) (L _)) as [-> R2]. 
  destruct (msub_get 3 (d2 / 16) ltac:(lia) (HH _ B2)) as [-> R3].
  destruct (msub_get 0 (d3 mod 16) ltac:(lia) (L _)) as [-> R0]. 
  destruct (msub_get 1 (d3 / 16) ltac:(lia) (HH _ B3)) as [-> R1].
  cbn [bind]. rewrite !lor_disjoint by (try lia; change (2 ^ 4) with 16; lia). change (2 ^ 4) with 16.
  set (t0 := msub 7 (d0 / 16) * 16 + msub 6 (d0 mod 16)). set (t1 := msub 5 (d1 / 16) * 16 + msub 4 (d1 mod 16)).
  set (t2 := msub 3 (d2 / 16) * 16 + msub 2 (d2 mod 16)). set (t3 := msub 1 (d3 / 16) * 16 + msub 0 (d3 mod 16)).
  assert (T0 : byte_ok t0) by (unfold byte_ok, t0; lia). assert (T1 : byte_ok t1) by (unfold byte_ok, t1; lia).
  assert (T2 : byte_ok t2) by (unfold byte_ok, t2; lia). assert (T3 : byte_ok t3) by (unfold byte_ok, t3; lia).
  rewrite (py_set_ok [0;0;0;0] 0) by (auto; cbn; lia). change (Z.to_nat 0) with 0%nat. cbn [upd bind].
  rewrite (py_set_ok _ 1) by (auto; cbn; lia). change (Z.to_nat 1) with 1%nat. cbn [upd bind].
  rewrite (py_set_ok _ 2) by (auto; cbn; lia). change (Z.to_nat 2) with 2%nat. cbn [upd bind].
  rewrite (py_set_ok _ 3) by (auto; cbn; lia). change (Z.to_nat 3) with 3%nat. cbn [upd bind].
  exists t0, t1, t2, t3. split; [reflexivity|]. split; [repeat (apply Forall_cons; [assumption|]); constructor|].
  rewrite int_4, mt_eq.
  replace (a mod 16) with (d3 mod 16) by (unfold byte_ok in *; lia).
  replace (a / 16 mod 16) with (d3 / 16) by (unfold byte_ok in *; lia).
  replace (a / 16 ^ 2 mod 16) with (d2 mod 16) by (unfold byte_ok in *; lia).
  replace (a / 16 ^ 3 mod 16) with (d2 / 16) by (unfold byte_ok in *; lia).
  replace (a / 16 ^ 4 mod 16) with (d1 mod 16) by (unfold byte_ok in *; lia).
  replace (a / 16 ^ 5 mod 16) with (d1 / 16) by (unfold byte_ok in *; lia).
  replace (a / 16 ^ 6 mod 16) with (d0 mod 16) by (unfold byte_ok in *; lia).
  replace (a / 16 ^ 7 mod 16) with (d0 / 16) by (unfold byte_ok in *; lia).
  subst t0 t1 t2 t3. lia.
Qed.

Lemma rotl11_word a : word_ok a -> word_ok (rotl11 a).
Proof.
  unfold word_ok, rotl11. change (2 ^ 32) with 4294967296; change (2 ^ 21) with 2097152; change (2 ^ 11) with 2048. lia.
Qed.

Lemma mg_word k a : word_ok (mg k a).
Proof. apply rotl11_word, mt_word. Qed.

Lemma cipher_g_ok k a : wide4 k -> wide4 a -> _cipher_g k a = Ok (int_to_bytearray (mg (wint k) (wint a)) 4).
Proof.
  intros Hk Ha. unfold _cipher_g. rewrite cipher_add_32_ok by auto. cbn [bind].
  assert (Hw : word_ok ((wint a + wint k) mod 2 ^ 32)) by (apply Z.mod_pos_bound; lia).
  destruct (cipher_t_ok _ Hw) as (t0 & t1 & t2 & t3 & -> & Hb & Hi). cbn [bind].
  change (py_get [t0; t1; t2; t3] 0) with (Ok t0). change (py_get [t0; t1; t2; t3] 1) with (Ok t1).
  change (py_get [t0; t1; t2; t3] 2) with (Ok t2). change (py_get [t0; t1; t2; t3] 3) with (Ok t3). cbn [bind].
  f_equal. f_equal. unfold mg. rewrite <- rot_ok by apply mt_word. rewrite <- Hi, int_4.
  rewrite !(Z.shiftl_mul_pow2 _ 8) by lia.
  replace (((t0 * 2 ^ 8 + t1) * 2 ^ 8 + t2) * 2 ^ 8 + t3) with (t0 * 2 ^ 24 + t1 * 2 ^ 16 + t2 * 2 ^ 8 + t3) by lia.
  reflexivity.
Qed.

Lemma cipher_g_short k a : wide4 k -> bytes_ok a -> len a < 4 -> _cipher_g k a = Err IndexError.
Proof. intros Hk Ha Hl. unfold _cipher_g. now rewrite cipher_add_32_short. Qed.

(** ** Blocks *)

Definition pair_ok (p : Z * Z) : Prop := word_ok (fst p) /\ word_ok (snd p).
Definition mblock (p : Z * Z) : bytes := int_to_bytearray (fst p) 4 ++ int_to_bytearray (snd p) 4.
Definition mpair (b : bytes) : Z * Z := (wint b, wint (skipn 4 b)).
Definition wide8 (b : bytes) : Prop := bytes_ok b /\ 8 <= len b.
Definition block8 (b : bytes) : Prop := len b = 8 /\ bytes_ok b.

Lemma mblock_block p : block8 (mblock p).
Proof.
  unfold mblock, block8. rewrite len_app, !int_to_bytearray_len. split; [reflexivity|].
  apply bytes_ok_app; split; apply int_to_bytearray_ok.
Qed.

Lemma word_len a : List.length (int_to_bytearray a 4) = 4%nat.
Proof. pose proof (int_to_bytearray_len a 4). unfold len in *. lia. Qed.

Lemma firstn_word a r : firstn 4 (int_to_bytearray a 4 ++ r) = int_to_bytearray a 4.
Proof. rewrite <- (word_len a) at 1. apply firstn_app_exact || rewrite firstn_app, Nat.sub_diag, firstn_all, firstn_O, app_nil_r; reflexivity. Qed.
Lemma skipn_word a r : skipn 4 (int_to_bytearray a 4 ++ r) = r.
Proof. rewrite <- (word_len a) at 1. now rewrite skipn_app, Nat.sub_diag, skipn_all, skipn_O. Qed.

Lemma wint_word a r : word_ok a -> wint (int_to_bytearray a 4 ++ r) = a.
Proof. intros Ha. unfold wint. rewrite firstn_word. now rewrite to_int_of_int_small. Qed.

Lemma mpair_ok b : wide8 b -> pair_ok (mpair b).
Proof.
  intros [Hb Hl]. split; cbn [mpair fst snd]; apply wint_ok.
  - split; auto; lia.
  - split; [now apply bytes_ok_skipn | unfold len in *; rewrite skipn_length; lia].
Qed.

Lemma word_of_wint b : wide4 b -> int_to_bytearray (wint b) 4 = firstn 4 b.
Proof.
  intros [Hb Hl]. unfold wint.
  assert (E : len (firstn 4 b) = 4) by (unfold len in *; rewrite firstn_length; lia).
  rewrite <- E at 1. apply of_int_to_int. now apply bytes_ok_firstn.
Qed.

Lemma mblock_mpair b : wide8 b -> mblock (mpair b) = firstn 8 b.
Proof.
  intros [Hb Hl]. unfold mblock, mpair; cbn [fst snd]. rewrite !word_of_wint.
  - rewrite <- (firstn_skipn 4 (firstn 8 b)). rewrite firstn_firstn. f_equal.
    rewrite skipn_firstn_comm. reflexivity.
  - split; [now apply bytes_ok_skipn | unfold len in *; rewrite skipn_length; lia].
  - split; auto; lia.
Qed.

Lemma mpair_mblock p : pair_ok p -> mpair (mblock p) = p.
Proof.
  intros [H1 H2]. destruct p as [a b]; cbn [fst snd] in *. unfold mpair, mblock; cbn [fst snd].
  rewrite wint_word by auto. rewrite skipn_word. unfold wint.
  rewrite firstn_all2 by (rewrite word_len; lia). now rewrite to_int_of_int_small.
Qed.

Lemma g_iter_result_ok a b : len a = 4 -> len b = 4 -> _cipher_g_iter_result a b = b ++ a.
Proof.
  intros Ha Hb. unfold len in *.
  do 4 (destruct a as [|? a]; [cbn in Ha; lia|]). destruct a; [|cbn in Ha; lia].
  do 4 (destruct b as [|? b]; [cbn in Hb; lia|]). destruct b; [|cbn in Hb; lia]. reflexivity.
Qed.

Lemma g_iter_ok k b : wide4 k -> wide8 b ->
  _cipher_g_iter k b =
  Ok (int_to_bytearray (snd (mpair b)) 4, int_to_bytearray (fst (mpair b)) 4,
      int_to_bytearray (Z.lxor (mg (wint k) (snd (mpair b))) (fst (mpair b))) 4).
Proof.
  intros Hk Hb. assert (Hb' := Hb). destruct Hb as [Hb Hl]. unfold _cipher_g_iter, _BLOCK_SIZE_MAGMA.
  rewrite py_slice_0 by lia. rewrite py_slice_mid by lia.
  change (Z.to_nat (8 - 4)) with 4%nat; change (Z.to_nat 4) with 4%nat.
  assert (H4 : wide4 b) by (split; auto; lia).
  assert (H4' : wide4 (skipn 4 b)) by (split; [now apply bytes_ok_skipn | unfold len in *; rewrite skipn_length; lia]).
  cbn [mpair fst snd]. rewrite <- !word_of_wint by auto.
  rewrite cipher_g_ok; auto.
  - cbn [bind]. rewrite add_xor_int. 
    assert (E : wint (int_to_bytearray (wint (skipn 4 b)) 4) = wint (skipn 4 b)).
    { rewrite <- (app_nil_r (int_to_bytearray _ 4)). apply wint_word. now apply wint_ok. }
    rewrite E, Z.lxor_comm. reflexivity.
  - split; [apply int_to_bytearray_ok | rewrite int_to_bytearray_len; lia].
Qed.

Lemma g_prev_ok k b : wide4 k -> wide8 b -> _cipher_g_prev k b = Ok (mblock (mG (wint k) (mpair b))).
Proof.
  intros Hk Hb. unfold _cipher_g_prev. rewrite g_iter_ok by auto. cbn [bind].
  rewrite g_iter_result_ok by now rewrite int_to_bytearray_len. reflexivity.
Qed.

Lemma g_fin_ok k b : wide4 k -> wide8 b -> _cipher_g_fin k b = Ok (mblock (mG_fin (wint k) (mpair b))).
Proof.
  intros Hk Hb. unfold _cipher_g_fin. rewrite g_iter_ok by auto. cbn [bind].
  rewrite g_iter_result_ok by now rewrite int_to_bytearray_len. reflexivity.
Qed.

Lemma g_prev_short k b : wide4 k -> bytes_ok b -> len b < 8 -> _cipher_g_prev k b = Err IndexError.
Proof.
  intros Hk Hb Hl. unfold _cipher_g_prev, _cipher_g_iter, _BLOCK_SIZE_MAGMA.
  rewrite cipher_g_short; auto.
  - now apply bytes_ok_slice.
  - unfold py_slice, clamp, len in *. pose proof (len_nonneg b). 
    rewrite firstn_length, skipn_length. change (4 <? 0) with false. change (8 <? 0) with false. cbn match.
    change (4 <? 0) with false. change (8 <? 0) with false. cbn match.
    replace (Z.of_nat (List.length b) <? 8) with true by lia.
    destruct (Z.of_nat (List.length b) <? 4) eqn:E; lia.
Qed.

Lemma mG_ok k p : pair_ok p -> pair_ok (mG k p).
Proof. intros [H1 H2]. split; cbn [mG fst snd]; auto. apply lxor_word; auto. apply mg_word. Qed.
Lemma mG_fin_ok k p : pair_ok p -> pair_ok (mG_fin k p).
Proof. intros [H1 H2]. split; cbn [mG_fin fst snd]; auto. apply lxor_word; auto. apply mg_word. Qed.

(** ** Whole cipher *)

Definition magma_keys (ks : list bytes) : Prop := List.length ks = 32%nat /\ Forall wide4 ks.

Lemma magma_rounds_ok ks p : pair_ok p -> pair_ok (magma_rounds ks p).
Proof.
  revert p; induction ks as [|k ks IH]; intros p Hp; [exact Hp|].
  destruct ks as [|k' ks']; [now apply mG_fin_ok|].
  change (pair_ok (magma_rounds (k' :: ks') (mG k p))). apply IH. now apply mG_ok.
Qed.

Lemma magma_rounds_snoc ks k p : magma_rounds (ks ++ [k]) p = mG_fin k (fold_left (fun p k => mG k p) ks p).
Proof.
  revert p; induction ks as [|k' ks IH]; intros p; [reflexivity|].
  cbn [app fold_left]. rewrite <- IH.
  destruct (ks ++ [k]) as [|x l] eqn:E; [destruct ks; discriminate|]. reflexivity.
Qed.

Lemma rounds_loop (is : list Z) keys p :
  Forall wide4 keys -> (forall i, In i is -> 0 <= i < len keys) -> pair_ok p ->
  for_ is (mblock p) (fun i result => let* k := py_get keys i in _cipher_g_prev k result) =
  Ok (mblock (fold_left (fun p k => mG k p) (map (fun i => wint (nth (Z.to_nat i) keys [])) is) p)) /\
  pair_ok (fold_left (fun p k => mG k p) (map (fun i => wint (nth (Z.to_nat i) keys [])) is) p).
Proof.
  intros HF. revert p; induction is as [|i is IH]; intros p Hi Hp; cbn [for_ map fold_left]; [auto|].
  assert (Hr : 0 <= i < len keys) by (apply Hi; now left).
  rewrite (py_get_nth keys i []) by auto. cbn [bind].
  rewrite Forall_forall in HF. rewrite g_prev_ok.
  - cbn [bind]. rewrite mpair_mblock by auto. rewrite <- Forall_forall in HF.
    apply IH; [intros j Hj; apply Hi; now right | now apply mG_ok].
  - apply HF, nth_In. unfold len in Hr. lia.
  - destruct (mblock_block p) as [H1 H2]. split; auto; lia.
Qed.

Lemma nth_rev_keys (ks : list bytes) i : (i < List.length ks)%nat -> 
  nth i (rev ks) [] = nth (List.length ks - 1 - i) ks [].
Proof. intros H. rewrite rev_nth by auto. f_equal. lia. Qed.

Lemma magma_encrypt_ok ks b : magma_keys ks -> wide8 b ->
  magma_encrypt ks b = Ok (mblock (magma_rounds (map wint ks) (mpair b))).
Proof.
  intros [Hl HF] Hb. unfold magma_encrypt.
  assert (Hlen : len ks = 32) by (unfold len; lia).
  assert (HW : forall i, 0 <= i < 32 -> wide4 (nth (Z.to_nat i) ks [])).
  { intros i Hi. rewrite Forall_forall in HF. apply HF, nth_In. lia. }
  rewrite (py_get_nth ks 0 []) by lia. cbn [bind].
  rewrite g_prev_ok by (auto; apply HW; lia). cbn [bind].
  assert (Hp := mpair_ok b Hb).
  destruct (rounds_loop (py_range 1 31 1) ks (mG (wint (nth (Z.to_nat 0) ks [])) (mpair b)) HF) as [-> Hp2].
  { intros i Hi. apply in_py_range in Hi. lia. }
  { now apply mG_ok. }
  cbn [bind]. rewrite (py_get_nth ks 31 []) by lia. cbn [bind].
  rewrite g_fin_ok; [|apply HW; lia|destruct (mblock_block (fold_left (fun p k => mG k p) (map (fun i => wint (nth (Z.to_nat i) ks [])) (py_range 1 31 1)) (mG (wint (nth (Z.to_nat 0) ks [])) (mpair b)))) as [? ?]; split; auto; lia].
  rewrite mpair_mblock by auto.
  assert (E : map wint ks = (wint (nth (Z.to_nat 0) ks []) :: map (fun i => wint (nth (Z.to_nat i) ks [])) (py_range 1 31 1)) ++ [wint (nth (Z.to_nat 31) ks [])]).
  { clear -Hl. do 32 (destruct ks as [|? ks]; [discriminate|]). destruct ks; [reflexivity|discriminate]. }
  rewrite E, magma_rounds_snoc. reflexivity.
Qed.

Lemma magma_decrypt_ok ks b : magma_keys ks -> wide8 b ->
  magma_decrypt ks b = Ok (mblock (magma_rounds (rev (map wint ks)) (mpair b))).
Proof.
  intros [Hl HF] Hb. unfold magma_decrypt.
  assert (Hlen : len ks = 32) by (unfold len; lia).
  assert (HW : forall i, 0 <= i < 32 -> wide4 (nth (Z.to_nat i) ks [])).
  { intros i Hi. rewrite Forall_forall in HF. apply HF, nth_In. lia. }
  rewrite (py_get_nth ks 31 []) by lia. cbn [bind].
  rewrite g_prev_ok by (auto; apply HW; lia). cbn [bind].
  assert (Hp := mpair_ok b Hb).
  destruct (rounds_loop (py_range 30 0 (-1)) ks (mG (wint (nth (Z.to_nat 31) ks [])) (mpair b)) HF) as [-> Hp2].
  { intros i Hi. unfold py_range in Hi. apply in_map_iff in Hi as (j & <- & Hj). apply in_seq in Hj. cbn in Hj. lia. }
  { now apply mG_ok. }
  cbn [bind]. rewrite (py_get_nth ks 0 []) by lia. cbn [bind].
  rewrite g_fin_ok; [|apply HW; lia|destruct (mblock_block (fold_left (fun p k => mG k p) (map (fun i => wint (nth (Z.to_nat i) ks [])) (py_range 30 0 (-1))) (mG (wint (nth (Z.to_nat 31) ks [])) (mpair b)))) as [? ?]; split; auto; lia].
  rewrite mpair_mblock by auto.
  assert (E : rev (map wint ks) = (wint (nth (Z.to_nat 31) ks []) :: map (fun i => wint (nth (Z.to_nat i) ks [])) (py_range 30 0 (-1))) ++ [wint (nth (Z.to_nat 0) ks [])]).
  { clear -Hl. do 32 (destruct ks as [|? ks]; [discriminate|]). destruct ks; [reflexivity|discriminate]. }
  rewrite E, magma_rounds_snoc. reflexivity.
Qed.

Lemma magma_encrypt_short ks b : magma_keys ks -> bytes_ok b -> len b < 8 -> magma_encrypt ks b = Err IndexError.
Proof.
  intros [Hl HF] Hb Hs. unfold magma_encrypt. rewrite (py_get_nth ks 0 []) by (unfold len; lia). cbn [bind].
  rewrite g_prev_short; auto. rewrite Forall_forall in HF. apply HF, nth_In. lia.
Qed.

Lemma magma_decrypt_short ks b : magma_keys ks -> bytes_ok b -> len b < 8 -> magma_decrypt ks b = Err IndexError.
Proof.
  intros [Hl HF] Hb Hs. unfold magma_decrypt. rewrite (py_get_nth ks 31 []) by (unfold len; lia). cbn [bind].
  rewrite g_prev_short; auto. rewrite Forall_forall in HF. apply HF, nth_In. lia.
Qed.

(** ** Feistel inverse *)

Definition swap (p : Z * Z) : Z * Z := (snd p, fst p).

Lemma mG_swap k p : mG k (swap (mG k p)) = swap p.
Proof.
  destruct p as [a1 a0]. unfold mG, swap; cbn [fst snd]. f_equal.
  now rewrite <- Z.lxor_assoc, Z.lxor_nilpotent, Z.lxor_0_l.
Qed.

Lemma mG_fin_swap k p : mG_fin k p = swap (mG k p).
Proof. reflexivity. Qed.

Lemma magma_rounds_swap ks p : ks <> [] -> magma_rounds ks p = swap (fold_left (fun p k => mG k p) ks p).
Proof.
  intros Hne. destruct (exists_last Hne) as (ks' & k & ->).
  rewrite magma_rounds_snoc, fold_left_app. reflexivity.
Qed.

Lemma feistel ks p :
  fold_left (fun p k => mG k p) (rev ks) (swap (fold_left (fun p k => mG k p) ks p)) = swap p.
Proof.
  induction ks as [|k ks IH] using rev_ind; [reflexivity|].
  rewrite rev_app_distr, (fold_left_app _ ks [k]). cbn [rev app fold_left]. now rewrite mG_swap, IH.
Qed.

Lemma magma_rounds_inv ks p : ks <> [] -> magma_rounds (rev ks) (magma_rounds ks p) = p.
Proof.
  intros Hne. rewrite (magma_rounds_swap ks) by auto. rewrite magma_rounds_swap.
  - rewrite feistel. now destruct p.
  - intros E. apply Hne. now rewrite <- (rev_involutive ks), E.
Qed.

Lemma block8_wide b : block8 b -> wide8 b.
Proof. intros [H1 H2]; split; auto; lia. Qed.

Lemma firstn_block8 b : block8 b -> firstn 8 b = b.
Proof. intros [Hl _]. apply firstn_all2. unfold len in Hl. lia. Qed.

Lemma magma_inverse ks b : magma_keys ks -> block8 b ->
  exists c, magma_encrypt ks b = Ok c /\ block8 c /\ magma_decrypt ks c = Ok b.
Proof.
  intros Hks Hb. rewrite magma_encrypt_ok by auto using block8_wide.
  eexists; split; [reflexivity|]. split; [apply mblock_block|].
  rewrite magma_decrypt_ok by (auto using block8_wide, mblock_block).
  rewrite mpair_mblock by (apply magma_rounds_ok, mpair_ok, block8_wide, Hb).
  rewrite magma_rounds_inv.
  - rewrite mblock_mpair by now apply block8_wide. now rewrite firstn_block8.
  - destruct Hks as [Hl _]. destruct ks; discriminate.
Qed.

Lemma magma_inverse_dec ks b : magma_keys ks -> block8 b ->
  exists c, magma_decrypt ks b = Ok c /\ block8 c /\ magma_encrypt ks c = Ok b.
Proof.
  intros Hks Hb. rewrite magma_decrypt_ok by auto using block8_wide.
  eexists; split; [reflexivity|]. split; [apply mblock_block|].
  rewrite magma_encrypt_ok by (auto using block8_wide, mblock_block).
  rewrite mpair_mblock by (apply magma_rounds_ok, mpair_ok, block8_wide, Hb).
  rewrite <- (rev_involutive (map wint ks)) at 1. rewrite magma_rounds_inv.
  - rewrite mblock_mpair by now apply block8_wide. now rewrite firstn_block8.
  - destruct Hks as [Hl _]. intros E. apply (f_equal (@List.length Z)) in E.
    rewrite rev_length, map_length, Hl in E. discriminate.
Qed.

(** ** Key expansion *)

Definition kword (key : bytes) (n : nat) : bytes := firstn 4 (skipn n key).

Lemma expand_word key off : key32 key -> 0 <= off <= 28 ->
  for_ (py_range 0 4 1) (py_repeat 0 4)
    (fun i iter_key => let* k := py_get key (off + i) in py_set iter_key i k) = Ok (kword key (Z.to_nat off)).
Proof.
  intros [Hl Hb] Ho.
  rewrite (for_set_loop 4 (fun i => nth (Z.to_nat (off + i)) key 0)).
  - unfold kword. f_equal.
    assert (E : len (firstn 4 (skipn (Z.to_nat off) key)) = 4) by (unfold len in *; rewrite firstn_length, skipn_length; lia).
    rewrite <- (map_id (firstn 4 (skipn (Z.to_nat off) key))).
    rewrite <- (map_nth_range (fun x => x) (firstn 4 (skipn (Z.to_nat off) key)) 0), E.
    apply map_ext_in. intros i Hi. apply in_py_range in Hi.
    symmetry. rewrite <- (app_nth1 _ (skipn 4 (skipn (Z.to_nat off) key))) by (unfold len in E; lia).
    rewrite firstn_skipn. symmetry.
    replace (Z.to_nat (off + i)) with (Z.to_nat off + Z.to_nat i)%nat by lia.
    rewrite <- (firstn_skipn (Z.to_nat off) key) at 1.
    rewrite app_nth2 by (rewrite firstn_length; unfold len in *; lia).
    rewrite firstn_length. replace (Z.to_nat off + Z.to_nat i - Nat.min (Z.to_nat off) (List.length key))%nat with (Z.to_nat i) by (unfold len in *; lia).
    reflexivity.
  - reflexivity.
  - intros i l Hi Hll. rewrite (py_get_nth key _ 0) by lia. reflexivity.
  - intros i Hi. unfold bytes_ok in Hb. rewrite Forall_forall in Hb. apply Hb, nth_In. unfold len in *; lia.
Qed.

Definition kwords (key : bytes) : list bytes := map (fun j => kword key (4 * j)) (seq 0 8).

Lemma expand_iter_key_ok keys key : key32 key -> _expand_iter_key keys key = Ok (keys ++ kwords key).
Proof.
  intros Hk. unfold _expand_iter_key. change (py_range 0 8 1) with [0; 1; 2; 3; 4; 5; 6; 7]. cbn [for_].
  rewrite !expand_word by (auto; lia). cbn [bind].
  rewrite <- !app_assoc. reflexivity.
Qed.

Lemma expand_iter_key_final_ok keys key : key32 key -> _expand_iter_key_final keys key = Ok (keys ++ rev (kwords key)).
Proof.
  intros Hk. unfold _expand_iter_key_final. change (py_range 0 8 1) with [0; 1; 2; 3; 4; 5; 6; 7]. cbn [for_].
  rewrite !expand_word by (auto; lia). cbn [bind].
  rewrite <- !app_assoc. reflexivity.
Qed.

Definition magma_key_list (key : bytes) : list bytes :=
  kwords key ++ kwords key ++ kwords key ++ rev (kwords key).

Lemma magma_new_ok key : key32 key -> magma_new key = Ok (magma_key_list key).
Proof.
  intros Hk. unfold magma_new. rewrite !expand_iter_key_ok by auto. cbn [bind].
  rewrite !expand_iter_key_ok by auto. cbn [bind].
  rewrite !expand_iter_key_ok by auto. cbn [bind].
  rewrite expand_iter_key_final_ok by auto. unfold magma_key_list. cbn [app]. now rewrite <- !app_assoc.
Qed.

Lemma kword_wide key n : key32 key -> (n <= 28)%nat -> wide4 (kword key n).
Proof.
  intros [Hl Hb] Hn. unfold kword. split.
  - now apply bytes_ok_firstn, bytes_ok_skipn.
  - unfold len in *; rewrite firstn_length, skipn_length; lia.
Qed.

Lemma kwords_wide key : key32 key -> Forall wide4 (kwords key).
Proof.
  intros Hk. apply Forall_map, Forall_forall. intros j Hj. apply in_seq in Hj. apply kword_wide; auto; lia.
Qed.

Lemma magma_key_list_keys key : key32 key -> magma_keys (magma_key_list key).
Proof.
  intros Hk. pose proof (kwords_wide key Hk) as HF. split; [reflexivity|]. unfold magma_key_list.
  rewrite !Forall_app. repeat (split; [exact HF|]). now apply Forall_rev.
Qed.

Lemma kword_int key j : key32 key -> (j < 8)%nat ->
  wint (kword key (4 * j)) = (bytearray_to_int key / 2 ^ (32 * (7 - Z.of_nat j))) mod 2 ^ 32.
Proof.
  intros [Hl Hb] Hj. unfold wint, kword. rewrite firstn_firstn. change (Nat.min 4 4) with 4%nat.
  set (A := firstn (4 * j) key). set (R := skipn (4 * j) key).
  set (W := firstn 4 R). set (B := skipn 4 R).
  assert (E : key = A ++ W ++ B) by (unfold A, W, B, R; now rewrite !firstn_skipn).
  assert (LB : len B = 28 - 4 * Z.of_nat j) by (unfold B, R, len in *; rewrite !skipn_length; lia).
  assert (LW : len W = 4) by (unfold W, R, len in *; rewrite firstn_length, skipn_length; lia).
  assert (HB : bytes_ok B) by (now apply bytes_ok_skipn, bytes_ok_skipn).
  assert (HW : bytes_ok W) by (now apply bytes_ok_firstn, bytes_ok_skipn).
  rewrite E, !bytearray_to_int_app, len_app, LW, LB.
  pose proof (bytearray_to_int_bound B HB) as bB. pose proof (bytearray_to_int_bound W HW) as bW.
  rewrite LB in bB. rewrite LW in bW.
  assert (P : 2 ^ (32 * (7 - Z.of_nat j)) = 256 ^ (28 - 4 * Z.of_nat j)).
  { change 256 with (2 ^ 8). rewrite <- Z.pow_mul_r by lia. f_equal. lia. }
  rewrite P, Z.pow_add_r by lia. set (p := 256 ^ (28 - 4 * Z.of_nat j)) in *.
  assert (0 < p) by lia.
  replace (bytearray_to_int A * (256 ^ 4 * p) + (bytearray_to_int W * p + bytearray_to_int B))
    with (bytearray_to_int B + (bytearray_to_int A * 256 ^ 4 + bytearray_to_int W) * p) by ring.
  rewrite Z.div_add, (Z.div_small _ p), Z.add_0_l by lia.
  rewrite Z.add_comm. change (2 ^ 32) with (256 ^ 4). rewrite Z_mod_plus_full. symmetry. now apply Z.mod_small.
Qed.

Lemma kwords_int key : key32 key ->
  map wint (kwords key) = map (fun i => (bytearray_to_int key / 2 ^ (32 * (7 - Z.of_nat i))) mod 2 ^ 32) (seq 0 8).
Proof.
  intros Hk. unfold kwords. rewrite map_map. apply map_ext_in. intros j Hj. apply in_seq in Hj.
  apply kword_int; auto; lia.
Qed.

Lemma magma_round_keys_ok key : key32 key -> map wint (magma_key_list key) = magma_round_keys (bytearray_to_int key).
Proof.
  intros Hk. unfold magma_key_list, magma_round_keys. rewrite !map_app, map_rev, kwords_int by auto. reflexivity.
Qed.

Lemma mpair_split b : block8 b -> mpair b = split32 (bytearray_to_int b).
Proof.
  intros Hb. assert (Hw := block8_wide b Hb). assert (Hp := mpair_ok b Hw).
  rewrite <- (firstn_block8 b Hb) at 2. rewrite <- mblock_mpair by auto.
  destruct (mpair b) as [a1 a0]. destruct Hp as [H1 H2]; cbn [fst snd] in *.
  unfold mblock, split32; cbn [fst snd]. rewrite bytearray_to_int_app, int_to_bytearray_len.
  rewrite !to_int_of_int_small by (auto; lia). change (256 ^ Z.max 0 4) with (2 ^ 32).
  unfold word_ok in *. f_equal; lia.
Qed.

Lemma mblock_join p : pair_ok p -> bytearray_to_int (mblock p) = join32 p.
Proof.
  intros [H1 H2]. unfold mblock, join32. rewrite bytearray_to_int_app, int_to_bytearray_len.
  rewrite !to_int_of_int_small by (auto; lia). reflexivity.
Qed.

Lemma magma_encrypt_spec key b ks : key32 key -> block8 b -> magma_new key = Ok ks ->
  exists c, magma_encrypt ks b = Ok c /\ block8 c /\
    bytearray_to_int c = spec_magma_encrypt (bytearray_to_int key) (bytearray_to_int b).
Proof.
  intros Hk Hb. rewrite magma_new_ok by auto. intros [= <-].
  rewrite magma_encrypt_ok by auto using magma_key_list_keys, block8_wide.
  eexists; split; [reflexivity|]. split; [apply mblock_block|].
  rewrite mblock_join by (apply magma_rounds_ok, mpair_ok, block8_wide, Hb).
  unfold spec_magma_encrypt. now rewrite magma_round_keys_ok, mpair_split.
Qed.

Lemma magma_decrypt_spec key b ks : key32 key -> block8 b -> magma_new key = Ok ks ->
  exists c, magma_decrypt ks b = Ok c /\ block8 c /\
    bytearray_to_int c = spec_magma_decrypt (bytearray_to_int key) (bytearray_to_int b).
Proof.
  intros Hk Hb. rewrite magma_new_ok by auto. intros [= <-].
  rewrite magma_decrypt_ok by auto using magma_key_list_keys, block8_wide.
  eexists; split; [reflexivity|]. split; [apply mblock_block|].
  rewrite mblock_join by (apply magma_rounds_ok, mpair_ok, block8_wide, Hb).
  unfold spec_magma_decrypt. now rewrite magma_round_keys_ok, mpair_split.
Qed.

Lemma magma_clear_ok ks : magma_keys ks -> magma_clear ks = Ok (map zero_fill ks) /\ magma_keys (map zero_fill ks).
Proof.
  intros Hks. split.
  - destruct Hks as [Hl _]. do 32 (destruct ks as [|? ks]; [discriminate|]). destruct ks; [|discriminate].
    reflexivity.
  - destruct Hks as [Hl HF]. split; [now rewrite map_length|].
    apply Forall_map. eapply Forall_impl; [|exact HF]. intros k [_ Hk].
    split; [apply zero_fill_ok | rewrite zero_fill_len; lia].
Qed.
