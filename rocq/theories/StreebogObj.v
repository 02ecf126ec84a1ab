(** * Streebog: the methods of the hash object against the stages of the specification *)
From Verif Require Import PyBase PyState PyFacts Utils UtilsFacts StreebogTables Streebog SpecKuznechik SpecStreebog KuzFacts StreebogFacts StreebogFacts2.
Open Scope string_scope.
Open Scope list_scope.
Open Scope Z_scope.

Definition vname (v : variant) : string := match v with S256 => "streebog256" | S512 => "streebog512" end.
Definition void (v : variant) : string := match v with S256 => "1.2.643.7.1.1.2.2" | S512 => "1.2.643.7.1.1.2.3" end.

(** The object holds state [s] and pending octets [b]. *)
Record holds (v : variant) (s : state) (b : bytes) (o : hash_obj) : Prop := {
  ho_name : h_name o = vname v;
  ho_oid : h_oid o = void v;
  ho_h : h_hash_h o = st_h s;
  ho_n : h_hash_n o = le_bytes 64 (st_N s);
  ho_sigma : h_hash_sigma o = le_bytes 64 (st_Sigma s);
  ho_block : block64 (st_h s);
  ho_N : 0 <= st_N s < 2 ^ 512;
  ho_Sigma : 0 <= st_Sigma s < 2 ^ 512;
  ho_buff : h_buff o = b;
  ho_bytes : bytes_ok b
}.

Lemma init_holds v : holds v (stage1 v) [] (_hash_init (vname v) (void v)).
Proof.
  split; try reflexivity; try apply Forall_nil.
  - destruct v; reflexivity.
  - destruct v; (split; [reflexivity|]); apply bytes_ok_repeat with (n := 64); unfold byte_ok; lia.
  - split; [exact (Z.le_refl 0) | reflexivity].
  - split; [exact (Z.le_refl 0) | reflexivity].
Qed.

(** ** One block *)

Lemma V_512_eq : _V_512 = le_bytes 64 512.
Proof. vm_compute. reflexivity. Qed.
Lemma V_0_eq : _V_0 = le_bytes 64 0.
Proof. vm_compute. reflexivity. Qed.

Lemma block_step v s b o m : holds v s b o -> block64 m ->
  exists o', (step_h (h_hash_n o) m ;! step_n _V_512 ;! step_sigma m) o = (Ok tt, o') /\ holds v (absorb s m) b o'.
Proof.
  intros [H1 H2 H3 H4 H5 H6 H7 H8 H9 H10] Hm. unfold step_h, step_n, step_sigma, bindM, getM, liftM, putM.
  rewrite H3, H4. destruct (g_ok (st_h s) (st_N s) m H6 Hm) as [E B]. rewrite E. cbn [set_h h_hash_n]. rewrite H4, V_512_eq.
  rewrite add_512_le by apply le_bytes_block. cbn [set_n set_h h_hash_sigma]. rewrite H5, add_512_le by exact Hm.
  eexists. split; [reflexivity|]. cbn [set_sigma set_n set_h]. rewrite le_value_bytes. change (512 mod 256 ^ Z.of_nat 64) with 512.
  split; cbn [h_name h_oid h_hash_h h_hash_n h_hash_sigma h_buff absorb st_h st_N st_Sigma]; try assumption; try reflexivity; apply Z.mod_pos_bound; reflexivity.
Qed.

Lemma slice_block (data : bytes) j : (64 * S j <= List.length data)%nat ->
  py_slice data (64 * Z.of_nat j) (64 * Z.of_nat j + 64) = firstn 64 (skipn (64 * j) data).
Proof.
  intros H. rewrite py_slice_mid by (unfold len; lia). f_equal; [lia|]. f_equal. lia.
Qed.

Lemma range_64 n : py_range 0 (Z.of_nat n * 64) 64 = map (fun j => 64 * Z.of_nat j) (seq 0 n).
Proof.
  unfold py_range. change (64 >? 0) with true. cbv iota. replace (Z.to_nat ((Z.of_nat n * 64 - 0 + 64 - 1) / 64)) with n by lia.
  apply map_ext. intros j. lia.
Qed.

Definition update_body (data : bytes) : Z -> unit -> M hash_obj unit := fun i _ =>
  let block := py_slice data i (i + _BLOCK_SIZE) in
  let! self := getM in
  step_h (h_hash_n self) block ;! step_n _V_512 ;! step_sigma block.

Lemma update_loop v data b : bytes_ok data -> forall n j s o, (64 * (j + n) <= List.length data)%nat -> holds v s b o ->
  exists o', forM (map (fun j => 64 * Z.of_nat j) (seq j n)) tt (update_body data) o = (Ok tt, o') /\
    holds v (fst (stage2 n s (skipn (64 * j) data))) b o'.
Proof.
  intros Hd. induction n as [|n IH]; intros j s o Hl Ho; [exists o; split; [reflexivity | exact Ho]|].
  cbn [seq map forM stage2]. set (m := firstn 64 (skipn (64 * j) data)).
  assert (Hm : block64 m) by (split; [unfold m; rewrite firstn_length_le; [reflexivity | rewrite skipn_length; lia] | now apply bytes_ok_firstn, bytes_ok_skipn]).
  destruct (block_step v s b o m Ho Hm) as (o1 & E1 & H1). destruct (IH (S j) (absorb s m) o1) as (o' & E & H); [lia | exact H1|].
  exists o'. split.
  - unfold bindM at 1. unfold update_body at 1. unfold bindM at 1. unfold getM at 1. change _BLOCK_SIZE with 64. rewrite slice_block by lia. fold m. rewrite E1. exact E.
  - replace (skipn 64 (skipn (64 * j) data)) with (skipn (64 * S j) data); [exact H|]. rewrite skip_skip. f_equal. lia.
Qed.

Lemma stage2_rest n : forall s m, snd (stage2 n s m) = skipn (64 * n) m.
Proof.
  induction n as [|n IH]; intros s m; [reflexivity|]. cbn [stage2]. rewrite IH, skip_skip. f_equal. lia.
Qed.

(** The pending octets after an update. *)
Definition pending (b d : bytes) : bytes :=
  if (List.length (b ++ d) mod 64 =? 0)%nat then b else skipn (64 * (List.length (b ++ d) / 64)) (b ++ d).

Lemma update_holds v s b o d : holds v s b o -> bytes_ok d ->
  exists o', hash_update (VBytes d) o = (Ok tt, o') /\
    holds v (fst (stage2 (List.length (b ++ d) / 64) s (b ++ d))) (pending b d) o'.
Proof.
  intros Ho Hd. pose proof (ho_buff _ _ _ _ Ho) as Hb. pose proof (ho_bytes _ _ _ _ Ho) as Hbb.
  unfold hash_update. unfold bindM at 1. unfold getM at 1. unfold bindM at 1. unfold putM at 1. rewrite Hb.
  set (D := b ++ d). assert (HD : bytes_ok D) by (apply bytes_ok_app; tauto).
  set (n := (List.length D / 64)%nat). assert (En : len D / _BLOCK_SIZE = Z.of_nat n) by (unfold n, len, _BLOCK_SIZE; lia).
  rewrite En. change _BLOCK_SIZE with 64 at 1 2. rewrite range_64.
  assert (Ho1 : holds v s b (set_num_block o (Z.of_nat n))) by (destruct Ho; split; assumption).
  destruct (update_loop v D b HD n 0 s _ ltac:(unfold n; lia) Ho1) as (o2 & E2 & H2).
  unfold bindM at 1. change (fun (i : Z) (_ : unit) => _) with (update_body D). rewrite E2. unfold bindM at 1. unfold getM at 1.
  change (skipn (64 * 0) D) with D in H2. unfold pending. fold D. fold n.
  assert (Em : len D mod _BLOCK_SIZE = Z.of_nat (List.length D mod 64)) by (unfold len, _BLOCK_SIZE; lia). rewrite Em.
  destruct (Nat.eqb_spec (List.length D mod 64) 0) as [Z0|Z0].
  - rewrite Z0. change (_BLOCK_SIZE - Z.of_nat 0 <? _BLOCK_SIZE) with false. cbv iota. eexists. split; [reflexivity|]. destruct H2; split; assumption.
  - assert (Hlt := Nat.mod_upper_bound (List.length D) 64 ltac:(lia)).
    replace (_BLOCK_SIZE - Z.of_nat (List.length D mod 64) <? _BLOCK_SIZE) with true by (unfold _BLOCK_SIZE; lia). cbv iota.
    eexists. split; [reflexivity|]. destruct H2 as [G1 G2 G3 G4 G5 G6 G7 G8 G9 G10]. split; try assumption.
    + cbn [set_buff h_buff]. unfold py_from. f_equal. unfold n, clamp, len, _BLOCK_SIZE. pose proof (Nat.div_mod_eq (List.length D) 64) as HDM.
      replace (- (64 - (64 - Z.of_nat (List.length D mod 64))) <? 0) with true by lia. cbv zeta.
      assert (Hle := Nat.mod_le (List.length D) 64 ltac:(lia)).
      match goal with |- context [if ?c then 0 else _] => replace c with false by lia end.
      match goal with |- context [if ?c then _ else _] => replace c with false by lia end. lia.
    + now apply bytes_ok_skipn.
Qed.

Lemma update_not_bytes x o : match x with VBytes _ => False | _ => True end ->
  hash_update x o = (Err (GOSTHashError "GOSTHashError: invalid data value"), o).
Proof. destruct x; [contradiction | reflexivity..]. Qed.

(** ** The final step *)

Lemma add_xor_cut a b : List.length a = 64%nat -> add_xor a b = add_xor a (firstn 64 b).
Proof. intros H. rewrite (add_xor_comm a b), (add_xor_comm a). rewrite <- H. symmetry. apply add_xor_firstn_l. Qed.

Lemma g_long h n m : block64 h -> (64 <= List.length m)%nat -> bytes_ok m ->
  _hash_g h (le_bytes 64 n) m = Ok (sg n h (firstn 64 m)) /\ block64 (sg n h (firstn 64 m)).
Proof.
  intros Hh Hl Hm. assert (Hm' : block64 (firstn 64 m)) by (split; [now apply firstn_length_le | now apply bytes_ok_firstn]).
  destruct (g_ok h n (firstn 64 m) Hh Hm') as [E B]. split; [|exact B]. rewrite <- E. unfold _hash_g.
  destruct (lps_ok (add_xor (le_bytes 64 n) h)) as [E1 B1]; [apply add_xor_block; [apply le_bytes_block | exact Hh]|]. rewrite E1. cbn [bind].
  unfold _hash_e. rewrite (add_xor_cut (LPS _) m) by apply B1. 
  change (let* (_, internal) := for_ (py_range 0 12 1) (LPS (add_xor (le_bytes 64 n) h), add_xor (LPS (add_xor (le_bytes 64 n) h)) (firstn 64 m)) _ in Ok internal)
    with (_hash_e (LPS (add_xor (le_bytes 64 n) h)) (firstn 64 m)).
  destruct (e_ok (LPS (add_xor (le_bytes 64 n) h)) (firstn 64 m) B1 Hm') as [E2 B2]. rewrite E2. cbn [bind].
  rewrite (add_xor_cut _ m); [reflexivity|]. rewrite add_xor_length. destruct B2 as [-> _], Hh as [-> _]. reflexivity.
Qed.

Lemma add_512_cut n b : (64 <= List.length b)%nat -> bytes_ok b ->
  _hash_add_512 (le_bytes 64 n) b = Ok (le_bytes 64 ((n + le_value (firstn 64 b)) mod 2 ^ 512)).
Proof.
  intros Hl Hb. rewrite <- add_512_le by (split; [now apply firstn_length_le | now apply bytes_ok_firstn]).
  rewrite !add_512_long; try (rewrite ?le_bytes_length; lia); [|rewrite firstn_length_le by lia; lia].
  now rewrite firstn_firstn.
Qed.

(** The buffer that is hashed last; for a pending part shorter than a block it is its padding. *)
Definition closing (b : bytes) : bytes := (b ++ [1]) ++ py_repeat 0 (64 - len b - 1).

Lemma closing_pad b : (List.length b < 64)%nat -> closing b = pad b.
Proof. intros H. unfold closing, pad, py_repeat, len. rewrite <- app_assoc. replace (Z.to_nat (64 - Z.of_nat (List.length b) - 1)) with (63 - List.length b)%nat by lia. reflexivity. Qed.

Lemma closing_long b : (64 <= List.length b)%nat -> closing b = b ++ [1].
Proof. intros H. unfold closing, py_repeat, len. replace (Z.to_nat (64 - Z.of_nat (List.length b) - 1)) with 0%nat by lia. apply app_nil_r. Qed.

Lemma closing_length b : (64 <= List.length (closing b))%nat.
Proof. unfold closing, py_repeat, len. rewrite !app_length, repeat_length. cbn [List.length]. lia. Qed.

Lemma closing_ok b : bytes_ok b -> bytes_ok (closing b).
Proof.
  intros H. unfold closing. apply bytes_ok_app. split; [apply bytes_ok_app; split; [exact H|]|].
  - apply bytes_ok_cons. split; [unfold byte_ok; lia | apply bytes_ok_nil].
  - apply bytes_ok_repeat. unfold byte_ok. lia.
Qed.

(** The bit count added to N by the last step: two octets. *)
Definition count_block (b : bytes) : Z := (8 * len b) mod 65536.

Definition finished (s : state) (b : bytes) : state :=
  let h := sg (st_N s) (st_h s) (firstn 64 (closing b)) in
  let N := (st_N s + count_block b) mod 2 ^ 512 in
  let Sigma := (st_Sigma s + le_value (firstn 64 (closing b))) mod 2 ^ 512 in
  {| st_h := sg 0 (sg 0 h (le_bytes 64 N)) (le_bytes 64 Sigma); st_N := N; st_Sigma := Sigma |}.

Lemma count_bytes k : 0 <= k ->
  exists i, py_set (py_repeat 0 _BLOCK_SIZE) 1 (Z.land (Z.shiftr (k * 8) 8) 0xff) = Ok i /\
    py_set i 0 (Z.land (k * 8) 0xff) = Ok (le_bytes 64 ((8 * k) mod 65536)).
Proof.
  intros Hk. change 0xff with (Z.ones 8). rewrite !Z.land_ones, Z.shiftr_div_pow2 by lia. change (2 ^ 8) with 256.
  rewrite py_set_ok; [| change (len (py_repeat 0 _BLOCK_SIZE)) with 64; lia | unfold byte_ok; lia].
  eexists. split; [reflexivity|]. rewrite py_set_ok; [| unfold len; rewrite upd_length; change (List.length (py_repeat 0 _BLOCK_SIZE)) with 64%nat; lia | unfold byte_ok; lia].
  f_equal. change (Z.to_nat 0) with 0%nat. change (Z.to_nat 1) with 1%nat. change (py_repeat 0 _BLOCK_SIZE) with (0 :: 0 :: repeat 0 62). cbn [upd].
  assert (ES : forall n x, le_bytes (S n) x = x mod 256 :: le_bytes n (x / 256)) by reflexivity.
  rewrite (ES 63%nat), (ES 62%nat). f_equal; [lia|]. f_equal; [lia|].
  replace ((8 * k) mod 65536 / 256 / 256) with 0 by lia. symmetry. apply le_bytes_zero.
Qed.

Lemma final_holds v s b o : holds v s b o ->
  exists o', hash_final o = (Ok tt, o') /\ holds v (finished s b) (closing b) o'.
Proof.
  intros Ho. pose proof (ho_buff _ _ _ _ Ho) as Hb. pose proof (ho_bytes _ _ _ _ Ho) as Hbb.
  destruct Ho as [H1 H2 H3 H4 H5 H6 H7 H8 _ _].
  unfold hash_final. unfold bindM at 1. unfold getM at 1. unfold bindM at 1. unfold putM at 1. rewrite Hb.
  destruct (count_bytes (len b)) as (i & E1 & E2); [apply len_nonneg|].
  replace (_BLOCK_SIZE - (_BLOCK_SIZE - len b)) with (len b) by lia.
  unfold bindM at 1. unfold liftM at 1. rewrite E1. unfold bindM at 1. unfold liftM at 1. rewrite E2.
  unfold bindM at 1. unfold bindM at 1. unfold getM at 1. replace (_BLOCK_SIZE - len b <=? _BLOCK_SIZE) with true by (pose proof (len_nonneg b); lia).
  unfold putM at 1. unfold bindM at 1. unfold getM at 1. cbn [set_buff set_pad_block_size h_buff h_hash_n]. rewrite Hb.
  change ((b ++ [1]) ++ py_repeat 0 (_BLOCK_SIZE - len b - 1)) with (closing b).
  pose proof (closing_length b) as CL. pose proof (closing_ok b Hbb) as CO. 
  unfold step_h, step_n, step_sigma, bindM, getM, liftM, putM. cbn [set_buff set_pad_block_size h_buff h_hash_h h_hash_n h_hash_sigma]. rewrite ?Hb, H3, H4.
  change ((b ++ [1]) ++ py_repeat 0 (_BLOCK_SIZE - len b - 1)) with (closing b).
  destruct (g_long (st_h s) (st_N s) (closing b) H6 CL CO) as [G1 B1]. rewrite G1. cbn [set_h set_buff set_pad_block_size h_hash_n h_hash_sigma h_buff h_hash_h]. rewrite H4.
  rewrite add_512_le by apply le_bytes_block. rewrite le_value_bytes. rewrite (Z.mod_small (_ mod 65536)) by (rewrite pow_512; assert (65536 < 2 ^ 512) by reflexivity; lia).
  cbn [set_buff set_pad_block_size set_n set_h h_hash_sigma h_buff h_hash_h h_hash_n]. rewrite H5, add_512_cut by assumption.
  cbn [set_buff set_pad_block_size set_sigma set_n set_h h_hash_sigma h_buff h_hash_h h_hash_n]. rewrite V_0_eq. fold (count_block b).
  set (N := (st_N s + count_block b) mod 2 ^ 512). set (Sg := (st_Sigma s + le_value (firstn 64 (closing b))) mod 2 ^ 512).
  destruct (g_ok _ 0 (le_bytes 64 N) B1 (le_bytes_block N)) as [G2 B2]. rewrite G2. cbn [set_buff set_pad_block_size set_sigma set_n set_h h_hash_sigma h_buff h_hash_h h_hash_n].
  destruct (g_ok _ 0 (le_bytes 64 Sg) B2 (le_bytes_block Sg)) as [G3 B3]. rewrite G3. eexists. split; [reflexivity|].
  split; cbn [set_buff set_pad_block_size set_sigma set_n set_h h_hash_sigma h_buff h_hash_h h_hash_n h_name h_oid finished st_h st_N st_Sigma]; try assumption; try reflexivity; apply Z.mod_pos_bound; reflexivity.
Qed.

Lemma digest_holds v s b o : holds v s b o ->
  hash_digest o = (Ok (skipn (64 - hash_bytes v) (st_h (finished s b))), o).
Proof.
  intros Ho. destruct (final_holds v s b o Ho) as (o' & E & [H1 H2 H3 H4 H5 H6 _ _ _ _]). unfold hash_digest. rewrite E. cbn [bind]. do 2 f_equal.
  unfold get_hash, digest_size. rewrite H1, H3. destruct H6 as [HL _]. unfold py_from, clamp, len. rewrite HL.
  destruct v; reflexivity.
Qed.

Lemma finished_stage3 s b : (List.length b < 64)%nat -> st_h (finished s b) = stage3 s b.
Proof.
  intros H. unfold finished, stage3. cbn [st_h]. rewrite closing_pad by exact H.
  assert (HL : List.length (pad b) = 64%nat) by (unfold pad; rewrite !app_length, repeat_length; cbn [List.length]; lia).
  rewrite firstn_all2 by lia. unfold count_block, len. rewrite (Z.mod_small _ 65536) by lia. reflexivity.
Qed.

Lemma finished_length v s b o : holds v s b o -> List.length (skipn (64 - hash_bytes v) (st_h (finished s b))) = hash_bytes v /\ bytes_ok (skipn (64 - hash_bytes v) (st_h (finished s b))).
Proof.
  intros Ho. destruct (final_holds v s b o Ho) as (o' & E & [_ _ _ _ _ [HL HB] _ _ _ _]). split; [rewrite skipn_length, HL; destruct v; reflexivity | now apply bytes_ok_skipn].
Qed.
