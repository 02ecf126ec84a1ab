(** * Kuznechik: whole cipher *)
From Verif Require Import PyBase PyFacts Utils UtilsFacts CipherTables Kuznechik SpecKuznechik KuzFacts.

(** ** Block-preservation and inverses of the elementary transformations *)

Lemma kX_add_xor k a : kX k a = add_xor k a.
Proof. unfold kX. revert a; induction k as [|x k IH]; intros [|y a]; cbn; auto. now rewrite IH. Qed.

Lemma kX_block k a : block16 k -> block16 a -> block16 (kX k a).
Proof.
  intros [Hk Hk'] [Ha Ha']. rewrite kX_add_xor. split; [rewrite add_xor_len; lia | now apply add_xor_ok].
Qed.

Lemma kX_kX k a : block16 k -> block16 a -> kX k (kX k a) = a.
Proof. intros [Hk _] [Ha _]. rewrite !kX_add_xor. apply add_xor_cancel. lia. Qed.

Lemma map_block f a : (forall x, byte_ok x -> byte_ok (f x)) -> block16 a -> block16 (map f a).
Proof.
  intros Hf [Hl Hb]. split; [now rewrite len_map|].
  apply Forall_map. eapply Forall_impl; [|exact Hb]. exact Hf.
Qed.

Lemma kS_block a : block16 a -> block16 (kS a).
Proof. apply map_block. intros x Hx. apply (sbox_table x Hx). Qed.

Lemma kS_inv_block a : block16 a -> block16 (kS_inv a).
Proof. apply map_block. intros x Hx. apply (sbox_inv_table x Hx). Qed.

Lemma map_id_bytes (f : Z -> Z) a : (forall x, byte_ok x -> f x = x) -> bytes_ok a -> map f a = a.
Proof.
  intros Hf Hb. induction Hb as [|x a Hx Ha IH]; cbn; [reflexivity|]. now rewrite Hf, IH.
Qed.

Lemma kS_inv_kS a : block16 a -> kS_inv (kS a) = a.
Proof. intros [_ Hb]. unfold kS, kS_inv. rewrite map_map. apply map_id_bytes; auto using sbox_inv_l. Qed.

Lemma kS_kS_inv a : block16 a -> kS (kS_inv a) = a.
Proof. intros [_ Hb]. unfold kS, kS_inv. rewrite map_map. apply map_id_bytes; auto using sbox_inv_r. Qed.

Lemma kR_block a : block16 a -> block16 (kR a).
Proof.
  intros Ha. pose proof (lin_byte a Ha) as Hlin. unfold kR.
  destruct (block16_explicit a Ha) as (x0&x1&x2&x3&x4&x5&x6&x7&x8&x9&x10&x11&x12&x13&x14&x15&->).
  destruct Ha as [_ Hb]. bytes_split Hb. split; [reflexivity|].
  cbn [removelast]. repeat (apply Forall_cons; [assumption|]). constructor.
Qed.

Lemma kR_inv_block a : block16 a -> block16 (kR_inv a).
Proof.
  intros Ha. pose proof (lin_rot_byte a Ha) as Hlin. unfold kR_inv.
  destruct (block16_explicit a Ha) as (x0&x1&x2&x3&x4&x5&x6&x7&x8&x9&x10&x11&x12&x13&x14&x15&->).
  destruct Ha as [_ Hb]. bytes_split Hb. split; [reflexivity|].
  cbn [tl hd app] in *. repeat (apply Forall_cons; [assumption|]). constructor.
Qed.

Lemma lin_snoc a y : List.length a = 15%nat -> byte_ok y -> lin (a ++ [y]) = Z.lxor (lin (a ++ [0])) y.
Proof.
  intros Hl Hy.
  do 15 (destruct a as [|? a]; [cbn in Hl; lia|]). destruct a; [|cbn in Hl; lia]. clear Hl.
  unfold lin, lin_coefs, xor_sum. cbn [app combine map fold_right fst snd].
  rewrite (gf_mul_1 y Hy), (gf_mul_1 0) by (unfold byte_ok; lia).
  rewrite !Z.lxor_0_r. rewrite !Z.lxor_assoc. reflexivity.
Qed.

Lemma block16_snoc a : block16 a -> exists b y, a = b ++ [y] /\ List.length b = 15%nat /\ byte_ok y /\ bytes_ok b.
Proof.
  intros [Hl Hb]. unfold len in Hl.
  assert (Hne : a <> []) by (intros ->; cbn in Hl; lia).
  destruct (exists_last Hne) as (b & y & ->). exists b, y.
  rewrite app_length in Hl; cbn in Hl. apply bytes_ok_app in Hb as [H1 H2].
  apply bytes_ok_cons in H2 as [H2 _]. repeat split; auto; try lia; apply H2.
Qed.

Lemma kR_inv_kR a : block16 a -> kR_inv (kR a) = a.
Proof.
  intros Ha. pose proof (lin_byte a Ha) as Hlin. destruct (block16_snoc a Ha) as (b & y & -> & Hl & Hy & _).
  unfold kR_inv, kR. cbn [tl hd]. rewrite removelast_last.
  rewrite lin_snoc by auto. rewrite (lin_snoc b y) by auto.
  now rewrite <- Z.lxor_assoc, Z.lxor_nilpotent, Z.lxor_0_l.
Qed.

Lemma kR_kR_inv a : block16 a -> kR (kR_inv a) = a.
Proof.
  intros Ha. pose proof (lin_rot_byte a Ha) as Hlin. destruct Ha as [Hl Hb].
  destruct a as [|x a]; [discriminate|]. apply bytes_ok_cons in Hb as [Hx Hb].
  assert (Hl' : List.length a = 15%nat) by (unfold len in Hl; cbn [List.length] in Hl; lia).
  unfold kR_inv, kR in *. cbn [tl hd] in *. rewrite removelast_last. f_equal.
  rewrite lin_snoc by auto. rewrite (lin_snoc a x) by auto.
  now rewrite <- Z.lxor_assoc, Z.lxor_nilpotent, Z.lxor_0_l.
Qed.

Global Opaque kR kR_inv lin.

Lemma iter_inv {A} (P : A -> Prop) f n a : (forall a, P a -> P (f a)) -> P a -> P (Nat.iter n f a).
Proof. intros Hf Ha. induction n; cbn; auto. Qed.

Lemma iter_S_r {A} (f : A -> A) n a : Nat.iter n f (f a) = f (Nat.iter n f a).
Proof. induction n as [|n IH]; [reflexivity|]. change (f (Nat.iter n f (f a)) = f (f (Nat.iter n f a))). now rewrite IH. Qed.

Lemma iter_cancel {A} (P : A -> Prop) f g n a :
  (forall a, P a -> P (f a)) -> (forall a, P a -> g (f a) = a) -> P a ->
  Nat.iter n g (Nat.iter n f a) = a.
Proof.
  intros Hf Hg. revert a; induction n as [|n IH]; intros a Ha; [reflexivity|].
  change (Nat.iter (S n) g (Nat.iter (S n) f a)) with (g (Nat.iter n g (f (Nat.iter n f a)))).
  rewrite <- (iter_S_r g). rewrite Hg by (apply (iter_inv P); auto). now apply IH.
Qed.

Lemma kL_block a : block16 a -> block16 (kL a).
Proof. apply iter_inv, kR_block. Qed.
Lemma kL_inv_block a : block16 a -> block16 (kL_inv a).
Proof. apply iter_inv, kR_inv_block. Qed.
Lemma kL_inv_kL a : block16 a -> kL_inv (kL a) = a.
Proof. apply (iter_cancel block16); auto using kR_block, kR_inv_kR. Qed.
Lemma kL_kL_inv a : block16 a -> kL (kL_inv a) = a.
Proof. apply (iter_cancel block16); auto using kR_inv_block, kR_kR_inv. Qed.

(** ** L in the code *)

Lemma for_iter {A S} (xs : list A) (s : S) f g (P : S -> Prop) :
  (forall s, P s -> f s = Ok (g s) /\ P (g s)) -> P s ->
  for_ xs s (fun _ s => f s) = Ok (Nat.iter (List.length xs) g s).
Proof.
  intros H. revert s; induction xs as [|x xs IH]; intros s Hs; [reflexivity|].
  cbn [for_ List.length]. destruct (H s Hs) as [-> Hs']. cbn [bind]. rewrite IH by auto.
  change (Ok (Nat.iter (List.length xs) g (g s)) = Ok (g (Nat.iter (List.length xs) g s))). now rewrite iter_S_r.
Qed.

Lemma cipher_l_ok a : block16 a -> _cipher_l a = Ok (kL a).
Proof.
  intros Ha. unfold _cipher_l. rewrite (for_iter _ _ _ kR block16); auto.
  intros s Hs. split; [now apply cipher_r_ok | now apply kR_block].
Qed.

Lemma firstn_block a : block16 a -> firstn 16 a = a.
Proof. intros [Hl _]. apply firstn_all2. unfold len in Hl. lia. Qed.

(** At least one block of bytes. *)
Definition wide (b : bytes) : Prop := bytes_ok b /\ 16 <= len b.

Lemma block_wide b : block16 b -> wide b.
Proof. intros [H1 H2]; split; auto; lia. Qed.

Lemma wide_first b : wide b -> block16 (firstn 16 b).
Proof. intros [Hb Hl]. split; [unfold len in *; rewrite firstn_length; lia | now apply bytes_ok_firstn]. Qed.

Lemma cipher_l_reverse_ok a : wide a -> _cipher_l_reverse a = Ok (kL_inv (firstn 16 a)).
Proof.
  intros [Hb Hl]. unfold _cipher_l_reverse.
  change (py_range 0 16 1) with (0 :: [1; 2; 3; 4; 5; 6; 7; 8; 9; 10; 11; 12; 13; 14; 15]).
  cbn [for_]. rewrite cipher_r_reverse_ok by auto. cbn [bind].
  change (for_ [1; 2; 3; 4; 5; 6; 7; 8; 9; 10; 11; 12; 13; 14; 15] (kR_inv (firstn 16 a))
    (fun _ s => _cipher_r_reverse s) = Ok (kL_inv (firstn 16 a))).
  pose proof (wide_first a (conj Hb Hl)) as Hf.
  rewrite (for_iter _ _ _ kR_inv block16).
  - exact (f_equal Ok (iter_S_r kR_inv 15 (firstn 16 a))).
  - intros s Hs. split; [|now apply kR_inv_block].
    rewrite cipher_r_reverse_ok; [now rewrite firstn_block | apply Hs | destruct Hs; lia].
  - now apply kR_inv_block.
Qed.

Lemma cipher_l_reverse_short a : len a < 16 -> _cipher_l_reverse a = Err IndexError.
Proof.
  intros Hl. unfold _cipher_l_reverse.
  change (py_range 0 16 1) with (0 :: [1; 2; 3; 4; 5; 6; 7; 8; 9; 10; 11; 12; 13; 14; 15]).
  cbn [for_]. unfold _cipher_r_reverse.
  change (py_range (_BLOCK_SIZE_KUZNECHIK - 1) (-1) (-1)) with [15; 14; 13; 12; 11; 10; 9; 8; 7; 6; 5; 4; 3; 2; 1; 0].
  cbn [for_]. now rewrite (py_get_out a 15) by lia.
Qed.

(** ** Key schedule *)

Lemma cipher_get_c_ok : _cipher_get_c = Ok (map kC (seq 1 32)).
Proof. vm_compute. reflexivity. Qed.

Global Opaque kL kL_inv.

Lemma kC_block i : (i < 256)%nat -> block16 (kC i).
Proof.
  intros Hi. unfold kC. apply kL_block. split; [reflexivity|].
  cbn [repeat app]. repeat (apply Forall_cons; [unfold byte_ok; lia|]). constructor.
Qed.

Definition pair_block (p : bytes * bytes) : Prop := block16 (fst p) /\ block16 (snd p).

Lemma kF_block c p : block16 c -> pair_block p -> pair_block (kF c p).
Proof. intros Hc [H1 H2]. split; cbn [kF fst snd]; auto using kX_block, kL_block, kS_block. Qed.

Lemma kF_range_block n first p :
  (first + n <= 256)%nat -> pair_block p -> pair_block (kF_range first n p).
Proof.
  revert first p; induction n as [|n IH]; intros first p Hn Hp; cbn; auto.
  apply IH; [lia|]. apply kF_block; auto. apply kC_block. lia.
Qed.

Lemma schedule_step k1 k2 c :
  block16 k1 -> block16 k2 -> block16 c ->
  (let* internal := _cipher_s (add_xor k1 c) in
   let* internal := _cipher_l internal in
   Ok (add_xor internal k2, k1)) = Ok (kF c (k1, k2)).
Proof.
  intros H1 H2 Hc.
  assert (HX : block16 (kX c k1)) by now apply kX_block.
  rewrite add_xor_comm, <- kX_add_xor.
  rewrite cipher_s_ok by (destruct HX; auto; lia). cbn [bind].
  rewrite firstn_block by auto. rewrite cipher_l_ok by now apply kS_block. cbn [bind].
  now rewrite <- kX_add_xor.
Qed.

Lemma get_c i : 0 <= i < 32 -> py_get (map kC (seq 1 32)) i = Ok (kC (S (Z.to_nat i))).
Proof.
  intros Hi. rewrite (py_get_nth _ i (kC 0)) by (rewrite len_map; unfold len; rewrite seq_length; lia).
  rewrite map_nth, seq_nth by lia. reflexivity.
Qed.

Lemma schedule_inner i k1 k2 :
  0 <= i < 4 -> block16 k1 -> block16 k2 ->
  for_ (py_range 0 8 1) (k1, k2)
    (fun j '(key_1, key_2) =>
       let* c := py_get (map kC (seq 1 32)) (i * 8 + j) in
       let* internal := _cipher_s (add_xor key_1 c) in
       let* internal := _cipher_l internal in
       Ok (add_xor internal key_2, key_1)) = Ok (kF_range (S (Z.to_nat (i * 8))) 8 (k1, k2)).
Proof.
  intros Hi H1 H2.
  assert (G : forall n p, (n <= 8)%nat -> pair_block p ->
    for_ (py_range (8 - Z.of_nat n) 8 1) p
    (fun j '(key_1, key_2) =>
       let* c := py_get (map kC (seq 1 32)) (i * 8 + j) in
       let* internal := _cipher_s (add_xor key_1 c) in
       let* internal := _cipher_l internal in
       Ok (add_xor internal key_2, key_1)) = Ok (kF_range (S (Z.to_nat (i * 8)) + 8 - n) n p)).
  { induction n as [|n IH]; intros p Hn Hp.
    - rewrite py_range_empty by lia. reflexivity.
    - rewrite py_range_cons by lia. cbn [for_]. destruct p as [p1 p2].
      rewrite get_c by lia. cbn [bind].
      rewrite schedule_step; [|apply Hp|apply Hp|apply kC_block; lia]. cbn [bind].
      replace (8 - Z.of_nat (S n) + 1) with (8 - Z.of_nat n) by lia.
      rewrite IH; [|lia|apply kF_block; [apply kC_block; lia | exact Hp]].
      cbn [kF_range]. f_equal.
      replace (S (Z.to_nat (i * 8 + (8 - Z.of_nat (S n))))) with (S (Z.to_nat (i * 8)) + 8 - S n)%nat by lia.
      f_equal. lia. }
  specialize (G 8%nat (k1, k2) ltac:(lia) (conj H1 H2)).
  replace (S (Z.to_nat (i * 8)) + 8 - 8)%nat with (S (Z.to_nat (i * 8))) in G by lia.
  exact G.
Qed.

Lemma round_keys_unfold p :
  let p1 := kF_range 1 8 p in let p2 := kF_range 9 8 p1 in
  let p3 := kF_range 17 8 p2 in let p4 := kF_range 25 8 p3 in
  round_keys_from 1 4 p = [fst p; snd p; fst p1; snd p1; fst p2; snd p2; fst p3; snd p3; fst p4; snd p4].
Proof. reflexivity. Qed.

Lemma round_keys_from_block n first p :
  (first + 8 * n <= 256)%nat -> pair_block p -> Forall block16 (round_keys_from first n p).
Proof.
  revert first p; induction n as [|n IH]; intros first p Hn [H1 H2]; cbn [round_keys_from].
  - constructor; [exact H1|]. constructor; [exact H2|constructor].
  - constructor; [exact H1|]. constructor; [exact H2|].
    apply IH; [lia|]. apply kF_range_block; [lia | split; auto].
Qed.

Definition key32 (key : bytes) : Prop := len key = 32 /\ bytes_ok key.

Lemma key_halves key : key32 key -> pair_block (firstn 16 key, skipn 16 key).
Proof.
  intros [Hl Hb]. unfold pair_block, block16; cbn [fst snd]. unfold len in *.
  rewrite firstn_length, skipn_length. repeat split; try lia.
  - now apply bytes_ok_firstn.
  - now apply bytes_ok_skipn.
Qed.

Lemma round_keys_block key : key32 key -> Forall block16 (round_keys key).
Proof. intros H. apply round_keys_from_block; [lia | now apply key_halves]. Qed.

Lemma round_keys_length key : List.length (round_keys key) = 10%nat.
Proof. reflexivity. Qed.

Lemma kuz_new_ok key : key32 key -> kuz_new key = Ok (round_keys key).
Proof.
  intros Hk. unfold kuz_new. rewrite cipher_get_c_ok. cbn [bind].
  change (_KEY_SIZE / 2) with 16. rewrite py_upto_firstn, py_from_skipn by lia.
  change (Z.to_nat 16) with 16%nat.
  pose proof (key_halves key Hk) as Hp. unfold round_keys. rewrite round_keys_unfold.
  generalize dependent (firstn 16 key). generalize (skipn 16 key). intros k2 k1 Hp.
  change (py_range 0 4 1) with [0; 1; 2; 3]. cbn [for_].
  assert (H1 := kF_range_block 8 1 _ ltac:(lia) Hp).
  rewrite schedule_inner; [|lia|apply Hp|apply Hp]. cbn [bind].
  change (S (Z.to_nat (0 * 8))) with 1%nat. 
  remember (kF_range 1 8 (k1, k2)) as p1 eqn:E1. destruct p1 as [p11 p12]. cbn [bind].
  assert (H2 := kF_range_block 8 9 _ ltac:(lia) H1).
  rewrite schedule_inner; [|lia|apply H1|apply H1]. cbn [bind].
  change (S (Z.to_nat (1 * 8))) with 9%nat. 
  remember (kF_range 9 8 (p11, p12)) as p2 eqn:E2. destruct p2 as [p21 p22]. cbn [bind].
  assert (H3 := kF_range_block 8 17 _ ltac:(lia) H2).
  rewrite schedule_inner; [|lia|apply H2|apply H2]. cbn [bind].
  change (S (Z.to_nat (2 * 8))) with 17%nat. 
  remember (kF_range 17 8 (p21, p22)) as p3 eqn:E3. destruct p3 as [p31 p32]. cbn [bind].
  rewrite schedule_inner; [|lia|apply H3|apply H3]. cbn [bind].
  change (S (Z.to_nat (3 * 8))) with 25%nat. 
  remember (kF_range 25 8 (p31, p32)) as p4 eqn:E4. destruct p4 as [p41 p42].
  reflexivity.
Qed.

(** ** Encryption and decryption *)

Lemma enc_rounds_block ks a : Forall block16 ks -> block16 a -> block16 (enc_rounds ks a).
Proof.
  revert a; induction ks as [|k ks IH]; intros a Hks Ha; [exact Ha|].
  inversion Hks as [|? ? Hk Hks']; subst.
  destruct ks as [|k' ks']; [now apply kX_block|].
  cbn [enc_rounds] in *. apply IH; auto using kX_block, kS_block, kL_block.
Qed.

Lemma dec_rounds_block ks a : Forall block16 ks -> block16 a -> block16 (dec_rounds ks a).
Proof.
  induction ks as [|k ks IH]; intros Hks Ha; [exact Ha|].
  inversion Hks as [|? ? Hk Hks']; subst.
  destruct ks as [|k' ks']; [now apply kX_block|].
  change (dec_rounds (k :: k' :: ks') a) with (kX k (kS_inv (kL_inv (dec_rounds (k' :: ks') a)))).
  auto using kX_block, kS_inv_block, kL_inv_block.
Qed.

Lemma dec_enc_rounds ks a : Forall block16 ks -> block16 a -> dec_rounds ks (enc_rounds ks a) = a.
Proof.
  revert a; induction ks as [|k ks IH]; intros a Hks Ha; [reflexivity|].
  inversion Hks as [|? ? Hk Hks']; subst.
  destruct ks as [|k' ks']; [now apply kX_kX|].
  change (enc_rounds (k :: k' :: ks') a) with (enc_rounds (k' :: ks') (kL (kS (kX k a)))).
  change (dec_rounds (k :: k' :: ks') ?x) with (kX k (kS_inv (kL_inv (dec_rounds (k' :: ks') x)))).
  assert (HX := kX_block k a Hk Ha).
  rewrite IH by auto using kX_block, kS_block, kL_block.
  rewrite kL_inv_kL by now apply kS_block. rewrite kS_inv_kS by auto. now apply kX_kX.
Qed.

Lemma enc_dec_rounds ks a : Forall block16 ks -> block16 a -> enc_rounds ks (dec_rounds ks a) = a.
Proof.
  induction ks as [|k ks IH]; intros Hks Ha; [reflexivity|].
  inversion Hks as [|? ? Hk Hks']; subst.
  destruct ks as [|k' ks']; [now apply kX_kX|].
  change (dec_rounds (k :: k' :: ks') a) with (kX k (kS_inv (kL_inv (dec_rounds (k' :: ks') a)))).
  change (enc_rounds (k :: k' :: ks') ?x) with (enc_rounds (k' :: ks') (kL (kS (kX k x)))).
  assert (HD := dec_rounds_block (k' :: ks') a Hks' Ha).
  rewrite kX_kX; auto using kS_inv_block, kL_inv_block.
  rewrite kS_kS_inv by auto using kL_inv_block. rewrite kL_kL_inv by auto. now apply IH.
Qed.

Lemma add_xor_wide k b : wide k -> wide b -> wide (add_xor k b).
Proof. intros [H1 H2] [H3 H4]. split; [now apply add_xor_ok | rewrite add_xor_len; lia]. Qed.

Lemma round_ok k b :
  wide k -> wide b ->
  (let* block := _cipher_s (add_xor k b) in _cipher_l block) =
  Ok (kL (kS (kX (firstn 16 k) (firstn 16 b)))).
Proof.
  intros Hk Hb. pose proof (add_xor_wide k b Hk Hb) as [H1 H2].
  rewrite cipher_s_ok by auto. cbn [bind].
  rewrite <- add_xor_firstn, <- kX_add_xor.
  apply cipher_l_ok. apply kS_block, kX_block; now apply wide_first.
Qed.

Lemma last_xor k b : wide k -> block16 b -> add_xor k b = kX (firstn 16 k) b.
Proof.
  intros Hk Hb. rewrite kX_add_xor. rewrite <- (add_xor_firstn_l k b).
  destruct Hb as [Hl _]. unfold len in Hl. now replace (List.length b) with 16%nat by lia.
Qed.

(** The keys of an object: ten byte strings of at least one block (longer ones after [clear]). *)
Definition kuz_keys (ks : list bytes) : Prop := List.length ks = 10%nat /\ Forall wide ks.

Lemma kuz_keys_explicit ks : kuz_keys ks ->
  exists k0 k1 k2 k3 k4 k5 k6 k7 k8 k9, ks = [k0; k1; k2; k3; k4; k5; k6; k7; k8; k9] /\
    wide k0 /\ wide k1 /\ wide k2 /\ wide k3 /\ wide k4 /\ wide k5 /\ wide k6 /\ wide k7 /\ wide k8 /\ wide k9.
Proof.
  intros [Hl HF]. do 10 (destruct ks as [|? ks]; [discriminate|]). destruct ks; [|discriminate].
  repeat match goal with H : Forall wide (_ :: _) |- _ =>
    let h := fresh "Hw" in apply Forall_cons_iff in H as [h H] end.
  do 10 eexists. split; [reflexivity|]. repeat (split; [assumption|]); assumption.
Qed.

Ltac get_concrete :=
  match goal with |- context [py_get [?a;?b;?c;?d;?e;?f;?g;?h;?i;?j] ?n] =>
    let v := eval cbv in (py_get [a;b;c;d;e;f;g;h;i;j] n) in
    change (py_get [a;b;c;d;e;f;g;h;i;j] n) with v; cbn [bind]
  end.

Lemma kuz_encrypt_ok ks b :
  kuz_keys ks -> wide b ->
  kuz_encrypt ks b = Ok (enc_rounds (map (firstn 16) ks) (firstn 16 b)).
Proof.
  intros Hks Hb.
  destruct (kuz_keys_explicit ks Hks) as (k0&k1&k2&k3&k4&k5&k6&k7&k8&k9&->&H0&H1&H2&H3&H4&H5&H6&H7&H8&H9).
  cbn [map enc_rounds]. unfold kuz_encrypt.
  change (py_range 0 9 1) with [0; 1; 2; 3; 4; 5; 6; 7; 8]. cbn [for_].
  assert (HB := wide_first b Hb).
  get_concrete. rewrite (round_ok k0 b) by auto. cbn [bind].
  set (b1 := kL (kS (kX (firstn 16 k0) (firstn 16 b)))).
  assert (HB1 : block16 b1) by (subst b1; auto using kL_block, kS_block, kX_block, wide_first). clearbody b1.
  get_concrete. rewrite (round_ok k1 b1), (firstn_block b1) by auto using block_wide. cbn [bind].
  set (b2 := kL (kS (kX (firstn 16 k1) b1))).
  assert (HB2 : block16 b2) by (subst b2; auto using kL_block, kS_block, kX_block, wide_first). clearbody b2.
  get_concrete. rewrite (round_ok k2 b2), (firstn_block b2) by auto using block_wide. cbn [bind].
  set (b3 := kL (kS (kX (firstn 16 k2) b2))).
  assert (HB3 : block16 b3) by (subst b3; auto using kL_block, kS_block, kX_block, wide_first). clearbody b3.
  get_concrete. rewrite (round_ok k3 b3), (firstn_block b3) by auto using block_wide. cbn [bind].
  set (b4 := kL (kS (kX (firstn 16 k3) b3))).
  assert (HB4 : block16 b4) by (subst b4; auto using kL_block, kS_block, kX_block, wide_first). clearbody b4.
  get_concrete. rewrite (round_ok k4 b4), (firstn_block b4) by auto using block_wide. cbn [bind].
  set (b5 := kL (kS (kX (firstn 16 k4) b4))).
  assert (HB5 : block16 b5) by (subst b5; auto using kL_block, kS_block, kX_block, wide_first). clearbody b5.
  get_concrete. rewrite (round_ok k5 b5), (firstn_block b5) by auto using block_wide. cbn [bind].
  set (b6 := kL (kS (kX (firstn 16 k5) b5))).
  assert (HB6 : block16 b6) by (subst b6; auto using kL_block, kS_block, kX_block, wide_first). clearbody b6.
  get_concrete. rewrite (round_ok k6 b6), (firstn_block b6) by auto using block_wide. cbn [bind].
  set (b7 := kL (kS (kX (firstn 16 k6) b6))).
  assert (HB7 : block16 b7) by (subst b7; auto using kL_block, kS_block, kX_block, wide_first). clearbody b7.
  get_concrete. rewrite (round_ok k7 b7), (firstn_block b7) by auto using block_wide. cbn [bind].
  set (b8 := kL (kS (kX (firstn 16 k7) b7))).
  assert (HB8 : block16 b8) by (subst b8; auto using kL_block, kS_block, kX_block, wide_first). clearbody b8.
  get_concrete. rewrite (round_ok k8 b8), (firstn_block b8) by auto using block_wide. cbn [bind].
  set (b9 := kL (kS (kX (firstn 16 k8) b8))).
  assert (HB9 : block16 b9) by (subst b9; auto using kL_block, kS_block, kX_block, wide_first). clearbody b9.
  get_concrete. now rewrite last_xor.
Qed.

Lemma kuz_encrypt_short ks b :
  kuz_keys ks -> bytes_ok b -> len b < 16 -> kuz_encrypt ks b = Err IndexError.
Proof.
  intros Hks Hb Hl.
  destruct (kuz_keys_explicit ks Hks) as (k0&k1&k2&k3&k4&k5&k6&k7&k8&k9&->&H0&_).
  unfold kuz_encrypt. change (py_range 0 9 1) with [0; 1; 2; 3; 4; 5; 6; 7; 8]. cbn [for_].
  get_concrete. rewrite cipher_s_short; [reflexivity | |rewrite add_xor_len; lia].
  apply add_xor_ok; [apply H0 | exact Hb].
Qed.

Lemma dec_round_ok k b :
  wide k -> wide b ->
  (let* block := _cipher_l_reverse b in
   let* block := _cipher_s_reverse block in
   Ok (add_xor k block)) = Ok (kX (firstn 16 k) (kS_inv (kL_inv (firstn 16 b)))).
Proof.
  intros Hk Hb. rewrite cipher_l_reverse_ok by auto. cbn [bind].
  assert (HL := kL_inv_block _ (wide_first b Hb)).
  rewrite cipher_s_reverse_ok by (destruct HL; auto; lia). cbn [bind].
  rewrite firstn_block by auto. now rewrite last_xor by auto using kS_inv_block.
Qed.

Lemma kuz_decrypt_ok ks b :
  kuz_keys ks -> wide b ->
  kuz_decrypt ks b = Ok (dec_rounds (map (firstn 16) ks) (firstn 16 b)).
Proof.
  intros Hks Hb.
  destruct (kuz_keys_explicit ks Hks) as (k0&k1&k2&k3&k4&k5&k6&k7&k8&k9&->&H0&H1&H2&H3&H4&H5&H6&H7&H8&H9).
  cbn [map dec_rounds]. unfold kuz_decrypt.
  change (py_range 8 (-1) (-1)) with [8; 7; 6; 5; 4; 3; 2; 1; 0]. cbn [for_].
  assert (HB := wide_first b Hb).
  assert (HW := add_xor_wide k9 b H9 Hb).
  assert (E0 : firstn 16 (add_xor k9 b) = kX (firstn 16 k9) (firstn 16 b)).
  { rewrite <- add_xor_firstn. now rewrite kX_add_xor. }
  assert (EQ : forall k b K, wide k -> wide b ->
    (let* s' := (let* block := _cipher_l_reverse b in
                 let* block := _cipher_s_reverse block in
                 let* kk := Ok k in Ok (add_xor kk block)) in K s') =
    (K (kX (firstn 16 k) (kS_inv (kL_inv (firstn 16 b)))) : res bytes)).
  { intros k b' K Hk Hb'. cbn [bind]. rewrite (dec_round_ok k b') by auto. reflexivity. }
  change (py_get [k0;k1;k2;k3;k4;k5;k6;k7;k8;k9] 9) with (Ok k9). 
  change (py_get [k0;k1;k2;k3;k4;k5;k6;k7;k8;k9] 8) with (Ok k8). 
  change (py_get [k0;k1;k2;k3;k4;k5;k6;k7;k8;k9] 7) with (Ok k7). 
  change (py_get [k0;k1;k2;k3;k4;k5;k6;k7;k8;k9] 6) with (Ok k6). 
  change (py_get [k0;k1;k2;k3;k4;k5;k6;k7;k8;k9] 5) with (Ok k5). 
  change (py_get [k0;k1;k2;k3;k4;k5;k6;k7;k8;k9] 4) with (Ok k4). 
  change (py_get [k0;k1;k2;k3;k4;k5;k6;k7;k8;k9] 3) with (Ok k3). 
  change (py_get [k0;k1;k2;k3;k4;k5;k6;k7;k8;k9] 2) with (Ok k2). 
  change (py_get [k0;k1;k2;k3;k4;k5;k6;k7;k8;k9] 1) with (Ok k1). 
  change (py_get [k0;k1;k2;k3;k4;k5;k6;k7;k8;k9] 0) with (Ok k0). 
  cbn [bind]. cbn [bind] in EQ.
  assert (HK9 : block16 (kX (firstn 16 k9) (firstn 16 b))) by auto using kX_block, wide_first.
  rewrite EQ by auto. rewrite E0.
  set (b8 := kX (firstn 16 k8) _). assert (HB8 : block16 b8) by (subst b8; auto using kX_block, kS_inv_block, kL_inv_block, wide_first). clearbody b8.
  rewrite EQ, (firstn_block b8) by auto using block_wide.
  set (b7 := kX (firstn 16 k7) _). assert (HB7 : block16 b7) by (subst b7; auto using kX_block, kS_inv_block, kL_inv_block, wide_first). clearbody b7.
  rewrite EQ, (firstn_block b7) by auto using block_wide.
  set (b6 := kX (firstn 16 k6) _). assert (HB6 : block16 b6) by (subst b6; auto using kX_block, kS_inv_block, kL_inv_block, wide_first). clearbody b6.
  rewrite EQ, (firstn_block b6) by auto using block_wide.
  set (b5 := kX (firstn 16 k5) _). assert (HB5 : block16 b5) by (subst b5; auto using kX_block, kS_inv_block, kL_inv_block, wide_first). clearbody b5.
  rewrite EQ, (firstn_block b5) by auto using block_wide.
  set (b4 := kX (firstn 16 k4) _). assert (HB4 : block16 b4) by (subst b4; auto using kX_block, kS_inv_block, kL_inv_block, wide_first). clearbody b4.
  rewrite EQ, (firstn_block b4) by auto using block_wide.
  set (b3 := kX (firstn 16 k3) _). assert (HB3 : block16 b3) by (subst b3; auto using kX_block, kS_inv_block, kL_inv_block, wide_first). clearbody b3.
  rewrite EQ, (firstn_block b3) by auto using block_wide.
  set (b2 := kX (firstn 16 k2) _). assert (HB2 : block16 b2) by (subst b2; auto using kX_block, kS_inv_block, kL_inv_block, wide_first). clearbody b2.
  rewrite EQ, (firstn_block b2) by auto using block_wide.
  set (b1 := kX (firstn 16 k1) _). assert (HB1 : block16 b1) by (subst b1; auto using kX_block, kS_inv_block, kL_inv_block, wide_first). clearbody b1.
  rewrite EQ, (firstn_block b1) by auto using block_wide. reflexivity.
Qed.

Lemma kuz_decrypt_short ks b :
  kuz_keys ks -> bytes_ok b -> len b < 16 -> kuz_decrypt ks b = Err IndexError.
Proof.
  intros Hks Hb Hl.
  destruct (kuz_keys_explicit ks Hks) as (k0&k1&k2&k3&k4&k5&k6&k7&k8&k9&->&_&_&_&_&_&_&_&_&_&H9).
  unfold kuz_decrypt. change (py_range 8 (-1) (-1)) with [8; 7; 6; 5; 4; 3; 2; 1; 0]. cbn [for_].
  get_concrete. rewrite cipher_l_reverse_short; [reflexivity |rewrite add_xor_len; lia].
Qed.

(** ** clear *)

Lemma kuz_clear_ok ks : kuz_keys ks -> kuz_clear ks = Ok (map zero_fill ks) /\ kuz_keys (map zero_fill ks).
Proof.
  intros Hks. split.
  - destruct Hks as [Hl _]. do 10 (destruct ks as [|? ks]; [discriminate|]). destruct ks; [|discriminate].
    reflexivity.
  - destruct Hks as [Hl HF]. split; [now rewrite map_length|].
    apply Forall_map. eapply Forall_impl; [|exact HF]. intros k [_ Hk].
    split; [apply zero_fill_ok | rewrite zero_fill_len; lia].
Qed.

Lemma kuz_new_keys key ks : key32 key -> kuz_new key = Ok ks -> kuz_keys ks /\ Forall block16 ks /\ ks = round_keys key.
Proof.
  intros Hk. rewrite kuz_new_ok by auto. intros [= <-].
  pose proof (round_keys_block key Hk) as HF. repeat split; auto.
  eapply Forall_impl; [|exact HF]. apply block_wide.
Qed.

Lemma map_firstn_blocks ks : Forall block16 ks -> map (firstn 16) ks = ks.
Proof. induction 1 as [|k ks Hk _ IH]; cbn [map]; [reflexivity|]. now rewrite firstn_block, IH. Qed.

(** Every object (fresh or cleared) encrypts with a permutation of blocks. *)
Lemma kuz_inverse ks b : kuz_keys ks -> block16 b ->
  exists c, kuz_encrypt ks b = Ok c /\ block16 c /\ kuz_decrypt ks c = Ok b.
Proof.
  intros Hks Hb. rewrite kuz_encrypt_ok by auto using block_wide. rewrite firstn_block by auto.
  assert (HF : Forall block16 (map (firstn 16) ks)).
  { destruct Hks as [_ HF]. apply Forall_map. eapply Forall_impl; [|exact HF]. apply wide_first. }
  assert (HE := enc_rounds_block _ b HF Hb).
  eexists; split; [reflexivity|]. split; [exact HE|].
  rewrite kuz_decrypt_ok by auto using block_wide. rewrite firstn_block by auto.
  now rewrite dec_enc_rounds.
Qed.

Lemma kuz_inverse_dec ks b : kuz_keys ks -> block16 b ->
  exists c, kuz_decrypt ks b = Ok c /\ block16 c /\ kuz_encrypt ks c = Ok b.
Proof.
  intros Hks Hb. rewrite kuz_decrypt_ok by auto using block_wide. rewrite firstn_block by auto.
  assert (HF : Forall block16 (map (firstn 16) ks)).
  { destruct Hks as [_ HF]. apply Forall_map. eapply Forall_impl; [|exact HF]. apply wide_first. }
  assert (HE := dec_rounds_block _ b HF Hb).
  eexists; split; [reflexivity|]. split; [exact HE|].
  rewrite kuz_encrypt_ok by auto using block_wide. rewrite firstn_block by auto.
  now rewrite enc_dec_rounds.
Qed.
