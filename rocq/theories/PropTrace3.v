(** * Properties of the sequence of steps of making cipher objects and of single blocks: C127, C128, C129 *)
From Coq Require Import ZArith Lia.
From Verif Require Import PyBase PyFacts PyLoop Utils UtilsFacts CipherTables SpecKuznechik SpecMagma SpecModes SpecSign Kuznechik Magma KuzFacts KuzFacts2 MagmaFacts CipherLemmas SpecTrace SpecTrace2 SpecTrace3 Trace TraceLemmas TraceFacts TraceCipher TraceCipherFacts TraceCipher2 TraceCipher2Facts SigFinal PropTrace2.
Open Scope list_scope.
Open Scope Z_scope.

Lemma row_0 a (l : list Z) : bytes_len 16 a -> row 0 (a ++ l) = a.
Proof. intros H. apply (proj1 (first_16 a l H)). Qed.
Lemma row_S n a (l : list Z) : bytes_len 16 a -> row (S n) (a ++ l) = row n l.
Proof.
  intros [L _]. unfold row. replace (16 * S n)%nat with (length a + 16 * n)%nat by (unfold len in L; lia). f_equal. generalize (16 * n)%nat. intros m. rewrite skipn_app, skipn_all2 by lia. cbn [app]. f_equal. lia.
Qed.
Lemma kX_comm a b : kX a b = kX b a.
Proof. unfold kX. revert b. induction a as [|x a IH]; intros [|y b]; try reflexivity. cbn [combine map fst snd]. rewrite IH, Z.lxor_comm. reflexivity. Qed.
Lemma kX_undo' k d : bytes_len 16 k -> bytes_len 16 d -> kX (kX k d) k = d.
Proof. intros Hk Hd. rewrite (kX_comm k d). apply kX_undo; assumption. Qed.

(** ** Making an object of Kuznechik *)
Lemma step_blind {X} (f : event -> list X) i j p p' : blind f -> step_emits f i j p = step_emits f i j p'.
Proof. intros HB. unfold step_emits. rewrite (s_emits_blind f (kX (fst p) (kC (S (Z.to_nat (i * 8 + j))))) (kX (fst p') (kC (S (Z.to_nat (i * 8 + j))))) HB). reflexivity. Qed.
Lemma new_blind {X} (f : event -> list X) key key' : blind f -> new_emits f key = new_emits f key'.
Proof.
  intros HB. unfold new_emits. f_equal. f_equal. f_equal. apply loop_blind. intros i [[ks u] v] [[ks' u'] v']. unfold outer_emits. f_equal. apply loop_blind. intros j p p'. apply step_blind, HB.
Qed.
(** C127: which statements are executed while an object is made does not depend on the key ... *)
Theorem C127_flow : forall key key', bytes_len 32 key -> bytes_len 32 key' -> map shape (fst (t_kuz_new key)) = map shape (fst (t_kuz_new key')).
Proof.
  intros key key' Hk Hk'. rewrite <- !flat_single. destruct (emits_kuz_new _ (blind_460 _ shape_blind) key Hk) as [-> _]. destruct (emits_kuz_new _ (blind_460 _ shape_blind) key' Hk') as [-> _]. apply new_blind, shape_blind.
Qed.
Print Assumptions C127_flow.
Theorem C127_results : forall key, snd (t_kuz_new key) = liftO (kuz_new key).
Proof. exact erase_kuz_new. Qed.
Print Assumptions C127_results.
Lemma concat_nil {A B} (l : list A) : concat (map (fun _ => @nil B) l) = [].
Proof. induction l; [reflexivity | assumption]. Qed.
Lemma c_emits_460 : c_emits at_460 = [].
Proof. unfold c_emits. rewrite l_emits_460. change (at_460 (Test _ _ _)) with (@nil Z). change (at_460 (Enter _ _)) with (@nil Z). cbn [app]. rewrite concat_nil. reflexivity. Qed.
Lemma step_emits_460 i j p : bytes_len 16 (kX (fst p) (kC (S (Z.to_nat (i * 8 + j))))) -> step_emits at_460 i j p = kX (fst p) (kC (S (Z.to_nat (i * 8 + j)))).
Proof. intros H. unfold step_emits. rewrite x_emits_460, l_emits_460, s_emits_460 by exact H. change (at_460 (Read FCipher 437 3 (i * 8 + j))) with (@nil Z). cbn [app]. apply app_nil_r. Qed.
(** ... but the positions at which the table is read give the key, with nothing else known. *)
Theorem C127_recover : forall key, bytes_len 32 key -> kuz_new_recover (fst (t_kuz_new key)) = key.
Proof.
  intros key Hk. destruct (emits_kuz_new _ at_460_blind key Hk) as [EE _]. destruct (key_halves key Hk) as [H1 H2]. cbn [fst snd] in H1, H2.
  unfold kuz_new_recover, kuz_indices. change (fun e => _) with at_460. rewrite EE. unfold new_emits. rewrite c_emits_460. change (at_460 (Enter _ _)) with (@nil Z). cbn [app].
  rewrite (py_upto_firstn key 16), (py_from_skipn key 16) by lia. change (Z.to_nat 16) with 16%nat. set (a := firstn 16 key) in *. set (b := skipn 16 key) in *.
  change (py_range 0 4 1) with (0 :: [1; 2; 3]). cbn [loop_emits]. change (at_460 (Test _ _ true)) with (@nil Z). cbn [app]. change (outer_emits at_460 0 ([a; b], a, b)) with (loop_emits at_460 (step_emits at_460 0) (feistel_step 0) FCipher 436 (py_range 0 8 1) (a, b) ++ []).
  change (py_range 0 8 1) with (0 :: 1 :: [2; 3; 4; 5; 6; 7]). cbn [loop_emits]. change (at_460 (Test _ _ true)) with (@nil Z). cbn [app].
  pose proof (kC_block 1 ltac:(lia)) as HC1. pose proof (kC_block 2 ltac:(lia)) as HC2. change (feistel_step 0 0 (a, b)) with (kX (kL (kS (kX a (kC 1)))) b, a).
  pose proof (kX_block _ _ H1 HC1) as HX. pose proof (kL_block _ (kS_block _ HX)) as HD. pose proof (kX_block _ _ HD H2) as HA. pose proof (kX_block _ _ HA HC2) as HX2.
  rewrite (step_emits_460 0 0 (a, b)) by exact HX. rewrite (step_emits_460 0 1 (kX (kL (kS (kX a (kC 1)))) b, a)) by exact HX2. cbn [fst snd]. change (S (Z.to_nat (0 * 8 + 0))) with 1%nat. change (S (Z.to_nat (0 * 8 + 1))) with 2%nat.
  rewrite <- !app_assoc. rewrite row_0 by exact HX. rewrite row_S by exact HX. rewrite row_0 by exact HX2. cbv zeta. rewrite !kX_undo by assumption. rewrite kX_undo' by assumption. apply firstn_skipn.
Qed.
Print Assumptions C127_recover.
(** The claim: the steps of making an object do not depend on the key. *)
Definition kuz_new_hides_key : Prop := forall key key', bytes_len 32 key -> bytes_len 32 key' -> fst (t_kuz_new key) = fst (t_kuz_new key').
Theorem C127_hidden_refuted : ~ kuz_new_hides_key.
Proof. intros H. pose proof (C127_recover _ zeros32) as R. rewrite (H _ _ zeros32 ones32), (C127_recover _ ones32) in R. discriminate R. Qed.
Print Assumptions C127_hidden_refuted.
Example C127_example : (let st := fst (t_kuz_new rfc7801_key) in (length (kuz_indices st), kuz_new_recover st)) = (512%nat, rfc7801_key).
Proof. vm_compute. reflexivity. Qed.

(** ** A single block of Kuznechik *)
Lemma unF_kF c p : block16 c -> pair_block p -> unF c (kF c p) = p.
Proof.
  intros Hc [H1 H2]. destruct p as [a b]. cbn [fst snd] in *. unfold unF, kF. cbn [fst snd]. rewrite kX_kX; [reflexivity | | exact H2]. apply kL_block, kS_block, kX_block; assumption.
Qed.
Lemma unschedule_ok p : pair_block p -> unschedule (kF_range 1 8 p) = p.
Proof.
  intros Hp. unfold unschedule. cbn [kF_range fold_left]. assert (HC : forall i, (i < 256)%nat -> block16 (kC i)) by (apply kC_block).
  assert (HB : forall i q, (i < 256)%nat -> pair_block q -> pair_block (kF (kC i) q)) by (intros; apply kF_block; auto).
  rewrite !unF_kF; [reflexivity | ..]; try (apply HC; lia); repeat (apply HB; [lia|]); exact Hp.
Qed.
Lemma rounds_460 k ks i d : bytes_len 16 (kX k d) -> rounds_emits at_460 (k :: ks) i d = kX k d ++ rounds_emits at_460 ks (S i) (kL (kS (kX k d))).
Proof. intros H. cbn [rounds_emits]. rewrite round_emits_460 by exact H. reflexivity. Qed.
Lemma kuz_schedule key ks : bytes_len 32 key -> kuz_new key = Ok ks -> exists k2 k3 k4 k5 k6 k7 k8 k9,
  ks = [firstn 16 key; skipn 16 key; k2; k3; k4; k5; k6; k7; k8; k9] /\ Forall (bytes_len 16) ks /\ unschedule (k2, k3) = (firstn 16 key, skipn 16 key).
Proof.
  intros Hk E. destruct (kuz_new_keys key ks Hk E) as (_ & HF & EK). pose proof (unschedule_ok _ (key_halves key Hk)) as HU. unfold round_keys in EK. rewrite round_keys_unfold in EK. cbn [fst snd] in EK.
  rewrite (surjective_pairing (kF_range 1 8 _)) in HU.
  do 8 eexists. split; [exact EK|]. split; [exact HF | exact HU].
Qed.
(** C128: from the steps of one encryption alone follow the key and the block ... *)
Theorem C128_encrypt : forall key ks b, bytes_len 32 key -> kuz_new key = Ok ks -> bytes_len 16 b -> kuz_enc_recover (fst (t_kuz_encrypt ks b)) = (key, b).
Proof.
  intros key ks b Hk E Hb. destruct (kuz_schedule key ks Hk E) as (k2 & k3 & k4 & k5 & k6 & k7 & k8 & k9 & EL & HF & HU).
  destruct (emits_kuz _ at_460_blind ks [firstn 16 key; skipn 16 key; k2; k3; k4; k5; k6; k7; k8] k9 b EL eq_refl HF Hb) as [EE _]. rewrite EL in HF. repeat match goal with H : Forall _ (_ :: _) |- _ => apply Forall_cons_iff in H as [? H] end.
  set (k0 := firstn 16 key) in *. set (k1 := skipn 16 key) in *.
  assert (HR : forall k d, bytes_len 16 k -> bytes_len 16 d -> bytes_len 16 (kL (kS (kX k d)))) by (intros; apply kL_block, kS_block, kX_block; assumption).
  unfold kuz_enc_recover, kuz_indices. change (fun e => _) with at_460. rewrite EE. change (at_460 (Enter _ _)) with (@nil Z). cbn [app].
  pose proof (kX_block k0 b ltac:(assumption) Hb) as X0. rewrite rounds_460 by exact X0. set (x0 := kX k0 b) in *. pose proof (kL_block _ (kS_block _ X0)) as D1.
  pose proof (kX_block k1 _ ltac:(assumption) D1) as X1. rewrite rounds_460 by exact X1. set (x1 := kX k1 (kL (kS x0))) in *. pose proof (kL_block _ (kS_block _ X1)) as D2.
  pose proof (kX_block k2 _ ltac:(assumption) D2) as X2. rewrite rounds_460 by exact X2. set (x2 := kX k2 (kL (kS x1))) in *. pose proof (kL_block _ (kS_block _ X2)) as D3.
  pose proof (kX_block k3 _ ltac:(assumption) D3) as X3. rewrite rounds_460 by exact X3. set (x3 := kX k3 (kL (kS x2))) in *.
  rewrite <- !app_assoc. cbv zeta. rewrite !row_S by assumption. rewrite !row_0 by assumption. assert (E2 : kX x2 (kL (kS x1)) = k2) by (apply kX_undo; assumption). assert (E3 : kX x3 (kL (kS x2)) = k3) by (apply kX_undo; assumption). rewrite E2, E3, HU. cbn [fst snd]. unfold x0. rewrite kX_kX by assumption. unfold k0, k1. rewrite firstn_skipn. reflexivity.
Qed.
Print Assumptions C128_encrypt.
(** ... and from those of one decryption too. *)
Definition at_467 (e : event) : list Z := match e with Read FCipher line operand i => if (line =? 467) && (operand =? 1) then [i] else [] | _ => [] end.
Lemma at_467_blind : blind_but_467 at_467.
Proof. intros line i j N. cbn. destruct (Z.eqb_spec line 467); [contradiction|reflexivity]. Qed.
Lemma sr_emits_467 d : bytes_len 16 d -> sr_emits at_467 d = d.
Proof. intros [L _]. rewrite <- (nth_range d 16) at 2 by (unfold len in L; lia). reflexivity. Qed.
Lemma lr_emits_467 : lr_emits at_467 = [].
Proof. reflexivity. Qed.
Lemma x_emits_467 : x_emits at_467 = [].
Proof. reflexivity. Qed.
Lemma test_467 l b : at_467 (Test FCipher l b) = [].
Proof. reflexivity. Qed.
Lemma read_548_467 i : at_467 (Read FCipher 548 3 i) = [].
Proof. reflexivity. Qed.
Lemma dec_emits_467 i d : bytes_len 16 (kL_inv d) -> dec_emits at_467 i d = kL_inv d.
Proof. intros H. unfold dec_emits. rewrite lr_emits_467, x_emits_467, read_548_467, (sr_emits_467 _ H), !app_nil_r. reflexivity. Qed.
Lemma loop_cons {X S} (f : event -> list X) h (g : Z -> S -> S) gf l i is s : loop_emits f h g gf l (i :: is) s = f (Test gf l true) ++ h i s ++ loop_emits f h g gf l is (g i s).
Proof. reflexivity. Qed.
Lemma loop_467 ks i is d : bytes_len 16 (kL_inv d) -> loop_emits at_467 (dec_emits at_467) (dec_round ks) FCipher 545 (i :: is) d = kL_inv d ++ loop_emits at_467 (dec_emits at_467) (dec_round ks) FCipher 545 is (dec_round ks i d).
Proof. intros H. rewrite loop_cons, dec_emits_467 by exact H. rewrite test_467, app_nil_l. reflexivity. Qed.
Lemma dec_row ks i is d : bytes_len 16 (nth (Z.to_nat i) ks []) -> bytes_len 16 d -> exists z d', bytes_len 16 z /\ kL z = d /\ bytes_len 16 d' /\ kX d' (kS_inv z) = nth (Z.to_nat i) ks [] /\
  loop_emits at_467 (dec_emits at_467) (dec_round ks) FCipher 545 (i :: is) d = z ++ loop_emits at_467 (dec_emits at_467) (dec_round ks) FCipher 545 is d'.
Proof.
  intros Hk Hd. exists (kL_inv d), (dec_round ks i d). pose proof (kL_inv_block d Hd) as Hz. split; [exact Hz|]. split; [apply kL_kL_inv, Hd|]. split; [apply kX_block; [exact Hk | apply kS_inv_block, Hz]|].
  split; [apply kX_undo; [exact Hk | apply kS_inv_block, Hz] | apply loop_467, Hz].
Qed.
Theorem C128_decrypt : forall key ks b, bytes_len 32 key -> kuz_new key = Ok ks -> bytes_len 16 b -> kuz_dec_recover (fst (t_kuz_decrypt ks b)) = (key, b).
Proof.
  intros key ks b Hk E Hb. destruct (kuz_new_keys key ks Hk E) as (_ & _ & EK). destruct (kuz_schedule key ks Hk E) as (k2 & k3 & k4 & k5 & k6 & k7 & k8 & k9 & EL & HF & HU).
  destruct (emits_kuz_dec _ at_467_blind ks b ltac:(rewrite EL; reflexivity) HF Hb) as [EE _].
  assert (HN : forall i, (i < 10)%nat -> bytes_len 16 (nth i ks [])) by (intros i Hi; rewrite Forall_forall in HF; apply HF, nth_In; rewrite EL; exact Hi).
  unfold kuz_dec_recover, kuz_rev_indices. change (fun e => _) with at_467. rewrite EE. unfold dec_all_emits. rewrite x_emits_467. change (at_467 (Enter FCipher 532)) with (@nil Z). change (at_467 (Read FCipher 544 3 9)) with (@nil Z). rewrite !app_nil_l.
  change (py_range 8 (-1) (-1)) with [8; 7; 6; 5; 4; 3; 2; 1; 0].
  pose proof (kX_block _ b (HN 9%nat ltac:(lia)) Hb) as D0. pose proof (kX_kX _ b (HN 9%nat ltac:(lia)) Hb) as K9. revert D0 K9. generalize (kX (nth 9 ks []) b). intros d0 D0 K9.
  destruct (dec_row ks 8 [7; 6; 5; 4; 3; 2; 1; 0] d0 (HN 8%nat ltac:(lia)) D0) as (z0 & d1 & Z0 & L0 & D1 & _ & ->).
  destruct (dec_row ks 7 [6; 5; 4; 3; 2; 1; 0] d1 (HN 7%nat ltac:(lia)) D1) as (z1 & d2 & Z1 & _ & D2 & _ & ->).
  destruct (dec_row ks 6 [5; 4; 3; 2; 1; 0] d2 (HN 6%nat ltac:(lia)) D2) as (z2 & d3 & Z2 & _ & D3 & _ & ->).
  destruct (dec_row ks 5 [4; 3; 2; 1; 0] d3 (HN 5%nat ltac:(lia)) D3) as (z3 & d4 & Z3 & _ & D4 & _ & ->).
  destruct (dec_row ks 4 [3; 2; 1; 0] d4 (HN 4%nat ltac:(lia)) D4) as (z4 & d5 & Z4 & _ & D5 & _ & ->).
  destruct (dec_row ks 3 [2; 1; 0] d5 (HN 3%nat ltac:(lia)) D5) as (z5 & d6 & Z5 & _ & D6 & X6 & ->).
  destruct (dec_row ks 2 [1; 0] d6 (HN 2%nat ltac:(lia)) D6) as (z6 & d7 & Z6 & L6 & D7 & X7 & ->).
  destruct (dec_row ks 1 [0] d7 (HN 1%nat ltac:(lia)) D7) as (z7 & d8 & Z7 & L7 & D8 & _ & ->).
  cbv zeta. rewrite !row_S by assumption. rewrite !row_0 by assumption. rewrite L0, L6, L7.
  assert (E2 : kX d7 (kS_inv z6) = k2) by (rewrite X7, EL; reflexivity). assert (E3 : kX d6 (kS_inv z5) = k3) by (rewrite X6, EL; reflexivity).
  rewrite E2, E3, HU. cbn [fst snd]. rewrite firstn_skipn, <- EK.
  assert (N9 : last ks [] = nth 9 ks []) by (rewrite EL; reflexivity). rewrite N9, K9. reflexivity.
Qed.
Print Assumptions C128_decrypt.
Lemma dec_blind {X} (f : event -> list X) ks ks' b b' : blind f -> dec_all_emits f ks b = dec_all_emits f ks' b'.
Proof.
  intros HB. unfold dec_all_emits. f_equal. f_equal. f_equal. apply loop_blind. intros i d d'. unfold dec_emits. do 2 f_equal. unfold sr_emits. f_equal. f_equal. f_equal. apply map_ext. intros j. rewrite (HB 467 (nth (Z.to_nat j) (kL_inv d) 0) (nth (Z.to_nat j) (kL_inv d') 0)). reflexivity.
Qed.
Lemma blind_467 {X} (f : event -> list X) : blind f -> blind_but_467 f.
Proof. intros H line i j _. apply H. Qed.
Theorem C128_flow : forall key key' ks ks' b b', bytes_len 32 key -> bytes_len 32 key' -> kuz_new key = Ok ks -> kuz_new key' = Ok ks' -> bytes_len 16 b -> bytes_len 16 b' ->
  map shape (fst (t_kuz_decrypt ks b)) = map shape (fst (t_kuz_decrypt ks' b')).
Proof.
  intros key key' ks ks' b b' Hk Hk' E E' Hb Hb'. rewrite <- !flat_single. destruct (kuz_new_keys key ks Hk E) as ([L _] & HF & _). destruct (kuz_new_keys key' ks' Hk' E') as ([L' _] & HF' & _).
  destruct (emits_kuz_dec _ (blind_467 _ shape_blind) ks b L HF Hb) as [-> _]. destruct (emits_kuz_dec _ (blind_467 _ shape_blind) ks' b' L' HF' Hb') as [-> _]. apply dec_blind, shape_blind.
Qed.
Print Assumptions C128_flow.
Theorem C128_results : forall ks b, snd (t_kuz_decrypt ks b) = liftO (kuz_decrypt ks b).
Proof. exact erase_kuz_decrypt. Qed.
Print Assumptions C128_results.
(** The claim: there are two different keys that one cannot tell apart by the steps of an operation on blocks of one's choice. *)
Definition kuz_steps_ambiguous : Prop := exists key key' ks ks' b b', key <> key' /\ bytes_len 32 key /\ bytes_len 32 key' /\ kuz_new key = Ok ks /\ kuz_new key' = Ok ks' /\ bytes_len 16 b /\ bytes_len 16 b' /\
  (fst (t_kuz_encrypt ks b) = fst (t_kuz_encrypt ks' b') \/ fst (t_kuz_decrypt ks b) = fst (t_kuz_decrypt ks' b')).
Theorem C128_ambiguous_refuted : ~ kuz_steps_ambiguous.
Proof.
  intros (key & key' & ks & ks' & b & b' & N & Hk & Hk' & E & E' & Hb & Hb' & [F|F]); apply N.
  - pose proof (C128_encrypt key ks b Hk E Hb) as R. rewrite F, (C128_encrypt key' ks' b' Hk' E' Hb') in R. congruence.
  - pose proof (C128_decrypt key ks b Hk E Hb) as R. rewrite F, (C128_decrypt key' ks' b' Hk' E' Hb') in R. congruence.
Qed.
Print Assumptions C128_ambiguous_refuted.
Definition kuz_demo2 (r : res (list bytes)) (b : bytes) : (bytes * bytes) * (bytes * bytes) :=
  match r with Ok ks => (kuz_enc_recover (fst (t_kuz_encrypt ks b)), kuz_dec_recover (fst (t_kuz_decrypt ks b))) | Err _ => ([], [], ([], [])) end.
Example C128_example : kuz_demo2 (kuz_new rfc7801_key) rfc7801_block = ((rfc7801_key, rfc7801_block), (rfc7801_key, rfc7801_block)).
Proof. vm_compute. reflexivity. Qed.

(** ** Magma *)
Lemma flat_id (l : list event) : flat_map (fun e => [e]) l = l.
Proof. induction l as [|e l IH]; [reflexivity|]. cbn [flat_map app]. rewrite IH. reflexivity. Qed.
(** C129: making an object takes the same steps, with the same positions, for every key ... *)
Theorem C129_new : forall key key', bytes_len 32 key -> bytes_len 32 key' -> fst (t_magma_new key) = fst (t_magma_new key').
Proof.
  intros key key' Hk Hk'. rewrite <- (flat_id (fst (t_magma_new key))), <- (flat_id (fst (t_magma_new key'))). destruct (emits_magma_new (fun e => [e]) key Hk) as [-> _]. destruct (emits_magma_new (fun e => [e]) key' Hk') as [-> _]. reflexivity.
Qed.
Print Assumptions C129_new.
Theorem C129_results : forall key ks b, snd (t_magma_new key) = liftO (magma_new key) /\ snd (t_magma_decrypt ks b) = liftO (magma_decrypt ks b).
Proof. intros key ks b. split; [apply erase_magma_new | apply erase_magma_decrypt]. Qed.
Print Assumptions C129_results.
(** ... and so does [decrypt], up to the positions in tables ... *)
Lemma mdec_blind {X} (f : event -> list X) ks ks' d d' v v' : blind f -> mdec_all_emits f ks d v = mdec_all_emits f ks' d' v'.
Proof.
  intros HB. unfold mdec_all_emits. rewrite (mround_emits_blind f 711 v v' HB). rewrite (mround_emits_blind f 704 _ ((snd (mpair d') + wint (nth 31 ks' [])) mod 2 ^ 32) HB). do 3 f_equal. f_equal.
  generalize (mdec_round ks 31 d), (mdec_round ks' 31 d'). induction (py_range 30 0 (-1)) as [|i is IH]; intros s s'; cbn [loop_emits]; [reflexivity|]. unfold mdec_emits at 1 3. rewrite (mround_emits_blind f 704 _ ((snd (mpair s') + wint (nth (Z.to_nat i) ks' [])) mod 2 ^ 32) HB). f_equal. f_equal. apply IH.
Qed.
Lemma magma_list' key ks : bytes_len 32 key -> magma_new key = Ok ks -> length ks = 32%nat /\ Forall (bytes_len 4) ks.
Proof. intros Hk E. split; [apply (magma_new_good key ks Hk E) | apply (magma_list key ks Hk E)]. Qed.
Theorem C129_flow : forall key key' ks ks' b b', bytes_len 32 key -> bytes_len 32 key' -> magma_new key = Ok ks -> magma_new key' = Ok ks' -> bytes_len 8 b -> bytes_len 8 b' ->
  map shape (fst (t_magma_decrypt ks b)) = map shape (fst (t_magma_decrypt ks' b')).
Proof.
  intros key key' ks ks' b b' Hk Hk' E E' Hb Hb'. rewrite <- !flat_single. destruct (magma_list' key ks Hk E) as [L HF]. destruct (magma_list' key' ks' Hk' E') as [L' HF'].
  destruct (emits_magma_dec (fun e => [shape e]) ks b L HF Hb) as (v & -> & _). destruct (emits_magma_dec (fun e => [shape e]) ks' b' L' HF' Hb') as (v' & -> & _). apply mdec_blind, shape_blind.
Qed.
Print Assumptions C129_flow.
(** ... and these give the key to someone who knows the block. *)
Lemma mdec_pair ks i d : pair_ok (mpair d) -> mpair (mdec_round ks i d) = mG (wint (nth (Z.to_nat i) ks [])) (mpair d).
Proof. intros P. unfold mdec_round. rewrite mpair_mblock by (apply mG_ok, P). reflexivity. Qed.
Lemma mdec_words ks i is d n l : word_ok (wint (nth (Z.to_nat i) ks [])) -> pair_ok (mpair d) ->
  magma_words (S n) (loop_emits at_649 (mdec_emits at_649 ks) (mdec_round ks) FCipher 751 (i :: is) d ++ l) (mpair d)
  = wint (nth (Z.to_nat i) ks []) :: magma_words n (loop_emits at_649 (mdec_emits at_649 ks) (mdec_round ks) FCipher 751 is (mdec_round ks i d) ++ l) (mpair (mdec_round ks i d)).
Proof.
  intros W P. cbn [loop_emits]. unfold mdec_emits at 1. change (at_649 (Test _ _ _)) with (@nil Z). change (at_649 (Read _ 753 _ _)) with (@nil Z). cbn [app]. rewrite <- app_assoc, words_step by exact W. rewrite (mdec_pair ks i d P). reflexivity.
Qed.
Theorem C129_recover : forall key ks b, bytes_len 32 key -> magma_new key = Ok ks -> bytes_len 8 b -> magma_recover b (fst (t_magma_decrypt ks b)) = number key.
Proof.
  intros key ks b Hk E Hb. destruct (magma_list' key ks Hk E) as [L HF]. destruct (emits_magma_dec at_649 ks b L HF Hb) as (v & EE & _).
  assert (W : forall i, (i < 32)%nat -> word_ok (wint (nth i ks []))) by (intros i Hi; apply wint_ok; rewrite Forall_forall in HF; destruct (HF (nth i ks []) ltac:(apply nth_In; lia)) as [Lw Bw]; split; [exact Bw | lia]).
  assert (P0 : pair_ok (mpair b)) by (apply mpair_ok; destruct Hb; split; [assumption | lia]). assert (P : forall i d, pair_ok (mpair d) -> pair_ok (mpair (mdec_round ks i d))) by (intros i d Hd; unfold mdec_round; rewrite mpair_mblock by (apply mG_ok, Hd); apply mG_ok, Hd).
  unfold magma_recover, magma_indices. change (fun e => match e with Read _ _ _ _ => _ | _ => _ end) with at_649. rewrite EE. unfold mdec_all_emits. change (at_649 (Enter _ _)) with (@nil Z). change (at_649 (Read _ 749 _ _)) with (@nil Z). cbn [app].
  rewrite number_eq. rewrite <- (mpair_split b Hb). rewrite words_step by (apply W; lia). rewrite <- (mpair_mblock (mG (wint (nth 31 ks [])) (mpair b))) by (apply mG_ok, P0). change (mblock (mG (wint (nth 31 ks [])) (mpair b))) with (mdec_round ks 31 b).
  pose proof (P 31 b P0) as P1. set (d := mdec_round ks 31 b) in *. clearbody d. change (py_range 30 0 (-1)) with (30 :: 29 :: 28 :: 27 :: 26 :: 25 :: 24 :: py_range 23 0 (-1)).
  do 7 (rewrite mdec_words by (first [apply W; lia | auto 10])). cbn [magma_words].
  rewrite magma_new_ok in E by exact Hk. injection E as <-. unfold magma_key_list in *. change (Z.to_nat 30) with 30%nat. change (Z.to_nat 29) with 29%nat. change (Z.to_nat 28) with 28%nat. change (Z.to_nat 27) with 27%nat. change (Z.to_nat 26) with 26%nat. change (Z.to_nat 25) with 25%nat. change (Z.to_nat 24) with 24%nat.
  assert (LW : length (kwords key) = 8%nat) by reflexivity. destruct (kwords key) as [|k1 [|k2 [|k3 [|k4 [|k5 [|k6 [|k7 [|k8 [|? ?]]]]]]]]] eqn:EW; try discriminate LW. rewrite <- (number_words k1 k2 k3 k4 k5 k6 k7 k8 key Hk EW). reflexivity.
Qed.
Print Assumptions C129_recover.
(** The claim: the steps of decrypting a known block do not depend on the key. *)
Definition magma_decrypt_hides_key : Prop := forall key key' ks ks' b, bytes_len 32 key -> bytes_len 32 key' -> magma_new key = Ok ks -> magma_new key' = Ok ks' -> bytes_len 8 b -> fst (t_magma_decrypt ks b) = fst (t_magma_decrypt ks' b).
Theorem C129_hidden_refuted : ~ magma_decrypt_hides_key.
Proof.
  intros H. pose proof (H _ _ _ _ (repeat 0 8) zeros32 ones32 (magma_new_ok _ zeros32) (magma_new_ok _ ones32) (zeros_block 8 ltac:(lia))) as F.
  pose proof (C129_recover _ _ (repeat 0 8) zeros32 (magma_new_ok _ zeros32) (zeros_block 8 ltac:(lia))) as R. pose proof (C129_recover _ _ (repeat 0 8) ones32 (magma_new_ok _ ones32) (zeros_block 8 ltac:(lia))) as R'.
  rewrite F, R' in R. revert R. vm_compute. discriminate.
Qed.
Print Assumptions C129_hidden_refuted.
Definition magma_demo2 (r : res (list bytes)) (b : bytes) : nat * Z :=
  match r with Ok ks => let st := fst (t_magma_decrypt ks b) in (length (magma_indices st), magma_recover b st) | Err _ => (0%nat, 0) end.
Example C129_example : magma_demo2 (magma_new rfc7801_key) [1; 2; 3; 4; 5; 6; 7; 8] = (256%nat, number rfc7801_key) /\ length (fst (t_magma_new rfc7801_key)) = length (fst (t_magma_new (repeat 0 32))) /\ (300 <? Z.of_nat (length (fst (t_magma_new rfc7801_key)))) = true.
Proof. vm_compute. split; [reflexivity | split; reflexivity]. Qed.
