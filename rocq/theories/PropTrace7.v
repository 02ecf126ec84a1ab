(** * Properties of the sequence of steps of the MAC mode: C150 *)
From Coq Require Import ZArith Lia.
From Verif Require Import PyBase PyState PyFacts PyLoop Utils UtilsFacts CipherTables CipherObj Modes Mac SpecKuznechik SpecMagma SpecModes Kuznechik Magma KuzFacts KuzFacts2 MagmaFacts CipherLemmas CipherObjFacts ModeFacts CtrFacts ModeSpecFacts ModeLemmas ModeProps MacFacts MacFacts2 MacLemmas MacProps.
From Verif Require Import SpecTrace SpecTrace2 SpecTrace3 SpecTraceModes Trace TraceLemmas TraceFacts TraceCipher TraceCipherFacts TraceCipher2 TraceCipher2Facts PropTrace2 PropTrace3 TraceHashErase TraceHashFlow TracePbkdfFacts TraceRandomFacts TraceModes TraceModesErase TraceModesFlow TraceModesUse PropTrace6 TraceMac TraceMacErase TraceMacFlow SpecTraceMac TraceMacInit.
Open Scope string_scope.
Open Scope list_scope.
Open Scope Z_scope.

(** ** The steps belong to the code that computes the values *)
Theorem C150_results : forall a key d m n,
  snd (t_mac_init a key d) = liftO (mac_init (alg a) (VBytes key) (VBytes d)) /\ snd (t_mac_update d m) = liftO (ends (mac_update (VBytes d)) m) /\
  (n <= mac_block_size m -> snd (t_mac_digest n m) = liftO (fst (mac_digest n m))).
Proof. intros a key d m n. split; [apply erase_mac_init|]. split; [apply erase_mac_update | apply erase_mac_digest]. Qed.
Print Assumptions C150_results.

(** ** Objects in use: made by [new], and any updates and digests afterwards; [msg] is what was accepted. *)
Definition mac_in_use (a : balg) (key msg : bytes) (m : mac_obj) : Prop :=
  bytes_len 32 key /\ exists d0 m0 cs, bytes_ok d0 /\ mac_object a key d0 m0 /\ Forall plain_call cs /\ msg = d0 ++ accepted cs (fst (mrun cs m0)) /\ m = snd (mrun cs m0).

Lemma run_cipher a key cs : Forall plain_call cs -> forall msg m, tracks a key msg m -> m_cipher (snd (mrun cs m)) = m_cipher m.
Proof.
  induction 1 as [|c cs Hc HF IH]; intros msg m HT; [reflexivity|]. cbn [mrun]. destruct (mstep c m) as [r m1] eqn:Es. destruct (mrun cs m1) as [rs m2] eqn:Er. cbn [snd]. destruct c as [d|s| |]; cbn [plain_call] in Hc; try contradiction.
  - destruct d as [d| | |]; try contradiction. pose proof (tracks_update a key msg m d HT Hc) as HU. cbn [mstep] in Es. destruct (_ <? _).
    + rewrite HU in Es. injection Es as <- <-. specialize (IH msg m HT). now rewrite Er in IH.
    + destruct HU as (m' & HU & HT' & EC). rewrite HU in Es. injection Es as <- <-. specialize (IH _ _ HT'). rewrite Er in IH. cbn [snd] in IH. congruence.
  - cbn [mstep] in Es. assert (m1 = m) as -> by (pose proof (digest_same s m) as Hd; now rewrite Es in Hd). specialize (IH _ _ HT). now rewrite Er in IH.
Qed.
Lemma object_base a key d m : bytes_len 32 key -> bytes_ok d -> mac_object a key d m -> base_init (alg a) (VBytes key) = Ok (m_cipher m).
Proof.
  intros Hk Hd (kw & Hkw & Hn). rewrite new_mac_eq, Hkw in Hn. destruct (mac_init_empty a key Hk) as (m0 & E1 & HT & E2). destruct (base_init_ok a key Hk) as (c & Hb & _).
  assert (EC : m_cipher m0 = c). { unfold mac_init in E1. rewrite Hb in E1. cbn [bind] in E1. destruct (co_encrypt c _) as [r|e]; [|discriminate E1]. cbn [bind] in E1. destruct (_get_mac_key _ r) as [[k1 k2]|e]; [|discriminate E1]. cbn [bind] in E1. injection E1 as <-. reflexivity. }
  rewrite Hb. f_equal. destruct d as [|x d].
  - rewrite E1 in Hn. cbn [bind] in Hn. injection Hn as <-. now symmetry.
  - rewrite E2 in Hn by discriminate. pose proof (tracks_update a key [] m0 (x :: d) HT Hd) as HU. destruct (_ <? _); [rewrite HU in Hn; discriminate Hn|]. destruct HU as (m' & HU & _ & EM). rewrite HU in Hn. cbn [bind] in Hn. injection Hn as <-. congruence.
Qed.
Record in_state (a : balg) (key msg : bytes) (m : mac_obj) (bl : list bytes) (t : bytes) : Prop := {
  is_base : base_init (alg a) (VBytes key) = Ok (m_cipher m); is_cm : cm (m_cipher m); is_alg : co_alg (m_cipher m) = a; is_msg : msg = concat bl ++ t; is_mst : mst m bl t; is_t : len t = len msg mod Z.of_nat (bsize a); is_bs : bs (m_cipher m) = Z.of_nat (bsize a) }.
Lemma use_state a key msg m : mac_in_use a key msg m -> exists bl t, in_state a key msg m bl t.
Proof.
  intros (Hk & d0 & m0 & cs & Hd & Ho & HF & -> & ->). pose proof (kw_data_of a key d0 m0 Ho Hk Hd) as HT0. pose proof (tracks_run a key cs HF d0 m0 HT0) as HT. pose proof (run_cipher a key cs HF d0 m0 HT0) as EC. pose proof (object_base a key d0 m0 Hk Hd Ho) as EB. rewrite <- EC in EB.
  destruct (base_cm a key _ Hk EB) as [M A]. destruct HT as [Hm K1 K2 (bl & t & Hmsg & H & Hf)]. pose proof (made_nbs _ _ _ Hm) as EN. pose proof (tracks_len a key _ _ bl t Hm Hmsg H) as EL. exists bl, t. split; [exact EB | exact M | exact A | exact Hmsg | | now symmetry | exact (made_bs _ _ _ Hm)].
  split; [exact M | exact H | exact Hf | rewrite K1, <- EN; apply be_bytes_block | rewrite K2, <- EN; apply be_bytes_block].
Qed.
Lemma state_empty a key msg m bl t : in_state a key msg m bl t -> bl = [] <-> len msg = 0.
Proof.
  intros S. pose proof (mst_core _ _ _ (is_mst _ _ _ _ _ _ S)) as C. rewrite (is_msg _ _ _ _ _ _ S). split.
  - intros ->. rewrite (core_ne _ _ _ C eq_refl). reflexivity.
  - intros E. destruct bl as [|b bl]; [reflexivity|]. exfalso. cbn [concat] in E. rewrite !len_app in E. pose proof (core_bl _ _ _ C) as HB. apply Forall_cons_iff in HB as [[HB _] _]. pose proof (bs_pos (m_cipher m)). pose proof (len_nonneg (concat bl)). pose proof (len_nonneg t). lia.
Qed.

(** C150: the functions entered, the branches and the places read by [update] and [digest] depend on the algorithm and on lengths only (the indices into the tables of substitution apart). *)
Theorem C150_flow : forall a key key' msg msg' m m' d d' n, mac_in_use a key msg m -> mac_in_use a key' msg' m' -> len msg = len msg' ->
  (bytes_ok d -> bytes_ok d' -> len d = len d' -> Z.of_nat (bsize a) <= len msg mod Z.of_nat (bsize a) + len d -> map shape (fst (t_mac_update d m)) = map shape (fst (t_mac_update d' m'))) /\
  map shape (fst (t_mac_digest n m)) = map shape (fst (t_mac_digest n m')).
Proof.
  intros a key key' msg msg' m m' d d' n H H' EL. destruct (use_state _ _ _ _ H) as (bl & t & S). destruct (use_state _ _ _ _ H') as (bl' & t' & S').
  assert (EA : co_alg (m_cipher m) = co_alg (m_cipher m')) by (rewrite (is_alg _ _ _ _ _ _ S), (is_alg _ _ _ _ _ _ S'); reflexivity). assert (ET : len t = len t') by (rewrite (is_t _ _ _ _ _ _ S), (is_t _ _ _ _ _ _ S'), EL; reflexivity).
  assert (EN : bl = [] <-> bl' = []) by (rewrite (state_empty _ _ _ _ _ _ S), (state_empty _ _ _ _ _ _ S'), EL; reflexivity). split.
  - intros Hd Hd' LD HL. refine (proj1 (flow_update m m' bl bl' t t' (is_mst _ _ _ _ _ _ S) (is_mst _ _ _ _ _ _ S') EA ET d d' _ _)); [split; [unfold len in LD; lia | split; assumption]|]. rewrite (is_bs _ _ _ _ _ _ S), (is_t _ _ _ _ _ _ S). exact HL.
  - exact (proj1 (flow_digest m m' bl bl' t t' (is_mst _ _ _ _ _ _ S) (is_mst _ _ _ _ _ _ S') EA ET EN n)).
Qed.
Print Assumptions C150_flow.

Lemma bits_spec a key c : bytes_len 32 key -> base_init (alg a) (VBytes key) = Ok c -> bits_of c = high_bits (spec_E a key) (bsize a).
Proof.
  intros Hk EB. destruct (base_init_ok a key Hk) as (c' & EB' & Hm). assert (c' = c) by congruence. subst c'. unfold bits_of, high_bits. rewrite <- (made_bs _ _ _ Hm), <- (made_nbs _ _ _ Hm). change (MacFacts.zero_block c) with (repeat 0 (nbs c)). destruct Hm as (_ & _ & Hag). rewrite (proj1 (Hag (repeat 0 (nbs c)) (MacFacts.zero_block_ok c))). reflexivity.
Qed.
(** Making an object branches on two bits that depend on the key: the two highest bits of the encryption of the zero block. *)
Theorem C150_bits : forall a key d, bytes_len 32 key ->
  decisions 955 (fst (t_mac_init a key d)) = [negb (fst (high_bits (spec_E a key) (bsize a)))] /\ decisions 961 (fst (t_mac_init a key d)) = [negb (snd (high_bits (spec_E a key) (bsize a)))].
Proof.
  intros a key d Hk. destruct (base_init_ok a key Hk) as (c & EB & _). destruct (base_cm a key c Hk EB) as [M _]. rewrite <- (bits_spec a key c Hk EB). split; [exact (test_init 955 (or_introl eq_refl) a key d c EB M) | exact (test_init 961 (or_intror eq_refl) a key d c EB M)].
Qed.
Print Assumptions C150_bits.
(** ... and on nothing else that depends on the key. *)
Theorem C150_new : forall a key key' d d', bytes_len 32 key -> bytes_len 32 key' -> high_bits (spec_E a key) (bsize a) = high_bits (spec_E a key') (bsize a) -> bytes_ok d -> bytes_ok d' -> len d = len d' -> d = [] \/ Z.of_nat (bsize a) <= len d ->
  map shape (fst (t_mac_init a key d)) = map shape (fst (t_mac_init a key' d')).
Proof.
  intros a key key' d d' Hk Hk' EH Hd Hd' EL HL. destruct (base_init_ok a key Hk) as (c & EB & Hm). destruct (base_init_ok a key' Hk') as (c' & EB' & _). refine (flow_init a key key' c c' d d' Hk Hk' EB EB' _ _ _).
  - rewrite (bits_spec a key c Hk EB), (bits_spec a key' c' Hk' EB'). exact EH.
  - split; [unfold len in EL; lia | split; assumption].
  - rewrite (made_bs _ _ _ Hm). destruct HL as [->|HL]; [left; reflexivity | right; exact HL].
Qed.
Print Assumptions C150_new.
(** The claim that the steps of making an object with Magma, apart from the indices, do not depend on the key.  Refuted. *)
Definition mac_new_hides_key : Prop := forall key key', bytes_len 32 key -> bytes_len 32 key' -> map shape (fst (t_mac_init Mag key [])) = map shape (fst (t_mac_init Mag key' [])).
Lemma decisions_shape line l : decisions line (map shape l) = decisions line l.
Proof. induction l as [|e l IH]; [reflexivity|]. unfold decisions in *. cbn [map flat_map]. rewrite IH. f_equal. destruct e as [g n|g n b|g n o i]; cbn [shape]; try reflexivity. destruct g; destruct (o =? 1); reflexivity. Qed.
Lemma key_of x : byte_ok x -> bytes_len 32 (repeat x 32).
Proof. intros H. split; [unfold len; rewrite repeat_length; reflexivity | now apply forall_repeat]. Qed.
Example C150_two_keys : high_bits (spec_E Mag (repeat 2 32)) (bsize Mag) = (false, false) /\ high_bits (spec_E Mag (repeat 6 32)) (bsize Mag) = (true, true).
Proof. split; vm_compute; reflexivity. Qed.
Theorem C150_new_refuted : ~ mac_new_hides_key.
Proof.
  intros H. assert (H2 : bytes_len 32 (repeat 2 32)) by (apply key_of; unfold byte_ok; lia). assert (H6 : bytes_len 32 (repeat 6 32)) by (apply key_of; unfold byte_ok; lia). specialize (H _ _ H2 H6). destruct (C150_bits Mag _ [] H2) as [D _]. destruct (C150_bits Mag _ [] H6) as [D' _].
  rewrite (proj1 C150_two_keys) in D. rewrite (proj2 C150_two_keys) in D'. rewrite <- decisions_shape, H, decisions_shape, D' in D. discriminate D.
Qed.
Print Assumptions C150_new_refuted.

(** ** How often the block cipher is called *)
Theorem C150_work : forall a key msg m d n, bytes_len 32 key -> bytes_ok d ->
  (d = [] \/ Z.of_nat (bsize a) <= len d -> Z.of_nat (operations (fst (t_mac_init a key d))) = 1 + len d / Z.of_nat (bsize a)) /\
  (mac_in_use a key msg m -> Z.of_nat (bsize a) <= len msg mod Z.of_nat (bsize a) + len d -> Z.of_nat (operations (fst (t_mac_update d m))) = (len msg + len d) / Z.of_nat (bsize a) - len msg / Z.of_nat (bsize a)) /\
  (mac_in_use a key msg m -> operations (fst (t_mac_digest n m)) = 1%nat).
Proof.
  intros a key msg m d n Hk Hd. assert (HN : 0 < Z.of_nat (bsize a)) by (destruct a; reflexivity). split; [|split].
  - intros HL. destruct (base_init_ok a key Hk) as (c & EB & Hm). destruct (base_cm a key c Hk EB) as [M _]. rewrite <- (made_bs _ _ _ Hm) in *. rewrite (init_ops a key d c EB M Hd); [|destruct HL as [->|HL]; [left; reflexivity | right; exact HL]]. pose proof (Z.div_pos (len d) (bs c) (len_nonneg d) HN). lia.
  - intros H HL. destruct (use_state _ _ _ _ H) as (bl & t & S). rewrite <- (is_bs _ _ _ _ _ _ S) in *. assert (HL' : bs (m_cipher m) <= len t + len d) by (rewrite (is_t _ _ _ _ _ _ S), <- (is_bs _ _ _ _ _ _ S); exact HL).
    rewrite (uses_ops _ _ _ _ _ (fun b => one_encrypt _ b (is_cm _ _ _ _ _ _ S)) (use_update op_of op_of_cipher m bl t (is_mst _ _ _ _ _ _ S) d Hd HL')). rewrite (is_t _ _ _ _ _ _ S), <- (is_bs _ _ _ _ _ _ S). pose proof (Z.mod_pos_bound (len msg) _ HN). pose proof (len_nonneg d). rewrite Z2Nat.id by (apply Z.div_pos; lia).
    pose proof (Z.div_mod (len msg) (bs (m_cipher m)) ltac:(lia)) as HD. rewrite HD at 2. replace (bs (m_cipher m) * (len msg / bs (m_cipher m)) + len msg mod bs (m_cipher m) + len d) with (len msg mod bs (m_cipher m) + len d + (len msg / bs (m_cipher m)) * bs (m_cipher m)) by lia. rewrite Z.div_add by lia. lia.
  - intros H. destruct (use_state _ _ _ _ H) as (bl & t & S). exact (uses_ops _ _ _ _ _ (fun b => one_encrypt _ b (is_cm _ _ _ _ _ _ S)) (use_digest op_of op_of_cipher m bl t (is_mst _ _ _ _ _ _ S) n)).
Qed.
Print Assumptions C150_work.

(** ** With Kuznechik the indices of the table give the key away *)
Lemma state_key key msg m bl t {A} n Q (s : T A) : in_state Kuz key msg m bl t -> bytes_len 32 key -> (0 < n)%nat -> uses at_460 (m_cipher m) (t_co_encrypt (m_cipher m)) n Q s -> fst (kuz_enc_recover (fst s)) = key.
Proof.
  intros S Hk Hn HU. destruct (uses_first _ _ _ _ _ _ Hn HU) as (b & r & Hb & E). rewrite (enc_recover_app (fst s) (fst (t_co_encrypt (m_cipher m) b)) r E) by (rewrite (rows_encrypt _ b (is_cm _ _ _ _ _ _ S) (is_alg _ _ _ _ _ _ S) Hb); lia).
  destruct (base_keys _ _ _ (is_base _ _ _ _ _ _ S)) as (ks & Ec & Ek). rewrite Ec in *. rewrite (C128_encrypt key ks b Hk Ek Hb : kuz_enc_recover (fst (t_co_encrypt (KuzObj ks) b)) = (key, b)). reflexivity.
Qed.
Theorem C150_key : forall key msg m d n, bytes_len 32 key ->
  kuz_new_recover (fst (t_mac_init Kuz key d)) = key /\
  (mac_in_use Kuz key msg m -> bytes_ok d -> 16 <= len msg mod 16 + len d -> fst (kuz_enc_recover (fst (t_mac_update d m))) = key) /\
  (mac_in_use Kuz key msg m -> fst (kuz_enc_recover (fst (t_mac_digest n m))) = key).
Proof.
  intros key msg m d n Hk. split; [now apply init_recover|]. split.
  - intros H Hd HL. destruct (use_state _ _ _ _ H) as (bl & t & S). assert (HL' : bs (m_cipher m) <= len t + len d) by (rewrite (is_t _ _ _ _ _ _ S), (is_bs _ _ _ _ _ _ S); exact HL). refine (state_key key msg m bl t _ _ _ S Hk _ (use_update at_460 idx_only m bl t (is_mst _ _ _ _ _ _ S) d Hd HL')).
    pose proof (bs_pos (m_cipher m)) as HP. pose proof (Z.div_le_mono _ _ (bs (m_cipher m)) HP HL') as HQ. rewrite Z.div_same in HQ by lia. lia.
  - intros H. destruct (use_state _ _ _ _ H) as (bl & t & S). refine (state_key key msg m bl t _ _ _ S Hk _ (use_digest at_460 idx_only m bl t (is_mst _ _ _ _ _ _ S) n)). lia.
Qed.
Print Assumptions C150_key.

(** An object with a message of twenty octets accepted in one call of [update], then thirty more, which complete two blocks. *)
Example C150_example : exists m, mac_in_use Kuz (repeat 7 32) (repeat 65 20) m /\ operations (fst (t_mac_update (repeat 66 30) m)) = 2%nat /\ fst (kuz_enc_recover (fst (t_mac_digest 8 m))) = repeat 7 32.
Proof.
  assert (H7 : bytes_len 32 (repeat 7 32)) by (apply key_of; unfold byte_ok; lia). assert (Hd : bytes_ok (repeat 65 20)) by (apply forall_repeat; unfold byte_ok; lia). assert (Hd' : bytes_ok (repeat 66 30)) by (apply forall_repeat; unfold byte_ok; lia).
  pose proof (new_mac_cases Kuz (repeat 7 32) {| kw_init_vect := None; kw_data := Some (VBytes (repeat 65 20)); kw_pad_mode := None |} (repeat 65 20) H7 eq_refl Hd) as HN. destruct (_ && _) eqn:EB; [discriminate EB|]. destruct HN as (m & HN & _). exists m.
  assert (HU : mac_in_use Kuz (repeat 7 32) (repeat 65 20) m). { split; [exact H7|]. exists (repeat 65 20), m, []. split; [exact Hd|]. split; [eexists; split; [|exact HN]; reflexivity|]. split; [constructor|]. split; [symmetry; apply app_nil_r | reflexivity]. }
  split; [exact HU|]. split; [|exact (proj2 (proj2 (C150_key _ _ m [] 8 H7)) HU)]. apply Nat2Z.inj. rewrite (proj1 (proj2 (C150_work Kuz _ _ m _ 0 H7 Hd')) HU) by (vm_compute; discriminate). reflexivity.
Qed.
