(** * Properties of the sequence of steps of the block ciphers: C117, C118 *)
From Coq Require Import ZArith Lia.
From Verif Require Import PyBase PyFacts PyLoop Utils UtilsFacts CipherTables SpecKuznechik SpecMagma SpecModes SpecSign Kuznechik Magma KuzFacts KuzFacts2 MagmaFacts CipherLemmas SigProps SigFinal SpecTrace SpecTrace2 Trace TraceLemmas TraceFacts TraceCipher TraceCipherFacts.
Open Scope list_scope.
Open Scope Z_scope.

Lemma flat_single (l : list event) : flat_map (fun e => [shape e]) l = map shape l.
Proof. induction l as [|e l IH]; [reflexivity|]. cbn [flat_map map app]. rewrite IH. reflexivity. Qed.
Lemma shape_blind : blind (fun e => [shape e]).
Proof. intros line i j. reflexivity. Qed.
Lemma blind_460 {X} (f : event -> list X) : blind f -> blind_but_460 f.
Proof. intros H line i j _. apply H. Qed.

(** ** Kuznechik *)
Lemma s_emits_blind {X} (f : event -> list X) d d' : blind f -> s_emits f d = s_emits f d'.
Proof. intros HB. unfold s_emits. f_equal. f_equal. f_equal. apply map_ext. intros i. rewrite (HB 460 (nth (Z.to_nat i) d 0) (nth (Z.to_nat i) d' 0)). reflexivity. Qed.
Lemma rounds_emits_blind {X} (f : event -> list X) : blind f -> forall ks ks' i d d', length ks = length ks' -> rounds_emits f ks i d = rounds_emits f ks' i d'.
Proof.
  intros HB. induction ks as [|k ks IH]; intros [|k' ks'] i d d' L; try discriminate L; [reflexivity|]. cbn [rounds_emits]. unfold round_emits. rewrite (s_emits_blind f (kX k d) (kX k' d') HB). injection L as L. erewrite IH by exact L. reflexivity.
Qed.
Lemma kuz_list key ks : bytes_len 32 key -> kuz_new key = Ok ks -> Forall (bytes_len 16) ks /\ exists ks' k9, ks = (firstn 16 key :: skipn 16 key :: ks') ++ [k9] /\ length ks' = 7%nat.
Proof.
  intros Hk E. destruct (kuz_new_keys key ks Hk E) as (_ & HF & ->). split; [exact HF|]. unfold round_keys. rewrite round_keys_unfold. cbn [fst snd].
  match goal with |- exists _ _, (?a :: ?b :: ?c :: ?d :: ?e :: ?g :: ?h :: ?i :: ?j :: [?k]) = _ /\ _ => exists [c; d; e; g; h; i; j], k; split; reflexivity end.
Qed.
(** C117: which statements are executed depends neither on the key nor on the block ... *)
Theorem C117_flow : forall key key' ks ks' b b', bytes_len 32 key -> bytes_len 32 key' -> kuz_new key = Ok ks -> kuz_new key' = Ok ks' -> bytes_len 16 b -> bytes_len 16 b' ->
  map shape (fst (t_kuz_encrypt ks b)) = map shape (fst (t_kuz_encrypt ks' b')).
Proof.
  intros key key' ks ks' b b' Hk Hk' E E' Hb Hb'. rewrite <- !flat_single. destruct (kuz_list key ks Hk E) as (HF & l & k9 & EL & L). destruct (kuz_list key' ks' Hk' E') as (HF' & l' & k9' & EL' & L').
  destruct (emits_kuz _ (blind_460 _ shape_blind) ks _ k9 b EL ltac:(cbn [length]; lia) HF Hb) as [-> _]. destruct (emits_kuz _ (blind_460 _ shape_blind) ks' _ k9' b' EL' ltac:(cbn [length]; lia) HF' Hb') as [-> _].
  f_equal. f_equal. apply rounds_emits_blind; [apply shape_blind|]. cbn [length]. lia.
Qed.
Print Assumptions C117_flow.
Theorem C117_results : forall ks b, snd (t_kuz_encrypt ks b) = liftO (kuz_encrypt ks b).
Proof. exact erase_kuz_encrypt. Qed.
Print Assumptions C117_results.
(** ... but the positions at which the table is read do: with the block known, they give the key. *)
Definition at_460 (e : event) : list Z := match e with Read FCipher line operand i => if (line =? 460) && (operand =? 1) then [i] else [] | _ => [] end.
Lemma at_460_blind : blind_but_460 at_460.
Proof. intros line i j N. cbn. destruct (Z.eqb_spec line 460); [contradiction|reflexivity]. Qed.
Lemma nth_range d n : length d = n -> map (fun i => nth i d 0) (seq 0 n) = d.
Proof. intros <-. induction d as [|x d IH]; [reflexivity|]. cbn [length seq map nth]. f_equal. rewrite <- seq_shift, map_map. exact IH. Qed.
Lemma s_emits_460 d : bytes_len 16 d -> s_emits at_460 d = d.
Proof.
  intros [L _]. rewrite <- (nth_range d 16) at 2 by (unfold len in L; lia). reflexivity.
Qed.
Lemma x_emits_460 : x_emits at_460 = [].
Proof. reflexivity. Qed.
Lemma l_emits_460 : l_emits at_460 = [].
Proof. reflexivity. Qed.
Lemma round_emits_460 i d : bytes_len 16 d -> round_emits at_460 i d = d.
Proof. intros Hd. unfold round_emits. rewrite x_emits_460, l_emits_460, s_emits_460, app_nil_r by exact Hd. reflexivity. Qed.
Lemma first_16 a (l : list Z) : bytes_len 16 a -> firstn 16 (a ++ l) = a /\ skipn 16 (a ++ l) = l.
Proof. intros [L _]. assert (E : length a = 16%nat) by (unfold len in L; lia). rewrite <- E. rewrite firstn_app, firstn_all, Nat.sub_diag, firstn_O, app_nil_r, skipn_app, skipn_all, Nat.sub_diag. split; reflexivity. Qed.
Lemma kX_undo k d : bytes_len 16 k -> bytes_len 16 d -> kX (kX k d) d = k.
Proof.
  intros [L _] [L' _]. assert (E : length k = length d) by (unfold len in *; lia). clear L L'. unfold kX. revert d E. induction k as [|x k IH]; intros [|y d] E; try discriminate E; [reflexivity|].
  cbn [combine map fst snd]. rewrite Z.lxor_assoc, Z.lxor_nilpotent, Z.lxor_0_r. f_equal. apply IH. injection E as E. exact E.
Qed.
Theorem C117_recover : forall key ks b, bytes_len 32 key -> kuz_new key = Ok ks -> bytes_len 16 b -> kuz_recover b (fst (t_kuz_encrypt ks b)) = key.
Proof.
  intros key ks b Hk E Hb. destruct (kuz_list key ks Hk E) as (HF & l & k9 & EL & L). destruct (emits_kuz _ at_460_blind ks _ k9 b EL ltac:(cbn [length]; lia) HF Hb) as [EE _].
  assert (H0 : bytes_len 16 (firstn 16 key)) by (rewrite EL in HF; inversion HF; assumption). assert (H1 : bytes_len 16 (skipn 16 key)) by (rewrite EL in HF; inversion HF as [|? ? ? HF']; inversion HF'; assumption).
  pose proof (kX_block _ _ H0 Hb) as HX. set (x := kX (firstn 16 key) b) in *. pose proof (kL_block _ (kS_block _ HX)) as HD. pose proof (kX_block _ _ H1 HD) as HY. set (y := kX (skipn 16 key) (kL (kS x))) in *.
  unfold kuz_recover, kuz_indices. change (fun e => _) with at_460. rewrite EE. cbn [rounds_emits]. change (at_460 (Enter _ _)) with (@nil Z). change (at_460 (Test _ _ _)) with (@nil Z). cbn [app].
  fold x. fold y. rewrite !round_emits_460 by assumption. rewrite <- !app_assoc. destruct (first_16 x (y ++ rounds_emits at_460 l 2 (kL (kS y)) ++ at_460 (Read FCipher 567 3 9) ++ x_emits at_460) HX) as [-> ->].
  destruct (first_16 y (rounds_emits at_460 l 2 (kL (kS y)) ++ at_460 (Read FCipher 567 3 9) ++ x_emits at_460) HY) as [-> _]. cbv zeta. unfold x at 1. unfold y. rewrite !kX_undo by assumption. apply firstn_skipn.
Qed.
Print Assumptions C117_recover.
(** The claim: for a given block, the steps of [encrypt] do not depend on the key. *)
Definition kuz_steps_hide_key : Prop := forall key key' ks ks' b, bytes_len 32 key -> bytes_len 32 key' -> kuz_new key = Ok ks -> kuz_new key' = Ok ks' -> bytes_len 16 b -> fst (t_kuz_encrypt ks b) = fst (t_kuz_encrypt ks' b).
Lemma zeros32 : bytes_len 32 (repeat 0 32).
Proof. apply (zeros_block 32). lia. Qed.
Lemma ones32 : bytes_len 32 (repeat 1 32).
Proof. split; [reflexivity|]. apply Forall_forall. intros x Hx. apply repeat_spec in Hx. subst. unfold byte_ok. lia. Qed.
Theorem C117_hidden_refuted : ~ kuz_steps_hide_key.
Proof.
  intros H. pose proof (H _ _ _ _ (repeat 0 16) zeros32 ones32 (kuz_new_ok _ zeros32) (kuz_new_ok _ ones32) (zeros_block 16 ltac:(lia))) as F.
  pose proof (C117_recover _ _ (repeat 0 16) zeros32 (kuz_new_ok _ zeros32) (zeros_block 16 ltac:(lia))) as R. pose proof (C117_recover _ _ (repeat 0 16) ones32 (kuz_new_ok _ ones32) (zeros_block 16 ltac:(lia))) as R'.
  rewrite F, R' in R. discriminate R.
Qed.
Print Assumptions C117_hidden_refuted.
(** RFC 7801 A.1: the key and the block. *)
Definition rfc7801_key : bytes := [0x88;0x99;0xaa;0xbb;0xcc;0xdd;0xee;0xff;0x00;0x11;0x22;0x33;0x44;0x55;0x66;0x77;0xfe;0xdc;0xba;0x98;0x76;0x54;0x32;0x10;0x01;0x23;0x45;0x67;0x89;0xab;0xcd;0xef].
Definition rfc7801_block : bytes := [0x11;0x22;0x33;0x44;0x55;0x66;0x77;0x00;0xff;0xee;0xdd;0xcc;0xbb;0xaa;0x99;0x88].
Definition kuz_demo (r : res (list bytes)) (b : bytes) : nat * bytes :=
  match r with Ok ks => let st := fst (t_kuz_encrypt ks b) in (length (kuz_indices st), kuz_recover b st) | Err _ => (0%nat, []) end.
Example C117_example : bytes_len 32 rfc7801_key /\ bytes_len 16 rfc7801_block /\ kuz_demo (kuz_new rfc7801_key) rfc7801_block = (144%nat, rfc7801_key).
Proof.
  split; [|split; [|vm_compute; reflexivity]]; (split; [reflexivity|]); unfold rfc7801_key, rfc7801_block; repeat (constructor; [unfold byte_ok; lia|]); constructor.
Qed.

(** ** Magma *)
Lemma t_emits_blind {X} (f : event -> list X) d d' : blind f -> t_emits f d = t_emits f d'.
Proof.
  intros HB. unfold t_emits. f_equal. f_equal. f_equal. apply map_ext. intros i. rewrite (HB 649 (nth (Z.to_nat i) d 0 mod 16) (nth (Z.to_nat i) d' 0 mod 16)), (HB 650 (nth (Z.to_nat i) d 0 / 16) (nth (Z.to_nat i) d' 0 / 16)). reflexivity.
Qed.
Lemma mround_emits_blind {X} (f : event -> list X) e v v' : blind f -> mround_emits f e v = mround_emits f e v'.
Proof. intros HB. unfold mround_emits, g_emits. rewrite (t_emits_blind f (int_to_bytearray v 4) (int_to_bytearray v' 4) HB). reflexivity. Qed.
Lemma mrounds_emits_blind {X} (f : event -> list X) : blind f -> forall ks ks' i p p', length ks = length ks' -> mrounds_emits f ks i p = mrounds_emits f ks' i p'.
Proof.
  intros HB. induction ks as [|k ks IH]; intros [|k' ks'] i p p' L; try discriminate L; [reflexivity|]. cbn [mrounds_emits]. rewrite (mround_emits_blind f 704 ((snd p + k) mod 2 ^ 32) ((snd p' + k') mod 2 ^ 32) HB). injection L as L. erewrite IH by exact L. reflexivity.
Qed.
Lemma kword_len key n : bytes_len 32 key -> (n <= 28)%nat -> bytes_len 4 (kword key n).
Proof. intros Hk Hn. split; [|apply (kword_wide key n Hk Hn)]. destruct Hk as [L _]. unfold kword, len in *. rewrite firstn_length, skipn_length. lia. Qed.
Lemma kwords_len key : bytes_len 32 key -> Forall (bytes_len 4) (kwords key).
Proof. intros Hk. apply Forall_map, Forall_forall. intros j Hj. apply in_seq in Hj. apply kword_len; [exact Hk | lia]. Qed.
Lemma magma_list key ks : bytes_len 32 key -> magma_new key = Ok ks -> Forall (bytes_len 4) ks /\
  exists k1 k2 k3 k4 k5 k6 k7 k8 l k32, kwords key = [k1; k2; k3; k4; k5; k6; k7; k8] /\ ks = k1 :: ([k2; k3; k4; k5; k6; k7; k8] ++ l) ++ [k32] /\ length l = 23%nat.
Proof.
  intros Hk E. rewrite magma_new_ok in E by exact Hk. injection E as <-. pose proof (kwords_len key Hk) as HF. split; [unfold magma_key_list; rewrite !Forall_app; repeat (split; [exact HF|]); apply Forall_rev, HF|].
  unfold magma_key_list. assert (L : length (kwords key) = 8%nat) by reflexivity. destruct (kwords key) as [|k1 [|k2 [|k3 [|k4 [|k5 [|k6 [|k7 [|k8 [|? ?]]]]]]]]]; try discriminate L.
  exists k1, k2, k3, k4, k5, k6, k7, k8, ([k1; k2; k3; k4; k5; k6; k7; k8] ++ [k1; k2; k3; k4; k5; k6; k7; k8] ++ [k8; k7; k6; k5; k4; k3; k2]), k1. repeat match goal with |- _ /\ _ => split end; reflexivity.
Qed.
(** C118: which statements are executed depends neither on the key nor on the block ... *)
Theorem C118_flow : forall key key' ks ks' b b', bytes_len 32 key -> bytes_len 32 key' -> magma_new key = Ok ks -> magma_new key' = Ok ks' -> bytes_len 8 b -> bytes_len 8 b' ->
  map shape (fst (t_magma_encrypt ks b)) = map shape (fst (t_magma_encrypt ks' b')).
Proof.
  intros key key' ks ks' b b' Hk Hk' E E' Hb Hb'. rewrite <- !flat_single. destruct (magma_list key ks Hk E) as (HF & k1 & k2 & k3 & k4 & k5 & k6 & k7 & k8 & l & k32 & _ & EL & L). destruct (magma_list key' ks' Hk' E') as (HF' & j1 & j2 & j3 & j4 & j5 & j6 & j7 & j8 & l' & j32 & _ & EL' & L').
  destruct (emits_magma (fun e => [shape e]) ks _ _ _ b EL ltac:(cbn [length app]; lia) HF Hb) as (v & -> & _). destruct (emits_magma (fun e => [shape e]) ks' _ _ _ b' EL' ltac:(cbn [length app]; lia) HF' Hb') as (v' & -> & _).
  f_equal. f_equal. rewrite (mround_emits_blind _ 704 ((snd (mpair b) + wint k1) mod 2 ^ 32) ((snd (mpair b') + wint j1) mod 2 ^ 32) shape_blind), (mround_emits_blind _ 711 v v' shape_blind). f_equal. f_equal. apply mrounds_emits_blind; [apply shape_blind|]. rewrite !map_length. cbn [app length]. lia.
Qed.
Print Assumptions C118_flow.
Theorem C118_results : forall ks b, snd (t_magma_encrypt ks b) = liftO (magma_encrypt ks b).
Proof. exact erase_magma_encrypt. Qed.
Print Assumptions C118_results.
Definition at_649 (e : event) : list Z := match e with Read FCipher line operand i => if ((line =? 649) || (line =? 650)) && (operand =? 1) then [i] else [] | _ => [] end.
Lemma t_emits_649 d0 d1 d2 d3 : t_emits at_649 [d0; d1; d2; d3] = [d0 mod 16; d0 / 16; d1 mod 16; d1 / 16; d2 mod 16; d2 / 16; d3 mod 16; d3 / 16].
Proof. reflexivity. Qed.
Lemma mround_emits_649 e v : mround_emits at_649 e v = t_emits at_649 (int_to_bytearray v 4).
Proof. unfold mround_emits, g_emits. change (add_emits at_649) with (@nil Z). change (x4_emits at_649) with (@nil Z). cbn [at_649 Z.eqb Pos.eqb orb andb app]. rewrite !app_nil_r. reflexivity. Qed.
Lemma horner l : bytearray_to_int l = fold_left (fun a b => a * 256 + b) l 0.
Proof. induction l as [|x l IH] using rev_ind; [reflexivity|]. rewrite bytearray_to_int_app, fold_left_app, IH. cbn [fold_left]. change (256 ^ len [x]) with 256. reflexivity. Qed.
Lemma word_of_emits v : word_ok v -> length (mround_emits at_649 704 v) = 8%nat /\ word_of 0 (mround_emits at_649 704 v) = v.
Proof.
  intros Hv. rewrite mround_emits_649. pose proof (to_int_of_int_small v 4 ltac:(lia)) as E. change (256 ^ 4) with (2 ^ 32) in E. specialize (E Hv). destruct (word4 v) as [L HB]. destruct (int_to_bytearray v 4) as [|d0 [|d1 [|d2 [|d3 [|? ?]]]]]; try (unfold len in L; cbn in L; lia).
  rewrite t_emits_649. split; [reflexivity|]. rewrite <- E. cbn [word_of]. rewrite horner. cbn [fold_left].
  pose proof (Z.div_mod d0 16 ltac:(lia)). pose proof (Z.div_mod d1 16 ltac:(lia)). pose proof (Z.div_mod d2 16 ltac:(lia)). pose proof (Z.div_mod d3 16 ltac:(lia)).
  lia.
Qed.
Lemma word_undo k (p : Z * Z) : word_ok k -> ((snd p + k) mod 2 ^ 32 - snd p) mod 2 ^ 32 = k.
Proof. intros Hk. rewrite Zminus_mod_idemp_l. replace (snd p + k - snd p) with k by ring. apply Z.mod_small. exact Hk. Qed.
Lemma words_step n k p l : word_ok k -> magma_words (S n) (mround_emits at_649 704 ((snd p + k) mod 2 ^ 32) ++ l) p = k :: magma_words n l (mG k p).
Proof.
  intros Hk. destruct (word_of_emits ((snd p + k) mod 2 ^ 32)) as [L E]; [apply Z.mod_pos_bound; lia|]. set (x := mround_emits _ _ _) in *. cbn [magma_words]. rewrite <- L. rewrite firstn_app, firstn_all, Nat.sub_diag, firstn_O, app_nil_r, skipn_app, skipn_all, Nat.sub_diag, E, word_undo by exact Hk. reflexivity.
Qed.
Lemma mrounds_words : forall ks i p l m, Forall word_ok ks -> exists r, mrounds_emits at_649 (ks ++ m) i p ++ l = r /\ magma_words (length ks) r p = ks.
Proof.
  induction ks as [|k ks IH]; intros i p l m H; [eexists; split; reflexivity|]. apply Forall_cons_iff in H as [Hk H]. eexists. split; [reflexivity|]. cbn [app mrounds_emits length]. change (at_649 (Test _ _ _)) with (@nil Z). change (at_649 (Read _ 777 _ _)) with (@nil Z). cbn [app].
  rewrite <- app_assoc, words_step by exact Hk. f_equal. destruct (IH (S i) (mG k p) l m H) as (r & <- & E). exact E.
Qed.
Lemma number_words k1 k2 k3 k4 k5 k6 k7 k8 key : bytes_len 32 key -> kwords key = [k1; k2; k3; k4; k5; k6; k7; k8] -> fold_left (fun v w => v * 2 ^ 32 + w) (map wint [k1; k2; k3; k4; k5; k6; k7; k8]) 0 = number key.
Proof.
  intros [L HB] <-. rewrite number_eq. do 32 (destruct key as [|? key]; [unfold len in L; cbn in L; lia|]). destruct key; [|unfold len in L; cbn [length] in L; lia]. unfold kwords, kword. cbn [seq map Nat.mul Nat.add skipn firstn]. unfold wint. cbn [firstn fold_left].
  rewrite !horner. cbn [fold_left]. lia.
Qed.
(** ... but with the block known the positions at which the tables are read give the key. *)
Theorem C118_recover : forall key ks b, bytes_len 32 key -> magma_new key = Ok ks -> bytes_len 8 b -> magma_recover b (fst (t_magma_encrypt ks b)) = number key.
Proof.
  intros key ks b Hk E Hb. destruct (magma_list key ks Hk E) as (HF & k1 & k2 & k3 & k4 & k5 & k6 & k7 & k8 & l & k32 & EW & EL & L). destruct (emits_magma at_649 ks _ _ _ b EL ltac:(cbn [length app]; lia) HF Hb) as (v & EE & _).
  pose proof (kwords_len key Hk) as HW. assert (WO : Forall word_ok (map wint (kwords key))) by (apply Forall_map; eapply Forall_impl; [|exact HW]; intros k [Lk Bk]; apply wint_ok; split; [exact Bk | lia]). rewrite EW in WO. cbn [map] in WO. apply Forall_cons_iff in WO as [W1 WO].
  unfold magma_recover, magma_indices. change (fun e => match e with Read _ _ _ _ => _ | _ => _ end) with at_649. rewrite EE. change (at_649 (Enter _ _)) with (@nil Z). change (at_649 (Read _ 773 _ _)) with (@nil Z). cbn [app].
  rewrite number_eq. rewrite <- (mpair_split b Hb). rewrite words_step by exact W1. cbn [map].
  destruct (mrounds_words [wint k2; wint k3; wint k4; wint k5; wint k6; wint k7; wint k8] 1 (mG (wint k1) (mpair b)) (at_649 (Read FCipher 780 3 31) ++ mround_emits at_649 711 v) (map wint l) WO) as (r & ER & EM). cbn [app length] in ER, EM. rewrite ER, EM.
  rewrite <- (number_words k1 k2 k3 k4 k5 k6 k7 k8 key Hk EW). reflexivity.
Qed.
Print Assumptions C118_recover.
Definition magma_steps_hide_key : Prop := forall key key' ks ks' b, bytes_len 32 key -> bytes_len 32 key' -> magma_new key = Ok ks -> magma_new key' = Ok ks' -> bytes_len 8 b -> fst (t_magma_encrypt ks b) = fst (t_magma_encrypt ks' b).
Theorem C118_hidden_refuted : ~ magma_steps_hide_key.
Proof.
  intros H. pose proof (H _ _ _ _ (repeat 0 8) zeros32 ones32 (magma_new_ok _ zeros32) (magma_new_ok _ ones32) (zeros_block 8 ltac:(lia))) as F.
  pose proof (C118_recover _ _ (repeat 0 8) zeros32 (magma_new_ok _ zeros32) (zeros_block 8 ltac:(lia))) as R. pose proof (C118_recover _ _ (repeat 0 8) ones32 (magma_new_ok _ ones32) (zeros_block 8 ltac:(lia))) as R'.
  rewrite F, R' in R. revert R. vm_compute. discriminate.
Qed.
Print Assumptions C118_hidden_refuted.
Definition magma_demo (r : res (list bytes)) (b : bytes) : nat * Z :=
  match r with Ok ks => let st := fst (t_magma_encrypt ks b) in (length (magma_indices st), magma_recover b st) | Err _ => (0%nat, 0) end.
Example C118_example : magma_demo (magma_new rfc7801_key) [1; 2; 3; 4; 5; 6; 7; 8] = (256%nat, number rfc7801_key).
Proof. vm_compute. reflexivity. Qed.
