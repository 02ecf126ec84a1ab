(** * The work of the derivation of a key, and the password in it. *)
From Verif Require Import PyBase PyState PyFacts PyLoop Utils UtilsFacts Streebog SpecStreebog SpecHashHist SpecHmac StreebogFacts StreebogFacts2 StreebogObj StreebogLemmas Hmac HmacLemmas HmacProps Pbkdf PbkdfLemmas SpecTrace SpecTraceHash Trace TraceLemmas TraceFacts TraceCipher TraceCipherFacts TraceHash TraceHashErase TraceHashFlow TraceHashShow TracePbkdf TracePbkdfFacts.
Open Scope string_scope.
Open Scope list_scope.
Open Scope Z_scope.

(** The last five calls of the compression function give the password. *)
Definition tells (P L : list Z) : Prop := (1600 * 5 <= List.length L)%nat /\ with_pad 0x5c (hash_block (skipn (List.length L - 1600 * 5) L)) = K0 P.
Lemma tells_app P L L' : tells P L' -> tells P (L ++ L').
Proof.
  intros [H E]. split; [rewrite app_length; lia|]. rewrite skipn_app, app_length. replace (List.length L + List.length L' - 1600 * 5 - List.length L)%nat with (List.length L' - 1600 * 5)%nat by lia. rewrite (skipn_all2 L) by lia. exact E.
Qed.
Lemma tag_gives P l n o : key_ok P -> state_is S512 (K0 P) l n o -> exists L d, gives (t_hmac_digest o) L d /\ List.length L = (1600 * 8)%nat /\ tells P L.
Proof.
  intros HP HS. pose proof (tag_recovers S512 _ _ _ _ HS) as HR. destruct HS as [H1 H2 H3 H4 H5 H6 H7]. set (v := S512) in *. destruct (hash_init_fed v) as [EI FI]. destruct (fed_hash v l _ H4) as [Li Hi].
  pose proof H4 as H40. unfold fed in H40. destruct (fold_left feed l ([], [])) as [P0 b0]. destruct H40 as (Hin & _ & Lb0). destruct (gives_digest v _ b0 _ Hin Lb0) as (l3 & l4 & inn & GI & S3 & L4).
  assert (EQ : inn = streebog v (effective l)). { destruct GI as [_ GI]. rewrite erase_digest, (fed_digest v l _ H4) in GI. cbn [fst liftO] in GI. congruence. }
  rewrite <- EQ in Li, Hi. clear EQ. set (x := with_pad 0x5c (firstn 64 (K0 P))).
  assert (Lx : List.length x = 64%nat) by (unfold x; rewrite with_pad_length, firstn_length; lia). assert (Hx : bytes_ok x) by (apply with_pad_ok; [unfold byte_ok; lia | now apply bytes_ok_firstn]).
  assert (HB : bytes_ok (x ++ inn)) by (apply bytes_ok_app; tauto). destruct (fed_update v [] _ _ FI HB) as (o' & E & H).
  pose proof FI as Hinit. unfold fed in Hinit. cbn [fold_left] in Hinit. destruct Hinit as (Hinit & _ & _). destruct (gives_update v _ [] _ _ Hinit HB) as (lu & o2 & GU & SU & EU). cbn [app] in SU. rewrite E in EU. assert (o2 = o') by congruence. subst o2.
  pose proof (fed_name v _ _ H) as EN. unfold fed in H. destruct (fold_left feed ([] ++ [x ++ inn]) ([], [])) as [P1 b]. destruct H as (Ho' & _ & Lb).
  destruct (gives_digest v _ b o' Ho' Lb) as (l1 & l2 & d & GD & SD & L2).
  assert (G : gives (t_hmac_digest o) ((l3 ++ l4) ++ lu ++ (l1 ++ l2)) d).
  { unfold t_hmac_digest. do 2 (apply gives_at_; [reflexivity|]). rewrite (fed_name v l _ H4). eapply gives_idle; [|eapply gives_idle; [apply gives_xor|]].
    - unfold t_hash_init. do 4 (apply gives_at_; [reflexivity|]). cbv zeta. rewrite init_oid. apply gives_if. apply gives_ret.
    - rewrite H1, o_pad. eapply gives_bind; [exact GI|]. fold x. eapply gives_bind; [exact GU|]. eapply gives_last; [exact GD|]. do 3 (apply gives_at_; [reflexivity|]). apply gives_ret. }
  exists ((l3 ++ l4) ++ lu ++ (l1 ++ l2)), d. split; [exact G|].
  pose proof (shows_size _ _ SU) as ZU. rewrite firstn_length_le in ZU by (rewrite app_length, Lx, Li; cbn; lia). pose proof (shows_size _ _ SD) as ZD. pose proof (shows_size _ _ S3) as Z3.
  assert (LP : forall b, (List.length b < 64)%nat -> List.length (pad b) = 64%nat) by (intros c Hc; unfold pad; rewrite !app_length, repeat_length; cbn [List.length]; lia). rewrite LP in ZD, Z3 by assumption.
  rewrite app_length, Lx, Li in ZU. change (64 * ((64 + hash_bytes v) / 64))%nat with 128%nat in ZU.
  assert (LL : List.length ((l3 ++ l4) ++ lu ++ l1 ++ l2) = (1600 * 8)%nat) by (rewrite !app_length; lia). split; [exact LL|]. split; [lia|].
  unfold hmac_recover in HR. destruct G as [G _]. rewrite G in HR. change (1600 * outer_calls v)%nat with (1600 * 5)%nat in HR. rewrite HR. now apply K0_firstn.
Qed.
Lemma reset_gives P h : key_ok P -> keyed P h -> gives (t_hmac_reset h) [] (hmac_base S512 P).
Proof.
  intros HP (l & n & H). apply idle_gives; [reflexivity|]. rewrite erase_hmac_reset. unfold ends. rewrite (reset_is _ _ _ _ _ H). reflexivity.
Qed.
Lemma upd_gives P d : key_ok P -> bytes_ok d -> exists L h, gives (t_hmac_update d (hmac_base S512 P)) L h /\ List.length L = (1600 * ((64 + List.length d) / 64))%nat /\ exists l n, state_is S512 (K0 P) l n h.
Proof.
  intros HP Hd. pose proof (base_is S512 P (proj1 HP) (proj2 HP)) as HB. destruct (update_is _ _ _ _ _ d HB Hd) as (h & E & HU). destruct HB as [H1 H2 H3 H4 H5 H6 H7].
  set (x := with_pad 0x36 (K0 P) ++ d). assert (LK : List.length (K0 P) = 64%nat) by (rewrite <- (K0_firstn P HP), firstn_length; lia).
  assert (Hx : bytes_ok x) by (apply bytes_ok_app; split; [apply with_pad_ok; [unfold byte_ok; lia | exact H3] | exact Hd]).
  pose proof H4 as H40. unfold fed in H40. cbn [fold_left] in H40. destruct H40 as (Hin & _ & _). destruct (gives_update S512 _ [] _ x Hin Hx) as (lu & h' & GU & SU & EU). cbn [app] in SU.
  exists lu. exists h. split; [|split].
  - assert (G : exists r, gives (t_hmac_update d (hmac_base S512 P)) lu r).
    { eexists. unfold t_hmac_update. do 2 (apply gives_at_; [reflexivity|]). cbv zeta. apply gives_if. cbn [hmac_base hm_set_counter hm_counter hm_key hm_hasher]. change (0 + 1 =? 1) with true. cbv iota. eapply gives_idle; [apply gives_xor|].
      rewrite i_pad, K0_firstn by exact HP. fold x. eapply gives_last; [exact GU|]. apply gives_ret. }
    destruct G as (r & G0 & G1). rewrite erase_hmac_update in G1. unfold ends in G1. rewrite E in G1. cbn [liftO] in G1. assert (r = h) by congruence. subst r. split; [exact G0|]. rewrite erase_hmac_update. unfold ends. rewrite E. reflexivity.
  - pose proof (shows_size _ _ SU) as ZU. rewrite firstn_length_le in ZU by (apply Nat.mul_div_le; lia). unfold x in ZU. rewrite app_length, with_pad_length, LK in ZU. lia.
  - eexists. eexists. exact HU.
Qed.

Lemma gives_same {A} (c : T A) L a b : gives c L a -> snd c = Returns b -> gives c L b.
Proof. intros [E _] E'. split; assumption. Qed.
(** Calls of the compression function for the first value of a block, for a block, and for a key. *)
Definition first_calls (s : nat) : nat := (64 + (s + 4)) / 64 + 8.
Definition block_calls (s : nat) (z : Z) : nat := 2 * first_calls s + 10 * more z.
Lemma int4_length i : List.length (int_to_bytearray i 4) = 4%nat.
Proof. rewrite INT_eq. reflexivity. Qed.
Lemma u_first_gives P S z o : key_ok P -> bytes_ok S -> pb_is P S (VInt z) o ->
  exists L u o', gives (t_u_first o) L (u, o') /\ List.length L = (1600 * first_calls (List.length S))%nat /\ tells P L /\ pb_is P S (VInt z) o' /\ bytes_ok u /\ List.length u = 64%nat.
Proof.
  intros HP HS Ho. destruct (u_first_is P S _ o _ HP HS Ho eq_refl) as (o1 & E1 & H1 & _). destruct (U_ok P S (p_counter o) 0 HP HS) as [LU HU].
  destruct (upd_gives P (S ++ int_to_bytearray (p_counter o) 4) HP) as (L1 & h & G1 & Z1 & (l & n & HH)); [apply bytes_ok_app; split; [exact HS | apply int_to_bytearray_ok]|]. destruct (tag_gives P l n h HP HH) as (L2 & d & G2 & Z2 & T2).
  exists (L1 ++ L2), (SpecPbkdf.U P S (p_counter o) 0), o1. split; [|split; [|split; [now apply tells_app|split; [exact H1 | split; assumption]]]].
  - eapply gives_same; [|rewrite erase_u_first; unfold both; rewrite E1; reflexivity]. unfold t_u_first. apply gives_at_; [reflexivity|]. eapply gives_idle; [apply reset_gives; [exact HP | exact (pb_key _ _ _ _ Ho)]|].
    eapply gives_idle; [apply idle_gives; [|apply erase_bytes]|].
    + unfold t_int_to_bytearray. apply idle_bind; [reflexivity|]. intros _. apply idle_for. intros x s. reflexivity.
    + rewrite (pb_salt _ _ _ _ Ho). eapply gives_bind; [exact G1|]. eapply gives_last; [exact G2|]. apply gives_ret.
  - rewrite app_length, Z1, Z2, app_length, int4_length. unfold first_calls. lia.
Qed.
Lemma u_iter_gives P S z o u : key_ok P -> bytes_ok u -> List.length u = 64%nat -> pb_is P S (VInt z) o ->
  exists L w o', gives (t_u_iter u o) L (w, o') /\ List.length L = (1600 * 10)%nat /\ tells P L /\ pb_is P S (VInt z) o' /\ bytes_ok w /\ List.length w = 64%nat.
Proof.
  intros HP HU LU Ho. destruct (u_iter_is P S _ o _ u HP HU Ho eq_refl) as (o1 & E1 & H1 & _). destruct (PRF_ok P u HP HU) as [LW HW]. destruct (upd_gives P u HP HU) as (L1 & h & G1 & Z1 & (l & n & HH)). destruct (tag_gives P l n h HP HH) as (L2 & d & G2 & Z2 & T2).
  exists (L1 ++ L2), (SpecPbkdf.PRF P u), o1. split; [|split; [|split; [now apply tells_app|split; [exact H1 | split; assumption]]]].
  - eapply gives_same; [|rewrite erase_u_iter; unfold both; rewrite E1; reflexivity]. unfold t_u_iter. apply gives_at_; [reflexivity|]. eapply gives_idle; [apply reset_gives; [exact HP | exact (pb_key _ _ _ _ Ho)]|].
    eapply gives_bind; [exact G1|]. eapply gives_last; [exact G2|]. apply gives_ret.
  - rewrite app_length, Z1, Z2, LU. change ((64 + 64) / 64)%nat with 2%nat. lia.
Qed.
Lemma f_loop_gives P S z : key_ok P -> forall (xs : list Z) t i o, bytes_ok i -> List.length i = 64%nat -> pb_is P S (VInt z) o ->
  exists L r, gives (t_for FPbkdf 115 xs (t, i, o) t_f_body) L r /\ List.length L = (1600 * (10 * List.length xs))%nat /\ (L = [] \/ tells P L) /\ pb_is P S (VInt z) (snd r).
Proof.
  intros HP. induction xs as [|x xs IH]; intros t i o Hi Li Ho.
  - exists [], (t, i, o). split; [|split; [cbn [List.length]; lia | split; [now left | exact Ho]]]. cbn [t_for]. apply gives_at_; [reflexivity|]. apply gives_ret.
  - destruct (u_iter_gives P S z o i HP Hi Li Ho) as (L & w & o' & G & Z & TT & Ho' & Hw & Lw). destruct (IH (add_xor t w) w o' Hw Lw Ho') as (L' & r & G' & Z' & T' & Hr). exists (L ++ L'), r. split; [|split; [|split; [|exact Hr]]].
    + cbn [t_for]. apply gives_at_; [reflexivity|]. eapply gives_bind; [|exact G']. cbn [t_f_body]. eapply gives_last; [exact G|]. eapply gives_idle; [apply gives_xor|]. apply gives_ret.
    + rewrite app_length, Z, Z'. cbn [List.length]. lia.
    + right. destruct T' as [-> | T']; [rewrite app_nil_r; exact TT | now apply tells_app].
Qed.
Lemma f_gives P S z o : key_ok P -> bytes_ok S -> pb_is P S (VInt z) o ->
  exists L r, gives (t_f o) L r /\ List.length L = (1600 * block_calls (List.length S) z)%nat /\ tells P L /\ pb_is P S (VInt z) (snd r).
Proof.
  intros HP HS Ho. destruct (u_first_gives P S z o HP HS Ho) as (L1 & t & o1 & G1 & Z1 & _ & H1 & _). destruct (u_first_gives P S z o1 HP HS H1) as (L2 & i & o2 & G2 & Z2 & T2 & H2 & Hi & Li).
  destruct (f_loop_gives P S z HP (py_range 1 z 1) t i o2 Hi Li H2) as (L3 & [[t' i'] o3] & G3 & Z3 & T3 & H3). exists (L1 ++ L2 ++ L3), (t', o3). split; [|split; [|split; [|exact H3]]].
  - unfold t_f. apply gives_at_; [reflexivity|]. eapply gives_bind; [exact G1|]. cbv beta iota. eapply gives_bind; [exact G2|]. cbv beta iota. rewrite (pb_it _ _ _ _ H2). eapply gives_idle; [split; reflexivity|]. eapply gives_last; [exact G3|]. apply gives_ret.
  - rewrite !app_length, Z1, Z2, Z3, range_1_length. unfold block_calls. lia.
  - apply tells_app. destruct T3 as [-> | T3]; [rewrite app_nil_r; exact T2 | now apply tells_app].
Qed.
Lemma calc_gives P S z : key_ok P -> bytes_ok S -> forall (xs : list Z) r o, pb_is P S (VInt z) o ->
  exists L q, gives (t_for FPbkdf 125 xs (r, o) t_calculate_body) L q /\ List.length L = (1600 * (List.length xs * block_calls (List.length S) z))%nat /\ (L = [] \/ tells P L) /\ (xs <> [] -> tells P L).
Proof.
  intros HP HS. induction xs as [|x xs IH]; intros r o Ho.
  - exists [], (r, o). split; [|split; [cbn [List.length]; lia | split; [now left | congruence]]]. cbn [t_for]. apply gives_at_; [reflexivity|]. apply gives_ret.
  - destruct (f_gives P S z (p_set_counter o x) HP HS) as (L & [t o'] & G & Z & TT & Ho'); [destruct Ho; split; assumption|]. destruct (IH (r ++ t) o' Ho') as (L' & q & G' & Z' & T' & _). exists (L ++ L'), q.
    assert (TE : tells P (L ++ L')) by (destruct T' as [-> | T']; [rewrite app_nil_r; exact TT | now apply tells_app]). split; [|split; [|split; [now right | intros _; exact TE]]].
    + cbn [t_for]. apply gives_at_; [reflexivity|]. eapply gives_bind; [|exact G']. cbn [t_calculate_body]. eapply gives_last; [exact G|]. apply gives_ret.
    + rewrite app_length, Z, Z'. cbn [List.length]. lia.
Qed.
Lemma blocks_length n : List.length (py_range 1 (n + 1) 1) = Z.to_nat n.
Proof. rewrite py_range_up_from, map_length, seq_length. f_equal. lia. Qed.
Lemma derive_gives P S z dk o : key_ok P -> bytes_ok S -> pb_is P S (VInt z) o -> dk <= (2 ^ 32 - 1) * 64 ->
  exists L r, gives (t_derive dk o) L r /\ List.length L = (1600 * (Z.to_nat ((dk + 63) / 64) * block_calls (List.length S) z))%nat /\ (0 < dk -> tells P L).
Proof.
  intros HP HS Ho Hdk. set (nb := (dk + 63) / 64).
  assert (G : exists L r, gives (t_calculate_pbkdf dk o) L r /\ List.length L = (1600 * (Z.to_nat nb * block_calls (List.length S) z))%nat /\ (0 < dk -> tells P L)).
  { assert (GL : forall o', pb_is P S (VInt z) o' -> p_num_block o' = nb -> exists L r, gives (t_for FPbkdf 125 (py_range 1 (p_num_block o' + 1) 1) ([], o') t_calculate_body) L r /\ List.length L = (1600 * (Z.to_nat nb * block_calls (List.length S) z))%nat /\ (0 < dk -> tells P L)).
    { intros o' Ho' Hn. rewrite Hn. destruct (calc_gives P S z HP HS (py_range 1 (nb + 1) 1) [] o' Ho') as (L & q & G & Z & _ & TT). rewrite blocks_length in Z. exists L, q. split; [exact G|]. split; [exact Z|]. intros Hd. apply TT. intros E. apply (f_equal (@List.length _)) in E. rewrite blocks_length in E. cbn [List.length] in E. unfold nb in E. lia. }
    pose proof (num_block dk) as NB. fold nb in NB. unfold t_calculate_pbkdf. change _PBKDF_BLOCK_SIZE with 64.
    destruct (negb (dk mod 64 =? 0)) eqn:EB.
    - destruct (GL (p_set_num_block (p_set_num_block o (dk / 64)) (dk / 64 + 1))) as (L & r & G & R); [destruct Ho; split; assumption | exact NB|]. exists L, r. split; [|exact R]. apply gives_at_; [reflexivity|]. cbv zeta. eapply gives_idle; [apply gives_if; cbv iota; apply gives_ret|]. exact G.
    - destruct (GL (p_set_num_block o (dk / 64))) as (L & r & G & R); [destruct Ho; split; assumption | exact NB|]. exists L, r. split; [|exact R]. apply gives_at_; [reflexivity|]. cbv zeta. eapply gives_idle; [apply gives_if; cbv iota; apply gives_ret|]. exact G. }
  destruct G as (L & [r o'] & G & R). exists L, (py_upto r dk, o'). split; [|exact R]. unfold t_derive. apply gives_at_; [reflexivity|]. apply gives_if. replace (dk >? (2 ^ 32 - 1) * 64) with false by lia. eapply gives_last; [exact G|]. apply gives_ret.
Qed.
