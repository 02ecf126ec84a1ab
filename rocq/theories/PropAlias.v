(** * Properties C98-C101: buffers shared between the program and the library *)
From Verif Require Import PyBase PyState PyFacts HeapCipherFacts Utils UtilsFacts Streebog SpecStreebog SpecHashHist StreebogObj StreebogLemmas StreebogProps Hmac SpecHmac HmacLemmas HmacProps Pbkdf SpecPbkdf PbkdfLemmas CipherObj Modes Mac Heap HeapLogic HeapCipher HeapModes HeapModesFacts HeapMacFacts HeapWorld HeapWorldFacts HeapHmac HeapHmacFacts AliasLemmas.
Open Scope string_scope.
Open Scope list_scope.
Open Scope Z_scope.

(** C98.  After any program, a call of the library leaves every variable bound to the same buffer with
    the same contents, leaves the constants of the module alone, and gives its result in a buffer that
    no variable denotes. *)
Theorem C98_arguments_untouched : forall cs c, Forall cmd_ok cs -> cmd_ok c -> library c ->
  let w := after cs in let w' := snd (step c w) in
  (forall j x l, nth_error (w_vars w) j = Some x -> content (w_heap w) x = Some l ->
     nth_error (w_vars w') j = Some x /\ content (w_heap w') x = Some l) /\
  firstn 7 (w_heap w') = module_consts.
Proof.
  intros cs c O Oc L w w'. destruct (after_rel cs O) as (f & i & R). split; [exact (proj1 (call_keeps f w i c R Oc L))|].
  destruct (step_agree f w i c R Oc) as (_ & g & R'). apply consts_first, (wr_consts _ _ _ R').
Qed.
Print Assumptions C98_arguments_untouched.
Theorem C98_result_is_new : forall cs c, Forall cmd_ok cs -> cmd_ok c -> library c ->
  let w := after cs in let w' := snd (step c w) in
  forall x, nth_error (w_vars w') (List.length (w_vars w)) = Some x ->
  exists b, x = Ref b /\ (7 <= b)%nat /\ ~ In (Ref b) (w_vars w) /\ forall k s, nth_error (w_objs w') k = Some s -> ~ In b (nfoot s).
Proof.
  intros cs c O Oc L w w' x Nx. destruct (after_rel cs O) as (f & i & R). destruct (call_keeps f w i c R Oc L) as (_ & F & _).
  destruct (F x Nx) as (b & -> & NI). exists b. split; [reflexivity|]. destruct (step_agree f w i c R Oc) as (_ & g & R'). fold w' in R'.
  pose proof (var_rep _ _ _ (List.length (w_vars w)) R') as V. rewrite Nx in V. destruct (nth_error (w_vars (snd (istep c i))) (List.length (w_vars w))) as [v|]; [|contradiction].
  destruct V as [At _]. destruct (at_ref _ _ _ At) as (a & -> & Na). apply nth_error_In in Na.
  split; [exact (wr_low _ _ _ R' _ Na)|]. split; [exact NI|]. intros k s N I. exact (proj2 (wr_foot _ _ _ R' k s b N I) Na).
Qed.
Print Assumptions C98_result_is_new.
(** Any number of later calls does not change a result. *)
Theorem C98_results_stay : forall cs cs' j x l, Forall cmd_ok cs -> Forall cmd_ok cs' -> Forall library cs' ->
  nth_error (w_vars (after cs)) j = Some x -> content (w_heap (after cs)) x = Some l ->
  nth_error (w_vars (after (cs ++ cs'))) j = Some x /\ content (w_heap (after (cs ++ cs'))) x = Some l.
Proof.
  intros cs cs'. revert cs. induction cs' as [|c cs' IH]; intros cs j x l O O' L Nx Cx; [now rewrite app_nil_r|].
  inversion O'; subst. inversion L; subst. replace (cs ++ c :: cs') with ((cs ++ [c]) ++ cs') by now rewrite <- app_assoc.
  destruct (C98_arguments_untouched cs c O H1 H3) as [K _]. destruct (K j x l Nx Cx) as [Nx' Cx'].
  apply IH; auto; [apply Forall_app; auto|rewrite after_snoc; exact Nx'|rewrite after_snoc; exact Cx'].
Qed.
Print Assumptions C98_results_stay.

(** A program: a key, two counter-mode objects with the default vector, a message. *)
Definition key32 : bytes := map Z.of_nat (seq 1 32).
Definition msg : bytes := [1; 2; 3; 4; 5; 6; 7; 8; 9; 10].
Definition prog : list cmd :=
  [CBytearray key32; CBytearray msg;
   CNew (VStr "magma") (OVar 0) (VInt MODE_CTR) None None None;
   CNew (VStr "magma") (OVar 0) (VInt MODE_CFB) None None None].
Lemma nat_bytes n m : (n + m <= 256)%nat -> bytes_ok (map Z.of_nat (seq n m)).
Proof. intros H. apply Forall_forall. intros x X. apply in_map_iff in X. destruct X as (y & <- & Y). apply in_seq in Y. unfold byte_ok. lia. Qed.
Lemma prog_ok : Forall cmd_ok prog.
Proof.
  apply Forall_cons; [apply nat_bytes; lia|]. apply Forall_cons; [apply (nat_bytes 1 10); lia|].
  apply Forall_cons; [cbn; auto|]. apply Forall_cons; [cbn; auto|]. apply Forall_nil.
Qed.

Example C98_example : Forall cmd_ok prog /\ library (CEncrypt 0 (OVar 1)) /\
  nth_error (w_vars (after prog)) 1 = Some (Ref 8) /\ content (w_heap (after prog)) (Ref 8) = Some msg /\ nth_error (w_vars (snd (step (CEncrypt 0 (OVar 1)) (after prog)))) 2 <> None.
Proof. split; [exact prog_ok|]. split; [exact I|]. vm_compute. split; [reflexivity|]. split; [reflexivity|]. discriminate. Qed.

(** C99.  No object of a mode or of a MAC has an attribute in a buffer of the program, of the module or
    of another object. *)
Theorem C99_ciphers_share_nothing : forall cs, Forall cmd_ok cs ->
  let w := after cs in
  (forall k s a, nth_error (w_objs w) k = Some s -> In a (nfoot s) -> (7 <= a)%nat /\ ~ In (Ref a) (w_vars w)) /\
  (forall k k' s s' a, nth_error (w_objs w) k = Some s -> nth_error (w_objs w) k' = Some s' -> In a (nfoot s) -> In a (nfoot s') -> k = k').
Proof.
  intros cs O w. destruct (after_rel cs O) as (f & i & R). fold w in R. split; [|exact (wr_sep _ _ _ R)]. intros k s a N I. destruct (wr_foot _ _ _ R k s a N I) as [L7 NF]. split; [exact L7|].
  intros V. apply In_nth_error in V. destruct V as [j Nj]. pose proof (var_rep _ _ _ j R) as V. rewrite Nj in V. destruct (nth_error (w_vars i) j) as [v|]; [|contradiction].
  destruct V as [At _]. destruct (at_ref _ _ _ At) as (b & -> & Nb). apply NF. now apply nth_error_In in Nb.
Qed.
Print Assumptions C99_ciphers_share_nothing.

(** The same for HMAC: the program owns the buffers that exist before the construction. *)
Definition hmac_as_value (excluded : heap -> arg -> Prop) : Prop :=
  forall name key data h s h1 pk pd o cs, ~ excluded h key ->
  aval h key = Some pk -> match data with Some d => aval h d = pd /\ pd <> None | None => pd = None end ->
  hh_new name key data h = (Ok s, h1) -> hmac_new name pk pd = Ok o ->
  hrun (hstep (List.length h)) cs (s, h1) = hrun vstep cs (o, h).
Definition block_bytearray (h : heap) (key : arg) : Prop := exists a k, key = ABuf a /\ nth_error h a = Some k /\ List.length k = 64%nat.

Theorem C99_hmac_as_value : hmac_as_value block_bytearray.
Proof.
  intros name key data h s h1 pk pd o cs NB A1 A2 E Ev. pose proof (hh_new_is name key data h pk pd A1 A2) as HN. rewrite E, Ev in HN. destruct HN as (S & V & k & -> & Kd).
  apply hrun_agree. constructor; [exact V| |now apply same_len|].
  - pose proof (same_len _ _ S) as L. apply nth_ext with (d := []) (d' := []).
    + rewrite firstn_length. lia.
    + intros n Hn. rewrite firstn_length in Hn. destruct S as [_ K]. specialize (K n ltac:(lia) ltac:(auto)).
      rewrite <- (firstn_skipn (List.length h) h1) in K. rewrite nth_error_app1 in K by (rewrite firstn_length; lia).
      rewrite (nth_error_nth' _ [] (n := n)) in K by (rewrite firstn_length; lia). rewrite (nth_error_nth' h [] (n := n)) in K by lia. congruence.
  - unfold keyed_by in Kd. unfold apart_from. destruct (Z.ltb_spec (len k) 64) as [T|T].
    + destruct Kd as (b & -> & Lb). exact Lb.
    + destruct key as [a|p]; cbn [as_buf] in Kd.
      * exfalso. apply NB. cbn [aval] in A1. destruct (nth_error h a) as [k'|] eqn:Ek; [|discriminate]. injection A1 as ->. exists a, k. split; [reflexivity|]. split; [exact Ek|].
        assert (G : (List.length k <= 64)%nat); [|unfold len in T; lia].
        destruct (Nat.le_gt_cases (List.length k) 64) as [G|G]; [exact G|]. exfalso. clear - Ev G. unfold hmac_new, hmac_init in Ev.
        destruct (negb _); [discriminate|]. replace (len k >? _KEY_SIZE) with true in Ev by (symmetry; unfold len, _KEY_SIZE; lia). discriminate.
      * destruct p; cbn [as_buf] in Kd; try discriminate. injection Kd as <-. exact I.
Qed.
Print Assumptions C99_hmac_as_value.

(** A bytearray of 64 bytes is stored itself: the tag mixes the key at the first update with the key at
    the time of [digest]. *)
Theorem C99_hmac_shares_block_keys : forall v h a k m k', nth_error h a = Some k -> bytes_ok k -> List.length k = 64%nat -> bytes_ok m ->
  bytes_ok k' -> List.length k' = 64%nat ->
  exists s h1 s1, hh_new (VStr (mname v)) (ABuf a) None h = (Ok s, h1) /\ hh_key s = Ref a /\ hh_update (AVal (VBytes m)) (s, h1) = (Ok tt, (s1, h1)) /\
    exists r w, hh_digest (s1, upd h1 a k') = (Ok r, w) /\ content (snd w) r = Some (outer v k' (inner v k m)).
Proof.
  intros v h a k m k' Ek Ok Lk Om Ok' Lk'.
  destruct (hmac_new_ok v k None Ok ltac:(lia) I) as (o & Eo).
  assert (A1 : aval h (ABuf a) = Some (VBytes k)) by (cbn; now rewrite Ek).
  pose proof (hh_new_is (VStr (mname v)) (ABuf a) None h (VBytes k) None A1 eq_refl) as HN.
  change (option_map VBytes None) with (@None pyval) in Eo. rewrite Eo in HN.
  destruct (hh_new (VStr (mname v)) (ABuf a) None h) as [[s|e] h1]; destruct HN as [S HN]; [|contradiction]. destruct HN as (V & k0 & [= <-] & Kd).
  unfold keyed_by in Kd. replace (len k <? 64) with false in Kd by (symmetry; unfold len; lia). cbn [as_buf] in Kd. injection Kd as Kd.
  pose proof (hmac_new_is v k None o Ok ltac:(lia) I Eo) as St. cbn [first_chunk hashed List.length] in St. change (Z.of_nat 0) with 0 in St.
  destruct (update_is _ _ _ _ _ m St Om) as (o1 & E1 & St1). change (0 =? 0) with true in St1. cbn [app] in St1.
  assert (EK : K0 k = k) by (unfold K0; rewrite Lk; cbn [Nat.sub repeat]; apply app_nil_r). rewrite EK in St1. rewrite firstn_all2 in St1 by lia.
  exists s, h1, (put s o1). split; [reflexivity|]. split; [now symmetry|]. split.
  { rewrite (hh_update_is h1 s o (AVal (VBytes m)) (VBytes m) V eq_refl), E1. reflexivity. }
  set (o2 := {| hm_key := k'; hm_hasher := hm_hasher o1; hm_counter := hm_counter o1; hm_oid := hm_oid o1 |}).
  assert (La : (a < List.length h1)%nat). { pose proof (same_len _ _ S). assert (a < List.length h)%nat by (apply nth_error_Some; congruence). lia. }
  assert (V2 : hh_view (upd h1 a k') (put s o1) = Some o2).
  { unfold hh_view, put. cbn [hh_key hh_hasher hh_counter hh_oid]. rewrite <- Kd. rewrite content_wr_same by exact La. reflexivity. }
  assert (St2 : state_is v k' [with_pad 54 k ++ m] (0 + 1) o2).
  { destruct St1. constructor; auto; cbn; lia. }
  rewrite (hh_digest_is _ _ _ V2), (digest_is _ _ _ _ _ St2). do 2 eexists. split; [reflexivity|]. cbn [snd]. rewrite content_alloc. rewrite one_effective, firstn_all2 by lia. reflexivity.
Qed.
Print Assumptions C99_hmac_shares_block_keys.

(** The claim for all keys fails: two programs that differ in a write to the program's own buffer. *)
Lemma tags_differ : fst (hmac_digest (hmac_base S256 (repeat 1 64))) <> fst (hmac_digest (hmac_base S256 (repeat 2 64))).
Proof. vm_compute. discriminate. Qed.
Lemma write_digest n a l s h o : Nat.ltb a n = true -> hh_view (upd h a l) s = Some o ->
  hrun (hstep n) [HWrite a l; HDigest] (s, h) = [Some (Ok []); Some (fst (hmac_digest o))].
Proof.
  intros L V. cbn [hrun hstep]. rewrite L. cbn [fst snd]. rewrite (hh_digest_is _ _ _ V). destruct (hmac_digest o) as [[d|e] o']; [|reflexivity]. cbn [snd]. now rewrite content_alloc.
Qed.
Lemma value_write_digest a l (o : hmac_obj) b : Nat.ltb a (List.length b) = true ->
  hrun vstep [HWrite a l; HDigest] (o, b) = [Some (Ok []); Some (fst (hmac_digest o))].
Proof. intros L. cbn [hrun vstep]. rewrite L. cbn [hrun vstep]. destruct (hmac_digest o) as [r o']. reflexivity. Qed.
Definition shared_obj : hh_obj := {| hh_key := Ref 0; hh_hasher := _hash_init (vname S256) (void S256); hh_counter := 0; hh_oid := moid S256 |}.
Lemma shared_view k : hh_view [k] shared_obj = Some {| hm_key := k; hm_hasher := _hash_init (vname S256) (void S256); hm_counter := 0; hm_oid := moid S256 |}.
Proof. reflexivity. Qed.
Lemma shared_new : hh_new (VStr (mname S256)) (ABuf 0) None [repeat 1 64] = (Ok shared_obj, [repeat 1 64]).
Proof. vm_compute. reflexivity. Qed.
Theorem C99_hmac_as_value_refuted : ~ hmac_as_value (fun _ _ => False).
Proof.
  intros H.
  assert (Hn : hmac_new (VStr (mname S256)) (VBytes (repeat 1 64)) None = Ok (hmac_base S256 (repeat 1 64))) by (unfold hmac_new; now rewrite hmac_init_base by (cbn; lia)).
  specialize (H (VStr (mname S256)) (ABuf 0) None [repeat 1 64] shared_obj [repeat 1 64] (VBytes (repeat 1 64)) None (hmac_base S256 (repeat 1 64)) [HWrite 0 (repeat 2 64); HDigest] (fun F => F) eq_refl eq_refl shared_new Hn).
  change (List.length [repeat 1 64]) with 1%nat in H. rewrite (write_digest 1 0 (repeat 2 64) shared_obj [repeat 1 64] _ eq_refl (shared_view (repeat 2 64))) in H. rewrite value_write_digest in H by reflexivity.
  assert (G : forall x y : res bytes, [Some (Ok []); Some x] = [Some (Ok []); Some y] -> x = y) by (intros; congruence). apply G in H.
  apply tags_differ. symmetry. exact H.
Qed.
Print Assumptions C99_hmac_as_value_refuted.

(** The password and the salt of PBKDF are copied. *)
Theorem C99_pbkdf_copies : forall u pw salt it h s h1 pp ps, aval h pw = Some pp -> aval h salt = Some ps ->
  hp_new u pw (Some salt) it h = (Ok s, h1) ->
  forall a, (a < List.length h)%nat -> hp_password s <> Ref a /\ hp_salt s <> Ref a /\ hh_key (hp_hmac s) <> Ref a.
Proof.
  intros u pw salt it h s h1 pp ps A1 A2 E a La. unfold hp_new in E.
  pose proof (hp_init_is u pw salt (match it with Some c => c | None => VInt 1000 end) h pp ps A1 A2) as X. rewrite E in X. destruct X as [_ X].
  destruct (pbkdf_init u pp ps _) as [o|e]; [|contradiction]. destruct X as (_ & (b1 & -> & L1) & (b2 & -> & L2) & (b3 & -> & L3) & _). conj; intros [= ->]; lia.
Qed.
Print Assumptions C99_pbkdf_copies.

Example C99_example : block_bytearray [repeat 1 64] (ABuf 0) /\ ~ block_bytearray [repeat 1 64] (AVal (VBytes (repeat 1 64))) /\ ~ block_bytearray [[1; 2; 3]] (ABuf 0) /\
  (exists s, hh_new (VStr "HMAC_GOSTR3411_2012_256") (ABuf 0) None [[1; 2; 3]] = (Ok s, [[1; 2; 3]; [1; 2; 3] ++ repeat 0 61; [1; 2; 3] ++ repeat 0 61]) /\ hh_key s = Ref 2).
Proof.
  split; [exists 0%nat, (repeat 1 64); auto|]. split; [intros (a & k & E & _); discriminate E|]. split; [intros (a & k & [= <-] & [= <-] & L); discriminate L|].
  eexists. split; reflexivity.
Qed.

(** C100: the claim that the value of the attribute [counter], read once, does not change. *)
Definition counter_snapshot : Prop := forall cs k s x l, Forall cmd_ok cs -> operand_ok x ->
  nth_error (w_objs (after cs)) k = Some (HNewMode s) -> h_class s = CTR -> content (w_heap (after cs)) (h_counter s) = Some l ->
  content (w_heap (snd (step (CEncrypt k x) (after cs)))) (h_counter s) = Some l.
(** It is the buffer of the object: after a call it holds what a new read of the attribute shows. *)
Theorem C100_counter_is_live : forall cs k s x c, Forall cmd_ok cs -> operand_ok x ->
  nth_error (w_objs (after cs)) k = Some (HNewMode s) -> h_class s = CTR -> c = CEncrypt k x \/ c = CDecrypt k x ->
  let w' := snd (step c (after cs)) in
  exists l, content (w_heap w') (h_counter s) = Some l /\ fst (step (CCounter k) w') = Some (Ok l).
Proof.
  intros cs k s x c O Ox N Cl Hc w'. destruct (after_rel cs O) as (f & i & R).
  destruct (ctr_call f _ i k s x R Ox N Cl c Hc) as (s' & N' & Cl' & Ec). fold w' in N'.
  assert (Oc : cmd_ok c) by (destruct Hc as [->| ->]; exact Ox).
  destruct (step_agree f _ i c R Oc) as (_ & g & R'). fold w' in R'. pose proof (obj_rep _ _ _ k R') as Y. rewrite N' in Y.
  destruct (nth_error (w_objs (snd (istep c i))) k) as [[o|o]|]; try contradiction. destruct (hr_counter _ _ _ Y) as [C _]. exists (o_counter o). rewrite <- Ec. split; [exact C|].
  cbn [step]. rewrite N', Cl'. cbn [has_counter]. unfold on_mode, h_get_counter, h_bytearray, bindM, getO, onheap, bindM, rd, retM. rewrite C. cbn [alloc show]. now rewrite content_alloc.
Qed.
Print Assumptions C100_counter_is_live.
Definition ctr_prog : list cmd := [CBytearray key32; CNew (VStr "magma") (OVar 0) (VInt MODE_CTR) None None None].
Lemma ctr_prog_ok : Forall cmd_ok ctr_prog.
Proof. apply Forall_cons; [apply nat_bytes; lia|]. apply Forall_cons; [cbn; auto|]. apply Forall_nil. Qed.
Definition ctr_obj : hobj := match nth_error (w_objs (after ctr_prog)) 0 with Some (HNewMode s) => s | _ => {| h_class := ECB; h_cipher := HMagma []; h_pad_mode := 0; h_init_vect := Imm []; h_counter := Imm [] |} end.
Theorem C100_counter_snapshot_refuted : ~ counter_snapshot.
Proof.
  intros H. assert (N : nth_error (w_objs (after ctr_prog)) 0 = Some (HNewMode ctr_obj)) by (vm_compute; reflexivity).
  assert (C : h_class ctr_obj = CTR) by (vm_compute; reflexivity).
  assert (L : content (w_heap (after ctr_prog)) (h_counter ctr_obj) = Some [0x12; 0x34; 0x56; 0x78; 0; 0; 0; 0]) by (vm_compute; reflexivity).
  specialize (H ctr_prog 0%nat ctr_obj (OVal (VBytes [1])) _ ctr_prog_ok (nat_bytes 1 1 ltac:(lia)) N C L).
  vm_compute in H. discriminate H.
Qed.
Print Assumptions C100_counter_snapshot_refuted.

(** The program can also change the state of the object through this buffer. *)
Theorem C100_counter_writable : forall h s o l x p, hrep h s o -> h_class s = CTR -> (forall a, In a (foot s) -> (a < List.length h)%nat) ->
  bytes_ok l -> len l = len (o_counter o) -> arep h x p -> aoutside (own s) x ->
  exists a, h_counter s = Ref a /\
    let '(r, (s', h')) := h_encrypt x (s, upd h a l) in
    match r, fst (encrypt p (set_counter o l)) with
    | Ok v, Ok c => content h' v = Some c
    | Err e, Err e' => e = e'
    | _, _ => False
    end.
Proof.
  intros h s o l x p Y Cl F Ol Ll A AO. pose proof (hr_writable _ _ _ Y) as W. rewrite Cl in W. destruct W as [[a Ea] Lc]. exists a. split; [exact Ea|].
  assert (La : (a < List.length h)%nat) by (pose proof (hr_counter _ _ _ Y) as [C _]; rewrite Ea in C; now apply content_lt in C).
  assert (KA : keeps (List.length h) [a] h (upd h a l)).
  { split; [now rewrite upd_length|]. intros b _ NB. apply nth_upd_other. intros ->. apply NB. now left. }
  assert (Y' : hrep (upd h a l) s (set_counter o l)).
  { pose proof (hr_keys _ _ _ Y) as Ks. destruct Y as [C Cr P Iv T D _ Wr]. constructor; auto.
    - apply crep_keep with (h := h) (W := own s); auto. split; [now rewrite upd_length|]. intros b Lb NB. apply nth_upd_other. intros ->. apply NB. unfold own. apply in_refs. right. left. exact Ea.
    - destruct Iv as [Iv Oi]. split; [|exact Oi]. rewrite content_wr_other; [exact Iv|]. intros E. apply (D a E Ea).
    - rewrite Ea. split; [now apply content_wr_same|exact Ol].
    - rewrite Cl. split; [eauto|]. cbn [set_counter o_counter o_cipher]. lia. }
  assert (R' : Rel (own s) (foot s) (List.length (upd h a l)) (h_class s) (upd h a l) s (set_counter o l)).
  { split; [exact Y'|]. split; [reflexivity|]. split; [auto|]. split; [lia|]. split; [|reflexivity]. intros b B. rewrite upd_length. apply F. apply in_or_app. now left. }
  assert (A' : arep (upd h a l) x p).
  { destruct x as [b|q]; [|exact A]. destruct A as (d & -> & Hd & Od). exists d. split; [reflexivity|]. split; [|exact Od]. rewrite content_wr_other; [exact Hd|].
    intros [= ->]. apply AO. unfold own. apply in_refs. right. left. exact Ea. }
  pose proof (encrypt_msim _ _ _ _ _ _ _ x p R' A' AO) as MS. unfold HeapModesLogic.msim in MS. destruct (h_encrypt x (s, upd h a l)) as [r [s' h']], (encrypt p (set_counter o l)) as [r' o'].
  destruct MS as (_ & _ & Q). cbn [fst]. destruct r as [v|e], r' as [c|e']; auto. destruct Q as (b & -> & _ & Hb). exact (proj1 Hb).
Qed.
Print Assumptions C100_counter_writable.

(** [o.encrypt(o.counter)]: the data is read after the increment, so it is not the encryption of the
    bytes that [o.counter] held. *)
Definition encrypt_counter_as_bytes : Prop := forall cs k s l, Forall cmd_ok cs ->
  nth_error (w_objs (after cs)) k = Some (HNewMode s) -> h_class s = CTR -> content (w_heap (after cs)) (h_counter s) = Some l ->
  (let '(r, (_, h)) := h_encrypt (arg_of (h_counter s)) (s, w_heap (after cs)) in match r with Ok v => content h v | Err _ => None end) =
  (let '(r, (_, h)) := h_encrypt (AVal (VBytes l)) (s, w_heap (after cs)) in match r with Ok v => content h v | Err _ => None end).
Theorem C100_encrypt_counter_refuted : ~ encrypt_counter_as_bytes.
Proof.
  intros H. assert (N : nth_error (w_objs (after ctr_prog)) 0 = Some (HNewMode ctr_obj)) by (vm_compute; reflexivity).
  assert (C : h_class ctr_obj = CTR) by (vm_compute; reflexivity).
  assert (L : content (w_heap (after ctr_prog)) (h_counter ctr_obj) = Some [0x12; 0x34; 0x56; 0x78; 0; 0; 0; 0]) by (vm_compute; reflexivity).
  specialize (H ctr_prog 0%nat ctr_obj _ ctr_prog_ok N C L). vm_compute in H. discriminate H.
Qed.
Print Assumptions C100_encrypt_counter_refuted.

(** The attribute [salt] of PBKDF is the stored buffer: after a write to it the derived key is the one
    for the new salt. *)
Theorem C100_salt_is_live : forall u pw salt h s h1 P S0 c a S' n, aval h pw = Some (VBytes P) -> aval h salt = Some (VBytes S0) ->
  bytes_ok P -> (List.length P <= 64)%nat -> S0 <> [] -> 1 <= c ->
  hp_new u pw (Some salt) (Some (VInt c)) h = (Ok s, h1) -> hp_get_salt s = Ref a ->
  bytes_ok S' -> n <= (2 ^ 32 - 1) * 64 ->
  content h1 (Ref a) = Some S0 /\
  exists v w, hp_derive n (s, upd h1 a S') = (Ok v, w) /\ content (snd w) v = Some (pbkdf2 P S' (Z.to_nat c) (Z.to_nat n)).
Proof.
  intros u pw salt h s h1 P S0 c a S' n A1 A2 OP LP N0 Hc E Ea OS Hn. unfold hp_new in E. unfold hp_get_salt in Ea.
  pose proof (hp_init_is u pw salt (VInt c) h (VBytes P) (VBytes S0) A1 A2) as X. rewrite E in X. destruct X as [_ X].
  destruct (pbkdf_init u (VBytes P) (VBytes S0) (VInt c)) as [o|e] eqn:Eo; [|contradiction]. destruct X as (V & _ & _ & _ & D1 & D2).
  assert (Hk : key_ok P) by (split; assumption).
  assert (Eo' : pbkdf_new u (VBytes P) (Some (VBytes S0)) (Some (VInt c)) = Ok o) by exact Eo.
  pose proof (new_is u P S0 (Some (VInt c)) o Hk N0 Eo') as PI. split.
  { pose proof V as V0. unfold hp_view in V0. rewrite Ea in V0. destruct (content h1 (hp_password s)); [|discriminate]. destruct (content h1 (Ref a)) as [S1|]; [|discriminate].
    destruct (hh_view h1 (hp_hmac s)); [|discriminate]. assert (G : forall x y : pbkdf_obj, Some x = Some y -> p_salt x = p_salt y) by (intros; congruence). apply G in V0. cbn [p_salt] in V0. rewrite V0, (pb_salt _ _ _ _ PI). reflexivity. }
  pose proof (hp_view_write h1 s o a S' V Ea D1 D2) as V'.
  set (o' := {| p_password := p_password o; p_salt := S'; p_iterations := p_iterations o; p_num_block := p_num_block o; p_counter := p_counter o; p_hmac := p_hmac o |}) in *.
  assert (PI' : pb_is P S' (VInt c) o') by (destruct PI as [Ps Pi Pk]; constructor; [reflexivity|exact Pi|exact Pk]).
  assert (Hn' : n <= max_len) by exact Hn.
  destruct (derive_is P S' c n o' Hk OS PI' Hn') as (o2 & Ed & _). pose proof (hp_derive_is (upd h1 a S') s o' n V') as HD. rewrite Ed in HD.
  destruct (hp_derive n (s, upd h1 a S')) as [[v|e] [s2 h2]]; [|contradiction]. destruct HD as [-> ->]. do 2 eexists. split; [reflexivity|]. cbn [snd]. rewrite content_alloc.
  unfold more. now replace (Datatypes.S (Z.to_nat (c - 1))) with (Z.to_nat c) by lia.
Qed.
Print Assumptions C100_salt_is_live.
(** The attribute [iv] gives a copy: later calls do not change it, and writes to it do not change the
    object (C101). *)
Theorem C100_iv_is_snapshot : forall cs k j l cs', Forall cmd_ok cs -> Forall cmd_ok cs' -> Forall library cs' ->
  fst (step (CIv k) (after cs)) = Some (Ok l) -> j = List.length (w_vars (after cs)) ->
  fst (step (CRead j) (after ((cs ++ [CIv k]) ++ cs'))) = Some (Ok l).
Proof.
  intros cs k j l cs' O O' L E ->.
  assert (X : exists x, w_vars (after (cs ++ [CIv k])) = w_vars (after cs) ++ [x] /\ content (w_heap (after (cs ++ [CIv k]))) x = Some l).
  { rewrite after_snoc. clear - E. cbn [step] in *. destruct (nth_error (w_objs (after cs)) k) as [[s|s]|]; try discriminate. destruct (has_iv (h_class s)); [|discriminate].
    unfold on_mode in *. destruct (h_iv (s, w_heap (after cs))) as [r [s' h]]. destruct r as [v|e]; cbn [show] in *; [|discriminate]. destruct (content h v) as [l'|] eqn:C; [|discriminate].
    cbn [fst snd mkw w_heap w_vars] in *. injection E as ->. eauto. }
  destruct X as (x & Ev & Cx).
  assert (Nx : nth_error (w_vars (after (cs ++ [CIv k]))) (List.length (w_vars (after cs))) = Some x) by (rewrite Ev, nth_error_app2, Nat.sub_diag by lia; reflexivity).
  assert (OA : Forall cmd_ok (cs ++ [CIv k])) by (apply Forall_app; split; [exact O|]; apply Forall_cons; [exact I|apply Forall_nil]).
  destruct (C98_results_stay (cs ++ [CIv k]) cs' _ x l OA O' L Nx Cx) as [N2 C2]. cbn [step own_step]. rewrite N2, C2. reflexivity.
Qed.
Print Assumptions C100_iv_is_snapshot.
Definition cfb_prog : list cmd := [CBytearray key32; CNew (VStr "magma") (OVar 0) (VInt MODE_CFB) None None None].
Example C100_example :
  fst (run step (ctr_prog ++ [CCounter 0; CEncrypt 0 (OVal (VBytes [1])); CCounter 0; CRead 1]) start) =
    [Some (Ok key32); Some (Ok []); Some (Ok [0x12; 0x34; 0x56; 0x78; 0; 0; 0; 0]); Some (Ok [58]); Some (Ok [0x12; 0x34; 0x56; 0x78; 0; 0; 0; 1]); Some (Ok [0x12; 0x34; 0x56; 0x78; 0; 0; 0; 0])].
Proof. vm_compute. reflexivity. Qed.

(** C101.  Every program prints the same whether the library keeps its state in buffers of the common
    heap or objects are values and results are new buffers. *)
Theorem C101_objects_are_values : forall cs, Forall cmd_ok cs -> fst (run step cs start) = fst (run istep cs istart).
Proof. intros cs O. exact (proj1 (run_agree cs [] start istart wrel_start O)). Qed.
Print Assumptions C101_objects_are_values.
Example C101_example : Forall cmd_ok prog /\
  skipn 4 (fst (run step (prog ++ [CEncrypt 0 (OVar 1); CSet 1 0 255; CEncrypt 1 (OVar 1); CIv 1; CSet 4 0 0; CEncrypt 1 (OVar 2); CRead 1; CRead 2]) start)) =
    [Some (Ok [58; 55; 154; 233; 13; 232; 164; 91; 57; 29]); Some (Ok []); Some (Ok [246; 157; 170; 151; 236; 142; 166; 208; 33; 156]);
     Some (Ok [246; 157; 170; 151; 236; 142; 166; 208]); Some (Ok []); Some (Ok [18; 161; 230; 42; 186; 9; 118; 32; 77; 138]);
     Some (Ok [255; 2; 3; 4; 5; 6; 7; 8; 9; 10]); Some (Ok [58; 55; 154; 233; 13; 232; 164; 91; 57; 29])].
Proof. split; [exact prog_ok|]. vm_compute. reflexivity. Qed.
