(** * Property C160: several threads with one MAC object *)
From Verif Require Import PyBase PyFacts PyState Utils UtilsFacts CipherObj Modes Mac SpecModes SpecNew CipherLemmas CipherObjFacts ModeFacts ModeLemmas ModeProps ModeSim ModeExamples MacFacts MacFacts2 MacLemmas MacProps PropMac Threads ThreadFacts ThreadsRandom ThreadRandomFacts ThreadsMac ThreadMacFacts.
Open Scope string_scope.
Open Scope list_scope.
Open Scope Z_scope.

(** C160. The call, statement by statement, is the call of the model. *)
Theorem C160_alone : forall data o, run (p_mac_update data) o = mac_update data o.
Proof. exact mac_update_alone. Qed.
Print Assumptions C160_alone.
(** Threads that only ask for the MAC do not disturb each other, whatever the order. *)
Theorem C160_digests : forall o sizes sched, let after := go sched (map (fun s => p_mac (Dig s)) sizes) o in snd after = o /\
  forall i s p r, nth_error sizes i = Some s -> nth_error (fst after) i = Some p -> ended p = Some r -> r = (let* t := fst (mac_digest s o) in Ok (Some t)).
Proof.
  intros o sizes sched. assert (HP : Forall (calm o) (map (fun s => p_mac (Dig s)) sizes)).
  { apply Forall_forall. intros p H. apply in_map_iff in H as (s & <- & _). apply calm_bind; [intros; exact I | apply calm_act, digest_same]. }
  destruct (go_calm o sched _ HP) as (pool' & E & L & B). cbv zeta. rewrite E. cbn [fst snd]. split; [reflexivity|]. intros i s p r Hs Hp Hr.
  destruct (B i _ p (map_nth_error (fun s => p_mac (Dig s)) i sizes Hs) Hp) as (_ & HR & _). rewrite (ended_run o p r Hr) in HR. unfold p_mac, p_mac_digest in HR. rewrite run_bind, run_act in HR. pose proof (digest_same s o) as D. destruct (mac_digest s o) as [[t|e] o1]; cbn in *; subst o1; now injection HR.
Qed.
Print Assumptions C160_digests.
(** An object that was given [d0] and the accepted data of [cs]; one thread updates it with [d1], another one with any [d2]. Whenever [d1] is accepted alone, there is an order of the statements after which the object is as if there had been no [d2]. *)
Theorem C160_lost : forall a key d0 m0 cs d1 d2 o o1 r2 o2 s, bytes_len 32 key -> bytes_ok d0 -> mac_object a key d0 m0 -> Forall plain_call cs -> o = snd (mrun cs m0) -> bytes_ok d1 ->
  mac_update (VBytes d1) o = (Ok tt, o1) -> mac_update (VBytes d2) o = (r2, o2) -> 0 <= s <= Z.of_nat (bsize a) ->
  (exists sched, go sched [p_mac (Upd (VBytes d1)); p_mac (Upd (VBytes d2))] o = ([Ret None; fin (let* _ := r2 in Ok None)], o1)) /\
  fst (mac_digest s o1) = Ok (firstn (Z.to_nat s) (mac (spec_E a key) (bsize a) (d0 ++ accepted cs (fst (mrun cs m0)) ++ d1))).
Proof.
  intros a key d0 m0 cs d1 d2 o o1 r2 o2 s Hk H0 HM HC -> H1 E1 E2 Hs. split; [exact (update_lost d1 d2 _ o1 r2 o2 E1 E2)|].
  pose proof (tracks_run a key cs HC d0 m0 (kw_data_of a key d0 m0 HM Hk H0)) as HT. pose proof (tracks_update a key _ _ d1 HT H1) as HU. destruct (_ <? _); [rewrite HU in E1; discriminate E1|]. destruct HU as (m' & HU & HT' & _). rewrite HU in E1. injection E1 as <-.
  rewrite (tracks_digest a key _ _ s HT' Hs). cbn [fst]. now rewrite <- app_assoc.
Qed.
Print Assumptions C160_lost.
(** An object that was given [msg ++ l], whole blocks of which [l] is the last; one thread updates it with the whole blocks [d ++ b], of which [b] is the last, and another thread asks for the MAC.
    There is an order in which it gets the MAC of [msg ++ l ++ d ++ l], a message that nobody gave to the object. *)
Theorem C160_torn : forall a key msg l d b o s, bytes_len 32 key -> bytes_ok msg -> bytes_ok l -> bytes_ok d -> bytes_ok b -> mac_object a key (msg ++ l) o ->
  List.length l = bsize a -> List.length b = bsize a -> len msg mod Z.of_nat (bsize a) = 0 -> len d mod Z.of_nat (bsize a) = 0 -> 0 <= s <= Z.of_nat (bsize a) ->
  exists sched, go sched [p_mac (Upd (VBytes (d ++ b))); p_mac (Dig s)] o =
    ([Ret None; Ret (Some (firstn (Z.to_nat s) (mac (spec_E a key) (bsize a) (msg ++ l ++ d ++ l))))], snd (mac_update (VBytes (d ++ b)) o)).
Proof.
  intros a key msg l d b o s Hk Hm Hl Hd Hb HO Ll Lb Hmz Hdz Hs. pose proof (kw_data_of a key (msg ++ l) o HO Hk (proj2 (bytes_ok_app msg l) (conj Hm Hl))) as HT.
  destruct (chain_whole a key msg l d b o HT Hd Hb Ll Lb Hmz Hdz) as (cur & prev & iter & fb & C & HD). apply (update_torn (d ++ b) o cur prev iter fb s _ C). rewrite HD.
  pose proof (tracks_update a key _ o (d ++ l) HT (proj2 (bytes_ok_app d l) (conj Hd Hl))) as HU. destruct (_ <? _) eqn:E.
  - exfalso. apply Z.ltb_lt in E. rewrite (len_app d l) in E. unfold len at 3 in E. rewrite Ll in E. pose proof (len_nonneg d). pose proof (Z.mod_pos_bound (len (msg ++ l)) (Z.of_nat (bsize a))). destruct a; cbn in *; lia.
  - destruct HU as (m' & -> & HT' & _). cbn [snd]. rewrite (tracks_digest a key _ _ s HT' Hs). cbn [fst]. now rewrite <- app_assoc.
Qed.
Print Assumptions C160_torn.

(** The claim: a thread that asks for the MAC while another one updates gets the MAC before or after the update. *)
Definition mac_before_or_after : Prop := forall a key d0 o d s sched after t, bytes_len 32 key -> bytes_ok d0 -> bytes_ok d -> mac_object a key d0 o ->
  go sched [p_mac (Upd (VBytes d)); p_mac (Dig s)] o = ([Ret None; Ret (Some t)], after) -> Ok t = fst (mac_digest s o) \/ Ok t = fst (mac_digest s (snd (mac_update (VBytes d) o))).
Theorem C160_refuted : ~ mac_before_or_after.
Proof.
  intros H. pose proof example_mac_is as HO. assert (HK : bytes_len 32 magma_test_key) by concrete_bytes. assert (HP : bytes_ok plain8) by (apply bytes_okb_ok; reflexivity). assert (HB : bytes_ok (repeat 1 8)) by (apply bytes_okb_ok; reflexivity).
  pose (t := firstn 8 (mac (spec_E Mag magma_test_key) 8 (firstn 24 plain8 ++ skipn 24 plain8 ++ [] ++ skipn 24 plain8))).
  destruct (C160_torn Mag magma_test_key (firstn 24 plain8) (skipn 24 plain8) [] (repeat 1 8) (example_mac magma_test_key plain8) 8) as (sched & G);
    [exact HK | apply bytes_okb_ok; reflexivity | apply bytes_okb_ok; reflexivity | constructor | exact HB | exact HO | reflexivity | reflexivity | reflexivity | reflexivity | cbn; lia|].
  destruct (H Mag magma_test_key plain8 _ _ 8 sched _ _ HK HP HB HO G) as [E|E]; revert E; vm_compute; discriminate.
Qed.
Print Assumptions C160_refuted.
(** Magma: the updates with one block and with two blocks, of which the second is lost, and the MAC taken in between. *)
Example C160_example : let o := example_mac magma_test_key plain8 in let d1 := repeat 1 8 in let d2 := repeat 2 16 in
  (exists sched o', go sched [p_mac (Upd (VBytes d1)); p_mac (Upd (VBytes d2))] o = ([Ret None; Ret None], o') /\ fst (mac_digest 8 o') = Ok (mac (spec_E Mag magma_test_key) 8 (plain8 ++ d1))) /\
  (exists sched o', go sched [p_mac (Upd (VBytes d1)); p_mac (Dig 8)] o = ([Ret None; Ret (Some (mac (spec_E Mag magma_test_key) 8 (plain8 ++ skipn 24 plain8)))], o')).
Proof.
  cbv zeta. split.
  - exists [0; 0; 0; 0; 1; 1; 1; 1; 1; 1; 1; 1; 1; 0; 0; 0; 0]%nat. eexists. split; [vm_compute; reflexivity | vm_compute; reflexivity].
  - exists [0; 0; 0; 0; 0; 0; 1; 0; 0]%nat. eexists. vm_compute. reflexivity.
Qed.
