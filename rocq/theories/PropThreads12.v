(** * Property C167: a value asked for while another thread updates the HMAC object *)
From Verif Require Import PyBase PyState PyFacts Utils UtilsFacts CipherLemmas Streebog SpecStreebog SpecHashHist StreebogFacts StreebogObj StreebogLemmas StreebogProps Hmac SpecHmac World HmacLemmas HmacProps Threads ThreadFacts ThreadsRandom ThreadRandomFacts ThreadsHash ThreadHashFacts ThreadsHmac ThreadsHashDigest ThreadHashDigestFacts ThreadsHmacDigest ThreadHmacDigestFacts ThreadHmacDigestFacts2.
Open Scope string_scope.
Open Scope list_scope.
Open Scope Z_scope.

(** C167. The call, statement by statement down to the statements of the hash object, is the call of the model. *)
Theorem C167_alone : forall data o, Threads.run (p_hmac_blocks data) o = hmac_update data o.
Proof. exact blocks_alone. Qed.
Print Assumptions C167_alone.
(** Threads that only ask for the value do not disturb each other, whatever the order. *)
Theorem C167_digests : forall o n sched, let after := go sched (repeat (p_hmac MDig) n) o in snd after = o /\
  forall i p r, nth_error (fst after) i = Some p -> ended p = Some r -> r = (let* t := fst (hmac_digest o) in Ok (Some t)).
Proof.
  intros o n sched. assert (HP : Forall (calm o) (repeat (p_hmac MDig) n)).
  { apply Forall_forall. intros p H. apply repeat_spec in H as ->. apply calm_bind; [intros; exact I | apply calm_act, value_same]. }
  destruct (go_calm o sched _ HP) as (pool' & E & L & B). cbv zeta. rewrite E. cbn [fst snd]. split; [reflexivity|]. intros i p r Hp Hr.
  assert (Hi : nth_error (repeat (p_hmac MDig) n) i = Some (p_hmac MDig)).
  { assert (LI : (i < n)%nat) by (rewrite <- (repeat_length (p_hmac MDig) n), <- L; apply nth_error_Some; congruence). rewrite (nth_error_nth' _ (p_hmac MDig)) by now rewrite repeat_length. f_equal. apply nth_repeat. }
  destruct (B i _ p Hi Hp) as (_ & HR & _). rewrite (ended_run o p r Hr) in HR. cbn [p_hmac] in HR. unfold p_hmac_digest in HR. rewrite run_bind, run_act in HR. pose proof (value_same o) as D. destruct (hmac_digest o) as [[t|e] o1]; cbn in *; subst o1; now injection HR.
Qed.
Print Assumptions C167_digests.
(** If the update of an object that was given [m] fills no block, every asking thread gets, in whatever order, the value before or after the update. *)
Theorem C167_short : forall v key m d o n sched i t, bytes_ok key -> (List.length key <= 64)%nat -> bytes_ok m -> m <> [] -> bytes_ok d -> hmac_new (VStr (mname v)) (VBytes key) (Some (VBytes m)) = Ok o -> (List.length m mod 64 + List.length d < 64)%nat ->
  nth_error (fst (go sched (p_hmac (MUpd (VBytes d)) :: repeat (p_hmac MDig) n) o)) (Datatypes.S i) = Some (Ret (Some t)) -> t = hmac v key m \/ t = hmac v key (m ++ d).
Proof.
  intros v key m d o n sched i t Hk Hl Hm Hne Hd E HL HN. pose proof (hmac_new_is v key (Some m) o Hk Hl Hm E) as HS. destruct m as [|x m']; [now elim Hne|]. set (m := x :: m') in *. change (first_chunk (Some m)) with [m] in HS. cbn [hashed List.length] in HS. change (Z.of_nat 1) with 1 in HS. set (B := with_pad 0x36 (K0 key)) in *.
  assert (LB : List.length B = 64%nat) by (unfold B; rewrite with_pad_length; apply K0_length, Hl).
  assert (EM : (List.length (B ++ m) mod 64 = List.length m mod 64)%nat) by (rewrite app_length, LB; replace (64 + List.length m)%nat with (List.length m + 1 * 64)%nat by lia; apply Nat.mod_add; lia).
  pose proof (hm_short v _ (B ++ m) 1 o d n sched i t HS ltac:(lia) Hd ltac:(rewrite EM; exact HL) HN) as HR. rewrite (K0_firstn key (conj Hk Hl)), <- app_assoc in HR. exact HR.
Qed.
Print Assumptions C167_short.
(** A new object; one thread gives it the message [d], another one asks for the value. For every number [k] of blocks of [d] there is an order in which it gets the HMAC of these blocks alone:
    a valid value of a message that was cut off, which nobody meant to authenticate. The update itself is as alone. *)
Theorem C167_prefix : forall v key d k o, bytes_ok key -> (List.length key <= 64)%nat -> bytes_ok d -> hmac_new (VStr (mname v)) (VBytes key) None = Ok o -> (64 * k <= List.length d)%nat ->
  exists sched, go sched [p_hmac (MUpd (VBytes d)); p_hmac MDig] o = ([Ret None; Ret (Some (hmac v key (firstn (64 * k) d)))], snd (hmac_update (VBytes d) o)).
Proof.
  intros v key d k o Hk Hl Hd E HK. pose proof (hmac_new_is v key None o Hk Hl I E) as HS. cbn [first_chunk hashed List.length] in HS. change (Z.of_nat 0) with 0 in HS.
  destruct (hm_reach_first v _ o d k HS Hd HK) as (n & N). destruct (hm_taken v _ _ _ o n d N) as (sched & G). exists sched. rewrite G. destruct (update_is _ _ _ _ _ d HS Hd) as (o' & EU & _). rewrite EU. cbn [fst snd bind fin]. rewrite (K0_firstn key (conj Hk Hl)). reflexivity.
Qed.
Print Assumptions C167_prefix.
(** An object that was given [m]; the update with [d]. The value is that of the blocks of [m ++ d] up to the [k]-th of the update, followed by the octets of [m] after its last whole block. *)
Theorem C167_later : forall v key m d k o, bytes_ok key -> (List.length key <= 64)%nat -> bytes_ok m -> m <> [] -> bytes_ok d -> hmac_new (VStr (mname v)) (VBytes key) (Some (VBytes m)) = Ok o -> (64 * k <= List.length m mod 64 + List.length d)%nat ->
  exists sched, go sched [p_hmac (MUpd (VBytes d)); p_hmac MDig] o =
    ([Ret None; Ret (Some (hmac v key (firstn (64 * (List.length m / 64 + k)) (m ++ d) ++ skipn (64 * (List.length m / 64)) m)))], snd (hmac_update (VBytes d) o)).
Proof.
  intros v key m d k o Hk Hl Hm Hne Hd E HK. pose proof (hmac_new_is v key (Some m) o Hk Hl Hm E) as HS. destruct m as [|x m']; [now elim Hne|]. set (m := x :: m') in *. change (first_chunk (Some m)) with [m] in HS. cbn [hashed List.length] in HS. change (Z.of_nat 1) with 1 in HS. set (B := with_pad 0x36 (K0 key)) in *.
  assert (LB : List.length B = 64%nat) by (unfold B; rewrite with_pad_length; apply K0_length, Hl).
  assert (EQ : (List.length (B ++ m) / 64 = Datatypes.S (List.length m / 64))%nat) by (rewrite app_length, LB; replace (64 + List.length m)%nat with (1 * 64 + List.length m)%nat by lia; rewrite Nat.div_add_l by lia; lia).
  assert (EM : (List.length (B ++ m) mod 64 = List.length m mod 64)%nat) by (rewrite app_length, LB; replace (64 + List.length m)%nat with (List.length m + 1 * 64)%nat by lia; apply Nat.mod_add; lia).
  destruct (hm_reach_later v _ (B ++ m) 1 o d k HS ltac:(lia) Hd ltac:(rewrite EM; exact HK)) as (n & N). destruct (hm_taken v _ _ _ o n d N) as (sched & G). exists sched. rewrite G. destruct (update_is _ _ _ _ _ d HS Hd) as (o' & EU & _). rewrite EU. cbn [fst snd bind fin]. rewrite (K0_firstn key (conj Hk Hl)).
  do 4 f_equal. f_equal. unfold hmac, inner. fold B. f_equal. f_equal. rewrite EQ. replace (64 * (Datatypes.S (List.length m / 64) + k))%nat with (List.length B + 64 * (List.length m / 64 + k))%nat by lia. replace (64 * Datatypes.S (List.length m / 64))%nat with (List.length B + 64 * (List.length m / 64))%nat by lia.
  rewrite <- app_assoc, firstn_app_2. rewrite skipn_app, (skipn_all2 B) by lia. cbn [app]. rewrite <- app_assoc. do 2 f_equal. f_equal. lia.
Qed.
Print Assumptions C167_later.

(** The claim: a thread that asks for the value while another one updates gets the value before or after the update. *)
Definition value_before_or_after : Prop := forall v key d o sched after t, bytes_ok key -> (List.length key <= 64)%nat -> bytes_ok d -> hmac_new (VStr (mname v)) (VBytes key) None = Ok o ->
  go sched [p_hmac (MUpd (VBytes d)); p_hmac MDig] o = ([Ret None; Ret (Some t)], after) -> Ok t = fst (hmac_digest o) \/ Ok t = fst (hmac_digest (snd (hmac_update (VBytes d) o))).
Lemma values_differ : let o := hmac_base S256 [7] in let t := fst (hmac_digest (snd (hmac_update (VBytes []) o))) in t <> fst (hmac_digest o) /\ t <> fst (hmac_digest (snd (hmac_update (VBytes [1]) o))).
Proof.
  let t := eval vm_compute in (fst (hmac_digest (snd (hmac_update (VBytes []) (hmac_base S256 [7]))))) in assert (E : fst (hmac_digest (snd (hmac_update (VBytes []) (hmac_base S256 [7])))) = t) by (vm_compute; reflexivity).
  cbv zeta. rewrite E. split; vm_compute; discriminate.
Qed.
Lemma value_of v key d o : bytes_ok key -> (List.length key <= 64)%nat -> bytes_ok d -> hmac_new (VStr (mname v)) (VBytes key) None = Ok o -> fst (hmac_digest (snd (hmac_update (VBytes d) o))) = Ok (hmac v key d).
Proof.
  intros Hk Hl Hd E. pose proof (hmac_new_is v key None o Hk Hl I E) as HS. cbn [first_chunk hashed List.length] in HS. change (Z.of_nat 0) with 0 in HS. destruct (update_is _ _ _ _ _ d HS Hd) as (o' & EU & SU). rewrite EU. cbn [snd]. rewrite (digest_is _ _ _ _ _ SU). cbn [fst app]. rewrite one_effective, (K0_firstn key (conj Hk Hl)). reflexivity.
Qed.
Lemma refuting v key d o : bytes_ok key -> (List.length key <= 64)%nat -> bytes_ok d -> hmac_new (VStr (mname v)) (VBytes key) None = Ok o ->
  fst (hmac_digest (snd (hmac_update (VBytes []) o))) <> fst (hmac_digest o) -> fst (hmac_digest (snd (hmac_update (VBytes []) o))) <> fst (hmac_digest (snd (hmac_update (VBytes d) o))) -> ~ value_before_or_after.
Proof.
  intros Hk Hl Hd E D1 D2 H. rewrite (value_of v key [] o Hk Hl (Forall_nil _) E) in D1, D2. destruct (C167_prefix v key d 0 o Hk Hl Hd E (Nat.le_0_l _)) as (sched & G). destruct (H v key d o sched _ _ Hk Hl Hd E G) as [K|K]; [exact (D1 K) | exact (D2 K)].
Qed.
Theorem C167_refuted : ~ value_before_or_after.
Proof. apply (refuting S256 [7] [1] (hmac_base S256 [7])); [apply bytes_okb_ok; reflexivity | apply Nat.leb_le; reflexivity | apply bytes_okb_ok; reflexivity | reflexivity | exact (proj1 values_differ) | exact (proj2 values_differ)]. Qed.
Print Assumptions C167_refuted.
(** Two blocks: after the first one the value is that of the first block. *)
Example C167_example : exists o sched o', hmac_new (VStr "HMAC_GOSTR3411_2012_512") (VBytes [1; 2; 3]) None = Ok o /\
  go sched [p_hmac (MUpd (VBytes (repeat 65 64 ++ repeat 66 64))); p_hmac MDig] o = ([Ret None; Ret (Some (hmac S512 [1; 2; 3] (repeat 65 64)))], o').
Proof.
  assert (BK : bytes_ok [1; 2; 3]) by (apply bytes_okb_ok; reflexivity). assert (B1 : bytes_ok (repeat 65 64 ++ repeat 66 64)) by (apply bytes_okb_ok; reflexivity).
  destruct (C167_prefix S512 [1; 2; 3] (repeat 65 64 ++ repeat 66 64) 1 (hmac_base S512 [1; 2; 3]) BK ltac:(cbn; lia) B1 eq_refl ltac:(apply Nat.leb_le; reflexivity)) as (sched & G).
  eexists. exists sched. eexists. split; [reflexivity|]. exact G.
Qed.
