(** * Property C162: several threads with one HMAC object *)
From Verif Require Import PyBase PyState PyFacts Utils UtilsFacts CipherLemmas Streebog SpecStreebog SpecHashHist StreebogFacts StreebogObj StreebogLemmas StreebogProps Hmac SpecHmac World HmacLemmas HmacProps Threads ThreadFacts ThreadsHmac.
Open Scope string_scope.
Open Scope list_scope.
Open Scope Z_scope.

(** C162. The calls, statement by statement, are the calls of the model. *)
Theorem C162_alone : forall data o, Threads.run (p_hmac_update data) o = hmac_update data o /\ Threads.run p_hmac_reset o = hmac_reset o.
Proof.
  intros data o. split.
  - destruct data as [d|s|z|]; try reflexivity. unfold p_hmac_update, hmac_update. rewrite run_bind, run_act. unfold count_call, bindM at 1, getM at 1, putM at 1. rewrite run_bind, run_act. unfold calls_counted at 1, bindM at 1, getM at 1, retM at 1.
    match goal with |- _ = bindM getM ?f o => change (bindM getM f o) with (f o o) end. cbv beta. match goal with |- _ = bindM (putM ?s) ?f o => change (bindM (putM s) f o) with (f tt s) end. cbv beta. set (o1 := hm_set_counter o _). match goal with |- _ = bindM getM ?f o1 => change (bindM getM f o1) with (f o1 o1) end. cbv beta.
    destruct (hm_counter o1 =? 1) eqn:E; [exact (run_act (hash_keyed d) o1)|]. rewrite run_bind, run_act. unfold calls_counted, bindM at 1, getM at 1, retM at 1. rewrite E. cbn [negb]. apply run_act.
  - unfold p_hmac_reset. rewrite run_bind, run_act. unfold hmac_reset, bindM. destruct (on_hasher hash_reset o) as [[u|e] o1]; reflexivity.
Qed.
Print Assumptions C162_alone.

(** The inner key block is not hashed. *)
Lemma keyless v key d1 d2 o : key_ok key -> bytes_ok d1 -> bytes_ok d2 -> hmac_new (VStr (mname v)) (VBytes key) None = Ok o ->
  exists o', go [0; 1; 0; 0; 0; 1; 1; 1]%nat [p_hmac_update (VBytes d1); p_hmac_update (VBytes d2)] o = ([Ret tt; Ret tt], o') /\ state_is v (K0 key) [d1; d2] 2 o'.
Proof.
  intros [Hk Hl] H1 H2 E. pose proof (hmac_new_is v key None o Hk Hl I E) as [S1 S2 S3 S4 S5 S6 S7]. cbn [first_chunk hashed List.length] in *. change (Z.of_nat 0) with 0 in *.
  destruct (fed_update v [] (hm_hasher o) d1 S4 H1) as (h1 & E1 & F1). destruct (fed_update v [d1] h1 d2 F1 H2) as (h2 & E2 & F2).
  exists (hm_set_hasher (hm_set_counter o 2) h2). split.
  - destruct o as [k h n oid]. cbn [hm_counter hm_hasher hm_key hm_oid] in *. subst n. cbn -[hash_update]. unfold on_hasher. cbn [hm_set_counter hm_set_hasher hm_hasher hm_key hm_oid hm_counter]. rewrite E1. cbn -[hash_update]. unfold on_hasher. cbn [hm_set_counter hm_set_hasher hm_hasher hm_key hm_oid hm_counter]. rewrite E2. reflexivity.
  - split; try assumption; try reflexivity. lia.
Qed.

(** A new object, two threads with its first two updates: there is an order after which the value is the outer hash of the plain hash of the data, without the inner key block. *)
Theorem C162_keyless : forall v key d1 d2 o, bytes_ok key -> (List.length key <= 64)%nat -> bytes_ok d1 -> bytes_ok d2 -> hmac_new (VStr (mname v)) (VBytes key) None = Ok o -> (List.length d1 mod 64 = 0 \/ (List.length d1 + List.length d2) mod 64 <> 0)%nat ->
  exists sched o', go sched [p_hmac_update (VBytes d1); p_hmac_update (VBytes d2)] o = ([Ret tt; Ret tt], o') /\ fst (hmac_digest o') = Ok (outer v (K0 key) (streebog v (d1 ++ d2))).
Proof.
  intros v key d1 d2 o Hk Hl H1 H2 E HS. destruct (keyless v key d1 d2 o (conj Hk Hl) H1 H2 E) as (o' & G & H). eexists. exists o'. split; [exact G|]. rewrite (digest_is _ _ _ _ _ H). cbn [fst]. rewrite K0_firstn by (split; assumption). do 2 f_equal.
  replace (d1 ++ d2) with (concat [d1; d2]) by (cbn; now rewrite app_nil_r). f_equal. apply effective_safe. cbn [safe Nat.add]. split; [now left|]. split; [|exact I]. destruct HS as [HS|HS]; [now left|]. right. rewrite Nat.add_mod_idemp_l by lia. exact HS.
Qed.
Print Assumptions C162_keyless.
(** The same with a reset in the place of the second update. *)
Theorem C162_reset : forall v key d o, bytes_ok key -> (List.length key <= 64)%nat -> bytes_ok d -> hmac_new (VStr (mname v)) (VBytes key) None = Ok o ->
  exists sched o', go sched [p_hmac_update (VBytes d); p_hmac_reset] o = ([Ret tt; Ret tt], o') /\ fst (hmac_digest o') = Ok (outer v (K0 key) (streebog v d)).
Proof.
  intros v key d o Hk Hl Hd E. pose proof (hmac_new_is v key None o Hk Hl I E) as [S1 S2 S3 S4 S5 S6 S7]. cbn [first_chunk hashed List.length] in *. change (Z.of_nat 0) with 0 in *.
  destruct (hash_init_fed v) as [_ F0]. destruct (fed_update v [] _ d F0 Hd) as (h1 & E1 & F1). pose proof (fed_reset v [] _ S4) as ER.
  exists [0; 1; 1; 0; 0; 0]%nat, (hm_set_hasher (hm_set_counter o 0) h1). split.
  - destruct o as [k h n oid]. cbn [hm_counter hm_hasher hm_key hm_oid] in *. subst n. cbn -[hash_update hash_reset]. unfold on_hasher. cbn [hm_set_counter hm_set_hasher hm_hasher hm_key hm_oid hm_counter]. rewrite ER. cbn -[hash_update hash_reset]. unfold on_hasher. cbn [hm_set_counter hm_set_hasher hm_hasher hm_key hm_oid hm_counter]. rewrite E1. reflexivity.
  - assert (H : state_is v (K0 key) [d] 0 (hm_set_hasher (hm_set_counter o 0) h1)) by (split; try assumption; try reflexivity; lia). rewrite (digest_is _ _ _ _ _ H). cbn [fst]. rewrite K0_firstn by (split; assumption). now rewrite one_effective.
Qed.
Print Assumptions C162_reset.
(** So messages with one Streebog value have one value under every key. *)
Theorem C162_collision : forall v d d', bytes_ok d -> bytes_ok d' -> streebog v d = streebog v d' -> forall key o, bytes_ok key -> (List.length key <= 64)%nat -> hmac_new (VStr (mname v)) (VBytes key) None = Ok o ->
  exists sched sched' o1 o2, go sched [p_hmac_update (VBytes d); p_hmac_reset] o = ([Ret tt; Ret tt], o1) /\ go sched' [p_hmac_update (VBytes d'); p_hmac_reset] o = ([Ret tt; Ret tt], o2) /\ fst (hmac_digest o1) = fst (hmac_digest o2).
Proof.
  intros v d d' Hd Hd' HE key o Hk Hl E. destruct (C162_reset v key d o Hk Hl Hd E) as (s1 & o1 & G1 & D1). destruct (C162_reset v key d' o Hk Hl Hd' E) as (s2 & o2 & G2 & D2). exists s1, s2, o1, o2. split; [exact G1|]. split; [exact G2|]. now rewrite D1, D2, HE.
Qed.
Print Assumptions C162_collision.
(** The claim: after the first updates of two threads the object is as after these updates, one after the other in one or the other order. *)
Definition first_updates_serial : Prop := forall v key d1 d2 o sched o', bytes_ok key -> (List.length key <= 64)%nat -> bytes_ok d1 -> bytes_ok d2 -> hmac_new (VStr (mname v)) (VBytes key) None = Ok o ->
  go sched [p_hmac_update (VBytes d1); p_hmac_update (VBytes d2)] o = ([Ret tt; Ret tt], o') ->
  o' = snd (hmac_update (VBytes d2) (snd (hmac_update (VBytes d1) o))) \/ o' = snd (hmac_update (VBytes d1) (snd (hmac_update (VBytes d2) o))).
(** The length that is counted. *)
Lemma counted v B x y o : List.length B = 64%nat -> StreebogLemmas.fed v [B ++ [x]; [y]] o -> h_hash_n o = le_bytes 64 512.
Proof.
  intros HB H. unfold StreebogLemmas.fed in H. cbn [fold_left] in H. rewrite feed_block in H by exact HB. cbn [SpecHashHist.feed app List.length Nat.div Nat.divmod fst snd Nat.mul Nat.add firstn Nat.modulo Nat.sub Nat.eqb skipn] in H. rewrite !app_nil_r in H. destruct H as (H & _).
  rewrite (ho_n _ _ _ _ H). unfold after. rewrite HB. reflexivity.
Qed.
Theorem C162_refuted : ~ first_updates_serial.
Proof.
  intros H. assert (B1 : bytes_ok [1]) by (apply bytes_okb_ok; reflexivity). assert (B2 : bytes_ok [2]) by (apply bytes_okb_ok; reflexivity). assert (K : key_ok [7]) by (split; [apply bytes_okb_ok; reflexivity | cbn; lia]).
  pose proof (base_is S256 [7] (proj1 K) (proj2 K)) as HB. set (o := hmac_base S256 [7]) in *. assert (E : hmac_new (VStr (mname S256)) (VBytes [7]) None = Ok o) by reflexivity.
  destruct (keyless S256 [7] [1] [2] o K B1 B2 E) as (o' & G & S'). assert (N0 : h_hash_n (hm_hasher o') = le_bytes 64 0) by (pose proof (st_fed _ _ _ _ _ S') as (F & _); exact (ho_n _ _ _ _ F)).
  assert (HI : List.length (with_pad 0x36 (firstn 64 (K0 [7]))) = 64%nat) by reflexivity.
  assert (X : forall a b, bytes_ok [a] -> bytes_ok [b] -> h_hash_n (hm_hasher (snd (hmac_update (VBytes [b]) (snd (hmac_update (VBytes [a]) o))))) = le_bytes 64 512).
  { intros a b Ha Hb. destruct (update_is _ _ _ _ _ [a] HB Ha) as (oa & Ea & Sa). rewrite Ea. cbn [snd]. destruct (update_is _ _ _ _ _ [b] Sa Hb) as (ob & Eb & Sb). rewrite Eb. cbn [snd]. exact (counted S256 _ a b _ HI (st_fed _ _ _ _ _ Sb)). }
  destruct (H S256 [7] [1] [2] o _ o' (proj1 K) (proj2 K) B1 B2 E G) as [EE|EE]; rewrite EE, X in N0 by assumption; discriminate N0.
Qed.
Print Assumptions C162_refuted.
(** Two threads with one octet each. *)
Example C162_example : exists o sched o', hmac_new (VStr "HMAC_GOSTR3411_2012_512") (VBytes [1; 2; 3]) None = Ok o /\ go sched [p_hmac_update (VBytes [65]); p_hmac_update (VBytes [66])] o = ([Ret tt; Ret tt], o') /\ fst (hmac_digest o') = Ok (outer S512 (K0 [1; 2; 3]) (streebog S512 [65; 66])).
Proof.
  assert (BK : bytes_ok [1; 2; 3]) by (apply bytes_okb_ok; reflexivity). assert (B1 : bytes_ok [65]) by (apply bytes_okb_ok; reflexivity). assert (B2 : bytes_ok [66]) by (apply bytes_okb_ok; reflexivity).
  destruct (C162_keyless S512 [1; 2; 3] [65] [66] (hmac_base S512 [1; 2; 3]) BK ltac:(cbn; lia) B1 B2 eq_refl ltac:(right; discriminate)) as (sched & o' & G & D). exists (hmac_base S512 [1; 2; 3]), sched, o'. split; [reflexivity|]. split; [exact G | exact D].
Qed.
