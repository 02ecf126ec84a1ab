(** * Properties of the sequence of steps of hashing: C125, C126 *)
From Verif Require Import PyBase PyState PyFacts PyLoop Streebog SpecStreebog SpecHashHist SpecHmac StreebogObj StreebogLemmas Hmac HmacLemmas HmacProps SpecTrace SpecTraceHash Trace TraceHash TraceHashErase TraceHashFlow TraceHashShow.
Open Scope string_scope.
Open Scope list_scope.
Open Scope Z_scope.

(** C125: which statements are executed depends on the algorithm and on the lengths alone ... *)
Theorem C125_hash_flow : forall v cs cs', Forall bytes_ok cs -> Forall bytes_ok cs' -> map (@List.length Z) cs = map (@List.length Z) cs' ->
  map shape (fst (t_hash_session (vname v) cs)) = map shape (fst (t_hash_session (vname v) cs')).
Proof. intros v cs cs' H H' L. exact (proj1 (same_session v cs cs' H H' L)). Qed.
Print Assumptions C125_hash_flow.
Theorem C125_hmac_flow : forall v key key' d d', bytes_ok key -> bytes_ok key' -> len key <= 64 -> len key = len key' -> bytes_ok d -> bytes_ok d' -> List.length d = List.length d' ->
  map shape (fst (t_hmac_session (mname v) key d)) = map shape (fst (t_hmac_session (mname v) key' d')).
Proof. intros v key key' d d' H1 H2 H3 H4 H5 H6 H7. exact (proj1 (same_hmac_session v key key' d d' H1 H2 H3 H4 H5 H6 H7)). Qed.
Print Assumptions C125_hmac_flow.
(** ... where forgetting the steps gives the methods of the model (a method that returns nothing is told by the object it leaves). *)
Theorem C125_results : (forall name d, snd (t_hash_new name d) = liftO (hash_new (VStr name) (Some (VBytes d)))) /\
  (forall d o, snd (t_hash_update d o) = liftO (ends (hash_update (VBytes d)) o)) /\
  (forall o, snd (t_hash_digest o) = liftO (fst (hash_digest o))) /\
  (forall name key d, snd (t_hmac_new name key d) = liftO (hmac_new (VStr name) (VBytes key) (Some (VBytes d)))) /\
  (forall d o, snd (t_hmac_update d o) = liftO (ends (hmac_update (VBytes d)) o)) /\
  (forall o, snd (t_hmac_digest o) = liftO (fst (hmac_digest o))).
Proof. split; [exact erase_new|]. split; [exact erase_update|]. split; [exact erase_digest|]. split; [exact erase_hmac_new|]. split; [exact erase_hmac_update | exact erase_hmac_digest]. Qed.
Print Assumptions C125_results.

Example C125_example : map shape (fst (t_hash_session "streebog256" [[1; 2]; [3]])) = map shape (fst (t_hash_session "streebog256" [[0xff; 0]; [7]])).
Proof. apply (C125_hash_flow S256); [repeat apply Forall_cons; try apply Forall_nil; unfold byte_ok; lia | repeat apply Forall_cons; try apply Forall_nil; unfold byte_ok; lia | reflexivity]. Qed.
Example C125_example_hmac : map shape (fst (t_hmac_session "HMAC_GOSTR3411_2012_512" [1; 2; 3] [4])) = map shape (fst (t_hmac_session "HMAC_GOSTR3411_2012_512" [0xaa; 0xbb; 0xcc] [0xdd])).
Proof. apply (C125_hmac_flow S512); try reflexivity; try (repeat apply Forall_cons; try apply Forall_nil; unfold byte_ok; lia). unfold len. cbn. lia. Qed.
(** The length does matter. *)
Lemma shape_indices steps : List.length (hash_indices (map shape steps)) = List.length (hash_indices steps).
Proof.
  unfold hash_indices. induction steps as [|e steps IH]; [reflexivity|]. cbn [map flat_map]. rewrite !app_length, IH. f_equal. destruct e as [f n|f n b|f n o i]; [reflexivity | reflexivity|]. unfold shape, hash_index. destruct f, (o =? 1) eqn:E; cbn [andb]; rewrite ?E; reflexivity.
Qed.
Example C125_example_lengths : map shape (fst (t_hash_session "streebog256" [[]])) <> map shape (fst (t_hash_session "streebog256" [repeat 0 64])).
Proof.
  intros E. apply (f_equal (fun x => List.length (hash_indices x))) in E. rewrite !shape_indices in E.
  destruct (shows_message S256 [[]]) as (l1 & l2 & d & Q & b & [G _] & S1 & L2 & EQ); [repeat constructor|]. destruct (shows_message S256 [repeat 0 64]) as (l1' & l2' & d' & Q' & b' & [G' _] & S1' & L2' & EQ').
  { apply Forall_cons; [|apply Forall_nil]. apply (bytes_ok_repeat 0 64). unfold byte_ok. lia. }
  change (vname S256) with "streebog256" in *. rewrite G, G', !app_length, L2, L2' in E. apply shows_size in S1, S1'. rewrite one_effective in EQ, EQ'. symmetry in EQ. apply app_eq_nil in EQ as [-> ->]. apply (f_equal (@List.length _)) in EQ'. rewrite repeat_length, app_length in EQ'.
  unfold pad in *. rewrite !app_length, repeat_length in S1, S1'. cbn [List.length] in *. lia.
Qed.

(** C126: the positions at which the tables are read give the message that was hashed ... *)
Theorem C126_message : forall v cs, Forall bytes_ok cs -> hash_recover (fst (t_hash_session (vname v) cs)) = effective cs.
Proof. exact recovers. Qed.
Print Assumptions C126_message.
(** ... and every tag gives the key, padded with zeros. *)
Theorem C126_key : forall v key data o cs, key_ok key -> opt_ok data -> made v key data o -> Forall no_clear cs ->
  hmac_recover v (fst (t_hmac_digest (snd (mrun cs o)))) = K0 key.
Proof.
  intros v key data o cs Hk Hd E HF. pose proof (hmac_new_is v key data o (proj1 Hk) (proj2 Hk) Hd E) as H0. destruct (keeps_key v _ cs HF _ _ _ H0) as (l & n & H1). rewrite (tag_recovers v _ l n _ H1). now apply K0_firstn.
Qed.
Print Assumptions C126_key.
(** The claim that the steps keep the message hidden is therefore false. *)
Definition steps_hide_message : Prop := forall v cs cs', Forall bytes_ok cs -> Forall bytes_ok cs' -> map (@List.length Z) cs = map (@List.length Z) cs' ->
  fst (t_hash_session (vname v) cs) = fst (t_hash_session (vname v) cs').
Theorem C126_hide_refuted : ~ steps_hide_message.
Proof.
  intros H. assert (H0 : Forall bytes_ok [[0]]) by (repeat apply Forall_cons; try apply Forall_nil; unfold byte_ok; lia). assert (H1 : Forall bytes_ok [[1]]) by (repeat apply Forall_cons; try apply Forall_nil; unfold byte_ok; lia).
  specialize (H S256 [[0]] [[1]] H0 H1 eq_refl). apply (f_equal hash_recover) in H. rewrite !C126_message, !one_effective in H by assumption. discriminate H.
Qed.
Print Assumptions C126_hide_refuted.

Example C126_example : hash_recover (fst (t_hash_session "streebog512" [[1; 2]; [3]])) = [1; 2; 3].
Proof. rewrite (C126_message S512); [reflexivity|]. repeat apply Forall_cons; try apply Forall_nil; unfold byte_ok; lia. Qed.
Example C126_example_key : exists o, made S256 [1; 2; 3] (Some [7]) o /\ hmac_recover S256 (fst (t_hmac_digest o)) = K0 [1; 2; 3].
Proof.
  assert (Hk : key_ok [1; 2; 3]) by (split; [repeat apply Forall_cons; try apply Forall_nil; unfold byte_ok; lia | cbn; lia]).
  assert (Hd : bytes_ok [7]) by (repeat apply Forall_cons; try apply Forall_nil; unfold byte_ok; lia).
  destruct (hmac_new_ok S256 [1; 2; 3] (Some [7]) (proj1 Hk) (proj2 Hk) Hd) as (o & E). exists o. split; [exact E|]. exact (C126_key S256 [1; 2; 3] (Some [7]) o [] Hk Hd E (Forall_nil _)).
Qed.
