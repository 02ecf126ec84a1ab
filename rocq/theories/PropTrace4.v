(** * Properties of the sequence of steps of deriving a key: C147 *)
From Verif Require Import PyBase PyState PyFacts PyLoop Streebog SpecStreebog SpecHmac StreebogFacts StreebogFacts2 StreebogObj StreebogLemmas Hmac HmacLemmas HmacProps World Pbkdf PbkdfLemmas SpecTrace SpecTraceHash SpecTracePbkdf Trace TraceLemmas TraceHash TraceHashErase TraceHashFlow TraceHashShow TracePbkdf TracePbkdfFacts TracePbkdfWork.
Open Scope string_scope.
Open Scope list_scope.
Open Scope Z_scope.

(** An object made from the password [P], the salt [S] and [z] iterations, after any calls. *)
Definition derives (P S : bytes) (z : Z) (o : pbkdf_obj) : Prop :=
  exists u o0 cs, pbkdf_new u (VBytes P) (Some (VBytes S)) (Some (VInt z)) = Ok o0 /\ o = snd (World.run pstep cs o0).
Lemma derives_is P S z o : key_ok P -> bytes_ok S -> S <> [] -> derives P S z o -> pb_is P S (VInt z) o.
Proof. intros HP HS NS (u & o0 & cs & E & ->). pose proof (new_is u P S _ o0 HP NS E) as H. exact (proj2 (prun_is P S z cs HP HS o0 H)). Qed.
Lemma K0_block P : key_ok P -> block64 (K0 P).
Proof. intros HP. split; [rewrite <- (K0_firstn P HP), firstn_length, K0_length by apply HP; reflexivity | apply K0_ok, HP]. Qed.
Lemma keyed_keys P P' h h' : key_ok P -> key_ok P' -> keyed P h -> keyed P' h' -> keys2 h h'.
Proof.
  intros HP HP' (l & n & [H1 _ _ H4 _ _ _]) (l' & n' & [H1' _ _ H4' _ _ _]). split; [rewrite H1, H1'; split; now apply K0_block|]. exists S512. split; eapply fed_name; eassumption.
Qed.

(** C147: which statements are executed depends on the length of the salt, the number of iterations and the length of the key alone:
    not on the password, not on its length and not on what was derived before. *)
Theorem C147_flow : forall P P' S S' z o o' n, key_ok P -> key_ok P' -> bytes_ok S -> bytes_ok S' -> S <> [] -> List.length S = List.length S' ->
  derives P S z o -> derives P' S' z o' -> map shape (fst (t_derive n o)) = map shape (fst (t_derive n o')).
Proof.
  intros P P' S S' z o o' n HP HP' HS HS' NS LS Ho Ho'. assert (NS' : S' <> []) by (intros ->; destruct S; [contradiction | discriminate LS]). apply derives_is in Ho; try assumption. apply derives_is in Ho'; try assumption.
  destruct Ho as [A1 A2 A3], Ho' as [B1 B2 B3]. apply flow_derive. split.
  - rewrite A1, B1. split; [exact LS | split; assumption].
  - rewrite A2, B2. split; [reflexivity | now exists z].
  - exact (keyed_keys P P' _ _ HP HP' A3 B3).
Qed.
Print Assumptions C147_flow.
(** Forgetting the steps gives the method of the model. *)
Theorem C147_results : forall n o, snd (t_derive n o) = liftO (both (derive n) o).
Proof. exact erase_derive. Qed.
Print Assumptions C147_results.
(** The work: the first tag of every block is computed twice; zero or fewer iterations cost as much as one. *)
Theorem C147_work : forall P S z o n, key_ok P -> bytes_ok S -> S <> [] -> derives P S z o -> n <= (2 ^ 32 - 1) * 64 ->
  lookups (fst (t_derive n o)) = actual_work (List.length S) (Z.to_nat z) (Z.to_nat ((n + 63) / 64)).
Proof.
  intros P S z o n HP HS NS Ho Hn. apply derives_is in Ho; try assumption. destruct (derive_gives P S z n o HP HS Ho Hn) as (L & r & [G _] & Z & _). unfold lookups. rewrite G, Z. unfold actual_work, compressions, block_calls, first_calls, tag_calls, more.
  change ((64 + 64) / 64)%nat with 2%nat. replace (Z.to_nat (z - 1)) with (Z.to_nat z - 1)%nat by lia. f_equal. f_equal. lia.
Qed.
Print Assumptions C147_work.
(** The last tag gives the password, padded with zeros. *)
Theorem C147_password : forall P S z o n, key_ok P -> bytes_ok S -> S <> [] -> derives P S z o -> 0 < n <= (2 ^ 32 - 1) * 64 ->
  hmac_recover S512 (fst (t_derive n o)) = K0 P.
Proof.
  intros P S z o n HP HS NS Ho Hn. apply derives_is in Ho; try assumption. destruct (derive_gives P S z n o HP HS Ho (proj2 Hn)) as (L & r & [G _] & _ & TT). destruct (TT (proj1 Hn)) as [_ E]. unfold hmac_recover. rewrite G. exact E.
Qed.
Print Assumptions C147_password.
(** The claim that the work is that of the description, one tag for every iteration, is false. *)
Definition one_tag_per_iteration : Prop := forall P S z o n, key_ok P -> bytes_ok S -> S <> [] -> derives P S z o -> 1 <= z -> 0 < n <= (2 ^ 32 - 1) * 64 ->
  lookups (fst (t_derive n o)) = standard_work (List.length S) (Z.to_nat z) (Z.to_nat ((n + 63) / 64)).
Lemma sample_key : key_ok [1; 2; 3].
Proof. split; [repeat apply Forall_cons; try apply Forall_nil; unfold byte_ok; lia | cbn; lia]. Qed.
Lemma sample_salt : bytes_ok [9; 8].
Proof. repeat apply Forall_cons; try apply Forall_nil; unfold byte_ok; lia. Qed.
Lemma sample_made z : exists o, derives [1; 2; 3] [9; 8] z o.
Proof. destruct (new_ok [] [1; 2; 3] [9; 8] (Some (VInt z))) as (o & E); [cbn; lia | discriminate|]. exists o, [], o, []. split; [exact E | reflexivity]. Qed.
Theorem C147_refuted : ~ one_tag_per_iteration.
Proof.
  intros H. destruct (sample_made 1) as (o & Ho). specialize (H [1; 2; 3] [9; 8] 1 o 32 sample_key sample_salt ltac:(discriminate) Ho ltac:(lia) ltac:(lia)).
  rewrite (C147_work [1; 2; 3] [9; 8] 1 o 32 sample_key sample_salt ltac:(discriminate) Ho ltac:(lia)) in H. unfold actual_work, standard_work, compressions in H. apply Nat.mul_cancel_l in H; [|lia]. vm_compute in H. discriminate H.
Qed.
Print Assumptions C147_refuted.

(** Two iterations and 100 octets: two blocks, each with 1 + 3 + 5 = 9 calls for the first tag, twice, and 10 for the second. *)
Example C147_example : exists o, derives [1; 2; 3] [9; 8] 2 o /\ lookups (fst (t_derive 100 o)) = (1600 * (2 * (9 + 9 + 10)))%nat /\ hmac_recover S512 (fst (t_derive 100 o)) = [1; 2; 3] ++ repeat 0 61.
Proof.
  destruct (sample_made 2) as (o & Ho). exists o. split; [exact Ho|]. split.
  - rewrite (C147_work [1; 2; 3] [9; 8] 2 o 100 sample_key sample_salt ltac:(discriminate) Ho ltac:(lia)). unfold actual_work, compressions. f_equal.
  - rewrite (C147_password [1; 2; 3] [9; 8] 2 o 100 sample_key sample_salt ltac:(discriminate) Ho ltac:(lia)). reflexivity.
Qed.
Example C147_example_flow : exists o o', derives [1; 2; 3] [9; 8] 2 o /\ derives [] [0; 0] 2 o' /\ map shape (fst (t_derive 100 o)) = map shape (fst (t_derive 100 o')).
Proof.
  destruct (sample_made 2) as (o & Ho). destruct (new_ok [] [] [0; 0] (Some (VInt 2))) as (o' & E); [cbn; lia | discriminate|]. assert (Ho' : derives [] [0; 0] 2 o') by (exists [], o', []; split; [exact E | reflexivity]). exists o, o'. split; [exact Ho|]. split; [exact Ho'|].
  eapply C147_flow; [exact sample_key | | exact sample_salt | | | | exact Ho | exact Ho']; [split; [apply Forall_nil | cbn; lia] | repeat apply Forall_cons; try apply Forall_nil; unfold byte_ok; lia | discriminate | reflexivity].
Qed.
