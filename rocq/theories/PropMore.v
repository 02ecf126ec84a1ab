(** * Property C108: the public [hash_final] and [get_hash] *)
From Verif Require Import PyBase PyState Utils StreebogTables Streebog SpecKuznechik SpecStreebog SpecHashHist SpecHashFinal StreebogFacts StreebogFacts2 StreebogObj StreebogLemmas StreebogProps StreebogFinal PropHash.
Open Scope string_scope.
Open Scope list_scope.
Open Scope Z_scope.

(** C108: after any calls, [hash_final] and [get_hash] give what [digest] gives. *)
Theorem C108_final_get : forall v o, hash_used v o -> exists d o', hash_digest o = (Ok d, o) /\ hash_final o = (Ok tt, o') /\ get_hash o' = d.
Proof.
  intros v o H. destruct (used_holds v o H) as (s & b & Ho). destruct (final_holds v s b o Ho) as (o' & E & _).
  exists (get_hash o'), o'. unfold hash_digest. rewrite E. split; [reflexivity|]. split; reflexivity.
Qed.
Print Assumptions C108_final_get.
(** Before that, [get_hash] is a part of the chaining value; on a new object, of the initial one. *)
Theorem C108_get_first : forall v o, hash_new (VStr (vname v)) None = Ok o -> get_hash o = match v with S256 => repeat 1 32 | S512 => repeat 0 64 end.
Proof. intros v o E. destruct v; vm_compute in E; injection E as <-; vm_compute; reflexivity. Qed.
Print Assumptions C108_get_first.
(** [hash_final] is not repeatable: a second [hash_final] (or [digest]) hashes the padded block once more. *)
Theorem C108_second_final : forall v m o o1, bytes_ok m -> hash_new (VStr (vname v)) (Some (VBytes m)) = Ok o -> hash_final o = (Ok tt, o1) ->
  hash_digest o1 = (Ok (streebog_twice v m), o1) /\ exists o2, hash_final o1 = (Ok tt, o2) /\ get_hash o2 = streebog_twice v m.
Proof. exact second_final. Qed.
Print Assumptions C108_second_final.
(** The claim that [hash_final] leaves the result of [digest] as it is. *)
Definition final_keeps_digest : Prop := forall v m o o1, bytes_ok m -> hash_new (VStr (vname v)) (Some (VBytes m)) = Ok o -> hash_final o = (Ok tt, o1) -> fst (hash_digest o1) = fst (hash_digest o).
Theorem C108_repeatable_refuted : ~ final_keeps_digest.
Proof.
  intros H. destruct (C108_final_get S256 (object S256 [])) as (d & o1 & E1 & E2 & E3).
  { exists (Some (VBytes [])), (object S256 []), []. split; [apply Forall_nil|]. split; [reflexivity|]. split; [apply Forall_nil | reflexivity]. }
  specialize (H S256 [] (object S256 []) o1 ltac:(apply Forall_nil) eq_refl E2).
  assert (E4 : snd (hash_final (object S256 [])) = o1) by now rewrite E2. revert H. rewrite <- E4.
  assert (HD : fst (hash_digest (snd (hash_final (object S256 [])))) <> fst (hash_digest (object S256 []))) by (vm_compute; discriminate). exact HD.
Qed.
Print Assumptions C108_repeatable_refuted.
Example C108_example : hash_used S512 (snd (hrun [HUpdate (VBytes M1); HFinal] (object S512 [1]))) /\
  List.length (h_buff (snd (hash_final (object S256 M1)))) = 64%nat.
Proof.
  split.
  - exists (Some (VBytes [1])), (object S512 [1]), [HUpdate (VBytes M1); HFinal]. split; [cbn; bytes_by_lia|]. split; [reflexivity|]. split; [|reflexivity].
    apply Forall_cons; [exact M1_ok|]. apply Forall_cons; [exact I | apply Forall_nil].
  - vm_compute. reflexivity.
Qed.
