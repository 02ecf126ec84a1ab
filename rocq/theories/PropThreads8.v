(** * Property C164: threads with an object each *)
From Verif Require Import PyBase PyFacts PyState Utils UtilsFacts CipherLemmas CipherObj Modes Mac Streebog SpecStreebog StreebogObj StreebogLemmas StreebogProps Hmac Pbkdf Random World ModeExamples ModeProps MacKnown SpecModes CipherObjFacts ModeSpecFacts Threads ThreadFacts PropThreads PropThreads7.
From Verif Require Import ThreadsOwn ThreadOwnFacts.
Open Scope string_scope.
Open Scope list_scope.
Open Scope Z_scope.

(** C164. Calls, statement by statement and exceptions caught, are the calls of the model one after the other. *)
Theorem C164_alone : forall cs t, Threads.run (p_calls cs) t = (Ok (fst (World.run do_call cs t)), snd (World.run do_call cs t)).
Proof. exact calls_are. Qed.
Print Assumptions C164_alone.

(** Any objects, any calls, any order of the threads: a thread that has ended has the results of its calls alone, and its object is as after them. *)
Theorem C164_own : forall things progs sched i t cs p r, List.length progs = List.length things -> nth_error things i = Some t -> nth_error progs i = Some cs ->
  nth_error (fst (go sched (threads 0 progs) things)) i = Some p -> ended p = Some r ->
  r = Ok (fst (World.run do_call cs t)) /\ nth_error (snd (go sched (threads 0 progs) things)) i = Some (snd (World.run do_call cs t)).
Proof.
  intros things progs sched i t cs p r HL Ht Hc Hp Hr.
  destruct (go_own sched (threads 0 progs) things i (p_calls cs) t (threads_own _ _ HL)) as [A1 A2]; [rewrite threads_nth, Hc; reflexivity | exact Ht |].
  rewrite Hp in A1. injection A1 as A1. rewrite A1, with_object_ended in Hr. apply turns_ended in Hr. rewrite calls_are in Hr. injection Hr as H1 H2. rewrite A2, <- H2. now split.
Qed.
Print Assumptions C164_own.

(** What a thread has done and what its object is depend on its calls, its object at the start and the number of its turns, and on nothing else. *)
Theorem C164_independent : forall things things' progs progs' sched sched' i, List.length progs = List.length things -> List.length progs' = List.length things' ->
  nth_error things i = nth_error things' i -> nth_error progs i = nth_error progs' i -> count_occ Nat.eq_dec sched i = count_occ Nat.eq_dec sched' i -> (i < List.length things)%nat ->
  nth_error (fst (go sched (threads 0 progs) things)) i = nth_error (fst (go sched' (threads 0 progs') things')) i /\
  nth_error (snd (go sched (threads 0 progs) things)) i = nth_error (snd (go sched' (threads 0 progs') things')) i.
Proof.
  intros things things' progs progs' sched sched' i HL HL' Et Ec En Hi.
  destruct (nth_error things i) as [t|] eqn:Ht; [|apply nth_error_None in Ht; lia]. destruct (nth_error progs i) as [cs|] eqn:Hc; [|apply nth_error_None in Hc; lia].
  destruct (go_own sched (threads 0 progs) things i (p_calls cs) t (threads_own _ _ HL)) as [A1 A2]; [rewrite threads_nth, Hc; reflexivity | exact Ht |].
  destruct (go_own sched' (threads 0 progs') things' i (p_calls cs) t (threads_own _ _ HL')) as [B1 B2]; [rewrite threads_nth, <- Ec; reflexivity | now symmetry |].
  rewrite A1, A2, B1, B2, En. now split.
Qed.
Print Assumptions C164_independent.

(** With enough turns for each every thread ends. *)
Theorem C164_ends : forall things progs, List.length progs = List.length things -> exists N, forall sched, (forall i, (i < List.length things)%nat -> (N <= count_occ Nat.eq_dec sched i)%nat) ->
  go sched (threads 0 progs) things = (map (fun x => Ret (fst (World.run do_call (fst x) (snd x)))) (combine progs things), map (fun x => snd (World.run do_call (fst x) (snd x))) (combine progs things)).
Proof.
  intros things progs HL.
  assert (HN : exists N, forall i t cs, nth_error things i = Some t -> nth_error progs i = Some cs -> forall n, (N <= n)%nat -> exists r, ended (fst (turns n (p_calls cs) t)) = Some r).
  { revert progs HL. induction things as [|t things IH]; intros [|cs progs] HL; try discriminate HL.
    - exists O. intros [|i]; discriminate.
    - cbn in HL. injection HL as HL. destruct (IH progs HL) as [N H]. destruct (turns_end (p_calls cs) t) as [N' H']. exists (N + N')%nat. intros [|i] t0 cs0 E1 E2 n Hn; cbn in E1, E2.
      + injection E1 as <-. injection E2 as <-. apply H'. lia.
      + apply (H i); [exact E1 | exact E2 | lia]. }
  destruct HN as [N HN]. exists N. intros sched HS.
  assert (HA : forall i, nth_error (fst (go sched (threads 0 progs) things)) i = nth_error (map (fun x => Ret (fst (World.run do_call (fst x) (snd x)))) (combine progs things)) i /\ nth_error (snd (go sched (threads 0 progs) things)) i = nth_error (map (fun x => snd (World.run do_call (fst x) (snd x))) (combine progs things)) i).
  { intros i. rewrite !nth_error_map, nth_combine. destruct (nth_error things i) as [t|] eqn:Ht.
    - assert (Hi : (i < List.length things)%nat) by (apply nth_error_Some; congruence). destruct (nth_error progs i) as [cs|] eqn:Hc; [|apply nth_error_None in Hc; lia].
      destruct (go_own sched (threads 0 progs) things i (p_calls cs) t (threads_own _ _ HL)) as [A1 A2]; [rewrite threads_nth, Hc; reflexivity | exact Ht |].
      destruct (HN i t cs Ht Hc (count_occ Nat.eq_dec sched i) (HS i Hi)) as [r Hr]. pose proof (turns_ended _ _ _ _ Hr) as R. rewrite calls_are in R. injection R as R1 R2. rewrite A1, A2, <- R2. cbn [option_map fst snd]. split; [|reflexivity]. subst r. destruct (fst (turns (count_occ Nat.eq_dec sched i) (p_calls cs) t)) as [a|e|k]; cbn in Hr; try discriminate Hr. injection Hr as ->. reflexivity.
    - assert (Hi : (List.length things <= i)%nat) by (now apply nth_error_None). destruct (go_lengths sched (threads 0 progs) things) as [L1 L2]. { now apply threads_own. }
      assert (Hc : nth_error progs i = None) by (apply nth_error_None; lia). rewrite Hc. cbn [option_map]. split; apply nth_error_None; [rewrite L1, threads_length; lia | rewrite L2; lia]. }
  rewrite (surjective_pairing (go _ _ _)). f_equal; apply same_nths; intros i; apply HA.
Qed.
Print Assumptions C164_ends.

(** A thread that hashes one message with an object of its own gets the Streebog value of the message, whatever the other threads do. *)
Theorem C164_hash : forall v m things progs sched i o p r, bytes_ok m -> List.length progs = List.length things -> hash_new (VStr (vname v)) None = Ok o -> nth_error things i = Some (THash o) -> nth_error progs i = Some [KUpdate (VBytes m); KDigest] ->
  nth_error (fst (go sched (threads 0 progs) things)) i = Some p -> ended p = Some r -> r = Ok [Ok []; Ok (streebog v m)].
Proof.
  intros v m things progs sched i o p r Hm HL E Ht Hc Hp Hr. destruct (C164_own things progs sched i _ _ p r HL Ht Hc Hp Hr) as [-> _].
  destruct (fed_new v) as (o0 & E0 & F0). rewrite E in E0. injection E0 as <-. destruct (fed_update v [] o m F0 Hm) as (o1 & E1 & F1). cbn [World.run do_call]. rewrite E1. cbn [inT World.run do_call]. rewrite (fed_digest _ _ _ F1). cbn [inT fst app]. now rewrite one_effective.
Qed.
Print Assumptions C164_hash.

(** Two CBC objects with one key and vector and a hash object, three threads: the ciphertexts are those of the calls alone, a method that does not exist and data that are not bytes are refused, and the other threads go on. *)
Definition own_objects : list thing :=
  match new (alg Mag) (VBytes magma_test_key) (VInt MODE_CBC) whole_vector, hash_new (VStr "streebog256") None with
  | Ok (NewMode o), Ok h => [TMode o; TMode o; THash h]
  | _, _ => []
  end.
Definition own_programs : list (list tcall) := [[KEncrypt (one_block); KRandom]; [KEncrypt (one_block)]; [KUpdate VNone; KReset]].
Example C164_example : List.length own_programs = List.length own_objects /\
  exists c, VBytes c <> one_block /\ map ended (fst (go (concat (repeat [0; 1; 2]%nat 12)) (threads 0 own_programs) own_objects)) = [Some (Ok [Ok c; Err TypeError]); Some (Ok [Ok c]); Some (Ok [Err (GOSTHashError "GOSTHashError: invalid data value"); Ok []])].
Proof. split; [vm_compute; reflexivity|]. eexists. split; [|vm_compute; reflexivity]. discriminate. Qed.
