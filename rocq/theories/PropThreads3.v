(** * Property C159: several threads with one hash object *)
From Verif Require Import CipherLemmas PyBase PyState PyFacts Utils UtilsFacts Streebog SpecStreebog SpecHashHist StreebogFacts StreebogObj StreebogLemmas StreebogProps Threads ThreadFacts ThreadsHash ThreadHashFacts.
Open Scope string_scope.
Open Scope list_scope.
Open Scope Z_scope.

(** C159. The call, statement by statement, is the call of the model. *)
Theorem C159_alone : forall data o, run (p_update data) o = hash_update data o.
Proof. exact update_alone. Qed.
Print Assumptions C159_alone.
(** A hash object that was given [m]; one thread updates it with [d1], another one with [d2], which fills no block. Unless [m ++ d1] ends with a block, there is an order of the statements after which the digest is that of [m ++ d1]: [d2] is lost. *)
Theorem C159_lost : forall v m d1 d2 o, bytes_ok m -> bytes_ok d1 -> hash_new (VStr (vname v)) (Some (VBytes m)) = Ok o -> (len m + len d1) mod 64 <> 0 -> len m mod 64 + len d2 < 64 ->
  exists sched o', go sched [p_update (VBytes d1); p_update (VBytes d2)] o = ([Ret tt; Ret tt], o') /\ fst (hash_digest o') = Ok (streebog v (m ++ d1)).
Proof.
  intros v m d1 d2 o Hm H1 HN N1 N2. destruct (fed_new_data v m Hm) as (o0 & E & F). rewrite HN in E. injection E as <-. pose proof (fed_buff v m o F) as HB. destruct (fed_update v [m] o d1 F H1) as (o' & EU & F').
  assert (A1 : len (h_buff o ++ d1) mod 64 <> 0) by (rewrite len_app, HB, Zplus_mod_idemp_l; exact N1). assert (A2 : len (h_buff o ++ d2) < 64) by (rewrite len_app, HB; exact N2).
  destruct (update_lost d1 d2 o o' EU A1 A2) as (sched & G). exists sched, o'. split; [exact G|]. rewrite (fed_digest v _ o' F'). cbn [fst app]. do 2 f_equal.
  replace (m ++ d1) with (concat [m; d1]) by (cbn; now rewrite app_nil_r). apply effective_safe. cbn [safe Nat.add]. split; [now left|]. split; [|exact I]. right. intros E0. apply N1. unfold len. rewrite <- Nat2Z.inj_add. change 64 with (Z.of_nat 64). rewrite <- Nat2Z.inj_mod. rewrite Nat.add_mod_idemp_l in E0 by lia. now rewrite E0.
Qed.
Print Assumptions C159_lost.
(** The claim: after the updates of two threads the object is as after these updates, one after the other in one or the other order. *)
Definition updates_count : Prop := forall v o d1 d2 sched after, hash_new (VStr (vname v)) None = Ok o -> bytes_ok d1 -> bytes_ok d2 -> go sched [p_update (VBytes d1); p_update (VBytes d2)] o = ([Ret tt; Ret tt], after) ->
  after = snd (hash_update (VBytes d2) (snd (hash_update (VBytes d1) o))) \/ after = snd (hash_update (VBytes d1) (snd (hash_update (VBytes d2) o))).
Theorem C159_refuted : ~ updates_count.
Proof.
  intros H. assert (B1 : bytes_ok [1]) by (apply bytes_okb_ok; reflexivity). assert (B2 : bytes_ok [2]) by (apply bytes_okb_ok; reflexivity).
  pose (o := _hash_init (vname S512) "1.2.643.7.1.1.2.3"). pose (sched := [0; 1; 1; 1; 1; 1; 1; 0; 0; 0; 0; 0]%nat).
  destruct (H S512 o [1] [2] sched (snd (go sched [p_update (VBytes [1]); p_update (VBytes [2])] o))) as [E|E]; [vm_compute; reflexivity | exact B1 | exact B2 | vm_compute; reflexivity | vm_compute in E; discriminate E | vm_compute in E; discriminate E].
Qed.
Print Assumptions C159_refuted.
(** Ten octets, then five in one thread and seven in another. *)
Example C159_example : exists o sched o', hash_new (VStr "streebog256") (Some (VBytes (repeat 1 10))) = Ok o /\ go sched [p_update (VBytes (repeat 2 5)); p_update (VBytes (repeat 3 7))] o = ([Ret tt; Ret tt], o') /\ fst (hash_digest o') = Ok (streebog S256 (repeat 1 10 ++ repeat 2 5)).
Proof.
  assert (B1 : bytes_ok (repeat 1 10)) by (apply bytes_okb_ok; reflexivity). assert (B2 : bytes_ok (repeat 2 5)) by (apply bytes_okb_ok; reflexivity). destruct (fed_new_data S256 (repeat 1 10) B1) as (o & E & _).
  destruct (C159_lost S256 (repeat 1 10) (repeat 2 5) (repeat 3 7) o B1 B2 E ltac:(vm_compute; discriminate) ltac:(vm_compute; reflexivity)) as (sched & o' & G & D). exists o, sched, o'. split; [exact E|]. split; [exact G | exact D].
Qed.
