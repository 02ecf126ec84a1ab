(** * Property C161: several threads with one PBKDF object *)
From Verif Require Import PyBase PyState PyFacts Utils UtilsFacts CipherLemmas Streebog SpecStreebog Hmac SpecHmac HmacLemmas HmacProps Pbkdf SpecPbkdf PbkdfLemmas Threads ThreadFacts ThreadsPbkdf ThreadPbkdfFacts.
Open Scope string_scope.
Open Scope list_scope.
Open Scope Z_scope.

(** C161. The call, statement by statement, is the call of the model. *)
Theorem C161_alone : forall n o, run (p_derive n) o = derive n o.
Proof. exact derive_alone. Qed.
Print Assumptions C161_alone.
(** Two threads derive [n1] and [n2] octets: there is an order in which the first one gets only as many blocks as the second one asked for, at most 64 times the blocks of [n2]. *)
Theorem C161_short : forall u P S c o n1 n2, bytes_ok P -> (List.length P <= 64)%nat -> bytes_ok S -> S <> [] -> 1 <= c -> pbkdf_new u (VBytes P) (Some (VBytes S)) (Some (VInt c)) = Ok o ->
  0 <= n1 <= (2 ^ 32 - 1) * 64 -> 0 <= n2 <= (2 ^ 32 - 1) * 64 ->
  exists sched o', go sched [p_derive n1; p_derive n2] o = ([Ret (firstn (Z.to_nat n1) (pbkdf2 P S (Z.to_nat c) (Z.to_nat (64 * ((n2 + 63) / 64))))); Ret (pbkdf2 P S (Z.to_nat c) (Z.to_nat n2))], o').
Proof.
  intros u P S c o n1 n2 HP HL HS N Hc E H1 H2. assert (Hk : key_ok P) by (split; assumption). replace (Z.to_nat c) with (Datatypes.S (more c)) by (unfold more; lia). exact (derive_short P S c n1 n2 o Hk HS (new_is u P S _ o Hk N E) H1 H2).
Qed.
Print Assumptions C161_short.
(** There is an order in which a thread that asks for at most one block gets, instead of the first block, the last block of the key of the other thread. *)
Theorem C161_other : forall u P S c o n1 n2, bytes_ok P -> (List.length P <= 64)%nat -> bytes_ok S -> S <> [] -> 1 <= c -> pbkdf_new u (VBytes P) (Some (VBytes S)) (Some (VInt c)) = Ok o ->
  0 < n1 <= 64 -> 0 < n2 <= (2 ^ 32 - 1) * 64 ->
  exists sched o', go sched [p_derive n1; p_derive n2] o = ([Ret (firstn (Z.to_nat n1) (T P S ((n2 + 63) / 64) (Z.to_nat c - 1))); Ret (pbkdf2 P S (Z.to_nat c) (Z.to_nat n2))], o').
Proof.
  intros u P S c o n1 n2 HP HL HS N Hc E H1 H2. assert (Hk : key_ok P) by (split; assumption). replace (Z.to_nat c) with (Datatypes.S (more c)) by (unfold more; lia). cbn [Nat.sub]. rewrite Nat.sub_0_r. exact (derive_other P S c n1 n2 o Hk HS (new_is u P S _ o Hk N E) H1 H2).
Qed.
Print Assumptions C161_other.
(** The claim: each thread gets the key that it gets alone; even: a key of the length that it asked for. *)
Definition own_key : Prop := forall u P S c o n1 n2 sched r1 r2 o', bytes_ok P -> (List.length P <= 64)%nat -> bytes_ok S -> S <> [] -> 1 <= c -> pbkdf_new u (VBytes P) (Some (VBytes S)) (Some (VInt c)) = Ok o ->
  0 <= n1 <= (2 ^ 32 - 1) * 64 -> 0 <= n2 <= (2 ^ 32 - 1) * 64 -> go sched [p_derive n1; p_derive n2] o = ([Ret r1; Ret r2], o') -> len r1 = n1.
(** A thread that asks for 32 octets gets the empty key. *)
Theorem C161_refuted : ~ own_key.
Proof.
  intros H. pose (P := repeat 112 8). pose (S := repeat 115 4). assert (HP : bytes_ok P) by (apply bytes_okb_ok; reflexivity). assert (HS : bytes_ok S) by (apply bytes_okb_ok; reflexivity). assert (HL : (List.length P <= 64)%nat) by (cbn; lia). assert (N : S <> []) by discriminate.
  destruct (new_ok [] P S (Some (VInt 1000)) HL N) as (o & E). destruct (C161_short [] P S 1000 o 32 0 HP HL HS N ltac:(lia) E ltac:(lia) ltac:(lia)) as (sched & o' & G).
  pose proof (H [] P S 1000 o 32 0 sched _ _ o' HP HL HS N ltac:(lia) E ltac:(lia) ltac:(lia) G) as HR. change ((0 + 63) / 64) with 0 in HR. rewrite Z.mul_0_r in HR. unfold pbkdf2 in HR. rewrite firstn_O, firstn_nil in HR. discriminate HR.
Qed.
Print Assumptions C161_refuted.
(** A thread that asks for 128 octets gets 64, a thread that asks for 32 octets gets octets of the second block. *)
Example C161_example : exists P S o, pbkdf_new [] (VBytes P) (Some (VBytes S)) (Some (VInt 2)) = Ok o /\
  (exists sched o' k1 k2, go sched [p_derive 128; p_derive 10] o = ([Ret k1; Ret k2], o') /\ k1 = firstn 128 (pbkdf2 P S 2 64) /\ k2 = pbkdf2 P S 2 10) /\
  (exists sched o' k1 k2, go sched [p_derive 32; p_derive 65] o = ([Ret k1; Ret k2], o') /\ k1 = firstn 32 (T P S 2 1) /\ k2 = pbkdf2 P S 2 65).
Proof.
  pose (P := repeat 112 8). pose (S := repeat 115 4). assert (HP : bytes_ok P) by (apply bytes_okb_ok; reflexivity). assert (HS : bytes_ok S) by (apply bytes_okb_ok; reflexivity). assert (HL : (List.length P <= 64)%nat) by (cbn; lia). assert (N : S <> []) by discriminate.
  destruct (new_ok [] P S (Some (VInt 2)) HL N) as (o & E). exists P, S, o. split; [exact E|]. split.
  - destruct (C161_short [] P S 2 o 128 10 HP HL HS N ltac:(lia) E ltac:(lia) ltac:(lia)) as (sched & o' & G). exists sched, o'. eexists. eexists. split; [exact G|]. split; reflexivity.
  - destruct (C161_other [] P S 2 o 32 65 HP HL HS N ltac:(lia) E ltac:(lia) ltac:(lia)) as (sched & o' & G). exists sched, o'. eexists. eexists. split; [exact G|]. split; reflexivity.
Qed.
