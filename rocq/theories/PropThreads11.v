(** * Property C166: a digest asked for while another thread updates the hash object *)
From Verif Require Import PyBase PyState PyFacts Utils UtilsFacts CipherLemmas Streebog SpecStreebog SpecHashHist StreebogFacts StreebogObj StreebogLemmas StreebogProps PropHash Threads ThreadFacts ThreadsHash ThreadHashFacts ThreadsHashDigest ThreadHashDigestFacts.
Open Scope string_scope.
Open Scope list_scope.
Open Scope Z_scope.

(** C166. Threads that only ask for the digest do not disturb each other, whatever the order. *)
Theorem C166_digests : forall o n sched, let after := go sched (repeat (p_hash HDig) n) o in snd after = o /\
  forall i p r, nth_error (fst after) i = Some p -> ended p = Some r -> r = (let* t := fst (hash_digest o) in Ok (Some t)).
Proof.
  intros o n sched. assert (HP : Forall (calm o) (repeat (p_hash HDig) n)).
  { apply Forall_forall. intros p H. apply repeat_spec in H as ->. apply calm_bind; [intros; exact I | apply calm_act, digest_same]. }
  destruct (go_calm o sched _ HP) as (pool' & E & L & B). cbv zeta. rewrite E. cbn [fst snd]. split; [reflexivity|]. intros i p r Hp Hr.
  assert (Hi : nth_error (repeat (p_hash HDig) n) i = Some (p_hash HDig)).
  { assert (LI : (i < n)%nat) by (rewrite <- (repeat_length (p_hash HDig) n), <- L; apply nth_error_Some; congruence). rewrite (nth_error_nth' _ (p_hash HDig)) by now rewrite repeat_length. f_equal. apply nth_repeat. }
  destruct (B i _ p Hi Hp) as (_ & HR & _). rewrite (ended_run o p r Hr) in HR. cbn [p_hash] in HR. unfold p_hash_digest in HR. rewrite run_bind, run_act in HR. pose proof (digest_same o) as D. destruct (hash_digest o) as [[t|e] o1]; cbn in *; subst o1; now injection HR.
Qed.
Print Assumptions C166_digests.
(** A hash object that was given [m]; one thread updates it with [d], which fills no block, others ask for the digest. In whatever order, each of them gets the digest before or after the update. *)
Theorem C166_short : forall v m d o n sched i t, bytes_ok m -> bytes_ok d -> hash_new (VStr (vname v)) (Some (VBytes m)) = Ok o -> (List.length m mod 64 + List.length d < 64)%nat ->
  nth_error (fst (go sched (p_hash (HUpd (VBytes d)) :: repeat (p_hash HDig) n) o)) (Datatypes.S i) = Some (Ret (Some t)) -> t = streebog v m \/ t = streebog v (m ++ d).
Proof. intros v m d o n sched i t Hm Hd HN HL G. destruct (fed_new_data v m Hm) as (o0 & E & F). rewrite HN in E. injection E as <-. exact (short_seen v m o d n sched i t F Hd HL G). Qed.
Print Assumptions C166_short.
(** If the update fills blocks, there is for every number [k] of them an order in which the other thread gets the digest of the blocks of [m ++ d] up to these [k], followed by the octets of [m] after its last whole block:
    a message that nobody gave to the object. The update itself is as alone. *)
Theorem C166_torn : forall v m d k o, bytes_ok m -> bytes_ok d -> hash_new (VStr (vname v)) (Some (VBytes m)) = Ok o -> (64 * k <= List.length m mod 64 + List.length d)%nat ->
  exists sched, go sched [p_hash (HUpd (VBytes d)); p_hash HDig] o =
    ([Ret None; Ret (Some (streebog v (firstn (64 * (List.length m / 64 + k)) (m ++ d) ++ skipn (64 * (List.length m / 64)) m)))], snd (hash_update (VBytes d) o)).
Proof. intros v m d k o Hm Hd HN HK. destruct (fed_new_data v m Hm) as (o0 & E & F). rewrite HN in E. injection E as <-. exact (digest_torn v m o d k F Hd HK). Qed.
Print Assumptions C166_torn.

(** The claim: a thread that asks for the digest while another one updates gets the digest before or after the update. *)
Definition digest_before_or_after : Prop := forall v m d o sched after t, bytes_ok m -> bytes_ok d -> hash_new (VStr (vname v)) (Some (VBytes m)) = Ok o ->
  go sched [p_hash (HUpd (VBytes d)); p_hash HDig] o = ([Ret None; Ret (Some t)], after) -> Ok t = fst (hash_digest o) \/ Ok t = fst (hash_digest (snd (hash_update (VBytes d) o))).
Lemma empty_differs : streebog S256 (repeat 0 64) <> streebog S256 [].
Proof.
  assert (HZ : bytes_ok (repeat 0 64)) by (apply bytes_okb_ok; reflexivity).
  assert (HO : forall m, bytes_ok m -> fst (hash_digest (object S256 m)) = Ok (streebog S256 m)).
  { intros m Hm. destruct (conforms S256 m Hm) as (o & E & H). unfold object. rewrite E, H. reflexivity. }
  assert (HD : fst (hash_digest (object S256 (repeat 0 64))) <> fst (hash_digest (object S256 []))) by (vm_compute; discriminate).
  intros E. apply HD. rewrite (HO _ HZ), (HO [] (Forall_nil _)). now rewrite E.
Qed.
Theorem C166_refuted : ~ digest_before_or_after.
Proof.
  intros H. assert (HB : bytes_ok (repeat 0 65)) by (apply bytes_okb_ok; reflexivity). destruct (fed_new_data S256 [] (Forall_nil _)) as (o & E & F).
  destruct (C166_torn S256 [] (repeat 0 65) 1 o (Forall_nil _) HB E) as (sched & G); [apply Nat.leb_le; reflexivity|]. destruct (fed_update S256 [[]] o (repeat 0 65) F HB) as (o1 & EU & F1).
  assert (HX : forall x y : bytes, Ok x = Ok y -> x = y) by (intros x y HX; congruence). change (firstn (64 * (List.length (@nil Z) / 64 + 1)) ([] ++ repeat 0 65) ++ skipn (64 * (List.length (@nil Z) / 64)) []) with (repeat 0 64) in G.
  destruct (H S256 [] (repeat 0 65) o sched _ _ (Forall_nil _) HB E G) as [K|K].
  - rewrite (fed_digest S256 _ o F) in K. cbn [fst] in K. apply HX in K. exact (empty_differs K).
  - rewrite EU in K. cbn [snd] in K. rewrite (fed_digest S256 _ o1 F1) in K. cbn [fst] in K. apply HX in K. exact (hashes_differ K).
Qed.
Print Assumptions C166_refuted.
(** One octet is pending and 128 octets follow: after the first block the digest is that of 65 octets, the last of which is the pending one. *)
Example C166_example : let m := [7] in let d := repeat 9 128 in (64 * 1 <= List.length m mod 64 + List.length d)%nat /\
  firstn (64 * (List.length m / 64 + 1)) (m ++ d) ++ skipn (64 * (List.length m / 64)) m = [7] ++ repeat 9 63 ++ [7] /\ (List.length m mod 64 + List.length (repeat 9 62) < 64)%nat.
Proof. split; [apply Nat.leb_le; reflexivity|]. split; [reflexivity | apply Nat.ltb_lt; reflexivity]. Qed.
