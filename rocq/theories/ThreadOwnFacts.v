(** * Threads with an object each: lemmas *)
From Verif Require Import PyBase PyState Utils CipherObj Modes Mac Streebog Hmac Pbkdf Random World Threads ThreadsRandom ThreadsHash ThreadsMac ThreadsPbkdf ThreadsHmac ThreadsModes ThreadFacts ThreadRandomFacts ThreadHashFacts ThreadMacFacts ThreadPbkdfFacts ThreadModeFacts PropThreads6.
From Verif Require Import ThreadsOwn.
Open Scope string_scope.
Open Scope list_scope.
Open Scope Z_scope.

(** ** Calls alone *)
Lemma ofb_decrypt_alone data o : Threads.run (p_ofb_decrypt data) o = ofb_decrypt data o.
Proof. unfold p_ofb_decrypt, ofb_decrypt, bindM. rewrite run_bind, run_act. destruct (check_ciphertext data o) as [[d|e] o']; [apply ofb_encrypt_alone | reflexivity]. Qed.
Lemma ctr_decrypt_alone data o : Threads.run (p_ctr_decrypt data) o = ctr_decrypt data o.
Proof. unfold p_ctr_decrypt, ctr_decrypt, bindM. rewrite run_bind, run_act. destruct (check_ciphertext data o) as [[d|e] o']; [apply ctr_encrypt_alone | reflexivity]. Qed.
Lemma encrypt_alone data o : Threads.run (p_encrypt (o_class o) data) o = encrypt data o.
Proof. unfold encrypt, bindM, getM. destruct (o_class o); cbn [p_encrypt]; [apply ecb_encrypt_alone | apply cbc_encrypt_alone | apply cfb_encrypt_alone | apply ofb_encrypt_alone | apply ctr_encrypt_alone]. Qed.
Lemma decrypt_alone data o : Threads.run (p_decrypt (o_class o) data) o = decrypt data o.
Proof. unfold decrypt, bindM, getM. destruct (o_class o); cbn [p_decrypt]; [apply ecb_decrypt_alone | apply cbc_decrypt_alone | apply cfb_decrypt_alone | apply ofb_decrypt_alone | apply ctr_decrypt_alone]. Qed.
Lemma inside_alone {S A} (wrap : S -> thing) unwrap (H : forall s, unwrap (wrap s) = Some s) : forall (p : proc S A) s, Threads.run (inside wrap unwrap p) (wrap s) = (fst (Threads.run p s), wrap (snd (Threads.run p s))).
Proof.
  fix IH 1. intros [a|e|k] s; cbn [inside Threads.run]; [reflexivity | reflexivity |]. rewrite H. destruct (k s) as [s' p']. apply IH.
Qed.
Lemma inside_all {S} (wrap : S -> thing) unwrap (p : proc S bytes) s m : (forall s, unwrap (wrap s) = Some s) -> Threads.run p s = m -> Threads.run (inside wrap unwrap p) (wrap s) = inT wrap (fun b => b) m.
Proof. intros H <-. rewrite (inside_alone wrap unwrap H). now destruct (Threads.run p s) as [[a|e] s']. Qed.
Lemma inside_silent {S} (wrap : S -> thing) unwrap (p : proc S unit) s m : (forall s, unwrap (wrap s) = Some s) -> Threads.run p s = m -> Threads.run (inside wrap unwrap (silent p)) (wrap s) = inT wrap (fun _ => []) m.
Proof. intros H <-. rewrite (inside_alone wrap unwrap H). unfold silent. rewrite run_bind. now destruct (Threads.run p s) as [[a|e] s']. Qed.
Lemma call_is c t : Threads.run (p_call c) t = do_call c t.
Proof.
  unfold p_call, do_call. cbn [Threads.run]. destruct c, t; try reflexivity.
  all: first [apply inside_all; [reflexivity | first [apply encrypt_alone | apply decrypt_alone | apply derive_alone | apply random_alone | apply run_act]]
    | apply inside_silent; [reflexivity | first [apply mac_update_alone | apply update_alone | apply C162_alone | exact (proj2 (C162_alone VNone o)) | apply run_act]]].
Qed.
Lemma try_is {S A} : forall (p : proc S A) s, Threads.run (try p) s = (Ok (fst (Threads.run p s)), snd (Threads.run p s)).
Proof. fix IH 1. intros [a|e|k] s; cbn [try Threads.run]; [reflexivity | reflexivity |]. destruct (k s) as [s' p']. apply IH. Qed.
Lemma calls_are : forall cs t, Threads.run (p_calls cs) t = (Ok (fst (World.run do_call cs t)), snd (World.run do_call cs t)).
Proof.
  induction cs as [|c cs IH]; intros t; [reflexivity|]. cbn [p_calls World.run]. rewrite run_bind, try_is, call_is. destruct (do_call c t) as [r t']. cbn [fst snd]. rewrite run_bind, IH. now destruct (World.run do_call cs t') as [rs t''].
Qed.

(** ** Turns *)
Fixpoint turns {S A} (n : nat) (p : proc S A) (s : S) : proc S A * S :=
  match n with
  | O => (p, s)
  | Datatypes.S n => match p with Act k => let (s', p') := k s in turns n p' s' | _ => (p, s) end
  end.
Lemma turns_ended {S A} : forall n (p : proc S A) s r, ended (fst (turns n p s)) = Some r -> Threads.run p s = (r, snd (turns n p s)).
Proof.
  induction n as [|n IH]; intros p s r H; cbn [turns fst snd] in *; [now apply ended_run|]. destruct p as [a|e|k]; [now inversion H | now inversion H |]. cbn [Threads.run]. destruct (k s) as [s' p']. now apply IH.
Qed.
Lemma turns_end {S A} : forall (p : proc S A) s, exists N, forall n, (N <= n)%nat -> exists r, ended (fst (turns n p s)) = Some r.
Proof.
  fix IH 1. intros [a|e|k] s.
  - exists O. intros [|n] _; now eexists.
  - exists O. intros [|n] _; now eexists.
  - destruct (k s) as [s' p'] eqn:E. pose proof (IH p' s') as [N H]. exists (Datatypes.S N). intros [|n] Hn; [lia|]. cbn [turns]. rewrite E. apply H. lia.
Qed.
Definition own_pool (pool : list (proc (list thing) (list (res bytes)))) (w : list thing) : Prop := forall j p, nth_error pool j = Some p -> exists q s, p = with_object j q /\ nth_error w j = Some s.
Lemma go_own : forall sched pool w i q s, own_pool pool w -> nth_error pool i = Some (with_object i q) -> nth_error w i = Some s ->
  nth_error (fst (go sched pool w)) i = Some (with_object i (fst (turns (count_occ Nat.eq_dec sched i) q s))) /\ nth_error (snd (go sched pool w)) i = Some (snd (turns (count_occ Nat.eq_dec sched i) q s)).
Proof.
  induction sched as [|j sched IH]; intros pool w i q s HO Hp Hw; [now split|]. cbn [go count_occ].
  destruct (nth_error pool j) as [p|] eqn:Ej.
  2:{ destruct (Nat.eq_dec j i) as [->|N]; [congruence | now apply IH]. }
  destruct (HO j p Ej) as (q0 & s0 & -> & Ew). destruct (Nat.eq_dec j i) as [->|N].
  - rewrite Hp in Ej. rewrite Hw in Ew. injection Ew as <-. assert (EE : with_object i q0 = with_object i q) by congruence. rewrite EE. clear q0 EE Ej. destruct q as [a|e|k].
    + cbn [with_object]. destruct (IH pool w i (Ret a) s HO Hp Hw) as [A1 A2]. rewrite A1, A2. split; destruct (count_occ Nat.eq_dec sched i); reflexivity.
    + cbn [with_object]. destruct (IH pool w i (Exc e) s HO Hp Hw) as [A1 A2]. rewrite A1, A2. split; destruct (count_occ Nat.eq_dec sched i); reflexivity.
    + cbn [with_object turns]. rewrite Hw. destruct (k s) as [s' p']. apply IH.
      * intros m p Hm. rewrite nth_error_upd in Hm. destruct (Nat.eqb_spec i m) as [<-|M].
        -- rewrite Hp in Hm. inversion Hm; subst p. exists p', s'. split; [reflexivity|]. now rewrite nth_error_upd, Nat.eqb_refl, Hw.
        -- destruct (HO m p Hm) as (q1 & s1 & -> & E1). exists q1, s1. split; [reflexivity|]. rewrite nth_error_upd. destruct (Nat.eqb_spec i m); [contradiction | exact E1].
      * now rewrite nth_error_upd, Nat.eqb_refl, Hp.
      * now rewrite nth_error_upd, Nat.eqb_refl, Hw.
  - destruct q0 as [a|e|k]; cbn [with_object]; [now apply IH | now apply IH |]. rewrite Ew. destruct (k s0) as [s' p']. apply IH.
    + intros m p Hm. rewrite nth_error_upd in Hm. destruct (Nat.eqb_spec j m) as [<-|M].
      * rewrite Ej in Hm. inversion Hm; subst p. exists p', s'. split; [reflexivity|]. now rewrite nth_error_upd, Nat.eqb_refl, Ew.
      * destruct (HO m p Hm) as (q1 & s1 & -> & E1). exists q1, s1. split; [reflexivity|]. rewrite nth_error_upd. destruct (Nat.eqb_spec j m); [contradiction | exact E1].
    + rewrite nth_error_upd. destruct (Nat.eqb_spec j i); [contradiction | exact Hp].
    + rewrite nth_error_upd. destruct (Nat.eqb_spec j i); [contradiction | exact Hw].
Qed.
Lemma threads_nth : forall progs b j, nth_error (threads b progs) j = match nth_error progs j with Some cs => Some (with_object (b + j) (p_calls cs)) | None => None end.
Proof.
  induction progs as [|cs progs IH]; intros b [|j]; cbn [threads nth_error]; [reflexivity | reflexivity | now rewrite Nat.add_0_r |]. rewrite IH. now rewrite Nat.add_succ_r.
Qed.
Lemma threads_own progs things : List.length progs = List.length things -> own_pool (threads 0 progs) things.
Proof.
  intros HL j p H. rewrite threads_nth in H. destruct (nth_error progs j) as [cs|] eqn:E; [|discriminate]. inversion H; subst p. assert (L : (j < List.length progs)%nat) by (apply nth_error_Some; congruence). rewrite HL in L. apply nth_error_Some in L. destruct (nth_error things j) as [s|] eqn:Es; [|contradiction]. exists (p_calls cs), s. now split.
Qed.
Lemma with_object_ended {S A} i (p : proc S A) : ended (with_object i p) = ended p.
Proof. now destruct p. Qed.
Lemma upd_same_length {A} (l : list A) : forall i v, List.length (upd l i v) = List.length l.
Proof. induction l as [|x l IH]; intros [|i] v; cbn [upd List.length]; [reflexivity | reflexivity | reflexivity | now rewrite IH]. Qed.
Lemma go_lengths : forall sched pool w, own_pool pool w -> List.length (fst (go sched pool w)) = List.length pool /\ List.length (snd (go sched pool w)) = List.length w.
Proof.
  induction sched as [|j sched IH]; intros pool w HO; [now split|]. cbn [go]. destruct (nth_error pool j) as [p|] eqn:Ej; [|now apply IH].
  destruct (HO j p Ej) as (q & s & -> & Ew). destruct q as [a|e|k]; cbn [with_object]; [now apply IH | now apply IH |]. rewrite Ew. destruct (k s) as [s' p'].
  destruct (IH (upd pool j (with_object j p')) (upd w j s')) as [A1 A2]; [|rewrite A1, A2, !upd_same_length; now split].
  intros m p Hm. rewrite nth_error_upd in Hm. destruct (Nat.eqb_spec j m) as [<-|M].
  - rewrite Ej in Hm. inversion Hm; subst p. exists p', s'. split; [reflexivity|]. now rewrite nth_error_upd, Nat.eqb_refl, Ew.
  - destruct (HO m p Hm) as (q1 & s1 & -> & E1). exists q1, s1. split; [reflexivity|]. rewrite nth_error_upd. destruct (Nat.eqb_spec j m); [contradiction | exact E1].
Qed.
Lemma threads_length : forall progs b, List.length (threads b progs) = List.length progs.
Proof. induction progs as [|cs progs IH]; intros b; cbn [threads List.length]; [reflexivity | now rewrite IH]. Qed.
Lemma same_nths {A} : forall l1 l2 : list A, (forall i, nth_error l1 i = nth_error l2 i) -> l1 = l2.
Proof.
  induction l1 as [|x l1 IH]; intros [|y l2] H; [reflexivity | discriminate (H O) | discriminate (H O) |]. pose proof (H O) as H0. injection H0 as <-. f_equal. apply IH. intros i. exact (H (Datatypes.S i)).
Qed.
Lemma nth_combine {A B} : forall (l1 : list A) (l2 : list B) i, nth_error (combine l1 l2) i = match nth_error l1 i, nth_error l2 i with Some a, Some b => Some (a, b) | _, _ => None end.
Proof.
  induction l1 as [|x l1 IH]; intros [|y l2] [|i]; cbn [combine nth_error]; try reflexivity; [now destruct (nth_error l1 i) | apply IH].
Qed.
