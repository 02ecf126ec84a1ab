(** * Interleaved calls of a generator *)
From Verif Require Import PyBase PyState PyFacts Utils UtilsFacts Streebog SpecStreebog StreebogFacts StreebogLemmas StreebogProps Random SpecRandom RandomLemmas Threads ThreadFacts ThreadsRandom.
Open Scope string_scope.
Open Scope list_scope.
Open Scope Z_scope.

Definition next_of (o : random_obj) : random_obj := set_rand_u o (int_to_bytearray (bytearray_to_int (r_rand_u o) + 1 mod 2 ^ (_SIZE_M - 1)) (_SIZE_M - 1)).
Definition limit_exc : exn := GOSTRandomError "GOSTRandomError: exceeded the limit value of the counter".
Definition hashing (o1 : random_obj) : res bytes * random_obj :=
  match on_hash (hash_update (VBytes (r_rand_u o1))) o1 with
  | (Ok _, o2) => match on_hash hash_digest o2 with
                  | (Ok d, o3) => match on_hash hash_reset o3 with (Ok _, o4) => (Ok d, o4) | (Err e, o4) => (Err e, o4) end
                  | (Err e, o3) => (Err e, o3)
                  end
  | (Err e, o2) => (Err e, o2)
  end.
Lemma iter_eq o : _rand_iter o = if bytearray_to_int (py_from (r_rand_u o) (r_size_s o)) >=? r_limit o then (Err limit_exc, set_rand_u o (zero_fill (r_rand_u o))) else hashing (next_of o).
Proof. unfold _rand_iter. unfold bindM at 1, getM at 1. destruct (_ >=? _); reflexivity. Qed.
Lemma iter_alone o : run p_rand_iter o = _rand_iter o.
Proof.
  rewrite iter_eq. unfold p_rand_iter. rewrite run_bind, run_act. unfold used_up. unfold bindM at 1, getM at 1, retM at 1.
  destruct (bytearray_to_int (py_from (r_rand_u o) (r_size_s o)) >=? r_limit o); [reflexivity|].
  rewrite run_bind, run_act. unfold read_next. unfold bindM at 1, getM at 1, retM at 1. rewrite run_bind, run_act. unfold write_next. unfold bindM at 1, getM at 1, putM at 1. fold (next_of o). unfold hashing.
  rewrite run_bind, run_act. unfold bindM at 1, getM at 1. destruct (on_hash (hash_update (VBytes (r_rand_u (next_of o)))) (next_of o)) as [[u|e] o2]; [|reflexivity].
  rewrite run_bind, run_act. destruct (on_hash hash_digest o2) as [[d|e] o3]; [|reflexivity].
  rewrite run_bind, run_act. destruct (on_hash hash_reset o3) as [[u'|e] o4]; reflexivity.
Qed.
Lemma on_hash_keeps {A} (f : random_obj -> Z) (c : M hash_obj A) : (forall o h, f (set_hash o h) = f o) -> keeps f (on_hash c).
Proof. intros H o. unfold on_hash. destruct (c (r_hash o)) as [r h]. apply H. Qed.
Lemma iter_keeps f : (forall o h, f (set_hash o h) = f o) -> (forall o u, f (set_rand_u o u) = f o) -> keeps f _rand_iter.
Proof.
  intros H1 H2 o. rewrite iter_eq. destruct (_ >=? _); [apply H2|]. assert (E1 : f (next_of o) = f o) by apply H2. rewrite <- E1. generalize (next_of o) as o1. clear o E1. intros o1. unfold hashing.
  pose proof (on_hash_keeps f (hash_update (VBytes (r_rand_u o1))) H1 o1) as E2. destruct (on_hash _ o1) as [[u|e] o2]; cbn [snd] in *; [|congruence].
  pose proof (on_hash_keeps f hash_digest H1 o2) as E3. destruct (on_hash _ o2) as [[d|e] o3]; cbn [snd] in *; [|congruence].
  pose proof (on_hash_keeps f hash_reset H1 o3) as E4. destruct (on_hash _ o3) as [[d'|e] o4]; cbn [snd] in *; congruence.
Qed.
Definition rand_loop (n : nat) : M random_obj bytes := forM (repeat tt n) [] (fun _ result => let! b := _rand_iter in retM (result ++ b)).
Lemma random_eq o : random o = if bytearray_to_int (py_upto (r_rand_u o) (r_size_s o)) =? 0 then (Err seed_error, o) else
  match rand_loop (Z.to_nat (r_q o)) o with
  | (Ok result, o1) => if negb (r_r o =? 0) then match _rand_iter o1 with (Ok b, o2) => (Ok (result ++ py_slice b (_SIZE_H - r_r o) _SIZE_H), o2) | (Err e, o2) => (Err e, o2) end else (Ok result, o1)
  | (Err e, o1) => (Err e, o1)
  end.
Proof.
  unfold random. unfold bindM at 1, getM at 1. destruct (_ =? 0); [reflexivity|]. unfold bindM at 1. fold (rand_loop (Z.to_nat (r_q o))). destruct (rand_loop _ o) as [[b|e] o1]; [|reflexivity]. now destruct (negb _).
Qed.
Lemma random_alone o : run p_random o = random o.
Proof.
  rewrite random_eq. unfold p_random. rewrite run_bind, run_act. unfold seed_zero. unfold bindM at 1, getM at 1, retM at 1. destruct (_ =? 0); [reflexivity|].
  rewrite run_bind, run_act. unfold bindM at 1, getM at 1, retM at 1. rewrite run_bind.
  rewrite (run_for _ _ (fun _ result => let! b := _rand_iter in retM (result ++ b))).
  2:{ intros x acc s. rewrite run_bind, iter_alone. unfold bindM. now destruct (_rand_iter s) as [[b|e] s']. }
  fold (rand_loop (Z.to_nat (r_q o))).
  assert (HK : r_r (snd (rand_loop (Z.to_nat (r_q o)) o)) = r_r o).
  { apply (for_keeps r_r). intros x acc s. unfold bindM. pose proof (iter_keeps r_r (fun _ _ => eq_refl) (fun _ _ => eq_refl) s) as E. destruct (_rand_iter s) as [[b|e] s']; exact E. }
  destruct (rand_loop _ o) as [[b|e] o1]; [|reflexivity]. cbn [snd] in HK. rewrite run_bind, run_act. unfold bindM at 1, getM at 1, retM at 1. rewrite HK. destruct (negb _); [|reflexivity].
  rewrite run_bind, iter_alone. now destruct (_rand_iter o1) as [[c|e] o2].
Qed.

(** ** One thread alone for a while *)
Definition fin {S A} (r : res A) : proc S A := match r with Ok a => Ret a | Err e => Exc e end.
Lemma go_app {S A} s1 s2 : forall (pool : list (proc S A)) s, go (s1 ++ s2) pool s = let (pool', s') := go s1 pool s in go s2 pool' s'.
Proof. induction s1 as [|i s1 IH]; intros pool s; [reflexivity|]. cbn [app go]. destruct (nth_error pool i) as [[a|e|k]|]; try apply IH. destruct (k s). apply IH. Qed.
Lemma go_second {S A} (q : proc S A) : forall p s, exists n, go (repeat 1%nat n) [q; p] s = ([q; fin (fst (run p s))], snd (run p s)).
Proof.
  fix IH 1. intros [a|e|k] s; [now exists O | now exists O|]. destruct (k s) as [s' p'] eqn:E. destruct (IH p' s') as [n H]. exists (Datatypes.S n). cbn. rewrite E. cbn in H. exact H.
Qed.
Lemma go_first {S A} (q : proc S A) : forall p s, exists n, go (repeat 0%nat n) [p; q] s = ([fin (fst (run p s)); q], snd (run p s)).
Proof.
  fix IH 1. intros [a|e|k] s; [now exists O | now exists O|]. destruct (k s) as [s' p'] eqn:E. destruct (IH p' s') as [n H]. exists (Datatypes.S n). cbn. rewrite E. cbn in H. exact H.
Qed.
(** A thread that has only read so far, and will next assign the register from what it read. *)
Definition apart (s s' : random_obj) : Prop := forall x, set_rand_u s x = set_rand_u s' x.
Definition waits (p : proc random_obj bytes) (s : random_obj) (P : proc random_obj bytes) : Prop :=
  (exists n, forall q, go (repeat 0%nat n) [p; q] s = ([P; q], s)) /\ forall s1 s2, apart s1 s2 -> run P s1 = run P s2.
Lemma twice p s P : waits p s P -> apart s (snd (run p s)) -> exists sched, go sched [p; p] s = ([fin (fst (run p s)); fin (fst (run p s))], snd (run p s)).
Proof.
  intros [[n H] HP] HA.
  destruct (go_second P p s) as [k K]. destruct (go_first (fin (fst (run p s))) P (snd (run p s))) as [l L].
  assert (E : run P s = run p s).
  { destruct (go_first (Ret []) P s) as [l1 L1]. destruct (go_first (Ret []) p s) as [l2 L2]. pose proof (H (Ret [])) as H1.
    assert (G1 : go (repeat 0%nat (n + l1 + l2)) [p; Ret []] s = ([fin (fst (run P s)); Ret []], snd (run P s))).
    { rewrite !repeat_app, !go_app, H1, L1. clear. induction l2 as [|l2 IH]; [reflexivity|]. cbn [repeat go nth_error]. destruct (fst (run P s)); exact IH. }
    assert (G2 : go (repeat 0%nat (n + l1 + l2)) [p; Ret []] s = ([fin (fst (run p s)); Ret []], snd (run p s))).
    { replace (n + l1 + l2)%nat with (l2 + (n + l1))%nat by lia. rewrite repeat_app, go_app, L2. generalize (n + l1)%nat as m. clear. induction m as [|m IH]; [reflexivity|]. cbn [repeat go nth_error]. destruct (fst (run p s)); exact IH. }
    rewrite G1 in G2. injection G2 as F1 F2. destruct (run P s) as [[a|e] s1], (run p s) as [[b|e'] s2]; cbn in F1, F2; congruence. }
  rewrite <- (HP _ _ HA), E in L.
  exists (repeat 0%nat n ++ repeat 1%nat k ++ repeat 0%nat l). rewrite go_app, (H p), go_app, K. exact L.
Qed.

(** ** A call of the generator waits after its first reading of the register *)
Lemma step1 {S A B} (m : M S A) (f : A -> proc S B) (q : proc S B) sched s a : m s = (Ok a, s) -> go (0%nat :: sched) [bindP (act m) f; q] s = go sched [f a; q] s.
Proof. intros H. cbn. now rewrite H. Qed.
Lemma step2 {S A B C} (m : M S A) (f : A -> proc S B) (g : B -> proc S C) (q : proc S C) sched s a : m s = (Ok a, s) -> go (0%nat :: sched) [bindP (bindP (act m) f) g; q] s = go sched [bindP (f a) g; q] s.
Proof. intros H. cbn. now rewrite H. Qed.
Lemma step4 {S A B C D E} (m : M S A) (f : A -> proc S B) (g : B -> proc S C) (h : C -> proc S D) (i : D -> proc S E) (q : proc S E) sched s a : m s = (Ok a, s) ->
  go (0%nat :: sched) [bindP (bindP (bindP (bindP (act m) f) g) h) i; q] s = go sched [bindP (bindP (bindP (f a) g) h) i; q] s.
Proof. intros H. cbn. now rewrite H. Qed.
Lemma write_apart v s1 s2 : apart s1 s2 -> write_next v s1 = write_next v s2.
Proof. intros H. unfold write_next, bindM, getM, putM. now rewrite H. Qed.
Lemma write_run {B} v (f : unit -> proc random_obj B) s1 s2 : apart s1 s2 -> run (bindP (act (write_next v)) f) s1 = run (bindP (act (write_next v)) f) s2.
Proof. intros H. rewrite !run_bind, !run_act. now rewrite (write_apart v s1 s2 H). Qed.
Lemma bind_run {A B} (p : proc random_obj A) (f : A -> proc random_obj B) s1 s2 : run p s1 = run p s2 -> run (bindP p f) s1 = run (bindP p f) s2.
Proof. intros H. rewrite !run_bind. now rewrite H. Qed.
Lemma random_waits sz size u o : rnd_is sz size u o -> seed_part sz u <> 0 -> 1 <= size -> exists P, waits p_random o P.
Proof.
  intros Ho HS Hz. pose proof Ho as [H1 H2 H3 H4 H5 H6 H7 H8].
  assert (Z0 : seed_zero o = (Ok false, o)). { unfold seed_zero, bindM, getM, retM. rewrite H2, H3, seed_value by assumption. apply Z.eqb_neq in HS. now rewrite HS. }
  assert (L0 : used_up o = (Ok false, o)). { unfold used_up, bindM, getM, retM. rewrite H2, H3, H7, below_limit by assumption. reflexivity. }
  destruct (Z.to_nat (size / 64)) as [|n] eqn:En.
  - assert (HR : negb (size mod 64 =? 0) = true) by (apply negb_true_iff, Z.eqb_neq; assert (0 <= size / 64) by (apply Z.div_pos; lia); pose proof (Z.div_mod size 64); lia).
    eexists. split.
    + exists 5%nat. intros q. unfold p_random. cbn [repeat]. rewrite (step1 _ _ _ _ _ _ Z0). cbn match. erewrite step1 by reflexivity. rewrite H5, En. cbn [repeat forP bindP].
      erewrite step1 by reflexivity. rewrite H6, HR. unfold p_rand_iter. rewrite (step2 _ _ _ _ _ _ _ L0). cbn match. erewrite step2 by reflexivity. reflexivity.
    + intros s1 s2 HA. apply bind_run. now apply write_run.
  - eexists. split.
    + exists 4%nat. intros q. unfold p_random. cbn [repeat]. rewrite (step1 _ _ _ _ _ _ Z0). cbn match. erewrite step1 by reflexivity. rewrite H5, En. cbn [repeat forP].
      unfold p_rand_iter at 1. rewrite (step4 _ _ _ _ _ _ _ _ _ L0). cbn match. erewrite step4 by reflexivity. reflexivity.
    + intros s1 s2 HA. apply bind_run, bind_run, bind_run. now apply write_run.
Qed.
Lemma is_apart sz size u u' o o' : rnd_is sz size u o -> rnd_is sz size u' o' -> apart o o'.
Proof.
  intros [_ A1 _ _ A3 A4 A5 A6] [_ B1 _ _ B3 B4 B5 B6] x. unfold set_rand_u. now rewrite A1, A3, A4, A5, A6, B1, B3, B4, B5, B6.
Qed.
Lemma random_twice sz size u o : rnd_is sz size u o -> seed_part sz u <> 0 -> 1 <= size ->
  exists sched o', random o = (Ok (output u size), o') /\ rnd_is sz size ((u + steps size) mod register_size) o' /\ go sched [p_random; p_random] o = ([Ret (output u size); Ret (output u size)], o').
Proof.
  intros Ho HS Hz. pose proof (random_is sz size u o Ho) as HR. pose proof HS as HS'. apply Z.eqb_neq in HS'. rewrite HS' in HR. destruct HR as (o' & E & Ho').
  destruct (random_waits sz size u o Ho HS Hz) as (P & HW). destruct (twice p_random o P HW) as (sched & G); [rewrite random_alone, E; exact (is_apart _ _ _ _ _ _ Ho Ho')|].
  exists sched, o'. split; [exact E|]. split; [exact Ho'|]. rewrite random_alone, E in G. exact G.
Qed.
