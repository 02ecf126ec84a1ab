(** * The steps of the generation of random numbers: results, flow, work and what they show. *)
From Verif Require Import PyBase PyState PyFacts PyLoop Utils UtilsFacts Streebog SpecStreebog SpecHashHist SpecHmac StreebogFacts StreebogFacts2 StreebogObj StreebogLemmas HmacLemmas Random SpecRandom RandomLemmas SpecTrace SpecTraceHash Trace TraceLemmas TraceFacts TraceCipher TraceCipherFacts TraceCipher2 TraceHash TraceHashErase TraceHashFlow TraceHashShow TracePbkdf TracePbkdfFacts TracePbkdfWork TraceRandom.
Open Scope string_scope.
Open Scope list_scope.
Open Scope Z_scope.

(** ** Results *)
Lemma both_hash {B} (c : M hash_obj unit) (k : M random_obj B) o : both (on_hash c ;! k) o = bind (ends c (r_hash o)) (fun h => both k (set_hash o h)).
Proof. rewrite both_seq. unfold ends, on_hash. destruct (c (r_hash o)) as [[x|e] h]; reflexivity. Qed.
Lemma both_hash_digest {B} (k : bytes -> M random_obj B) o : both (let! d := on_hash hash_digest in k d) o = bind (fst (hash_digest (r_hash o))) (fun d => both (k d) o).
Proof.
  rewrite both_bind. assert (EH : snd (hash_digest (r_hash o)) = r_hash o) by (unfold hash_digest; destruct (hash_final _) as [[[]|e] x]; reflexivity).
  unfold both at 1, on_hash. destruct (hash_digest (r_hash o)) as [[d|e] h]; cbn [snd] in EH; subst h; [|reflexivity]. cbn [bind fst snd]. destruct o; reflexivity.
Qed.
Lemma erase_inc o : snd (t_inc_rand_u o) = liftO (ends _inc_rand_u o).
Proof. unfold t_inc_rand_u. rewrite snd_step. cbv zeta. rewrite snd_bind, erase_bytes. reflexivity. Qed.
Lemma erase_rand_iter o : snd (t_rand_iter o) = liftO (both _rand_iter o).
Proof.
  unfold t_rand_iter, _rand_iter. rewrite snd_step, snd_if, both_get. destruct (_ >=? _); [reflexivity|]. rewrite both_seq. next erase_inc. rewrite both_get, both_hash. next erase_update. rewrite both_hash_digest. cbn [set_hash r_hash]. next erase_digest.
  rewrite both_hash. next erase_hash_reset. reflexivity.
Qed.
Lemma erase_random o : snd (t_random o) = liftO (both random o).
Proof.
  unfold t_random, random. rewrite snd_step, snd_if, both_get. destruct (_ =? 0); [reflexivity|]. cbv zeta. rewrite both_bind, both_for, snd_bind, liftO_bind.
  rewrite (snd_for _ _ _ t_random_body (fun x p => both ((fun _ result => let! b := _rand_iter in retM (result ++ b)) x (fst p)) (snd p))).
  2: { intros x [r o']. cbn [t_random_body fst snd]. rewrite both_bind. next erase_rand_iter. destruct a; reflexivity. }
  apply bindO_ext. intros [r o']. cbn [fst snd]. rewrite snd_if. destruct (negb _); [|reflexivity]. rewrite both_bind. next erase_rand_iter. destruct a; reflexivity.
Qed.

(** ** Flow *)
Definition running (size : Z) (o o' : random_obj) : Prop := exists sz u sz' u', rnd_is sz size u o /\ rnd_is sz' size u' o'.
Lemma H0_short : short H0 H0.
Proof. exact (init_short_any S512 _ _). Qed.
Lemma bytes_steps v v' : forall xs a a', fst (t_for FUtils 110 xs a (fun pos acc => retT (acc ++ [Z.shiftr (Z.land v (Z.shiftl 0xff (pos * 8))) (pos * 8)]))) = fst (t_for FUtils 110 xs a' (fun pos acc => retT (acc ++ [Z.shiftr (Z.land v' (Z.shiftl 0xff (pos * 8))) (pos * 8)]))).
Proof. induction xs as [|x xs IH]; intros a a'; [reflexivity|]. cbn [t_for]. unfold bindT at 1 2. cbn [step fst snd bindT retT app]. f_equal. apply IH. Qed.
Lemma same_bytes_n v v' n : same pair_ok (t_int_to_bytearray v n) (t_int_to_bytearray v' n).
Proof.
  split.
  - apply (f_equal (map shape)). unfold t_int_to_bytearray. generalize (py_range (n - 1) (-1) (-1)). intros xs. unfold bindT. cbn [step fst snd app]. f_equal. apply bytes_steps.
  - exists (int_to_bytearray v n), (int_to_bytearray v' n). split; [apply erase_bytes|]. split; [apply erase_bytes|]. split; [now rewrite !int_to_bytearray_len | split; apply int_to_bytearray_ok].
Qed.
Lemma both_iter sz size u o : rnd_is sz size u o -> exists b o', both _rand_iter o = Ok (b, o') /\ List.length b = 64%nat /\ bytes_ok b /\ rnd_is sz size ((u + 1) mod register_size) o'.
Proof. intros H. destruct (iter_is sz size u o H) as (o' & E & H'). destruct (block_ok u 1) as [L B]. exists (block u 1), o'. unfold both. rewrite E. split; [reflexivity|]. split; [exact L|]. split; assumption. Qed.
Definition drawn (size : Z) (p p' : bytes * random_obj) : Prop := pair_ok (fst p) (fst p') /\ running size (snd p) (snd p').
Lemma same_iter size o o' : running size o o' -> same (drawn size) (t_rand_iter o) (t_rand_iter o').
Proof.
  intros (sz & u & sz' & u' & H & H'). split.
  - destruct H as [A1 A2 A3 A4 A5 A6 A7 A8], H' as [B1 B2 B3 B4 B5 B6 B7 B8]. unfold t_rand_iter, if_. rewrite A2, A3, A7, B2, B3, B7, !below_limit by assumption. cbv iota.
    match goal with |- map shape (fst ?c) = map shape (fst ?d) => enough (HS : same any c d) by exact (proj1 HS) end. apply same_at_. apply same_at_. eapply same_bind with (R := fun p p' => pair_ok (r_rand_u p) (r_rand_u p') /\ r_hash p = H0 /\ r_hash p' = H0).
    + unfold t_inc_rand_u. apply same_at_. cbv zeta. eapply same_bind; [apply same_bytes_n|]. intros x y Hxy. apply same_ret. split; [exact Hxy|]. split; assumption.
    + intros p p' ((L & Hb & Hb') & -> & ->). eapply same_bind; [apply same_update; [exact H0_short | exact Hb | exact Hb' | exact L]|]. intros h h' Hh. eapply same_bind; [apply same_digest, Hh|]. intros d d' Hd.
      eapply same_bind; [apply same_hash_reset, (al_name _ _ (proj1 Hh))|]. intros g g' Hg. apply same_ret. exact I.
  - destruct (both_iter _ _ _ _ H) as (b & p & E & L & B & HP). destruct (both_iter _ _ _ _ H') as (b' & p' & E' & L' & B' & HP'). exists (b, p), (b', p'). rewrite !erase_rand_iter, E, E'. split; [reflexivity|]. split; [reflexivity|].
    split; [split; [cbn [fst]; lia | split; assumption] | exists sz, ((u + 1) mod register_size), sz', ((u' + 1) mod register_size); split; assumption].
Qed.
Lemma flow_random sz sz' size u u' o o' : rnd_is sz size u o -> rnd_is sz' size u' o' -> seed_part sz u <> 0 -> seed_part sz' u' <> 0 -> map shape (fst (t_random o)) = map shape (fst (t_random o')).
Proof.
  intros H H' N N'. pose proof H as [A1 A2 A3 A4 A5 A6 A7 A8]. pose proof H' as [B1 B2 B3 B4 B5 B6 B7 B8]. unfold t_random, if_. rewrite A2, A3, A5, A6, B2, B3, B5, B6, !seed_value by assumption. rewrite (proj2 (Z.eqb_neq _ _) N), (proj2 (Z.eqb_neq _ _) N'). cbv iota zeta.
  eapply steps_bind; [apply same_step|]. intros _ _ _. eapply steps_bind; [apply same_step|]. intros _ _ _. eapply steps_bind with (R := drawn size).
  - apply same_for; [split; [split; [reflexivity | split; apply Forall_nil] | now exists sz, u, sz', u']|]. intros x [r p] [r' p'] _ [(LR & HR & HR') Hp]. cbn [fst snd] in LR, HR, HR', Hp. cbn [t_random_body]. eapply same_bind; [apply same_iter, Hp|].
    intros [b q] [b' q'] [(LB & HB & HB') Hq]. cbn [fst snd] in LB, HB, HB', Hq. apply same_ret. split; [|exact Hq]. split; [cbn [fst]; rewrite !app_length; lia | split; apply bytes_ok_app; split; assumption].
  - intros [r p] [r' p'] [_ Hp]. cbn [snd] in Hp. eapply steps_bind; [apply same_step|]. intros _ _ _. destruct (negb _); [|reflexivity]. eapply steps_bind; [apply same_iter, Hp|]. intros [b q] [b' q'] _. reflexivity.
Qed.

(** ** The positions *)
Lemma idle_bytes v n : idle (t_int_to_bytearray v n).
Proof. unfold t_int_to_bytearray. apply idle_bind; [reflexivity|]. intros _. apply idle_for. intros x s. reflexivity. Qed.
(** Three calls of the compression function; the first one gives the register. *)
Lemma iter_gives sz size u o : rnd_is sz size u o -> exists L b o', gives (t_rand_iter o) L (b, o') /\ List.length L = (1600 * 3)%nat /\ (forall r, unpad (hash_block (L ++ r)) = be_bytes 63 (u + 1)) /\ rnd_is sz size ((u + 1) mod register_size) o'.
Proof.
  intros H. destruct (both_iter _ _ _ _ H) as (b & o' & E & _ & _ & Ho'). pose proof H as [A1 A2 A3 A4 A5 A6 A7 A8]. pose proof H0_fed as F0. unfold fed in F0. cbn [fold_left] in F0. destruct F0 as (F0 & _ & _).
  destruct (gives_update S512 _ [] _ (be_bytes 63 (u + 1)) F0 (be_ok _ _)) as (lu & h & GU & SU & EU). cbn [app] in SU. rewrite be_length in SU. change (64 * (63 / 64))%nat with 0%nat in SU. cbn [firstn] in SU. pose proof (shows_size _ _ SU) as ZU. cbn [List.length] in ZU. assert (lu = []) by (destruct lu; [reflexivity | cbn [List.length] in ZU; lia]). subst lu. clear ZU SU.
  destruct (fed_update S512 [] H0 (be_bytes 63 (u + 1)) H0_fed (be_ok _ _)) as (h' & EU' & FU). rewrite EU in EU'. assert (h' = h) by congruence. subst h'. clear EU'. pose proof FU as FH. unfold fed in FH. cbn [app fold_left] in FH.
  assert (EF : feed ([], []) (be_bytes 63 (u + 1)) = ([], be_bytes 63 (u + 1))). { unfold feed. cbn [app]. rewrite be_length. reflexivity. }
  rewrite EF in FH. destruct FH as (FH & _ & LB). destruct (gives_digest S512 _ _ h FH LB) as (l1 & l2 & d & GD & SD & L2). pose proof (shows_size _ _ SD) as ZD.
  assert (LP : List.length (pad (be_bytes 63 (u + 1))) = 64%nat) by (unfold pad; rewrite !app_length, repeat_length, be_length; reflexivity). rewrite LP in ZD.
  exists (l1 ++ l2), b, o'. split; [|split; [rewrite app_length; lia | split; [|exact Ho']]].
  - eapply gives_same; [|rewrite erase_rand_iter, E; reflexivity]. unfold t_rand_iter. apply gives_at_; [reflexivity|]. apply gives_if. rewrite A2, A3, A7, below_limit by assumption. eapply gives_idle.
    + unfold t_inc_rand_u. apply gives_at_; [reflexivity|]. cbv zeta. eapply gives_idle; [apply idle_gives; [apply idle_bytes | apply erase_bytes] | apply gives_ret].
    + cbn [set_rand_u r_rand_u r_hash]. rewrite A3, A8, be_value by assumption. change (1 mod 2 ^ (_SIZE_M - 1)) with 1. change (_SIZE_M - 1) with (Z.of_nat 63). rewrite <- be_eq. eapply gives_idle; [exact GU|]. eapply gives_last; [exact GD|]. eapply gives_idle; [|apply gives_ret].
      apply idle_gives; [reflexivity | apply erase_hash_reset].
  - intros r. rewrite <- app_assoc, (shows_first _ _ (l2 ++ r) SD) by lia. rewrite firstn_all2 by lia. exact (unpad_pad [] (be_bytes 63 (u + 1))).
Qed.
Lemma loop_gives sz size : forall n u acc o, rnd_is sz size u o ->
  exists L r, gives (t_for FRandom 136 (repeat tt n) (acc, o) t_random_body) L r /\ List.length L = (1600 * (3 * n))%nat /\ ((0 < n)%nat -> forall r', unpad (hash_block (L ++ r')) = be_bytes 63 (u + 1)) /\ rnd_is sz size ((u + Z.of_nat n) mod register_size) (snd r).
Proof.
  induction n as [|n IH]; intros u acc o H.
  - exists [], (acc, o). split; [|split; [cbn [List.length]; lia | split; [lia|]]].
    + cbn [repeat t_for]. apply gives_at_; [reflexivity|]. apply gives_ret.
    + cbn [snd]. rewrite Z.add_0_r, Z.mod_small by apply H. exact H.
  - destruct (iter_gives _ _ _ _ H) as (L & b & o1 & G & Z & S1 & H1). destruct (IH _ (acc ++ b) o1 H1) as (L' & r & G' & Z' & _ & Hr). exists (L ++ L'), r. split; [|split; [|split]].
    + cbn [repeat t_for]. apply gives_at_; [reflexivity|]. eapply gives_bind; [|exact G']. cbn [t_random_body]. eapply gives_last; [exact G|]. apply gives_ret.
    + rewrite app_length, Z, Z'. lia.
    + intros _ r'. rewrite <- app_assoc. apply S1.
    + rewrite Zplus_mod_idemp_l in Hr. replace (u + Z.of_nat (S n)) with (u + 1 + Z.of_nat n) by lia. exact Hr.
Qed.
Lemma random_gives sz size u o : rnd_is sz size u o -> seed_part sz u <> 0 ->
  exists L r, gives (t_random o) L r /\ List.length L = (1600 * (3 * Z.to_nat (steps size)))%nat /\ (0 < steps size -> forall r', unpad (hash_block (L ++ r')) = be_bytes 63 (u + 1)).
Proof.
  intros H N. pose proof H as [A1 A2 A3 A4 A5 A6 A7 A8]. destruct (loop_gives sz size (whole size) u [] o H) as (L & [r o1] & G & Z & S1 & H1). cbn [snd] in H1. unfold steps.
  assert (P : forall M q, gives (if_ FRandom 139 (negb (size mod 64 =? 0)) (do (b, self) := t_rand_iter o1 in retT (r ++ py_slice b (_SIZE_H - size mod 64) _SIZE_H, self)) (retT (r, o1))) M q -> gives (t_random o) (L ++ M) q).
  { intros M q GM. unfold t_random. apply gives_at_; [reflexivity|]. apply gives_if. rewrite A2, A3, seed_value by assumption. rewrite (proj2 (Z.eqb_neq _ _) N). cbv zeta. rewrite A5, A6. fold (whole size). eapply gives_bind; [exact G|]. exact GM. }
  rewrite rest_zero in P. destruct (Nat.eqb (rest size) 0) eqn:ER; cbn [negb] in P.
  - exists L, (r, o1). split; [rewrite <- (app_nil_r L); apply P, gives_if, gives_ret|]. rewrite Nat.add_0_r. split; [lia|]. intros HP. apply S1. lia.
  - destruct (iter_gives _ _ _ _ H1) as (L2 & b & o2 & G2 & Z2 & S2 & _). exists (L ++ L2), (r ++ py_slice b (_SIZE_H - size mod 64) _SIZE_H, o2). split; [|split].
    + apply P, gives_if. eapply gives_last; [exact G2|]. apply gives_ret.
    + rewrite app_length. lia.
    + intros _ r'. destruct (whole size) as [|n] eqn:EW.
      * assert (L = []) by (destruct L; [reflexivity | cbn [List.length] in Z; lia]). subst L. cbn [app]. rewrite S2. rewrite Z.add_0_r, Z.mod_small by exact A4. reflexivity.
      * rewrite <- app_assoc. apply S1. lia.
Qed.
