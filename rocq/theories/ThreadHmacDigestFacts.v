(** * Values taken during an update of an HMAC object *)
From Verif Require Import PyBase PyState PyFacts Utils UtilsFacts Streebog SpecStreebog SpecHashHist StreebogFacts StreebogObj StreebogLemmas StreebogProps Hmac SpecHmac HmacLemmas HmacProps Threads ThreadFacts ThreadsRandom ThreadRandomFacts ThreadsHash ThreadHashFacts ThreadsHmac ThreadsHashDigest ThreadHashDigestFacts ThreadsHmacDigest.
Open Scope string_scope.
Open Scope list_scope.
Open Scope Z_scope.

(** [n] statements of a call. *)
Fixpoint steps {S A} (n : nat) (p : proc S A) (s : S) : proc S A * S :=
  match n, p with
  | Datatypes.S n, Act k => let (s', p') := k s in steps n p' s'
  | _, _ => (p, s)
  end.
Lemma steps_ended {S A} n (p : proc S A) s : match p with Act _ => False | _ => True end -> steps n p s = (p, s).
Proof. destruct n, p; cbn; tauto. Qed.
Lemma go_steps {S A} (q : proc S A) n : forall p s, go (repeat 0%nat n) [p; q] s = ([fst (steps n p s); q], snd (steps n p s)).
Proof.
  induction n as [|n IH]; intros p s; [reflexivity|]. cbn [repeat go nth_error steps]. destruct p as [a|e|k]; [now rewrite IH, steps_ended | now rewrite IH, steps_ended|]. destruct (k s) as [s' p']. cbn [upd]. apply IH.
Qed.
Lemma run_steps {S A} n : forall (p : proc S A) s, Threads.run (fst (steps n p s)) (snd (steps n p s)) = Threads.run p s.
Proof. induction n as [|n IH]; intros p s; [reflexivity|]. destruct p as [a|e|k]; try reflexivity. cbn [steps Threads.run]. destruct (k s) as [s' p']. apply IH. Qed.
(** A thread acts while the other one pauses. *)
Lemma pause {S A} n (p q : proc S A) s r : Threads.run q (snd (steps n p s)) = (r, snd (steps n p s)) ->
  exists sched, go sched [p; q] s = ([fin (fst (Threads.run p s)); fin r], snd (Threads.run p s)).
Proof.
  intros E. destruct (go_second (fst (steps n p s)) q (snd (steps n p s))) as [k K]. rewrite E in K. cbn [fst snd] in K. destruct (go_first (fin r) (fst (steps n p s)) (snd (steps n p s))) as [l L]. rewrite run_steps in L.
  exists (repeat 0%nat n ++ repeat 1%nat k ++ repeat 0%nat l). rewrite go_app, go_steps, go_app, K. exact L.
Qed.
Lemma steps_ret {S A B} (x : B) n : forall (p : proc S A) s, snd (steps n (bindP p (fun _ => Ret x)) s) = snd (steps n p s).
Proof. induction n as [|n IH]; intros p s; [reflexivity|]. destruct p as [a|e|k]; try reflexivity. cbn [steps bindP]. destruct (k s) as [s' p']. apply IH. Qed.
Lemma steps_act {S A B} (m : M S A) (f : A -> proc S B) n s a s' : m s = (Ok a, s') -> steps (Datatypes.S n) (bindP (act m) f) s = steps n (f a) s'.
Proof. intros E. cbn. now rewrite E. Qed.
Lemma steps_within {A} n : forall (p : proc hash_obj A) o, snd (steps n (within p) o) = hm_set_hasher o (snd (steps n p (hm_hasher o))).
Proof.
  induction n as [|n IH]; intros p o; [now destruct o|]. destruct p as [a|e|k]; try (now destruct o). cbn [steps within]. destruct (k (hm_hasher o)) as [h p']. rewrite IH. now destruct o.
Qed.
Lemma run_within {A} : forall (p : proc hash_obj A) o, Threads.run (within p) o = (fst (Threads.run p (hm_hasher o)), hm_set_hasher o (snd (Threads.run p (hm_hasher o)))).
Proof.
  fix IH 1. intros [a|e|k] o; [destruct o; reflexivity | destruct o; reflexivity|]. cbn [Threads.run within]. destruct (k (hm_hasher o)) as [h p']. rewrite IH. destruct o; reflexivity.
Qed.
Lemma blocks_alone data o : Threads.run (p_hmac_blocks data) o = hmac_update data o.
Proof.
  destruct data as [d|s|z|]; try reflexivity. unfold p_hmac_blocks, hmac_update. rewrite run_bind, run_act. unfold count_call, bindM at 1, getM at 1, putM at 1. rewrite run_bind, run_act. unfold calls_counted at 1, bindM at 1, getM at 1, retM at 1.
  match goal with |- _ = bindM getM ?f o => change (bindM getM f o) with (f o o) end. cbv beta. match goal with |- _ = bindM (putM ?s) ?f o => change (bindM (putM s) f o) with (f tt s) end. cbv beta. set (o1 := hm_set_counter o _). match goal with |- _ = bindM getM ?f o1 => change (bindM getM f o1) with (f o1 o1) end. cbv beta.
  assert (HO : forall x, Threads.run (within (p_update x)) o1 = on_hasher (hash_update x) o1) by (intros x; rewrite run_within, update_alone; unfold on_hasher; destruct (hash_update x (hm_hasher o1)) as [r h]; reflexivity).
  destruct (hm_counter o1 =? 1) eqn:E; [rewrite run_bind, run_act; apply HO|]. rewrite run_bind, run_act. unfold calls_counted, bindM at 1, getM at 1, retM at 1. rewrite E. cbn [negb]. apply HO.
Qed.

(** The hash object after [k] blocks of an update. *)
Lemma fed_holds v P b o : holds v (after v P) b o -> (List.length P mod 64 = 0)%nat -> (List.length b < 64)%nat -> StreebogLemmas.fed v [P ++ b] o.
Proof.
  intros Ho HP Hb. unfold StreebogLemmas.fed. cbn [fold_left SpecHashHist.feed app]. rewrite app_length. pose proof (Nat.div_mod_eq (List.length P) 64) as HD. set (q := (List.length P / 64)%nat) in *.
  assert (EQ : ((List.length P + List.length b) / 64 = q)%nat) by (replace (List.length P + List.length b)%nat with (q * 64 + List.length b)%nat by lia; rewrite Nat.div_add_l, Nat.div_small by lia; lia).
  assert (EM : ((List.length P + List.length b) mod 64 = List.length b)%nat) by (rewrite Nat.add_mod, HP by lia; cbn [Nat.add]; rewrite !Nat.mod_mod, Nat.mod_small by lia; reflexivity).
  rewrite EQ, EM. replace (64 * q)%nat with (List.length P) by lia. rewrite firstn_app, skipn_app, Nat.sub_diag, firstn_all, skipn_all. change (firstn 0 b) with (@nil Z). change (skipn 0 b) with b. rewrite app_nil_r. cbn [app].
  split; [|split; [exact HP|]].
  - destruct (Nat.eqb_spec (List.length b) 0) as [E|E]; [destruct b; [exact Ho | discriminate E] | exact Ho].
  - destruct (List.length b =? 0)%nat; [cbn; lia | exact Hb].
Qed.
Lemma steps_bind2 {S A B C} (f : A -> proc S B) (g : B -> proc S C) : forall (p : proc S A) s a s', Threads.run p s = (Ok a, s') ->
  exists n, forall l, steps (n + l) (bindP (bindP p f) g) s = steps l (bindP (f a) g) s'.
Proof.
  fix IH 1. intros [a|e|k] s b s' H; [injection H as <- <-; exists O; reflexivity | discriminate H|]. cbn [Threads.run] in H. destruct (k s) as [s1 p'] eqn:E. destruct (IH p' s1 b s' H) as [n Hn]. exists (Datatypes.S n). intros l. cbn [Nat.add steps bindP]. rewrite E. apply Hn.
Qed.
Lemma steps_for {S A B C} (f : A -> B -> proc S B) (g : B -> proc S C) ys xs : forall acc s a s', Threads.run (forP xs acc f) s = (Ok a, s') ->
  exists n, steps n (bindP (forP (xs ++ ys) acc f) g) s = (bindP (forP ys a f) g, s').
Proof.
  induction xs as [|x xs IH]; intros acc s a s' H; [injection H as <- <-; now exists O|]. cbn [forP app] in *. rewrite run_bind in H. destruct (Threads.run (f x acc) s) as [[b|e] s1] eqn:E; [|discriminate H].
  destruct (steps_bind2 (fun acc' => forP (xs ++ ys) acc' f) g (f x acc) s b s1 E) as [n N]. destruct (IH b s1 a s' H) as [k K]. exists (n + k)%nat. rewrite N. exact K.
Qed.
Lemma update_reach v m o d k : StreebogLemmas.fed v [m] o -> bytes_ok d -> (64 * k <= List.length m mod 64 + List.length d)%nat ->
  exists n, StreebogLemmas.fed v [firstn (64 * (List.length m / 64 + k)) (m ++ d) ++ skipn (64 * (List.length m / 64)) m] (snd (steps n (p_update (VBytes d)) o)).
Proof.
  unfold StreebogLemmas.fed at 1. cbn [fold_left SpecHashHist.feed app]. intros (Ho & HP & Hb) Hd Hk. set (q := (List.length m / 64)%nat) in *. pose proof (Nat.div_mod_eq (List.length m) 64) as HDM. fold q in HDM. pose proof (Nat.mod_upper_bound (List.length m) 64) as HM.
  assert (EB : (if (List.length m mod 64 =? 0)%nat then [] else skipn (64 * q) m) = skipn (64 * q) m) by (destruct (Nat.eqb_spec (List.length m mod 64) 0) as [E|E]; [symmetry; apply skipn_all2; lia | reflexivity]). rewrite EB in Ho, Hb.
  set (P := firstn (64 * q) m) in *. set (b := skipn (64 * q) m) in *. assert (LB : List.length b = (List.length m mod 64)%nat) by (unfold b; rewrite skipn_length; lia).
  assert (LP : List.length P = (64 * q)%nat) by (unfold P; apply firstn_length_le; lia).
  assert (EF : firstn (64 * (q + k)) (m ++ d) = P ++ firstn (64 * k) (b ++ d)).
  { rewrite <- (firstn_skipn (64 * q) m) at 1. fold P b. rewrite <- app_assoc. rewrite firstn_app, LP. rewrite firstn_all2 by lia. do 2 f_equal. lia. }
  rewrite EF. assert (LF : List.length (firstn (64 * k) (b ++ d)) = (64 * k)%nat) by (apply firstn_length_le; rewrite app_length; lia).
  assert (EQ : after v (P ++ firstn (64 * k) (b ++ d)) = fst (stage2 k (after v P) (b ++ d))).
  { unfold after. rewrite app_length, LF, LP. replace ((64 * q + 64 * k) / 64)%nat with (q + k)%nat by (rewrite <- Nat.mul_add_distr_l, Nat.mul_comm, Nat.div_mul; lia). replace (64 * q / 64)%nat with q by (rewrite Nat.mul_comm, Nat.div_mul; lia). rewrite stage2_add, stage2_app by exact LP. cbn [fst snd]. apply stage2_cut. rewrite app_length. lia. }
  pose proof (ho_buff _ _ _ _ Ho) as Hbu. pose proof (ho_bytes _ _ _ _ Ho) as Hbb. set (D := b ++ d) in *. assert (HD : bytes_ok D) by (apply bytes_ok_app; tauto). set (n := (List.length D / 64)%nat). assert (En : len D / _BLOCK_SIZE = Z.of_nat n) by (unfold n, len, _BLOCK_SIZE; lia).
  assert (LD : List.length D = (List.length m mod 64 + List.length d)%nat) by (unfold D; rewrite app_length; lia). assert (Hkn : (k <= n)%nat) by (unfold n; apply Nat.div_le_lower_bound; lia).
  set (o1 := set_num_block o (Z.of_nat n)). assert (Ho1 : holds v (after v P) b o1) by (destruct Ho; split; assumption).
  destruct (update_loop v D b HD k 0 (after v P) o1 ltac:(lia) Ho1) as (om & Em & Hm). change (skipn (64 * 0) D) with D in Hm. rewrite <- EQ in Hm.
  assert (ER : py_range 0 (Z.of_nat n * 64) 64 = map (fun j => 64 * Z.of_nat j) (seq 0 k) ++ map (fun j => 64 * Z.of_nat j) (seq k (n - k))) by (rewrite range_64, <- map_app, <- seq_app; do 2 f_equal; lia).
  rewrite <- (run_for _ (fun i _ => p_block D i)) in Em by (intros x [] s0; apply block_alone).
  destruct (steps_for (fun i _ => p_block D i) (fun _ => let& _ := act (count_pad D) in let& p := act pad_count in if p <? _BLOCK_SIZE then act (keep_rest D) else Ret tt) (map (fun j => 64 * Z.of_nat j) (seq k (n - k))) _ tt o1 tt om Em) as [l L].
  exists (3 + l)%nat. cbn [Nat.add]. unfold p_update. rewrite (steps_act (join d) p_joined _ o D o) by (unfold join, bindM, getM, retM; now rewrite Hbu). unfold p_joined.
  rewrite (steps_act _ _ _ o tt o1) by (unfold count_blocks, bindM, getM, putM; now rewrite En). rewrite (steps_act _ _ _ o1 (Z.of_nat n) o1) by reflexivity. change (Z.of_nat n * _BLOCK_SIZE) with (Z.of_nat n * 64). change (py_range 0 (Z.of_nat n * 64) _BLOCK_SIZE) with (py_range 0 (Z.of_nat n * 64) 64). rewrite ER. rewrite L. cbn [snd].
  apply fed_holds; [exact Hm | | rewrite LB; lia]. rewrite app_length, LF, LP, <- Nat.mul_add_distr_l, Nat.mul_comm. apply Nat.mod_mul. lia.
Qed.

(** The HMAC object after [k] blocks of an update. *)
Lemma hm_reach_first v k0 o d k : state_is v k0 [] 0 o -> bytes_ok d -> (64 * k <= List.length d)%nat ->
  exists n, state_is v k0 [with_pad 0x36 (firstn 64 k0) ++ firstn (64 * k) d] 1 (snd (steps n (p_hmac_blocks (VBytes d)) o)).
Proof.
  intros [H1 H2 H3 H4 H5 H6 H7] Hd Hk. set (B := with_pad 0x36 (firstn 64 k0)). assert (LB : List.length B = 64%nat) by (unfold B; rewrite with_pad_length, firstn_length_le; lia).
  assert (HB : bytes_ok (B ++ d)) by (apply bytes_ok_app; split; [apply with_pad_ok; [unfold byte_ok; lia | now apply bytes_ok_firstn] | exact Hd]).
  destruct (update_reach v [] (hm_hasher o) (B ++ d) (Datatypes.S k) H4 HB) as [n N]; [rewrite app_length, LB; change (List.length (@nil Z) mod 64)%nat with 0%nat; lia|].
  change (List.length (@nil Z) / 64)%nat with 0%nat in N. cbn [Nat.add app] in N. replace (64 * Datatypes.S k)%nat with (List.length B + 64 * k)%nat in N by lia. rewrite firstn_app_2 in N. change (skipn (64 * 0) (@nil Z)) with (@nil Z) in N. rewrite app_nil_r in N.
  set (o1 := hm_set_counter o (hm_counter o + 1)). exists (3 + n)%nat. cbn [Nat.add]. unfold p_hmac_blocks. rewrite (steps_act _ _ _ o tt o1) by reflexivity. rewrite (steps_act _ _ _ o1 (hm_counter o1) o1) by reflexivity.
  replace (hm_counter o1 =? 1) with true by (symmetry; apply Z.eqb_eq; unfold o1; cbn [hm_set_counter hm_counter]; lia). rewrite (steps_act _ _ _ o1 (hm_key o1) o1) by reflexivity. change (hm_key o1) with (hm_key o). rewrite H1, i_pad. fold B. rewrite steps_within. change (hm_hasher o1) with (hm_hasher o).
  split; cbn [hm_set_hasher hm_set_counter o1 hm_key hm_hasher hm_counter hm_oid]; try assumption; lia.
Qed.
Lemma hm_reach_later v k0 m c o d k : state_is v k0 [m] c o -> 0 < c -> bytes_ok d -> (64 * k <= List.length m mod 64 + List.length d)%nat ->
  exists n, state_is v k0 [firstn (64 * (List.length m / 64 + k)) (m ++ d) ++ skipn (64 * (List.length m / 64)) m] (c + 1) (snd (steps n (p_hmac_blocks (VBytes d)) o)).
Proof.
  intros [H1 H2 H3 H4 H5 H6 H7] Hc Hd Hk. destruct (update_reach v m (hm_hasher o) d k H4 Hd Hk) as [n N].
  set (o1 := hm_set_counter o (hm_counter o + 1)). exists (3 + n)%nat. cbn [Nat.add]. unfold p_hmac_blocks. rewrite (steps_act _ _ _ o tt o1) by reflexivity. rewrite (steps_act _ _ _ o1 (hm_counter o1) o1) by reflexivity.
  assert (E1 : (hm_counter o1 =? 1) = false) by (apply Z.eqb_neq; unfold o1; cbn [hm_set_counter hm_counter]; lia). rewrite E1. rewrite (steps_act _ _ _ o1 (hm_counter o1) o1) by reflexivity. rewrite E1. cbn [negb]. rewrite steps_within. change (hm_hasher o1) with (hm_hasher o).
  split; cbn [hm_set_hasher hm_set_counter o1 hm_key hm_hasher hm_counter hm_oid]; try assumption; lia.
Qed.
(** The value taken there. *)
Lemma hm_taken v k0 x c o n d : state_is v k0 [x] c (snd (steps n (p_hmac_blocks (VBytes d)) o)) ->
  exists sched, go sched [p_hmac (MUpd (VBytes d)); p_hmac MDig] o = ([fin (let* _ := fst (hmac_update (VBytes d) o) in Ok None); Ret (Some (outer v (firstn 64 k0) (streebog v x)))], snd (hmac_update (VBytes d) o)).
Proof.
  intros HS. assert (E : Threads.run (p_hmac MDig) (snd (steps n (p_hmac (MUpd (VBytes d))) o)) = (Ok (Some (outer v (firstn 64 k0) (streebog v x))), snd (steps n (p_hmac (MUpd (VBytes d))) o))).
  { cbn [p_hmac]. rewrite (steps_ret (@None bytes)). unfold p_hmac_digest. rewrite run_bind, run_act, (digest_is _ _ _ _ _ HS), one_effective. reflexivity. }
  destruct (pause n (p_hmac (MUpd (VBytes d))) (p_hmac MDig) o _ E) as (sched & G). exists sched. rewrite G. cbn [p_hmac]. rewrite run_bind, blocks_alone. destruct (hmac_update (VBytes d) o) as [[u|e] o']; reflexivity.
Qed.
