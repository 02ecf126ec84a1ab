(** * Digests taken during an update of a hash object *)
From Verif Require Import PyBase PyState PyFacts Utils UtilsFacts Streebog SpecStreebog SpecHashHist StreebogFacts StreebogObj StreebogLemmas StreebogProps Threads ThreadFacts ThreadsRandom ThreadRandomFacts ThreadsHash ThreadHashFacts ThreadsHashDigest.
Open Scope string_scope.
Open Scope list_scope.
Open Scope Z_scope.

Lemma digest_same o : snd (hash_digest o) = o.
Proof. unfold hash_digest. now destruct (hash_final o) as [[u|e] o1]. Qed.
Lemma bind_first3 {S A B C D} (f : A -> proc S B) (g : B -> proc S C) (h : C -> proc S D) (q : proc S D) : forall (p : proc S A) s a s', run p s = (Ok a, s') ->
  exists n, go (repeat 0%nat n) [bindP (bindP (bindP p f) g) h; q] s = ([bindP (bindP (f a) g) h; q], s').
Proof.
  fix IH 1. intros [a|e|k] s b s' H; [injection H as <- <-; now exists O | discriminate H|]. cbn [run] in H. destruct (k s) as [s1 p'] eqn:E. destruct (IH p' s1 b s' H) as [n Hn]. exists (Datatypes.S n). cbn. rewrite E. cbn in Hn. exact Hn.
Qed.
Lemma step2' {S A B C} (m : M S A) (f : A -> proc S B) (g : B -> proc S C) (q : proc S C) sched s a s' : m s = (Ok a, s') -> go (0%nat :: sched) [bindP (bindP (act m) f) g; q] s = go sched [bindP (f a) g; q] s'.
Proof. intros E. cbn. rewrite E. reflexivity. Qed.
(** The first rounds of a loop. *)
Lemma for_first {S A B C D} (f : A -> B -> proc S B) (g : B -> proc S C) (h : C -> proc S D) (q : proc S D) ys xs : forall acc s a s', run (forP xs acc f) s = (Ok a, s') ->
  exists n, go (repeat 0%nat n) [bindP (bindP (forP (xs ++ ys) acc f) g) h; q] s = ([bindP (bindP (forP ys a f) g) h; q], s').
Proof.
  induction xs as [|x xs IH]; intros acc s a s' H; [injection H as <- <-; now exists O|]. cbn [forP app] in *. rewrite run_bind in H. destruct (run (f x acc) s) as [[b|e] s1] eqn:E; [|discriminate H].
  destruct (bind_first3 (fun acc' => forP (xs ++ ys) acc' f) g h q (f x acc) s b s1 E) as [n N]. destruct (IH b s1 a s' H) as [k K]. exists (n + k)%nat. rewrite repeat_app, go_app, N. exact K.
Qed.
(** What is left of an update whose first [k] blocks are absorbed. *)
Definition left_over (D : bytes) (ys : list Z) : proc hash_obj unit :=
  let& _ := forP ys tt (fun i _ => p_block D i) in
  let& _ := act (count_pad D) in
  let& pad_block_size := act pad_count in
  if pad_block_size <? _BLOCK_SIZE then act (keep_rest D) else Ret tt.

Lemma update_torn v s b o d k : holds v s b o -> bytes_ok d -> (64 * k <= List.length (b ++ d))%nat -> exists sched om,
  holds v (fst (stage2 k s (b ++ d))) b om /\
  go sched [p_hash (HUpd (VBytes d)); p_hash HDig] o = ([Ret None; fin (let* t := fst (hash_digest om) in Ok (Some t))], snd (hash_update (VBytes d) o)).
Proof.
  intros Ho Hd Hk. pose proof (ho_buff _ _ _ _ Ho) as Hb. pose proof (ho_bytes _ _ _ _ Ho) as Hbb.
  set (D := b ++ d) in *. assert (HD : bytes_ok D) by (apply bytes_ok_app; tauto). set (n := (List.length D / 64)%nat). assert (En : len D / _BLOCK_SIZE = Z.of_nat n) by (unfold n, len, _BLOCK_SIZE; lia).
  assert (Hkn : (k <= n)%nat) by (unfold n; apply Nat.div_le_lower_bound; lia). assert (Hn : (64 * n <= List.length D)%nat) by (unfold n; pose proof (Nat.div_mod_eq (List.length D) 64); lia).
  set (o1 := set_num_block o (Z.of_nat n)). assert (Ho1 : holds v s b o1) by (destruct Ho; split; assumption).
  destruct (update_loop v D b HD k 0 s o1 ltac:(lia) Ho1) as (om & Em & Hm). change (skipn (64 * 0) D) with D in Hm.
  assert (ER : py_range 0 (Z.of_nat n * 64) 64 = map (fun j => 64 * Z.of_nat j) (seq 0 k) ++ map (fun j => 64 * Z.of_nat j) (seq k (n - k))) by (rewrite range_64, <- map_app, <- seq_app; do 2 f_equal; lia).
  set (xs := map (fun j => 64 * Z.of_nat j) (seq 0 k)) in *. set (ys := map (fun j => 64 * Z.of_nat j) (seq k (n - k))) in *.
  rewrite <- (run_for _ (fun i _ => p_block D i)) in Em by (intros x [] s0; apply block_alone).
  destruct (for_first (fun i _ => p_block D i) (fun _ => let& _ := act (count_pad D) in let& p := act pad_count in if p <? _BLOCK_SIZE then act (keep_rest D) else Ret tt) (fun _ => Ret (@None bytes)) (p_hash HDig) ys xs tt o1 tt om Em) as [l L].
  destruct (go_second (bindP (left_over D ys) (fun _ => Ret (@None bytes))) (p_hash HDig) om) as [l2 L2].
  assert (R2 : run (p_hash HDig) om = (let* t := fst (hash_digest om) in Ok (Some t), om)) by (cbn [p_hash]; unfold p_hash_digest; rewrite run_bind, run_act; pose proof (digest_same om) as Q; destruct (hash_digest om) as [[t|e] o']; cbn in *; subst o'; reflexivity).
  rewrite R2 in L2. cbn [fst snd] in L2.
  destruct (go_first (fin (let* t := fst (hash_digest om) in Ok (Some t))) (bindP (left_over D ys) (fun _ => Ret (@None bytes))) om) as [l3 L3].
  assert (R3 : run (bindP (left_over D ys) (fun _ => Ret (@None bytes))) om = (Ok None, snd (hash_update (VBytes d) o))).
  { destruct (update_holds v s b o d Ho Hd) as (o' & EU & _). rewrite EU. cbn [snd]. rewrite run_bind. rewrite <- update_alone in EU. unfold p_update in EU. rewrite run_bind, run_act in EU. unfold join, bindM, getM, retM in EU. rewrite Hb in EU. fold D in EU.
    unfold p_joined in EU. rewrite run_bind, run_act in EU. unfold count_blocks, bindM at 1, getM at 1, putM at 1 in EU. rewrite run_bind, run_act in EU. unfold block_count, bindM at 1, getM at 1, retM at 1 in EU. cbn [h_num_block set_num_block] in EU. rewrite En in EU. change (Z.of_nat n * _BLOCK_SIZE) with (Z.of_nat n * 64) in EU. change (py_range 0 (Z.of_nat n * 64) _BLOCK_SIZE) with (py_range 0 (Z.of_nat n * 64) 64) in EU. rewrite ER in EU. fold (set_num_block o (Z.of_nat n)) in EU. fold o1 in EU.
    rewrite run_bind in EU. assert (EA : run (forP (xs ++ ys) tt (fun i _ => p_block D i)) o1 = run (forP ys tt (fun i _ => p_block D i)) om).
    { rewrite !(run_for _ (fun i _ => p_block D i) (update_body D)) by (intros x [] s0; apply block_alone). rewrite (run_for _ (fun i _ => p_block D i) (update_body D)) in Em by (intros x [] s0; apply block_alone). clear - Em. revert Em. generalize o1. induction xs as [|x xs' IH]; intros z H; [injection H as <-; reflexivity|]. cbn [forM app] in *. unfold bindM in *. destruct (update_body D x tt z) as [[[]|e] z']; [apply IH, H | discriminate H]. }
    rewrite EA in EU. unfold left_over. rewrite run_bind, EU. reflexivity. }
  rewrite R3 in L3. cbn [fst snd fin] in L3.
  exists (0%nat :: 0%nat :: 0%nat :: repeat 0%nat l ++ repeat 1%nat l2 ++ repeat 0%nat l3), om. split; [exact Hm|]. change (p_hash (HUpd (VBytes d))) with (bindP (bindP (act (join d)) p_joined) (fun _ => Ret (@None bytes))).
  assert (EJ : join d o = (Ok D, o)) by (unfold join, bindM, getM, retM; now rewrite Hb). rewrite (step2 _ _ _ _ _ o D EJ). unfold p_joined.
  rewrite (step2' _ _ _ _ _ o tt o1) by (unfold count_blocks, bindM, getM, putM; now rewrite En). rewrite (step2 _ _ _ _ _ o1 (Z.of_nat n)) by reflexivity. change (Z.of_nat n * _BLOCK_SIZE) with (Z.of_nat n * 64). change (py_range 0 (Z.of_nat n * 64) _BLOCK_SIZE) with (py_range 0 (Z.of_nat n * 64) 64). rewrite ER.
  rewrite go_app, L. unfold left_over in L2, L3. rewrite go_app, L2. exact L3.
Qed.

(** The digest taken after [k] blocks. *)
Lemma digest_torn v m o d k : StreebogLemmas.fed v [m] o -> bytes_ok d -> (64 * k <= List.length m mod 64 + List.length d)%nat ->
  exists sched, go sched [p_hash (HUpd (VBytes d)); p_hash HDig] o =
    ([Ret None; Ret (Some (streebog v (firstn (64 * (List.length m / 64 + k)) (m ++ d) ++ skipn (64 * (List.length m / 64)) m)))], snd (hash_update (VBytes d) o)).
Proof.
  unfold StreebogLemmas.fed. cbn [fold_left SpecHashHist.feed app]. intros (Ho & HP & Hb) Hd Hk. set (q := (List.length m / 64)%nat) in *. pose proof (Nat.div_mod_eq (List.length m) 64) as HDM. fold q in HDM. pose proof (Nat.mod_upper_bound (List.length m) 64) as HM.
  assert (EB : (if (List.length m mod 64 =? 0)%nat then [] else skipn (64 * q) m) = skipn (64 * q) m) by (destruct (Nat.eqb_spec (List.length m mod 64) 0) as [E|E]; [symmetry; apply skipn_all2; lia | reflexivity]). rewrite EB in Ho, Hb.
  set (P := firstn (64 * q) m) in *. set (b := skipn (64 * q) m) in *. assert (LB : List.length b = (List.length m mod 64)%nat) by (unfold b; rewrite skipn_length; lia).
  destruct (update_torn v _ b o d k Ho Hd ltac:(rewrite app_length; lia)) as (sched & om & Hm & G). exists sched. rewrite G. rewrite (digest_holds v _ b om Hm). cbn [fst fin]. do 4 f_equal. f_equal. f_equal.
  assert (LP : List.length P = (64 * q)%nat) by (unfold P; apply firstn_length_le; lia).
  assert (EF : firstn (64 * (q + k)) (m ++ d) = P ++ firstn (64 * k) (b ++ d)).
  { rewrite <- (firstn_skipn (64 * q) m) at 1. fold P b. rewrite <- app_assoc. rewrite firstn_app, LP. rewrite firstn_all2 by lia. do 2 f_equal. lia. }
  rewrite EF. assert (LF : List.length (firstn (64 * k) (b ++ d)) = (64 * k)%nat) by (apply firstn_length_le; rewrite app_length; lia).
  rewrite streebog_split; [|rewrite app_length, LF, LP, <- Nat.mul_add_distr_l, Nat.mul_comm; apply Nat.mod_mul; lia | rewrite LB; lia].
  assert (EQ : after v (P ++ firstn (64 * k) (b ++ d)) = fst (stage2 k (after v P) (b ++ d))).
  { unfold after. rewrite app_length, LF, LP. replace ((64 * q + 64 * k) / 64)%nat with (q + k)%nat by (rewrite <- Nat.mul_add_distr_l, Nat.mul_comm, Nat.div_mul; lia). replace (64 * q / 64)%nat with q by (rewrite Nat.mul_comm, Nat.div_mul; lia). rewrite stage2_add, stage2_app by exact LP. cbn [fst snd]. apply stage2_cut. rewrite app_length. lia. }
  rewrite EQ. now rewrite finished_stage3.
Qed.

(** ** All orders *)
(** [P] holds whenever the thread pauses. *)
Fixpoint along {S A} (P : S -> Prop) (p : proc S A) (s : S) : Prop := P s /\ match p with Act k => along P (snd (k s)) (fst (k s)) | _ => True end.
Lemma along_here {S A} (P : S -> Prop) (p : proc S A) s : along P p s -> P s.
Proof. destruct p; cbn; tauto. Qed.
Definition seen (P : hash_obj -> Prop) (p : proc hash_obj (option bytes)) : Prop := p = p_hash HDig \/ exists s, P s /\ p = fin (let* t := fst (hash_digest s) in Ok (Some t)).
Lemma upd_forall {A} (P : A -> Prop) x : forall l i, Forall P l -> P x -> Forall P (upd l i x).
Proof. induction l as [|y l IH]; intros [|i] H Hx; cbn; try exact H; inversion H; subst; constructor; auto. Qed.
Lemma digests_along P sched : forall p qs s, along P p s -> Forall (seen P) qs -> exists p' qs' s', go sched (p :: qs) s = (p' :: qs', s') /\ along P p' s' /\ Forall (seen P) qs'.
Proof.
  induction sched as [|[|i] sched IH]; intros p qs s HA HS.
  - exists p, qs, s. now split.
  - cbn [go nth_error]. destruct p as [a|e|k]; [apply IH; assumption | apply IH; assumption|]. cbn [along] in HA. destruct HA as [_ HA]. destruct (k s) as [s1 p1]. cbn [fst snd] in HA. cbn [upd]. apply IH; assumption.
  - cbn [go nth_error]. destruct (nth_error qs i) as [q|] eqn:E; [|apply IH; assumption]. pose proof (proj1 (Forall_forall _ _) HS q (nth_error_In _ _ E)) as [->|(s0 & _ & ->)].
    + unfold p_hash at 1, p_hash_digest. cbn [bindP act]. pose proof (digest_same s) as Q. destruct (hash_digest s) as [[t|e] s1] eqn:ED; cbn [snd] in Q; subst s1; cbn [upd bindP]; apply IH; try exact HA; (apply upd_forall; [exact HS|]); right; exists s; (split; [exact (along_here P p s HA)|]); rewrite ED; reflexivity.
    + destruct (let* t := fst (hash_digest s0) in Ok (Some t)); apply IH; assumption.
Qed.
Lemma along_act {S A B} (P : S -> Prop) (m : M S A) (f : A -> proc S B) s a s' : P s -> m s = (Ok a, s') -> along P (f a) s' -> along P (bindP (act m) f) s.
Proof. intros H E HA. cbn. rewrite E. now split. Qed.
Lemma along_act2 {S A B C} (P : S -> Prop) (m : M S A) (f : A -> proc S B) (g : B -> proc S C) s a s' : P s -> m s = (Ok a, s') -> along P (bindP (f a) g) s' -> along P (bindP (bindP (act m) f) g) s.
Proof. intros H E HA. cbn. rewrite E. now split. Qed.
(** An update that fills no block. *)
Lemma short_along v s b o d : holds v s b o -> bytes_ok d -> (List.length (b ++ d) < 64)%nat ->
  along (fun x => holds v s b x \/ holds v s (b ++ d) x) (p_hash (HUpd (VBytes d))) o.
Proof.
  intros Ho Hd HL. pose proof (ho_buff _ _ _ _ Ho) as Hb. set (D := b ++ d) in *. change (p_hash (HUpd (VBytes d))) with (bindP (bindP (act (join d)) p_joined) (fun _ => Ret (@None bytes))).
  assert (EN : len D / _BLOCK_SIZE = 0) by (apply Z.div_small; unfold len, _BLOCK_SIZE; lia).
  apply (along_act2 _ _ _ _ o D o); [now left | unfold join, bindM, getM, retM; now rewrite Hb|]. unfold p_joined. set (o1 := set_num_block o (len D / _BLOCK_SIZE)). assert (H1 : holds v s b o1) by (destruct Ho; split; assumption).
  apply (along_act2 _ _ _ _ o tt o1); [now left | reflexivity|]. apply (along_act2 _ _ _ _ o1 0 o1); [now left | unfold block_count, bindM, getM, retM; cbn [o1 set_num_block h_num_block]; now rewrite EN|].
  change (py_range 0 (0 * _BLOCK_SIZE) _BLOCK_SIZE) with (@nil Z). cbn [forP]. set (x := _BLOCK_SIZE - len D mod _BLOCK_SIZE). set (o2 := set_pad_block_size o1 x). assert (H2 : holds v s b o2) by (destruct H1; split; assumption).
  change (bindP (Ret tt) ?f) with (f tt). cbv beta. apply (along_act2 _ _ _ _ o1 tt o2); [now left | reflexivity|]. apply (along_act2 _ _ _ _ o2 x o2); [now left | reflexivity|]. destruct (x <? _BLOCK_SIZE) eqn:EX; [|cbn; split; [now left | exact I]].
  apply (along_act _ _ _ o2 tt (set_buff o2 (py_from D (- (_BLOCK_SIZE - x))))); [now left | reflexivity|]. cbn [along]. split; [|exact I]. right.
  assert (EF : py_from D (- (_BLOCK_SIZE - x)) = D).
  { unfold x. replace (- (_BLOCK_SIZE - (_BLOCK_SIZE - len D mod _BLOCK_SIZE))) with (- len D) by (rewrite Z.mod_small by (unfold len, _BLOCK_SIZE; lia); lia). unfold py_from, clamp. destruct D as [|z D']; [reflexivity|]. replace (- len (z :: D') <? 0) with true by (symmetry; apply Z.ltb_lt; unfold len; cbn; lia). replace (- len (z :: D') + len (z :: D')) with 0 by lia. reflexivity. }
  rewrite EF. pose proof (ho_bytes _ _ _ _ Ho) as Hbb. destruct H2 as [G1 G2 G3 G4 G5 G6 G7 G8 G9 G10]. split; try assumption; [reflexivity|]. unfold D. now apply bytes_ok_app.
Qed.
Lemma short_seen v m o d n sched i t : StreebogLemmas.fed v [m] o -> bytes_ok d -> (List.length m mod 64 + List.length d < 64)%nat ->
  nth_error (fst (go sched (p_hash (HUpd (VBytes d)) :: repeat (p_hash HDig) n) o)) (Datatypes.S i) = Some (Ret (Some t)) -> t = streebog v m \/ t = streebog v (m ++ d).
Proof.
  unfold StreebogLemmas.fed. cbn [fold_left SpecHashHist.feed app]. intros (Ho & HP & Hb) Hd HL HN. set (q := (List.length m / 64)%nat) in *. pose proof (Nat.div_mod_eq (List.length m) 64) as HDM. fold q in HDM.
  assert (EB : (if (List.length m mod 64 =? 0)%nat then [] else skipn (64 * q) m) = skipn (64 * q) m) by (destruct (Nat.eqb_spec (List.length m mod 64) 0) as [E|E]; [symmetry; apply skipn_all2; lia | reflexivity]). rewrite EB in Ho, Hb.
  set (P := firstn (64 * q) m) in *. set (b := skipn (64 * q) m) in *. assert (LB : List.length b = (List.length m mod 64)%nat) by (unfold b; rewrite skipn_length; lia).
  pose proof (short_along v _ b o d Ho Hd ltac:(rewrite app_length; lia)) as HA. assert (HS : Forall (seen (fun x => holds v (after v P) b x \/ holds v (after v P) (b ++ d) x)) (repeat (p_hash HDig) n)) by (apply Forall_forall; intros p Hp; left; now apply repeat_spec in Hp).
  destruct (digests_along _ sched _ _ o HA HS) as (p' & qs & s' & G & _ & HQ). rewrite G in HN. cbn [fst nth_error] in HN. assert (EM : m = P ++ b) by (unfold P, b; symmetry; apply firstn_skipn).
  destruct (proj1 (Forall_forall _ _) HQ _ (nth_error_In _ _ HN)) as [E|(s & HH & E)]; [discriminate E|].
  assert (KEY : forall c, holds v (after v P) c s -> (List.length c < 64)%nat -> t = streebog v (P ++ c)).
  { intros c Hc Lc. rewrite (digest_holds v _ c s Hc) in E. cbn [fst bind] in E. assert (HX : forall x y : bytes, @Ret hash_obj (option bytes) (Some x) = fin (Ok (Some y)) -> x = y) by (intros x y HX; cbn in HX; congruence). apply HX in E. rewrite E. rewrite streebog_split by assumption. now rewrite finished_stage3. }
  destruct HH as [HH|HH]; [left; rewrite EM | right; rewrite EM, <- app_assoc]; apply KEY; try assumption. rewrite app_length. lia.
Qed.
