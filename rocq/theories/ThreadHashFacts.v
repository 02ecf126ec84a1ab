(** * Interleaved updates of a hash object *)
From Verif Require Import PyBase PyState PyFacts Utils UtilsFacts Streebog SpecStreebog SpecHashHist StreebogFacts StreebogObj StreebogLemmas StreebogProps Threads ThreadFacts ThreadsRandom ThreadRandomFacts ThreadsHash.
Open Scope string_scope.
Open Scope list_scope.
Open Scope Z_scope.

Lemma block_alone data i o : run (p_block data i) o = update_body data i tt o.
Proof.
  unfold p_block, update_body. cbv zeta. rewrite run_bind, run_act. change (?x = bindM getM ?f o) with (x = f o o). cbv beta. unfold bindM at 1, getM at 1. unfold bindM at 1. destruct (step_h (h_hash_n o) (py_slice data i (i + _BLOCK_SIZE)) o) as [[u|e] o1]; [|reflexivity].
  rewrite run_bind, run_act. unfold bindM at 1. destruct (step_n _V_512 o1) as [[u'|e] o2]; [|reflexivity]. apply run_act.
Qed.
Lemma step_keeps (f : hash_obj -> Z) data i : (forall o x, f (set_h o x) = f o) -> (forall o x, f (set_n o x) = f o) -> (forall o x, f (set_sigma o x) = f o) -> keeps f (update_body data i tt).
Proof.
  intros H1 H2 H3 o. unfold update_body. cbv zeta. unfold bindM at 1, getM at 1. unfold bindM at 1. unfold step_h, bindM at 1, getM at 1, bindM at 1, liftM at 1, putM at 1.
  destruct (_hash_g _ _ _) as [v|e]; [|reflexivity]. unfold bindM at 1, step_n, bindM at 1, getM at 1, bindM at 1, liftM at 1, putM at 1. destruct (_hash_add_512 (h_hash_n _) _) as [w|e]; [|apply H1]. unfold step_sigma, bindM, getM, liftM, putM. destruct (_hash_add_512 _ _) as [z|e]; cbn [snd]; rewrite ?H3, ?H2; apply H1.
Qed.
Lemma update_alone data o : run (p_update data) o = hash_update data o.
Proof.
  destruct data as [d|s|z|]; try reflexivity. unfold p_update, hash_update. rewrite run_bind, run_act. unfold join, bindM at 1, getM at 1, retM at 1. set (D := h_buff o ++ d).
  unfold p_joined. rewrite run_bind, run_act. unfold count_blocks, bindM at 1, getM at 1, putM at 1. rewrite run_bind, run_act. unfold block_count, bindM at 1, getM at 1, retM at 1. cbn [h_num_block set_num_block].
  match goal with |- _ = bindM getM ?f o => change (bindM getM f o) with (f o o) end. cbv beta zeta. fold D. match goal with |- _ = bindM (putM ?s) ?f o => change (bindM (putM s) f o) with (f tt s) end. cbv beta. set (o1 := set_num_block o _).
  rewrite run_bind. rewrite (run_for _ _ (update_body D)) by (intros x [] s; apply block_alone).
  match goal with |- _ = bindM ?l ?f o1 => change (bindM l f o1) with (match forM (py_range 0 (len D / _BLOCK_SIZE * _BLOCK_SIZE) _BLOCK_SIZE) tt (update_body D) o1 with (Ok a, s') => f a s' | (Err e, s') => (Err e, s') end) end.
  destruct (forM _ _ _ o1) as [[u|e] o2]; [|reflexivity]. rewrite run_bind, run_act. unfold count_pad, bindM at 1, getM at 1, putM at 1. rewrite run_bind, run_act. unfold pad_count, bindM at 1, getM at 1, retM at 1. cbn [h_pad_block_size set_pad_block_size].
  unfold bindM, getM. destruct (_ <? _); [|reflexivity]. rewrite run_act. reflexivity.
Qed.

(** An object with another buffer and another number of missing octets. *)
Definition twist (x : Z) (y : bytes) (s : hash_obj) : hash_obj := set_buff (set_pad_block_size s x) y.
Definition blind {A} (m : M hash_obj A) : Prop := forall x y s, m (twist x y s) = (fst (m s), twist x y (snd (m s))).
Lemma body_blind D i : blind (update_body D i tt).
Proof.
  intros x y s. unfold update_body, step_h, step_n, step_sigma, bindM, getM, liftM, putM. cbn [twist set_buff set_pad_block_size set_h set_n set_sigma h_hash_h h_hash_n h_hash_sigma].
  destruct (_hash_g _ _ _) as [v|e]; [|reflexivity]. cbn [twist set_buff set_pad_block_size set_h set_n set_sigma h_hash_h h_hash_n h_hash_sigma]. destruct (_hash_add_512 (h_hash_n s) _) as [w|e]; [|reflexivity]. cbn [twist set_buff set_pad_block_size set_h set_n set_sigma h_hash_h h_hash_n h_hash_sigma]. now destruct (_hash_add_512 (h_hash_sigma s) _).
Qed.
Lemma loop_blind D xs : blind (forM xs tt (update_body D)).
Proof.
  induction xs as [|i xs IH]; intros x y s; [reflexivity|]. cbn [forM]. unfold bindM. rewrite body_blind. destruct (update_body D i tt s) as [[[]|e] s']; cbn [fst snd]; [apply IH | reflexivity].
Qed.
Lemma joined_eq D o : run (p_joined D) o =
  match forM (py_range 0 (len D / _BLOCK_SIZE * _BLOCK_SIZE) _BLOCK_SIZE) tt (update_body D) (set_num_block o (len D / _BLOCK_SIZE)) with
  | (Ok _, o2) => let o3 := set_pad_block_size o2 (_BLOCK_SIZE - len D mod _BLOCK_SIZE) in
      if _BLOCK_SIZE - len D mod _BLOCK_SIZE <? _BLOCK_SIZE then (Ok tt, set_buff o3 (py_from D (- (_BLOCK_SIZE - (_BLOCK_SIZE - len D mod _BLOCK_SIZE))))) else (Ok tt, o3)
  | (Err e, o2) => (Err e, o2)
  end.
Proof.
  unfold p_joined. rewrite run_bind, run_act. unfold count_blocks, bindM at 1, getM at 1, putM at 1. rewrite run_bind, run_act. unfold block_count, bindM at 1, getM at 1, retM at 1. cbn [h_num_block set_num_block].
  rewrite run_bind. rewrite (run_for _ _ (update_body D)) by (intros x [] s; apply block_alone). fold (set_num_block o (len D / _BLOCK_SIZE)).
  destruct (forM _ _ _ _) as [[u|e] o2]; [|reflexivity]. rewrite run_bind, run_act. unfold count_pad, bindM at 1, getM at 1, putM at 1. rewrite run_bind, run_act. unfold pad_count, bindM at 1, getM at 1, retM at 1. cbn [h_pad_block_size set_pad_block_size]. destruct (_ <? _); reflexivity.
Qed.
Lemma joined_twist D o x y n o' : len D mod 64 <> 0 -> run (p_joined D) o = (Ok tt, o') -> run (p_joined D) (twist x y (set_num_block o n)) = (Ok tt, o').
Proof.
  intros H. rewrite !joined_eq. change (set_num_block (twist x y (set_num_block o n)) (len D / _BLOCK_SIZE)) with (twist x y (set_num_block o (len D / _BLOCK_SIZE))).
  rewrite loop_blind. destruct (forM _ _ _ _) as [[u|e] o2]; cbn [fst snd]; [|intros E; discriminate E].
  cbv zeta. assert (E : (_BLOCK_SIZE - len D mod _BLOCK_SIZE <? _BLOCK_SIZE) = true) by (apply Z.ltb_lt; unfold _BLOCK_SIZE; pose proof (Z.mod_pos_bound (len D) 64); lia). rewrite E. intros G. exact G.
Qed.
(** An update that fills no block leaves the chain alone. *)
Lemma short_twist D o : len D < 64 -> exists x y n, run (p_joined D) o = (Ok tt, twist x y (set_num_block o n)).
Proof.
  intros H. pose proof (len_nonneg D). rewrite joined_eq. change _BLOCK_SIZE with 64. rewrite Z.div_small by lia. change (py_range 0 (0 * 64) 64) with (@nil Z). cbn [forM]. unfold retM. cbv zeta. destruct (_ <? _).
  - eexists. eexists. eexists. reflexivity.
  - exists (64 - len D mod 64), (h_buff o), 0. reflexivity.
Qed.
(** The second update is lost. *)
Lemma update_lost d1 d2 o o' : hash_update (VBytes d1) o = (Ok tt, o') -> len (h_buff o ++ d1) mod 64 <> 0 -> len (h_buff o ++ d2) < 64 ->
  exists sched, go sched [p_update (VBytes d1); p_update (VBytes d2)] o = ([Ret tt; Ret tt], o').
Proof.
  intros E H1 H2. rewrite <- update_alone in E. unfold p_update in E. rewrite run_bind, run_act in E. unfold join, bindM, getM, retM in E.
  destruct (short_twist (h_buff o ++ d2) o H2) as (x & y & n & E2). pose proof (joined_twist (h_buff o ++ d1) o x y n o' H1 E) as E1.
  assert (R2 : run (p_update (VBytes d2)) o = (Ok tt, twist x y (set_num_block o n))) by (unfold p_update; rewrite run_bind, run_act; exact E2).
  destruct (go_second (p_joined (h_buff o ++ d1)) (p_update (VBytes d2)) o) as [k K]. rewrite R2 in K. cbn [fst snd fin] in K.
  destruct (go_first (Ret tt) (p_joined (h_buff o ++ d1)) (twist x y (set_num_block o n))) as [l L]. rewrite E1 in L. cbn [fst snd fin] in L.
  exists (0%nat :: repeat 1%nat k ++ repeat 0%nat l). unfold p_update at 1. rewrite (step1 (join d1) p_joined _ _ o (h_buff o ++ d1) eq_refl). rewrite go_app, K. exact L.
Qed.
Lemma fed_buff v m o : StreebogLemmas.fed v [m] o -> len (h_buff o) = len m mod 64.
Proof.
  unfold StreebogLemmas.fed. cbn [fold_left SpecHashHist.feed app]. intros (Ho & _). rewrite (ho_buff _ _ _ _ Ho). unfold len. pose proof (Nat.div_mod_eq (List.length m) 64) as HD. change 64 with (Z.of_nat 64) at 1. rewrite <- Nat2Z.inj_mod.
  destruct (Nat.eqb_spec (List.length m mod 64) 0) as [E|E]; [rewrite E; reflexivity|]. rewrite skipn_length. f_equal. lia.
Qed.
