(** * The flow of control of hashing depends on lengths only. *)
From Verif Require Import PyBase PyState PyFacts PyLoop Utils UtilsFacts StreebogTables Streebog SpecStreebog StreebogFacts StreebogFacts2 StreebogObj Hmac HmacLemmas SpecTrace Trace TraceLemmas TraceFacts TraceCipher TraceCipherFacts TraceHash TraceHashErase.
Open Scope string_scope.
Open Scope list_scope.
Open Scope Z_scope.

(** Two computations that take the same steps but for the indices of look-ups, and return related results. *)
Definition same {A B} (R : A -> B -> Prop) (c : T A) (c' : T B) : Prop :=
  map shape (fst c) = map shape (fst c') /\ exists a b, snd c = Returns a /\ snd c' = Returns b /\ R a b.
Lemma same_bind {A A' B B'} (R : A -> A' -> Prop) (Q : B -> B' -> Prop) c c' k k' : same R c c' -> (forall a b, R a b -> same Q (k a) (k' b)) -> same Q (bindT c k) (bindT c' k').
Proof.
  intros [E (a & b & Ea & Eb & HR)] H. destruct (H a b HR) as [E' HQ]. unfold same, bindT. rewrite Ea, Eb. cbn [fst snd]. rewrite !map_app, E, E'. split; [reflexivity | exact HQ].
Qed.
Lemma steps_bind {A A' B B'} (R : A -> A' -> Prop) (c : T A) (c' : T A') (k : A -> T B) (k' : A' -> T B') : same R c c' -> (forall a b, R a b -> map shape (fst (k a)) = map shape (fst (k' b))) -> map shape (fst (bindT c k)) = map shape (fst (bindT c' k')).
Proof. intros [E (a & b & Ea & Eb & HR)] H. rewrite (fst_bind_ok _ _ _ Ea), (fst_bind_ok _ _ _ Eb), !map_app, E, (H a b HR). reflexivity. Qed.
Lemma same_ret {A B} (R : A -> B -> Prop) a b : R a b -> same R (retT a) (retT b).
Proof. intros H. split; [reflexivity|]. exists a, b. repeat split; assumption. Qed.
Lemma same_step e : same eq (step e) (step e).
Proof. split; [reflexivity|]. exists tt, tt. repeat split. Qed.
Lemma same_at_ {A B} (Q : A -> B -> Prop) e k k' : same Q k k' -> same Q (at_ e then k) (at_ e then k').
Proof. intros H. eapply same_bind; [apply same_step|]. intros a b _. exact H. Qed.
Lemma same_if {A B} (Q : A -> B -> Prop) f l b b' x y x' y' : b = b' -> (b = true -> same Q x x') -> (b = false -> same Q y y') -> same Q (if_ f l b x y) (if_ f l b' x' y').
Proof. intros <- H H'. unfold if_. apply same_at_. destruct b; auto. Qed.
Lemma same_for {A S S'} (R : S -> S' -> Prop) f l body body' : forall (xs : list A) s s', R s s' -> (forall x s s', In x xs -> R s s' -> same R (body x s) (body' x s')) -> same R (t_for f l xs s body) (t_for f l xs s' body').
Proof.
  induction xs as [|x xs IH]; intros s s' HR H; cbn [t_for]; apply same_at_; [now apply same_ret|]. eapply same_bind; [apply H; [now left | exact HR]|]. intros a b HR'. apply IH; [exact HR'|]. intros y t t' Hy. apply H. now right.
Qed.
Lemma same_res {A B} (R : A -> B -> Prop) r r' a b : r = Ok a -> r' = Ok b -> R a b -> same R (t_res r) (t_res r').
Proof. intros -> -> H. split; [reflexivity|]. exists a, b. repeat split; assumption. Qed.
Lemma same_at {A} (R : A -> A -> Prop) line op (l l' : list A) i a b : py_get l i = Ok a -> py_get l' i = Ok b -> R a b -> same R (t_at line op l i) (t_at line op l' i).
Proof. intros E E' H. unfold t_at. apply same_at_. rewrite E, E'. split; [reflexivity|]. exists a, b. repeat split; assumption. Qed.
Lemma same_at1 {A} (R : A -> A -> Prop) line (l l' : list A) i i' a b : py_get l i = Ok a -> py_get l' i' = Ok b -> R a b -> same R (t_at line 1 l i) (t_at line 1 l' i').
Proof. intros E E' H. unfold t_at. rewrite E, E'. split; [reflexivity|]. exists a, b. repeat split; assumption. Qed.

Definition blk2 (a b : bytes) : Prop := block64 a /\ block64 b.
Definition any {A B} (a : A) (b : B) : Prop := True.
Lemma same_xor a b a' b' : len a = len a' -> len b = len b' -> same (fun x y => x = add_xor a b /\ y = add_xor a' b') (t_add_xor a b) (t_add_xor a' b').
Proof. intros E E'. unfold t_add_xor. rewrite E, E'. split; [reflexivity|]. do 2 eexists. repeat split. Qed.
Lemma same_xor64 a b a' b' : blk2 a a' -> blk2 b b' -> same blk2 (t_add_xor a b) (t_add_xor a' b').
Proof.
  intros [Ha Ha'] [Hb Hb']. destruct (same_xor a b a' b') as [E (x & y & Ex & Ey & -> & ->)]; [unfold len; destruct Ha, Ha'; lia | unfold len; destruct Hb, Hb'; lia|]. split; [exact E|]. do 2 eexists.
  split; [exact Ex|]. split; [exact Ey|]. split; now apply add_xor_block.
Qed.

Lemma get_some {A} (l : list A) i d : (i < List.length l)%nat -> py_get l (Z.of_nat i) = Ok (nth i l d).
Proof. intros H. rewrite (py_get_nth l (Z.of_nat i) d) by (unfold len; lia). now rewrite Nat2Z.id. Qed.
Lemma same_add a b a' b' : blk2 a a' -> blk2 b b' -> same blk2 (t_hash_add_512 a b) (t_hash_add_512 a' b').
Proof.
  intros [Ha Ha'] [Hb Hb'].
  assert (S0 : same any (t_hash_add_512 a b) (t_hash_add_512 a' b')).
  { unfold t_hash_add_512. apply same_at_. eapply same_bind with (R := fun s s' => List.length (snd s) = 64%nat /\ List.length (snd s') = 64%nat).
    - apply same_for; [split; reflexivity|]. intros i [c r] [c' r'] Hi [L L']. cbn [snd] in L, L'. apply in_up in Hi. change _BLOCK_SIZE with 64 in Hi. destruct Ha as [La _], Ha' as [La' _], Hb as [Lb _], Hb' as [Lb' _].
      assert (G : forall x : bytes, List.length x = 64%nat -> exists v, py_get x i = Ok v) by (intros x Lx; rewrite <- (Z2Nat.id i) by lia; eexists; apply (get_some x _ 0); lia).
      destruct (G a La) as (v & E1). destruct (G b Lb) as (w & E2). destruct (G a' La') as (v' & E1'). destruct (G b' Lb') as (w' & E2').
      eapply same_bind; [eapply (same_at any); [exact E1 | exact E1' | exact I]|]. intros x x' _. eapply same_bind; [eapply (same_at any); [exact E2 | exact E2' | exact I]|]. intros y y' _. cbv zeta.
      eapply same_bind; [eapply (same_res (fun s s' => List.length s = 64%nat /\ List.length s' = 64%nat))|].
      + apply py_set_ok; [unfold len; lia|]. change 0xff with (Z.ones 8). rewrite Z.land_ones by lia. unfold byte_ok. apply Z.mod_pos_bound. lia.
      + apply py_set_ok; [unfold len; lia|]. change 0xff with (Z.ones 8). rewrite Z.land_ones by lia. unfold byte_ok. apply Z.mod_pos_bound. lia.
      + rewrite !upd_length. split; assumption.
      + intros s s' H. apply same_ret. exact H.
    - intros [c r] [c' r'] _. apply same_ret. exact I. }
  destruct S0 as [E (x & y & Ex & Ey & _)]. split; [exact E|]. exists x, y. split; [exact Ex|]. split; [exact Ey|]. rewrite erase_add_512, add_512_ok in Ex, Ey by assumption. cbn [liftO] in Ex, Ey. assert (Hx : x = le_bytes 64 (le_value a + le_value b)) by congruence. assert (Hy : y = le_bytes 64 (le_value a' + le_value b')) by congruence. rewrite Hx, Hy. split; apply le_bytes_block.
Qed.

Lemma look_parts d j k : block64 d -> (j < 8)%nat -> (k < 64)%nat -> exists row v x, py_get _T (Z.of_nat j) = Ok row /\ py_get d (Z.of_nat k) = Ok v /\ py_get row v = Ok x.
Proof.
  intros [L HB] Hj Hk. pose proof (t_get_ok d j (Z.of_nat k) HB ltac:(unfold len; lia) Hj) as [E _]. unfold Streebog.t_get in E. destruct (py_get _T (Z.of_nat j)) as [row|]; [|discriminate E]. cbn [bind] in E.
  destruct (py_get d (Z.of_nat k)) as [v|]; [|discriminate E]. cbn [bind] in E. exists row, v. eexists. split; [reflexivity|]. split; [reflexivity | exact E].
Qed.
Lemma same_look line d d' j k j0 k0 : blk2 d d' -> Z.of_nat j0 = j -> Z.of_nat k0 = k -> (j0 < 8)%nat -> (k0 < 64)%nat -> same any (t_look line d j k) (t_look line d' j k).
Proof.
  intros [Hd Hd'] <- <- Hj Hk. destruct (look_parts d j0 k0 Hd Hj Hk) as (row & v & x & E1 & E2 & E3). destruct (look_parts d' j0 k0 Hd' Hj Hk) as (row' & v' & x' & E1' & E2' & E3'). assert (row' = row) by congruence. subst row'. unfold t_look.
  eapply same_bind; [eapply (same_at (fun r r' => r = row /\ r' = row)); [exact E1 | exact E1 | split; reflexivity]|]. intros r r' [-> ->]. eapply same_bind; [eapply (same_at (fun u u' => u = v /\ u' = v')); [exact E2 | exact E2' | split; reflexivity]|].
  intros u u' [-> ->]. eapply same_at1; [exact E3 | exact E3' | exact I].
Qed.
Lemma same_any {A B} (c : T A) (c' : T B) a b : same any c c' -> snd c = Returns a -> snd c' = Returns b -> same (fun x y => x = a /\ y = b) c c'.
Proof. intros [E _] Ea Eb. split; [exact E|]. exists a, b. repeat split; assumption. Qed.
Lemma word_some d k0 k1 k2 k3 k4 k5 k6 k7 : block64 d -> Forall (fun k => 0 <= k < 64) [k0; k1; k2; k3; k4; k5; k6; k7] -> exists w, lps_word d k0 k1 k2 k3 k4 k5 k6 k7 = Ok w.
Proof. intros [L HB] HF. eexists. apply lps_word_ok; [exact HB|]. unfold len. rewrite L. exact HF. Qed.
Lemma same_word line d d' k0 k1 k2 k3 k4 k5 k6 k7 : blk2 d d' -> Forall (fun k => 0 <= k < 64) [k0; k1; k2; k3; k4; k5; k6; k7] ->
  same any (t_lps_word line d k0 k1 k2 k3 k4 k5 k6 k7) (t_lps_word line d' k0 k1 k2 k3 k4 k5 k6 k7).
Proof.
  intros Hd HF. destruct (word_some d k0 k1 k2 k3 k4 k5 k6 k7 (proj1 Hd) HF) as (w & E). destruct (word_some d' k0 k1 k2 k3 k4 k5 k6 k7 (proj2 Hd) HF) as (w' & E').
  assert (ET := erase_word line d k0 k1 k2 k3 k4 k5 k6 k7). rewrite E in ET. assert (ET' := erase_word line d' k0 k1 k2 k3 k4 k5 k6 k7). rewrite E' in ET'. cbn [liftO] in ET, ET'.
  split; [|exists w, w'; repeat split; assumption]. clear E E'. repeat match goal with H : Forall _ (_ :: _) |- _ => apply Forall_cons_iff in H as [? H] end. clear HF.
  assert (L : forall line j k, (0 <= j < 8) -> (0 <= k < 64) -> same any (t_look line d j k) (t_look line d' j k)) by (intros l j k Hj Hk; apply (same_look l d d' j k (Z.to_nat j) (Z.to_nat k) Hd); lia).
  clear ET ET'. unfold t_lps_word. do 8 (eapply steps_bind; [apply L; [lia | assumption]|]; intros ? ? _). reflexivity.
Qed.
Lemma same_lps d d' : blk2 d d' -> same blk2 (t_hash_lps d) (t_hash_lps d').
Proof.
  intros Hd. destruct (lps_ok d (proj1 Hd)) as [E B]. destruct (lps_ok d' (proj2 Hd)) as [E' B'].
  assert (S0 : same any (t_hash_lps d) (t_hash_lps d')).
  { unfold t_hash_lps. cbv zeta. apply same_at_. do 8 (eapply same_bind; [apply same_word; [exact Hd | repeat (apply Forall_cons; [lia|]); apply Forall_nil]|]; intros ? ? _). apply same_ret. exact I. }
  eapply same_any in S0; [| rewrite erase_lps, E; reflexivity | rewrite erase_lps, E'; reflexivity]. destruct S0 as [ES (x & y & Ex & Ey & -> & ->)]. split; [exact ES|]. do 2 eexists. split; [exact Ex|]. split; [exact Ey|]. split; assumption.
Qed.
Lemma same_get_key k k' i : blk2 k k' -> (i < 12)%nat -> same blk2 (t_hash_get_key k (Z.of_nat i)) (t_hash_get_key k' (Z.of_nat i)).
Proof.
  intros Hk Hi. unfold t_hash_get_key. apply same_at_. eapply same_bind; [eapply (same_at blk2); [apply c_get; exact Hi | apply c_get; exact Hi | split; apply le_bytes_block]|]. intros c c' Hc.
  eapply same_bind; [apply same_xor64; [exact Hk | exact Hc]|]. intros a b. apply same_lps.
Qed.
Lemma same_e k k' m m' : blk2 k k' -> blk2 m m' -> same blk2 (t_hash_e k m) (t_hash_e k' m').
Proof.
  intros Hk Hm. unfold t_hash_e. apply same_at_. eapply same_bind; [apply same_xor64; [exact Hk | exact Hm]|]. intros x x' Hx.
  eapply same_bind with (R := fun s s' => blk2 (fst s) (fst s') /\ blk2 (snd s) (snd s')).
  - apply same_for; [split; assumption|]. intros i [a b] [a' b'] Hi [Ha Hb]. cbn [fst snd] in Ha, Hb. apply in_up in Hi. cbn [t_e_body]. eapply same_bind; [apply same_lps; exact Hb|]. intros c c' Hc.
    eapply same_bind; [rewrite <- (Z2Nat.id i) by lia; apply same_get_key; [exact Ha | lia]|]. intros d d' Hd. eapply same_bind; [apply same_xor64; [exact Hc | exact Hd]|]. intros z z' Hz. apply same_ret. split; assumption.
  - intros [a b] [a' b'] [_ H]. apply same_ret. exact H.
Qed.
Lemma same_g h h' n n' m m' : blk2 h h' -> blk2 n n' -> blk2 m m' -> same blk2 (t_hash_g h n m) (t_hash_g h' n' m').
Proof.
  intros Hh Hn Hm. unfold t_hash_g. apply same_at_. eapply same_bind; [apply same_xor64; [exact Hn | exact Hh]|]. intros a a' Ha. eapply same_bind; [apply same_lps; exact Ha|]. intros b b' Hb.
  eapply same_bind; [apply same_e; [exact Hb | exact Hm]|]. intros c c' Hc. eapply same_bind; [apply same_xor64; [exact Hc | exact Hh]|]. intros d d' Hd. apply same_xor64; assumption.
Qed.

(** Two hash objects of one algorithm with as many bytes pending. *)
Record alike (o o' : hash_obj) : Prop := {
  al_name : exists v, h_name o = vname v /\ h_name o' = vname v;
  al_h : blk2 (h_hash_h o) (h_hash_h o');
  al_n : blk2 (h_hash_n o) (h_hash_n o');
  al_sigma : blk2 (h_hash_sigma o) (h_hash_sigma o');
  al_len : List.length (h_buff o) = List.length (h_buff o');
  al_bytes : bytes_ok (h_buff o) /\ bytes_ok (h_buff o')
}.
Definition short (o o' : hash_obj) : Prop := alike o o' /\ (List.length (h_buff o) < 64)%nat.
Ltac alikes := match goal with H : alike _ _ |- _ => destruct H; split; cbn [set_h set_n set_sigma set_buff set_num_block set_pad_block_size h_name h_buff h_hash_h h_hash_n h_hash_sigma]; try assumption end.
Lemma same_step_h o o' n n' m m' : alike o o' -> blk2 n n' -> blk2 m m' -> same (fun x y => alike x y /\ h_buff x = h_buff o /\ h_buff y = h_buff o') (t_step_h o n m) (t_step_h o' n' m').
Proof. intros H Hn Hm. unfold t_step_h. eapply same_bind; [apply same_g; [apply (al_h _ _ H) | exact Hn | exact Hm]|]. intros a b Hab. apply same_ret. split; [|split; reflexivity]. alikes. Qed.
Lemma same_step_n o o' m m' : alike o o' -> blk2 m m' -> same (fun x y => alike x y /\ h_buff x = h_buff o /\ h_buff y = h_buff o') (t_step_n o m) (t_step_n o' m').
Proof. intros H Hm. unfold t_step_n. eapply same_bind; [apply same_add; [apply (al_n _ _ H) | exact Hm]|]. intros a b Hab. apply same_ret. split; [|split; reflexivity]. alikes. Qed.
Lemma same_step_sigma o o' m m' : alike o o' -> blk2 m m' -> same (fun x y => alike x y /\ h_buff x = h_buff o /\ h_buff y = h_buff o') (t_step_sigma o m) (t_step_sigma o' m').
Proof. intros H Hm. unfold t_step_sigma. eapply same_bind; [apply same_add; [apply (al_sigma _ _ H) | exact Hm]|]. intros a b Hab. apply same_ret. split; [|split; reflexivity]. alikes. Qed.
Lemma V512_block : block64 _V_512.
Proof. rewrite V_512_eq. apply le_bytes_block. Qed.
Lemma V0_block : block64 _V_0.
Proof. rewrite V_0_eq. apply le_bytes_block. Qed.
Lemma piece_block D j : bytes_ok D -> (64 * S j <= List.length D)%nat -> block64 (py_slice D (64 * Z.of_nat j) (64 * Z.of_nat j + _BLOCK_SIZE)).
Proof.
  intros HD H. change _BLOCK_SIZE with 64. rewrite slice_block by exact H. split; [rewrite firstn_length_le; [reflexivity | rewrite skipn_length; lia] | now apply bytes_ok_firstn, bytes_ok_skipn].
Qed.
Lemma tail_length (D : bytes) : (List.length D mod 64 <> 0)%nat -> List.length (py_from D (- (_BLOCK_SIZE - (_BLOCK_SIZE - len D mod _BLOCK_SIZE)))) = (List.length D mod 64)%nat.
Proof.
  intros E. unfold py_from. rewrite skipn_length. unfold clamp, len. change _BLOCK_SIZE with 64. replace (Z.of_nat (List.length D) mod 64) with (Z.of_nat (List.length D mod 64)) by lia. pose proof (Nat.mod_upper_bound (List.length D) 64 ltac:(lia)). pose proof (Nat.mod_le (List.length D) 64 ltac:(lia)).
  replace (- (64 - (64 - Z.of_nat (List.length D mod 64))) <? 0) with true by lia. cbv zeta.
  match goal with |- context [if ?c then 0 else _] => replace c with false by lia end. match goal with |- context [if ?c then _ else _] => replace c with false by lia end. lia.
Qed.
Lemma same_update d d' o o' : short o o' -> bytes_ok d -> bytes_ok d' -> List.length d = List.length d' -> same short (t_hash_update d o) (t_hash_update d' o').
Proof.
  intros [H Hs] Hd Hd' L. unfold t_hash_update. do 2 apply same_at_. cbv zeta. pose proof (al_len _ _ H) as LB. destruct (al_bytes _ _ H) as [HB HB'].
  assert (HD : bytes_ok (h_buff o ++ d)) by (apply bytes_ok_app; tauto). assert (HD' : bytes_ok (h_buff o' ++ d')) by (apply bytes_ok_app; tauto). assert (LD : List.length (h_buff o ++ d) = List.length (h_buff o' ++ d')) by (rewrite !app_length; lia).
  set (D := h_buff o ++ d) in *. set (D' := h_buff o' ++ d') in *. replace (len D') with (len D) by (unfold len; lia).
  eapply same_bind with (R := fun x y => alike x y /\ h_buff x = h_buff o /\ h_buff y = h_buff o').
  - set (n := (List.length D / 64)%nat). replace (len D / _BLOCK_SIZE) with (Z.of_nat n) by (unfold n, len, _BLOCK_SIZE; lia). change _BLOCK_SIZE with 64. rewrite range_64. apply same_for.
    + split; [alikes | split; reflexivity].
    + intros i x y Hi [Hxy [Bx By]]. apply in_map_iff in Hi as (j & <- & Hj). apply in_seq in Hj. assert (Hn : (64 * S j <= List.length D)%nat) by (unfold n in Hj; pose proof (Nat.div_mod_eq (List.length D) 64); lia).
      assert (HP : blk2 (py_slice D (64 * Z.of_nat j) (64 * Z.of_nat j + _BLOCK_SIZE)) (py_slice D' (64 * Z.of_nat j) (64 * Z.of_nat j + _BLOCK_SIZE))) by (split; apply piece_block; try assumption; lia).
      unfold t_update_body. cbv zeta. eapply same_bind; [apply same_step_h; [exact Hxy | apply (al_n _ _ Hxy) | exact HP]|]. intros x1 y1 (H1 & B1 & B1'). eapply same_bind; [apply same_step_n; [exact H1 | split; apply V512_block]|]. intros x2 y2 (H2 & B2 & B2').
      destruct (same_step_sigma x2 y2 _ _ H2 HP) as [E (a & b & Ea & Eb & Hab & Ba & Bb)]. split; [exact E|]. exists a, b. split; [exact Ea|]. split; [exact Eb|]. split; [exact Hab|]. split; congruence.
  - intros x y (Hxy & Bx & By). apply same_if; [reflexivity| |]; intros G; apply same_ret.
    + assert (NZ : (List.length D mod 64 <> 0)%nat) by (unfold _BLOCK_SIZE, len in G; lia). assert (HT := tail_length D NZ). assert (HT' := tail_length D' ltac:(rewrite <- LD; exact NZ)). replace (len D') with (len D) in HT' by (unfold len; lia). split.
      * alikes; [congruence|]. split; unfold py_from; now apply bytes_ok_skipn.
      * cbn [set_buff h_buff]. rewrite HT. apply Nat.mod_upper_bound. lia.
    + split; [alikes|]. cbn [set_pad_block_size h_buff]. rewrite Bx. exact Hs.
Qed.
Lemma same_final o o' : short o o' -> same (fun x y => alike x y) (t_hash_final o) (t_hash_final o').
Proof.
  intros [H Hs]. pose proof (al_len _ _ H) as L. destruct (al_bytes _ _ H) as [HB HB']. unfold t_hash_final. apply same_at_. cbv zeta. replace (len (h_buff o')) with (len (h_buff o)) by (unfold len; lia).
  replace (_BLOCK_SIZE - (_BLOCK_SIZE - len (h_buff o))) with (len (h_buff o)) by lia. destruct (count_bytes (len (h_buff o)) (len_nonneg _)) as (i & E1 & E2).
  eapply same_bind; [eapply (same_res (fun a b => a = i /\ b = i)); [exact E1 | exact E1 | split; reflexivity]|]. intros a b [-> ->].
  eapply same_bind; [eapply (same_res blk2); [exact E2 | exact E2 | split; apply le_bytes_block]|]. intros a b Hab.
  eapply same_bind with (R := fun x y => alike x y /\ blk2 (h_buff x) (h_buff y)).
  - apply same_if; [reflexivity| |]; intros G; apply same_ret; [|unfold _BLOCK_SIZE, len in G; lia]. cbn [set_pad_block_size set_buff h_buff].
    assert (C : forall z, bytes_ok z -> (List.length z < 64)%nat -> len z = len (h_buff o) -> block64 ((z ++ [1]) ++ py_repeat 0 (_BLOCK_SIZE - len (h_buff o) - 1))).
    { intros z Hz Lz <-. change ((z ++ [1]) ++ py_repeat 0 (_BLOCK_SIZE - len z - 1)) with (closing z). split; [|now apply closing_ok]. rewrite closing_pad by exact Lz. unfold pad. rewrite !app_length, repeat_length. cbn [List.length]. lia. }
    pose proof (C (h_buff o) HB Hs eq_refl) as C1. pose proof (C (h_buff o') HB' ltac:(lia) ltac:(unfold len; lia)) as C2. split; [|split; assumption]. alikes; [destruct C1, C2; lia|]. split; [apply C1 | apply C2].
  - intros x y [Hxy HBB]. unfold t_final_steps. cbv zeta. eapply same_bind; [apply same_step_h; [exact Hxy | apply (al_n _ _ Hxy) | exact HBB]|]. intros x1 y1 (H1 & _). eapply same_bind; [apply same_step_n; [exact H1 | exact Hab]|]. intros x2 y2 (H2 & _).
    eapply same_bind; [apply same_step_sigma; [exact H2 | exact HBB]|]. intros x3 y3 (H3 & _). eapply same_bind; [apply same_step_h; [exact H3 | split; apply V0_block | apply (al_n _ _ H3)]|]. intros x4 y4 (H4 & _).
    destruct (same_step_h x4 y4 _ _ _ _ H4 (conj V0_block V0_block) (al_sigma _ _ H4)) as [E (u & w & Eu & Ew & Huw & _)]. split; [exact E|]. exists u, w. split; [exact Eu|]. split; [exact Ew | exact Huw].
Qed.
Lemma same_digest o o' : short o o' -> same (fun x y => List.length x = List.length y /\ bytes_ok x /\ bytes_ok y) (t_hash_digest o) (t_hash_digest o').
Proof.
  intros H. unfold t_hash_digest. do 2 apply same_at_. eapply same_bind; [apply same_final; exact H|]. intros x y Hxy. do 2 apply same_at_. destruct (al_name _ _ Hxy) as (v & EN & EN'). rewrite EN, EN'. apply same_at_. apply same_ret.
  unfold get_hash, digest_size. rewrite EN, EN'. destruct (al_h _ _ Hxy) as [[L B] [L' B']]. unfold py_from. split; [rewrite !skipn_length; unfold len; rewrite L, L'; reflexivity|]. split; now apply bytes_ok_skipn.
Qed.
Lemma init_short v : short (_hash_init (vname v) (void v)) (_hash_init (vname v) (void v)).
Proof.
  destruct (init_holds v) as [H1 H2 H3 H4 H5 H6 H7 H8 H9 H10]. split; [split|]; rewrite ?H9; try (split; assumption); try reflexivity; [| | | |cbn; lia].
  - exists v. split; assumption.
  - rewrite H3. split; assumption.
  - rewrite H4. split; apply le_bytes_block.
  - rewrite H5. split; apply le_bytes_block.
Qed.
Lemma init_oid v : (if String.eqb (vname v) "streebog256" then "1.2.643.7.1.1.2.2" else "1.2.643.7.1.1.2.3") = void v.
Proof. destruct v; reflexivity. Qed.
Lemma same_init v d d' : bytes_ok d -> bytes_ok d' -> List.length d = List.length d' -> same short (t_hash_init (vname v) d) (t_hash_init (vname v) d').
Proof.
  intros Hd Hd' L. unfold t_hash_init. do 4 apply same_at_. cbv zeta. rewrite init_oid. apply same_if; [destruct d, d'; try discriminate L; reflexivity| |]; intros _; [|apply same_ret, init_short]. apply same_update; try assumption. apply init_short.
Qed.
Lemma same_new v d d' : bytes_ok d -> bytes_ok d' -> List.length d = List.length d' -> same short (t_hash_new (vname v) d) (t_hash_new (vname v) d').
Proof. intros Hd Hd' L. unfold t_hash_new. apply same_at_. apply same_if; [reflexivity| |]; intros G; [destruct v; discriminate G|]. now apply same_init. Qed.
Lemma same_updates cs : forall cs' o o', short o o' -> Forall bytes_ok cs -> Forall bytes_ok cs' -> map (@List.length Z) cs = map (@List.length Z) cs' -> same short (t_hash_updates cs o) (t_hash_updates cs' o').
Proof.
  induction cs as [|c cs IH]; intros [|c' cs'] o o' H HF HF' L; try discriminate L; cbn [t_hash_updates]; [now apply same_ret|]. apply Forall_cons_iff in HF as [Hc HF]. apply Forall_cons_iff in HF' as [Hc' HF']. injection L as L0 L.
  eapply same_bind; [apply same_update; eassumption|]. intros x y Hxy. now apply IH.
Qed.
Lemma same_session v cs cs' : Forall bytes_ok cs -> Forall bytes_ok cs' -> map (@List.length Z) cs = map (@List.length Z) cs' -> same any (t_hash_session (vname v) cs) (t_hash_session (vname v) cs').
Proof.
  intros HF HF' L. unfold t_hash_session. eapply same_bind; [apply same_new; [apply Forall_nil | apply Forall_nil | reflexivity]|]. intros x y Hxy. eapply same_bind; [apply same_updates; eassumption|]. intros x' y' H'.
  destruct (same_digest x' y' H') as [E (a & b & Ea & Eb & _)]. split; [exact E|]. exists a, b. repeat split; assumption.
Qed.

(** ** HMAC *)
Record malike (m m' : hmac_obj) : Prop := {
  ma_key : blk2 (hm_key m) (hm_key m');
  ma_hasher : short (hm_hasher m) (hm_hasher m');
  ma_counter : hm_counter m = hm_counter m'
}.
Lemma i_pad_block : block64 _I_PAD.
Proof. split; [reflexivity|]. change _I_PAD with (repeat 0x36 64). apply bytes_ok_repeat with (n := 64). unfold byte_ok. lia. Qed.
Lemma o_pad_block : block64 _O_PAD.
Proof. split; [reflexivity|]. change _O_PAD with (repeat 0x5c 64). apply bytes_ok_repeat with (n := 64). unfold byte_ok. lia. Qed.
Lemma join_ok (x y : bytes) : block64 x -> bytes_ok y -> bytes_ok (x ++ y).
Proof. intros [_ H] H'. apply bytes_ok_app. tauto. Qed.
Lemma same_hmac_update d d' m m' : malike m m' -> bytes_ok d -> bytes_ok d' -> List.length d = List.length d' -> same malike (t_hmac_update d m) (t_hmac_update d' m').
Proof.
  intros [HK HH HC] Hd Hd' L. unfold t_hmac_update. do 2 apply same_at_. cbv zeta. cbn [hm_set_counter hm_counter hm_key hm_hasher]. apply same_if; [now rewrite HC| |]; intros _.
  - eapply same_bind; [apply same_xor64; [exact HK | split; apply i_pad_block]|]. intros x y [Hx Hy]. eapply same_bind; [apply same_update; [exact HH | now apply join_ok | now apply join_ok | rewrite !app_length, L; destruct Hx, Hy; lia]|].
    intros h h' Hh. apply same_ret. split; cbn [hm_set_hasher hm_set_counter hm_key hm_hasher hm_counter]; [exact HK | exact Hh | now rewrite HC].
  - apply same_at_. eapply same_bind; [apply same_update; eassumption|]. intros h h' Hh. apply same_ret. split; cbn [hm_set_hasher hm_set_counter hm_key hm_hasher hm_counter]; [exact HK | exact Hh | now rewrite HC].
Qed.
Lemma same_hmac_digest m m' : malike m m' -> same any (t_hmac_digest m) (t_hmac_digest m').
Proof.
  intros [HK HH HC]. unfold t_hmac_digest. do 2 apply same_at_. destruct (al_name _ _ (proj1 HH)) as (v & EN & EN'). rewrite EN, EN'. eapply same_bind; [apply same_init; [apply Forall_nil | apply Forall_nil | reflexivity]|]. intros f f' Hf.
  eapply same_bind; [apply same_xor64; [exact HK | split; apply o_pad_block]|]. intros x y [Hx Hy]. eapply same_bind; [apply same_digest; exact HH|]. intros i i' (Li & Hi & Hi').
  eapply same_bind; [apply same_update; [exact Hf | now apply join_ok | now apply join_ok | rewrite !app_length, Li; destruct Hx, Hy; lia]|]. intros g g' Hg. eapply same_bind; [apply same_digest; exact Hg|]. intros r r' _. do 2 apply same_at_.
  destruct (al_name _ _ (proj1 Hg)) as (v' & EG & EG'). rewrite EG, EG'. apply same_at_. apply same_ret. exact I.
Qed.
Lemma store_block key : bytes_ok key -> len key <= 64 -> block64 (store_key key).
Proof.
  intros HB HL. unfold store_key. destruct (len key <? _KEY_SIZE) eqn:E; unfold _KEY_SIZE in E.
  - split; [|apply bytes_ok_app; split; [exact HB | apply bytes_ok_repeat; unfold byte_ok; lia]]. rewrite app_length. unfold py_repeat. rewrite repeat_length. unfold _KEY_SIZE, len in *. lia.
  - split; [unfold len in *; lia | exact HB].
Qed.
Lemma same_hmac_new v key key' d d' : bytes_ok key -> bytes_ok key' -> len key <= 64 -> len key = len key' -> bytes_ok d -> bytes_ok d' -> List.length d = List.length d' ->
  same malike (t_hmac_new (mname v) key d) (t_hmac_new (mname v) key' d').
Proof.
  intros Hk Hk' Lk Lk' Hd Hd' L. unfold t_hmac_new. do 2 apply same_at_. cbv zeta. apply same_if; [reflexivity| |]; intros G; [destruct v; discriminate G|]. apply same_if; [now rewrite Lk'| |]; intros G'; [unfold _KEY_SIZE in G'; lia|].
  eapply same_bind with (R := eq); [apply same_if; [now rewrite Lk'| |]; intros _; [now apply same_ret | apply same_step]|]. intros [] [] _.
  eapply same_bind with (R := fun p p' => short (snd p) (snd p')).
  - destruct v; apply same_if; try reflexivity; intros GG; try discriminate GG; [|apply same_at_]; (eapply same_bind; [| intros h h' Hh; apply same_ret; exact Hh]); [apply (same_init S256) | apply (same_init S512)]; try apply Forall_nil; reflexivity.
  - intros [oid h] [oid' h'] Hh. cbn [snd] in Hh.
    assert (HM : malike {| hm_key := store_key key; hm_hasher := h; hm_counter := 0; hm_oid := oid |} {| hm_key := store_key key'; hm_hasher := h'; hm_counter := 0; hm_oid := oid' |}) by (split; cbn; [split; apply store_block; try assumption; lia | exact Hh | reflexivity]).
    apply same_if; [destruct d, d'; try discriminate L; reflexivity| |]; intros _; [apply same_hmac_update; assumption | apply same_ret; exact HM].
Qed.
Lemma same_hmac_session v key key' d d' : bytes_ok key -> bytes_ok key' -> len key <= 64 -> len key = len key' -> bytes_ok d -> bytes_ok d' -> List.length d = List.length d' ->
  same any (t_hmac_session (mname v) key d) (t_hmac_session (mname v) key' d').
Proof.
  intros Hk Hk' Lk Lk' Hd Hd' L. unfold t_hmac_session. eapply same_bind; [apply same_hmac_new; assumption|]. intros m m' Hm. now apply same_hmac_digest.
Qed.
