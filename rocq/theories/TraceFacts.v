(** * The steps of the traced functions. *)
From Verif Require Import PyBase PyFacts PyLoop Utils UtilsFacts Sig SpecTrace Trace TraceLemmas.
Open Scope string_scope.
Open Scope list_scope.
Open Scope Z_scope.

(** ** Loops whose steps do not depend on the data *)
Lemma fst_for {A S} f l (h : A -> list event) (body : A -> S -> T S) : forall xs s,
  (forall x s, In x xs -> exists s', body x s = (h x, Returns s')) -> fst (t_for f l xs s body) = concat (map (fun x => Test f l true :: h x) xs) ++ [Test f l false].
Proof.
  induction xs as [|x xs IH]; intros s H; cbn [t_for map concat]; [reflexivity|]. unfold bindT at 1. cbn [step fst snd]. destruct (H x s (or_introl eq_refl)) as (s' & E). unfold bindT. rewrite E. cbn [fst snd app].
  rewrite IH by (intros; apply H; right; assumption). rewrite <- app_assoc. reflexivity.
Qed.
Lemma for_returns {A S} f l (h : A -> list event) (body : A -> S -> T S) : forall xs s,
  (forall x s, In x xs -> exists s', body x s = (h x, Returns s')) -> exists r, snd (t_for f l xs s body) = Returns r.
Proof.
  induction xs as [|x xs IH]; intros s H; cbn [t_for]; rewrite snd_step; [eexists; reflexivity|].
  destruct (H x s (or_introl eq_refl)) as (s' & E). rewrite snd_bind, E. cbn [snd bindO]. apply IH. intros; apply H; right; assumption.
Qed.
Lemma fst_bind_ok {A B} (c : T A) (k : A -> T B) a : snd c = Returns a -> fst (bindT c k) = fst c ++ fst (k a).
Proof. intros E. unfold bindT. rewrite E. reflexivity. Qed.
Lemma fst_step {B} e (k : unit -> T B) : fst (bindT (step e) k) = e :: fst (k tt).
Proof. reflexivity. Qed.
Lemma fst_if {A} f l b (x y : T A) : fst (if_ f l b x y) = Test f l b :: fst (if b then x else y).
Proof. reflexivity. Qed.
Lemma map_of_nat {B} (h : Z -> B) n : map h (py_range 0 n 1) = map (fun i => h (Z.of_nat i)) (seq 0 (Z.to_nat n)).
Proof. rewrite py_range_up, map_map. reflexivity. Qed.
Lemma in_up x n : In x (py_range 0 n 1) -> 0 <= x < n.
Proof. rewrite py_range_up. intros H. apply in_map_iff in H. destruct H as (i & <- & H). apply in_seq in H. lia. Qed.

Lemma steps_compare a b : length a = length b -> fst (t_compare a b) = compare_steps (length a).
Proof.
  intros L. unfold t_compare, compare_steps. rewrite fst_step. replace (len a =? len b) with true by (unfold len; lia). cbn [negb]. unfold if_. rewrite fst_step.
  set (B := fun (i res_check : Z) => _). assert (HB : forall x s, In x (py_range 0 (len a) 1) -> exists s', B x s = ([Read FUtils 134 0 x; Read FUtils 134 1 x], Returns s')).
  { intros x s Hx. apply in_up in Hx. unfold B, t_get. rewrite (py_get_nth a x 0), (py_get_nth b x 0) by (unfold len in *; lia). eexists. reflexivity. }
  assert (E : exists r, snd (t_for FUtils 133 (py_range 0 (len a) 1) 0 B) = Returns r).
  { exact (for_returns _ _ _ B _ _ HB). }
  destruct E as (r & E). rewrite (fst_bind_ok _ _ r E). cbn [retT fst]. rewrite app_nil_r. rewrite (fst_for _ _ (fun x => [Read FUtils 134 0 x; Read FUtils 134 1 x]) B _ _ HB). rewrite map_of_nat. unfold len. rewrite Nat2Z.id. reflexivity.
Qed.
Lemma steps_compare_ne a b : length a <> length b -> t_compare a b = ([Enter FUtils 114; Test FUtils 131 true], Returns false).
Proof. intros L. unfold t_compare. replace (len a =? len b) with false by (unfold len; lia). reflexivity. Qed.
Lemma steps_zero a : fst (t_compare_to_zero a) = compare_to_zero_steps (length a).
Proof.
  unfold t_compare_to_zero, compare_to_zero_steps. rewrite fst_step.
  set (B := fun (i res_check : Z) => _). assert (HB : forall x s, In x (py_range 0 (len a) 1) -> exists s', B x s = ([Read FUtils 154 0 x], Returns s')).
  { intros x s Hx. apply in_up in Hx. unfold B, t_get. rewrite (py_get_nth a x 0) by (unfold len in *; lia). eexists. reflexivity. }
  assert (E : exists r, snd (t_for FUtils 153 (py_range 0 (len a) 1) 0 B) = Returns r).
  { exact (for_returns _ _ _ B _ _ HB). }
  destruct E as (r & E). rewrite (fst_bind_ok _ _ r E). cbn [retT fst]. rewrite app_nil_r. rewrite (fst_for _ _ (fun x => [Read FUtils 154 0 x]) B _ _ HB). rewrite map_of_nat. unfold len. rewrite Nat2Z.id. reflexivity.
Qed.
Lemma steps_bytes v w n : fst (t_int_to_bytearray v n) = fst (t_int_to_bytearray w n).
Proof. unfold t_int_to_bytearray. rewrite !fst_step. rewrite !(fst_for _ _ (fun _ => [])); [reflexivity| |]; intros x s _; eexists; reflexivity. Qed.

(** ** Computations that show the observer nothing *)
Definition silent {A} (c : T A) : Prop := forall st, fold_left observe (fst c) st = st.
Lemma silent_ret {A} (a : A) : silent (retT a). Proof. intros st. reflexivity. Qed.
Lemma silent_stop {A} (c : outcome A) : silent (stopT c). Proof. intros st. reflexivity. Qed.
Lemma silent_bind {A B} (c : T A) (k : A -> T B) : silent c -> (forall a, silent (k a)) -> silent (bindT c k).
Proof. intros H K st. unfold bindT. destruct (snd c) as [a|e|]; cbn [fst]; [rewrite fold_left_app, H; apply K | apply H | apply H]. Qed.
Lemma silent_step e : (forall st, observe st e = st) -> silent (step e). Proof. intros H st. apply H. Qed.
Lemma silent_if {A} f l b (x y : T A) : (forall st, observe st (Test f l b) = st) -> silent x -> silent y -> silent (if_ f l b x y).
Proof. intros H X Y. apply silent_bind; [apply silent_step, H|]. intros _. destruct b; assumption. Qed.
Lemma silent_for {A S} f l (body : A -> S -> T S) : (forall b st, observe st (Test f l b) = st) -> (forall x s, silent (body x s)) -> forall xs s, silent (t_for f l xs s body).
Proof.
  intros H K. induction xs as [|x xs IH]; intros s; cbn [t_for]; (apply silent_bind; [apply silent_step, H|]; intros _); [apply silent_ret|]. apply silent_bind; [apply K | intros a; apply IH].
Qed.
Ltac quiet := repeat first [apply silent_ret | apply silent_stop | (apply silent_step; intros; reflexivity) | (apply silent_if; [intros; reflexivity| |]) | (apply silent_for; [intros; reflexivity|intros]) | (apply silent_bind; [|intros])].
Lemma silent_get f l k b i : silent (t_get f l k b i). Proof. unfold t_get. quiet; destruct f; reflexivity. Qed.
Lemma silent_compare a b : silent (t_compare a b). Proof. unfold t_compare. quiet; apply silent_get. Qed.
Lemma silent_zero a : silent (t_compare_to_zero a). Proof. unfold t_compare_to_zero. quiet; apply silent_get. Qed.
Lemma silent_bytes v n : silent (t_int_to_bytearray v n). Proof. unfold t_int_to_bytearray. quiet. Qed.
Lemma silent_gcdex : forall n v m st, fold_left observe (fst (t_gcdex n v m)) st = st.
Proof. induction n as [|n IH]; intros v m st; cbn [t_gcdex]; [reflexivity|]. destruct (m =? 0); [reflexivity|]. cbn [fst fold_left]. apply IH. Qed.
Lemma silent_invert v m : silent (t_invert v m).
Proof. unfold t_invert. apply silent_bind; [apply silent_step; reflexivity|]. intros _. cbv zeta. apply silent_bind; [|intros; quiet]. intros st. apply silent_gcdex. Qed.
Ltac quieter := repeat first [apply silent_bytes | apply silent_compare | apply silent_zero | apply silent_invert | apply silent_ret | (apply silent_step; intros; reflexivity) | (apply silent_if; [intros; reflexivity| |]) | (apply silent_bind; [|intros])].
Lemma silent_add o x1 x2 y1 y2 : silent (t_add o x1 x2 y1 y2).
Proof. unfold t_add. cbv zeta. quieter. Qed.
Lemma silent_set_e o d : silent (t_set_e o d). Proof. unfold t_set_e. cbv zeta. quieter. Qed.
Lemma silent_rand o ur : forall n i, silent (t_rand_loop o n ur i).
Proof. induction n as [|n IH]; intros i; cbn [t_rand_loop]; quiet. apply IH. Qed.

(** ** What the multiplication of a point shows *)
Lemma fold_bind {A B} (c : T A) (k : A -> T B) b st : snd (bindT c k) = Returns b ->
  exists a, snd c = Returns a /\ snd (k a) = Returns b /\ fold_left observe (fst (bindT c k)) st = fold_left observe (fst (k a)) (fold_left observe (fst c) st).
Proof. unfold bindT. destruct (snd c) as [a|e|]; cbn [snd fst]; intros E; [|discriminate E|discriminate E]. exists a. rewrite fold_left_app. auto. Qed.
Lemma fold_silent {A B} (c : T A) (k : A -> T B) b st : silent c -> snd (bindT c k) = Returns b ->
  exists a, snd c = Returns a /\ snd (k a) = Returns b /\ fold_left observe (fst (bindT c k)) st = fold_left observe (fst (k a)) st.
Proof. intros H E. destruct (fold_bind c k b st E) as (a & E1 & E2 & E3). rewrite H in E3. eauto. Qed.
Lemma low_bit v : Z.land v 1 = v mod 2.
Proof. change 1 with (Z.ones 1). rewrite Z.land_ones by lia. reflexivity. Qed.
Lemma show_loop o : forall n v xn yn xp yp pt a w, snd (t_mul_loop o n v xn yn xp yp) = Returns pt -> exists w', fold_left observe (fst (t_mul_loop o n v xn yn xp yp)) (a, w) = (a + w * v, w').
Proof.
  induction n as [|n IH]; intros v xn yn xp yp pt a w; cbn [t_mul_loop]; rewrite snd_if, fst_if; cbn [fold_left]; (destruct (v =? 0) eqn:Ev; cbn [negb]; [intros _; exists w; cbn; f_equal; lia|]); [discriminate|].
  intros E. change (observe (a, w) (Test FSig 612 true)) with (a, w). destruct (fold_bind _ _ _ (a, w) E) as (nx & E1 & E2 & ->). destruct (fold_silent _ _ _ (fold_left observe (fst (if_ FSig 628 (Z.land v 1 =? 1) (t_add o xn xp yn yp) (retT (xn, yn)))) (a, w)) (silent_add _ _ _ _ _) E2) as (pv & E3 & E4 & ->).
  assert (H : fold_left observe (fst (if_ FSig 628 (Z.land v 1 =? 1) (t_add o xn xp yn yp) (retT (xn, yn)))) (a, w) = (a + w * Z.land v 1, 2 * w)).
  { unfold if_. rewrite fst_step. cbn [fold_left]. change (observe (a, w) (Test FSig 628 (Z.land v 1 =? 1))) with (a + (if Z.land v 1 =? 1 then w else 0), 2 * w).
    assert (Z.land v 1 = 0 \/ Z.land v 1 = 1) as [->| ->] by (rewrite low_bit; pose proof (Z.mod_pos_bound v 2 ltac:(lia)); lia).
    - cbn [Z.eqb retT fst fold_left]. f_equal. lia.
    - change (1 =? 1) with true. cbv iota. rewrite silent_add. f_equal. lia. }
  rewrite H. destruct (IH _ _ _ _ _ _ (a + w * Z.land v 1) (2 * w) E4) as (w' & ->). exists w'. f_equal.
  assert (D : v = Z.land v 1 + 2 * Z.shiftr v 1) by (rewrite low_bit, Z.shiftr_div_pow2 by lia; change (2 ^ 1) with 2; pose proof (Z.div_mod v 2 ltac:(lia)); lia). rewrite D at 3. ring.
Qed.
Lemma show_point o n v x y pt st : snd (t_mul_point o n v x y) = Returns pt -> fst (fold_left observe (fst (t_mul_point o n v x y)) st) = v - 1.
Proof.
  unfold t_mul_point. rewrite snd_step, fst_step. cbv zeta. cbn [fold_left]. change (observe st (Enter FSig 616)) with (0, 1). unfold if_. rewrite snd_step, fst_step. cbn [fold_left].
  change (observe (0, 1) (Test FSig 619 ((x >? 0) && (y >? 0)))) with (0, 1). destruct ((x >? 0) && (y >? 0)); intros E; destruct (show_loop _ _ _ _ _ _ _ _ 0 1 E) as (w & ->); cbn [fst]; ring.
Qed.

(** ** What [sign] and [public_key_generate] show *)
Lemma show_inner o rk k0 : bytearray_to_int rk = k0 -> forall n r k rs, snd (t_sign_inner o n rk r k) = Returns rs ->
  (forall st, fst st = k0 - 1 -> fst (fold_left observe (fst (t_sign_inner o n rk r k)) st) = k0 - 1) /\
  (compare_to_zero (int_to_bytearray r (s_size o)) = Ok true -> forall st, fst (fold_left observe (fst (t_sign_inner o n rk r k)) st) = k0 - 1).
Proof.
  intros HK. induction n as [|n IH]; intros r k rs E; cbn [t_sign_inner] in *;
    (match goal with |- (forall st, _ -> fst (fold_left observe (fst ?c) st) = _) /\ _ => assert (W : forall st, (fst st = k0 - 1 \/ compare_to_zero (int_to_bytearray r (s_size o)) = Ok true) -> fst (fold_left observe (fst c) st) = k0 - 1) end; [|split; intros; apply W; auto]); intros st HI.
  - destruct (fold_silent _ _ _ st (silent_bytes _ _) E) as (b & Eb & E2 & ->). rewrite erase_bytes in Eb. injection Eb as <-. destruct (fold_silent _ _ _ st (silent_zero _) E2) as (z & Ez & E3 & ->). rewrite erase_zero in Ez.
    destruct (compare_to_zero (int_to_bytearray r (s_size o))) as [z'|]; [|discriminate Ez]. injection Ez as ->. destruct z; [discriminate E3|]. destruct HI as [HI|HI]; [exact HI|discriminate HI].
  - destruct (fold_silent _ _ _ st (silent_bytes _ _) E) as (b & Eb & E2 & ->). rewrite erase_bytes in Eb. injection Eb as <-. destruct (fold_silent _ _ _ st (silent_zero _) E2) as (z & Ez & E3 & ->). rewrite erase_zero in Ez.
    destruct (compare_to_zero (int_to_bytearray r (s_size o))) as [z'|]; [|discriminate Ez]. injection Ez as ->. destruct z; [|destruct HI as [HI|HI]; [exact HI|discriminate HI]].
    unfold if_ in *. rewrite snd_step in E3. rewrite fst_step. cbn [fold_left]. change (observe st (Test FSig 697 true)) with st. rewrite HK in *.
    destruct (fold_bind _ _ _ st E3) as (c & Ec & E4 & ->). apply (proj1 (IH _ _ _ E4)). apply (show_point _ _ _ _ _ _ _ Ec).
Qed.
Lemma show_outer o pk rk e k0 : bytearray_to_int rk = k0 -> forall n r s k rs, snd (t_sign_outer o n pk rk e r s k) = Returns rs ->
  (forall st, fst st = k0 - 1 -> fst (fold_left observe (fst (t_sign_outer o n pk rk e r s k)) st) = k0 - 1) /\
  (compare_to_zero (int_to_bytearray r (s_size o)) = Ok true -> compare_to_zero (int_to_bytearray s (s_size o)) = Ok true -> forall st, fst (fold_left observe (fst (t_sign_outer o n pk rk e r s k)) st) = k0 - 1).
Proof.
  intros HK. induction n as [|n IH]; intros r s k rs E; cbn [t_sign_outer] in *;
    (match goal with |- (forall st, _ -> fst (fold_left observe (fst ?c) st) = _) /\ _ => assert (W : forall st, (fst st = k0 - 1 \/ (compare_to_zero (int_to_bytearray r (s_size o)) = Ok true /\ compare_to_zero (int_to_bytearray s (s_size o)) = Ok true)) -> fst (fold_left observe (fst c) st) = k0 - 1) end; [|split; intros; apply W; auto]); intros st HI.
  - destruct (fold_silent _ _ _ st (silent_bytes _ _) E) as (b & Eb & E2 & ->). rewrite erase_bytes in Eb. injection Eb as <-. destruct (fold_silent _ _ _ st (silent_zero _) E2) as (z & Ez & E3 & ->). rewrite erase_zero in Ez.
    destruct (compare_to_zero (int_to_bytearray s (s_size o))) as [z'|]; [|discriminate Ez]. injection Ez as ->. destruct z; [discriminate E3|]. destruct HI as [HI|[_ HI]]; [exact HI|discriminate HI].
  - destruct (fold_silent _ _ _ st (silent_bytes _ _) E) as (b & Eb & E2 & ->). rewrite erase_bytes in Eb. injection Eb as <-. destruct (fold_silent _ _ _ st (silent_zero _) E2) as (z & Ez & E3 & ->). rewrite erase_zero in Ez.
    destruct (compare_to_zero (int_to_bytearray s (s_size o))) as [z'|]; [|discriminate Ez]. injection Ez as ->. destruct z; [|destruct HI as [HI|[_ HI]]; [exact HI|discriminate HI]].
    unfold if_ in *. rewrite snd_step in E3. rewrite fst_step. cbn [fold_left]. change (observe st (Test FSig 696 true)) with st.
    destruct (fold_bind _ _ _ st E3) as (c & Ec & E4 & ->). apply (proj1 (IH _ _ _ _ E4)). destruct (show_inner o rk k0 HK _ _ _ _ Ec) as [I1 I2]. destruct HI as [HI|[HI _]]; [apply I1, HI | apply I2, HI].
Qed.

(** ** The private key leaves no mark on the steps of [sign] *)
Lemma int_to_bytearray_len v n : length (int_to_bytearray v n) = Z.to_nat n.
Proof. unfold int_to_bytearray. rewrite map_length, py_range_down, map_length, seq_length. reflexivity. Qed.
Definition zero_test_steps (n : Z) : list event := fst (t_int_to_bytearray 0 n) ++ compare_to_zero_steps (Z.to_nat n).
Lemma steps_zero_test {A} v n (k : bool -> T A) : 0 <= n -> fst (do b := t_int_to_bytearray v n in do z := t_compare_to_zero b in k z) = zero_test_steps n ++ fst (k (v mod 256 ^ n =? 0)).
Proof.
  intros Hn. rewrite (fst_bind_ok _ _ (int_to_bytearray v n)) by apply erase_bytes. rewrite (fst_bind_ok _ _ (v mod 256 ^ n =? 0)) by (rewrite erase_zero, compare_to_zero_int by exact Hn; reflexivity).
  rewrite steps_zero, int_to_bytearray_len, (steps_bytes v 0). unfold zero_test_steps. rewrite app_assoc. reflexivity.
Qed.
Lemma inner_nonzero o rk : 0 <= s_size o -> forall n r k rs, sign_inner o n rk r k = Returns rs -> fst rs mod 256 ^ s_size o <> 0.
Proof.
  intros Hn. induction n as [|n IH]; intros r k rs; cbn [sign_inner]; rewrite compare_to_zero_int by exact Hn; cbn [liftO bindO]; destruct (_ =? 0) eqn:E; try discriminate; try (intros [= <-]; cbn [fst]; lia).
  destruct (_mul_point o (S n) (bytearray_to_int rk) (-1) (-1)); cbn [bindO]; try discriminate. apply IH.
Qed.
Lemma outer_stuck o pk rk e r s k : 0 <= s_size o -> r mod 256 ^ s_size o <> 0 -> s mod 256 ^ s_size o = 0 -> s = (r * bytearray_to_int pk + k * e) mod s_q o ->
  forall n, sign_outer o n pk rk e r s k = OutOfFuel.
Proof.
  intros Hn Hr Hs E. induction n as [|n IH]; cbn [sign_outer]; rewrite compare_to_zero_int by exact Hn; cbn [liftO bindO]; rewrite Hs; change (0 =? 0) with true; cbv iota; [reflexivity|].
  cbn [sign_inner]. rewrite compare_to_zero_int by exact Hn. cbn [liftO bindO]. replace (r mod 256 ^ s_size o =? 0) with false by lia. cbn [bindO fst snd]. rewrite <- E. exact IH.
Qed.
Lemma outer_steps o n pk rk e rs : 0 <= s_size o -> sign_outer o n pk rk e 0 0 0 = Returns rs ->
  fst (t_sign_outer o n pk rk e 0 0 0) = zero_test_steps (s_size o) ++ [Test FSig 696 true] ++ fst (t_sign_inner o n rk 0 0) ++ zero_test_steps (s_size o) ++ [Test FSig 696 false].
Proof.
  intros Hn. destruct n as [|n]; cbn [sign_outer t_sign_outer]; rewrite compare_to_zero_int by exact Hn; cbn [liftO bindO]; rewrite steps_zero_test by exact Hn; change (0 mod 256 ^ s_size o =? 0) with true; cbv iota; [discriminate|].
  destruct (sign_inner o (S n) rk 0 0) as [[r k]| |] eqn:EI; cbn [bindO]; try discriminate. pose proof (inner_nonzero o rk Hn _ _ _ _ EI) as NR. cbn [fst snd] in *. intros EO. rewrite fst_if.
  rewrite (fst_bind_ok _ _ (r, k)) by (rewrite erase_inner; exact EI). cbn [fst snd]. set (s := (r * bytearray_to_int pk + k * e) mod s_q o) in *.
  destruct (Z.eq_dec (s mod 256 ^ s_size o) 0) as [Z0|Z0]; [rewrite (outer_stuck o pk rk e r s k Hn NR Z0 eq_refl n) in EO; discriminate EO|].
  f_equal. cbn [app]. f_equal. f_equal. destruct n as [|n]; cbn [t_sign_outer]; rewrite steps_zero_test by exact Hn; replace (s mod 256 ^ s_size o =? 0) with false by lia; reflexivity.
Qed.
