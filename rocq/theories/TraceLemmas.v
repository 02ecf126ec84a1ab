(** * Facts about the traced model: its results, its steps, and what an observer of the steps learns. *)
From Verif Require Import PyBase PyLoop Utils UtilsFacts Sig SpecTrace Trace.
Open Scope string_scope.
Open Scope list_scope.
Open Scope Z_scope.

(** ** The results are those of the first model *)
Lemma snd_bind {A B} (c : T A) (k : A -> T B) : snd (bindT c k) = bindO (snd c) (fun a => snd (k a)).
Proof. unfold bindT. destruct (snd c); reflexivity. Qed.
Lemma snd_step {B} e (k : unit -> T B) : snd (bindT (step e) k) = snd (k tt).
Proof. reflexivity. Qed.
Lemma snd_if {A} f l b (x y : T A) : snd (if_ f l b x y) = if b then snd x else snd y.
Proof. destruct b; reflexivity. Qed.
Lemma snd_for {A S} f l (xs : list A) (body : A -> S -> T S) g : (forall x s, snd (body x s) = liftO (g x s)) ->
  forall s, snd (t_for f l xs s body) = liftO (for_ xs s g).
Proof.
  intros H. induction xs as [|x xs IH]; intros s; cbn [t_for for_]; rewrite snd_step; [reflexivity|].
  rewrite snd_bind, H. destruct (g x s); cbn [liftO bindO bind]; [apply IH | reflexivity].
Qed.
Lemma bindO_ext {A B} (c : outcome A) (k k' : A -> outcome B) : (forall a, k a = k' a) -> bindO c k = bindO c k'.
Proof. intros H. destruct c; cbn; [apply H | reflexivity | reflexivity]. Qed.
Lemma liftO_bind {A B} (c : res A) (k : A -> res B) : liftO (bind c k) = bindO (liftO c) (fun a => liftO (k a)).
Proof. destruct c; reflexivity. Qed.

Lemma erase_compare a b : snd (t_compare a b) = liftO (compare a b).
Proof.
  unfold t_compare, compare. rewrite snd_step, snd_if. destruct (negb (len a =? len b)); [reflexivity|]. rewrite snd_bind, liftO_bind.
  rewrite (snd_for _ _ _ _ (fun i res_check => let* a0 := py_get a i in let* b0 := py_get b i in Ok (res_check + Z.lxor a0 b0))); [reflexivity|].
  intros x s. rewrite !snd_bind. unfold t_get. rewrite snd_step. cbn [stopT snd]. destruct (py_get a x); [|reflexivity]. cbn [liftO bindO bind]. rewrite snd_bind, snd_step. cbn [stopT snd]. destruct (py_get b x); reflexivity.
Qed.
Lemma erase_zero a : snd (t_compare_to_zero a) = liftO (compare_to_zero a).
Proof.
  unfold t_compare_to_zero, compare_to_zero. rewrite snd_step, snd_bind, liftO_bind.
  rewrite (snd_for _ _ _ _ (fun i res_check => let* v := py_get a i in Ok (res_check + Z.lxor v 0))); [reflexivity|].
  intros x s. rewrite !snd_bind. unfold t_get. rewrite snd_step. cbn [stopT snd]. destruct (py_get a x); reflexivity.
Qed.
Lemma for_app (g : Z -> Z) : forall xs acc, for_ xs acc (fun x acc => Ok (acc ++ [g x])) = Ok (acc ++ map g xs).
Proof. induction xs as [|x xs IH]; intros acc; cbn [for_ bind map]; [rewrite app_nil_r; reflexivity|]. rewrite IH, <- app_assoc. reflexivity. Qed.
Lemma erase_bytes v n : snd (t_int_to_bytearray v n) = Returns (int_to_bytearray v n).
Proof.
  unfold t_int_to_bytearray, int_to_bytearray. rewrite snd_step.
  rewrite (snd_for _ _ _ _ (fun pos acc => Ok (acc ++ [(fun pos => Z.shiftr (Z.land v (Z.shiftl 0xff (pos * 8))) (pos * 8)) pos]))); [|reflexivity].
  rewrite for_app. reflexivity.
Qed.
Lemma erase_gcdex : forall n v m, snd (t_gcdex n v m) = gcdex n v m.
Proof. induction n as [|n IH]; intros v m; cbn [t_gcdex gcdex]; [reflexivity|]. destruct (m =? 0); [reflexivity|]. cbn [snd]. rewrite IH. reflexivity. Qed.
Lemma erase_invert v m : snd (t_invert v m) = Returns (_invert v m).
Proof. unfold t_invert, _invert. rewrite snd_step. cbv zeta. rewrite snd_bind. cbn [snd bindO]. rewrite snd_if, erase_gcdex. destruct (_ <? 0); reflexivity. Qed.
Lemma erase_add o x1 x2 y1 y2 : snd (t_add o x1 x2 y1 y2) = liftO (_add o x1 x2 y1 y2).
Proof.
  unfold t_add, _add. cbv zeta. rewrite snd_step. do 2 (rewrite snd_bind, erase_bytes; cbn [bindO]). rewrite snd_bind, erase_compare, liftO_bind. apply bindO_ext. intros cx.
  do 2 (rewrite snd_bind, erase_bytes; cbn [bindO]). rewrite snd_bind, erase_compare, liftO_bind. apply bindO_ext. intros cy.
  rewrite snd_bind, snd_if. destruct (cx && cy); rewrite snd_bind, erase_invert; reflexivity.
Qed.
Lemma erase_mul_loop o : forall n v xn yn xp yp, snd (t_mul_loop o n v xn yn xp yp) = mul_loop o n v xn yn xp yp.
Proof.
  induction n as [|n IH]; intros v xn yn xp yp; cbn [t_mul_loop mul_loop]; rewrite snd_if; destruct (v =? 0); cbn [negb]; try reflexivity.
  rewrite snd_bind, snd_if. destruct (Z.land v 1 =? 1).
  - rewrite erase_add. apply bindO_ext. intros nx. rewrite snd_bind, erase_add. apply bindO_ext. intros pv. apply IH.
  - cbn [retT snd bindO]. rewrite snd_bind, erase_add. apply bindO_ext. intros pv. apply IH.
Qed.
Lemma erase_mul_point o n v x y : snd (t_mul_point o n v x y) = _mul_point o n v x y.
Proof. unfold t_mul_point, _mul_point. rewrite snd_step. cbv zeta. rewrite snd_if. destruct ((x >? 0) && (y >? 0)); apply erase_mul_loop. Qed.
Lemma erase_rand_loop o ur : forall n i, snd (t_rand_loop o n ur i) = rand_loop o n ur i.
Proof. induction n as [|n IH]; intros i; cbn [t_rand_loop rand_loop]; rewrite snd_if; destruct (_ >=? _); try reflexivity. apply IH. Qed.
Lemma erase_set_e o d : snd (t_set_e o d) = liftO (_set_e o d).
Proof. unfold t_set_e, _set_e. rewrite snd_step. cbv zeta. rewrite snd_bind, erase_bytes. cbn [bindO]. rewrite snd_bind, erase_zero, liftO_bind. apply bindO_ext. intros z. rewrite snd_if. destruct z; reflexivity. Qed.
Lemma erase_inner o rk : forall n r k, snd (t_sign_inner o n rk r k) = sign_inner o n rk r k.
Proof.
  induction n as [|n IH]; intros r k; cbn [t_sign_inner sign_inner]; rewrite snd_bind, erase_bytes; cbn [bindO]; rewrite snd_bind, erase_zero; apply bindO_ext; intros z; rewrite snd_if; destruct z; try reflexivity.
  rewrite snd_bind, erase_mul_point. apply bindO_ext. intros c. apply IH.
Qed.
Lemma erase_outer o pk rk e : forall n r s k, snd (t_sign_outer o n pk rk e r s k) = sign_outer o n pk rk e r s k.
Proof.
  induction n as [|n IH]; intros r s k; cbn [t_sign_outer sign_outer]; rewrite snd_bind, erase_bytes; cbn [bindO]; rewrite snd_bind, erase_zero; apply bindO_ext; intros z; rewrite snd_if; destruct z; try reflexivity.
  rewrite snd_bind, erase_inner. apply bindO_ext. intros c. apply IH.
Qed.
Lemma erase_sign o n ur pk dg rk : snd (t_sign o n ur pk dg rk) = sign o n ur (VBytes pk) (VBytes dg) (VBytes rk).
Proof.
  unfold t_sign, sign. rewrite snd_step, snd_if. destruct (check_value (VBytes pk) (s_size o)); cbn [negb]; [|reflexivity].
  rewrite snd_if. destruct (check_value (VBytes dg) (s_size o)); cbn [negb]; [|reflexivity]. rewrite snd_bind, erase_set_e. apply bindO_ext. intros e.
  assert (H : forall rk, snd (if_ FSig 693 (bytearray_to_int rk >=? s_q o) (stopT (Raises (GOSTSignatureError "GOSTSignatureError: invalid random value")))
       (do rs := t_sign_outer o n pk rk e 0 0 0 in do r := t_int_to_bytearray (fst rs) (s_size o) in do s := t_int_to_bytearray (snd rs) (s_size o) in retT (r ++ s)))
     = if bytearray_to_int rk >=? s_q o then Raises (GOSTSignatureError "GOSTSignatureError: invalid random value")
          else let? rs := sign_outer o n pk rk e 0 0 0 in Returns (int_to_bytearray (fst rs) (s_size o) ++ int_to_bytearray (snd rs) (s_size o))).
  { clear rk. intros rk. rewrite snd_if. destruct (_ >=? _); [reflexivity|]. rewrite snd_bind, erase_outer. apply bindO_ext. intros rs. rewrite snd_bind, erase_bytes. cbn [bindO]. rewrite snd_bind, erase_bytes. reflexivity. }
  rewrite snd_bind, snd_if. destruct rk as [|b rk].
  - unfold t_get_rand_k, _get_rand_k. rewrite snd_step, erase_rand_loop. destruct (rand_loop o n ur 0); cbn [bindO]; [|reflexivity|reflexivity]. rewrite snd_step. apply H.
  - cbn [retT snd bindO]. rewrite snd_step. apply H.
Qed.
Lemma erase_public o n pk : snd (t_public_key_generate o n pk) = public_key_generate o n (VBytes pk).
Proof.
  unfold t_public_key_generate, public_key_generate. rewrite snd_step, snd_if. destruct (check_value (VBytes pk) (s_size o)); cbn [negb]; [|reflexivity].
  rewrite snd_bind, erase_mul_point. apply bindO_ext. intros c. rewrite snd_bind, erase_bytes. cbn [bindO]. rewrite snd_bind, erase_bytes. reflexivity.
Qed.
