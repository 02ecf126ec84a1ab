(** * Properties of the sequence of steps: C114 - C116 *)
From Coq Require Import ZArith Znumtheory Lia String.
From Verif Require Import PyBase PyFacts PyLoop Utils UtilsFacts Primes SpecModes SpecSign SigCurves Sig SigProps SigSign SigFinal SigCons PropSig PropSig2 SpecTrace Trace TraceLemmas TraceFacts.
Open Scope string_scope.
Open Scope list_scope.
Open Scope Z_scope.

(** C114: for two strings of one length the steps of [compare] are a function of the length, and the result is equality. *)
Theorem C114_compare : forall a b, bytes_ok a -> bytes_ok b -> length a = length b ->
  exists r, t_compare a b = (compare_steps (length a), Returns r) /\ compare a b = Ok r /\ (r = true <-> a = b).
Proof.
  intros a b Ha Hb L. destruct (compare_total a b Ha Hb) as (r & E & HR). exists r. split; [|split; assumption].
  rewrite (surjective_pairing (t_compare a b)), steps_compare, erase_compare, E by exact L. reflexivity.
Qed.
Print Assumptions C114_compare.
(** Strings of different lengths: the steps show that they differ in length and nothing else. *)
Theorem C114_lengths : forall a b, length a <> length b -> t_compare a b = ([Enter FUtils 114; Test FUtils 131 true], Returns false) /\ compare a b = Ok false.
Proof. intros a b L. split; [apply steps_compare_ne, L|]. unfold compare. replace (len a =? len b) with false by (unfold len; lia). reflexivity. Qed.
Print Assumptions C114_lengths.
Theorem C114_zero : forall a, bytes_ok a -> exists r, t_compare_to_zero a = (compare_to_zero_steps (length a), Returns r) /\ compare_to_zero a = Ok r /\ (r = true <-> forall x, In x a -> x = 0).
Proof.
  intros a Ha. destruct (compare_to_zero_total a Ha) as (r & E & HR). exists r. split; [rewrite (surjective_pairing (t_compare_to_zero a)), steps_zero, erase_zero, E; reflexivity|]. split; [exact E|]. rewrite HR. clear. unfold py_repeat, len. rewrite Nat2Z.id. split.
  - intros ->. intros x Hx. apply repeat_spec in Hx. exact Hx.
  - intros H. induction a as [|x a IH]; [reflexivity|]. cbn [length repeat]. f_equal; [apply H; left; reflexivity|]. apply IH. intros; apply H; right; assumption.
Qed.
Print Assumptions C114_zero.
Example C114_example : t_compare [1; 2] [1; 3] = ([Enter FUtils 114; Test FUtils 131 false; Test FUtils 133 true; Read FUtils 134 0 0; Read FUtils 134 1 0; Test FUtils 133 true; Read FUtils 134 0 1; Read FUtils 134 1 1; Test FUtils 133 false], Returns false) /\
  fst (t_compare [9; 9] [9; 9]) = fst (t_compare [1; 2] [7; 3]) /\ snd (t_compare [9; 9] [9; 9]) = Returns true.
Proof. repeat match goal with |- _ /\ _ => split end; vm_compute; reflexivity. Qed.

(** ** C115: signing *)
Lemma sign_steps o n ur d dg rk sg : shaped o -> len d = s_size o -> len dg = s_size o -> snd (t_sign o n ur d dg rk) = Returns sg ->
  exists rk', nonce ur rk rk' /\ sign_with o n d dg rk' = Returns sg /\ recover (fst (t_sign o n ur d dg rk)) = bytearray_to_int rk'.
Proof.
  intros HS Ld Lg E. pose proof HS as [HS1 _]. unfold t_sign in *. rewrite snd_step, snd_if in E. rewrite fst_step, fst_if. unfold check_value in *. rewrite Ld, Z.eqb_refl in *. cbn [negb] in *. rewrite snd_if in E. rewrite fst_if. rewrite Lg, Z.eqb_refl in *. cbn [negb] in *.
  unfold recover. cbn [fold_left]. change (observe _ (Enter FSig 656)) with (0, 1). change (observe _ (Test FSig 680 false)) with (0, 1). change (observe _ (Test FSig 682 false)) with (0, 1).
  destruct (fold_silent _ _ _ (0, 1) (silent_set_e _ _) E) as (e & Ee & E2 & ->). rewrite erase_set_e, set_e_is in Ee by exact HS. injection Ee as <-.
  assert (SR : silent (if_ FSig 688 (match rk with [] => true | _ => false end) (t_get_rand_k o n ur) (retT rk))).
  { apply silent_if; [reflexivity| |apply silent_ret]. unfold t_get_rand_k. apply silent_bind; [apply silent_step; reflexivity | intros _; apply silent_rand]. }
  destruct (fold_silent _ _ _ (0, 1) SR E2) as (rk' & Ek & E3 & ->). rewrite snd_step, snd_if in E3. rewrite fst_step, fst_if. exists rk'. split.
  { rewrite snd_if in Ek. destruct rk as [|b rk].
    - right. split; [reflexivity|]. unfold t_get_rand_k in Ek. rewrite snd_step, erase_rand_loop in Ek. destruct (rand_loop_returns o ur n 0 rk' Ek) as (j & -> & _). exists (0 + j)%nat. reflexivity.
    - left. cbn [retT snd] in Ek. injection Ek as <-. split; [discriminate|reflexivity]. }
  cbn [fold_left]. change (observe (0, 1) (Test FSig 690 false)) with (0, 1). unfold sign_with. destruct (bytearray_to_int rk' >=? s_q o); [discriminate E3|]. change (observe (0, 1) (Test FSig 693 false)) with (0, 1).
  destruct (fold_bind _ _ _ (0, 1) E3) as (rs & Eo & E4 & ->). destruct (show_outer o d rk' _ (bytearray_to_int rk') eq_refl _ _ _ _ _ Eo) as [_ SO]. rewrite erase_outer in Eo. rewrite Eo. cbn [bindO].
  assert (Z0 : compare_to_zero (int_to_bytearray 0 (s_size o)) = Ok true) by (rewrite compare_to_zero_int by lia; rewrite Z.mod_0_l by lia; reflexivity).
  specialize (SO Z0 Z0 (0, 1)). destruct (fold_left observe (fst (t_sign_outer o n d rk' (gost_e (s_q o) (bytearray_to_int dg)) 0 0 0)) (0, 1)) as [v w]. cbn [fst] in SO. subst v.
  destruct (fold_silent _ _ _ (bytearray_to_int rk' - 1, w) (silent_bytes _ _) E4) as (br & Er & E5 & ->). destruct (fold_silent _ _ _ (bytearray_to_int rk' - 1, w) (silent_bytes _ _) E5) as (bs & Es & E6 & ->).
  rewrite erase_bytes in Er, Es. injection Er as <-. injection Es as <-. cbn [retT snd fst fold_left] in *. split; [exact E6 | lia].
Qed.

(** The steps of a signing give away the number that had to stay secret, and with it the private key. *)
Theorem C115_recover : forall mode c o n ur d dg rk steps sg, sig_new mode c = Ok o -> len d = s_size o -> len dg = s_size o -> bytes_ok rk -> (forall i, bytes_ok (ur i)) ->
  t_sign o n ur d dg rk = (steps, Returns sg) ->
  (rk <> [] -> recover steps = number rk) /\ (rk = [] -> exists i, recover steps = number (ur i)) /\ 0 < recover steps < s_q o /\
  exists r s, 0 < r < s_q o /\ 0 < s < s_q o /\ sg = encode (s_size o) r s /\
  (forall w, (r * w) mod s_q o = 1 mod s_q o -> number d mod s_q o = ((s - recover steps * gost_e (s_q o) (number dg)) * w) mod s_q o) /\
  (prime (s_q o) -> exists w, (r * w) mod s_q o = 1 mod s_q o).
Proof.
  intros mode c o n ur d dg rk steps sg EN Ld Lg Hrk Hur E. pose proof (new_shaped mode c o EN) as HS. pose proof HS as [HS1 HS2].
  destruct (sign_steps o n ur d dg rk sg HS Ld Lg) as (rk' & HN & EW & ER); [rewrite E; reflexivity|]. rewrite E in ER. cbn [fst] in ER.
  assert (HO : bytes_ok rk') by (destruct HN as [[_ ->]|[_ (i & ->)]]; [exact Hrk | apply Hur]).
  destruct (sign_with_returns o n d dg rk' sg HS HO EW) as (HK & x & y & _ & N1 & N2 & ->). rewrite ER, !number_eq.
  split; [intros NE; destruct HN as [[_ ->]|[C _]]; [reflexivity|contradiction]|]. split; [intros EE; destruct HN as [[C _]|[_ (i & ->)]]; [contradiction|exists i; rewrite number_eq; reflexivity]|]. split; [exact HK|].
  set (k := bytearray_to_int rk') in *. set (e := gost_e (s_q o) (bytearray_to_int dg)) in *. set (D := bytearray_to_int d) in *. set (r := sig_r o x) in *. set (s := sig_s o x D k e) in *. set (q := s_q o) in *.
  assert (B0 : 0 <= r < q) by (apply Z.mod_pos_bound; lia). assert (B1 : 0 <= s < q) by (apply Z.mod_pos_bound; lia). exists r, s. split; [lia|]. split; [lia|]. split; [symmetry; apply encode_eq; lia|]. split.
  - intros w Hw. pose proof (Z.div_mod (r * D + k * e) q ltac:(lia)) as M1. change ((r * D + k * e) mod q) with s in M1. set (c1 := (r * D + k * e) / q) in *.
    replace ((s - k * e) * w) with (D * (r * w) + (- c1 * w) * q) by (replace s with (r * D + k * e - q * c1) by lia; ring). rewrite Z.mod_add by lia. rewrite <- Zmult_mod_idemp_r, Hw, Zmult_mod_idemp_r, Z.mul_1_r. reflexivity.
  - intros HP. exists (_invert r q). pose proof (prime_ge_2 q HP). rewrite (Z.mod_small 1) by lia. apply (proj1 (proj2 (C79_inverse q r HP))). intros DV. apply Z.divide_pos_le in DV; lia.
Qed.
Print Assumptions C115_recover.
(** The claim: for a given key and message, the steps of signing do not depend on the secret number. *)
Definition steps_hide_nonce : Prop := forall mode c o n ur d dg k k' sg sg', sig_new mode c = Ok o -> len d = s_size o -> len dg = s_size o -> bytes_ok k -> bytes_ok k' -> len k = s_size o -> len k' = s_size o ->
  sign o n ur (VBytes d) (VBytes dg) (VBytes k) = Returns sg -> sign o n ur (VBytes d) (VBytes dg) (VBytes k') = Returns sg' -> fst (t_sign o n ur d dg k) = fst (t_sign o n ur d dg k').
Theorem C115_results : forall o n ur d dg rk, snd (t_sign o n ur d dg rk) = sign o n ur (VBytes d) (VBytes dg) (VBytes rk).
Proof. exact erase_sign. Qed.
Print Assumptions C115_results.
(** Two numbers always give different steps. *)
Theorem C115_distinct : forall mode c o n ur d dg k k' sg sg', sig_new mode c = Ok o -> len d = s_size o -> len dg = s_size o -> bytes_ok k -> bytes_ok k' -> (forall i, bytes_ok (ur i)) -> k <> [] -> k' <> [] ->
  sign o n ur (VBytes d) (VBytes dg) (VBytes k) = Returns sg -> sign o n ur (VBytes d) (VBytes dg) (VBytes k') = Returns sg' -> number k <> number k' -> fst (t_sign o n ur d dg k) <> fst (t_sign o n ur d dg k').
Proof.
  intros mode c o n ur d dg k k' sg sg' EN Ld Lg Hk Hk' Hur N N' E E' D F. rewrite <- erase_sign in E, E'.
  destruct (C115_recover mode c o n ur d dg k (fst (t_sign o n ur d dg k)) sg EN Ld Lg Hk Hur) as (R & _); [rewrite <- E; apply surjective_pairing|].
  destruct (C115_recover mode c o n ur d dg k' (fst (t_sign o n ur d dg k')) sg' EN Ld Lg Hk' Hur) as (R' & _); [rewrite <- E'; apply surjective_pairing|].
  apply D. rewrite <- (R N), <- (R' N'), F. reflexivity.
Qed.
Print Assumptions C115_distinct.
(** On parameter set B, with the private key 2 and the secret numbers 1 and 2. *)
Definition set_b : sig_obj := sig_attrs MODE_256 curve_2012_256_paramSetB.
Lemma set_b_new : sig_new MODE_256 curve_2012_256_paramSetB = Ok set_b.
Proof. destruct a_new as (o & E & EO). unfold set_b. rewrite EO in E. exact E. Qed.
Definition last_byte (b : Z) : bytes := repeat 0 31 ++ [b].
Lemma last_ok b : 0 <= b < 256 -> bytes_ok (last_byte b).
Proof. intros Hb. apply Forall_app. split; [apply Forall_forall; intros x Hx; apply repeat_spec in Hx; subst; unfold byte_ok; lia | constructor; [exact Hb | constructor]]. Qed.
Lemma set_b_size : s_size set_b = 32.
Proof. vm_compute. reflexivity. Qed.
Lemma last_len b : len (last_byte b) = s_size set_b.
Proof. rewrite set_b_size. reflexivity. Qed.
Lemma sign_1 : exists sg, sign set_b 257 (fun _ => []) (VBytes (last_byte 2)) (VBytes (last_byte 5)) (VBytes (last_byte 1)) = Returns sg.
Proof. eexists. vm_compute. reflexivity. Qed.
Lemma sign_2 : exists sg, sign set_b 257 (fun _ => []) (VBytes (last_byte 2)) (VBytes (last_byte 5)) (VBytes (last_byte 2)) = Returns sg.
Proof. eexists. vm_compute. reflexivity. Qed.
Theorem C115_hidden_refuted : ~ steps_hide_nonce.
Proof.
  intros H. destruct sign_1 as (sg & E). destruct sign_2 as (sg' & E'). pose proof (last_ok 1 ltac:(lia)) as K1. pose proof (last_ok 2 ltac:(lia)) as K2. assert (ND : number (last_byte 1) <> number (last_byte 2)) by (vm_compute; discriminate).
  pose proof (H _ _ set_b 257%nat _ _ _ _ _ _ _ set_b_new (last_len 2) (last_len 5) K1 K2 (last_len 1) (last_len 2) E E') as F. revert F.
  refine (C115_distinct _ _ set_b 257%nat _ _ _ _ _ _ _ set_b_new (last_len 2) (last_len 5) K1 K2 _ _ _ E E' ND); [intros i; constructor | discriminate | discriminate].
Qed.
Print Assumptions C115_hidden_refuted.
(** The private key itself does not influence the steps. *)
Theorem C115_key : forall mode c o n ur d d' dg rk sg sg', sig_new mode c = Ok o -> len d = s_size o -> len d' = s_size o -> len dg = s_size o ->
  sign o n ur (VBytes d) (VBytes dg) (VBytes rk) = Returns sg -> sign o n ur (VBytes d') (VBytes dg) (VBytes rk) = Returns sg' -> fst (t_sign o n ur d dg rk) = fst (t_sign o n ur d' dg rk).
Proof.
  intros mode c o n ur d d' dg rk sg sg' EN Ld Ld' Lg E E'. pose proof (new_shaped mode c o EN) as HS. pose proof HS as [HS1 HS2]. rewrite <- erase_sign in E, E'. unfold t_sign in *.
  rewrite snd_step, snd_if in E, E'. rewrite !fst_step, !fst_if. unfold check_value in *. rewrite Ld, Ld', Z.eqb_refl in *. cbn [negb] in *. rewrite snd_if in E, E'. rewrite !fst_if. rewrite Lg, Z.eqb_refl in *. cbn [negb] in *.
  rewrite snd_bind in E, E'. rewrite erase_set_e, set_e_is in E, E' by exact HS. cbn [liftO bindO] in E, E'. rewrite !(fst_bind_ok (t_set_e o dg) _ (gost_e (s_q o) (bytearray_to_int dg))) by (rewrite erase_set_e, set_e_is by exact HS; reflexivity).
  set (e := gost_e (s_q o) (bytearray_to_int dg)) in *. set (R := if_ FSig 688 _ _ _) in *. rewrite snd_bind in E, E'. destruct (snd R) as [k| |] eqn:ER; cbn [bindO] in E, E'; try discriminate. rewrite !(fst_bind_ok R _ k ER).
  rewrite snd_step, snd_if in E, E'. rewrite !fst_step, !fst_if. destruct (bytearray_to_int k >=? s_q o); [discriminate E|]. rewrite snd_bind, erase_outer in E, E'.
  destruct (sign_outer o n d k e 0 0 0) as [rs| |] eqn:O; cbn [bindO] in E; try discriminate E. destruct (sign_outer o n d' k e 0 0 0) as [rs'| |] eqn:O'; cbn [bindO] in E'; try discriminate E'.
  rewrite (fst_bind_ok _ _ rs) by (rewrite erase_outer; exact O). rewrite (fst_bind_ok (t_sign_outer o n d' k e 0 0 0) _ rs') by (rewrite erase_outer; exact O').
  rewrite (outer_steps o n d k e rs), (outer_steps o n d' k e rs') by (lia || assumption). do 4 f_equal. f_equal. f_equal. f_equal. f_equal. clear.
  rewrite !(fst_bind_ok (t_int_to_bytearray _ _) _ _ (erase_bytes _ _)). rewrite (steps_bytes (fst rs) (fst rs')), (steps_bytes (snd rs) (snd rs')). reflexivity.
Qed.
Print Assumptions C115_key.

(** ** C116: the public key *)
Theorem C116_recover : forall o n d steps pk, t_public_key_generate o n d = (steps, Returns pk) -> recover steps = number d.
Proof.
  intros o n d steps pk E. rewrite number_eq. assert (E' : snd (t_public_key_generate o n d) = Returns pk) by (rewrite E; reflexivity). replace steps with (fst (t_public_key_generate o n d)) by (rewrite E; reflexivity). clear E.
  unfold t_public_key_generate in *. rewrite snd_step, snd_if in E'. rewrite fst_step, fst_if. destruct (check_value (VBytes d) (s_size o)); cbn [negb] in *; [|discriminate E'].
  unfold recover. cbn [fold_left]. change (observe _ (Enter FSig 762)) with (0, 1). change (observe _ (Test FSig 776 false)) with (0, 1).
  destruct (fold_bind _ _ _ (0, 1) E') as (pt & Ep & E4 & ->). pose proof (show_point _ _ _ _ _ _ (0, 1) Ep) as SP. destruct (fold_left observe (fst (t_mul_point o n (bytearray_to_int d) (-1) (-1))) (0, 1)) as [v w]. cbn [fst] in SP. subst v.
  destruct (fold_silent _ _ _ (bytearray_to_int d - 1, w) (silent_bytes _ _) E4) as (br & _ & E5 & ->). destruct (fold_silent _ _ _ (bytearray_to_int d - 1, w) (silent_bytes _ _) E5) as (bs & _ & E6 & ->). cbn [retT fst fold_left]. lia.
Qed.
Print Assumptions C116_recover.
Theorem C116_results : forall o n d, snd (t_public_key_generate o n d) = public_key_generate o n (VBytes d).
Proof. exact erase_public. Qed.
Print Assumptions C116_results.
(** The claim: the steps of [public_key_generate] do not depend on the private key. *)
Definition steps_hide_key : Prop := forall mode c o n d d' pk pk', sig_new mode c = Ok o -> bytes_ok d -> bytes_ok d' -> len d = s_size o -> len d' = s_size o ->
  public_key_generate o n (VBytes d) = Returns pk -> public_key_generate o n (VBytes d') = Returns pk' -> fst (t_public_key_generate o n d) = fst (t_public_key_generate o n d').
Lemma public_1 : exists pk, public_key_generate set_b 257 (VBytes (last_byte 1)) = Returns pk.
Proof. eexists. vm_compute. reflexivity. Qed.
Lemma public_2 : exists pk, public_key_generate set_b 257 (VBytes (last_byte 2)) = Returns pk.
Proof. eexists. vm_compute. reflexivity. Qed.
Theorem C116_hidden_refuted : ~ steps_hide_key.
Proof.
  intros H. destruct public_1 as (pk & E). destruct public_2 as (pk' & E'). pose proof (last_ok 1 ltac:(lia)) as K1. pose proof (last_ok 2 ltac:(lia)) as K2.
  pose proof (H _ _ set_b 257%nat _ _ _ _ set_b_new K1 K2 (last_len 1) (last_len 2) E E') as F. rewrite <- erase_public in E, E'.
  assert (R : number (last_byte 1) = number (last_byte 2)).
  { rewrite <- (C116_recover set_b 257 (last_byte 1) _ pk (eq_trans (surjective_pairing _) (f_equal (pair _) E))). rewrite <- (C116_recover set_b 257 (last_byte 2) _ pk' (eq_trans (surjective_pairing _) (f_equal (pair _) E'))). rewrite F. reflexivity. }
  revert R. vm_compute. discriminate.
Qed.
Print Assumptions C116_hidden_refuted.
Example C116_example : recover (fst (t_public_key_generate toy 8 [11])) = 11 /\ snd (t_public_key_generate toy 8 [11]) = public_key_generate toy 8 (VBytes [11]).
Proof. split; vm_compute; reflexivity. Qed.
Example C115_example : recover (fst (t_sign toy 9 (fun _ => []) [3] [26] [10])) = 10 /\ snd (t_sign toy 9 (fun _ => []) [3] [26] [10]) = Returns [7; 15].
Proof. split; vm_compute; reflexivity. Qed.
