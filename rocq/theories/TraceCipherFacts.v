(** * Facts about the steps of the block ciphers. *)
From Verif Require Import PyBase PyFacts PyLoop Utils UtilsFacts CipherTables SpecKuznechik SpecMagma Kuznechik Magma KuzFacts KuzFacts2 MagmaFacts CipherLemmas SpecTrace Trace TraceLemmas TraceFacts TraceCipher.
Open Scope list_scope.
Open Scope Z_scope.

(** ** The results are those of the first model *)
Lemma snd_read {A} l k (x : list A) i : snd (t_read l k x i) = liftO (py_get x i).
Proof. reflexivity. Qed.
Lemma snd_res {A} (r : res A) : snd (t_res r) = liftO r.
Proof. reflexivity. Qed.
Lemma erase_cipher_s d : snd (t_cipher_s d) = liftO (_cipher_s d).
Proof.
  unfold t_cipher_s, _cipher_s, cipher_s_with. rewrite snd_step. apply snd_for. intros i r. rewrite snd_bind, snd_read, liftO_bind. apply bindO_ext. intros a. rewrite snd_bind, snd_read, liftO_bind. apply bindO_ext. intros v. reflexivity.
Qed.
Lemma erase_cipher_r d : snd (t_cipher_r d) = liftO (_cipher_r d).
Proof.
  unfold t_cipher_r, _cipher_r. rewrite snd_step, snd_bind, liftO_bind. 
  match goal with |- bindO ?x _ = bindO (liftO (for_ _ _ ?g)) _ => replace x with (liftO (for_ (py_range 0 _BLOCK_SIZE_KUZNECHIK 1) (0, py_repeat 0 _BLOCK_SIZE_KUZNECHIK) g)) end.
  - apply bindO_ext. intros [a r]. reflexivity.
  - symmetry. apply snd_for. intros i [a r]. rewrite snd_bind, snd_read, liftO_bind. apply bindO_ext. intros v. rewrite snd_bind, snd_res, liftO_bind. apply bindO_ext. intros r'.
    rewrite snd_bind, snd_read, liftO_bind. apply bindO_ext. intros row. rewrite snd_bind, snd_read, liftO_bind. apply bindO_ext. intros ri. rewrite snd_bind, snd_read, liftO_bind. apply bindO_ext. intros g. reflexivity.
Qed.
Lemma erase_cipher_l d : snd (t_cipher_l d) = liftO (_cipher_l d).
Proof. unfold t_cipher_l, _cipher_l. rewrite snd_step. apply snd_for. intros i r. apply erase_cipher_r. Qed.
Lemma erase_kuz_encrypt ks b : snd (t_kuz_encrypt ks b) = liftO (kuz_encrypt ks b).
Proof.
  unfold t_kuz_encrypt, kuz_encrypt. rewrite snd_step, snd_bind, liftO_bind.
  match goal with |- bindO ?x _ = bindO (liftO (for_ _ _ ?g)) _ => replace x with (liftO (for_ (py_range 0 9 1) b g)) end.
  - apply bindO_ext. intros c. rewrite snd_bind, snd_read, liftO_bind. apply bindO_ext. intros k. reflexivity.
  - symmetry. apply snd_for. intros i c. rewrite snd_bind, snd_read, liftO_bind. apply bindO_ext. intros k. rewrite snd_bind. cbn [t_add_xor snd bindO]. rewrite snd_bind, erase_cipher_s, liftO_bind. apply bindO_ext. intros d. apply erase_cipher_l.
Qed.
Lemma erase_cipher_t d : snd (t_cipher_t d) = liftO (_cipher_t d).
Proof.
  unfold t_cipher_t, _cipher_t. rewrite snd_step. apply snd_for. intros i r. rewrite snd_bind, snd_read, liftO_bind. destruct (py_get d i) as [v|e] eqn:E; [|reflexivity]. cbn [liftO bindO]. cbv zeta.
  rewrite snd_bind, snd_read, E. cbn [liftO bindO]. rewrite snd_bind, snd_read, liftO_bind. apply bindO_ext. intros row1. rewrite snd_bind, snd_read, liftO_bind. apply bindO_ext. intros f.
  rewrite snd_bind, snd_read, liftO_bind. apply bindO_ext. intros row2. rewrite snd_bind, snd_read, liftO_bind. apply bindO_ext. intros s. reflexivity.
Qed.
Lemma erase_add_32 a b : snd (t_cipher_add_32 a b) = liftO (_cipher_add_32 a b).
Proof.
  unfold t_cipher_add_32, _cipher_add_32. rewrite snd_step, snd_bind, liftO_bind.
  match goal with |- bindO ?x _ = bindO (liftO (for_ _ _ ?g)) _ => replace x with (liftO (for_ (py_range 3 (-1) (-1)) (0, py_repeat 0 4) g)) end.
  - apply bindO_ext. intros [x r]. reflexivity.
  - symmetry. apply snd_for. intros i [x r]. rewrite snd_bind, snd_read, liftO_bind. apply bindO_ext. intros u. rewrite snd_bind, snd_read, liftO_bind. apply bindO_ext. intros v. cbv zeta. rewrite snd_bind, snd_res, liftO_bind. apply bindO_ext. intros w. reflexivity.
Qed.
Lemma erase_cipher_g k a : snd (t_cipher_g k a) = liftO (_cipher_g k a).
Proof.
  unfold t_cipher_g, _cipher_g. rewrite snd_step, snd_bind, erase_add_32, liftO_bind. apply bindO_ext. intros x. rewrite snd_bind, erase_cipher_t, liftO_bind. apply bindO_ext. intros y.
  rewrite snd_bind, snd_read, liftO_bind. apply bindO_ext. intros i0. rewrite snd_bind, snd_read, liftO_bind. apply bindO_ext. intros i1. rewrite snd_bind, snd_read, liftO_bind. apply bindO_ext. intros i2. rewrite snd_bind, snd_read, liftO_bind. apply bindO_ext. intros i3. reflexivity.
Qed.
Lemma erase_g_iter k a : snd (t_cipher_g_iter k a) = liftO (_cipher_g_iter k a).
Proof. unfold t_cipher_g_iter, _cipher_g_iter. rewrite snd_step. cbv zeta. rewrite snd_bind, erase_cipher_g, liftO_bind. apply bindO_ext. intros g. reflexivity. Qed.
Lemma erase_g_prev k a : snd (t_cipher_g_prev k a) = liftO (_cipher_g_prev k a).
Proof. unfold t_cipher_g_prev, _cipher_g_prev. rewrite snd_step, snd_bind, erase_g_iter, liftO_bind. apply bindO_ext. intros [[x y] z]. reflexivity. Qed.
Lemma erase_g_fin k a : snd (t_cipher_g_fin k a) = liftO (_cipher_g_fin k a).
Proof. unfold t_cipher_g_fin, _cipher_g_fin. rewrite snd_step, snd_bind, erase_g_iter, liftO_bind. apply bindO_ext. intros [[x y] z]. reflexivity. Qed.
Lemma erase_magma_encrypt ks b : snd (t_magma_encrypt ks b) = liftO (magma_encrypt ks b).
Proof.
  unfold t_magma_encrypt, magma_encrypt. rewrite snd_step, snd_bind, snd_read, liftO_bind. apply bindO_ext. intros k. rewrite snd_bind, erase_g_prev, liftO_bind. apply bindO_ext. intros r. rewrite snd_bind, liftO_bind.
  match goal with |- bindO ?x _ = bindO (liftO (for_ _ _ ?g)) _ => replace x with (liftO (for_ (py_range 1 31 1) r g)) end.
  - apply bindO_ext. intros c. rewrite snd_bind, snd_read, liftO_bind. apply bindO_ext. intros k'. apply erase_g_fin.
  - symmetry. apply snd_for. intros i c. rewrite snd_bind, snd_read, liftO_bind. apply bindO_ext. intros k'. apply erase_g_prev.
Qed.

(** ** What is left of the steps when each of them is mapped to a list *)
Definition emits {X A} (f : event -> list X) (Q : A -> Prop) (l : list X) (c : T A) : Prop := flat_map f (fst c) = l /\ exists a, snd c = Returns a /\ Q a.
Section Emits.
  Context {X : Type} (f : event -> list X).
  Lemma flat_app (a b : list event) : flat_map f (a ++ b) = flat_map f a ++ flat_map f b.
  Proof. apply flat_map_app. Qed.
  Lemma emits_bind {A B} (Q : A -> Prop) (Q' : B -> Prop) l l' c k : emits f Q l c -> (forall a, Q a -> emits f Q' l' (k a)) -> emits f Q' (l ++ l') (bindT c k).
  Proof. intros [H (a & E & HQ)] K. destruct (K a HQ) as [H' (b & E' & HQ')]. unfold bindT. rewrite E. split; [cbn [fst]; rewrite flat_app, H, H'; reflexivity|]. exists b. split; assumption. Qed.
  Lemma emits_step {B} (Q : B -> Prop) l e k : emits f Q l (k tt) -> emits f Q (f e ++ l) (bindT (step e) k).
  Proof. intros [H HE]. split; [rewrite fst_step; cbn [flat_map]; rewrite H; reflexivity | rewrite snd_step; exact HE]. Qed.
  Lemma emits_ret {A} (Q : A -> Prop) a : Q a -> emits f Q [] (retT a).
  Proof. intros H. split; [reflexivity|]. exists a. split; [reflexivity | exact H]. Qed.
  Lemma emits_res {A} (Q : A -> Prop) r a : r = Ok a -> Q a -> emits f Q [] (t_res r).
  Proof. intros -> H. split; [reflexivity|]. exists a. split; [reflexivity | exact H]. Qed.
  Lemma emits_read {A} (Q : A -> Prop) l k (x : list A) i a : py_get x i = Ok a -> Q a -> emits f Q (f (Read FCipher l k i)) (t_read l k x i).
  Proof. intros E H. split; [cbn; apply app_nil_r|]. exists a. rewrite snd_read, E. split; [reflexivity | exact H]. Qed.
  Lemma emits_for {A S} (Q : S -> Prop) g l (h : A -> list X) (body : A -> S -> T S) : forall xs, (forall x s, In x xs -> Q s -> emits f Q (h x) (body x s)) ->
    forall s, Q s -> emits f Q (concat (map (fun x => f (Test g l true) ++ h x) xs) ++ f (Test g l false)) (t_for g l xs s body).
  Proof.
    induction xs as [|x xs IH]; intros H s HQ; cbn [t_for map concat app].
    - rewrite <- (app_nil_r (f (Test g l false))). apply emits_step, emits_ret, HQ.
    - rewrite <- !app_assoc. apply emits_step. refine (emits_bind _ _ _ _ _ _ (H x s (or_introl eq_refl) HQ) _). intros a Ha. apply IH; [intros; apply H; [right; assumption | assumption] | exact Ha].
  Qed.
  (** A computation whose result is known. *)
  Lemma emits_known {A} (Q Q' : A -> Prop) l (c : T A) a : emits f Q' l c -> snd c = Returns a -> Q a -> emits f Q l c.
  Proof. intros [E _] E' H. split; [exact E|]. exists a. auto. Qed.
End Emits.

Lemma byte_nth b i : bytes_ok b -> byte_ok (nth i b 0).
Proof. intros H. destruct (Nat.lt_ge_cases i (length b)) as [L|L]; [|rewrite nth_overflow by exact L; unfold byte_ok; lia]. unfold bytes_ok in H. rewrite Forall_forall in H. apply H, nth_In, L. Qed.
Lemma upd_ok b n v : bytes_ok b -> byte_ok v -> bytes_ok (upd b n v).
Proof. intros H Hv. revert n. induction H as [|x b Hx H IH]; intros [|n]; cbn [upd]; constructor; auto. apply IH. Qed.
Lemma set_block n b i v : bytes_len n b -> 0 <= i < n -> byte_ok v -> exists b', py_set b i v = Ok b' /\ bytes_len n b'.
Proof. intros [L H] Hi Hv. exists (upd b (Z.to_nat i) v). split; [apply py_set_ok; [lia | exact Hv]|]. split; [unfold len in *; rewrite upd_length; exact L | apply upd_ok; assumption]. Qed.
Lemma get_block n b i : bytes_len n b -> 0 <= i < n -> py_get b i = Ok (nth (Z.to_nat i) b 0) /\ byte_ok (nth (Z.to_nat i) b 0).
Proof. intros [L H] Hi. split; [apply py_get_nth; lia | apply byte_nth, H]. Qed.
Lemma zeros_block n : 0 <= n -> bytes_len n (py_repeat 0 n).
Proof. intros Hn. split; [unfold py_repeat, len; rewrite repeat_length; lia|]. apply Forall_forall. intros x Hx. apply repeat_spec in Hx. subst. unfold byte_ok. lia. Qed.

(** ** Kuznechik *)
Section Kuz.
  Context {X : Type} (f : event -> list X).
  (** [f] does not see the index of a look-up in a table. *)
  Definition blind : Prop := forall line i j, f (Read FCipher line 1 i) = f (Read FCipher line 1 j).
  (** [f] sees indices in line 460 only. *)
  Definition blind_but_460 : Prop := forall line i j, line <> 460 -> f (Read FCipher line 1 i) = f (Read FCipher line 1 j).
  Definition s_emits (d : bytes) : list X :=
    f (Enter FCipher 457) ++ concat (map (fun i => f (Test FCipher 459 true) ++ f (Read FCipher 460 0 i) ++ f (Read FCipher 460 1 (nth (Z.to_nat i) d 0)) ++ []) (py_range 0 16 1)) ++ f (Test FCipher 459 false).
  Lemma emits_s d : bytes_len 16 d -> emits f (fun r => r = kS d) (s_emits d) (t_cipher_s d).
  Proof.
    intros Hd. pose proof Hd as [L H]. apply (emits_known f _ (bytes_len 16) _ _ (kS d)); [|rewrite erase_cipher_s, cipher_s_ok, firstn_all2 by (auto || unfold len in *; lia); reflexivity | reflexivity].
    unfold t_cipher_s, s_emits, _BLOCK_SIZE_KUZNECHIK. apply emits_step. apply (emits_for f (bytes_len 16)); [|apply zeros_block; lia].
    intros i r Hi Hr. apply in_up in Hi. destruct (get_block 16 d i Hd Hi) as [G B]. apply (emits_bind f (fun a => a = nth (Z.to_nat i) d 0)); [(eapply emits_read; [exact G | reflexivity])|]. intros a ->.
    destruct (sbox_table _ B) as [G' B']. apply (emits_bind f byte_ok); [(eapply emits_read; [exact G' | exact B'])|]. intros v Hv. destruct (set_block 16 r i v Hr Hi Hv) as (r' & E & Hr'). (eapply emits_res; [exact E | exact Hr']).
  Qed.
  Definition r_emits : list X :=
    f (Enter FCipher 471) ++ (concat (map (fun i => f (Test FCipher 474 true) ++ f (Read FCipher 475 0 (i - 1)) ++ [] ++ f (Read FCipher 476 2 i) ++ f (Read FCipher 476 0 i) ++ f (Read FCipher 476 1 0) ++ []) (py_range 0 16 1)) ++ f (Test FCipher 474 false)) ++ [].
  Lemma emits_r (HB : blind_but_460) d : bytes_len 16 d -> emits f (fun r => r = kR d) r_emits (t_cipher_r d).
  Proof.
    intros Hd. pose proof Hd as [L H]. apply (emits_known f _ (bytes_len 16) _ _ (kR d)); [|rewrite erase_cipher_r, cipher_r_ok by exact Hd; reflexivity | reflexivity].
    unfold t_cipher_r, r_emits, _BLOCK_SIZE_KUZNECHIK. apply emits_step. apply (emits_bind f (fun p => byte_ok (fst p) /\ bytes_len 16 (snd p))).
    - apply (emits_for f (fun p => byte_ok (fst p) /\ bytes_len 16 (snd p))); [|split; [unfold byte_ok; cbn; lia | apply zeros_block; lia]].
      intros i [a r] Hi [Ha Hr]. cbn [fst snd] in *. apply in_up in Hi.
      apply (emits_bind f byte_ok).
      { destruct (Z.eq_dec i 0) as [->|N]; [eapply emits_read; [apply (py_get_neg d (-1) 0); lia | apply byte_nth, H] | destruct (get_block 16 d (i - 1) Hd ltac:(lia)) as [G B]; (eapply emits_read; [exact G | exact B])]. }
      intros v Hv. destruct (set_block 16 r i v Hr Hi Hv) as (r' & E & Hr'). apply (emits_bind f (bytes_len 16)); [(eapply emits_res; [exact E | exact Hr'])|]. clear r r' E Hr Hr'. intros r Hr.
      apply (emits_bind f (fun row => row = gf_row i)); [(eapply emits_read; [exact (gf_row_get i Hi) | reflexivity])|]. intros row ->. destruct (get_block 16 r i Hr Hi) as [G B].
      apply (emits_bind f byte_ok); [(eapply emits_read; [exact G | exact B])|]. clear G B. intros x Hx. destruct (gf_table i x Hi Hx) as [G B].
      apply (emits_bind f byte_ok); [rewrite (HB 476 0 x) by lia; (eapply emits_read; [exact G | exact B])|]. intros g Hg. apply emits_ret. split; [apply lxor_byte; assumption | exact Hr].
    - intros [a r] [Ha Hr]. cbn [fst snd] in *. destruct (set_block 16 r 0 a Hr ltac:(lia) Ha) as (r' & E & Hr'). (eapply emits_res; [exact E | exact Hr']).
  Qed.
  Definition l_emits : list X := f (Enter FCipher 491) ++ concat (map (fun _ => f (Test FCipher 494 true) ++ r_emits) (py_range 0 16 1)) ++ f (Test FCipher 494 false).
  Lemma emits_l (HB : blind_but_460) d : bytes_len 16 d -> emits f (fun r => r = kL d) l_emits (t_cipher_l d).
  Proof.
    intros Hd. apply (emits_known f _ (bytes_len 16) _ _ (kL d)); [|rewrite erase_cipher_l, cipher_l_ok by exact Hd; reflexivity | reflexivity].
    unfold t_cipher_l, l_emits. apply emits_step. apply (emits_for f (bytes_len 16)); [|exact Hd]. intros i r _ Hr. destruct (emits_r HB r Hr) as [E (a & E' & ->)]. split; [exact E|]. exists (kR r). split; [exact E' | apply kR_block, Hr].
  Qed.
  Definition x_emits : list X := flat_map f (fst (t_add_xor (py_repeat 0 16) (py_repeat 0 16))).
  Lemma emits_x k d : bytes_len 16 k -> bytes_len 16 d -> emits f (fun r => r = kX k d) x_emits (t_add_xor k d).
  Proof. intros [Lk _] [Ld _]. split; [unfold x_emits, t_add_xor; rewrite Lk, Ld; reflexivity|]. exists (add_xor k d). split; [reflexivity | symmetry; apply kX_add_xor]. Qed.
  Definition round_emits (i : Z) (x : bytes) : list X := f (Read FCipher 564 3 i) ++ x_emits ++ s_emits x ++ l_emits.
  Lemma emits_round (HB : blind_but_460) ks i k d : py_get ks i = Ok k -> bytes_len 16 k -> bytes_len 16 d ->
    emits f (fun r => r = kL (kS (kX k d))) (round_emits i (kX k d)) (do k := t_read 564 3 ks i in do block := t_add_xor k d in do block := t_cipher_s block in t_cipher_l block).
  Proof.
    intros G Hk Hd. apply (emits_bind f (fun a => a = k)); [(eapply emits_read; [exact G | reflexivity])|]. intros ? ->. apply (emits_bind f (fun r => r = kX k d)); [apply emits_x; assumption|]. intros ? ->. pose proof (kX_block k d Hk Hd) as HX.
    apply (emits_bind f (fun r => r = kS (kX k d))); [apply emits_s, HX|]. intros ? ->. apply emits_l; [exact HB | apply kS_block, HX].
  Qed.
  (** The rounds in the order of the code, from round [i] on. *)
  Fixpoint rounds_emits (ks : list bytes) (i : nat) (d : bytes) : list X :=
    match ks with
    | [] => f (Test FCipher 563 false)
    | k :: ks' => f (Test FCipher 563 true) ++ round_emits (Z.of_nat i) (kX k d) ++ rounds_emits ks' (S i) (kL (kS (kX k d)))
    end.
  Lemma emits_rounds (HB : blind_but_460) ks : forall ks' i d, (forall j k, nth_error ks' j = Some k -> py_get ks (Z.of_nat (i + j)) = Ok k /\ bytes_len 16 k) -> bytes_len 16 d ->
    emits f (bytes_len 16) (rounds_emits ks' i d)
      (t_for FCipher 563 (map Z.of_nat (seq i (length ks'))) d (fun i block => do k := t_read 564 3 ks i in do block := t_add_xor k block in do block := t_cipher_s block in t_cipher_l block)).
  Proof.
    induction ks' as [|k ks' IH]; intros i d HK Hd; cbn [length seq map t_for rounds_emits].
    - rewrite <- (app_nil_r (f _)). apply emits_step, emits_ret, Hd.
    - apply emits_step. destruct (HK 0%nat k eq_refl) as [G Hk]. rewrite Nat.add_0_r in G.
      apply (emits_bind f (fun r => r = kL (kS (kX k d)))); [apply emits_round; assumption|]. intros ? ->. apply IH; [|apply kL_block, kS_block, kX_block; assumption].
      intros j k' E. specialize (HK (S j) k' E). rewrite Nat.add_succ_r in HK. exact HK.
  Qed.
  Lemma emits_kuz (HB : blind_but_460) ks ks' k9 d : ks = ks' ++ [k9] -> length ks' = 9%nat -> Forall (bytes_len 16) ks -> bytes_len 16 d ->
    emits f (bytes_len 16) (f (Enter FCipher 551) ++ rounds_emits ks' 0 d ++ f (Read FCipher 567 3 9) ++ x_emits) (t_kuz_encrypt ks d).
  Proof.
    intros E L HF Hd. unfold t_kuz_encrypt. apply emits_step. assert (HK : forall j k, nth_error ks j = Some k -> py_get ks (Z.of_nat j) = Ok k /\ bytes_len 16 k).
    { intros j k Ej. pose proof (nth_error_In _ _ Ej) as HI. rewrite Forall_forall in HF. split; [|apply HF, HI]. rewrite (py_get_nth _ _ []), Nat2Z.id by (pose proof (proj1 (nth_error_Some ks j) ltac:(rewrite Ej; discriminate)); unfold len; lia).
      f_equal. apply nth_error_nth. exact Ej. }
    apply (emits_bind f (bytes_len 16)).
    - change (py_range 0 9 1) with (map Z.of_nat (seq 0 9)). rewrite <- L. apply emits_rounds; [exact HB| |exact Hd]. intros j k Ej. apply HK. rewrite E, nth_error_app1; [exact Ej|]. apply nth_error_Some. cbn [Nat.add]. rewrite Ej. discriminate.
    - intros b Hb. destruct (HK 9%nat k9) as [G H9]; [rewrite E, nth_error_app2, L by lia; reflexivity|]. change (Z.of_nat 9) with 9 in G.
      apply (emits_bind f (fun a => a = k9)); [eapply emits_read; [exact G | reflexivity]|]. intros ? ->. destruct (emits_x k9 b H9 Hb) as [E1 (r & E2 & ->)]. split; [exact E1|]. exists (kX k9 b). split; [exact E2 | apply kX_block; assumption].
  Qed.
End Kuz.

(** ** Magma *)
Lemma word4 v : bytes_len 4 (int_to_bytearray v 4).
Proof. split; [unfold len; rewrite int_to_bytearray_len by lia; reflexivity | apply int_to_bytearray_ok]. Qed.
Section Mag.
  Context {X : Type} (f : event -> list X).
  Definition blind_but_649 : Prop := forall line i j, line <> 649 -> line <> 650 -> f (Read FCipher line 1 i) = f (Read FCipher line 1 j).
  Definition t_emits (d : bytes) : list X :=
    f (Enter FCipher 643) ++ concat (map (fun i => f (Test FCipher 646 true) ++ f (Read FCipher 647 0 i) ++ f (Read FCipher 648 0 i) ++ f (Read FCipher 649 2 ((3 - i) * 2)) ++ f (Read FCipher 649 1 (nth (Z.to_nat i) d 0 mod 16)) ++
      f (Read FCipher 650 2 ((3 - i) * 2 + 1)) ++ f (Read FCipher 650 1 (nth (Z.to_nat i) d 0 / 16)) ++ []) (py_range 0 4 1)) ++ f (Test FCipher 646 false).
  Lemma nibbles a b : 0 <= a < 16 -> 0 <= b < 16 -> byte_ok (Z.lor (Z.shiftl a 4) b).
  Proof. intros Ha Hb. rewrite lor_disjoint by lia. unfold byte_ok. lia. Qed.
  Lemma emits_t d : bytes_len 4 d -> emits f (bytes_len 4) (t_emits d) (t_cipher_t d).
  Proof.
    intros Hd. unfold t_cipher_t, t_emits. apply emits_step. apply (emits_for f (bytes_len 4)); [|apply zeros_block; lia]. intros i r Hi Hr. apply in_up in Hi. destruct (get_block 4 d i Hd Hi) as [G B].
    apply (emits_bind f (fun a => a = nth (Z.to_nat i) d 0)); [eapply emits_read; [exact G | reflexivity]|]. intros ? ->. cbv zeta. apply (emits_bind f (fun a => a = nth (Z.to_nat i) d 0)); [eapply emits_read; [exact G | reflexivity]|]. intros ? ->.
    rewrite land_15, high_nibble by exact B. set (x := nth (Z.to_nat i) d 0) in *. clearbody x. unfold byte_ok in B.
    apply (emits_bind f (fun a => a = mrow ((3 - i) * 2))); [eapply emits_read; [apply mrow_get; lia | reflexivity]|]. intros ? ->.
    destruct (msub_get ((3 - i) * 2) (x mod 16) ltac:(lia) ltac:(apply Z.mod_pos_bound; lia)) as [G1 R1]. apply (emits_bind f (fun a => 0 <= a < 16)); [eapply emits_read; [exact G1 | exact R1]|]. intros a Ha.
    apply (emits_bind f (fun a => a = mrow ((3 - i) * 2 + 1))); [eapply emits_read; [apply mrow_get; lia | reflexivity]|]. intros ? ->.
    destruct (msub_get ((3 - i) * 2 + 1) (x / 16) ltac:(lia) ltac:(split; [apply Z.div_pos; lia | apply Z.div_lt_upper_bound; lia])) as [G2 R2]. apply (emits_bind f (fun a => 0 <= a < 16)); [eapply emits_read; [exact G2 | exact R2]|]. intros b Hb.
    destruct (set_block 4 r i _ Hr Hi (nibbles b a Hb Ha)) as (r' & E & Hr'). eapply emits_res; [exact E | exact Hr'].
  Qed.
  Definition add_emits : list X :=
    f (Enter FCipher 655) ++ (concat (map (fun i => f (Test FCipher 660 true) ++ f (Read FCipher 661 0 i) ++ f (Read FCipher 661 0 i) ++ [] ++ []) (py_range 3 (-1) (-1))) ++ f (Test FCipher 660 false)) ++ [].
  Lemma emits_add k a : bytes_len 4 k -> bytes_len 4 a -> emits f (fun r => r = int_to_bytearray ((wint a + wint k) mod 2 ^ 32) 4) add_emits (t_cipher_add_32 k a).
  Proof.
    intros Hk Ha. assert (W : forall b, bytes_len 4 b -> wide4 b) by (intros b [L H]; split; [exact H | lia]). apply (emits_known f _ (bytes_len 4) _ _ (int_to_bytearray ((wint a + wint k) mod 2 ^ 32) 4)); [|rewrite erase_add_32, cipher_add_32_ok by auto; reflexivity | reflexivity].
    unfold t_cipher_add_32, add_emits. apply emits_step. apply (emits_bind f (fun p => bytes_len 4 (snd p))).
    - apply (emits_for f (fun p => bytes_len 4 (snd p))); [|apply zeros_block; lia]. intros i [x r] Hi Hr. cbn [snd] in Hr. assert (Hi' : 0 <= i < 4) by (change (py_range 3 (-1) (-1)) with [3; 2; 1; 0] in Hi; cbn in Hi; lia).
      destruct (get_block 4 k i Hk Hi') as [G1 B1]. destruct (get_block 4 a i Ha Hi') as [G2 B2]. apply (emits_bind f byte_ok); [eapply emits_read; [exact G1 | exact B1]|]. intros u _. apply (emits_bind f byte_ok); [eapply emits_read; [exact G2 | exact B2]|]. intros v _. cbv zeta.
      destruct (set_block 4 r i (Z.land (u + v + Z.shiftr x 8) 0xff) Hr Hi') as (r' & E & Hr'); [rewrite land_255; apply Z.mod_pos_bound; lia|]. apply (emits_bind f (bytes_len 4)); [eapply emits_res; [exact E | exact Hr']|]. intros r2 Hr2. apply emits_ret. exact Hr2.
    - intros [x r] Hr. apply emits_ret. exact Hr.
  Qed.
  Definition g_emits (v : bytes) : list X := f (Enter FCipher 666) ++ add_emits ++ t_emits v ++ f (Read FCipher 674 0 0) ++ f (Read FCipher 675 0 1) ++ f (Read FCipher 676 0 2) ++ f (Read FCipher 677 0 3) ++ [].
  Lemma emits_g k a : bytes_len 4 k -> bytes_len 4 a -> emits f (bytes_len 4) (g_emits (int_to_bytearray ((wint a + wint k) mod 2 ^ 32) 4)) (t_cipher_g k a).
  Proof.
    intros Hk Ha. unfold t_cipher_g, g_emits. apply emits_step. apply (emits_bind f _ _ _ _ _ _ (emits_add k a Hk Ha)). intros ? ->. set (v := int_to_bytearray _ 4). assert (Hv : bytes_len 4 v) by (apply word4).
    apply (emits_bind f _ _ _ _ _ _ (emits_t v Hv)). clear v Hv. intros v Hv.
    destruct (get_block 4 v 0 Hv ltac:(lia)) as [G0 B0]. destruct (get_block 4 v 1 Hv ltac:(lia)) as [G1 B1]. destruct (get_block 4 v 2 Hv ltac:(lia)) as [G2 B2]. destruct (get_block 4 v 3 Hv ltac:(lia)) as [G3 B3].
    apply (emits_bind f byte_ok); [eapply emits_read; [exact G0 | exact B0]|]. intros i0 _. apply (emits_bind f byte_ok); [eapply emits_read; [exact G1 | exact B1]|]. intros i1 _. apply (emits_bind f byte_ok); [eapply emits_read; [exact G2 | exact B2]|]. intros i2 _.
    apply (emits_bind f byte_ok); [eapply emits_read; [exact G3 | exact B3]|]. intros i3 _. apply emits_ret. apply word4.
  Qed.
  Definition x4_emits : list X := flat_map f (fst (t_add_xor (py_repeat 0 4) (py_repeat 0 4))).
  Lemma emits_x4 k d : bytes_len 4 k -> bytes_len 4 d -> emits f (fun r => True) x4_emits (t_add_xor k d).
  Proof. intros [Lk _] [Ld _]. split; [unfold x4_emits, t_add_xor; rewrite Lk, Ld; reflexivity|]. exists (add_xor k d). split; [reflexivity | exact I]. Qed.
  Definition mround_emits (e : Z) (v : Z) : list X := f (Enter FCipher e) ++ (f (Enter FCipher 691) ++ g_emits (int_to_bytearray v 4) ++ x4_emits ++ []) ++ f (Enter FCipher 684) ++ [].
  Lemma slices b : bytes_len 8 b -> bytes_len 4 (py_slice b 0 4) /\ bytes_len 4 (py_slice b 4 _BLOCK_SIZE_MAGMA) /\ wint (py_slice b 4 _BLOCK_SIZE_MAGMA) = snd (mpair b).
  Proof.
    intros [L H]. destruct b as [|b0 [|b1 [|b2 [|b3 [|b4 [|b5 [|b6 [|b7 [|? ?]]]]]]]]]; try (unfold len in L; cbn in L; lia). repeat (apply Forall_cons_iff in H as [? H]).
    split; [|split]; [split; [reflexivity | repeat (constructor; [assumption|]); constructor] | split; [reflexivity | repeat (constructor; [assumption|]); constructor] | reflexivity].
  Qed.
  Lemma emits_iter k b : bytes_len 4 k -> bytes_len 8 b -> emits f (fun _ => True) (f (Enter FCipher 691) ++ g_emits (int_to_bytearray ((snd (mpair b) + wint k) mod 2 ^ 32) 4) ++ x4_emits ++ []) (t_cipher_g_iter k b).
  Proof.
    intros Hk Hb. destruct (slices b Hb) as (S1 & S0 & E). unfold t_cipher_g_iter. apply emits_step. cbv zeta. rewrite <- E. apply (emits_bind f _ _ _ _ _ _ (emits_g k _ Hk S0)). intros g Hg.
    apply (emits_bind f _ _ _ _ _ _ (emits_x4 _ g S1 Hg)). intros x _. apply emits_ret. exact I.
  Qed.
  Lemma emits_prev k b : bytes_len 4 k -> bytes_len 8 b -> emits f (fun r => r = mblock (mG (wint k) (mpair b))) (mround_emits 704 ((snd (mpair b) + wint k) mod 2 ^ 32)) (t_cipher_g_prev k b).
  Proof.
    intros Hk Hb. apply (emits_known f _ (fun _ => True) _ _ (mblock (mG (wint k) (mpair b)))); [|rewrite erase_g_prev, g_prev_ok by (destruct Hk, Hb; split; auto; lia); reflexivity | reflexivity].
    unfold t_cipher_g_prev, mround_emits. apply emits_step. apply (emits_bind f _ _ _ _ _ _ (emits_iter k b Hk Hb)). intros [[x y] z] _. apply emits_step, emits_ret, I.
  Qed.
  Lemma emits_fin k b : bytes_len 4 k -> bytes_len 8 b -> emits f (fun r => r = mblock (mG_fin (wint k) (mpair b))) (mround_emits 711 ((snd (mpair b) + wint k) mod 2 ^ 32)) (t_cipher_g_fin k b).
  Proof.
    intros Hk Hb. apply (emits_known f _ (fun _ => True) _ _ (mblock (mG_fin (wint k) (mpair b)))); [|rewrite erase_g_fin, g_fin_ok by (destruct Hk, Hb; split; auto; lia); reflexivity | reflexivity].
    unfold t_cipher_g_fin, mround_emits. apply emits_step. apply (emits_bind f _ _ _ _ _ _ (emits_iter k b Hk Hb)). intros [[x y] z] _. apply emits_step, emits_ret, I.
  Qed.
  Fixpoint mrounds_emits (ks : list Z) (i : nat) (p : Z * Z) : list X :=
    match ks with
    | [] => f (Test FCipher 775 false)
    | k :: ks' => f (Test FCipher 775 true) ++ (f (Read FCipher 777 3 (Z.of_nat i)) ++ mround_emits 704 ((snd p + k) mod 2 ^ 32)) ++ mrounds_emits ks' (S i) (mG k p)
    end.
  Lemma emits_mrounds ks : forall ks' i p, (forall j k, nth_error ks' j = Some k -> py_get ks (Z.of_nat (i + j)) = Ok k /\ bytes_len 4 k) -> pair_ok p ->
    emits f (fun r => exists p, pair_ok p /\ r = mblock p) (mrounds_emits (map wint ks') i p)
      (t_for FCipher 775 (map Z.of_nat (seq i (length ks'))) (mblock p) (fun i result => do k := t_read 777 3 ks i in t_cipher_g_prev k result)).
  Proof.
    induction ks' as [|k ks' IH]; intros i p HK Hp; cbn [length seq map t_for mrounds_emits].
    - rewrite <- (app_nil_r (f _)). apply emits_step, emits_ret. eauto.
    - apply emits_step. destruct (HK 0%nat k eq_refl) as [G Hk]. rewrite Nat.add_0_r in G. apply (emits_bind f (fun r => r = mblock (mG (wint k) p))).
      + apply (emits_bind f (fun a => a = k)); [eapply emits_read; [exact G | reflexivity]|]. intros ? ->. pose proof (emits_prev k (mblock p) Hk (mblock_block p)) as HE. rewrite mpair_mblock in HE by exact Hp. exact HE.
      + intros ? ->. apply IH; [|apply mG_ok, Hp]. intros j k' E. specialize (HK (S j) k' E). rewrite Nat.add_succ_r in HK. exact HK.
  Qed.
  Lemma emits_magma ks k0 ks' k31 d : ks = k0 :: ks' ++ [k31] -> length ks' = 30%nat -> Forall (bytes_len 4) ks -> bytes_len 8 d ->
    exists v, emits f (fun _ => True) (f (Enter FCipher 760) ++ f (Read FCipher 773 3 0) ++ mround_emits 704 ((snd (mpair d) + wint k0) mod 2 ^ 32) ++ mrounds_emits (map wint ks') 1 (mG (wint k0) (mpair d)) ++ f (Read FCipher 780 3 31) ++ mround_emits 711 v) (t_magma_encrypt ks d).
  Proof.
    intros E L HF Hd. assert (HK : forall j k, nth_error ks j = Some k -> py_get ks (Z.of_nat j) = Ok k /\ bytes_len 4 k).
    { intros j k Ej. pose proof (nth_error_In _ _ Ej) as HI. rewrite Forall_forall in HF. split; [|apply HF, HI]. rewrite (py_get_nth _ _ []), Nat2Z.id by (pose proof (proj1 (nth_error_Some ks j) ltac:(rewrite Ej; discriminate)); unfold len; lia).
      f_equal. apply nth_error_nth. exact Ej. }
    destruct (HK 0%nat k0) as [G0 H0]; [rewrite E; reflexivity|]. destruct (HK 31%nat k31) as [G31 H31]; [rewrite E; change (nth_error (ks' ++ [k31]) 30 = Some k31); rewrite nth_error_app2, L by lia; reflexivity|].
    assert (PO : pair_ok (mpair d)) by (apply mpair_ok; destruct Hd; split; [assumption|lia]). pose proof (mG_ok (wint k0) _ PO) as PO'.
    destruct (emits_mrounds ks ks' 1 (mG (wint k0) (mpair d))) as [E1 (r & E2 & p & Hp & ->)]; [|exact PO'|].
    { intros j k Ej. apply (HK (1 + j)%nat). rewrite E. change (nth_error (ks' ++ [k31]) j = Some k). rewrite nth_error_app1; [exact Ej|]. apply nth_error_Some. rewrite Ej. discriminate. }
    exists ((snd p + wint k31) mod 2 ^ 32). unfold t_magma_encrypt. apply emits_step. apply (emits_bind f (fun a => a = k0)); [eapply emits_read; [exact G0 | reflexivity]|]. intros ? ->.
    apply (emits_bind f _ _ _ _ _ _ (emits_prev k0 d H0 Hd)). intros ? ->. apply (emits_bind f (fun r => r = mblock p)).
    - change (py_range 1 31 1) with (map Z.of_nat (seq 1 30)). rewrite <- L. split; [exact E1|]. exists (mblock p). split; [exact E2 | reflexivity].
    - intros ? ->. apply (emits_bind f (fun a => a = k31)); [eapply emits_read; [exact G31 | reflexivity]|]. intros ? ->.
      destruct (emits_fin k31 (mblock p) H31 (mblock_block p)) as [E3 (b & E4 & _)]. rewrite mpair_mblock in E3 by exact Hp. split; [exact E3|]. exists b. split; [exact E4 | exact I].
  Qed.
End Mag.
