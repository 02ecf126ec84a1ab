(** * Facts about the steps of making cipher objects and of decryption. *)
From Verif Require Import PyBase PyFacts PyLoop Utils UtilsFacts CipherTables SpecKuznechik SpecMagma Kuznechik Magma KuzFacts KuzFacts2 MagmaFacts CipherLemmas SpecTrace Trace TraceLemmas TraceFacts TraceCipher TraceCipherFacts TraceCipher2.
Open Scope list_scope.
Open Scope Z_scope.

(** ** The results are those of the first model *)
Ltac next lem := rewrite snd_bind, lem, ?liftO_bind; apply bindO_ext; intros.
Lemma erase_s_reverse d : snd (t_cipher_s_reverse d) = liftO (_cipher_s_reverse d).
Proof. unfold t_cipher_s_reverse, _cipher_s_reverse, cipher_s_with. rewrite snd_step. apply snd_for. intros i r. next @snd_read. next @snd_read. reflexivity. Qed.
Lemma erase_r_reverse d : snd (t_cipher_r_reverse d) = liftO (_cipher_r_reverse d).
Proof.
  unfold t_cipher_r_reverse, _cipher_r_reverse. rewrite snd_step, snd_bind, liftO_bind.
  match goal with |- bindO ?x _ = bindO (liftO (for_ _ _ ?g)) _ => replace x with (liftO (for_ (py_range (_BLOCK_SIZE_KUZNECHIK - 1) (-1) (-1)) (0, py_repeat 0 _BLOCK_SIZE_KUZNECHIK) g)) end.
  - apply bindO_ext. intros [a r]. reflexivity.
  - symmetry. apply snd_for. intros i [a r]. rewrite snd_bind, snd_read, liftO_bind. destruct (py_get d i) as [v|e] eqn:E; [|reflexivity]. cbn [liftO bindO]. next @snd_res. next @snd_read. rewrite snd_bind, snd_read, E. cbn [liftO bindO]. next @snd_read. reflexivity.
Qed.
Lemma erase_l_reverse d : snd (t_cipher_l_reverse d) = liftO (_cipher_l_reverse d).
Proof. unfold t_cipher_l_reverse, _cipher_l_reverse. rewrite snd_step. apply snd_for. intros i r. apply erase_r_reverse. Qed.
Lemma erase_get_c : snd t_cipher_get_c = liftO _cipher_get_c.
Proof. unfold t_cipher_get_c, _cipher_get_c. rewrite snd_step. apply snd_for. intros i cs. next @snd_res. next erase_cipher_l. reflexivity. Qed.
Lemma erase_kuz_new key : snd (t_kuz_new key) = liftO (kuz_new key).
Proof.
  unfold t_kuz_new, kuz_new. rewrite snd_step. next erase_get_c. cbv zeta. rewrite snd_bind, liftO_bind.
  match goal with |- bindO ?x _ = bindO (liftO (for_ ?r ?s ?g)) _ => replace x with (liftO (for_ r s g)) end.
  - apply bindO_ext. intros [[ks u] v]. reflexivity.
  - symmetry. apply snd_for. intros i [[ks u] v]. rewrite snd_bind, liftO_bind.
    match goal with |- bindO ?x _ = bindO (liftO (for_ ?r ?s ?g)) _ => replace x with (liftO (for_ r s g)) end.
    + apply bindO_ext. intros [u' v']. reflexivity.
    + symmetry. apply snd_for. intros j [u' v']. next @snd_read. rewrite snd_bind. cbn [t_add_xor snd bindO]. next erase_cipher_s. next erase_cipher_l. reflexivity.
Qed.
Lemma erase_kuz_decrypt ks b : snd (t_kuz_decrypt ks b) = liftO (kuz_decrypt ks b).
Proof.
  unfold t_kuz_decrypt, kuz_decrypt. rewrite snd_step. next @snd_read. rewrite snd_bind. cbn [t_add_xor snd bindO]. apply snd_for. intros i d. next erase_l_reverse. next erase_s_reverse. next @snd_read. reflexivity.
Qed.
Definition omap {A B} (p : A -> B) (c : outcome A) : outcome B := bindO c (fun a => Returns (p a)).
Lemma snd_for_map {A S S'} f l (xs : list A) (body : A -> S -> T S) g (p : S -> S') : (forall x s, omap p (snd (body x s)) = liftO (g x (p s))) ->
  forall s, omap p (snd (t_for f l xs s body)) = liftO (for_ xs (p s) g).
Proof.
  intros H. induction xs as [|x xs IH]; intros s; cbn [t_for for_]; rewrite snd_step; [reflexivity|].
  rewrite snd_bind. specialize (H x s). destruct (g x (p s)) as [s'|e]; cbn [liftO bind] in *.
  - destruct (snd (body x s)) as [a|e|]; cbn [omap bindO] in *; try discriminate H. injection H as <-. apply IH.
  - destruct (snd (body x s)) as [a|e'|]; cbn [omap bindO] in *; try discriminate H. exact H.
Qed.
Lemma erase_expand en ou inn li pos keys key : snd (t_expand en ou inn li pos keys key) = liftO (for_ (py_range 0 8 1) keys (fun j keys =>
  let* iter_key := for_ (py_range 0 4 1) (py_repeat 0 4) (fun i iter_key => let* k := py_get key (pos j i) in py_set iter_key i k) in Ok (keys ++ [iter_key]))).
Proof.
  unfold t_expand. rewrite snd_step, snd_bind. match goal with |- bindO (snd (t_for ?a ?b ?c ?d ?e)) _ = liftO (for_ _ _ ?g) => pose proof (snd_for_map a b c e g fst) as H end. specialize (H ltac:(
    intros j [ks it]; cbn [fst]; rewrite snd_bind; unfold omap;
    match goal with |- bindO (bindO ?x _) _ = liftO (bind (for_ ?r ?s ?g) _) => replace x with (liftO (for_ r s g)); [destruct (for_ r s g); reflexivity | symmetry; apply snd_for; intros i t; next @snd_read; reflexivity] end) (keys, [])).
  cbn [fst] in H. rewrite <- H. destruct (snd (t_for _ _ _ _ _)) as [[ks it]|e|]; reflexivity.
Qed.
Lemma erase_magma_new key : snd (t_magma_new key) = liftO (magma_new key).
Proof.
  unfold t_magma_new, magma_new, t_expand_iter_key, t_expand_iter_key_final. rewrite snd_step.
  do 3 (rewrite snd_bind, erase_expand, liftO_bind; apply bindO_ext; intros ?). rewrite snd_bind, erase_expand. unfold _expand_iter_key_final. destruct (for_ _ _ _); reflexivity.
Qed.
Lemma erase_magma_decrypt ks b : snd (t_magma_decrypt ks b) = liftO (magma_decrypt ks b).
Proof.
  unfold t_magma_decrypt, magma_decrypt. rewrite snd_step. next @snd_read. next erase_g_prev. rewrite snd_bind, liftO_bind.
  match goal with |- bindO ?x _ = bindO (liftO (for_ ?r ?s ?g)) _ => replace x with (liftO (for_ r s g)) end.
  - apply bindO_ext. intros c. next @snd_read. apply erase_g_fin.
  - symmetry. apply snd_for. intros i c. next @snd_read. apply erase_g_prev.
Qed.

(** ** What is left of the steps *)
Section Loop.
  Context {X : Type} (f : event -> list X).
  Fixpoint loop_emits {A S} (h : A -> S -> list X) (g : A -> S -> S) (gf : srcfile) (l : Z) (xs : list A) (s : S) : list X :=
    match xs with
    | [] => f (Test gf l false)
    | x :: xs' => f (Test gf l true) ++ h x s ++ loop_emits h g gf l xs' (g x s)
    end.
  Lemma emits_loop {A S} (Q : S -> Prop) (h : A -> S -> list X) (g : A -> S -> S) gf l (body : A -> S -> T S) : forall xs,
    (forall x s, In x xs -> Q s -> Q (g x s) /\ emits f (fun r => r = g x s) (h x s) (body x s)) ->
    forall s, Q s -> emits f (fun r => r = fold_left (fun s x => g x s) xs s /\ Q r) (loop_emits h g gf l xs s) (t_for gf l xs s body).
  Proof.
    induction xs as [|x xs IH]; intros H s HQ; cbn [t_for loop_emits fold_left].
    - rewrite <- (app_nil_r (f _)). apply emits_step, emits_ret. split; [reflexivity | exact HQ].
    - apply emits_step. destruct (H x s (or_introl eq_refl) HQ) as [HQ' HE]. refine (emits_bind f _ _ _ _ _ _ HE _). intros ? ->. apply IH; [|exact HQ']. intros y t Hy. apply H. now right.
  Qed.
  Lemma loop_blind {A S} (h : A -> S -> list X) (g g' : A -> S -> S) gf l : (forall x s s', h x s = h x s') -> forall xs s s', loop_emits h g gf l xs s = loop_emits h g' gf l xs s'.
  Proof. intros H. induction xs as [|x xs IH]; intros s s'; cbn [loop_emits]; [reflexivity|]. rewrite (H x s s'). rewrite (IH (g x s) (g' x s')). reflexivity. Qed.
  Lemma emits_weaken {A} (Q Q' : A -> Prop) l (c : T A) : emits f Q l c -> (forall a, Q a -> Q' a) -> emits f Q' l c.
  Proof. intros [E (a & E' & H)] HW. split; [exact E|]. exists a. auto. Qed.
End Loop.

Section KuzRev.
  Context {X : Type} (f : event -> list X).
  (** [f] sees indices in line 467 only. *)
  Definition blind_but_467 : Prop := forall line i j, line <> 467 -> f (Read FCipher line 1 i) = f (Read FCipher line 1 j).
  Definition sr_emits (d : bytes) : list X :=
    f (Enter FCipher 464) ++ concat (map (fun i => f (Test FCipher 466 true) ++ f (Read FCipher 467 0 i) ++ f (Read FCipher 467 1 (nth (Z.to_nat i) d 0)) ++ []) (py_range 0 16 1)) ++ f (Test FCipher 466 false).
  Lemma emits_sr d : bytes_len 16 d -> emits f (fun r => r = kS_inv d) (sr_emits d) (t_cipher_s_reverse d).
  Proof.
    intros Hd. pose proof Hd as [L H]. apply (emits_known f _ (bytes_len 16) _ _ (kS_inv d)); [|rewrite erase_s_reverse, cipher_s_reverse_ok, firstn_all2 by (auto || unfold len in *; lia); reflexivity | reflexivity].
    unfold t_cipher_s_reverse, sr_emits, _BLOCK_SIZE_KUZNECHIK. apply emits_step. apply (emits_for f (bytes_len 16)); [|apply zeros_block; lia].
    intros i r Hi Hr. apply in_up in Hi. destruct (get_block 16 d i Hd Hi) as [G B]. apply (emits_bind f (fun a => a = nth (Z.to_nat i) d 0)); [(eapply emits_read; [exact G | reflexivity])|]. intros a ->.
    destruct (sbox_inv_table _ B) as [G' B']. apply (emits_bind f byte_ok); [(eapply emits_read; [exact G' | exact B'])|]. intros v Hv. destruct (set_block 16 r i v Hr Hi Hv) as (r' & E & Hr'). (eapply emits_res; [exact E | exact Hr']).
  Qed.
  Definition rr_emits : list X :=
    f (Enter FCipher 481) ++ (concat (map (fun i => f (Test FCipher 484 true) ++ f (Read FCipher 485 0 i) ++ [] ++ f (Read FCipher 486 2 i) ++ f (Read FCipher 486 0 i) ++ f (Read FCipher 486 1 0) ++ []) (py_range 15 (-1) (-1))) ++ f (Test FCipher 484 false)) ++ [].
  Lemma emits_rr (HB : blind_but_467) d : bytes_len 16 d -> emits f (fun r => r = kR_inv d) rr_emits (t_cipher_r_reverse d).
  Proof.
    intros Hd. pose proof Hd as [L H]. assert (ER : _cipher_r_reverse d = Ok (kR_inv d)) by (rewrite cipher_r_reverse_ok, ?firstn_all2 by (auto || unfold len in *; lia); reflexivity).
    apply (emits_known f _ (bytes_len 16) _ _ (kR_inv d)); [|rewrite erase_r_reverse, ER; reflexivity | reflexivity].
    unfold t_cipher_r_reverse, rr_emits, _BLOCK_SIZE_KUZNECHIK. apply emits_step. apply (emits_bind f (fun p => byte_ok (fst p) /\ bytes_len 16 (snd p))).
    - apply (emits_for f (fun p => byte_ok (fst p) /\ bytes_len 16 (snd p))); [|split; [unfold byte_ok; cbn; lia | apply zeros_block; lia]].
      intros i [a r] Hi [Ha Hr]. cbn [fst snd] in *. assert (Hi' : 0 <= i < 16) by (change (py_range (16 - 1) (-1) (-1)) with [15;14;13;12;11;10;9;8;7;6;5;4;3;2;1;0] in Hi; cbn in Hi; lia).
      destruct (get_block 16 d i Hd Hi') as [G B]. apply (emits_bind f (fun v => v = nth (Z.to_nat i) d 0)); [eapply emits_read; [exact G | reflexivity]|]. intros v ->.
      assert (ES : exists r', py_set r (i - 1) (nth (Z.to_nat i) d 0) = Ok r' /\ bytes_len 16 r').
      { destruct (Z.eq_dec i 0) as [->|N]; [|apply set_block; [exact Hr | lia | exact B]]. destruct (set_block 16 r 15 (nth (Z.to_nat 0) d 0) Hr ltac:(lia) B) as (r' & E & Hr'). exists r'. split; [|exact Hr']. rewrite <- E.
        change (0 - 1) with (-1). unfold py_set, py_set_list. destruct Hr as [Lr _]. rewrite Lr. reflexivity. }
      destruct ES as (r' & E & Hr'). apply (emits_bind f (bytes_len 16)); [eapply emits_res; [exact E | exact Hr']|]. clear r r' E Hr Hr'. intros r Hr.
      apply (emits_bind f (fun row => row = gf_row i)); [(eapply emits_read; [exact (gf_row_get i Hi') | reflexivity])|]. intros row ->.
      apply (emits_bind f (fun v => v = nth (Z.to_nat i) d 0)); [eapply emits_read; [exact G | reflexivity]|]. intros v ->. destruct (gf_table i _ Hi' B) as [G' B'].
      apply (emits_bind f byte_ok); [rewrite (HB 486 0 (nth (Z.to_nat i) d 0)) by lia; (eapply emits_read; [exact G' | exact B'])|]. intros g Hg. apply emits_ret. split; [apply lxor_byte; assumption | exact Hr].
    - intros [a r] [Ha Hr]. cbn [fst snd] in *. destruct (set_block 16 r 15 a Hr ltac:(lia) Ha) as (r' & E & Hr'). (eapply emits_res; [exact E | exact Hr']).
  Qed.
  Definition lr_emits : list X := f (Enter FCipher 499) ++ concat (map (fun _ => f (Test FCipher 502 true) ++ rr_emits) (py_range 0 16 1)) ++ f (Test FCipher 502 false).
  Lemma emits_lr (HB : blind_but_467) d : bytes_len 16 d -> emits f (fun r => r = kL_inv d) lr_emits (t_cipher_l_reverse d).
  Proof.
    intros Hd. apply (emits_known f _ (bytes_len 16) _ _ (kL_inv d)); [|rewrite erase_l_reverse, cipher_l_reverse_ok, firstn_block by (auto using block_wide); reflexivity | reflexivity].
    unfold t_cipher_l_reverse, lr_emits. apply emits_step. apply (emits_for f (bytes_len 16)); [|exact Hd]. intros i r _ Hr. destruct (emits_rr HB r Hr) as [E (a & E' & ->)]. split; [exact E|]. exists (kR_inv r). split; [exact E' | apply kR_inv_block, Hr].
  Qed.
  Definition dec_round (ks : list bytes) (i : Z) (d : bytes) : bytes := kX (nth (Z.to_nat i) ks []) (kS_inv (kL_inv d)).
  Definition dec_emits (i : Z) (d : bytes) : list X := lr_emits ++ sr_emits (kL_inv d) ++ f (Read FCipher 548 3 i) ++ x_emits f.
  Lemma get_key n ks i : Forall (bytes_len n) ks -> 0 <= i < len ks -> py_get ks i = Ok (nth (Z.to_nat i) ks []) /\ bytes_len n (nth (Z.to_nat i) ks []).
  Proof. intros HF Hi. split; [apply py_get_nth, Hi|]. rewrite Forall_forall in HF. apply HF, nth_In. unfold len in Hi. lia. Qed.
  Definition dec_all_emits (ks : list bytes) (d : bytes) : list X :=
    f (Enter FCipher 532) ++ f (Read FCipher 544 3 9) ++ x_emits f ++ loop_emits f dec_emits (dec_round ks) FCipher 545 (py_range 8 (-1) (-1)) (kX (nth 9 ks []) d).
  Lemma emits_kuz_dec (HB : blind_but_467) ks d : length ks = 10%nat -> Forall (bytes_len 16) ks -> bytes_len 16 d -> emits f (bytes_len 16) (dec_all_emits ks d) (t_kuz_decrypt ks d).
  Proof.
    intros L HF Hd. unfold t_kuz_decrypt, dec_all_emits. apply emits_step. assert (LK : len ks = 10) by (unfold len; lia). destruct (get_key 16 ks 9 HF ltac:(lia)) as [G9 H9]. change (Z.to_nat 9) with 9%nat in *.
    apply (emits_bind f (fun k => k = nth 9 ks [])); [eapply emits_read; [exact G9 | reflexivity]|]. intros ? ->. apply (emits_bind f _ _ _ _ _ _ (emits_x f _ d H9 Hd)). intros ? ->.
    eapply emits_weaken; [apply (emits_loop f (bytes_len 16) dec_emits (dec_round ks)); [|apply kX_block; assumption] | intros a [_ Ha]; exact Ha].
    intros i b Hi Hb. assert (Hi' : 0 <= i < 10) by (change (py_range 8 (-1) (-1)) with [8;7;6;5;4;3;2;1;0] in Hi; cbn in Hi; lia). destruct (get_key 16 ks i HF ltac:(lia)) as [G H].
    pose proof (kL_inv_block b Hb) as H1. pose proof (kS_inv_block _ H1) as H2. split; [apply kX_block; assumption|]. unfold dec_emits, dec_round.
    apply (emits_bind f _ _ _ _ _ _ (emits_lr HB b Hb)). intros ? ->. apply (emits_bind f _ _ _ _ _ _ (emits_sr _ H1)). intros ? ->. apply (emits_bind f (fun k => k = nth (Z.to_nat i) ks [])); [eapply emits_read; [exact G | reflexivity]|]. intros ? ->. apply emits_x; assumption.
  Qed.
End KuzRev.

Section KuzNew.
  Context {X : Type} (f : event -> list X).
  Definition c_emits : list X :=
    f (Enter FCipher 506) ++ concat (map (fun _ => f (Test FCipher 507 true) ++ [] ++ l_emits f ++ []) (py_range 1 33 1)) ++ f (Test FCipher 507 false).
  Lemma emits_get_c (HB : blind_but_460 f) : emits f (fun r => r = map kC (seq 1 32)) c_emits t_cipher_get_c.
  Proof.
    apply (emits_known f _ (fun _ => True) _ _ (map kC (seq 1 32))); [|rewrite erase_get_c, cipher_get_c_ok; reflexivity | reflexivity]. unfold t_cipher_get_c, c_emits. apply emits_step. apply (emits_for f (fun _ => True)); [|exact I].
    intros i cs Hi _. assert (Hi' : byte_ok i) by (change (py_range 1 33 1) with (map Z.of_nat (seq 1 32)) in Hi; apply in_map_iff in Hi as (n & <- & Hn); apply in_seq in Hn; unfold byte_ok; lia). destruct (set_block 16 (py_repeat 0 16) 15 i (zeros_block 16 ltac:(lia)) ltac:(lia) Hi') as (r & E & Hr).
    apply (emits_bind f (bytes_len 16)); [eapply emits_res; [exact E | exact Hr]|]. intros r' Hr'. apply (emits_bind f _ _ _ _ _ _ (emits_l f HB r' Hr')). intros c _. apply emits_ret. exact I.
  Qed.
  Definition feistel_step (i j : Z) (p : bytes * bytes) : bytes * bytes := let x := kX (fst p) (kC (S (Z.to_nat (i * 8 + j)))) in (kX (kL (kS x)) (snd p), fst p).
  Definition step_emits (i j : Z) (p : bytes * bytes) : list X :=
    f (Read FCipher 437 3 (i * 8 + j)) ++ x_emits f ++ s_emits f (kX (fst p) (kC (S (Z.to_nat (i * 8 + j))))) ++ l_emits f ++ x_emits f ++ [].
  Definition inner (i : Z) (p : bytes * bytes) : bytes * bytes := fold_left (fun p j => feistel_step i j p) (py_range 0 8 1) p.
  Definition outer_step (i : Z) (s : list bytes * bytes * bytes) : list bytes * bytes * bytes := let '(keys, a, b) := s in let p := inner i (a, b) in (keys ++ [fst p] ++ [snd p], fst p, snd p).
  Definition outer_emits (i : Z) (s : list bytes * bytes * bytes) : list X := let '(keys, a, b) := s in loop_emits f (step_emits i) (feistel_step i) FCipher 436 (py_range 0 8 1) (a, b) ++ [].
  Definition new_emits (key : bytes) : list X :=
    f (Enter FCipher 419) ++ c_emits ++ loop_emits f outer_emits outer_step FCipher 435 (py_range 0 4 1) ([py_upto key 16; py_from key 16], py_upto key 16, py_from key 16) ++ [].
  Lemma emits_kuz_new (HB : blind_but_460 f) key : bytes_len 32 key -> emits f (fun r => True) (new_emits key) (t_kuz_new key).
  Proof.
    intros Hk. unfold t_kuz_new, new_emits. apply emits_step. apply (emits_bind f _ _ _ _ _ _ (emits_get_c HB)). intros ? ->. cbv zeta. change (_KEY_SIZE / 2) with 16.
    assert (PB : pair_block (py_upto key 16, py_from key 16)).
    { replace (py_upto key 16) with (firstn 16 key) by (symmetry; apply (py_upto_firstn key 16); lia). replace (py_from key 16) with (skipn 16 key) by (symmetry; apply (py_from_skipn key 16); lia). apply key_halves, Hk. }
    refine (emits_bind f _ _ _ _ _ _ (emits_loop f (fun s => pair_block (snd (fst s), snd s)) outer_emits outer_step FCipher 435 _ (py_range 0 4 1) _ ([py_upto key 16; py_from key 16], py_upto key 16, py_from key 16) PB) _); [|intros [[ks u] v] _; apply emits_ret, I].
    intros i [[ks u] v] Hi HP. cbn [fst snd] in HP. apply in_up in Hi.
    pose proof (emits_loop f pair_block (step_emits i) (feistel_step i) FCipher 436 (fun j '(key_1, key_2) =>
                do c := t_read 437 3 (map kC (seq 1 32)) (i * 8 + j) in
                do internal := t_add_xor key_1 c in
                do internal := t_cipher_s internal in
                do internal := t_cipher_l internal in
                do sum := t_add_xor internal key_2 in
                retT (sum, key_1)) (py_range 0 8 1)) as HL.
    specialize (HL ltac:(intros j [a b] Hj [Ha Hb]; cbn [fst snd] in Ha, Hb; apply in_up in Hj;
      assert (G := get_c (i * 8 + j) ltac:(lia)); assert (Hc : block16 (kC (S (Z.to_nat (i * 8 + j))))) by (apply kC_block; lia);
      pose proof (kX_block _ _ Ha Hc) as HX; pose proof (kL_block _ (kS_block _ HX)) as HD;
      split; [split; [apply kX_block; assumption | exact Ha]|]; unfold step_emits, feistel_step; cbn [fst snd];
      (apply (emits_bind f (fun c => c = kC (S (Z.to_nat (i * 8 + j))))); [eapply emits_read; [exact G | reflexivity]|]); intros ? ->;
      apply (emits_bind f _ _ _ _ _ _ (emits_x f _ _ Ha Hc)); intros ? ->; apply (emits_bind f _ _ _ _ _ _ (emits_s f _ HX)); intros ? ->;
      apply (emits_bind f _ _ _ _ _ _ (emits_l f HB _ (kS_block _ HX))); intros ? ->; apply (emits_bind f _ _ _ _ _ _ (emits_x f _ _ HD Hb)); intros ? ->; apply emits_ret; reflexivity) (u, v) HP).
    assert (HI : pair_block (inner i (u, v))) by (destruct HL as [_ (a & _ & -> & H)]; exact H). split; [unfold outer_step; cbn [fst snd]; destruct (inner i (u, v)); exact HI|].
    unfold outer_emits, outer_step. apply (emits_bind f _ _ _ _ _ _ HL). intros [a b] [E _]. fold (inner i (u, v)) in E. rewrite <- E. apply emits_ret. reflexivity.
  Qed.
End KuzNew.

Section MagNew.
  Context {X : Type} (f : event -> list X).
  Definition zero_emits : list X := f (Enter FUtils 68) ++ f (Test FUtils 79 true) ++ [].
  Lemma emits_zero v : emits f (fun _ => True) zero_emits (t_zero_fill v).
  Proof. unfold t_zero_fill, zero_emits, if_. apply emits_step. apply emits_step. apply emits_ret. exact I. Qed.
  Definition expand_emits (enter outer inner line : Z) (pos : Z -> Z -> Z) : list X :=
    f (Enter FCipher enter) ++
    (concat (map (fun j => f (Test FCipher outer true) ++ (concat (map (fun i => f (Test FCipher inner true) ++ f (Read FCipher line 0 (pos j i)) ++ []) (py_range 0 4 1)) ++ f (Test FCipher inner false)) ++ []) (py_range 0 8 1)) ++ f (Test FCipher outer false))
    ++ zero_emits ++ zero_emits ++ [].
  Lemma emits_expand en ou inn li pos keys key : bytes_len 32 key -> (forall j i, 0 <= j < 8 -> 0 <= i < 4 -> 0 <= pos j i < 32) -> emits f (fun _ => True) (expand_emits en ou inn li pos) (t_expand en ou inn li pos keys key).
  Proof.
    intros Hk HP. unfold t_expand, expand_emits. apply emits_step. apply (emits_bind f (fun _ => True)).
    - apply (emits_for f (fun _ => True)); [|exact I]. intros j [ks it] Hj _. apply in_up in Hj. apply (emits_bind f (bytes_len 4)); [|intros; apply emits_ret, I]. apply (emits_for f (bytes_len 4)); [|apply zeros_block; lia].
      intros i r Hi Hr. apply in_up in Hi. destruct (get_block 32 key (pos j i) Hk (HP j i Hj Hi)) as [G B]. apply (emits_bind f byte_ok); [eapply emits_read; [exact G | exact B]|]. intros v Hv. destruct (set_block 4 r i v Hr Hi Hv) as (r' & E & Hr'). eapply emits_res; [exact E | exact Hr'].
    - intros [ks it] _. apply (emits_bind f _ _ _ _ _ _ (emits_zero it)). intros _ _. apply (emits_bind f _ _ _ _ _ _ (emits_zero key)). intros _ _. apply emits_ret, I.
  Qed.
  Definition mnew_emits : list X :=
    let e := expand_emits 623 625 627 628 (fun j i => j * 4 + i) in
    f (Enter FCipher 599) ++ e ++ e ++ e ++ expand_emits 633 634 636 637 (fun j i => 28 - j * 4 + i) ++ zero_emits ++ [].
  Lemma emits_magma_new key : bytes_len 32 key -> emits f (fun _ => True) mnew_emits (t_magma_new key).
  Proof.
    intros Hk. unfold t_magma_new, mnew_emits, t_expand_iter_key, t_expand_iter_key_final. cbv zeta. apply emits_step. do 3 (refine (emits_bind f _ _ _ _ _ _ (emits_expand _ _ _ _ _ _ key Hk _) _); [intros; lia | intros ? _]).
    refine (emits_bind f _ _ _ _ _ _ (emits_expand _ _ _ _ _ _ key Hk _) _); [intros; lia | intros ? _]. apply (emits_bind f _ _ _ _ _ _ (emits_zero key)). intros _ _. apply emits_ret, I.
  Qed.
  Definition mdec_round (ks : list bytes) (i : Z) (b : bytes) : bytes := mblock (mG (wint (nth (Z.to_nat i) ks [])) (mpair b)).
  Definition mdec_emits (ks : list bytes) (i : Z) (b : bytes) : list X := f (Read FCipher 753 3 i) ++ mround_emits f 704 ((snd (mpair b) + wint (nth (Z.to_nat i) ks [])) mod 2 ^ 32).
  Definition mdec_all_emits (ks : list bytes) (d : bytes) (v : Z) : list X :=
    f (Enter FCipher 736) ++ f (Read FCipher 749 3 31) ++ mround_emits f 704 ((snd (mpair d) + wint (nth 31 ks [])) mod 2 ^ 32) ++
    loop_emits f (mdec_emits ks) (mdec_round ks) FCipher 751 (py_range 30 0 (-1)) (mdec_round ks 31 d) ++ f (Read FCipher 756 3 0) ++ mround_emits f 711 v.
  Lemma emits_magma_dec ks d : length ks = 32%nat -> Forall (bytes_len 4) ks -> bytes_len 8 d -> exists v, emits f (fun _ => True) (mdec_all_emits ks d v) (t_magma_decrypt ks d).
  Proof.
    intros L HF Hd. assert (LK : len ks = 32) by (unfold len; lia). destruct (get_key 4 ks 31 HF ltac:(lia)) as [G31 H31]. destruct (get_key 4 ks 0 HF ltac:(lia)) as [G0 H0].
    assert (HL := emits_loop f (bytes_len 8) (mdec_emits ks) (mdec_round ks) FCipher 751 (fun i result => do k := t_read 753 3 ks i in t_cipher_g_prev k result) (py_range 30 0 (-1))).
    specialize (HL ltac:(intros i b Hi Hb; split; [apply mblock_block|]; assert (Hi' : 0 <= i < 32) by (change (py_range 30 0 (-1)) with (rev (map Z.of_nat (seq 1 30))) in Hi; apply in_rev in Hi; apply in_map_iff in Hi as (n & <- & Hn); apply in_seq in Hn; lia);
      destruct (get_key 4 ks i HF ltac:(lia)) as [G H]; unfold mdec_emits, mdec_round; (apply (emits_bind f (fun k => k = nth (Z.to_nat i) ks [])); [eapply emits_read; [exact G | reflexivity]|]); intros ? ->; apply emits_prev; assumption) (mdec_round ks 31 d) (mblock_block _)).
    pose proof HL as [_ (r & _ & _ & Hr)]. set (e := fold_left (fun s x => mdec_round ks x s) (py_range 30 0 (-1)) (mdec_round ks 31 d)) in *.
    exists ((snd (mpair e) + wint (nth 0 ks [])) mod 2 ^ 32). unfold t_magma_decrypt, mdec_all_emits. apply emits_step. apply (emits_bind f (fun k => k = nth 31 ks [])); [eapply emits_read; [exact G31 | reflexivity]|]. intros ? ->.
    apply (emits_bind f _ _ _ _ _ _ (emits_prev f _ d H31 Hd)). intros ? ->. apply (emits_bind f _ _ _ _ _ _ HL). intros b [-> Hb]. apply (emits_bind f (fun k => k = nth 0 ks [])); [eapply emits_read; [exact G0 | reflexivity]|]. intros ? ->.
    eapply emits_weaken; [apply (emits_fin f _ e H0 Hb)|]. intros; exact I.
  Qed.
End MagNew.
