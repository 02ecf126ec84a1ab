(** * The steps of a mode are those of a number of operations of the block cipher, and others elsewhere. *)
From Verif Require Import PyBase PyState PyFacts PyLoop Utils UtilsFacts CipherObj Modes SpecModes CipherLemmas CipherObjFacts ModeFacts CtrFacts MacFacts.
From Verif Require Import SpecTrace Trace TraceLemmas TraceFacts TraceCipher TraceCipherFacts TraceCipher2 TraceHashErase TracePbkdfFacts TraceModes TraceModesErase TraceModesFlow.
Open Scope string_scope.
Open Scope list_scope.
Open Scope Z_scope.

Definition file_of (e : event) : srcfile := match e with Enter f _ => f | Test f _ _ => f | Read f _ _ _ => f end.
(** Sees the steps of the block ciphers only. *)
Definition cipher_only {X} (f : event -> list X) : Prop := forall e, file_of e <> FCipher -> f e = [].

Section Use.
  Context {X : Type} (f : event -> list X) (HF : cipher_only f) (c : cipher_obj) (op : bytes -> T bytes).
  (** What [f] sees are [n] operations on blocks. *)
  Definition uses {A} (n : nat) (Q : A -> Prop) (t : T A) : Prop := exists bl, List.length bl = n /\ Forall (block c) bl /\ flat_map f (fst t) = concat (map (fun b => flat_map f (fst (op b))) bl) /\ exists a, snd t = Returns a /\ Q a.
  Lemma uses_bind {A B} n m (Q : A -> Prop) (Q' : B -> Prop) t k : uses n Q t -> (forall a, Q a -> uses m Q' (k a)) -> uses (n + m) Q' (bindT t k).
  Proof using.
    intros (bl & L & HB & E & a & Ea & HQ) H. destruct (H a HQ) as (bl' & L' & HB' & E' & b & Eb & HQ'). exists (bl ++ bl'). split; [rewrite app_length; lia|]. split; [now apply Forall_app|].
    split; [rewrite (fst_bind_ok _ _ _ Ea), flat_map_app, map_app, concat_app, E, E'; reflexivity|]. exists b. split; [|exact HQ']. unfold bindT. rewrite Ea. exact Eb.
  Qed.
  Lemma uses_quiet {A} (Q : A -> Prop) t a : flat_map f (fst t) = [] -> snd t = Returns a -> Q a -> uses 0 Q t.
  Proof using. intros E Ea HQ. exists []. split; [reflexivity|]. split; [constructor|]. split; [exact E|]. exists a. split; assumption. Qed.
  Lemma uses_skip {A B} m (Q : A -> Prop) (Q' : B -> Prop) t k : uses 0 Q t -> (forall a, Q a -> uses m Q' (k a)) -> uses m Q' (bindT t k).
  Proof using. exact (uses_bind 0 m Q Q' t k). Qed.
  Lemma uses_ret {A} (Q : A -> Prop) a : Q a -> uses 0 Q (retT a).
  Proof using. apply uses_quiet; reflexivity. Qed.
  Lemma uses_weaken {A} n (Q Q' : A -> Prop) t : uses n Q t -> (forall a, Q a -> Q' a) -> uses n Q' t.
  Proof using. intros (bl & L & HB & E & a & Ea & HQ) H. exists bl. split; [exact L|]. split; [exact HB|]. split; [exact E|]. exists a. split; [exact Ea | now apply H]. Qed.
  Lemma uses_step {A} n (Q : A -> Prop) e k : file_of e <> FCipher -> uses n Q k -> uses n Q (at_ e then k).
  Proof using HF. intros HE H. eapply uses_skip with (Q := fun _ => True); [|intros _ _; exact H]. apply (uses_quiet _ _ tt); [cbn [step fst flat_map]; rewrite HF by exact HE; reflexivity | reflexivity | exact I]. Qed.
  Lemma uses_if {A} n (Q : A -> Prop) fl l b x y : fl <> FCipher -> (b = true -> uses n Q x) -> (b = false -> uses n Q y) -> uses n Q (if_ fl l b x y).
  Proof using HF. intros HE Hx Hy. unfold if_. apply uses_step; [exact HE|]. destruct b; auto. Qed.
  Lemma uses_for {A S} k (Q : S -> Prop) fl l body : fl <> FCipher -> forall (xs : list A) s, Q s -> (forall x s, In x xs -> Q s -> uses k Q (body x s)) -> uses (List.length xs * k) Q (t_for fl l xs s body).
  Proof using HF.
    intros HE. induction xs as [|x xs IH]; intros s HQ H; cbn [t_for List.length Nat.mul]; (apply uses_step; [exact HE|]); [now apply uses_ret|]. eapply uses_bind; [apply H; [now left | exact HQ]|]. intros s' HQ'. apply IH; [exact HQ'|]. intros y t Hy. apply H. now right.
  Qed.
  Lemma uses_xor a b : uses 0 (fun r => r = add_xor a b) (t_add_xor a b).
  Proof using HF.
    apply (uses_quiet _ _ (add_xor a b)); [|reflexivity | reflexivity]. unfold t_add_xor. cbn [fst]. cbn [flat_map]. rewrite HF by discriminate. cbn [app]. rewrite flat_map_app. cbn [flat_map]. rewrite (HF (Test FUtils 63 false)) by discriminate. rewrite app_nil_r.
    induction (py_range _ _ _) as [|i is IH]; [reflexivity|]. cbn [map concat app flat_map]. rewrite !HF by discriminate. exact IH.
  Qed.
  Lemma uses_num n d : uses 0 (fun r => r = len d / n) (t_get_num_block n d).
  Proof using HF. unfold t_get_num_block. apply uses_step; [discriminate | now apply uses_ret]. Qed.
  Lemma uses_block n d i : uses 0 (fun r => r = _get_block n d i) (t_get_block n d i).
  Proof using HF. unfold t_get_block. apply uses_step; [discriminate | now apply uses_ret]. Qed.
  Lemma uses_plain d : uses 0 (fun r => r = d) (t_check_plaintext d).
  Proof using HF. unfold t_check_plaintext. apply uses_step; [discriminate|]. apply uses_step; [discriminate | now apply uses_ret]. Qed.
  Lemma uses_cipher d : uses 0 (fun r => r = d) (t_check_ciphertext d).
  Proof using HF. unfold t_check_ciphertext. apply uses_step; [discriminate|]. apply uses_step; [discriminate | now apply uses_ret]. Qed.
  Lemma uses_pad_size n d : uses 0 (fun r => r = _get_pad_size n d) (t_get_pad_size n d).
  Proof using HF.
    unfold t_get_pad_size, _get_pad_size. apply uses_step; [discriminate|]. apply uses_if; [discriminate | intros ->; now apply uses_ret|]. intros ->. apply uses_if; [discriminate | intros ->; now apply uses_ret | intros ->; now apply uses_ret].
  Qed.
  Lemma uses_padding n d p : uses 0 (fun r => r = _set_padding n d p) (t_set_padding n d p).
  Proof using HF.
    unfold t_set_padding, _set_padding. apply uses_step; [discriminate|]. apply uses_if; [discriminate| |].
    - intros ->. unfold t_set_pad_mode_1. apply uses_step; [discriminate|]. eapply uses_skip; [apply uses_pad_size|]. intros ? ->. now apply uses_ret.
    - intros ->. apply uses_if; [discriminate| |]; intros ->; [|now apply uses_ret]. unfold t_set_pad_mode_2. apply uses_step; [discriminate|]. eapply uses_skip; [apply uses_pad_size|]. intros ? ->. now apply uses_ret.
  Qed.
  Lemma uses_padding_encrypt d o : uses 0 (fun r => r = _set_padding (block_size o) d (o_pad_mode o)) (t_padding_encrypt d o).
  Proof using HF. unfold t_padding_encrypt. apply uses_step; [discriminate|]. eapply uses_skip; [apply uses_plain|]. intros ? ->. apply uses_padding. Qed.
  Lemma uses_set_iv d o R : reg o R -> block (o_cipher o) d -> uses 0 (fun p => o_cipher p = o_cipher o /\ exists R', reg p R') (t_set_init_vect d o).
  Proof using HF.
    intros HR Hd. destruct (set_init_vect_ok o R d HR Hd) as [E K]. apply (uses_quiet _ _ (set_iv o (concat (tl R ++ [d])))); [|rewrite erase_set_iv; unfold ends; rewrite E; reflexivity | split; [reflexivity | eexists; exact K]].
    unfold t_set_init_vect. unfold bindT. cbn [step fst snd app retT flat_map]. rewrite HF by discriminate. reflexivity.
  Qed.
  Lemma uses_get fl line operand l i : fl <> FCipher -> 0 <= i < len l -> uses 0 (fun _ => True) (t_get fl line operand l i).
  Proof using HF. intros HE Hi. unfold t_get. apply uses_step; [exact HE|]. apply (uses_quiet _ _ (nth (Z.to_nat i) l 0)); [reflexivity | rewrite (py_get_nth l i 0) by exact Hi; reflexivity | exact I]. Qed.
  Lemma uses_inc_ctr n ctr : 0 < n -> len ctr = n -> uses 0 (fun _ => True) (t_inc_ctr n ctr).
  Proof using HF.
    intros Hn L. unfold t_inc_ctr. apply uses_step; [discriminate|]. assert (LZ : len (py_repeat 0 n) = n) by (unfold py_repeat, len; rewrite repeat_length; lia). eapply uses_skip with (Q := fun b => len b = n).
    - assert (B1 : byte_ok 1) by (unfold byte_ok; lia). rewrite (py_set_ok _ _ 1) by (try exact B1; lia). eapply uses_quiet; [reflexivity | reflexivity|]. unfold len in *. now rewrite upd_length.
    - intros b LB. eapply uses_skip with (Q := fun s => len (snd s) = n); [|intros [x y] _; now apply uses_ret]. rewrite <- (Nat.mul_0_r (List.length (py_range 0 n 1))). apply uses_for; [discriminate | exact L|].
      intros i [x y] Hi HL. cbn [snd] in HL. apply in_py_range in Hi. cbn [t_inc_ctr_body]. eapply uses_skip; [apply uses_get; [discriminate | lia]|]. intros u _. eapply uses_skip; [apply uses_get; [discriminate | lia]|]. intros v _. cbv zeta.
      eapply uses_skip with (Q := fun s => len s = n); [|intros w Hw; now apply uses_ret]. rewrite !py_set_ok by (try apply land_byte; lia). eapply uses_quiet; [reflexivity | reflexivity|]. unfold len in *. now rewrite upd_length.
  Qed.
  Context (Hop : forall b, block c b -> exists r, snd (op b) = Returns r /\ block c r).
  Lemma uses_op b : block c b -> uses 1 (block c) (op b).
  Proof using Hop. intros Hb. destruct (Hop b Hb) as (r & E & Hr). exists [b]. split; [reflexivity|]. split; [constructor; [exact Hb | constructor]|]. split; [cbn [map concat]; now rewrite app_nil_r|]. exists r. split; assumption. Qed.
End Use.

Lemma range_length n : List.length (py_range 0 n 1) = Z.to_nat n.
Proof. rewrite py_range_up_from, map_length, seq_length. lia. Qed.
Definition rest_of (n : Z) (d : bytes) : nat := if len d mod n =? 0 then 0%nat else 1%nat.
(** The number of whole blocks in a string, and of blocks with the last, shorter piece. *)
Definition whole_of (n : Z) (d : bytes) : nat := Z.to_nat (len d / n).
Definition pieces_of (n : Z) (d : bytes) : nat := (whole_of n d + rest_of n d)%nat.

Section Modes.
  Context {X : Type} (f : event -> list X) (HF : cipher_only f) (o : mode_obj) (Hc : co_ok (o_cipher o)).
  Notation c := (o_cipher o).
  Notation E := (t_co_encrypt c).
  Notation D := (t_co_decrypt c).
  Lemma E_op b : block c b -> exists r, snd (E b) = Returns r /\ block c r.
  Proof using Hc. intros Hb. destruct (co_enc c b Hc Hb) as [K Kb]. exists (oE c b). rewrite erase_co_encrypt, K. split; [reflexivity | exact Kb]. Qed.
  Lemma D_op b : block c b -> exists r, snd (D b) = Returns r /\ block c r.
  Proof using Hc. intros Hb. destruct (co_dec c b Hc Hb) as [K Kb]. exists (oD c b). rewrite erase_co_decrypt, K. split; [reflexivity | exact Kb]. Qed.
  Lemma get_in d i : bytes_ok d -> In i (py_range 0 (len d / block_size o) 1) -> block c (_get_block (block_size o) d i).
  Proof using. intros Hd Hi. apply in_py_range in Hi. apply get_block_len; [apply bs_pos | exact Hd | exact Hi]. Qed.
  Lemma times_1 d : (List.length (py_range 0 (len d / block_size o) 1) * 1)%nat = whole_of (block_size o) d.
  Proof using. rewrite Nat.mul_1_r. apply range_length. Qed.

  Lemma use_ecb_encrypt d : bytes_ok (_set_padding (block_size o) d (o_pad_mode o)) -> uses f c E (whole_of (block_size o) (_set_padding (block_size o) d (o_pad_mode o))) (fun _ => True) (t_ecb_encrypt d o).
  Proof using All.
    intros Hd. unfold t_ecb_encrypt. apply uses_step; [exact HF | discriminate|]. eapply uses_skip; [now apply uses_padding_encrypt|]. intros m ->. eapply uses_skip; [now apply uses_num|]. intros n ->. rewrite <- (Nat.add_0_r (whole_of _ _)).
    eapply uses_bind with (Q := fun _ => True); [|intros; now apply uses_ret]. rewrite <- times_1. apply uses_for; [exact HF | discriminate | exact I|]. intros i r Hi _. unfold t_ecb_encrypt_body. eapply uses_skip; [now apply uses_block|]. intros b ->.
    change 1%nat with (1 + 0)%nat. eapply uses_bind; [apply uses_op; [exact E_op | now apply get_in]|]. intros; now apply uses_ret.
  Qed.
  Lemma use_ecb_decrypt d : bytes_ok d -> uses f c D (whole_of (block_size o) d) (fun _ => True) (t_ecb_decrypt d o).
  Proof using All.
    intros Hd. unfold t_ecb_decrypt. apply uses_step; [exact HF | discriminate|]. eapply uses_skip; [unfold t_padding_decrypt; apply uses_step; [exact HF | discriminate | now apply uses_cipher]|]. intros m ->. eapply uses_skip; [now apply uses_num|]. intros n ->. rewrite <- (Nat.add_0_r (whole_of _ _)).
    eapply uses_bind with (Q := fun _ => True); [|intros; now apply uses_ret]. rewrite <- times_1. apply uses_for; [exact HF | discriminate | exact I|]. intros i r Hi _. unfold t_ecb_decrypt_body. eapply uses_skip; [now apply uses_block|]. intros b ->.
    change 1%nat with (1 + 0)%nat. eapply uses_bind; [apply uses_op; [exact D_op | now apply get_in]|]. intros; now apply uses_ret.
  Qed.

  Definition fed1 (s : bytes * mode_obj) : Prop := o_cipher (snd s) = c /\ exists R, reg (snd s) R.
  Lemma fed1_slice r p : fed1 (r, p) -> block c (py_slice (o_init_vect p) 0 (block_size o)).
  Proof using. intros [K [R HR]]. cbn [snd] in *. unfold block_size. rewrite <- K. pose proof (reg_slice p R HR) as ES. unfold block_size in ES. rewrite ES. now apply reg_hd. Qed.
  Lemma fed1_set op r p b x : fed1 (r, p) -> block c b -> uses f c op 0 fed1 (do self := t_set_init_vect b p in retT (x, self)).
  Proof using HF. intros [K [R HR]] Hb. cbn [snd] in *. eapply uses_skip; [apply (uses_set_iv f HF c op b p R HR); rewrite K; exact Hb|]. intros q [Kq HQ]. apply uses_ret. split; [cbn [snd]; congruence | exact HQ]. Qed.
  Lemma use_gamma r p : fed1 (r, p) -> uses f c E 1 (block c) (t_get_gamma p).
  Proof using All. intros H. unfold t_get_gamma. apply uses_step; [exact HF | discriminate|]. pose proof (fed1_slice _ _ H) as HB. destruct H as [K _]. cbn [snd] in K. unfold block_size in *. rewrite K. apply uses_op; [exact E_op | exact HB]. Qed.
  Lemma use_cbc_encrypt d : (exists R, reg o R) -> bytes_ok (_set_padding (block_size o) d (o_pad_mode o)) -> uses f c E (whole_of (block_size o) (_set_padding (block_size o) d (o_pad_mode o))) (fun _ => True) (t_cbc_encrypt d o).
  Proof using All.
    intros HR Hd. unfold t_cbc_encrypt. apply uses_step; [exact HF | discriminate|]. eapply uses_skip; [now apply uses_padding_encrypt|]. intros m ->. eapply uses_skip; [now apply uses_num|]. intros n ->.
    eapply uses_weaken; [|intros; exact I]. rewrite <- times_1. apply uses_for with (Q := fed1); [exact HF | discriminate | split; [reflexivity | exact HR]|]. intros i [r p] Hi Hp. cbn [t_cbc_encrypt_body]. eapply uses_skip; [now apply uses_block|]. intros b ->.
    eapply uses_skip; [now apply uses_xor|]. intros x ->. change 1%nat with (1 + 0)%nat. pose proof Hp as [K _]. cbn [snd] in K. rewrite K. eapply uses_bind; [apply uses_op; [exact E_op | apply xor_block; [exact (fed1_slice _ _ Hp) | now apply get_in]]|]. intros e He. apply (fed1_set _ r p); [exact Hp|].
    unfold block_size. rewrite (slice_block c e He). exact He.
  Qed.
  Lemma use_cbc_decrypt d : (exists R, reg o R) -> bytes_ok d -> uses f c D (whole_of (block_size o) d) (fun _ => True) (t_cbc_decrypt d o).
  Proof using All.
    intros HR Hd. unfold t_cbc_decrypt. apply uses_step; [exact HF | discriminate|]. eapply uses_skip; [unfold t_padding_decrypt; apply uses_step; [exact HF | discriminate | now apply uses_cipher]|]. intros m ->. eapply uses_skip; [now apply uses_num|]. intros n ->.
    eapply uses_weaken; [|intros; exact I]. rewrite <- times_1. apply uses_for with (Q := fed1); [exact HF | discriminate | split; [reflexivity | exact HR]|]. intros i [r p] Hi Hp. cbn [t_cbc_decrypt_body]. eapply uses_skip; [now apply uses_block|]. intros b ->.
    change 1%nat with (1 + 0)%nat. pose proof Hp as [K _]. cbn [snd] in K. rewrite K. eapply uses_bind; [apply uses_op; [exact D_op | now apply get_in]|]. intros e He. eapply uses_skip; [now apply uses_xor|]. intros x _. eapply uses_skip; [now apply uses_block|]. intros b ->.
    apply (fed1_set _ r p); [exact Hp | now apply get_in].
  Qed.
  Lemma use_rest line d s : fed1 s -> uses f c E (rest_of (block_size o) d) (fun _ => True) (t_rest line (block_size o) d s).
  Proof using All.
    destruct s as [r p]. intros Hp. unfold t_rest, rest_of. destruct (len d mod block_size o =? 0).
    - apply uses_if; [exact HF | discriminate | intros K; discriminate K|]. intros _. now apply uses_ret.
    - apply uses_if; [exact HF | discriminate | | intros K; discriminate K]. intros _. change 1%nat with (1 + 0)%nat. eapply uses_bind with (Q := fun _ => True); [|intros; now apply uses_ret]. unfold t_final_cipher. apply uses_step; [exact HF | discriminate|].
      change 1%nat with (1 + 0)%nat. eapply uses_bind; [exact (use_gamma _ _ Hp)|]. intros g Hg. eapply uses_skip with (Q := fun _ => True).
      + unfold t_get_final_block. apply uses_step; [exact HF | discriminate|]. eapply uses_skip; [now apply uses_num|]. intros; now apply uses_ret.
      + intros x _. eapply uses_weaken; [now apply uses_xor | intros; exact I].
  Qed.
  Lemma use_cfb_encrypt d : (exists R, reg o R) -> bytes_ok d -> uses f c E (pieces_of (block_size o) d) (fun _ => True) (t_cfb_encrypt d o).
  Proof using All.
    intros HR Hd. unfold t_cfb_encrypt. apply uses_step; [exact HF | discriminate|]. eapply uses_skip; [unfold t_feedback_encrypt; apply uses_step; [exact HF | discriminate | now apply uses_plain]|]. intros m ->. eapply uses_skip; [now apply uses_num|]. intros n ->.
    unfold pieces_of. eapply uses_bind; [|intros s Hs; apply (use_rest 708 d s Hs)]. rewrite <- times_1. apply uses_for; [exact HF | discriminate | split; [reflexivity | exact HR]|]. intros i [r p] Hi Hp. cbn [t_cfb_encrypt_body].
    change 1%nat with (1 + 0)%nat. eapply uses_bind; [exact (use_gamma _ _ Hp)|]. intros g Hg. eapply uses_skip; [now apply uses_block|]. intros b ->. eapply uses_skip; [now apply uses_xor|]. intros x ->. apply (fed1_set _ r p); [exact Hp|].
    pose proof (xor_block c _ _ Hg (get_in d i Hd Hi)) as HX. unfold block_size in *. rewrite (slice_block c _ HX). exact HX.
  Qed.
  Lemma use_cfb_decrypt d : (exists R, reg o R) -> bytes_ok d -> uses f c E (pieces_of (block_size o) d) (fun _ => True) (t_cfb_decrypt d o).
  Proof using All.
    intros HR Hd. unfold t_cfb_decrypt. apply uses_step; [exact HF | discriminate|]. eapply uses_skip; [unfold t_feedback_decrypt; apply uses_step; [exact HF | discriminate | now apply uses_cipher]|]. intros m ->. eapply uses_skip; [now apply uses_num|]. intros n ->.
    unfold pieces_of. eapply uses_bind; [|intros s Hs; apply (use_rest 734 d s Hs)]. rewrite <- times_1. apply uses_for; [exact HF | discriminate | split; [reflexivity | exact HR]|]. intros i [r p] Hi Hp. cbn [t_cfb_decrypt_body].
    change 1%nat with (1 + 0)%nat. eapply uses_bind; [exact (use_gamma _ _ Hp)|]. intros g Hg. eapply uses_skip; [now apply uses_block|]. intros b ->. eapply uses_skip; [now apply uses_xor|]. intros x ->. apply (fed1_set _ r p); [exact Hp | now apply get_in].
  Qed.
  Lemma use_ofb_encrypt d : (exists R, reg o R) -> bytes_ok d -> uses f c E (pieces_of (block_size o) d) (fun _ => True) (t_ofb_encrypt d o).
  Proof using All.
    intros HR Hd. unfold t_ofb_encrypt. apply uses_step; [exact HF | discriminate|]. eapply uses_skip; [unfold t_feedback_encrypt; apply uses_step; [exact HF | discriminate | now apply uses_plain]|]. intros m ->. eapply uses_skip; [now apply uses_num|]. intros n ->.
    unfold pieces_of. eapply uses_bind; [|intros s Hs; apply (use_rest 780 d s Hs)]. rewrite <- times_1. apply uses_for; [exact HF | discriminate | split; [reflexivity | exact HR]|]. intros i [r p] Hi Hp. cbn [t_ofb_body].
    change 1%nat with (1 + 0)%nat. eapply uses_bind; [exact (use_gamma _ _ Hp)|]. intros g Hg. eapply uses_skip; [now apply uses_block|]. intros b ->. eapply uses_skip; [now apply uses_xor|]. intros x ->. apply (fed1_set _ r p); [exact Hp|].
    unfold block_size. rewrite (slice_block c g Hg). exact Hg.
  Qed.
  Lemma use_ofb_decrypt d : (exists R, reg o R) -> bytes_ok d -> uses f c E (pieces_of (block_size o) d) (fun _ => True) (t_ofb_decrypt d o).
  Proof using All.
    intros HR Hd. unfold t_ofb_decrypt. apply uses_step; [exact HF | discriminate|]. eapply uses_skip; [unfold t_feedback_decrypt; apply uses_step; [exact HF | discriminate | now apply uses_cipher]|]. intros _ _. now apply use_ofb_encrypt.
  Qed.
  Definition counted1 (p : mode_obj) : Prop := o_cipher p = c /\ block c (o_counter p).
  Lemma use_ctr_step p : counted1 p -> uses f c E 1 (fun s => block c (fst s) /\ counted1 (snd s)) (t_ctr_step p).
  Proof using All.
    intros [K HC]. unfold t_ctr_step. unfold block_size. rewrite K. change 1%nat with (1 + 0)%nat. eapply uses_bind; [apply uses_op; [exact E_op | exact HC]|]. intros g Hg.
    eapply uses_skip with (Q := block c); [|intros x Hx; apply uses_ret; split; [exact Hg | split; [exact K | exact Hx]]].
    destruct (uses_inc_ctr f HF c E (bs c) (o_counter p) (bs_pos c) (proj1 HC)) as (bl & L & HB & EQ & a & Ea & _). exists bl. split; [exact L|]. split; [exact HB|]. split; [exact EQ|]. exists (ctr_next (o_counter p) 1). rewrite erase_inc_ctr, (inc_ctr_ok c _ HC). split; [reflexivity | now apply ctr_next_block].
  Qed.
  Lemma use_ctr_encrypt d : block c (o_counter o) -> bytes_ok d -> uses f c E (pieces_of (block_size o) d) (fun _ => True) (t_ctr_encrypt d o).
  Proof using All.
    intros HC Hd. unfold t_ctr_encrypt. apply uses_step; [exact HF | discriminate|]. eapply uses_skip; [now apply uses_plain|]. intros m ->. eapply uses_skip; [now apply uses_num|]. intros n ->. unfold pieces_of. eapply uses_bind with (Q := fun s => counted1 (snd s)).
    - rewrite <- times_1. apply uses_for; [exact HF | discriminate | split; [reflexivity | exact HC]|]. intros i [r p] Hi Hp. cbn [snd] in Hp. cbn [t_ctr_body]. change 1%nat with (1 + 0)%nat. eapply uses_bind; [exact (use_ctr_step p Hp)|]. intros [g q] [Hg Hq]. cbn [fst snd] in *.
      eapply uses_skip; [now apply uses_block|]. intros b _. eapply uses_skip; [now apply uses_xor|]. intros x _. apply uses_ret. exact Hq.
    - intros [r p] Hp. cbn [snd] in Hp. cbn [t_ctr_rest]. unfold rest_of. destruct (len d mod block_size o =? 0).
      + apply uses_if; [exact HF | discriminate | intros K; discriminate K|]. intros _. now apply uses_ret.
      + apply uses_if; [exact HF | discriminate | | intros K; discriminate K]. intros _. change 1%nat with (1 + 0)%nat. eapply uses_bind; [exact (use_ctr_step p Hp)|]. intros [g q] _. eapply uses_skip; [now apply uses_num|]. intros n _. eapply uses_skip; [now apply uses_xor|]. intros x _. now apply uses_ret.
  Qed.
  Lemma use_ctr_decrypt d : block c (o_counter o) -> bytes_ok d -> uses f c E (pieces_of (block_size o) d) (fun _ => True) (t_ctr_decrypt d o).
  Proof using All. intros HC Hd. unfold t_ctr_decrypt. apply uses_step; [exact HF | discriminate|]. eapply uses_skip; [now apply uses_cipher|]. intros m ->. now apply use_ctr_encrypt. Qed.
End Modes.
