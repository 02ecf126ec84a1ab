(** * The flow of control of the modes depends on lengths only. *)
From Verif Require Import PyBase PyState PyFacts PyLoop Utils UtilsFacts CipherTables CipherObj Modes SpecKuznechik SpecMagma SpecModes Kuznechik Magma KuzFacts KuzFacts2 MagmaFacts CipherLemmas CipherObjFacts ModeFacts CtrFacts MacFacts.
From Verif Require Import SpecTrace Trace TraceLemmas TraceFacts TraceCipher TraceCipherFacts TraceCipher2 TraceCipher2Facts PropTrace2 PropTrace3 TraceHashErase TraceHashFlow TracePbkdfFacts TraceModes TraceModesErase.
Open Scope string_scope.
Open Scope list_scope.
Open Scope Z_scope.

(** A block cipher object that was not cleared. *)
Definition cm (c : cipher_obj) : Prop :=
  match c with KuzObj ks => List.length ks = 10%nat /\ Forall (bytes_len 16) ks | MagmaObj ks => List.length ks = 32%nat /\ Forall (bytes_len 4) ks end.
Lemma cm_ok c : cm c -> co_ok c.
Proof.
  destruct c as [ks|ks]; intros [L HF]; (split; [exact L|]); eapply Forall_impl; [|exact HF| |exact HF]; intros b [Hl Hb]; split; [exact Hb | lia | exact Hb | lia].
Qed.
Definition cm2 (c c' : cipher_obj) : Prop := cm c /\ cm c' /\ co_alg c = co_alg c'.
Definition bk2 (c c' : cipher_obj) (b b' : bytes) : Prop := block c b /\ block c' b'.

Lemma split_last {A} (n : nat) (l : list A) : List.length l = S n -> exists l' x, l = l' ++ [x] /\ List.length l' = n.
Proof. intros L. destruct (@exists_last A l) as (l' & x & E); [intros E; rewrite E in L; discriminate L|]. exists l', x. split; [exact E|]. rewrite E, app_length in L. cbn [List.length] in L. lia. Qed.
Lemma shape_encrypt c c' b b' : cm2 c c' -> bk2 c c' b b' -> map shape (fst (t_co_encrypt c b)) = map shape (fst (t_co_encrypt c' b')).
Proof.
  intros (H & H' & EA) [Hb Hb']. destruct c as [ks|ks], c' as [ks'|ks']; try discriminate EA; destruct H as [L HF], H' as [L' HF']; cbn [t_co_encrypt]; rewrite <- !flat_single.
  - destruct (split_last 9 ks L) as (l & k9 & EL & LL), (split_last 9 ks' L') as (l' & k9' & EL' & LL').
    destruct (emits_kuz _ (blind_460 _ shape_blind) ks l k9 b EL LL HF Hb) as [-> _]. destruct (emits_kuz _ (blind_460 _ shape_blind) ks' l' k9' b' EL' LL' HF' Hb') as [-> _]. f_equal. f_equal. apply rounds_emits_blind; [apply shape_blind | lia].
  - destruct ks as [|k0 ks]; [discriminate L|]. destruct ks' as [|k0' ks']; [discriminate L'|]. destruct (split_last 30 ks) as (l & k & -> & LL); [cbn [List.length] in L; lia|]. destruct (split_last 30 ks') as (l' & k' & -> & LL'); [cbn [List.length] in L'; lia|].
    destruct (emits_magma (fun e => [shape e]) _ _ _ _ b eq_refl LL HF Hb) as (v & -> & _). destruct (emits_magma (fun e => [shape e]) _ _ _ _ b' eq_refl LL' HF' Hb') as (v' & -> & _).
    f_equal. f_equal. rewrite (mround_emits_blind _ 704 ((snd (mpair b) + wint k0) mod 2 ^ 32) ((snd (mpair b') + wint k0') mod 2 ^ 32) shape_blind), (mround_emits_blind _ 711 v v' shape_blind). f_equal. f_equal. apply mrounds_emits_blind; [apply shape_blind|]. rewrite !map_length. lia.
Qed.
Lemma shape_decrypt c c' b b' : cm2 c c' -> bk2 c c' b b' -> map shape (fst (t_co_decrypt c b)) = map shape (fst (t_co_decrypt c' b')).
Proof.
  intros (H & H' & EA) [Hb Hb']. destruct c as [ks|ks], c' as [ks'|ks']; try discriminate EA; destruct H as [L HF], H' as [L' HF']; cbn [t_co_decrypt]; rewrite <- !flat_single.
  - destruct (emits_kuz_dec _ (blind_467 _ shape_blind) ks b L HF Hb) as [-> _]. destruct (emits_kuz_dec _ (blind_467 _ shape_blind) ks' b' L' HF' Hb') as [-> _]. apply dec_blind, shape_blind.
  - destruct (emits_magma_dec (fun e => [shape e]) ks b L HF Hb) as (v & -> & _). destruct (emits_magma_dec (fun e => [shape e]) ks' b' L' HF' Hb') as (v' & -> & _). apply mdec_blind, shape_blind.
Qed.
Lemma same_encrypt c c' b b' : cm2 c c' -> bk2 c c' b b' -> same (bk2 c c') (t_co_encrypt c b) (t_co_encrypt c' b').
Proof.
  intros H HB. split; [now apply shape_encrypt|]. destruct H as (H & H' & _), HB as [Hb Hb']. destruct (co_enc c b (cm_ok c H) Hb) as [E K], (co_enc c' b' (cm_ok c' H') Hb') as [E' K'].
  exists (oE c b), (oE c' b'). rewrite !erase_co_encrypt, E, E'. split; [reflexivity|]. split; [reflexivity | split; assumption].
Qed.
Lemma same_decrypt c c' b b' : cm2 c c' -> bk2 c c' b b' -> same (bk2 c c') (t_co_decrypt c b) (t_co_decrypt c' b').
Proof.
  intros H HB. split; [now apply shape_decrypt|]. destruct H as (H & H' & _), HB as [Hb Hb']. destruct (co_dec c b (cm_ok c H) Hb) as [E K], (co_dec c' b' (cm_ok c' H') Hb') as [E' K'].
  exists (oD c b), (oD c' b'). rewrite !erase_co_decrypt, E, E'. split; [reflexivity|]. split; [reflexivity | split; assumption].
Qed.
Lemma same_weaken {A B} (R Q : A -> B -> Prop) c c' : same R c c' -> (forall a b, R a b -> Q a b) -> same Q c c'.
Proof. intros [E (a & b & Ea & Eb & H)] HQ. split; [exact E|]. exists a, b. split; [exact Ea|]. split; [exact Eb | now apply HQ]. Qed.
Lemma bs2 c c' : co_alg c = co_alg c' -> bs c = bs c'.
Proof. intros E. rewrite !bs_alg, E. reflexivity. Qed.
Lemma same_xor2 c c' a b a' b' : co_alg c = co_alg c' -> bk2 c c' a a' -> bk2 c c' b b' -> same (bk2 c c') (t_add_xor a b) (t_add_xor a' b').
Proof.
  intros EA [Ha Ha'] [Hb Hb']. pose proof (bs2 c c' EA) as EB. destruct (same_xor a b a' b') as [E (x & y & Ex & Ey & -> & ->)]; [destruct Ha, Ha'; congruence | destruct Hb, Hb'; congruence|]. split; [exact E|]. do 2 eexists.
  split; [exact Ex|]. split; [exact Ey|]. split; now apply xor_block.
Qed.
Lemma get_block_len n d i : 0 < n -> bytes_ok d -> 0 <= i < len d / n -> bytes_len n (_get_block n d i).
Proof.
  intros Hn Hd Hi. pose proof (Z.mul_div_le (len d) n Hn). unfold _get_block. rewrite py_slice_mid by nia. split; [|apply bytes_ok_firstn, bytes_ok_skipn, Hd]. unfold len in *. rewrite firstn_length, skipn_length. nia.
Qed.
Lemma same_block c c' d d' i : co_alg c = co_alg c' -> pair_ok d d' -> In i (py_range 0 (len d / bs c) 1) -> same (bk2 c c') (t_get_block (bs c) d i) (t_get_block (bs c') d' i).
Proof.
  intros EA (L & Hd & Hd') Hi. apply in_py_range in Hi. pose proof (bs2 c c' EA) as EB. pose proof (bs_pos c). assert (EL : len d = len d') by (unfold len; lia). unfold t_get_block. apply same_at_. apply same_ret. split; [now apply get_block_len|]. unfold block. rewrite <- EB. apply get_block_len; [assumption | exact Hd' | rewrite <- EL; exact Hi].
Qed.
Lemma same_num c c' d d' : co_alg c = co_alg c' -> pair_ok d d' -> same (fun n n' => n = len d / bs c /\ n' = n) (t_get_num_block (bs c) d) (t_get_num_block (bs c') d').
Proof. intros EA (L & _). unfold t_get_num_block. apply same_at_. apply same_ret. rewrite (bs2 c c' EA). split; [reflexivity|]. unfold len. now rewrite L. Qed.

Record kin (o o' : mode_obj) : Prop := { kin_c : cm2 (o_cipher o) (o_cipher o'); kin_pad : o_pad_mode o = o_pad_mode o' }.
Definition reg2 (o o' : mode_obj) : Prop := (exists R, reg o R) /\ (exists R, reg o' R).
Lemma kin_alg o o' : kin o o' -> co_alg (o_cipher o) = co_alg (o_cipher o').
Proof. intros [(_ & _ & E) _]. exact E. Qed.
Lemma kin_bs o o' : kin o o' -> block_size o = block_size o'.
Proof. intros H. apply bs2, kin_alg, H. Qed.
Definition fed (o o' : mode_obj) (s s' : bytes * mode_obj) : Prop := o_cipher (snd s) = o_cipher o /\ o_cipher (snd s') = o_cipher o' /\ reg2 (snd s) (snd s').
Lemma reg2_slice o o' : reg2 o o' -> bk2 (o_cipher o) (o_cipher o') (py_slice (o_init_vect o) 0 (block_size o)) (py_slice (o_init_vect o') 0 (block_size o')).
Proof. intros [[R HR] [R' HR']]. rewrite (reg_slice o R HR), (reg_slice o' R' HR'). split; [now apply reg_hd | now apply reg_hd]. Qed.
Lemma same_set_iv o o' d d' : reg2 o o' -> bk2 (o_cipher o) (o_cipher o') d d' -> same (fun p p' => o_cipher p = o_cipher o /\ o_cipher p' = o_cipher o' /\ reg2 p p') (t_set_init_vect d o) (t_set_init_vect d' o').
Proof.
  intros [[R HR] [R' HR']] [Hd Hd']. split; [reflexivity|]. destruct (set_init_vect_ok o R d HR Hd) as [E K]. destruct (set_init_vect_ok o' R' d' HR' Hd') as [E' K'].
  exists (set_iv o (concat (tl R ++ [d]))), (set_iv o' (concat (tl R' ++ [d']))). rewrite !erase_set_iv. unfold ends. rewrite E, E'. split; [reflexivity|]. split; [reflexivity|]. split; [reflexivity|]. split; [reflexivity|]. split; eexists; [exact K | exact K'].
Qed.
Lemma slice_block c b : block c b -> py_slice b 0 (bs c) = b.
Proof. intros [L _]. pose proof (bs_pos c). rewrite py_slice_mid by lia. change (Z.to_nat 0) with 0%nat. cbn [skipn]. apply firstn_all2. unfold len in L. lia. Qed.
Lemma same_gamma o o' : kin o o' -> forall s s', fed o o' s s' -> same (bk2 (o_cipher o) (o_cipher o')) (t_get_gamma (snd s)) (t_get_gamma (snd s')).
Proof.
  intros K [r p] [r' p'] (E & E' & HR). cbn [snd] in *. unfold t_get_gamma. apply same_at_. pose proof (reg2_slice _ _ HR) as HB. rewrite E, E' in HB |- *. apply same_encrypt; [apply K | exact HB].
Qed.
Lemma same_pad_size bs bs' d d' : bs = bs' -> pair_ok d d' -> same eq (t_get_pad_size bs d) (t_get_pad_size bs' d').
Proof.
  intros <- (L & _). assert (EL : len d' = len d) by (unfold len; lia). unfold t_get_pad_size. rewrite EL. apply same_at_. apply same_if; [reflexivity | intros _; now apply same_ret|]. intros _. apply same_if; [reflexivity | intros _; now apply same_ret | intros _; now apply same_ret].
Qed.
Lemma pair_padded d d' l : pair_ok d d' -> bytes_ok l -> pair_ok (d ++ l) (d' ++ l).
Proof. intros (L & H & H') Hl. split; [rewrite !app_length, L; reflexivity|]. split; apply bytes_ok_app; split; assumption. Qed.
Lemma same_padding bs bs' d d' p : bs = bs' -> pair_ok d d' -> same pair_ok (t_set_padding bs d p) (t_set_padding bs' d' p).
Proof.
  intros EB H. unfold t_set_padding. apply same_at_. apply same_if; [reflexivity| |].
  - intros _. unfold t_set_pad_mode_1. apply same_at_. eapply same_bind; [now apply same_pad_size|]. intros n n' <-. apply same_ret, pair_padded; [exact H | apply zeros_ok].
  - intros _. apply same_if; [reflexivity| |].
    + intros _. unfold t_set_pad_mode_2. apply same_at_. eapply same_bind; [now apply same_pad_size|]. intros n n' <-. rewrite <- EB. apply same_ret, pair_padded; [exact H|]. apply bytes_ok_app. split; [|apply zeros_ok]. constructor; [unfold byte_ok; lia | constructor].
    + intros _. now apply same_ret.
Qed.
Lemma same_padding_encrypt o o' d d' : kin o o' -> pair_ok d d' -> same pair_ok (t_padding_encrypt d o) (t_padding_encrypt d' o').
Proof.
  intros K H. unfold t_padding_encrypt. apply same_at_. eapply same_bind with (R := pair_ok); [unfold t_check_plaintext; apply same_at_, same_at_, same_ret, H|]. intros m m' Hm. rewrite <- (kin_pad _ _ K). apply same_padding; [now apply kin_bs | exact Hm].
Qed.
Lemma same_plain d d' : pair_ok d d' -> same pair_ok (t_check_plaintext d) (t_check_plaintext d').
Proof. intros H. unfold t_check_plaintext. apply same_at_, same_at_, same_ret, H. Qed.
Lemma same_cipher d d' : pair_ok d d' -> same pair_ok (t_check_ciphertext d) (t_check_ciphertext d').
Proof. intros H. unfold t_check_ciphertext. apply same_at_, same_at_, same_ret, H. Qed.

(** ** ECB *)
Lemma flow_ecb_encrypt o o' d d' : kin o o' -> pair_ok d d' -> same any (t_ecb_encrypt d o) (t_ecb_encrypt d' o').
Proof.
  intros K H. pose proof (kin_alg _ _ K) as EA. unfold t_ecb_encrypt. apply same_at_. eapply same_bind; [now apply same_padding_encrypt|]. intros m m' Hm. eapply same_bind; [apply same_num; [exact EA | exact Hm]|]. intros n n' [-> ->].
  eapply same_bind with (R := any); [|intros; now apply same_ret]. apply same_for; [exact I|]. intros i r r' Hi _. unfold t_ecb_encrypt_body. eapply same_bind; [apply same_block; [exact EA | exact Hm | exact Hi]|]. intros b b' Hb.
  eapply same_bind; [apply same_encrypt; [apply K | exact Hb]|]. intros e e' He. now apply same_ret.
Qed.
Lemma flow_ecb_decrypt o o' d d' : kin o o' -> pair_ok d d' -> same any (t_ecb_decrypt d o) (t_ecb_decrypt d' o').
Proof.
  intros K H. pose proof (kin_alg _ _ K) as EA. unfold t_ecb_decrypt. apply same_at_. eapply same_bind; [unfold t_padding_decrypt; apply same_at_, same_cipher, H|]. intros m m' Hm. eapply same_bind; [apply same_num; [exact EA | exact Hm]|]. intros n n' [-> ->].
  eapply same_bind with (R := any); [|intros; now apply same_ret]. apply same_for; [exact I|]. intros i r r' Hi _. unfold t_ecb_decrypt_body. eapply same_bind; [apply same_block; [exact EA | exact Hm | exact Hi]|]. intros b b' Hb.
  eapply same_bind; [apply same_decrypt; [apply K | exact Hb]|]. intros e e' He. now apply same_ret.
Qed.

(** ** CBC *)
Lemma fed_start o o' : reg2 o o' -> fed o o' ([], o) ([], o').
Proof. intros H. split; [reflexivity|]. split; [reflexivity | exact H]. Qed.
Lemma fed_slice o o' r p r' p' : fed o o' (r, p) (r', p') -> bk2 (o_cipher o) (o_cipher o') (py_slice (o_init_vect p) 0 (block_size o)) (py_slice (o_init_vect p') 0 (block_size o')).
Proof. intros (E & E' & HR). cbn [snd] in *. unfold block_size. rewrite <- E, <- E'. now apply reg2_slice. Qed.
Lemma fed_set o o' r p r' p' b b' x x' : fed o o' (r, p) (r', p') -> bk2 (o_cipher o) (o_cipher o') b b' -> same (fed o o') (do self := t_set_init_vect b p in retT (x, self)) (do self := t_set_init_vect b' p' in retT (x', self)).
Proof.
  intros (E & E' & HR) HB. cbn [snd] in *. rewrite <- E, <- E' in HB. eapply same_bind; [now apply same_set_iv|]. intros q q' (F & F' & HQ). apply same_ret. split; [cbn [snd]; congruence|]. split; [cbn [snd]; congruence | exact HQ].
Qed.
Lemma slice2 c c' b b' : bk2 c c' b b' -> bk2 c c' (py_slice b 0 (bs c)) (py_slice b' 0 (bs c')).
Proof. intros [H H']. rewrite (slice_block c b H), (slice_block c' b' H'). split; assumption. Qed.
Lemma flow_cbc_encrypt o o' d d' : kin o o' -> reg2 o o' -> pair_ok d d' -> same any (t_cbc_encrypt d o) (t_cbc_encrypt d' o').
Proof.
  intros K HR H. pose proof (kin_alg _ _ K) as EA. unfold t_cbc_encrypt. apply same_at_. eapply same_bind; [now apply same_padding_encrypt|]. intros m m' Hm. eapply same_bind; [apply same_num; [exact EA | exact Hm]|]. intros n n' [-> ->].
  eapply same_weaken; [|intros; exact I]. apply (same_for (fed o o')); [now apply fed_start|]. intros i [r p] [r' p'] Hi HF. cbn [t_cbc_encrypt_body]. eapply same_bind; [apply same_block; [exact EA | exact Hm | exact Hi]|]. intros b b' Hb.
  eapply same_bind; [apply same_xor2; [exact EA | exact (fed_slice _ _ _ _ _ _ HF) | exact Hb]|]. intros x x' Hx. pose proof HF as (E & E' & _). cbn [snd] in E, E'. rewrite E, E'. eapply same_bind; [apply same_encrypt; [apply K | exact Hx]|]. intros e e' He. apply (fed_set _ _ _ _ _ _ _ _ _ _ HF). now apply slice2.
Qed.
Lemma flow_cbc_decrypt o o' d d' : kin o o' -> reg2 o o' -> pair_ok d d' -> same any (t_cbc_decrypt d o) (t_cbc_decrypt d' o').
Proof.
  intros K HR H. pose proof (kin_alg _ _ K) as EA. unfold t_cbc_decrypt. apply same_at_. eapply same_bind; [unfold t_padding_decrypt; apply same_at_, same_cipher, H|]. intros m m' Hm. eapply same_bind; [apply same_num; [exact EA | exact Hm]|]. intros n n' [-> ->].
  eapply same_weaken; [|intros; exact I]. apply (same_for (fed o o')); [now apply fed_start|]. intros i [r p] [r' p'] Hi HF. cbn [t_cbc_decrypt_body]. eapply same_bind; [apply same_block; [exact EA | exact Hm | exact Hi]|]. intros b b' Hb.
  pose proof HF as (E & E' & _). cbn [snd] in E, E'. rewrite E, E'. eapply same_bind; [apply same_decrypt; [apply K | exact Hb]|]. intros x x' Hx. eapply same_bind; [apply same_xor2; [exact EA | exact (fed_slice _ _ _ _ _ _ HF) | exact Hx]|]. intros e e' He.
  eapply same_bind; [apply same_block; [exact EA | exact Hm | exact Hi]|]. intros b1 b1' Hb1. apply (fed_set _ _ _ _ _ _ _ _ _ _ HF). exact Hb1.
Qed.

(** ** CFB and OFB *)
Lemma final_pair bs d d' : pair_ok d d' -> len (_get_final_block bs d) = len (_get_final_block bs d').
Proof.
  intros (L & _). assert (EL : len d = len d') by (unfold len; lia). unfold _get_final_block, _get_num_block, py_from. rewrite <- EL. unfold len. rewrite !skipn_length. lia.
Qed.
Lemma same_rest line o o' d d' s s' : kin o o' -> pair_ok d d' -> fed o o' s s' -> same any (t_rest line (block_size o) d s) (t_rest line (block_size o') d' s').
Proof.
  intros K Hd HF. destruct s as [r p], s' as [r' p']. assert (EL : len d = len d') by (unfold len; destruct Hd; lia). unfold t_rest. rewrite <- (kin_bs _ _ K), <- EL. apply same_if; [reflexivity| |intros; now apply same_ret]. intros _. eapply same_bind with (R := any); [|intros; now apply same_ret].
  unfold t_final_cipher. apply same_at_. eapply same_bind; [exact (same_gamma _ _ K _ _ HF)|]. intros g g' [[Lg _] [Lg' _]]. pose proof HF as (E & E' & _). cbn [snd] in E, E'. assert (EB : block_size p' = block_size p) by (unfold block_size; rewrite E, E'; symmetry; apply (kin_bs _ _ K)).
  eapply same_bind with (R := fun x y => len x = len y).
  - unfold t_get_final_block. apply same_at_. rewrite EB. unfold t_get_num_block. eapply same_bind with (R := fun n n' => n = len d / block_size p /\ n' = len d' / block_size p); [apply same_at_; apply same_ret; split; reflexivity|]. intros n n' [-> ->]. apply same_ret. exact (final_pair (block_size p) d d' Hd).
  - intros x y Exy. eapply same_weaken; [apply same_xor; [rewrite Lg, Lg'; apply (kin_bs _ _ K) | exact Exy] | intros; exact I].
Qed.
Lemma flow_cfb_encrypt o o' d d' : kin o o' -> reg2 o o' -> pair_ok d d' -> same any (t_cfb_encrypt d o) (t_cfb_encrypt d' o').
Proof.
  intros K HR H. pose proof (kin_alg _ _ K) as EA. unfold t_cfb_encrypt. apply same_at_. eapply same_bind; [unfold t_feedback_encrypt; apply same_at_, same_plain, H|]. intros m m' Hm. eapply same_bind; [apply same_num; [exact EA | exact Hm]|]. intros n n' [-> ->].
  eapply same_bind; [|intros s s' HF; apply (same_rest 708 o o' m m' s s' K Hm HF)]. apply (same_for (fed o o')); [now apply fed_start|]. intros i [r p] [r' p'] Hi HF. cbn [t_cfb_encrypt_body]. eapply same_bind; [exact (same_gamma _ _ K _ _ HF)|]. intros g g' Hg.
  eapply same_bind; [apply same_block; [exact EA | exact Hm | exact Hi]|]. intros b b' Hb. eapply same_bind; [apply same_xor2; [exact EA | exact Hg | exact Hb]|]. intros x x' Hx. apply (fed_set _ _ _ _ _ _ _ _ _ _ HF). now apply slice2.
Qed.
Lemma flow_cfb_decrypt o o' d d' : kin o o' -> reg2 o o' -> pair_ok d d' -> same any (t_cfb_decrypt d o) (t_cfb_decrypt d' o').
Proof.
  intros K HR H. pose proof (kin_alg _ _ K) as EA. unfold t_cfb_decrypt. apply same_at_. eapply same_bind; [unfold t_feedback_decrypt; apply same_at_, same_cipher, H|]. intros m m' Hm. eapply same_bind; [apply same_num; [exact EA | exact Hm]|]. intros n n' [-> ->].
  eapply same_bind; [|intros s s' HF; apply (same_rest 734 o o' m m' s s' K Hm HF)]. apply (same_for (fed o o')); [now apply fed_start|]. intros i [r p] [r' p'] Hi HF. cbn [t_cfb_decrypt_body]. eapply same_bind; [exact (same_gamma _ _ K _ _ HF)|]. intros g g' Hg.
  eapply same_bind; [apply same_block; [exact EA | exact Hm | exact Hi]|]. intros b b' Hb. eapply same_bind; [apply same_xor2; [exact EA | exact Hg | exact Hb]|]. intros x x' Hx. apply (fed_set _ _ _ _ _ _ _ _ _ _ HF). exact Hb.
Qed.
Lemma flow_ofb_encrypt o o' d d' : kin o o' -> reg2 o o' -> pair_ok d d' -> same any (t_ofb_encrypt d o) (t_ofb_encrypt d' o').
Proof.
  intros K HR H. pose proof (kin_alg _ _ K) as EA. unfold t_ofb_encrypt. apply same_at_. eapply same_bind; [unfold t_feedback_encrypt; apply same_at_, same_plain, H|]. intros m m' Hm. eapply same_bind; [apply same_num; [exact EA | exact Hm]|]. intros n n' [-> ->].
  eapply same_bind; [|intros s s' HF; apply (same_rest 780 o o' m m' s s' K Hm HF)]. apply (same_for (fed o o')); [now apply fed_start|]. intros i [r p] [r' p'] Hi HF. cbn [t_ofb_body]. eapply same_bind; [exact (same_gamma _ _ K _ _ HF)|]. intros g g' Hg.
  eapply same_bind; [apply same_block; [exact EA | exact Hm | exact Hi]|]. intros b b' Hb. eapply same_bind; [apply same_xor2; [exact EA | exact Hg | exact Hb]|]. intros x x' Hx. apply (fed_set _ _ _ _ _ _ _ _ _ _ HF). now apply slice2.
Qed.
Lemma flow_ofb_decrypt o o' d d' : kin o o' -> reg2 o o' -> pair_ok d d' -> same any (t_ofb_decrypt d o) (t_ofb_decrypt d' o').
Proof.
  intros K HR H. unfold t_ofb_decrypt. apply same_at_. eapply same_bind; [unfold t_feedback_decrypt; apply same_at_, same_cipher, H|]. intros _ _ _. now apply flow_ofb_encrypt.
Qed.

(** ** CTR *)
Lemma same_get f line operand l l' i : 0 <= i < len l -> len l' = len l -> same any (t_get f line operand l i) (t_get f line operand l' i).
Proof.
  intros Hi EL. unfold t_get. apply same_at_. rewrite (py_get_nth l i 0) by lia. rewrite (py_get_nth l' i 0) by lia. split; [reflexivity|]. do 2 eexists. split; [reflexivity|]. split; [reflexivity | exact I].
Qed.
Lemma land_byte x : byte_ok (Z.land x 255).
Proof. unfold byte_ok. change 255 with (Z.ones 8). rewrite (Z.land_ones x 8) by lia. apply Z.mod_pos_bound. reflexivity. Qed.
Lemma shape_inc_ctr n ctr ctr' : 0 < n -> bytes_len n ctr -> bytes_len n ctr' -> map shape (fst (t_inc_ctr n ctr)) = map shape (fst (t_inc_ctr n ctr')).
Proof.
  intros Hn [L Hc] [L' Hc']. match goal with |- map shape (fst ?c) = map shape (fst ?d) => enough (HS : same any c d) by exact (proj1 HS) end. unfold t_inc_ctr. apply same_at_.
  assert (LZ : len (py_repeat 0 n) = n) by (unfold py_repeat, len; rewrite repeat_length; lia). eapply same_bind with (R := fun b b' => b' = b /\ len b = n).
  - assert (B1 : byte_ok 1) by (unfold byte_ok; lia). rewrite (py_set_ok _ _ 1) by (try exact B1; lia). split; [reflexivity|]. do 2 eexists. split; [reflexivity|]. split; [reflexivity|]. split; [reflexivity|]. unfold len in *. now rewrite upd_length.
  - intros b b' [-> LB]. eapply same_bind with (R := fun s s' => len (snd s) = n /\ len (snd s') = n); [|intros [x c] [x' c'] _; now apply same_ret].
    apply same_for; [split; assumption|]. intros i [x c] [x' c'] Hi [HL HL']. cbn [snd] in HL, HL'. apply in_py_range in Hi. cbn [t_inc_ctr_body]. eapply same_bind; [apply same_get; lia|]. intros u u' _. eapply same_bind; [apply same_get; lia|]. intros v v' _. cbv zeta.
    eapply same_bind with (R := fun s s' => len s = n /\ len s' = n); [|intros y y' Hy; apply same_ret; exact Hy].
    rewrite !py_set_ok by (try apply land_byte; lia). split; [reflexivity|]. do 2 eexists. split; [reflexivity|]. split; [reflexivity|]. unfold len in *. rewrite !upd_length. split; assumption.
Qed.
Definition counted (o o' : mode_obj) (p p' : mode_obj) : Prop := o_cipher p = o_cipher o /\ o_cipher p' = o_cipher o' /\ bk2 (o_cipher o) (o_cipher o') (o_counter p) (o_counter p').
Lemma same_ctr_step o o' p p' : kin o o' -> counted o o' p p' -> same (fun s s' => bk2 (o_cipher o) (o_cipher o') (fst s) (fst s') /\ counted o o' (snd s) (snd s')) (t_ctr_step p) (t_ctr_step p').
Proof.
  intros K (E & E' & HC). unfold t_ctr_step. rewrite E, E'. eapply same_bind; [apply same_encrypt; [apply K | exact HC]|]. intros g g' Hg. destruct HC as [HC HC']. unfold block_size. rewrite E, E'.
  eapply same_bind with (R := bk2 (o_cipher o) (o_cipher o')); [|intros c c' Hc; apply same_ret; split; [exact Hg|]; split; [exact E | split; [exact E' | exact Hc]]]. pose proof (kin_bs _ _ K) as EB. unfold block_size in EB. split.
  - rewrite <- EB. apply shape_inc_ctr; [apply bs_pos | exact HC | rewrite EB; exact HC'].
  - exists (ctr_next (o_counter p) 1), (ctr_next (o_counter p') 1). rewrite !erase_inc_ctr, (inc_ctr_ok _ _ HC), (inc_ctr_ok _ _ HC'). split; [reflexivity|]. split; [reflexivity|]. split; now apply ctr_next_block.
Qed.
Lemma flow_ctr_encrypt o o' d d' : kin o o' -> bk2 (o_cipher o) (o_cipher o') (o_counter o) (o_counter o') -> pair_ok d d' -> same any (t_ctr_encrypt d o) (t_ctr_encrypt d' o').
Proof.
  intros K HC H. pose proof (kin_alg _ _ K) as EA. unfold t_ctr_encrypt. apply same_at_. eapply same_bind; [apply same_plain, H|]. intros m m' Hm. eapply same_bind; [apply same_num; [exact EA | exact Hm]|]. intros n n' [-> ->].
  eapply same_bind with (R := fun s s' => counted o o' (snd s) (snd s')).
  - apply same_for; [split; [reflexivity|]; split; [reflexivity | exact HC]|]. intros i [r p] [r' p'] Hi Hp. cbn [snd] in Hp. cbn [t_ctr_body]. eapply same_bind; [exact (same_ctr_step o o' p p' K Hp)|]. intros [g q] [g' q'] [Hg Hq]. cbn [fst snd] in Hg, Hq.
    eapply same_bind; [apply same_block; [exact EA | exact Hm | exact Hi]|]. intros b b' Hb. eapply same_bind; [apply same_xor2; [exact EA | exact Hb | exact Hg]|]. intros x x' _. apply same_ret. exact Hq.
  - intros [r p] [r' p'] Hp. cbn [snd] in Hp. cbn [t_ctr_rest]. assert (EL : len m = len m') by (unfold len; destruct Hm; lia). rewrite <- (kin_bs _ _ K), <- EL. apply same_if; [reflexivity| |intros; now apply same_ret]. intros _. eapply same_bind; [exact (same_ctr_step o o' p p' K Hp)|]. intros [g q] [g' q'] [[[Lg _] [Lg' _]] Hq]. cbn [fst snd] in *.
    unfold t_get_num_block. eapply same_bind with (R := fun n n' => n = len m / block_size o /\ n' = len m' / block_size o); [apply same_at_; apply same_ret; split; reflexivity|]. intros n n' [-> ->].
    eapply same_bind with (R := any); [|intros; now apply same_ret]. eapply same_weaken; [apply same_xor; [exact (final_pair (block_size o) m m' Hm) | rewrite Lg, Lg'; apply (kin_bs _ _ K)] | intros; exact I].
Qed.
Lemma flow_ctr_decrypt o o' d d' : kin o o' -> bk2 (o_cipher o) (o_cipher o') (o_counter o) (o_counter o') -> pair_ok d d' -> same any (t_ctr_decrypt d o) (t_ctr_decrypt d' o').
Proof. intros K HC H. unfold t_ctr_decrypt. apply same_at_. eapply same_bind; [apply same_cipher, H|]. intros m m' Hm. now apply flow_ctr_encrypt. Qed.
