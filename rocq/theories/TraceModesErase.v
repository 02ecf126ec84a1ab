(** * Forgetting the steps of the modes gives the value model. *)
From Verif Require Import PyBase PyState PyFacts PyLoop Utils UtilsFacts CipherObj Modes SpecTrace Trace TraceLemmas TraceCipher TraceCipherFacts TraceCipher2 TraceCipher2Facts TraceHashErase TracePbkdfFacts TraceModes.
Open Scope string_scope.
Open Scope list_scope.
Open Scope Z_scope.

Lemma erase_co_encrypt c b : snd (t_co_encrypt c b) = liftO (co_encrypt c b).
Proof. destruct c; [apply erase_kuz_encrypt | apply erase_magma_encrypt]. Qed.
Lemma erase_co_decrypt c b : snd (t_co_decrypt c b) = liftO (co_decrypt c b).
Proof. destruct c; [apply erase_kuz_decrypt | apply erase_magma_decrypt]. Qed.
Lemma snd_xor a b : snd (t_add_xor a b) = Returns (add_xor a b).
Proof. reflexivity. Qed.
Lemma snd_num bs d : snd (t_get_num_block bs d) = Returns (_get_num_block bs d).
Proof. reflexivity. Qed.
Lemma snd_block bs d i : snd (t_get_block bs d i) = Returns (_get_block bs d i).
Proof. reflexivity. Qed.
Lemma snd_pad_size bs d : snd (t_get_pad_size bs d) = Returns (_get_pad_size bs d).
Proof. unfold t_get_pad_size, _get_pad_size. rewrite snd_step, snd_if. destruct (_ <? _); [reflexivity|]. rewrite snd_if. destruct (_ =? 0); reflexivity. Qed.
Lemma snd_padding bs d p : snd (t_set_padding bs d p) = Returns (_set_padding bs d p).
Proof.
  unfold t_set_padding, _set_padding. rewrite snd_step, snd_if. destruct (_ =? _); [unfold t_set_pad_mode_1; rewrite snd_step, snd_bind, snd_pad_size; reflexivity|].
  rewrite snd_if. destruct (_ =? _); [unfold t_set_pad_mode_2; rewrite snd_step, snd_bind, snd_pad_size; reflexivity | reflexivity].
Qed.
Lemma snd_padding_encrypt d o : snd (t_padding_encrypt d o) = Returns (_set_padding (block_size o) d (o_pad_mode o)).
Proof. unfold t_padding_encrypt. rewrite snd_step, snd_bind. cbn [bindO t_check_plaintext bindT step retT fst snd]. apply snd_padding. Qed.
Lemma both_padding_encrypt {B} d o (k : bytes -> M mode_obj B) : both (let! x := padding_encrypt (VBytes d) in k x) o = both (k (_set_padding (block_size o) d (o_pad_mode o))) o.
Proof. reflexivity. Qed.
Lemma both_check_p {B} d o (k : bytes -> M mode_obj B) : both (let! x := check_plaintext (VBytes d) in k x) o = both (k d) o.
Proof. reflexivity. Qed.
Lemma both_check_c {B} d o (k : bytes -> M mode_obj B) : both (let! x := check_ciphertext (VBytes d) in k x) o = both (k d) o.
Proof. reflexivity. Qed.
Lemma both_gamma {B} o (k : bytes -> M mode_obj B) : both (let! g := _get_gamma in k g) o = bind (co_encrypt (o_cipher o) (py_slice (o_init_vect o) 0 (block_size o))) (fun g => both (k g) o).
Proof. unfold _get_gamma. rewrite both_bind, both_get. destruct (co_encrypt _ _); reflexivity. Qed.
Lemma snd_gamma o : snd (t_get_gamma o) = liftO (co_encrypt (o_cipher o) (py_slice (o_init_vect o) 0 (block_size o))).
Proof. unfold t_get_gamma. rewrite snd_step. apply erase_co_encrypt. Qed.
Lemma erase_set_iv d o : snd (t_set_init_vect d o) = liftO (ends (_set_init_vect d) o).
Proof. reflexivity. Qed.
Lemma snd_const {A B} (c : T A) (a : A) (k : A -> T B) : snd c = Returns a -> snd (bindT c k) = snd (k a).
Proof. intros E. rewrite snd_bind, E. reflexivity. Qed.
Ltac pass E := rewrite (snd_const _ _ _ E).

Lemma erase_ecb_encrypt d o : snd (t_ecb_encrypt d o) = liftO (both (ecb_encrypt (VBytes d)) o).
Proof.
  unfold t_ecb_encrypt, ecb_encrypt. rewrite snd_step, both_padding_encrypt, both_get, both_for. pass (snd_padding_encrypt d o). generalize (_set_padding (block_size o) d (o_pad_mode o)). intros m. pass (snd_num (block_size o) m). generalize (py_range 0 (_get_num_block (block_size o) m) 1). intros xs.
  rewrite snd_bind, (snd_for _ _ _ _ (fun i r => bind (co_encrypt (o_cipher o) (_get_block (block_size o) m i)) (fun b => Ok (r ++ b)))).
  - generalize (@nil Z). induction xs as [|x xs IH]; intros r; [reflexivity|]. cbn [for_ fst snd]. rewrite both_lift. destruct (co_encrypt _ _); [|reflexivity]. cbn [bind]. rewrite IH. reflexivity.
  - intros i r. unfold t_ecb_encrypt_body. pass (snd_block (block_size o) m i). next erase_co_encrypt. reflexivity.
Qed.
Lemma erase_ecb_decrypt d o : snd (t_ecb_decrypt d o) = liftO (both (ecb_decrypt (VBytes d)) o).
Proof.
  unfold t_ecb_decrypt, ecb_decrypt. rewrite snd_step, both_check_c, both_get, both_for. rewrite (snd_const (t_padding_decrypt d) d _ eq_refl). pass (snd_num (block_size o) d). generalize (py_range 0 (_get_num_block (block_size o) d) 1). intros xs.
  rewrite snd_bind, (snd_for _ _ _ _ (fun i r => bind (co_decrypt (o_cipher o) (_get_block (block_size o) d i)) (fun b => Ok (r ++ b)))).
  - generalize (@nil Z). induction xs as [|x xs IH]; intros r; [reflexivity|]. cbn [for_ fst snd]. rewrite both_lift. destruct (co_decrypt _ _); [|reflexivity]. cbn [bind]. rewrite IH. reflexivity.
  - intros i r. unfold t_ecb_decrypt_body. pass (snd_block (block_size o) d i). next erase_co_decrypt. reflexivity.
Qed.
Lemma both_put {B} d (k : M mode_obj B) o : both (_set_init_vect d ;! k) o = bind (ends (_set_init_vect d) o) (fun o' => both k o').
Proof. apply both_seq. Qed.
Lemma erase_cbc_encrypt d o : snd (t_cbc_encrypt d o) = liftO (both (cbc_encrypt (VBytes d)) o).
Proof.
  unfold t_cbc_encrypt, cbc_encrypt. rewrite snd_step, both_padding_encrypt, both_get, both_for. pass (snd_padding_encrypt d o). generalize (_set_padding (block_size o) d (o_pad_mode o)). intros m. pass (snd_num (block_size o) m). apply snd_for.
  intros i [r s]. cbn [t_cbc_encrypt_body fst snd]. rewrite both_get. pass (snd_block (block_size o) m i). rewrite (snd_const (t_add_xor _ _) _ _ (snd_xor _ _)), both_lift. next erase_co_encrypt. rewrite both_put. next erase_set_iv. reflexivity.
Qed.
Lemma erase_cbc_decrypt d o : snd (t_cbc_decrypt d o) = liftO (both (cbc_decrypt (VBytes d)) o).
Proof.
  unfold t_cbc_decrypt, cbc_decrypt. rewrite snd_step, both_check_c, both_get, both_for. rewrite (snd_const (t_padding_decrypt d) d _ eq_refl). pass (snd_num (block_size o) d). apply snd_for.
  intros i [r s]. cbn [t_cbc_decrypt_body fst snd]. rewrite both_get. pass (snd_block (block_size o) d i). rewrite both_lift. next erase_co_decrypt. rewrite (snd_const (t_add_xor _ _) _ _ (snd_xor _ _)). pass (snd_block (block_size o) d i). rewrite both_put. next erase_set_iv. reflexivity.
Qed.
Lemma snd_final_cipher d o : snd (t_final_cipher d o) = liftO (bind (co_encrypt (o_cipher o) (py_slice (o_init_vect o) 0 (block_size o))) (fun g => Ok (add_xor g (_get_final_block (block_size o) d)))).
Proof. unfold t_final_cipher. rewrite snd_step. next snd_gamma. reflexivity. Qed.
Lemma erase_rest line bs d r o : block_size o = bs -> snd (t_rest line bs d (r, o)) = liftO (both (if negb (len d mod bs =? 0) then let! f := _final_cipher d in retM (r ++ f) else retM r) o).
Proof.
  intros EB. unfold t_rest. rewrite snd_if. destruct (negb _); [|reflexivity]. rewrite both_bind. unfold _final_cipher at 1. rewrite both_gamma. unfold bindT. rewrite snd_final_cipher. destruct (co_encrypt _ _); reflexivity.
Qed.
Lemma gamma_ext {B} o (k k' : bytes -> res B) : (forall g, k g = k' g) -> bind (co_encrypt (o_cipher o) (py_slice (o_init_vect o) 0 (block_size o))) k = bind (co_encrypt (o_cipher o) (py_slice (o_init_vect o) 0 (block_size o))) k'.
Proof. intros H. destruct (co_encrypt _ _); [apply H | reflexivity]. Qed.

(** The loops do not change the block size. *)
Lemma ends_iv d o o' : ends (_set_init_vect d) o = Ok o' -> block_size o' = block_size o.
Proof. intros E. injection E as <-. reflexivity. Qed.
Lemma for_size {X} (body : X -> bytes -> M mode_obj bytes) bs : (forall x r o r' o', block_size o = bs -> both (body x r) o = Ok (r', o') -> block_size o' = bs) ->
  forall xs r o r' o', block_size o = bs -> for_ xs (r, o) (fun x p => both (body x (fst p)) (snd p)) = Ok (r', o') -> block_size o' = bs.
Proof.
  intros H. induction xs as [|x xs IH]; intros r o r' o' EB E; [cbn [for_] in E; congruence|]. cbn [for_ fst snd] in E. destruct (both (body x r) o) as [[r1 o1]|e] eqn:E1; [|discriminate E]. cbn [bind] in E. apply (IH r1 o1 r' o' (H _ _ _ _ _ EB E1) E).
Qed.
Lemma stream_erase line d o (body : Z -> bytes -> M mode_obj bytes) (t_body : Z -> bytes * mode_obj -> T (bytes * mode_obj)) fline xs : (forall i s, snd (t_body i s) = liftO (both (body i (fst s)) (snd s))) -> (forall x r o1 r' o', block_size o1 = block_size o -> both (body x r) o1 = Ok (r', o') -> block_size o' = block_size o) ->
  snd (do s := t_for FModes fline xs ([], o) t_body in t_rest line (block_size o) d s) = liftO (both (let! result := forM xs [] body in if negb (len d mod block_size o =? 0) then let! f := _final_cipher d in retM (result ++ f) else retM result) o).
Proof.
  intros HB HS. rewrite both_bind, both_for, snd_bind, (snd_for _ _ _ _ _ HB). destruct (for_ _ _ _) as [[r o']|e] eqn:E; [|reflexivity]. cbn [liftO bindO bind fst snd]. apply erase_rest. exact (for_size body (block_size o) HS xs [] o r o' eq_refl E).
Qed.
Lemma erase_cfb_encrypt d o : snd (t_cfb_encrypt d o) = liftO (both (cfb_encrypt (VBytes d)) o).
Proof.
  unfold t_cfb_encrypt, cfb_encrypt. rewrite snd_step, both_check_p, both_get. rewrite (snd_const (t_feedback_encrypt d) d _ eq_refl). pass (snd_num (block_size o) d). apply stream_erase.
  - intros i [r s]. cbn [t_cfb_encrypt_body fst snd]. rewrite both_gamma. next snd_gamma. pass (snd_block (block_size o) d i). rewrite (snd_const (t_add_xor _ _) _ _ (snd_xor _ _)), both_put. next erase_set_iv. reflexivity.
  - intros x r o1 r' o' EB E. rewrite both_gamma in E. destruct (co_encrypt _ _); [|discriminate E]. cbn [bind] in E. cbv zeta in E. rewrite both_put in E. injection E as _ <-. exact EB.
Qed.
Lemma erase_cfb_decrypt d o : snd (t_cfb_decrypt d o) = liftO (both (cfb_decrypt (VBytes d)) o).
Proof.
  unfold t_cfb_decrypt, cfb_decrypt. rewrite snd_step, both_check_c, both_get. rewrite (snd_const (t_feedback_decrypt d) d _ eq_refl). pass (snd_num (block_size o) d). apply stream_erase.
  - intros i [r s]. cbn [t_cfb_decrypt_body fst snd]. rewrite both_gamma. next snd_gamma. pass (snd_block (block_size o) d i). rewrite (snd_const (t_add_xor _ _) _ _ (snd_xor _ _)), both_put. next erase_set_iv. reflexivity.
  - intros x r o1 r' o' EB E. rewrite both_gamma in E. destruct (co_encrypt _ _); [|discriminate E]. cbn [bind] in E. cbv zeta in E. rewrite both_put in E. injection E as _ <-. exact EB.
Qed.
Lemma erase_ofb_encrypt d o : snd (t_ofb_encrypt d o) = liftO (both (ofb_encrypt (VBytes d)) o).
Proof.
  unfold t_ofb_encrypt, ofb_encrypt. rewrite snd_step, both_check_p, both_get. rewrite (snd_const (t_feedback_encrypt d) d _ eq_refl). pass (snd_num (block_size o) d). apply stream_erase.
  - intros i [r s]. cbn [t_ofb_body fst snd]. rewrite both_gamma. next snd_gamma. pass (snd_block (block_size o) d i). rewrite (snd_const (t_add_xor _ _) _ _ (snd_xor _ _)), both_put. next erase_set_iv. reflexivity.
  - intros x r o1 r' o' EB E. rewrite both_gamma in E. destruct (co_encrypt _ _); [|discriminate E]. cbn [bind] in E. cbv zeta in E. rewrite both_put in E. injection E as _ <-. exact EB.
Qed.
Lemma erase_ofb_decrypt d o : snd (t_ofb_decrypt d o) = liftO (both (ofb_decrypt (VBytes d)) o).
Proof. unfold t_ofb_decrypt, ofb_decrypt. rewrite snd_step, both_check_c. rewrite (snd_const (t_feedback_decrypt d) d _ eq_refl). apply erase_ofb_encrypt. Qed.

Lemma snd_get f line operand l i : snd (t_get f line operand l i) = liftO (py_get l i).
Proof. unfold t_get. rewrite snd_step. reflexivity. Qed.
Lemma erase_inc_ctr bs ctr : snd (t_inc_ctr bs ctr) = liftO (_inc_ctr bs ctr).
Proof.
  unfold t_inc_ctr, _inc_ctr. rewrite snd_step. cbv zeta. next @snd_res. rewrite snd_bind. rewrite (snd_for _ _ _ _ (fun i '(internal, ctr) => let* c := py_get ctr i in let* b := py_get a i in let internal := c + b + Z.shiftl internal 8 in let* ctr := py_set ctr i (Z.land internal 0xff) in Ok (internal, ctr))).
  - rewrite liftO_bind. apply bindO_ext. intros [x c]. reflexivity.
  - intros i [x c]. cbn [t_inc_ctr_body]. next snd_get. next snd_get. cbv zeta. next @snd_res. reflexivity.
Qed.
Lemma erase_ctr_step o : snd (t_ctr_step o) = liftO (both ctr_step o).
Proof. unfold t_ctr_step, ctr_step. rewrite both_get, both_lift. next erase_co_encrypt. rewrite both_lift. next erase_inc_ctr. reflexivity. Qed.
Lemma step_size o g o' : both ctr_step o = Ok (g, o') -> block_size o' = block_size o.
Proof. unfold ctr_step. rewrite both_get, both_lift. destruct (co_encrypt _ _); [|discriminate]. cbn [bind]. rewrite both_lift. destruct (_inc_ctr _ _); [|discriminate]. cbn [bind]. intros E. injection E as _ <-. reflexivity. Qed.
Lemma erase_ctr_encrypt d o : snd (t_ctr_encrypt d o) = liftO (both (ctr_encrypt (VBytes d)) o).
Proof.
  unfold t_ctr_encrypt, ctr_encrypt. rewrite snd_step, both_check_p, both_get. rewrite (snd_const (t_check_plaintext d) d _ eq_refl). pass (snd_num (block_size o) d). cbv zeta. rewrite both_bind, both_for, snd_bind, liftO_bind.
  erewrite snd_for.
  - apply bindO_ext. intros [r s]. cbn [t_ctr_rest fst snd]. rewrite snd_if. destruct (negb _); [|reflexivity]. rewrite both_bind. next erase_ctr_step. destruct a as [g s']. cbn [fst snd]. pass (snd_num (block_size o) d). rewrite (snd_const (t_add_xor _ _) _ _ (snd_xor _ _)). reflexivity.
  - intros i [r s]. cbn [t_ctr_body fst snd]. rewrite both_bind. next erase_ctr_step. destruct a as [g s']. cbn [fst snd]. pass (snd_block (block_size o) d i). rewrite (snd_const (t_add_xor _ _) _ _ (snd_xor _ _)). reflexivity.
Qed.
Lemma erase_ctr_decrypt d o : snd (t_ctr_decrypt d o) = liftO (both (ctr_decrypt (VBytes d)) o).
Proof. unfold t_ctr_decrypt, ctr_decrypt. rewrite snd_step, both_check_c. rewrite (snd_const (t_check_ciphertext d) d _ eq_refl). apply erase_ctr_encrypt. Qed.

Lemma erase_mode_encrypt d o : snd (t_mode_encrypt d o) = liftO (both (encrypt (VBytes d)) o).
Proof.
  unfold t_mode_encrypt, encrypt. rewrite both_get. destruct (o_class o); [apply erase_ecb_encrypt | apply erase_cbc_encrypt | apply erase_cfb_encrypt | apply erase_ofb_encrypt | apply erase_ctr_encrypt].
Qed.
Lemma erase_mode_decrypt d o : snd (t_mode_decrypt d o) = liftO (both (decrypt (VBytes d)) o).
Proof.
  unfold t_mode_decrypt, decrypt. rewrite both_get. destruct (o_class o); [apply erase_ecb_decrypt | apply erase_cbc_decrypt | apply erase_cfb_decrypt | apply erase_ofb_decrypt | apply erase_ctr_decrypt].
Qed.
