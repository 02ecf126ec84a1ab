(** * Forgetting the steps of the MAC mode gives the value model. *)
From Verif Require Import PyBase PyState PyFacts PyLoop Utils UtilsFacts Kuznechik Magma CipherObj Modes Mac SpecModes ModeLemmas ModeProps SpecTrace Trace TraceLemmas TraceCipher TraceCipherFacts TraceCipher2 TraceCipher2Facts TraceHashErase TracePbkdfFacts TraceModes TraceModesErase TraceMac.
Open Scope string_scope.
Open Scope list_scope.
Open Scope Z_scope.

Lemma erase_msb v : snd (t_msb v) = liftO (msb v).
Proof. unfold t_msb, msb. rewrite snd_step. next (snd_get FUtils 45 0 v 0). reflexivity. Qed.
Lemma erase_double line bs vb v : snd (t_mac_double line bs vb v) = liftO (mac_double bs vb v).
Proof. unfold t_mac_double, mac_double. next erase_msb. rewrite snd_if. destruct (_ =? 0); [apply erase_bytes|]. rewrite snd_bind, erase_bytes. reflexivity. Qed.
Lemma erase_mac_key bs v : snd (t_get_mac_key bs v) = liftO (_get_mac_key bs v).
Proof.
  unfold t_get_mac_key, _get_mac_key. rewrite snd_step. assert (E : snd (if_ FModes 951 (bs =? 16) (retT _B_128) (if_ FModes 953 (bs =? 8) (retT _B_64) (retT []))) = Returns (if bs =? 16 then _B_128 else if bs =? 8 then _B_64 else [])) by (rewrite snd_if; destruct (bs =? 16); [reflexivity|]; rewrite snd_if; destruct (bs =? 8); reflexivity).
  pass E. next erase_double. next erase_double. reflexivity.
Qed.
Lemma snd_pad_3 bs d : snd (t_set_pad_mode_3 bs d) = Returns (_set_pad_mode_3 bs d).
Proof. unfold t_set_pad_mode_3, _set_pad_mode_3. rewrite snd_step. pass (snd_pad_size bs d). rewrite snd_if. destruct (_ =? 0); [reflexivity|]. pass (snd_pad_size bs d). reflexivity. Qed.
Lemma erase_base a key : snd (t_base_init a key) = liftO (base_init (alg a) (VBytes key)).
Proof.
  unfold t_base_init. rewrite snd_step, snd_step. assert (E : snd (t_check_value key 32) = Returns (check_value (VBytes key) _KEY_SIZE_13)).
  { unfold t_check_value. rewrite snd_step, snd_if. change (check_value (VBytes key) _KEY_SIZE_13) with (if negb (len key =? 32) then false else true). destruct (negb _); reflexivity. }
  pass E. rewrite snd_if. assert (EB : base_init (alg a) (VBytes key) = if negb (check_value (VBytes key) _KEY_SIZE_13) then Err (GOSTCipherError "GOSTCipherError: invalid key value") else match a with Kuz => let* keys := kuz_new key in Ok (KuzObj keys) | Mag => let* keys := magma_new key in Ok (MagmaObj keys) end) by (unfold base_init; destruct a; reflexivity).
  rewrite EB. destruct (negb _); [reflexivity|]. destruct a; rewrite snd_if; cbv iota; [next erase_kuz_new; reflexivity|]. rewrite snd_step. next erase_magma_new. reflexivity.
Qed.
Definition update_with (m : mac_obj) (d : bytes) : res mac_obj :=
  let bs := mac_block_size m in
  let* prev := for_ (py_range 0 (_get_num_block bs d - 1) 1) (m_cur_mac m) (fun i prev => co_encrypt (m_cipher m) (add_xor prev (_get_block bs d i))) in
  if _get_pad_size bs d =? 0 then
    let* block := co_encrypt (m_cipher m) (add_xor prev (py_slice d (len d - bs) (len d))) in
    Ok {| m_cipher := m_cipher m; m_key_1 := m_key_1 m; m_key_2 := m_key_2 m; m_fin_buff := py_from d (bs * (_get_num_block bs d - 1)); m_iter_buf := []; m_prev_mac := prev; m_cur_mac := block |}
  else
    let* block := co_encrypt (m_cipher m) (add_xor prev (py_slice d (len d - 2 * bs + _get_pad_size bs d) (len d - bs + _get_pad_size bs d))) in
    Ok {| m_cipher := m_cipher m; m_key_1 := m_key_1 m; m_key_2 := m_key_2 m; m_fin_buff := py_from d (bs * (_get_num_block bs d - 1)); m_iter_buf := py_from d (len d - bs + _get_pad_size bs d); m_prev_mac := block; m_cur_mac := block |}.
Lemma for_lift {A S R} (xs : list A) (g : A -> S -> res S) (o : R) : forall s, forM xs s (fun i s => liftM (g i s)) o = (for_ xs s g, o).
Proof. induction xs as [|x xs IH]; intros s; [reflexivity|]. cbn [forM for_]. unfold bindM, liftM at 1. destruct (g x s) as [s'|e]; [cbn [bind]; apply IH | reflexivity]. Qed.
Lemma ends_update m d : ends (mac_update (VBytes d)) m = update_with m (m_iter_buf m ++ d).
Proof.
  unfold ends, mac_update, update_with. cbv zeta. unfold bindM at 1, getM at 1. generalize (m_iter_buf m ++ d). intros x. unfold bindM at 1. rewrite (for_lift (py_range 0 (_get_num_block (mac_block_size m) x - 1) 1) (fun i prev => co_encrypt (m_cipher m) (add_xor prev (_get_block (mac_block_size m) x i))) m (m_cur_mac m)).
  destruct (for_ _ _ _) as [prev|e]; [|reflexivity]. cbn [bind]. destruct (_get_pad_size _ _ =? 0); unfold bindM, liftM; destruct (co_encrypt _ _); reflexivity.
Qed.
Lemma erase_mac_last m d prev : snd (t_mac_last m d prev) = liftO (if _get_pad_size (mac_block_size m) d =? 0 then
    let* block := co_encrypt (m_cipher m) (add_xor prev (py_slice d (len d - mac_block_size m) (len d))) in
    Ok {| m_cipher := m_cipher m; m_key_1 := m_key_1 m; m_key_2 := m_key_2 m; m_fin_buff := py_from d (mac_block_size m * (_get_num_block (mac_block_size m) d - 1)); m_iter_buf := []; m_prev_mac := prev; m_cur_mac := block |}
  else
    let* block := co_encrypt (m_cipher m) (add_xor prev (py_slice d (len d - 2 * mac_block_size m + _get_pad_size (mac_block_size m) d) (len d - mac_block_size m + _get_pad_size (mac_block_size m) d))) in
    Ok {| m_cipher := m_cipher m; m_key_1 := m_key_1 m; m_key_2 := m_key_2 m; m_fin_buff := py_from d (mac_block_size m * (_get_num_block (mac_block_size m) d - 1)); m_iter_buf := py_from d (len d - mac_block_size m + _get_pad_size (mac_block_size m) d); m_prev_mac := block; m_cur_mac := block |}).
Proof.
  unfold t_mac_last. set (n := mac_block_size m). pass (snd_pad_size n d). destruct (_get_pad_size n d =? 0) eqn:E.
  - rewrite snd_bind, snd_if. pass (snd_xor prev (py_slice d (len d - n) (len d))). rewrite snd_bind, erase_co_encrypt. destruct (co_encrypt _ _); reflexivity.
  - rewrite snd_bind, snd_if. pass (snd_pad_size n d). pass (snd_pad_size n d). pass (snd_xor prev (py_slice d (len d - 2 * n + _get_pad_size n d) (len d - n + _get_pad_size n d))). rewrite snd_bind, erase_co_encrypt. destruct (co_encrypt _ _) as [b|e]; [|reflexivity]. cbn [bindO liftO]. pass (snd_pad_size n d). reflexivity.
Qed.
Lemma erase_mac_update d m : snd (t_mac_update d m) = liftO (ends (mac_update (VBytes d)) m).
Proof.
  rewrite ends_update. unfold t_mac_update, update_with. rewrite snd_step, snd_step. generalize (m_iter_buf m ++ d). intros x. pass (snd_num (mac_block_size m) x).
  rewrite snd_bind, (snd_for _ _ _ _ (fun i prev => co_encrypt (m_cipher m) (add_xor prev (_get_block (mac_block_size m) x i)))).
  - cbv zeta. rewrite liftO_bind. apply bindO_ext. intros prev. apply erase_mac_last.
  - intros i s. unfold t_mac_round. pass (snd_block (mac_block_size m) x i). pass (snd_xor s (_get_block (mac_block_size m) x i)). apply erase_co_encrypt.
Qed.
Lemma erase_mac_final m : snd (t_mac_final m) = liftO (fst (mac_final m)).
Proof.
  unfold t_mac_final, mac_final. rewrite snd_step. pass (snd_pad_size (mac_block_size m) (m_fin_buff m)). unfold bindM at 1, getM at 1. rewrite snd_bind, snd_if. destruct (_get_pad_size _ _ =? 0).
  - cbn [bindO retT snd]. pass (snd_xor (m_fin_buff m) (m_prev_mac m)). pass (snd_xor (add_xor (m_fin_buff m) (m_prev_mac m)) (m_key_1 m)). apply erase_co_encrypt.
  - pass (snd_pad_3 (mac_block_size m) (py_from (m_fin_buff m) (mac_block_size m))). cbn [bindO retT snd]. set (b := _set_pad_mode_3 _ _). pass (snd_xor b (m_prev_mac m)). pass (snd_xor (add_xor b (m_prev_mac m)) (m_key_2 m)). apply erase_co_encrypt.
Qed.
Lemma erase_mac_digest n m : n <= mac_block_size m -> snd (t_mac_digest n m) = liftO (fst (mac_digest n m)).
Proof.
  intros H. unfold t_mac_digest, mac_digest. rewrite snd_step, snd_step, snd_bind, erase_mac_final. replace (n >? mac_block_size m) with false by lia. destruct (mac_final m) as [[r|e] m']; reflexivity.
Qed.
Lemma erase_mac_init a key d : snd (t_mac_init a key d) = liftO (mac_init (alg a) (VBytes key) (VBytes d)).
Proof.
  unfold t_mac_init, mac_init. rewrite snd_step. next erase_base. next erase_co_encrypt. next erase_mac_key. destruct a2 as [k1 k2]. rewrite snd_if. set (m := {| m_cipher := _ |}). destruct d as [|x d]; [reflexivity|].
  change (negb (len (x :: d) =? 0)) with true. cbv iota. rewrite erase_mac_update. unfold ends. destruct (mac_update (VBytes (x :: d)) m) as [[[]|e] m']; reflexivity.
Qed.
