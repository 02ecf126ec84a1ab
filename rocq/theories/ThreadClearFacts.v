(** * A thread that clears an object: lemmas *)
From Verif Require Import PyBase PyFacts PyState Utils UtilsFacts CipherObj Modes Mac SpecModes CipherLemmas CipherObjFacts ModeSpecFacts ModeFacts ModeLemmas ModeSem ModeMore ModeSim ModeExamples ModeProps MacMore ModeCross ModeCross2 MacKnown Threads ThreadFacts ThreadRandomFacts ThreadMacFacts ThreadsModes ThreadModeFacts.
From Verif Require Import ThreadsClear.
Open Scope string_scope.
Open Scope list_scope.
Open Scope Z_scope.

Lemma clear_is o : co_ok (o_cipher o) -> exists c', clear o = (Ok tt, set_cipher o c') /\ co_ok c' /\ bs c' = bs (o_cipher o) /\
  (forall b, block c' b -> oE c' b = oE (cleared_obj (co_alg (o_cipher o))) b /\ oD c' b = oD (cleared_obj (co_alg (o_cipher o))) b).
Proof.
  intros Hc. destruct (co_clear_ok _ Hc) as (c' & E & Hc' & HA & HE). exists c'. assert (HB : bs c' = bs (o_cipher o)) by now rewrite !bs_alg, HA.
  split; [unfold clear, bindM, getM, liftM, putM; now rewrite E|]. split; [exact Hc'|]. split; [exact HB|]. intros b Hb. apply HE. unfold block in *. now rewrite <- HB.
Qed.
Lemma clearing_acts q : clearing q -> forall p s c', clear s = (Ok tt, set_cipher s c') -> exists q' r, go [1%nat] [p; q] s = ([p; q'], set_cipher s c') /\ ended q' = Some r.
Proof.
  intros [|d Hd|d Hd|d Hd|d Hd] p s c' E; (try destruct d as [b|t|z|]; try contradiction); cbn [go nth_error p_clear p_cbc_encrypt p_cbc_decrypt p_cfb_encrypt p_cfb_decrypt bindP act]; unfold padding_encrypt, check_plaintext, check_ciphertext, bindM; rewrite E; cbn; eexists; eexists; (split; [reflexivity | reflexivity]).
Qed.
(** The first thread runs alone until some blocks are done. *)
Lemma reach_loop o f turn (q : proc mode_obj bytes) (H : bytes -> proc mode_obj bytes) d xs ys : good_turn o f turn -> Forall (block (o_cipher o)) (map (_get_block (bs (o_cipher o)) d) xs) -> forall v r, block (o_cipher o) v ->
  exists n, go (repeat 0%nat n) [bindP (forP (xs ++ ys) r (turn (bs (o_cipher o)) d)) H; q] (set_iv o v) =
    ([bindP (forP ys (r ++ concat (own f v (map (_get_block (bs (o_cipher o)) d) xs))) (turn (bs (o_cipher o)) d)) H; q], set_iv o (later f v (map (_get_block (bs (o_cipher o)) d) xs))) /\ block (o_cipher o) (later f v (map (_get_block (bs (o_cipher o)) d) xs)).
Proof.
  intros [HA _]. induction xs as [|x xs IH]; intros HB v r Hv.
  - exists O. cbn [app map own later concat repeat go]. rewrite app_nil_r. now split.
  - apply Forall_cons_iff in HB as [Hx HB]. destruct (HA v d x r Hv Hx) as [E1 Hn]. cbn [app forP].
    destruct (bind_first2 (fun acc => forP (xs ++ ys) acc (turn (bs (o_cipher o)) d)) H q _ _ _ _ E1) as [n N]. destruct (IH HB _ (r ++ out f v (_get_block (bs (o_cipher o)) d x)) Hn) as (k & K & Hl).
    exists (n + k)%nat. rewrite repeat_app, go_app, N, K. cbn [map own later concat]. rewrite <- app_assoc. now split.
Qed.
Lemma own_app f : forall xs v ys, own f v (xs ++ ys) = own f v xs ++ own f (later f v xs) ys.
Proof. induction xs as [|x xs IH]; intros v ys; [reflexivity|]. cbn [app own later]. now rewrite IH. Qed.
Lemma later_last f c : forall xs v, xs <> [] -> later (e_of f c) v xs = last (own (e_of f c) v xs) [].
Proof.
  induction xs as [|x xs IH]; intros v Hne; [contradiction|]. destruct xs as [|y xs]; [cbn; apply e_next|]. transitivity (later (e_of f c) (next (e_of f c) v x) (y :: xs)); [reflexivity|]. rewrite (IH (next (e_of f c) v x)) by discriminate. reflexivity.
Qed.
(** What a cleared object encrypts another cleared object decrypts. *)
Lemma own_back f c1 c2 : co_ok c1 -> co_ok c2 -> bs c1 = bs c2 -> (forall b, block c1 b -> oE c1 b = oE c2 b) -> forall xs v, block c1 v -> Forall (block c1) xs -> own (d_of f c2) v (own (e_of f c1) v xs) = xs.
Proof.
  intros H1 H2 HB HE. assert (HO : forall v x, block c1 v -> block c1 x -> out (e_of f c1) v x = out (e_of f c2) v x) by (intros v x Hv Hx; destruct f; cbn; rewrite HE; [reflexivity | now apply xor_block | reflexivity | exact Hv]).
  induction xs as [|x xs IH]; intros v Hv HF; [reflexivity|]. apply Forall_cons_iff in HF as [Hx HF]. cbn [own]. rewrite d_next, e_next. f_equal.
  - rewrite (HO v x Hv Hx). apply (d_e f c2 H2); unfold block in *; now rewrite <- HB.
  - apply IH; [apply e_ok; assumption | exact HF].
Qed.
Definition enc_turn (f : chained) : Z -> bytes -> Z -> bytes -> proc mode_obj bytes := match f with Cbc => cbc_enc_turn | Cfb => cfb_enc_turn end.
Definition dec_turn (f : chained) : Z -> bytes -> Z -> bytes -> proc mode_obj bytes := match f with Cbc => cbc_dec_turn | Cfb => cfb_dec_turn end.
Lemma enc_turn_good f o : co_ok (o_cipher o) -> good_turn o (e_of f (o_cipher o)) (enc_turn f).
Proof. destruct f; [apply cbc_e_good | apply cfb_e_good]. Qed.
Lemma dec_turn_good f o : co_ok (o_cipher o) -> good_turn o (d_of f (o_cipher o)) (dec_turn f).
Proof. destruct f; [apply cbc_d_good | apply cfb_d_good]. Qed.
Lemma dec_thread_is f m : dec_thread f m = call_of (dec_turn f) (fin_of f) (check_ciphertext (VBytes m)).
Proof. now destruct f. Qed.
(** The whole course: blocks under the key, the clearing, blocks under the public round keys. *)
Lemma cleared_between f o v bl1 bl2 q check c' : co_ok (o_cipher o) -> block (o_cipher o) v -> o_init_vect o = v -> Forall (block (o_cipher o)) bl1 -> Forall (block (o_cipher o)) bl2 -> check o = (Ok (concat (bl1 ++ bl2)), o) ->
  clearing q -> co_ok c' -> bs c' = bs (o_cipher o) -> (forall w, clear (set_iv o w) = (Ok tt, set_cipher (set_iv o w) c')) ->
  exists sched q' r o', go sched [call_of (enc_turn f) (fin_of f) check; q] o =
    ([Ret (concat (own (e_of f (o_cipher o)) v bl1) ++ concat (own (e_of f c') (later (e_of f (o_cipher o)) v bl1) bl2)); q'], o') /\ ended q' = Some r.
Proof.
  intros Hc Hv Ev F1 F2 HK HQ Hc' HB HC. assert (Eo : o = set_iv o v) by (rewrite <- Ev; symmetry; apply set_iv_same). set (c := o_cipher o) in *.
  assert (F : Forall (block c) (bl1 ++ bl2)) by (apply Forall_app; now split). destruct (blocks_back c _ F) as [EB [Hok Hm]]. destruct (whole_blocks c _ Hok Hm) as (bl & E0 & HF & EB2 & Hcut). rewrite EB in EB2. subst bl. pose proof (get_blocks _ _ _ _ (bs_pos _) Hcut) as M1.
  set (d := concat (bl1 ++ bl2)) in *. set (R := py_range 0 (_get_num_block (bs c) d) 1) in *. set (k := List.length bl1). set (xs := firstn k R). set (ys := skipn k R). assert (HR : R = xs ++ ys) by (symmetry; apply firstn_skipn).
  assert (MX : map (_get_block (bs c) d) xs = bl1) by (unfold xs; rewrite <- firstn_map, M1; unfold k; rewrite firstn_app, Nat.sub_diag, firstn_all, firstn_O; apply app_nil_r).
  assert (MY : map (_get_block (bs c) d) ys = bl2) by (unfold ys; rewrite <- skipn_map, M1; unfold k; rewrite skipn_app, Nat.sub_diag, skipn_all; reflexivity).
  destruct (reach_loop o (e_of f c) (enc_turn f) q (fin_of f (bs c) d) d xs ys (enc_turn_good f o Hc)) with (v := v) (r := @nil Z) as (n & N & Hl); [fold c; rewrite MX; exact F1 | exact Hv |]. fold c in N, Hl. rewrite MX in N, Hl. set (w := later (e_of f c) v bl1) in *.
  set (o2 := set_cipher o c'). assert (HT : set_cipher (set_iv o w) c' = set_iv o2 w) by reflexivity.
  destruct (clearing_acts q HQ (bindP (forP ys ([] ++ concat (own (e_of f c) v bl1)) (enc_turn f (bs c) d)) (fin_of f (bs c) d)) _ _ (HC w)) as (q' & r & K & HE). rewrite HT in K.
  destruct (alone_loop o2 (e_of f c') (enc_turn f) (proj1 (enc_turn_good f o2 Hc')) d ys) with (v := w) (r := concat (own (e_of f c) v bl1)) as [L _]; [change (o_cipher o2) with c'; rewrite HB, MY; unfold block in *; now rewrite HB | unfold block in *; change (o_cipher o2) with c'; now rewrite HB |]. change (o_cipher o2) with c' in L. rewrite HB, MY in L.
  destruct (go_first q' (bindP (forP ys ([] ++ concat (own (e_of f c) v bl1)) (enc_turn f (bs c) d)) (fin_of f (bs c) d)) (set_iv o2 w)) as [m M]. rewrite run_bind in M. cbn [app] in M, K, N. rewrite L in M. rewrite fin_whole in M by exact Hm. cbn [run fst snd fin] in M.
  exists ([0; 0]%nat ++ repeat 0%nat n ++ [1%nat] ++ repeat 0%nat m), q', r. eexists. split; [|exact HE].
  rewrite go_app. assert (G0 : go [0; 0]%nat [call_of (enc_turn f) (fin_of f) check; q] o = ([bindP (forP R [] (enc_turn f (bs c) d)) (fin_of f (bs c) d); q], o)).
  { unfold call_of. cbn [go nth_error act bindP]. rewrite HK. cbn [bindP upd go nth_error act]. unfold the_block_size, bindM, getM, retM. reflexivity. }
  rewrite G0, HR, go_app. rewrite Eo at 1. rewrite N, go_app, K. exact M.
Qed.
