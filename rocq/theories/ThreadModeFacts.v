(** * CBC and CFB: calls and interleaved calls *)
From Verif Require Import PyBase PyFacts PyState Utils UtilsFacts CipherObj Modes Mac SpecModes MagmaFacts CipherLemmas CipherObjFacts ModeSpecFacts ModeFacts CtrFacts ModeLemmas ModeSem ModeSim ModeProps ModeReuse MacMore ModeCross ModeCross2 Threads ThreadFacts ThreadsModes.
Open Scope string_scope.
Open Scope list_scope.
Open Scope Z_scope.

(** ** Alone *)
Ltac first_bind := match goal with |- _ = bindM ?x ?f ?s => change (bindM x f s) with (match x s with (Ok a, s') => f a s' | (Err e, s') => (Err e, s') end) end.
Lemma final_keeps bs0 d r o : block_size o = bs0 -> run (p_final bs0 d r) o = (if negb (len d mod bs0 =? 0) then let! f := _final_cipher d in retM (r ++ f) else retM r) o.
Proof.
  intros HK. unfold p_final. destruct (negb (len d mod bs0 =? 0)); [|reflexivity].
  rewrite run_bind, run_act. unfold bindM, _final_cipher, bindM. pose proof (gamma_keeps o) as G. destruct (_get_gamma o) as [[g|e] o3]; cbn in G; subst o3; [|reflexivity]. unfold getM, retM. cbn [run]. now rewrite HK.
Qed.
Lemma loop_alone {A} (xs : list A) (f : A -> bytes -> proc mode_obj bytes) g acc s : (forall x acc s, run (f x acc) s = g x acc s) -> run (let& result := forP xs acc f in Ret result) s = forM xs acc g s.
Proof. intros H. rewrite run_bind, (run_for xs f g H). now destruct (forM xs acc g s) as [[a|e] s']. Qed.
Lemma cbc_encrypt_alone data o : run (p_cbc_encrypt data) o = cbc_encrypt data o.
Proof.
  unfold p_cbc_encrypt, cbc_encrypt. rewrite run_bind, run_act. first_bind. destruct (padding_encrypt data o) as [[d|e] o1]; [|reflexivity]. rewrite run_bind, run_act. unfold bindM at 1. unfold getM at 1. unfold the_block_size. unfold bindM at 1, getM at 1, retM at 1. cbv zeta. set (bs0 := block_size o1).
  apply loop_alone. intros i acc s. unfold cbc_enc_turn. rewrite run_bind, run_act. unfold vector, bindM, getM, retM, liftM. rewrite run_bind, run_act. unfold enciphered, bindM, getM, liftM. now destruct (co_encrypt _ _).
Qed.
Lemma cbc_decrypt_alone data o : run (p_cbc_decrypt data) o = cbc_decrypt data o.
Proof.
  unfold p_cbc_decrypt, cbc_decrypt. rewrite run_bind, run_act. first_bind. destruct (check_ciphertext data o) as [[d|e] o1]; [|reflexivity]. rewrite run_bind, run_act. unfold bindM at 1. unfold getM at 1. unfold the_block_size. unfold bindM at 1, getM at 1, retM at 1. cbv zeta. set (bs0 := block_size o1).
  apply loop_alone. intros i acc s. unfold cbc_dec_turn. rewrite run_bind, run_act. unfold deciphered, bindM, getM, retM, liftM. destruct (co_decrypt _ _); [|reflexivity]. rewrite run_bind, run_act. unfold vector, bindM, getM, retM. reflexivity.
Qed.
Lemma set_keeps d : keeps block_size (_set_init_vect d).
Proof. intros s. reflexivity. Qed.
Lemma cfb_encrypt_alone data o : run (p_cfb_encrypt data) o = cfb_encrypt data o.
Proof.
  unfold p_cfb_encrypt, cfb_encrypt. rewrite run_bind, run_act. first_bind. destruct (check_plaintext data o) as [[d|e] o1]; [|reflexivity]. rewrite run_bind, run_act. unfold bindM at 1. unfold getM at 1. unfold the_block_size. unfold bindM at 1, getM at 1, retM at 1. cbv zeta. set (bs0 := block_size o1).
  rewrite run_bind. first_bind.
  match goal with |- _ = match forM ?xs ?acc ?g _ with _ => _ end => rewrite (run_for xs _ g); [pose proof (for_keeps block_size xs g) as HK|] end.
  2:{ intros i acc s. unfold cfb_enc_turn. rewrite run_bind, run_act. unfold bindM at 1. destruct (_get_gamma s) as [[g|e] s']; reflexivity. }
  match type of HK with ?P -> _ => assert (HB : P) end.
  { intros x acc s. unfold bindM. pose proof (gamma_keeps s) as G. destruct (_get_gamma s) as [[g|e] s']; cbn in G; subst s'; reflexivity. }
  specialize (HK HB [] o1). destruct (forM _ _ _ o1) as [[r|e] o2]; [|reflexivity]. cbn [snd] in HK. now apply final_keeps.
Qed.
Lemma cfb_decrypt_alone data o : run (p_cfb_decrypt data) o = cfb_decrypt data o.
Proof.
  unfold p_cfb_decrypt, cfb_decrypt. rewrite run_bind, run_act. first_bind. destruct (check_ciphertext data o) as [[d|e] o1]; [|reflexivity]. rewrite run_bind, run_act. unfold bindM at 1. unfold getM at 1. unfold the_block_size. unfold bindM at 1, getM at 1, retM at 1. cbv zeta. set (bs0 := block_size o1).
  rewrite run_bind. first_bind.
  match goal with |- _ = match forM ?xs ?acc ?g _ with _ => _ end => rewrite (run_for xs _ g); [pose proof (for_keeps block_size xs g) as HK|] end.
  2:{ intros i acc s. unfold cfb_dec_turn. rewrite run_bind, run_act. unfold bindM at 1. destruct (_get_gamma s) as [[g|e] s']; reflexivity. }
  match type of HK with ?P -> _ => assert (HB : P) end.
  { intros x acc s. unfold bindM. pose proof (gamma_keeps s) as G. destruct (_get_gamma s) as [[g|e] s']; cbn in G; subst s'; reflexivity. }
  specialize (HK HB [] o1). destruct (forM _ _ _ o1) as [[r|e] o2]; [|reflexivity]. cbn [snd] in HK. now apply final_keeps.
Qed.

(** ** What one block does: the output, and the vector after it *)
Record step_of : Type := { out : bytes -> bytes -> bytes; next : bytes -> bytes -> bytes }.
(** The outputs of a call alone, and of the first of two threads that take turns: it works with the vectors of the second. *)
Fixpoint own (f : step_of) (v : bytes) (xs : list bytes) : list bytes :=
  match xs with [] => [] | x :: xs => out f v x :: own f (next f v x) xs end.
Fixpoint mixed (f : step_of) (v : bytes) (xs ys : list bytes) : list bytes :=
  match xs, ys with x :: xs, y :: ys => out f v x :: mixed f (next f v y) xs ys | _, _ => [] end.
Fixpoint later (f : step_of) (v : bytes) (xs : list bytes) : bytes :=
  match xs with [] => v | x :: xs => later f (next f v x) xs end.

Section Turns.
  Variable o : mode_obj.
  Let c := o_cipher o.
  Variable f : step_of.
  Variable turn : Z -> bytes -> Z -> bytes -> proc mode_obj bytes.
  Hypothesis alone_turn : forall v d i r, block c v -> block c (_get_block (bs c) d i) -> run (turn (bs c) d i r) (set_iv o v) = (Ok (r ++ out f v (_get_block (bs c) d i)), set_iv o (next f v (_get_block (bs c) d i))) /\ block c (next f v (_get_block (bs c) d i)).
  Hypothesis lock_turn : forall v d1 d2 i r1 r2 (G1 G2 : bytes -> proc mode_obj bytes) (H1 H2 : bytes -> proc mode_obj bytes), block c v -> block c (_get_block (bs c) d1 i) -> block c (_get_block (bs c) d2 i) ->
    lock (bindP (bindP (turn (bs c) d1 i r1) G1) H1) (bindP (bindP (turn (bs c) d2 i r2) G2) H2) (set_iv o v)
      (bindP (G1 (r1 ++ out f v (_get_block (bs c) d1 i))) H1) (bindP (G2 (r2 ++ out f v (_get_block (bs c) d2 i))) H2) (set_iv o (next f v (_get_block (bs c) d2 i))).
  Let B (d : bytes) (xs : list Z) : Prop := Forall (block c) (map (_get_block (bs c) d) xs).
  Lemma alone_loop d xs : B d xs -> forall v r, block c v -> run (forP xs r (turn (bs c) d)) (set_iv o v) = (Ok (r ++ concat (own f v (map (_get_block (bs c) d) xs))), set_iv o (later f v (map (_get_block (bs c) d) xs))) /\ block c (later f v (map (_get_block (bs c) d) xs)).
  Proof using alone_turn.
    induction xs as [|x xs IH]; intros HB v r Hv.
    - cbn [forP run map own later concat]. rewrite app_nil_r. now split.
    - apply Forall_cons_iff in HB as [Hx HB]. destruct (alone_turn v d x r Hv Hx) as [E1 Hn]. cbn [forP]. rewrite run_bind, E1. destruct (IH HB _ (r ++ out f v (_get_block (bs c) d x)) Hn) as [E2 Hl]. rewrite E2. cbn [map own later concat]. rewrite <- app_assoc. now split.
  Qed.
  Lemma lock_loop d1 d2 H1 H2 xs : B d1 xs -> B d2 xs -> forall v r1 r2, block c v ->
    lock (bindP (forP xs r1 (turn (bs c) d1)) H1) (bindP (forP xs r2 (turn (bs c) d2)) H2) (set_iv o v)
      (H1 (r1 ++ concat (mixed f v (map (_get_block (bs c) d1) xs) (map (_get_block (bs c) d2) xs)))) (H2 (r2 ++ concat (own f v (map (_get_block (bs c) d2) xs)))) (set_iv o (later f v (map (_get_block (bs c) d2) xs))) (A := bytes).
  Proof using alone_turn lock_turn.
    induction xs as [|x xs IH]; intros HB1 HB2 v r1 r2 Hv.
    - cbn [forP bindP map own mixed later concat]. rewrite !app_nil_r. apply lock_refl.
    - apply Forall_cons_iff in HB1 as [Hx1 HB1]. apply Forall_cons_iff in HB2 as [Hx2 HB2]. destruct (alone_turn v d2 x r2 Hv Hx2) as [_ Hn]. cbn [forP].
      eapply lock_trans; [apply lock_turn; assumption|]. eapply lock_trans; [apply (IH HB1 HB2 _ _ _ Hn)|]. cbn [map own mixed later concat]. rewrite <- !app_assoc. apply lock_refl.
  Qed.
End Turns.

(** A call: the data is checked, the blocks are processed, what follows does nothing for whole blocks. *)
Definition whole_data (c : cipher_obj) (m : bytes) : Prop := bytes_ok m /\ len m mod bs c = 0.
Definition call_of (turn : Z -> bytes -> Z -> bytes -> proc mode_obj bytes) (fin : Z -> bytes -> bytes -> proc mode_obj bytes) (check : M mode_obj bytes) : proc mode_obj bytes :=
  let& data := act check in
  let& bs := act the_block_size in
  let& result := forP (py_range 0 (_get_num_block bs data) 1) [] (turn bs data) in
  fin bs data result.
Definition good_turn (o : mode_obj) (f : step_of) (turn : Z -> bytes -> Z -> bytes -> proc mode_obj bytes) : Prop :=
  (forall v d i r, block (o_cipher o) v -> block (o_cipher o) (_get_block (bs (o_cipher o)) d i) -> run (turn (bs (o_cipher o)) d i r) (set_iv o v) = (Ok (r ++ out f v (_get_block (bs (o_cipher o)) d i)), set_iv o (next f v (_get_block (bs (o_cipher o)) d i))) /\ block (o_cipher o) (next f v (_get_block (bs (o_cipher o)) d i))) /\
  (forall v d1 d2 i r1 r2 (G1 G2 : bytes -> proc mode_obj bytes) (H1 H2 : bytes -> proc mode_obj bytes), block (o_cipher o) v -> block (o_cipher o) (_get_block (bs (o_cipher o)) d1 i) -> block (o_cipher o) (_get_block (bs (o_cipher o)) d2 i) ->
    lock (bindP (bindP (turn (bs (o_cipher o)) d1 i r1) G1) H1) (bindP (bindP (turn (bs (o_cipher o)) d2 i r2) G2) H2) (set_iv o v)
      (bindP (G1 (r1 ++ out f v (_get_block (bs (o_cipher o)) d1 i))) H1) (bindP (G2 (r2 ++ out f v (_get_block (bs (o_cipher o)) d2 i))) H2) (set_iv o (next f v (_get_block (bs (o_cipher o)) d2 i)))).
Lemma call_alone o f turn fin v m check : good_turn o f turn -> block (o_cipher o) v -> o_init_vect o = v -> whole_data (o_cipher o) m -> (forall r, fin (bs (o_cipher o)) m r = Ret r) -> check o = (Ok m, o) ->
  fst (run (call_of turn fin check) o) = Ok (concat (own f v (blocks (nbs (o_cipher o)) m))).
Proof.
  intros [HA _] Hv Ev [Hok Hm] Hf Hc. assert (Eo : o = set_iv o v) by (rewrite <- Ev; symmetry; apply set_iv_same).
  destruct (whole_blocks _ m Hok Hm) as (bl & -> & HF & -> & Hcut). pose proof (get_blocks _ _ _ _ (bs_pos _) Hcut) as M1.
  unfold call_of. rewrite run_bind, run_act, Hc, run_bind, run_act. unfold the_block_size, bindM at 1, getM at 1, retM at 1. change (block_size o) with (bs (o_cipher o)). rewrite run_bind.
  assert (HB : Forall (block (o_cipher o)) (map (_get_block (bs (o_cipher o)) (concat bl)) (py_range 0 (_get_num_block (bs (o_cipher o)) (concat bl)) 1))) by (rewrite M1; exact HF).
  destruct (alone_loop o f turn HA (concat bl) _ HB v [] Hv) as [E _]. rewrite M1 in E. match goal with |- fst match ?x with _ => _ end = _ => replace x with (run (forP (py_range 0 (_get_num_block (bs (o_cipher o)) (concat bl)) 1) [] (turn (bs (o_cipher o)) (concat bl))) (set_iv o v)) by now rewrite <- Eo end. rewrite E, Hf. reflexivity.
Qed.
Lemma call_together o f turn fin v m1 m2 check1 check2 : good_turn o f turn -> block (o_cipher o) v -> o_init_vect o = v -> whole_data (o_cipher o) m1 -> whole_data (o_cipher o) m2 -> len m1 = len m2 ->
  (forall m r, len m = len m1 -> fin (bs (o_cipher o)) m r = Ret r) -> check1 o = (Ok m1, o) -> check2 o = (Ok m2, o) ->
  exists o', lock (call_of turn fin check1) (call_of turn fin check2) o (Ret (concat (mixed f v (blocks (nbs (o_cipher o)) m1) (blocks (nbs (o_cipher o)) m2)))) (Ret (concat (own f v (blocks (nbs (o_cipher o)) m2)))) o'.
Proof.
  intros [HA HT] Hv Ev [Hok1 Hm1] [Hok2 Hm2] HL Hf Hc1 Hc2. assert (Eo : o = set_iv o v) by (rewrite <- Ev; symmetry; apply set_iv_same).
  destruct (whole_blocks _ m1 Hok1 Hm1) as (bl1 & E1 & HF1 & -> & Hcut1). destruct (whole_blocks _ m2 Hok2 Hm2) as (bl2 & E2 & HF2 & -> & Hcut2). pose proof (get_blocks _ _ _ _ (bs_pos _) Hcut1) as M1. pose proof (get_blocks _ _ _ _ (bs_pos _) Hcut2) as M2.
  eexists. unfold call_of. eapply lock_trans; [eapply lock_act; [exact Hc1 | exact Hc2]|]. eapply lock_trans; [eapply lock_act; reflexivity|]. change (block_size o) with (bs (o_cipher o)).
  assert (Hx : py_range 0 (_get_num_block (bs (o_cipher o)) m1) 1 = py_range 0 (_get_num_block (bs (o_cipher o)) m2) 1) by (unfold _get_num_block; now rewrite HL). rewrite Hx in M1 |- *.
  assert (HB1 : Forall (block (o_cipher o)) (map (_get_block (bs (o_cipher o)) m1) (py_range 0 (_get_num_block (bs (o_cipher o)) m2) 1))) by (rewrite M1; exact HF1).
  assert (HB2 : Forall (block (o_cipher o)) (map (_get_block (bs (o_cipher o)) m2) (py_range 0 (_get_num_block (bs (o_cipher o)) m2) 1))) by (rewrite M2; exact HF2).
  match goal with |- lock ?p1 ?p2 o _ _ _ => enough (G : forall s, s = set_iv o v -> lock p1 p2 s (Ret (concat (mixed f v bl1 bl2))) (Ret (concat (own f v bl2))) (set_iv o (later f v bl2))) by exact (G o Eo) end. intros s ->.
  eapply lock_trans; [apply (lock_loop o f turn HA HT m1 m2 _ _ _ HB1 HB2 v [] [] Hv)|].
  rewrite M1, M2, !Hf by (try reflexivity; now symmetry). cbn [app]. apply lock_refl.
Qed.

(** ** The four steps *)
Definition cbc_e (c : cipher_obj) : step_of := {| out := fun v x => oE c (add_xor v x); next := fun v x => oE c (add_xor v x) |}.
Definition cbc_d (c : cipher_obj) : step_of := {| out := fun v x => add_xor v (oD c x); next := fun _ x => x |}.
Definition cfb_e (c : cipher_obj) : step_of := {| out := fun v x => add_xor (oE c v) x; next := fun v x => add_xor (oE c v) x |}.
Definition cfb_d (c : cipher_obj) : step_of := {| out := fun v x => add_xor (oE c v) x; next := fun _ x => x |}.
Lemma one_vector o v : block (o_cipher o) v -> vector (bs (o_cipher o)) (set_iv o v) = (Ok v, set_iv o v).
Proof. intros Hv. unfold vector, bindM, getM, retM. cbn [o_init_vect set_iv]. now rewrite (py_slice_block (o_cipher o) v Hv). Qed.
Lemma one_enciphered o v x : co_ok (o_cipher o) -> block (o_cipher o) x -> enciphered x (set_iv o v) = (Ok (oE (o_cipher o) x), set_iv o v).
Proof. intros Hc Hx. unfold enciphered, bindM, getM, liftM. cbn [o_cipher set_iv]. now destruct (co_enc _ _ Hc Hx) as [-> _]. Qed.
Lemma one_deciphered o v x : co_ok (o_cipher o) -> block (o_cipher o) x -> deciphered x (set_iv o v) = (Ok (oD (o_cipher o) x), set_iv o v).
Proof. intros Hc Hx. unfold deciphered, bindM, getM, liftM. cbn [o_cipher set_iv]. now destruct (co_dec _ _ Hc Hx) as [-> _]. Qed.
Lemma one_put o v d : block (o_cipher o) v -> block (o_cipher o) d -> _set_init_vect d (set_iv o v) = (Ok tt, set_iv o d).
Proof. intros Hv Hd. rewrite <- (py_slice_block (o_cipher o) d Hd) at 1. now apply one_set. Qed.
Lemma cbc_e_good o : co_ok (o_cipher o) -> good_turn o (cbc_e (o_cipher o)) cbc_enc_turn.
Proof.
  intros Hc. split.
  - intros v d i r Hv Hb. cbn [out next cbc_e]. assert (Hx := xor_block _ _ _ Hv Hb). assert (He := oE_block _ _ Hc Hx). split; [|exact He].
    unfold cbc_enc_turn. rewrite run_bind, run_act, (one_vector o v Hv), run_bind, run_act, (one_enciphered o v _ Hc Hx), run_bind, run_act, (one_set o v _ Hv He). reflexivity.
  - intros v d1 d2 i r1 r2 G1 G2 H1 H2 Hv Hb1 Hb2. cbn [out next cbc_e]. assert (He1 := oE_block _ _ Hc (xor_block _ _ _ Hv Hb1)). assert (He2 := oE_block _ _ Hc (xor_block _ _ _ Hv Hb2)). unfold cbc_enc_turn.
    eapply lock_trans; [eapply lock_act3; apply one_vector; assumption|]. eapply lock_trans; [eapply lock_act3; (apply one_enciphered; [exact Hc | now apply xor_block])|].
    eapply lock_trans; [eapply lock_act3; (apply one_set; assumption)|]. cbn [bindP]. apply lock_refl.
Qed.
Lemma cbc_d_good o : co_ok (o_cipher o) -> good_turn o (cbc_d (o_cipher o)) cbc_dec_turn.
Proof.
  intros Hc. split.
  - intros v d i r Hv Hb. cbn [out next cbc_d]. split; [|exact Hb].
    unfold cbc_dec_turn. rewrite run_bind, run_act, (one_deciphered o v _ Hc Hb), run_bind, run_act, (one_vector o v Hv). cbv zeta. rewrite run_bind, run_act, (one_put o v _ Hv Hb). reflexivity.
  - intros v d1 d2 i r1 r2 G1 G2 H1 H2 Hv Hb1 Hb2. cbn [out next cbc_d]. unfold cbc_dec_turn.
    eapply lock_trans; [eapply lock_act3; apply one_deciphered; assumption|]. eapply lock_trans; [eapply lock_act3; apply one_vector; assumption|]. cbv zeta.
    eapply lock_trans; [eapply lock_act3; (apply one_put; assumption)|]. cbn [bindP]. apply lock_refl.
Qed.
Lemma cfb_e_good o : co_ok (o_cipher o) -> good_turn o (cfb_e (o_cipher o)) cfb_enc_turn.
Proof.
  intros Hc. split.
  - intros v d i r Hv Hb. cbn [out next cfb_e]. assert (He := xor_block _ _ _ (oE_block _ _ Hc Hv) Hb). split; [|exact He].
    unfold cfb_enc_turn. rewrite run_bind, run_act, (one_gamma o v Hc Hv). cbv zeta. rewrite run_bind, run_act, (one_set o v _ Hv He). reflexivity.
  - intros v d1 d2 i r1 r2 G1 G2 H1 H2 Hv Hb1 Hb2. cbn [out next cfb_e]. assert (He1 := xor_block _ _ _ (oE_block _ _ Hc Hv) Hb1). assert (He2 := xor_block _ _ _ (oE_block _ _ Hc Hv) Hb2). unfold cfb_enc_turn.
    eapply lock_trans; [eapply lock_act3; apply one_gamma; assumption|]. cbv zeta. eapply lock_trans; [eapply lock_act3; (apply one_set; assumption)|]. cbn [bindP]. apply lock_refl.
Qed.
Lemma cfb_d_good o : co_ok (o_cipher o) -> good_turn o (cfb_d (o_cipher o)) cfb_dec_turn.
Proof.
  intros Hc. split.
  - intros v d i r Hv Hb. cbn [out next cfb_d]. split; [|exact Hb].
    unfold cfb_dec_turn. rewrite run_bind, run_act, (one_gamma o v Hc Hv). cbv zeta. rewrite run_bind, run_act, (one_put o v _ Hv Hb). reflexivity.
  - intros v d1 d2 i r1 r2 G1 G2 H1 H2 Hv Hb1 Hb2. cbn [out next cfb_d]. unfold cfb_dec_turn.
    eapply lock_trans; [eapply lock_act3; apply one_gamma; assumption|]. cbv zeta. eapply lock_trans; [eapply lock_act3; (apply one_put; assumption)|]. cbn [bindP]. apply lock_refl.
Qed.

(** ** What the mixture tells *)
Section Mix.
  Variable P : bytes -> Prop.
  Variables e d : step_of.
  Hypothesis e_next : forall v x, next e v x = out e v x.
  Hypothesis d_next : forall v x, next d v x = x.
  Hypothesis e_ok : forall v x, P v -> P x -> P (out e v x).
  Hypothesis d_ok : forall v x, P v -> P x -> P (out d v x).
  Hypothesis e_inj : forall v x y, P v -> P x -> P y -> out e v x = out e v y -> x = y.
  Hypothesis d_sep : forall v v' x, P v -> P v' -> P x -> out d v x = out d v' x -> v = v'.
  Hypothesis d_e : forall v x, P v -> P x -> out d v (out e v x) = x.
  Lemma removelast_cons {A} (x : A) xs : removelast (x :: xs) = match xs with [] => [] | _ => x :: removelast xs end.
  Proof. reflexivity. Qed.
  Lemma own_ok f : (f = e \/ f = d) -> forall xs v, P v -> Forall P xs -> Forall P (own f v xs).
  Proof using e_next d_next e_ok d_ok.
    intros Hf xs. induction xs as [|x xs IH]; intros v Hv HF; [constructor|]. apply Forall_cons_iff in HF as [Hx HF]. cbn [own]. constructor; [destruct Hf as [->| ->]; auto|]. apply IH; [|exact HF]. destruct Hf as [->| ->]; [rewrite e_next | rewrite d_next]; auto.
  Qed.
  Lemma mixed_ok f : (f = e \/ f = d) -> forall xs ys v, P v -> Forall P xs -> Forall P ys -> Forall P (mixed f v xs ys).
  Proof using e_next d_next e_ok d_ok.
    intros Hf xs. induction xs as [|x xs IH]; intros ys v Hv HF HG; [constructor|]. destruct ys as [|y ys]; [constructor|]. apply Forall_cons_iff in HF as [Hx HF]. apply Forall_cons_iff in HG as [Hy HG]. cbn [mixed]. constructor; [destruct Hf as [->| ->]; auto|]. apply IH; [|exact HF | exact HG]. destruct Hf as [->| ->]; [rewrite e_next | rewrite d_next]; auto.
  Qed.
  Lemma mixed_length f : forall xs ys v, List.length xs = List.length ys -> List.length (mixed f v xs ys) = List.length xs.
  Proof. induction xs as [|x xs IH]; intros [|y ys] v HL; try discriminate HL; [reflexivity|]. cbn. f_equal. apply IH. now injection HL. Qed.
  Lemma own_length f : forall xs v, List.length (own f v xs) = List.length xs.
  Proof. induction xs as [|x xs IH]; intros v; [reflexivity|]. cbn. f_equal. apply IH. Qed.
  (** The ciphertext of the first thread decrypted alone. *)
  Lemma mixed_decrypts : forall xs ys v v', List.length xs = List.length ys -> P v -> P v' -> Forall P xs -> Forall P ys ->
    (own d v' (mixed e v xs ys) = xs <-> (xs = [] \/ v' = v) /\ removelast xs = removelast ys).
  Proof using e_next d_next e_ok e_inj d_sep d_e.
    induction xs as [|x xs IH]; intros [|y ys] v v' HL Hv Hv' HF HG; try discriminate HL; [cbn; intuition|]. apply Forall_cons_iff in HF as [Hx HF]. apply Forall_cons_iff in HG as [Hy HG]. injection HL as HL. cbn [mixed own]. rewrite d_next, e_next.
    assert (Hex := e_ok _ _ Hv Hx). assert (Hey := e_ok _ _ Hv Hy). specialize (IH ys (out e v y) (out e v x) HL Hey Hex HF HG).
    assert (Hhead : out d v' (out e v x) = x <-> v' = v). { split; [|intros ->; auto]. intros E. apply (d_sep v' v (out e v x)); auto. rewrite E. symmetry. auto. }
    split.
    - intros E. injection E as E1 E2. apply Hhead in E1. subst v'. apply IH in E2 as [E2 E3]. split; [now right|]. rewrite !removelast_cons. destruct xs as [|x1 xs], ys as [|y1 ys]; try discriminate HL; [reflexivity|]. destruct E2 as [E2|E2]; [discriminate E2|]. f_equal; [|exact E3]. now apply (e_inj v x y).
    - intros [[E|E] R]; [discriminate E|]. subst v'. f_equal; [auto|]. apply IH. rewrite !removelast_cons in R. destruct xs as [|x1 xs], ys as [|y1 ys]; try discriminate HL; [split; [now left | reflexivity]|]. injection R as -> R. split; [now right | exact R].
  Qed.
  (** The blocks of the two ciphertexts are equal where the blocks of the messages are. *)
  Lemma mixed_pattern : forall xs ys v k, List.length xs = List.length ys -> P v -> Forall P xs -> Forall P ys ->
    (nth_error (mixed e v xs ys) k = nth_error (own e v ys) k <-> nth_error xs k = nth_error ys k).
  Proof using e_next e_ok e_inj.
    induction xs as [|x xs IH]; intros [|y ys] v k HL Hv HF HG; try discriminate HL; [cbn; destruct k; intuition|]. apply Forall_cons_iff in HF as [Hx HF]. apply Forall_cons_iff in HG as [Hy HG]. injection HL as HL. cbn [mixed own]. destruct k as [|k]; cbn [nth_error].
    - split; intros E; injection E as E; [f_equal; now apply (e_inj v) | now rewrite E].
    - apply IH; auto. rewrite e_next. auto.
  Qed.
  (** The message of the first thread. *)
  Lemma mixed_reads : forall xs ys v v', List.length xs = List.length ys -> P v -> P v' -> Forall P xs -> Forall P ys ->
    (mixed d v xs ys = own d v' xs <-> (xs = [] \/ v' = v) /\ removelast xs = removelast ys).
  Proof using d_next d_sep.
    induction xs as [|x xs IH]; intros [|y ys] v v' HL Hv Hv' HF HG; try discriminate HL; [cbn; intuition|]. apply Forall_cons_iff in HF as [Hx HF]. apply Forall_cons_iff in HG as [Hy HG]. injection HL as HL. cbn [mixed own]. rewrite !d_next. specialize (IH ys y x HL Hy Hx HF HG).
    split.
    - intros E. injection E as E1 E2. apply d_sep in E1; auto. subst v'. apply IH in E2 as [E2 E3]. split; [now right|]. rewrite !removelast_cons. destruct xs as [|x1 xs], ys as [|y1 ys]; try discriminate HL; [reflexivity|]. destruct E2 as [E2|E2]; [discriminate E2|]. now f_equal.
    - intros [[E|E] R]; [discriminate E|]. subst v'. f_equal. apply IH. rewrite !removelast_cons in R. destruct xs as [|x1 xs], ys as [|y1 ys]; try discriminate HL; [split; [now left | reflexivity]|]. injection R as -> R. split; [now right | exact R].
  Qed.
End Mix.

(** ** Both modes *)
Inductive chained := Cbc | Cfb.
Definition code (f : chained) : Z := match f with Cbc => MODE_CBC | Cfb => MODE_CFB end.
Definition enc_thread (f : chained) (m : bytes) : proc mode_obj bytes := match f with Cbc => p_cbc_encrypt (VBytes m) | Cfb => p_cfb_encrypt (VBytes m) end.
Definition dec_thread (f : chained) (m : bytes) : proc mode_obj bytes := match f with Cbc => p_cbc_decrypt (VBytes m) | Cfb => p_cfb_decrypt (VBytes m) end.
(** Messages of a positive number of whole blocks. *)
Definition in_blocks (a : balg) (m : bytes) : Prop := bytes_ok m /\ m <> [] /\ (List.length m mod bsize a = 0)%nat.
(** Equal up to the last block. *)
Definition alike (a : balg) (m1 m2 : bytes) : Prop := firstn (List.length m1 - bsize a) m1 = firstn (List.length m2 - bsize a) m2.

Definition e_of (f : chained) (c : cipher_obj) : step_of := match f with Cbc => cbc_e c | Cfb => cfb_e c end.
Definition d_of (f : chained) (c : cipher_obj) : step_of := match f with Cbc => cbc_d c | Cfb => cfb_d c end.
Lemma e_next f c v x : next (e_of f c) v x = out (e_of f c) v x.
Proof. now destruct f. Qed.
Lemma d_next f c v x : next (d_of f c) v x = x.
Proof. now destruct f. Qed.
Lemma blen c a b : block c a -> block c b -> len a = len b.
Proof. intros [H _] [G _]. congruence. Qed.
Lemma xor_inj a b b' : len a = len b -> len a = len b' -> add_xor a b = add_xor a b' -> b = b'.
Proof. intros H1 H2 E. rewrite <- (add_xor_cancel a b H1), E. now apply add_xor_cancel. Qed.
Lemma xor_inj' a a' b : len a = len b -> len a' = len b -> add_xor a b = add_xor a' b -> a = a'.
Proof. intros H1 H2 E. rewrite (add_xor_comm a), (add_xor_comm a') in E. apply (xor_inj b); congruence. Qed.
Section Facts.
  Variables (f : chained) (c : cipher_obj).
  Hypothesis Hc : co_ok c.
  Lemma e_ok v x : block c v -> block c x -> block c (out (e_of f c) v x).
  Proof using Hc. intros Hv Hx. destruct f; cbn; [apply oE_block; [exact Hc | now apply xor_block] | apply xor_block; [now apply oE_block | exact Hx]]. Qed.
  Lemma d_ok v x : block c v -> block c x -> block c (out (d_of f c) v x).
  Proof using Hc. intros Hv Hx. destruct f; cbn; (apply xor_block; [|]); try assumption; [now apply oD_block | now apply oE_block]. Qed.
  Lemma e_inj v x y : block c v -> block c x -> block c y -> out (e_of f c) v x = out (e_of f c) v y -> x = y.
  Proof using Hc.
    intros Hv Hx Hy E. destruct f; cbn in E.
    - apply (oE_inj c _ _ Hc) in E; try now apply xor_block. apply (xor_inj v) in E; auto; now apply (blen c).
    - apply xor_inj in E; auto; apply (blen c); auto; now apply oE_block.
  Qed.
  Lemma d_sep v v' x : block c v -> block c v' -> block c x -> out (d_of f c) v x = out (d_of f c) v' x -> v = v'.
  Proof using Hc.
    intros Hv Hv' Hx E. destruct f; cbn in E; apply xor_inj' in E; try (apply (blen c); auto; now apply oE_block || now apply oD_block).
    - exact E.
    - now apply (oE_inj c _ _ Hc).
  Qed.
  Lemma d_e v x : block c v -> block c x -> out (d_of f c) v (out (e_of f c) v x) = x.
  Proof using Hc.
    intros Hv Hx. destruct f; cbn.
    - rewrite (oD_oE c _ Hc) by now apply xor_block. apply add_xor_cancel. now apply (blen c).
    - apply add_xor_cancel. apply (blen c); [now apply oE_block | exact Hx].
  Qed.
End Facts.

(** Blocks and octets. *)
Lemma concat_same n (xs : list bytes) : (0 < n)%nat -> Forall (fun b => List.length b = n) xs -> forall ys, Forall (fun b => List.length b = n) ys -> concat xs = concat ys -> xs = ys.
Proof.
  intros Hn HF. induction HF as [|x xs Hx HF IH]; intros ys HG E.
  - destruct HG as [|y ys Hy HG]; [reflexivity|]. cbn in E. destruct y; [cbn in Hy; lia | discriminate E].
  - destruct HG as [|y ys Hy HG]; [cbn in E; destruct x; [cbn in Hx; lia | discriminate E]|]. cbn in E. apply app_eq_app in E. destruct E as (l & [[E1 E2]|[E1 E2]]); subst; rewrite app_length in *; assert (l = []) as -> by (destruct l; [reflexivity | cbn in *; lia]); rewrite ?app_nil_r in *; cbn in E2; f_equal; auto.
Qed.
Lemma concat_but_last n (xs : list bytes) : Forall (fun b => List.length b = n) xs -> concat (removelast xs) = firstn (List.length (concat xs) - n) (concat xs).
Proof.
  intros HF. destruct xs as [|x xs] using rev_ind; [now rewrite firstn_nil|]. rewrite removelast_last, concat_app. cbn [concat]. rewrite app_nil_r, app_length. apply Forall_app in HF as [_ Hx]. inversion Hx as [|? ? Hl _]. rewrite Hl. replace (List.length (concat xs) + n - n)%nat with (List.length (concat xs) + 0)%nat by lia. rewrite firstn_app_2. cbn. now rewrite app_nil_r.
Qed.
Lemma alike_blocks a xs ys : Forall (fun b => List.length b = bsize a) xs -> Forall (fun b => List.length b = bsize a) ys -> (removelast xs = removelast ys <-> alike a (concat xs) (concat ys)).
Proof.
  intros HF HG. unfold alike. rewrite <- !concat_but_last by assumption. split; [now intros ->|].
  assert (Sub : forall zs, Forall (fun b : bytes => List.length b = bsize a) zs -> Forall (fun b : bytes => List.length b = bsize a) (removelast zs)).
  { intros zs HZ. destruct zs as [|z zs] using rev_ind; [exact HZ|]. rewrite removelast_last. now apply Forall_app in HZ as [HZ _]. }
  apply (concat_same (bsize a)); auto. destruct a; cbn; lia.
Qed.

Lemma block_lengths a key c xs : made a key c -> Forall (block c) xs -> Forall (fun b => List.length b = bsize a) xs.
Proof. intros Hm HF. eapply Forall_impl; [|exact HF]. intros b Hb. rewrite (block_length _ _ Hb). exact (made_nbs _ _ _ Hm). Qed.
Lemma in_blocks_whole a key c m : made a key c -> in_blocks a m -> whole_data c m.
Proof. intros Hm (Hok & _ & HM). split; [exact Hok|]. unfold len. rewrite (made_bs _ _ _ Hm), <- Nat2Z.inj_mod, HM. reflexivity. Qed.
Lemma blocks_back c xs : Forall (block c) xs -> blocks (nbs c) (concat xs) = xs /\ whole_data c (concat xs).
Proof.
  intros HF. assert (HT : (List.length (@nil Z) < nbs c)%nat) by apply nbs_pos. pose proof (cut_of c xs [] HF HT) as HC. cbn [opt_block] in HC. rewrite app_nil_r in HC. pose proof (blocks_cut _ _ _ _ (bs_pos c) HC) as HB. cbn [opt_block] in HB. rewrite app_nil_r in HB. split; [exact HB|]. split.
  - clear - HF. induction HF as [|x xs [_ Hx] _ IH]; [constructor|]. cbn. apply bytes_ok_app. now split.
  - exact (cut_mod _ _ _ _ HC).
Qed.
Definition fin_of (f : chained) : Z -> bytes -> bytes -> proc mode_obj bytes := match f with Cbc => fun _ _ r => Ret r | Cfb => p_final end.
Lemma fin_whole f c m r : len m mod bs c = 0 -> fin_of f (bs c) m r = Ret r.
Proof. intros H. destruct f; [reflexivity|]. unfold fin_of, p_final. now rewrite H. Qed.
Definition class_of (f : chained) : mode_class := match f with Cbc => CBC | Cfb => CFB end.
Lemma fresh_chained f a key iv o : bytes_len 32 key -> blk (bsize a) iv -> new (alg a) (VBytes key) (VInt (code f)) (with_iv iv) = Ok (NewMode o) ->
  made a key (o_cipher o) /\ block (o_cipher o) iv /\ o_init_vect o = iv /\ o_class o = class_of f /\ (f = Cbc -> o_pad_mode o = PAD_MODE_1).
Proof.
  intros Hk [Hok Hl] HN. assert (Hi : len iv mod Z.of_nat (bsize a) = 0) by (unfold len; rewrite Hl; apply Z_mod_same_full).
  assert (Hb : forall c, made a key c -> block c iv) by (intros c Hm; split; [unfold len; rewrite Hl; symmetry; exact (made_bs _ _ _ Hm) | exact Hok]).
  destruct f; cbn [code] in HN.
  - destruct (new_cbc a key (with_iv iv) P1 iv Hk eq_refl eq_refl Hi) as (c & Ec & Hm). rewrite Ec in HN. injection HN as <-. split; [exact Hm|]. split; [now apply Hb|]. split; [reflexivity|]. split; [reflexivity|]. reflexivity.
  - destruct (new_cfb a key (with_iv iv) iv Hk eq_refl Hi) as (c & Ec & Hm). rewrite Ec in HN. injection HN as <-. split; [exact Hm|]. split; [now apply Hb|]. split; [reflexivity|]. split; [reflexivity|]. discriminate.
Qed.
Lemma pad_nothing o m : o_pad_mode o = PAD_MODE_1 -> m <> [] -> len m mod block_size o = 0 -> padding_encrypt (VBytes m) o = (Ok m, o).
Proof.
  intros Hp Hne HM. unfold padding_encrypt, check_plaintext, bindM, getM, retM. rewrite Hp. unfold _set_padding. rewrite Z.eqb_refl. unfold _set_pad_mode_1, _get_pad_size. assert (Hlen : 0 < len m) by (unfold len; destruct m; [congruence | cbn; lia]). pose proof (bs_pos (o_cipher o)) as HB. fold (block_size o) in HB.
  destruct (len m <? block_size o) eqn:E; [apply Z.ltb_lt in E; rewrite Z.mod_small in HM by lia; lia|]. rewrite HM. cbn. now rewrite app_nil_r.
Qed.
Section Objects.
  Variables (f : chained) (a : balg) (key iv : bytes) (o : mode_obj).
  Hypothesis Hk : bytes_len 32 key.
  Hypothesis Hv : blk (bsize a) iv.
  Hypothesis HN : new (alg a) (VBytes key) (VInt (code f)) (with_iv iv) = Ok (NewMode o).
  Let c := o_cipher o.
  Let bl := blocks (nbs c).
  Lemma enc_is m : in_blocks a m -> exists turn check, good_turn o (e_of f c) turn /\ enc_thread f m = call_of turn (fin_of f) check /\ check o = (Ok m, o) /\ turn = (match f with Cbc => cbc_enc_turn | Cfb => cfb_enc_turn end).
  Proof using Hk Hv HN.
    intros Hm. destruct (fresh_chained f a key iv o Hk Hv HN) as (HM & _ & _ & _ & HP). assert (HW := in_blocks_whole _ _ _ _ HM Hm). destruct f.
    - exists cbc_enc_turn, (padding_encrypt (VBytes m)). split; [apply cbc_e_good; apply HM|]. split; [reflexivity|]. split; [|reflexivity]. apply pad_nothing; [now apply HP | apply Hm | apply HW].
    - exists cfb_enc_turn, (check_plaintext (VBytes m)). split; [apply cfb_e_good; apply HM|]. split; [reflexivity|]. split; reflexivity.
  Qed.
  Lemma dec_is m : exists turn check, good_turn o (d_of f c) turn /\ dec_thread f m = call_of turn (fin_of f) check /\ check o = (Ok m, o) /\ turn = (match f with Cbc => cbc_dec_turn | Cfb => cfb_dec_turn end).
  Proof using Hk Hv HN.
    destruct (fresh_chained f a key iv o Hk Hv HN) as (HM & _ & _ & _ & HP). destruct f.
    - exists cbc_dec_turn, (check_ciphertext (VBytes m)). split; [apply cbc_d_good; apply HM|]. split; [reflexivity|]. split; reflexivity.
    - exists cfb_dec_turn, (check_ciphertext (VBytes m)). split; [apply cfb_d_good; apply HM|]. split; [reflexivity|]. split; reflexivity.
  Qed.
  Lemma enc_alone m : in_blocks a m -> result (encrypt (VBytes m) o) = Ok (concat (own (e_of f c) iv (bl m))).
  Proof using Hk Hv HN.
    intros Hm. destruct (fresh_chained f a key iv o Hk Hv HN) as (HM & Hb & HI & HC & _). assert (HW := in_blocks_whole _ _ _ _ HM Hm). destruct (enc_is m Hm) as (turn & check & HG & HE & HK & _).
    replace (result (encrypt (VBytes m) o)) with (fst (run (enc_thread f m) o)).
    - rewrite HE. apply call_alone; try assumption. intros r. apply fin_whole. apply HW.
    - unfold result, encrypt, bindM, getM. rewrite HC. unfold enc_thread, class_of. destruct f; [now rewrite cbc_encrypt_alone | now rewrite cfb_encrypt_alone].
  Qed.
  Lemma dec_alone m : whole_data c m -> result (decrypt (VBytes m) o) = Ok (concat (own (d_of f c) iv (bl m))).
  Proof using Hk Hv HN.
    intros HW. destruct (fresh_chained f a key iv o Hk Hv HN) as (HM & Hb & HI & HC & _). destruct (dec_is m) as (turn & check & HG & HE & HK & _).
    replace (result (decrypt (VBytes m) o)) with (fst (run (dec_thread f m) o)).
    - rewrite HE. apply call_alone; try assumption. intros r. apply fin_whole. apply HW.
    - unfold result, decrypt, bindM, getM. rewrite HC. unfold dec_thread, class_of. destruct f; [now rewrite cbc_decrypt_alone | now rewrite cfb_decrypt_alone].
  Qed.
  Lemma enc_together m1 m2 : in_blocks a m1 -> in_blocks a m2 -> List.length m1 = List.length m2 ->
    exists o', lock (enc_thread f m1) (enc_thread f m2) o (Ret (concat (mixed (e_of f c) iv (bl m1) (bl m2)))) (Ret (concat (own (e_of f c) iv (bl m2)))) o'.
  Proof using Hk Hv HN.
    intros Hm1 Hm2 HL. assert (HL' : len m1 = len m2) by (unfold len; lia). destruct (fresh_chained f a key iv o Hk Hv HN) as (HM & Hb & HI & HC & _). assert (HW1 := in_blocks_whole _ _ _ _ HM Hm1). assert (HW2 := in_blocks_whole _ _ _ _ HM Hm2).
    destruct (enc_is m1 Hm1) as (t1 & check1 & HG & -> & HK1 & E1). destruct (enc_is m2 Hm2) as (t2 & check2 & _ & -> & HK2 & E2). rewrite <- E1 in E2. subst t2. apply call_together; try assumption. intros m r Hl. apply fin_whole. rewrite Hl. apply HW1.
  Qed.
  Lemma dec_together m1 m2 : in_blocks a m1 -> in_blocks a m2 -> List.length m1 = List.length m2 ->
    exists o', lock (dec_thread f m1) (dec_thread f m2) o (Ret (concat (mixed (d_of f c) iv (bl m1) (bl m2)))) (Ret (concat (own (d_of f c) iv (bl m2)))) o'.
  Proof using Hk Hv HN.
    intros Hm1 Hm2 HL. assert (HL' : len m1 = len m2) by (unfold len; lia). destruct (fresh_chained f a key iv o Hk Hv HN) as (HM & Hb & HI & HC & _). assert (HW1 := in_blocks_whole _ _ _ _ HM Hm1). assert (HW2 := in_blocks_whole _ _ _ _ HM Hm2).
    destruct (dec_is m1) as (t1 & check1 & HG & -> & HK1 & E1). destruct (dec_is m2) as (t2 & check2 & _ & -> & HK2 & E2). rewrite <- E1 in E2. subst t2. apply call_together; try assumption. intros m r Hl. apply fin_whole. rewrite Hl. apply HW1.
  Qed.
  Lemma blocks_of m : in_blocks a m -> m = concat (bl m) /\ Forall (block c) (bl m) /\ bl m = blocks (bsize a) m.
  Proof using Hk Hv HN.
    intros Hm. destruct (fresh_chained f a key iv o Hk Hv HN) as (HM & _). destruct (in_blocks_whole _ _ _ _ HM Hm) as [Hok H0]. destruct (whole_blocks c m Hok H0) as (l & E & HF & EB & _). unfold bl. rewrite EB. split; [exact E|]. split; [exact HF|]. rewrite <- EB. unfold c. now rewrite (made_nbs _ _ _ HM).
  Qed.
  Lemma same_count m1 m2 : in_blocks a m1 -> in_blocks a m2 -> List.length m1 = List.length m2 -> List.length (bl m1) = List.length (bl m2).
  Proof using Hk Hv HN.
    intros Hm1 Hm2 HL. destruct (blocks_of m1 Hm1) as (E1 & F1 & _). destruct (blocks_of m2 Hm2) as (E2 & F2 & _).
    assert (G : forall l, Forall (block c) l -> List.length (concat l) = (nbs c * List.length l)%nat). { intros l HF. induction HF as [|x l Hx _ IH]; [cbn; lia|]. cbn. rewrite app_length, IH, (block_length _ _ Hx). lia. }
    pose proof (G _ F1) as G1. pose proof (G _ F2) as G2. rewrite <- E1 in G1. rewrite <- E2 in G2. pose proof (nbs_pos c). nia.
  Qed.
End Objects.
