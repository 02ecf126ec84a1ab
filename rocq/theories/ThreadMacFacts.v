(** * Interleaved updates of a MAC object *)
From Verif Require Import PyBase PyFacts PyState Utils UtilsFacts CipherObj Modes Mac SpecNew SpecModes CipherLemmas CipherObjFacts ModeFacts ModeSpecFacts ModeLemmas ModeProps ModeSim ModeNew MacFacts MacFacts2 MacLemmas MacProps Threads ThreadFacts ThreadsRandom ThreadRandomFacts ThreadsMac.
Open Scope string_scope.
Open Scope list_scope.
Open Scope Z_scope.

(** ** Alone *)
Definition stored (o : mac_obj) (v : bytes * bytes * bytes * bytes) : mac_obj := let '(cur, prev, iter, fin) := v in set_mac o fin iter prev cur.
Lemma store_run o v : run (p_store v) o = (Ok tt, stored o v).
Proof. destruct v as [[[cur prev] iter] fin]. reflexivity. Qed.
Lemma enc_calm o x : snd (encrypted x o) = o.
Proof. unfold encrypted, bindM, getM, liftM. now destruct (co_encrypt _ _). Qed.
Lemma chain_calm d o : calm o (p_chain d).
Proof.
  apply calm_bind; [intros x | now apply calm_act]. apply calm_bind; [intros v | now apply calm_act]. apply calm_bind; [intros n | now apply calm_act].
  apply calm_bind; [intros p | apply calm_for; intros i acc; apply calm_act, enc_calm]. cbv zeta. destruct (_ =? 0); (apply calm_bind; [intros; exact I | apply calm_act, enc_calm]).
Qed.
Lemma calm_run {S A} (s : S) : forall p : proc S A, calm s p -> snd (run p s) = s.
Proof. fix IH 1. intros [a|e|k] H; [reflexivity | reflexivity|]. cbn in *. destruct (k s) as [s' p']. destruct H as [-> H]. now apply IH. Qed.
Lemma mac_update_alone data o : run (p_mac_update data) o = mac_update data o.
Proof.
  destruct data as [d|s|z|]; [| | |]; try (unfold p_mac_update; rewrite run_bind, run_act; unfold mac_update; match goal with |- _ = bindM ?x ?f ?s => change (bindM x f s) with (match x s with (Ok a, s') => f a s' | (Err e, s') => (Err e, s') end) end; now destruct (mac_clear o) as [[u|e] o1]).
  unfold p_mac_update, p_chain, mac_update. rewrite run_bind. rewrite run_bind, run_act. unfold with_rest, bindM at 1, getM at 1, retM at 1. rewrite run_bind, run_act. unfold current, bindM at 1, getM at 1, retM at 1. rewrite run_bind, run_act. unfold size_of_block, bindM at 1, getM at 1, retM at 1.
  match goal with |- _ = bindM getM ?f o => change (bindM getM f o) with (f o o) end. cbv beta zeta. set (D := m_iter_buf o ++ d). set (n := mac_block_size o).
  rewrite run_bind. rewrite (for_calm _ _ (fun i prev_block => liftM (co_encrypt (m_cipher o) (add_xor prev_block (_get_block n D i))))).
  2:{ intros i acc. rewrite run_act. reflexivity. }
  2:{ intros i acc. unfold liftM. reflexivity. }
  match goal with |- _ = bindM ?x ?f ?s => change (bindM x f s) with (match x s with (Ok a, s') => f a s' | (Err e, s') => (Err e, s') end) end.
  assert (HL : snd (forM (py_range 0 (_get_num_block n D - 1) 1) (m_cur_mac o) (fun i prev_block => liftM (co_encrypt (m_cipher o) (add_xor prev_block (_get_block n D i)))) o) = o).
  { generalize (m_cur_mac o). induction (py_range 0 (_get_num_block n D - 1) 1) as [|i l IH]; intros v; [reflexivity|]. cbn [forM]. unfold bindM, liftM at 1. destruct (co_encrypt _ _) as [c|e]; [apply IH | reflexivity]. }
  destruct (forM _ _ _ o) as [[p|e] o1]; cbn [snd] in HL; subst o1; [|reflexivity].
  destruct (_ =? 0).
  - rewrite run_bind, run_act. unfold encrypted, bindM, getM, liftM. destruct (co_encrypt _ _) as [b|e]; [|reflexivity]. cbn [run]. apply store_run.
  - rewrite run_bind, run_act. unfold encrypted, bindM, getM, liftM. destruct (co_encrypt _ _) as [b|e]; [|reflexivity]. cbn [run]. apply store_run.
Qed.
(** What an update does: it computes without changing the object, then assigns. *)
Lemma update_parts d o : exists r, run (p_chain d) o = (r, o) /\ mac_update (VBytes d) o = match r with Ok v => (Ok tt, stored o v) | Err e => (Err e, o) end.
Proof.
  pose proof (calm_run o _ (chain_calm d o)) as H. pose proof (mac_update_alone (VBytes d) o) as E. unfold p_mac_update in E. rewrite run_bind in E. destruct (run (p_chain d) o) as [r o1]. cbn [snd] in H. subst o1. exists r. split; [reflexivity|]. rewrite <- E. destruct r as [v|e]; [apply store_run | reflexivity].
Qed.

(** ** Schedules *)
Lemma bind_first2 {S A B C} (f : A -> proc S B) (g : B -> proc S C) (q : proc S C) : forall (p : proc S A) s a s', run p s = (Ok a, s') -> exists n, go (repeat 0%nat n) [bindP (bindP p f) g; q] s = ([bindP (f a) g; q], s').
Proof.
  fix IH 1. intros [a|e|k] s b s' H; [injection H as <- <-; now exists O | discriminate H|]. cbn [run] in H. destruct (k s) as [s1 p'] eqn:E. destruct (IH p' s1 b s' H) as [n Hn]. exists (Datatypes.S n). cbn. rewrite E. cbn in Hn. exact Hn.
Qed.
Lemma stored_twice o v w : stored (stored o v) w = stored o w.
Proof. destruct v as [[[? ?] ?] ?], w as [[[? ?] ?] ?]. reflexivity. Qed.
Lemma update_lost d1 d2 o o1 r2 o2 : mac_update (VBytes d1) o = (Ok tt, o1) -> mac_update (VBytes d2) o = (r2, o2) ->
  exists sched, go sched [p_mac (Upd (VBytes d1)); p_mac (Upd (VBytes d2))] o = ([Ret None; fin (let* _ := r2 in Ok None)], o1).
Proof.
  intros E1 E2. destruct (update_parts d1 o) as (r & C1 & U1). rewrite U1 in E1. destruct r as [v|e]; [|discriminate E1]. injection E1 as <-.
  destruct (bind_first2 p_store (fun _ => Ret None) (p_mac (Upd (VBytes d2))) (p_chain d1) o v o C1) as [n N].
  destruct (go_second (bindP (p_store v) (fun _ => Ret None)) (p_mac (Upd (VBytes d2))) o) as [k K].
  assert (R2 : run (p_mac (Upd (VBytes d2))) o = (let* _ := r2 in Ok None, o2)) by (cbn [p_mac]; rewrite run_bind, mac_update_alone, E2; destruct r2; reflexivity). rewrite R2 in K. cbn [fst snd] in K.
  destruct (go_first (fin (let* _ := r2 in Ok (@None bytes))) (bindP (p_store v) (fun _ => Ret None)) o2) as [l L]. rewrite run_bind, store_run in L. cbn [run fst snd fin] in L.
  exists (repeat 0%nat n ++ repeat 1%nat k ++ repeat 0%nat l). rewrite go_app. change (p_mac (Upd (VBytes d1))) with (bindP (bindP (p_chain d1) p_store) (fun _ => Ret (@None bytes))). rewrite N, go_app, K, L. f_equal.
  destruct (update_parts d2 o) as (r & _ & U2). rewrite U2 in E2. destruct r as [w|e]; injection E2 as _ <-; [apply stored_twice | reflexivity].
Qed.

(** The MAC is asked for after the second of the four assignments. *)
Lemma update_torn d o cur prev iter fb s t : run (p_chain d) o = (Ok (cur, prev, iter, fb), o) -> fst (mac_digest s (set_mac o (m_fin_buff o) (m_iter_buf o) prev cur)) = Ok t ->
  exists sched, go sched [p_mac (Upd (VBytes d)); p_mac (Dig s)] o = ([Ret None; Ret (Some t)], snd (mac_update (VBytes d) o)).
Proof.
  intros C1 HD. destruct (update_parts d o) as (r & C2 & U). rewrite C1 in C2. injection C2 as <-. rewrite U. cbn [snd].
  destruct (bind_first2 p_store (fun _ => Ret None) (p_mac (Dig s)) (p_chain d) o _ o C1) as [n N].
  exists (repeat 0%nat n ++ [0; 0; 1; 0; 0]%nat). rewrite go_app. change (p_mac (Upd (VBytes d))) with (bindP (bindP (p_chain d) p_store) (fun _ => Ret (@None bytes))). rewrite N. set (torn := set_mac o (m_fin_buff o) (m_iter_buf o) prev cur) in *.
  assert (T : mac_digest s torn = (Ok t, torn)) by (rewrite (surjective_pairing (mac_digest s torn)), HD, digest_same; reflexivity).
  cbn -[mac_digest]. unfold set_mac at 1. cbn -[mac_digest]. fold (set_mac o (m_fin_buff o) (m_iter_buf o) prev cur). fold torn. rewrite T. reflexivity.
Qed.

Lemma same_tail {A} (x y l m : list A) : List.length l = List.length m -> x ++ l = y ++ m -> x = y /\ l = m.
Proof.
  intros HL. revert y. induction x as [|a x IH]; intros [|b y] E; cbn in E.
  - now split.
  - exfalso. apply (f_equal (@List.length A)) in E. cbn in E. rewrite app_length in E. lia.
  - exfalso. apply (f_equal (@List.length A)) in E. cbn in E. rewrite app_length in E. lia.
  - injection E as -> E. destruct (IH y E) as [-> ->]. now split.
Qed.
Lemma same_head {A} (x y l m : list A) : List.length x = List.length y -> x ++ l = y ++ m -> x = y /\ l = m.
Proof. revert y. induction x as [|a x IH]; intros [|b y] HL E; cbn in *; try discriminate; [now split|]. injection E as -> E. injection HL as HL. destruct (IH y HL E) as [-> ->]. now split. Qed.
Lemma same_cut c (x y : list bytes) : Forall (block c) x -> Forall (block c) y -> concat x = concat y -> x = y.
Proof.
  intros HX. revert y. pose proof (bs_pos c) as Hp. induction HX as [|a x [Ha _] HX IH]; intros y HY E; destruct HY as [|b y [Hb _] HY]; cbn in E.
  - reflexivity.
  - exfalso. apply (f_equal (@List.length Z)) in E. cbn in E. rewrite app_length in E. unfold len in Hb. lia.
  - exfalso. apply (f_equal (@List.length Z)) in E. cbn in E. rewrite app_length in E. unfold len in Ha. lia.
  - destruct (same_head a b (concat x) (concat y)) as [-> E']; [unfold len in Ha, Hb; lia | exact E|]. f_equal. now apply IH.
Qed.
(** A whole number of blocks after a whole number of blocks: the MAC of the half-made object is that of a message that ends with the last block of the old one. *)
Lemma chain_whole a key msg l d b o : tracks a key (msg ++ l) o -> bytes_ok d -> bytes_ok b -> List.length l = bsize a -> List.length b = bsize a -> len msg mod Z.of_nat (bsize a) = 0 -> len d mod Z.of_nat (bsize a) = 0 ->
  exists cur prev iter fb, run (p_chain (d ++ b)) o = (Ok (cur, prev, iter, fb), o) /\
    forall s, fst (mac_digest s (set_mac o (m_fin_buff o) (m_iter_buf o) prev cur)) = fst (mac_digest s (snd (mac_update (VBytes (d ++ l)) o))).
Proof.
  intros HT Hd Hb Ll Lb Hm Hz. pose proof HT as [Hmade K1 K2 (bl & t & Hmsg & H & Hf)]. set (c := m_cipher o) in *. pose proof (made_bs _ _ _ Hmade) as HB.
  assert (Hpos : 0 < Z.of_nat (bsize a)) by (rewrite <- HB; apply bs_pos).
  assert (Ht : t = []).
  { pose proof (tracks_len a key _ o bl t Hmade Hmsg H) as HL. rewrite len_app in HL. unfold len at 2 in HL. rewrite Ll in HL. rewrite <- Zplus_mod_idemp_l, Hm, Z.add_0_l, Z_mod_same_full in HL. destruct t; [reflexivity|]. rewrite len_cons in HL. pose proof (len_nonneg t). lia. }
  subst t. rewrite app_nil_r in Hmsg.
  assert (Hlo : bytes_ok l).
  { assert (X : bytes_ok (msg ++ l)) by (rewrite Hmsg; pose proof (core_bl _ _ _ H) as HF; clear - HF; induction HF as [|x bl Hx HF IH]; [constructor | cbn; apply bytes_ok_app; split; [apply Hx | exact IH]]). now apply bytes_ok_app in X as [_ X]. }
  assert (Hfin : m_fin_buff o = l).
  { rewrite Hf. unfold fin_of. rewrite app_nil_r. destruct (exists_last (l := bl)) as (bl0 & x & E); [intros ->; cbn in Hmsg; apply app_eq_nil in Hmsg as [_ ->]; cbn in Ll; lia|]. subst bl. rewrite last_last. rewrite concat_app in Hmsg. cbn [concat] in Hmsg. rewrite app_nil_r in Hmsg.
    pose proof (core_bl _ _ _ H) as HF. apply Forall_app in HF as [_ HF]. apply Forall_inv in HF. destruct HF as [HL _]. fold c in HL. rewrite HB in HL. unfold len in HL. apply Nat2Z.inj in HL.
    symmetry. apply (same_tail msg (concat bl0) l x); [now rewrite Ll, HL | exact Hmsg]. }
  assert (HU : forall y, bytes_ok y -> List.length y = bsize a -> exists blx, Forall (block c) blx /\ d = concat blx /\
     mac_update (VBytes (d ++ y)) o = (Ok tt, with_state o y [] (cbc_mac (oE c) (m_cur_mac o) blx) (cbc_mac (oE c) (m_cur_mac o) (blx ++ [y])))).
  { intros y Hy Ly. destruct (update_ok o bl [] (d ++ y) H) as (blx & y' & t' & E1 & E2 & E3); [apply bytes_ok_app; now split | cbn [app]; fold c; rewrite len_app, HB; unfold len at 2; rewrite Ly; pose proof (len_nonneg d); lia|].
    cbn [app] in E1. fold c in E2. pose proof (core_bl _ _ _ E3) as HF. cbn [with_state m_cipher] in HF. fold c in HF. apply Forall_app in HF as [_ HF]. apply Forall_app in HF as [HF1 HF2]. apply Forall_inv in HF2. pose proof (core_tl _ _ _ E3) as Htl. cbn [with_state m_cipher] in Htl. fold c in Htl.
    assert (HL : len (d ++ y) mod Z.of_nat (bsize a) = len t').
    { rewrite E1, concat_app, !len_app. cbn [concat]. rewrite app_nil_r. rewrite (concat_len (bs c)) by (apply blocks_lens; exact HF1). rewrite (proj1 HF2), <- HB. replace (bs c * len blx + bs c + len t') with (len t' + (len blx + 1) * bs c) by ring. rewrite Z.mod_add by (pose proof (bs_pos c); lia). apply Z.mod_small. pose proof (len_nonneg t'). lia. }
    assert (t' = []) as ->. { rewrite len_app in HL. unfold len at 2 in HL. rewrite Ly, <- Zplus_mod_idemp_l, Hz, Z.add_0_l, Z_mod_same_full in HL. destruct t'; [reflexivity|]. rewrite len_cons in HL. pose proof (len_nonneg t'). lia. }
    rewrite app_nil_r in E1. pose proof E1 as E4. rewrite concat_app in E4. cbn [concat] in E4. rewrite app_nil_r in E4. destruct HF2 as [HL2 _]. rewrite HB in HL2. unfold len in HL2. apply Nat2Z.inj in HL2.
    assert (d = concat blx /\ y = y') as [D ->].
    { apply same_tail; [now rewrite Ly, HL2 | exact E4]. }
    exists blx. split; [exact HF1|]. split; [exact D|]. rewrite E2. now rewrite app_nil_r. }
  destruct (HU b Hb Lb) as (b1 & F1 & D1 & U1). destruct (HU l Hlo Ll) as (b2 & F2 & D2 & U2).
  assert (b2 = b1) as -> by (apply (same_cut c); [exact F2 | exact F1 | congruence]).
  destruct (update_parts (d ++ b) o) as (r & C & U). rewrite U1 in U. destruct r as [[[[cur prev] iter] fb]|e]; [|discriminate U]. injection U as Ef Ei Ep Ec.
  exists cur, prev, iter, fb. split; [exact C|]. intros s. rewrite U2. cbn [snd]. rewrite Hfin, <- Ep. rewrite !(digest_eq a) by (cbn [set_mac with_state m_cipher]; apply Hmade). destruct (_ >? _); [reflexivity|]. cbn [fst]. match goal with |- bind (fst ?x) _ = bind (fst ?y) _ => enough (E : fst x = fst y) by (now rewrite E) end.
  unfold mac_final, bindM, getM, putM, liftM, mac_block_size. cbn [set_mac with_state m_cipher m_key_1 m_key_2 m_fin_buff m_iter_buf m_prev_mac m_cur_mac].
  destruct (_ =? 0); cbn [fst]; destruct (co_encrypt _ _); reflexivity.
Qed.
