(** * The steps of the derivation of a key: results, flow, work and what they show. *)
From Verif Require Import PyBase PyState PyFacts PyLoop Utils UtilsFacts Streebog SpecStreebog SpecHashHist SpecHmac StreebogFacts StreebogFacts2 StreebogObj StreebogLemmas Hmac HmacLemmas HmacProps Pbkdf PbkdfLemmas SpecTrace SpecTraceHash Trace TraceLemmas TraceFacts TraceCipher TraceCipherFacts TraceHash TraceHashErase TraceHashFlow TraceHashShow TracePbkdf.
Open Scope string_scope.
Open Scope list_scope.
Open Scope Z_scope.

(** ** Results *)
(** The value and the object that is left, unless an exception is raised. *)
Definition both {S A} (c : M S A) (o : S) : res (A * S) := match c o with (Ok a, o') => Ok (a, o') | (Err e, _) => Err e end.
Lemma both_bind {S A B} (c : M S A) (k : A -> M S B) o : both (let! a := c in k a) o = bind (both c o) (fun p => both (k (fst p)) (snd p)).
Proof. unfold both, bindM. destruct (c o) as [[a|e] o']; reflexivity. Qed.
Lemma both_seq {S B} (c : M S unit) (k : M S B) o : both (c ;! k) o = bind (ends c o) (fun o' => both k o').
Proof. unfold both, ends, bindM. destruct (c o) as [[[]|e] o']; reflexivity. Qed.
Lemma both_get {S A} (k : S -> M S A) o : both (let! self := getM in k self) o = both (k o) o.
Proof. reflexivity. Qed.
Lemma both_lift {S A B} (r : res B) (k : B -> M S A) o : both (let! v := liftM r in k v) o = bind r (fun v => both (k v) o).
Proof. destruct r; reflexivity. Qed.
Lemma both_hmac {B} (c : M hmac_obj unit) (k : M pbkdf_obj B) o : both (on_hmac c ;! k) o = bind (ends c (p_hmac o)) (fun h => both k (p_set_hmac o h)).
Proof. rewrite both_seq. unfold ends, on_hmac. destruct (c (p_hmac o)) as [[x|e] h]; reflexivity. Qed.
Lemma both_for {S A X} (body : X -> A -> M S A) : forall xs a o, both (forM xs a body) o = for_ xs (a, o) (fun x p => both (body x (fst p)) (snd p)).
Proof.
  induction xs as [|x xs IH]; intros a o; [reflexivity|]. cbn [forM for_]. rewrite both_bind. cbn [fst snd]. destruct (both (body x a) o) as [[a' o']|e]; [|reflexivity]. cbn [bind fst snd]. apply IH.
Qed.
Lemma erase_hash_reset o : snd (t_hash_reset o) = liftO (ends hash_reset o).
Proof. reflexivity. Qed.
Lemma erase_hmac_reset m : snd (t_hmac_reset m) = liftO (ends hmac_reset m).
Proof. reflexivity. Qed.
Lemma digest_leaves m : both hmac_digest m = bind (fst (hmac_digest m)) (fun d => Ok (d, m)).
Proof.
  assert (H : forall d m', hmac_digest m = (Ok d, m') -> m' = m).
  { intros d m' E. unfold hmac_digest in E. unfold bindM at 1 in E. unfold getM in E. unfold bindM at 1 in E. unfold liftM at 1 in E. destruct (hash_init _ _) as [f|e]; [|discriminate E].
    unfold bindM at 1 in E. unfold on_hasher in E. assert (EH : snd (hash_digest (hm_hasher m)) = hm_hasher m) by (unfold hash_digest; destruct (hash_final _) as [[[]|e] x]; reflexivity).
    destruct (hash_digest (hm_hasher m)) as [[i|e] h]; cbn [snd] in EH; subst h; [|discriminate E].
    assert (EM : hm_set_hasher m (hm_hasher m) = m) by (destruct m; reflexivity). rewrite EM in E. destruct (hash_update _ f) as [[[]|e] f']; [|discriminate E]. unfold bindM, liftM in E. destruct (fst (hash_digest f')); congruence. }
  unfold both. destruct (hmac_digest m) as [[d|e] m'] eqn:E; [|reflexivity]. cbn [fst bind]. now rewrite (H d m' eq_refl).
Qed.
Lemma both_digest o : both (on_hmac hmac_digest) o = bind (fst (hmac_digest (p_hmac o))) (fun d => Ok (d, o)).
Proof.
  pose proof (digest_leaves (p_hmac o)) as E. unfold both in *. unfold on_hmac. destruct (hmac_digest (p_hmac o)) as [[d|e] h]; [|reflexivity]. cbn [fst bind] in *. assert (h = p_hmac o) by congruence. subst h. destruct o; reflexivity.
Qed.
Lemma erase_u_first o : snd (t_u_first o) = liftO (both _u_first o).
Proof.
  unfold t_u_first, _u_first. rewrite snd_step, both_hmac. next erase_hmac_reset. rewrite both_get, both_hmac. cbn [p_set_hmac p_salt p_counter p_hmac]. rewrite snd_bind, erase_bytes. cbn [bindO].
  next erase_hmac_update. rewrite both_digest. cbn [p_set_hmac p_hmac]. next erase_hmac_digest. reflexivity.
Qed.
Lemma erase_u_iter u o : snd (t_u_iter u o) = liftO (both (_u_iter u) o).
Proof.
  unfold t_u_iter, _u_iter. rewrite snd_step, both_hmac. next erase_hmac_reset. rewrite both_hmac. cbn [p_set_hmac p_hmac].
  next erase_hmac_update. rewrite both_digest. cbn [p_set_hmac p_hmac]. next erase_hmac_digest. reflexivity.
Qed.
Lemma erase_f o : snd (t_f o) = liftO (both _f o).
Proof.
  unfold t_f, _f. rewrite snd_step, both_bind. next erase_u_first. destruct a as [t o1]. cbn [fst snd]. rewrite both_bind. next erase_u_first. destruct a as [i o2]. cbn [fst snd]. rewrite both_get, both_lift. next @snd_res. rewrite both_bind, both_for.
  match goal with |- _ = liftO (bind (for_ _ _ ?g) _) => pose (G := g) end. rewrite snd_bind, liftO_bind.
  rewrite (snd_for _ _ _ t_f_body (fun x s => let '(t, i, o) := s in bind (both (_u_iter i) o) (fun p => Ok (add_xor t (fst p), fst p, snd p)))).
  2: { intros x [[t' i'] o']. cbn [t_f_body]. next erase_u_iter. destruct a0 as [i'' o'']. reflexivity. }
  set (A := for_ a _ _). set (B := for_ a _ _).
  assert (E : B = bind A (fun s => let '(t, i, o) := s in Ok ((t, i), o))).
  { subst A B. clear. revert t i o2. induction a as [|x xs IH]; intros t i o; [reflexivity|]. cbn [for_]. cbn [fst snd]. rewrite both_bind. destruct (both (_u_iter i) o) as [[i' o']|e]; [|reflexivity]. cbn [bind fst snd]. apply IH. }
  rewrite E. destruct A as [[[t' i'] o']|e]; reflexivity.
Qed.
Lemma erase_calculate n o : snd (t_calculate_pbkdf n o) = liftO (both (_calculate_pbkdf n) o).
Proof.
  unfold t_calculate_pbkdf, _calculate_pbkdf. rewrite snd_step. cbv zeta. rewrite both_get, both_seq, ends_put'. cbn [bind]. rewrite both_seq, snd_bind, snd_if.
  assert (L : forall xs s o, snd (t_for FPbkdf 125 xs (s, o) t_calculate_body) = liftO (both (forM xs s (fun i result => (let! self := getM in putM (p_set_counter self i)) ;! let! t := _f in retM (result ++ t))) o)).
  { intros xs s o0. rewrite both_for. apply snd_for. intros i [r o']. cbn [t_calculate_body fst snd]. rewrite both_seq, ends_get, ends_put'. cbn [bind]. rewrite both_bind. next erase_f. destruct a; reflexivity. }
  destruct (negb _); [rewrite ends_get, ends_put' | rewrite ends_ret]; cbn [retT snd bindO bind]; rewrite both_get; apply L.
Qed.
Lemma erase_derive n o : snd (t_derive n o) = liftO (both (derive n) o).
Proof. unfold t_derive, derive. rewrite snd_step, snd_if. destruct (_ >? _); [reflexivity|]. rewrite both_bind. next erase_calculate. destruct a; reflexivity. Qed.

(** ** Flow *)
Definition pair_ok (x y : bytes) : Prop := List.length x = List.length y /\ bytes_ok x /\ bytes_ok y.
Lemma same_tag m m' : malike m m' -> same pair_ok (t_hmac_digest m) (t_hmac_digest m').
Proof.
  intros [HK HH HC]. unfold t_hmac_digest. do 2 apply same_at_. destruct (al_name _ _ (proj1 HH)) as (v & EN & EN'). rewrite EN, EN'. eapply same_bind; [apply same_init; [apply Forall_nil | apply Forall_nil | reflexivity]|]. intros f f' Hf.
  eapply same_bind; [apply same_xor64; [exact HK | split; apply o_pad_block]|]. intros x y [Hx Hy]. eapply same_bind; [apply same_digest; exact HH|]. intros i i' (Li & Hi & Hi').
  eapply same_bind; [apply same_update; [exact Hf | now apply join_ok | now apply join_ok | rewrite !app_length, Li; destruct Hx, Hy; lia]|]. intros g g' Hg. eapply same_bind; [apply same_digest; exact Hg|]. intros r r' Hr. do 2 apply same_at_.
  destruct (al_name _ _ (proj1 Hg)) as (v' & EG & EG'). rewrite EG, EG'. apply same_at_. apply same_ret. exact Hr.
Qed.
Lemma init_short_any v a b : short (_hash_init (vname v) a) (_hash_init (vname v) b).
Proof. destruct (init_short v) as [[H1 H2 H3 H4 H5 H6] H7]. split; [split; assumption | exact H7]. Qed.
Lemma same_hash_reset o o' : (exists v, h_name o = vname v /\ h_name o' = vname v) -> same short (t_hash_reset o) (t_hash_reset o').
Proof. intros (v & E & E'). unfold t_hash_reset. do 2 apply same_at_. rewrite E, E'. apply same_at_. apply same_ret, init_short_any. Qed.
(** Two HMAC objects of one algorithm with keys of a block. *)
Definition keys2 (m m' : hmac_obj) : Prop := blk2 (hm_key m) (hm_key m') /\ exists v, h_name (hm_hasher m) = vname v /\ h_name (hm_hasher m') = vname v.
Lemma malike_keys m m' : malike m m' -> keys2 m m'.
Proof. intros [HK HH HC]. split; [exact HK | exact (al_name _ _ (proj1 HH))]. Qed.
Lemma same_hmac_reset m m' : keys2 m m' -> same malike (t_hmac_reset m) (t_hmac_reset m').
Proof. intros [HK HN]. unfold t_hmac_reset. apply same_at_. eapply same_bind; [apply same_hash_reset, HN|]. intros h h' Hh. apply same_ret. split; [exact HK | exact Hh | reflexivity]. Qed.
Lemma same_bytes4 v v' : same pair_ok (t_int_to_bytearray v 4) (t_int_to_bytearray v' 4).
Proof. split; [reflexivity|]. rewrite !erase_bytes. do 2 eexists. split; [reflexivity|]. split; [reflexivity|]. split; [now rewrite !INT_eq | split; apply int_to_bytearray_ok]. Qed.
(** Two objects that differ in the bytes of the password and the salt. *)
Record plike (o o' : pbkdf_obj) : Prop := {
  pl_salt : pair_ok (p_salt o) (p_salt o');
  pl_it : p_iterations o = p_iterations o' /\ exists z, p_iterations o = VInt z;
  pl_hmac : keys2 (p_hmac o) (p_hmac o')
}.
Definition valued (p p' : bytes * pbkdf_obj) : Prop := pair_ok (fst p) (fst p') /\ plike (snd p) (snd p').
Lemma same_u_first o o' : plike o o' -> same valued (t_u_first o) (t_u_first o').
Proof.
  intros [(LS & HS & HS') HI HM]. unfold t_u_first. apply same_at_. eapply same_bind; [apply same_hmac_reset, HM|]. intros h h' Hh. eapply same_bind; [apply same_bytes4|].
  intros c c' (LC & Hc & Hc'). eapply same_bind; [apply same_hmac_update; [exact Hh | | |]|].
  - apply bytes_ok_app. split; assumption.
  - apply bytes_ok_app. split; assumption.
  - rewrite !app_length, LS, LC. reflexivity.
  - intros g g' Hg. eapply same_bind; [apply same_tag, Hg|]. intros u u' Hu. apply same_ret. split; [exact Hu|]. split; cbn [snd p_set_hmac p_salt p_iterations p_hmac]; [split; [exact LS | split; assumption] | exact HI | now apply malike_keys].
Qed.
Lemma same_u_iter u u' o o' : pair_ok u u' -> plike o o' -> same valued (t_u_iter u o) (t_u_iter u' o').
Proof.
  intros (LU & HU & HU') [HS HI HM]. unfold t_u_iter. apply same_at_. eapply same_bind; [apply same_hmac_reset, HM|]. intros h h' Hh. eapply same_bind; [apply same_hmac_update; [exact Hh | exact HU | exact HU' | exact LU]|].
  intros g g' Hg. eapply same_bind; [apply same_tag, Hg|]. intros w w' Hw. apply same_ret. split; [exact Hw|]. split; cbn [snd p_set_hmac p_salt p_iterations p_hmac]; [exact HS | exact HI | now apply malike_keys].
Qed.
Lemma same_xor_pair a b a' b' : pair_ok a a' -> pair_ok b b' -> same pair_ok (t_add_xor a b) (t_add_xor a' b').
Proof.
  intros (La & Ha & Ha') (Lb & Hb & Hb'). destruct (same_xor a b a' b') as [E (x & y & Ex & Ey & -> & ->)]; [unfold len; lia | unfold len; lia|]. split; [exact E|]. do 2 eexists. split; [exact Ex|]. split; [exact Ey|].
  split; [|split; now apply add_xor_ok]. rewrite !add_xor_length. lia.
Qed.
Lemma same_f o o' : plike o o' -> same valued (t_f o) (t_f o').
Proof.
  intros H. unfold t_f. apply same_at_. eapply same_bind; [apply same_u_first, H|]. intros [t o1] [t' o1'] [Ht H1]. cbn [fst snd] in Ht, H1. eapply same_bind; [apply same_u_first, H1|]. intros [i o2] [i' o2'] [Hi H2]. cbn [fst snd] in Hi, H2.
  destruct (pl_it _ _ H2) as [EI (z & EZ)]. rewrite <- EI, EZ. cbn [range_1]. eapply same_bind with (R := fun a b => a = py_range 1 z 1 /\ b = a); [eapply same_res; [reflexivity | reflexivity | split; reflexivity]|]. intros r r' [-> ->].
  eapply same_bind with (R := fun s s' => pair_ok (fst (fst s)) (fst (fst s')) /\ pair_ok (snd (fst s)) (snd (fst s')) /\ plike (snd s) (snd s')).
  - apply same_for; [split; [exact Ht | split; [exact Hi | exact H2]]|]. intros x [[a b] p] [[a' b'] p'] _ (Ha & Hb & Hp). cbn [fst snd] in Ha, Hb, Hp. cbn [t_f_body]. eapply same_bind; [apply same_u_iter; [exact Hb | exact Hp]|]. intros [c q] [c' q'] [Hc Hq]. cbn [fst snd] in Hc, Hq.
    eapply same_bind; [apply same_xor_pair; [exact Ha | exact Hc]|]. intros d d' Hd. apply same_ret. split; [exact Hd | split; [exact Hc | exact Hq]].
  - intros [[a b] p] [[a' b'] p'] (Ha & _ & Hp). apply same_ret. split; assumption.
Qed.
Lemma same_calculate n o o' : plike o o' -> same valued (t_calculate_pbkdf n o) (t_calculate_pbkdf n o').
Proof.
  intros H. unfold t_calculate_pbkdf. apply same_at_. cbv zeta. eapply same_bind with (R := fun p p' => plike p p' /\ p_num_block p = p_num_block p').
  - apply same_if; [reflexivity| |]; intros _; apply same_ret; (split; [|reflexivity]); destruct H; split; assumption.
  - intros p p' [Hp <-]. apply same_for; [split; [split; [reflexivity | split; apply Forall_nil] | exact Hp]|]. intros i [r q] [r' q'] _ [(LR & HR & HR') Hq]. cbn [fst snd] in LR, HR, HR', Hq. cbn [t_calculate_body].
    eapply same_bind; [apply same_f; destruct Hq; split; assumption|].
    intros [t w] [t' w'] [(LT & HT & HT') Hw]. cbn [fst snd] in LT, HT, HT', Hw. apply same_ret. split; [|exact Hw]. split; [cbn [fst]; rewrite !app_length; lia | split; apply bytes_ok_app; split; assumption].
Qed.
Lemma flow_derive n o o' : plike o o' -> map shape (fst (t_derive n o)) = map shape (fst (t_derive n o')).
Proof.
  intros H. unfold t_derive, if_. destruct (n >? (2 ^ 32 - 1) * 64); [reflexivity|]. eapply steps_bind; [apply same_step|]. intros _ _ _. eapply steps_bind; [apply same_step|]. intros _ _ _. eapply steps_bind; [apply same_calculate, H|]. intros [a b] [a' b'] _. reflexivity.
Qed.
