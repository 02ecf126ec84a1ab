(** * Calls and interleaved calls *)
From Verif Require Import PyBase PyFacts PyState Utils UtilsFacts CipherObj Modes SpecModes MagmaFacts CipherLemmas CipherObjFacts ModeSpecFacts ModeFacts CtrFacts ModeLemmas ModeSim ModeProps ModeReuse MacMore ModeCross ModeCross2 Threads.
Open Scope string_scope.
Open Scope list_scope.
Open Scope Z_scope.

(** ** Alone *)
Lemma run_bind {S A B} (p : proc S A) (f : A -> proc S B) : forall s, run (bindP p f) s = match run p s with (Ok a, s') => run (f a) s' | (Err e, s') => (Err e, s') end.
Proof.
  revert p. fix IH 1. intros [a|e|k] s; [reflexivity | reflexivity|]. cbn [bindP run]. destruct (k s) as [s' p'] eqn:E. cbn. apply IH.
Qed.
Lemma run_act {S A} (m : M S A) s : run (act m) s = m s.
Proof. cbn. now destruct (m s) as [[a|e] s']. Qed.
Lemma run_for {S A B} (xs : list A) (f : A -> B -> proc S B) (g : A -> B -> M S B) : (forall x acc s, run (f x acc) s = g x acc s) -> forall acc s, run (forP xs acc f) s = forM xs acc g s.
Proof.
  intros H. induction xs as [|x xs IH]; intros acc s; [reflexivity|]. cbn [forP forM]. rewrite run_bind, H. unfold bindM. destruct (g x acc s) as [[a|e] s']; [apply IH | reflexivity].
Qed.

(** A step of the loop that reads the object each time, when the step does not change it. *)
Lemma for_calm {S A B} (xs : list A) (f : A -> B -> proc S B) (g : A -> B -> M S B) s : (forall x acc, run (f x acc) s = g x acc s) -> (forall x acc, snd (g x acc s) = s) -> forall acc, run (forP xs acc f) s = forM xs acc g s.
Proof.
  intros H HS. induction xs as [|x xs IH]; intros acc; [reflexivity|]. cbn [forP forM]. rewrite run_bind, H. unfold bindM. specialize (HS x acc). destruct (g x acc s) as [[a|e] s']; cbn in HS; subst s'; [apply IH | reflexivity].
Qed.

Lemma ecb_encrypt_alone data o : run (p_ecb_encrypt data) o = ecb_encrypt data o.
Proof.
  unfold p_ecb_encrypt, ecb_encrypt. rewrite run_bind, run_act. match goal with |- _ = bindM ?x ?f ?s => change (bindM x f s) with (match x s with (Ok a, s') => f a s' | (Err e, s') => (Err e, s') end) end. destruct (padding_encrypt data o) as [[d|e] o1]; [|reflexivity]. rewrite run_bind, run_act. unfold bindM at 1. unfold getM at 1. unfold bindM at 1, getM at 1, retM at 1.
  apply for_calm; intros i acc; unfold bindM, getM, liftM, retM; [rewrite run_bind, run_act|]; cbn; unfold bindM, getM, liftM; now destruct (co_encrypt (o_cipher o1) (_get_block (block_size o1) d i)).
Qed.
Lemma ecb_decrypt_alone data o : run (p_ecb_decrypt data) o = ecb_decrypt data o.
Proof.
  unfold p_ecb_decrypt, ecb_decrypt. rewrite run_bind, run_act. match goal with |- _ = bindM ?x ?f ?s => change (bindM x f s) with (match x s with (Ok a, s') => f a s' | (Err e, s') => (Err e, s') end) end. destruct (check_ciphertext data o) as [[d|e] o1]; [|reflexivity]. rewrite run_bind, run_act. unfold bindM at 1. unfold getM at 1. unfold bindM at 1, getM at 1, retM at 1.
  apply for_calm; intros i acc; unfold bindM, getM, liftM, retM; [rewrite run_bind, run_act|]; cbn; unfold bindM, getM, liftM; now destruct (co_decrypt (o_cipher o1) (_get_block (block_size o1) d i)).
Qed.

(** The class and the cipher of an object stay. *)
Lemma gamma_keeps o : snd (_get_gamma o) = o.
Proof. unfold _get_gamma, bindM, getM, liftM. now destruct (co_encrypt _ _). Qed.
Definition keeps {S A} (f : S -> Z) (m : M S A) : Prop := forall s, f (snd (m s)) = f s.
Lemma for_keeps {S A B} f (xs : list A) (g : A -> B -> M S B) : (forall x acc, keeps f (g x acc)) -> forall acc, keeps f (forM xs acc g).
Proof. intros H. induction xs as [|x xs IH]; intros acc s; [reflexivity|]. cbn [forM]. unfold bindM. specialize (H x acc s). destruct (g x acc s) as [[a|e] s']; cbn in H; [rewrite IH; exact H | exact H]. Qed.
Lemma ofb_encrypt_alone data o : run (p_ofb_encrypt data) o = ofb_encrypt data o.
Proof.
  unfold p_ofb_encrypt, ofb_encrypt. rewrite run_bind, run_act. match goal with |- _ = bindM ?x ?f ?s => change (bindM x f s) with (match x s with (Ok a, s') => f a s' | (Err e, s') => (Err e, s') end) end. destruct (check_plaintext data o) as [[d|e] o1]; [|reflexivity]. rewrite run_bind, run_act. unfold bindM at 1. unfold getM at 1. unfold bindM at 1, getM at 1, retM at 1. cbv zeta. set (bs0 := block_size o1).
  rewrite run_bind. unfold bindM at 1.
  rewrite (run_for _ _ (fun i result => let! gamma := _get_gamma in _set_init_vect (py_slice gamma 0 bs0) ;! retM (result ++ add_xor gamma (_get_block bs0 d i)))).
  2:{ intros i acc s. rewrite run_bind, run_act. unfold bindM at 1. destruct (_get_gamma s) as [[g|e] s']; reflexivity. }
  pose proof (for_keeps block_size (py_range 0 (_get_num_block bs0 d) 1) (fun i result => let! gamma := _get_gamma in _set_init_vect (py_slice gamma 0 bs0) ;! retM (result ++ add_xor gamma (_get_block bs0 d i)))) as HK.
  assert (HB : forall x acc, keeps block_size ((fun i result => let! gamma := _get_gamma in _set_init_vect (py_slice gamma 0 bs0) ;! retM (result ++ add_xor gamma (_get_block bs0 d i))) x acc)).
  { intros x acc s. unfold bindM. pose proof (gamma_keeps s) as G. destruct (_get_gamma s) as [[g|e] s']; cbn in G; subst s'; reflexivity. }
  specialize (HK HB [] o1). destruct (forM _ _ _ o1) as [[r|e] o2]; [|reflexivity]. cbn [snd] in HK. destruct (negb (len d mod bs0 =? 0)); [|reflexivity].
  rewrite run_bind, run_act. unfold bindM, _final_cipher, bindM. pose proof (gamma_keeps o2) as G. destruct (_get_gamma o2) as [[g|e] o3]; cbn in G; subst o3; [|reflexivity]. unfold getM, retM. cbn [run]. now rewrite HK.
Qed.
Lemma ctr_two {B} (f : bytes -> B) s : run (let& gamma := act ctr_gamma in let& _ := act ctr_increment in Ret (f gamma)) s = (let! gamma := ctr_step in retM (f gamma)) s.
Proof.
  rewrite run_bind, run_act. unfold bindM, ctr_step, ctr_gamma, bindM, getM, liftM. destruct (co_encrypt (o_cipher s) (o_counter s)) as [g|e]; [|reflexivity]. rewrite run_bind, run_act. unfold ctr_increment, bindM, getM, liftM. now destruct (_inc_ctr (block_size s) (o_counter s)).
Qed.
Lemma ctr_encrypt_alone data o : run (p_ctr_encrypt data) o = ctr_encrypt data o.
Proof.
  unfold p_ctr_encrypt, ctr_encrypt. rewrite run_bind, run_act. match goal with |- _ = bindM ?x ?f ?s => change (bindM x f s) with (match x s with (Ok a, s') => f a s' | (Err e, s') => (Err e, s') end) end. destruct (check_plaintext data o) as [[d|e] o1]; [|reflexivity]. rewrite run_bind, run_act. unfold bindM at 1. unfold getM at 1. unfold bindM at 1, getM at 1, retM at 1. cbv zeta. set (bs0 := block_size o1).
  rewrite run_bind. unfold bindM at 1.
  rewrite (run_for _ _ (fun i result => let! gamma := ctr_step in retM (result ++ add_xor (_get_block bs0 d i) gamma))) by (intros; apply ctr_two).
  destruct (forM _ _ _ o1) as [[r|e] o2]; [|reflexivity]. destruct (negb (len d mod bs0 =? 0)); [|reflexivity]. apply ctr_two.
Qed.

(** ** Calls that never change the object *)
Fixpoint calm {S A} (s : S) (p : proc S A) : Prop := match p with Act k => let (s', p') := k s in s' = s /\ calm s p' | _ => True end.
Fixpoint size {S A} (s : S) (p : proc S A) : nat := match p with Act k => let (s', p') := k s in Datatypes.S (size s p') | _ => O end.
Definition ended {S A} (p : proc S A) : option (res A) := match p with Ret a => Some (Ok a) | Exc e => Some (Err e) | Act _ => None end.
Lemma calm_bind {S A B} (s : S) (f : A -> proc S B) : (forall a, calm s (f a)) -> forall p, calm s p -> calm s (bindP p f).
Proof. intros Hf. fix IH 1. intros [a|e|k] H; [apply Hf | exact I|]. cbn in *. destruct (k s) as [s' p']. destruct H as [-> H]. split; [reflexivity | now apply IH]. Qed.
Lemma calm_for {S A B} (s : S) (xs : list A) (f : A -> B -> proc S B) : (forall x acc, calm s (f x acc)) -> forall acc, calm s (forP xs acc f).
Proof. intros H. induction xs as [|x xs IH]; intros acc; [exact I|]. cbn [forP]. apply calm_bind; [intros; apply IH | apply H]. Qed.
Lemma calm_act {S A} (s : S) (m : M S A) : snd (m s) = s -> calm s (act m).
Proof. intros H. cbn. destruct (m s) as [[a|e] s']; cbn in H; subst s'; now split. Qed.
Lemma ecb_encrypt_calm data o : calm o (p_ecb_encrypt (VBytes data)).
Proof.
  apply calm_bind; [intros d | now apply calm_act]. apply calm_bind; [intros n | now apply calm_act]. apply calm_for. intros i acc. apply calm_bind; [intros; exact I|]. apply calm_act. unfold bindM, getM, liftM. now destruct (co_encrypt _ _).
Qed.
Lemma ecb_decrypt_calm data o : calm o (p_ecb_decrypt (VBytes data)).
Proof.
  apply calm_bind; [intros d | now apply calm_act]. apply calm_bind; [intros n | now apply calm_act]. apply calm_for. intros i acc. apply calm_bind; [intros; exact I|]. apply calm_act. unfold bindM, getM, liftM. now destruct (co_decrypt _ _).
Qed.

(** [p] has become [q] after [n] turns. *)
Definition became {S A} (s : S) (n : nat) (p q : proc S A) : Prop := calm s q /\ run q s = run p s /\ size s q = (size s p - n)%nat.
Lemma go_calm {S A} (s : S) sched : forall pool : list (proc S A), Forall (calm s) pool ->
  exists pool', go sched pool s = (pool', s) /\ List.length pool' = List.length pool /\
    forall i p q, nth_error pool i = Some p -> nth_error pool' i = Some q -> became s (count_occ Nat.eq_dec sched i) p q.
Proof.
  induction sched as [|j sched IH]; intros pool HP.
  - exists pool. split; [reflexivity|]. split; [reflexivity|]. intros i p q H1 H2. rewrite H1 in H2. injection H2 as <-. cbn [count_occ]. split; [|split; [reflexivity | lia]]. rewrite Forall_forall in HP. apply HP. now apply nth_error_In in H1.
  - cbn [go].
    assert (G : forall pool1, Forall (calm s) pool1 -> List.length pool1 = List.length pool -> (forall i p q, nth_error pool i = Some p -> nth_error pool1 i = Some q -> became s (if Nat.eq_dec j i then 1 else 0) p q) ->
      exists pool', go sched pool1 s = (pool', s) /\ List.length pool' = List.length pool /\ forall i p q, nth_error pool i = Some p -> nth_error pool' i = Some q -> became s (count_occ Nat.eq_dec (j :: sched) i) p q).
    { intros pool1 H1 HL H2. destruct (IH pool1 H1) as (pool' & E & L & B). exists pool'. split; [exact E|]. split; [congruence|]. intros i p q Hp Hq.
      assert (Hi : exists p1, nth_error pool1 i = Some p1).
      { destruct (nth_error pool1 i) as [p1|] eqn:E1; [now exists p1|]. apply nth_error_None in E1. assert (nth_error pool i <> None) as N by (rewrite Hp; discriminate). apply nth_error_Some in N. lia. }
      destruct Hi as (p1 & Hp1). destruct (H2 i p p1 Hp Hp1) as (C1 & R1 & S1). destruct (B i p1 q Hp1 Hq) as (C2 & R2 & S2). split; [exact C2|]. split; [congruence|]. cbn [count_occ]. rewrite S2, S1. destruct (Nat.eq_dec j i); lia. }
    assert (Stay : forall p, nth_error pool j = Some p -> size s p = 0%nat -> exists pool', go sched pool s = (pool', s) /\ List.length pool' = List.length pool /\ forall i p q, nth_error pool i = Some p -> nth_error pool' i = Some q -> became s (count_occ Nat.eq_dec (j :: sched) i) p q).
    { intros p Hp H0. apply G; [exact HP | reflexivity|]. intros i p1 q H1 H2. rewrite H1 in H2. injection H2 as <-. split; [rewrite Forall_forall in HP; apply HP; now apply nth_error_In in H1|]. split; [reflexivity|]. destruct (Nat.eq_dec j i) as [<-|]; [rewrite Hp in H1; injection H1 as <-; lia | lia]. }
    destruct (nth_error pool j) as [[a|e|k]|] eqn:Ej; [now apply (Stay (Ret a)) | now apply (Stay (Exc e))| |].
    + assert (Hc : calm s (Act k)) by (rewrite Forall_forall in HP; apply HP; now apply nth_error_In in Ej). cbn [calm] in Hc. destruct (k s) as [s' p'] eqn:Ek. destruct Hc as [-> Hc]. clear Stay.
      assert (HU : forall i, nth_error (upd pool j p') i = if Nat.eq_dec j i then Some p' else nth_error pool i).
      { assert (Hj : (j < List.length pool)%nat) by (apply nth_error_Some; rewrite Ej; discriminate). clear - Hj. revert j Hj. induction pool as [|x l IHl]; intros j Hj i; [cbn in Hj; lia|]. destruct j as [|j], i as [|i]; cbn [upd nth_error]; try reflexivity. rewrite IHl by (cbn in Hj; lia). destruct (Nat.eq_dec j i), (Nat.eq_dec (Datatypes.S j) (Datatypes.S i)); congruence. }
      apply G.
      * apply Forall_forall. intros x Hx. apply In_nth_error in Hx as (i & Hx). rewrite HU in Hx. destruct (Nat.eq_dec j i); [injection Hx as <-; exact Hc|]. rewrite Forall_forall in HP. apply HP. now apply nth_error_In in Hx.
      * clear. revert j. induction pool as [|x l IHl]; intros [|j]; cbn; auto.
      * intros i p q H1 H2. rewrite HU in H2. destruct (Nat.eq_dec j i) as [<-|].
        -- injection H2 as <-. rewrite Ej in H1. injection H1 as <-. split; [exact Hc|]. cbn [run size]. rewrite Ek. split; [reflexivity | lia].
        -- rewrite H1 in H2. injection H2 as <-. split; [rewrite Forall_forall in HP; apply HP; now apply nth_error_In in H1|]. split; [reflexivity | lia].
    + apply G; [exact HP | reflexivity|]. intros i p1 q H1 H2. rewrite H1 in H2. injection H2 as <-. split; [rewrite Forall_forall in HP; apply HP; now apply nth_error_In in H1|]. split; [reflexivity|]. destruct (Nat.eq_dec j i) as [<-|]; [congruence | lia].
Qed.
Lemma size_ended {S A} (s : S) (p : proc S A) : size s p = 0%nat -> exists r, ended p = Some r.
Proof. destruct p as [a|e|k]; cbn; [now exists (Ok a) | now exists (Err e)|]. destruct (k s). discriminate. Qed.
Lemma ended_run {S A} (s : S) (p : proc S A) r : ended p = Some r -> run p s = (r, s).
Proof. destruct p; intros H; try discriminate; injection H as <-; reflexivity. Qed.

(** ** Two threads that take turns *)
Fixpoint alternate (n : nat) : list nat := match n with O => [] | Datatypes.S n => 0%nat :: 1%nat :: alternate n end.
Definition lock {S A} (p1 p2 : proc S A) (s : S) (q1 q2 : proc S A) (s' : S) : Prop := exists k, forall n, go (alternate (k + n)) [p1; p2] s = go (alternate n) [q1; q2] s'.
Lemma lock_trans {S A} (p1 p2 q1 q2 r1 r2 : proc S A) s s' s'' : lock p1 p2 s q1 q2 s' -> lock q1 q2 s' r1 r2 s'' -> lock p1 p2 s r1 r2 s''.
Proof. intros [k H] [l G]. exists (k + l)%nat. intros n. rewrite <- Nat.add_assoc, H. apply G. Qed.
Lemma lock_refl {S A} (p1 p2 : proc S A) s : lock p1 p2 s p1 p2 s.
Proof. exists 0%nat. reflexivity. Qed.
Lemma lock_act {S A B} (m1 m2 : M S A) (f1 f2 : A -> proc S B) s s1 s2 a b : m1 s = (Ok a, s1) -> m2 s1 = (Ok b, s2) -> lock (bindP (act m1) f1) (bindP (act m2) f2) s (f1 a) (f2 b) s2.
Proof. intros H1 H2. exists 1%nat. intros n. cbn. rewrite H1. cbn. now rewrite H2. Qed.
Lemma lock_act3 {S A B C D} (m1 m2 : M S A) (f1 f2 : A -> proc S B) (g1 g2 : B -> proc S C) (h1 h2 : C -> proc S D) s s1 s2 a b : m1 s = (Ok a, s1) -> m2 s1 = (Ok b, s2) ->
  lock (bindP (bindP (bindP (act m1) f1) g1) h1) (bindP (bindP (bindP (act m2) f2) g2) h2) s (bindP (bindP (f1 a) g1) h1) (bindP (bindP (f2 b) g2) h2) s2.
Proof. intros H1 H2. exists 1%nat. intros n. cbn. rewrite H1. cbn. now rewrite H2. Qed.
Lemma go_ended {S A} n (a b : A) (s : S) : go (alternate n) [Ret a; Ret b] s = ([Ret a; Ret b], s).
Proof. induction n as [|n IH]; [reflexivity | exact IH]. Qed.
Lemma lock_ended {S A} (p1 p2 : proc S A) s a b s' : lock p1 p2 s (Ret a) (Ret b) s' -> exists t, forall n, (t <= n)%nat -> go (alternate n) [p1; p2] s = ([Ret a; Ret b], s').
Proof. intros [k H]. exists k. intros n Hn. replace n with (k + (n - k))%nat by lia. rewrite H. apply go_ended. Qed.

(** *** OFB *)
Fixpoint feed (E : bytes -> bytes) (v : bytes) (bl : list bytes) : bytes := match bl with [] => [] | b :: bl => add_xor (E v) b ++ feed E (E v) bl end.
Fixpoint fed (E : bytes -> bytes) (v : bytes) (n : nat) : bytes := match n with O => v | Datatypes.S n => fed E (E v) n end.
Definition ofb_body (bs : Z) (data : bytes) : Z -> bytes -> proc mode_obj bytes := fun i result =>
  let& gamma := act _get_gamma in
  let cipher_block := _get_block bs data i in
  let result := result ++ add_xor gamma cipher_block in
  let& _ := act (_set_init_vect (py_slice gamma 0 bs)) in
  Ret result.
Lemma one_reg o v : block (o_cipher o) v -> reg (set_iv o v) [v].
Proof. intros H. split; [cbn; now rewrite app_nil_r|]. split; [discriminate | now constructor]. Qed.
Lemma one_gamma o v : co_ok (o_cipher o) -> block (o_cipher o) v -> _get_gamma (set_iv o v) = (Ok (oE (o_cipher o) v), set_iv o v).
Proof. intros Hc Hv. exact (get_gamma_ok (set_iv o v) [v] Hc (one_reg o v Hv)). Qed.
Lemma one_set o v d : block (o_cipher o) v -> block (o_cipher o) d -> _set_init_vect (py_slice d 0 (bs (o_cipher o))) (set_iv o v) = (Ok tt, set_iv o d).
Proof. intros Hv Hd. rewrite (py_slice_block (o_cipher o) d Hd). destruct (set_init_vect_ok (set_iv o v) [v] d (one_reg o v Hv) Hd) as [-> _]. cbn [tl app concat]. now rewrite app_nil_r. Qed.
Lemma fed_block o v n : co_ok o -> block o v -> block o (fed (oE o) v n).
Proof. intros Hc. revert v. induction n as [|n IH]; intros v Hv; [exact Hv|]. apply IH. now apply (co_enc o v Hc). Qed.
Lemma ofb_lock o d1 d2 K1 K2 xs : co_ok (o_cipher o) -> forall v r1 r2, block (o_cipher o) v ->
  lock (bindP (forP xs r1 (ofb_body (bs (o_cipher o)) d1)) K1) (bindP (forP xs r2 (ofb_body (bs (o_cipher o)) d2)) K2) (set_iv o v)
    (K1 (r1 ++ feed (oE (o_cipher o)) v (map (_get_block (bs (o_cipher o)) d1) xs))) (K2 (r2 ++ feed (oE (o_cipher o)) v (map (_get_block (bs (o_cipher o)) d2) xs))) (set_iv o (fed (oE (o_cipher o)) v (List.length xs))) (A := bytes).
Proof.
  intros Hc. induction xs as [|x xs IH]; intros v r1 r2 Hv.
  - cbn [forP bindP map feed fed List.length]. rewrite !app_nil_r. apply lock_refl.
  - destruct (co_enc _ _ Hc Hv) as [_ He]. cbn [forP]. unfold ofb_body at 1 3.
    eapply lock_trans; [eapply lock_act3; apply one_gamma; assumption|]. cbv zeta.
    eapply lock_trans; [eapply lock_act3; (apply one_set; assumption)|]. cbn [bindP].
    eapply lock_trans; [apply IH; exact He|]. cbn [map feed fed List.length]. rewrite <- !app_assoc. apply lock_refl.
Qed.
Lemma ofb_run_loop o d1 xs : co_ok (o_cipher o) -> forall v r1, block (o_cipher o) v ->
  run (forP xs r1 (ofb_body (bs (o_cipher o)) d1)) (set_iv o v) = (Ok (r1 ++ feed (oE (o_cipher o)) v (map (_get_block (bs (o_cipher o)) d1) xs)), set_iv o (fed (oE (o_cipher o)) v (List.length xs))).
Proof.
  intros Hc. induction xs as [|x xs IH]; intros v r1 Hv.
  - cbn [forP run map feed fed List.length]. now rewrite app_nil_r.
  - destruct (co_enc _ _ Hc Hv) as [_ He]. cbn [forP]. rewrite run_bind. unfold ofb_body at 1. rewrite run_bind, run_act, (one_gamma o v Hc Hv). cbv zeta. rewrite run_bind, run_act, (one_set o v _ Hv He). cbn [run]. rewrite (IH _ _ He). cbn [map feed fed List.length]. now rewrite <- !app_assoc.
Qed.
Lemma ofb_together o v m1 m2 : co_ok (o_cipher o) -> block (o_cipher o) v -> o_init_vect o = v -> List.length m1 = List.length m2 ->
  exists c1 c2 o', fst (ofb_encrypt (VBytes m1) o) = Ok c1 /\ fst (ofb_encrypt (VBytes m2) o) = Ok c2 /\ snd (ofb_encrypt (VBytes m1) o) = o' /\ lock (p_ofb_encrypt (VBytes m1)) (p_ofb_encrypt (VBytes m2)) o (Ret c1) (Ret c2) o'.
Proof.
  intros Hc Hv Ev HL. assert (Eo : o = set_iv o v) by (rewrite <- Ev; symmetry; apply set_iv_same). set (E := oE (o_cipher o)). set (n := bs (o_cipher o)).
  assert (HL' : len m1 = len m2) by (unfold len; lia).
  set (xs := py_range 0 (_get_num_block n m1) 1).
  assert (Hx : py_range 0 (_get_num_block n m2) 1 = xs) by (unfold xs, _get_num_block; now rewrite HL').
  set (w := fed E v (List.length xs)). assert (Hw : block (o_cipher o) w) by now apply fed_block.
  set (res := fun m => let r := feed E v (map (_get_block n m) xs) in if negb (len m mod n =? 0) then r ++ add_xor (E w) (_get_final_block n m) else r).
  assert (Alone : forall m, len m = len m1 -> ofb_encrypt (VBytes m) o = (Ok (res m), set_iv o w)).
  { intros m Hm. rewrite <- ofb_encrypt_alone. unfold p_ofb_encrypt. rewrite run_bind, run_act. cbn [check_plaintext]. unfold retM at 1. rewrite run_bind, run_act. unfold bindM at 1, getM at 1, retM at 1. change (block_size o) with n. rewrite run_bind.
    replace (py_range 0 (_get_num_block n m) 1) with xs by (unfold xs, _get_num_block; now rewrite Hm). rewrite Eo at 1. fold (ofb_body n m). unfold n. rewrite (ofb_run_loop o m xs Hc v [] Hv). cbn [app]. fold n E w. unfold res. cbv zeta. destruct (negb (len m mod n =? 0)); [|reflexivity]. rewrite run_bind, run_act, (one_gamma o w Hc Hw). reflexivity. }
  exists (res m1), (res m2), (set_iv o w). rewrite (Alone m1 eq_refl), (Alone m2) by now symmetry. split; [reflexivity|]. split; [reflexivity|]. split; [reflexivity|].
  unfold p_ofb_encrypt. eapply lock_trans; [eapply lock_act; reflexivity|]. eapply lock_trans; [eapply lock_act; reflexivity|]. change (block_size o) with n. rewrite Hx. fold xs. fold (ofb_body n m1). fold (ofb_body n m2).
  rewrite Eo at 1. eapply lock_trans; [apply (ofb_lock o m1 m2 _ _ xs Hc v [] [] Hv)|]. fold n E w. cbn [app]. unfold res. cbv zeta. rewrite <- HL'. destruct (negb (len m1 mod n =? 0)); [|apply lock_refl].
  eapply lock_trans; [eapply lock_act; apply (one_gamma o w Hc Hw)|]. apply lock_refl.
Qed.

(** *** CTR *)
Fixpoint ctr_feed (E : bytes -> bytes) (c : bytes) (j : nat) (bl : list bytes) : bytes := match bl with [] => [] | b :: bl => add_xor b (E (ctr_next c j)) ++ ctr_feed E c (j + 2) bl end.
Definition ctr_turn (bs : Z) (data : bytes) : Z -> bytes -> proc mode_obj bytes := fun i result =>
  let& gamma := act ctr_gamma in
  let& _ := act ctr_increment in
  Ret (result ++ add_xor (_get_block bs data i) gamma).
Lemma ctr_gamma_ok o c : co_ok (o_cipher o) -> block (o_cipher o) c -> ctr_gamma (set_counter o c) = (Ok (oE (o_cipher o) c), set_counter o c).
Proof. intros Hc Hb. unfold ctr_gamma, bindM, getM, liftM. cbn [o_cipher o_counter set_counter]. now destruct (co_enc _ _ Hc Hb) as [-> _]. Qed.
Lemma ctr_increment_ok o c j : block (o_cipher o) c -> ctr_increment (set_counter o (ctr_next c j)) = (Ok tt, set_counter o (ctr_next c (j + 1))).
Proof. intros Hb. unfold ctr_increment, bindM, getM, liftM, putM. cbn [o_cipher o_counter set_counter]. unfold block_size. cbn [o_cipher set_counter]. rewrite (inc_ctr_ok _ _ (ctr_next_block _ _ j Hb)). now rewrite ctr_next_add. Qed.
Lemma ctr_increment_ok' o c j : block (o_cipher o) c -> ctr_increment (set_counter o (ctr_next c (j + 1))) = (Ok tt, set_counter o (ctr_next c (j + 2))).
Proof. intros Hb. rewrite ctr_increment_ok by exact Hb. now replace (j + 1 + 1)%nat with (j + 2)%nat by lia. Qed.
Lemma ctr_lock o c d1 d2 K1 K2 xs : co_ok (o_cipher o) -> block (o_cipher o) c -> forall j r1 r2,
  lock (bindP (forP xs r1 (ctr_turn (bs (o_cipher o)) d1)) K1) (bindP (forP xs r2 (ctr_turn (bs (o_cipher o)) d2)) K2) (set_counter o (ctr_next c j))
    (K1 (r1 ++ ctr_feed (oE (o_cipher o)) c j (map (_get_block (bs (o_cipher o)) d1) xs))) (K2 (r2 ++ ctr_feed (oE (o_cipher o)) c j (map (_get_block (bs (o_cipher o)) d2) xs))) (set_counter o (ctr_next c (j + 2 * List.length xs))) (A := bytes).
Proof.
  intros Hc Hb. induction xs as [|x xs IH]; intros j r1 r2.
  - cbn [forP bindP map ctr_feed List.length]. rewrite !app_nil_r, Nat.mul_0_r, Nat.add_0_r. apply lock_refl.
  - cbn [forP]. unfold ctr_turn at 1 3.
    eapply lock_trans; [eapply lock_act3; apply ctr_gamma_ok; try assumption; now apply ctr_next_block|].
    eapply lock_trans; [eapply lock_act3; [now apply ctr_increment_ok | now apply ctr_increment_ok']|]. cbn [bindP].
    eapply lock_trans; [apply IH|]. cbn [map ctr_feed List.length]. rewrite <- !app_assoc. replace (j + 2 + 2 * List.length xs)%nat with (j + 2 * S (List.length xs))%nat by lia. apply lock_refl.
Qed.
(** The blocks of the gamma that both threads use. *)
Fixpoint shared (E : bytes -> bytes) (c : bytes) (j n : nat) : bytes := match n with O => [] | Datatypes.S n => E (ctr_next c j) ++ shared E c (j + 2) n end.
Lemma shared_snoc E c n : forall j, shared E c j n ++ E (ctr_next c (j + 2 * n)) = shared E c j (Datatypes.S n).
Proof.
  induction n as [|n IH]; intros j; [cbn; now rewrite Nat.add_0_r, app_nil_r|]. cbn [shared]. rewrite <- app_assoc. replace (j + 2 * Datatypes.S n)%nat with (j + 2 + 2 * n)%nat by lia. rewrite IH. reflexivity.
Qed.
Lemma feed_shared o c bl t : co_ok o -> block o c -> Forall (fun b => len b = bs o) bl -> forall j,
  ctr_feed (oE o) c j bl ++ add_xor t (oE o (ctr_next c (j + 2 * List.length bl))) = bxor (concat bl ++ t) (shared (oE o) c j (Datatypes.S (List.length bl))).
Proof.
  intros Hc Hb HF. induction HF as [|b bl Hl _ IH]; intros j.
  - cbn [ctr_feed List.length shared concat app]. rewrite Nat.mul_0_r, Nat.add_0_r, app_nil_r. symmetry. apply bxor_eq.
  - cbn [ctr_feed List.length concat]. destruct (co_enc _ _ Hc (ctr_next_block o c j Hb)) as [_ [HE _]].
    change (shared (oE o) c j (Datatypes.S (Datatypes.S (List.length bl)))) with (oE o (ctr_next c j) ++ shared (oE o) c (j + 2) (Datatypes.S (List.length bl))).
    rewrite <- !app_assoc. rewrite bxor_app2 by (unfold len in *; lia). rewrite bxor_eq at 1. f_equal. rewrite <- IH. now replace (j + 2 * Datatypes.S (List.length bl))%nat with (j + 2 + 2 * List.length bl)%nat by lia.
Qed.
Lemma shared_length o c n : co_ok o -> block o c -> forall j, len (shared (oE o) c j n) = bs o * Z.of_nat n.
Proof.
  intros Hc Hb. induction n as [|n IH]; intros j; [cbn; lia|]. cbn [shared]. rewrite len_app, IH. destruct (co_enc _ _ Hc (ctr_next_block o c j Hb)) as [_ [-> _]]. lia.
Qed.
Lemma ctr_together o c m1 m2 : co_ok (o_cipher o) -> block (o_cipher o) c -> o_counter o = c -> List.length m1 = List.length m2 ->
  exists g o', (List.length m1 <= List.length g)%nat /\ lock (p_ctr_encrypt (VBytes m1)) (p_ctr_encrypt (VBytes m2)) o (Ret (bxor m1 g)) (Ret (bxor m2 g)) o'.
Proof.
  intros Hc Hb Ec HL. assert (HL' : len m1 = len m2) by (unfold len; lia). set (n := bs (o_cipher o)). set (E := oE (o_cipher o)). pose proof (bs_pos (o_cipher o)) as Hn.
  destruct (cut_exists n m1 Hn) as (bl1 & t1 & C1). destruct (cut_exists n m2 Hn) as (bl2 & t2 & C2).
  assert (Hlb : List.length bl1 = List.length bl2).
  { pose proof (cut_num _ _ _ _ Hn C1) as N1. pose proof (cut_num _ _ _ _ Hn C2) as N2. unfold _get_num_block in N1, N2. rewrite HL' in N1. rewrite N1 in N2. unfold len in N2. lia. }
  set (xs := py_range 0 (_get_num_block n m1) 1).
  assert (Hx : py_range 0 (_get_num_block n m2) 1 = xs) by (unfold xs, _get_num_block; now rewrite HL').
  assert (M1 : map (_get_block n m1) xs = bl1) by (apply (get_blocks n m1 bl1 t1); assumption).
  assert (M2 : map (_get_block n m2) xs = bl2) by (rewrite <- Hx; apply (get_blocks n m2 bl2 t2); assumption).
  assert (Lx : List.length xs = List.length bl1) by (rewrite <- M1; symmetry; apply map_length).
  assert (Hne : c <> []) by (intros ->; destruct Hb as [Hb _]; cbn in Hb; lia).
  assert (Eo : o = set_counter o (ctr_next c 0)) by (rewrite (ctr_next_0 c Hne (proj2 Hb)), <- Ec; symmetry; apply set_counter_same).
  assert (Dz : forall o1 m bl t, co_ok o1 -> block o1 c -> n = bs o1 -> cut n m bl t -> List.length bl = List.length bl1 -> ctr_feed (oE o1) c 0 bl ++ add_xor t (oE o1 (ctr_next c (2 * List.length bl1))) = bxor m (shared (oE o1) c 0 (Datatypes.S (List.length bl1)))).
  { intros o1 m bl t H1 H2 H3 (-> & HF & _) H4. rewrite <- H4. apply (feed_shared o1 c bl t); try assumption. rewrite <- H3. exact HF. }
  assert (Zl : forall t, len t = 0 -> forall g, add_xor t g = []) by (intros t Ht g; apply len_0_nil in Ht; subst t; reflexivity).
  exists (shared E c 0 (Datatypes.S (List.length bl1))).
  assert (Hlen : (List.length m1 <= List.length (shared E c 0 (Datatypes.S (List.length bl1))))%nat).
  { pose proof (shared_length (o_cipher o) c (Datatypes.S (List.length bl1)) Hc Hb 0) as HS. fold E n in HS. pose proof (cut_len _ _ _ _ C1) as HC. destruct C1 as (_ & _ & Ht). unfold len in *. nia. }
  exists (if len t1 =? 0 then set_counter o (ctr_next c (2 * List.length bl1)) else set_counter o (ctr_next c (2 * List.length bl1 + 2))). split; [exact Hlen|].
  unfold p_ctr_encrypt. eapply lock_trans; [eapply lock_act; reflexivity|]. eapply lock_trans; [eapply lock_act; reflexivity|]. change (block_size o) with n. rewrite Hx. fold xs. fold (ctr_turn n m1). fold (ctr_turn n m2).
  rewrite Eo at 1. eapply lock_trans; [apply (ctr_lock o c m1 m2 _ _ xs Hc Hb 0%nat [] [])|]. fold n E. rewrite M1, M2, Lx. cbn [app Nat.add].
  pose proof (Dz _ m1 bl1 t1 Hc Hb eq_refl C1 eq_refl) as D1. pose proof (Dz _ m2 bl2 t2 Hc Hb eq_refl C2 (eq_sym Hlb)) as D2. fold E in D1, D2. rewrite <- D1, <- D2. rewrite <- HL'. pose proof (cut_final _ _ _ _ Hn C1) as F1. pose proof (cut_final _ _ _ _ Hn C2) as F2. fold n in F1, F2. rewrite F1, F2. clear D1 D2.
  pose proof (cut_mod _ _ _ _ C1) as R1. pose proof (cut_mod _ _ _ _ C2) as R2. fold n in R1, R2. rewrite R1. destruct (len t1 =? 0) eqn:Et; cbn [negb].
  - apply Z.eqb_eq in Et. rewrite (Zl t1 Et), (Zl t2) by congruence. rewrite !app_nil_r. apply lock_refl.
  - eapply lock_trans; [eapply lock_act; apply ctr_gamma_ok; try assumption; now apply ctr_next_block|].
    eapply lock_trans; [eapply lock_act; [now apply ctr_increment_ok | now apply ctr_increment_ok']|]. apply lock_refl.
Qed.
