(** * The password attribute is never read by the key derivation: the lemmas behind C111 *)
From Verif Require Import PyBase PyState Utils Streebog SpecStreebog StreebogLemmas StreebogProps Hmac SpecHmac World HmacLemmas HmacProps Pbkdf SpecPbkdf PbkdfLemmas.
Open Scope string_scope.
Open Scope list_scope.
Open Scope Z_scope.

(** A computation that neither reads nor changes the password attribute. *)
Definition blind {A} (c : M pbkdf_obj A) : Prop := forall o x, c (p_set_password o x) = (fst (c o), p_set_password (snd (c o)) x).

Lemma blind_ret A (a : A) : blind (retM a).
Proof. intros o x. reflexivity. Qed.
Lemma blind_raise A e : blind (raiseM (A := A) e).
Proof. intros o x. reflexivity. Qed.
Lemma blind_lift A (r : res A) : blind (liftM r).
Proof. intros o x. reflexivity. Qed.
Lemma blind_bind A B (c : M pbkdf_obj A) (k : A -> M pbkdf_obj B) : blind c -> (forall a, blind (k a)) -> blind (bindM c k).
Proof. intros Hc Hk o x. unfold bindM. rewrite (Hc o x). destruct (c o) as [[a|e] o']; cbn [fst snd]; [apply Hk | reflexivity]. Qed.
Lemma blind_get B (k : pbkdf_obj -> M pbkdf_obj B) : (forall o x, k (p_set_password o x) (p_set_password o x) = (fst (k o o), p_set_password (snd (k o o)) x)) ->
  blind (bindM getM k).
Proof. intros H o x. unfold bindM, getM. apply H. Qed.
Lemma blind_hmac A (c : M hmac_obj A) : blind (on_hmac c).
Proof. intros o x. unfold on_hmac. cbn [p_hmac p_set_password]. destruct (c (p_hmac o)) as [r h]. reflexivity. Qed.
Lemma blind_for A B (xs : list A) (body : A -> B -> M pbkdf_obj B) : (forall a b, blind (body a b)) -> forall acc, blind (forM xs acc body).
Proof. intros H. induction xs as [|a xs IH]; intros acc; cbn [forM]; [apply blind_ret|]. apply blind_bind; [apply H | intros; apply IH]. Qed.
Lemma blind_put (f : pbkdf_obj -> pbkdf_obj) : (forall o x, f (p_set_password o x) = p_set_password (f o) x) -> blind (bindM getM (fun o => putM (f o))).
Proof. intros H. apply blind_get. intros o x. unfold putM. cbn [fst snd]. now rewrite H. Qed.
Lemma blind_put_then B (f : pbkdf_obj -> pbkdf_obj) (k : M pbkdf_obj B) : (forall o x, f (p_set_password o x) = p_set_password (f o) x) -> blind k ->
  blind (bindM getM (fun o => bindM (putM (f o)) (fun _ => k))).
Proof. intros H Hk. apply blind_get. intros o x. unfold bindM, putM. rewrite H. apply Hk. Qed.

Lemma blind_first : blind _u_first.
Proof.
  unfold _u_first. apply blind_bind; [apply blind_hmac|]. intros _. apply blind_get. intros o x. cbn [p_salt p_counter p_set_password].
  apply (blind_bind _ _ _ (fun _ => on_hmac hmac_digest)); [apply blind_hmac | intros; apply blind_hmac].
Qed.
Lemma blind_iter u : blind (_u_iter u).
Proof. unfold _u_iter. repeat (apply blind_bind; [apply blind_hmac|intros _]). apply blind_hmac. Qed.
Lemma blind_f : blind _f.
Proof.
  unfold _f. apply blind_bind; [apply blind_first|]. intros t. apply blind_bind; [apply blind_first|]. intros u. apply blind_get. intros o x. cbn [p_iterations p_set_password].
  match goal with |- ?c _ = _ => apply (fun H : blind c => H o x) end. apply blind_bind; [apply blind_lift|]. intros rounds. apply blind_bind.
  - apply blind_for. intros z [t' i]. apply blind_bind; [apply blind_iter|]. intros; apply blind_ret.
  - intros [t' i]. apply blind_ret.
Qed.
Lemma blind_calc n : blind (_calculate_pbkdf n).
Proof.
  unfold _calculate_pbkdf. apply blind_put_then; [reflexivity|]. apply blind_bind.
  - destruct (negb _); [|apply blind_ret]. apply (blind_put (fun o => p_set_num_block o (p_num_block o + 1))). reflexivity.
  - intros _. apply blind_get. intros o x. cbn [p_num_block p_set_password].
    match goal with |- ?c _ = _ => apply (fun H : blind c => H o x) end. apply blind_for. intros i r. apply blind_bind.
    + apply (blind_put (fun o => p_set_counter o i)). reflexivity.
    + intros _. apply blind_bind; [apply blind_f | intros; apply blind_ret].
Qed.
Lemma blind_derive n : blind (derive n).
Proof. unfold derive. destruct (n >? _); [apply blind_raise|]. apply blind_bind; [apply blind_calc | intros; apply blind_ret]. Qed.
Lemma blind_hexderive n : blind (hexderive n).
Proof. unfold hexderive. destruct (n >? _); [apply blind_raise|]. apply blind_bind; [apply blind_calc | intros; apply blind_ret]. Qed.

Lemma pmap_fst A (f : A -> hres) (p : res A * pbkdf_obj) : fst (pmap f p) = match fst p with Ok a => Ok (f a) | Err e => Err e end /\ snd (pmap f p) = snd p.
Proof. destruct p as [[a|e] o]; split; reflexivity. Qed.

(** Two objects that differ in the password attribute at most. *)
Definition same_but_password (o1 o2 : pbkdf_obj) : Prop := exists x, o2 = p_set_password o1 x.

Lemma step_same c o1 o2 : same_but_password o1 o2 -> fst (pstep c o1) = fst (pstep c o2) /\ same_but_password (snd (pstep c o1)) (snd (pstep c o2)).
Proof.
  intros [x ->]. destruct c as [n|n|]; cbn [pstep].
  - rewrite !(proj1 (pmap_fst _ _ _)), !(proj2 (pmap_fst _ _ _)), (blind_derive n o1 x). cbn [fst snd]. split; [reflexivity | now exists x].
  - rewrite !(proj1 (pmap_fst _ _ _)), !(proj2 (pmap_fst _ _ _)), (blind_hexderive n o1 x). cbn [fst snd]. split; [reflexivity | now exists x].
  - unfold pbkdf_clear, bindM, getM, putM. cbn [pmap fst snd]. split; [reflexivity|]. eexists. reflexivity.
Qed.
Lemma run_same cs : forall o1 o2, same_but_password o1 o2 -> fst (World.run pstep cs o1) = fst (World.run pstep cs o2).
Proof.
  induction cs as [|c cs IH]; intros o1 o2 H; [reflexivity|]. rewrite !run_cons. cbn [fst]. destruct (step_same c o1 o2 H) as [-> H']. f_equal. now apply IH.
Qed.

Lemma passwords_same u P Q s c : (List.length P <= 64)%nat -> (List.length Q <= 64)%nat -> K0 P = K0 Q ->
  match pbkdf_new u (VBytes P) s c, pbkdf_new u (VBytes Q) s c with
  | Ok o1, Ok o2 => same_but_password o1 o2
  | Err e1, Err e2 => e1 = e2
  | _, _ => False
  end.
Proof.
  intros HP HQ E. pose proof (padded_same (VStr "HMAC_GOSTR3411_2012_512") P Q (Some (VBytes [])) HP HQ E) as HH. cbn [hmac_new] in HH.
  unfold pbkdf_new, pbkdf_init. set (s' := match match s with Some s0 => s0 | None => VBytes [] end with VBytes [] => VBytes u | _ => _ end).
  destruct s' as [b| | |]; try reflexivity. unfold hmac_new in HH.
  rewrite HH. destruct (hmac_init _ (VBytes Q) (VBytes [])) as [h|e]; [|reflexivity]. now exists Q.
Qed.
