(** * Property C156: buffers given to signature objects *)
From Verif Require Import PyBase PyState PyLoop Utils Sig PropSig Heap HeapCipher CipherObj Modes Mac HeapModes HeapSig HeapSigFacts.
Open Scope string_scope.
Open Scope list_scope.
Open Scope Z_scope.

(** The value of an argument: the content of a bytearray now, or the value itself. *)
Definition value_now (h : heap) (x : arg) : option pyval :=
  match x with ABuf a => match nth_error h a with Some l => Some (VBytes l) | None => None end | AVal p => Some p end.
(** The call ended as [v], with a bytearray that did not exist before. *)
Definition ends_new (h : heap) (v : outcome bytes) (r : outcome buf * heap) : Prop :=
  match v with
  | Returns l => exists a, fst r = Returns (Ref a) /\ (List.length h <= a)%nat /\ nth_error (snd r) a = Some l
  | Raises e => fst r = Raises e
  | OutOfFuel => fst r = OutOfFuel
  end.
(** No bytearray that existed before was changed. *)
Definition unchanged (h h' : heap) : Prop := forall a l, nth_error h a = Some l -> nth_error h' a = Some l.

Lemma now_arg h x p : value_now h x = Some p -> is_arg h x p.
Proof. destruct x as [a|q]; cbn [value_now is_arg]; [|now intros [= ->]]. destruct (nth_error h a); [intros [= <-]; reflexivity | discriminate]. Qed.
Lemma sim_unchanged {A B} (R : heap -> A -> B -> Prop) m v h : sim R m v h -> unchanged h (snd (m h)).
Proof. intros [G _] a l E. exact (grown_content _ _ (Ref a) l G E). Qed.
Lemma sim_ends m v h : sim (fresh (List.length h)) m v h -> ends_new h v (m h).
Proof.
  intros [_ H]. unfold ends_new. destruct v as [l|e|], (fst (m h)) as [b|e'|]; try contradiction; [|now rewrite H | reflexivity]. destruct H as [H (a & -> & Ha)]. exists a. split; [reflexivity|]. split; assumption.
Qed.

(** C156. A call ends as on the contents of its arguments; nothing that existed is written to; the result is new. *)
Theorem C156_sign : forall o n ur pk dg rk pk' dg' rk' h, value_now h pk = Some pk' -> value_now h dg = Some dg' -> value_now h rk = Some rk' ->
  let r := hs_sign o n ur pk dg rk h in unchanged h (snd r) /\ ends_new h (sign o n ur pk' dg' rk') r.
Proof.
  intros o n ur pk dg rk pk' dg' rk' h Hp Hd Hr r. assert (S := s_sign o n ur pk dg rk pk' dg' rk' h (now_arg _ _ _ Hp) (now_arg _ _ _ Hd) (now_arg _ _ _ Hr)). split; [exact (sim_unchanged _ _ _ _ S) | exact (sim_ends _ _ _ S)].
Qed.
Print Assumptions C156_sign.
Theorem C156_public : forall o n pk pk' h, value_now h pk = Some pk' ->
  let r := hs_public_key_generate o n pk h in unchanged h (snd r) /\ ends_new h (public_key_generate o n pk') r.
Proof. intros o n pk pk' h Hp r. assert (S := s_public o n pk pk' h (now_arg _ _ _ Hp)). split; [exact (sim_unchanged _ _ _ _ S) | exact (sim_ends _ _ _ S)]. Qed.
Print Assumptions C156_public.
Theorem C156_verify : forall o n pk dg sg pk' dg' sg' h, value_now h pk = Some pk' -> value_now h dg = Some dg' -> value_now h sg = Some sg' ->
  let r := hs_verify o n pk dg sg h in unchanged h (snd r) /\ fst r = verify o n pk' dg' sg'.
Proof.
  intros o n pk dg sg pk' dg' sg' h Hp Hd Hr r. assert (S := s_verify o n pk dg sg pk' dg' sg' h (now_arg _ _ _ Hp) (now_arg _ _ _ Hd) (now_arg _ _ _ Hr)). split; [exact (sim_unchanged _ _ _ _ S)|]. destruct S as [_ S]. unfold r.
  destruct (verify o n pk' dg' sg') as [b|e|], (fst (hs_verify o n pk dg sg h)) as [b'|e'|]; try contradiction; [|now rewrite S | reflexivity]. unfold eqv in S. now rewrite S.
Qed.
Print Assumptions C156_verify.
(** The default of [rand_k] is one bytearray for all calls: after any signatures it is still empty. *)
Definition one_sign := (sig_obj * nat * (nat -> bytes) * arg * arg * arg)%type.
Fixpoint signs (cs : list one_sign) (h : heap) : heap :=
  match cs with [] => h | (o, n, ur, pk, dg, rk) :: cs => signs cs (snd (hs_sign o n ur pk dg rk h)) end.
Definition exists_now (h : heap) (x : arg) : Prop := value_now h x <> None.
Theorem C156_default : forall cs h d, nth_error h d = Some [] -> Forall (fun c : one_sign => let '(o, n, ur, pk, dg, rk) := c in exists_now h pk /\ exists_now h dg /\ exists_now h rk) cs -> unchanged h (signs cs h) /\ nth_error (signs cs h) d = Some [].
Proof.
  intros cs h d Hd HF. assert (U : unchanged h (signs cs h)); [|split; [exact U | exact (U d [] Hd)]]. clear d Hd. assert (H : forall h', unchanged h h' -> unchanged h (signs cs h')); [|apply H; intros a l E; exact E].
  induction HF as [|[[[[[o n] ur] pk] dg] rk] cs (H1 & H2 & H3) HF IH]; intros h' U; [exact U|]. cbn [signs]. apply IH.
  assert (V : forall x, exists_now h x -> exists p, value_now h' x = Some p).
  { intros [a|p] Hx; [|now exists p]. unfold exists_now in Hx. cbn [value_now] in *. destruct (nth_error h a) as [l|] eqn:E; [|now destruct Hx]. exists (VBytes l). now rewrite (U a l E). }
  destruct (V pk H1) as [pk' V1]. destruct (V dg H2) as [dg' V2]. destruct (V rk H3) as [rk' V3]. destruct (C156_sign o n ur pk dg rk pk' dg' rk' h' V1 V2 V3) as [U' _]. intros a l E. exact (U' a l (U a l E)).
Qed.
Print Assumptions C156_default.
(** Whatever the object: a private key in a bytearray is still there when [sign] has returned or raised. *)
Theorem C156_key_stays : forall o n ur a dg rk h d, nth_error h a = Some d -> exists_now h dg -> exists_now h rk -> nth_error (snd (hs_sign o n ur (ABuf a) dg rk h)) a = Some d.
Proof.
  intros o n ur a dg rk h d E Hd Hr. unfold exists_now in *. destruct (value_now h dg) as [dg'|] eqn:E1; [|now destruct Hd]. destruct (value_now h rk) as [rk'|] eqn:E2; [|now destruct Hr].
  apply (proj1 (C156_sign o n ur (ABuf a) dg rk (VBytes d) dg' rk' h ltac:(cbn [value_now]; now rewrite E) E1 E2)). exact E.
Qed.
Print Assumptions C156_key_stays.
(** The claim: when [sign] has returned, the bytearray of the private key no longer holds the key. *)
Definition key_erased : Prop := forall o n ur a dg rk h d b h', nth_error h a = Some d -> Exists (fun x => x <> 0) d -> hs_sign o n ur (ABuf a) dg rk h = (Returns b, h') -> nth_error h' a <> Some d.
Definition cells : heap := [[]; [3]; [26]; [10]].
Theorem C156_refuted : ~ key_erased.
Proof.
  intros H. destruct (hs_sign toy 9 (fun _ => []) (ABuf 1) (ABuf 2) (ABuf 3) cells) as [[b|e|] h'] eqn:E; [|vm_compute in E; discriminate E | vm_compute in E; discriminate E].
  apply (H toy 9%nat (fun _ => []) 1%nat (ABuf 2) (ABuf 3) cells [3] b h' eq_refl); [constructor; discriminate | exact E|]. assert (U := proj1 (C156_sign toy 9 (fun _ => []) (ABuf 1) (ABuf 2) (ABuf 3) _ _ _ cells eq_refl eq_refl eq_refl)). rewrite E in U. exact (U 1%nat [3] eq_refl).
Qed.
Print Assumptions C156_refuted.
(** The signature is in a new cell; the last cell is the one made by zero_fill: "/x00". *)
Example C156_example : let r := hs_sign toy 9 (fun _ => []) (ABuf 1) (ABuf 2) (ABuf 3) cells in
  exists a, fst r = Returns (Ref a) /\ (4 <= a)%nat /\ nth_error (snd r) a = Some [7; 15] /\ firstn 4 (snd r) = cells /\ last (snd r) [] = [0x2f; 0x78; 0x30; 0x30].
Proof. cbv zeta. vm_compute. eexists. split; [reflexivity|]. split; [lia|]. split; [reflexivity|]. split; reflexivity. Qed.
