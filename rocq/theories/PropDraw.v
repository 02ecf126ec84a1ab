(** * Property C121: the numbers drawn by sign *)
From Coq Require Import ZArith Znumtheory Lia String.
From Verif Require Import PyBase PyFacts PyLoop Utils UtilsFacts SpecModes SpecSign SigCurves Sig CipherObjFacts SigProps SigSign SigFinal SigCons PropSig PropSig2 SpecDraw DrawLemmas.
Open Scope string_scope.
Open Scope list_scope.
Open Scope Z_scope.

(** C121.  Which number [sign] uses when it draws one: [d] is what [os.urandom] returns, call after call;
    the loop may draw [n + 1] times. *)
Lemma rand_loop_first o size d : s_size o = Z.of_nat size -> Forall (fun s => In s (strings size)) d -> forall n i pre ur, (n + 1 = List.length d)%nat -> i = List.length pre -> (forall j, ur j = nth j (pre ++ d) []) ->
  rand_loop o n ur i = match first_below (s_q o) d with Some k => Returns (be_bytes size k) | None => OutOfFuel end.
Proof.
  intros Hs. induction 1 as [|s d H0 HF IH]; intros n i pre ur Hn Hi Hu; [cbn in Hn; lia|]. subst i. apply strings_in in H0 as [HL HB].
  assert (E : ur (List.length pre) = s) by (rewrite Hu, app_nth2, Nat.sub_diag by lia; reflexivity).
  assert (EB : be_bytes size (be_value s) = s) by (rewrite be_bytes_eq, be_value_eq, <- HL; change (Z.of_nat (List.length s)) with (len s); now apply of_int_to_int).
  assert (EC : (bytearray_to_int s >=? s_q o) = negb (be_value s <? s_q o)) by (rewrite be_value_eq; lia).
  cbn [first_below]. destruct n as [|n]; cbn [rand_loop]; rewrite E, EC; destruct (be_value s <? s_q o); cbn [negb]; try (now rewrite EB).
  - destruct d; [reflexivity | cbn in Hn; lia].
  - apply (IH n (S (List.length pre)) (pre ++ [s])); [cbn in Hn; lia | rewrite app_length; cbn; lia|]. intros j. rewrite <- app_assoc. apply Hu.
Qed.

Theorem C121_drawn : forall mode c o pk dg size n d, sig_new mode c = Ok o -> s_size o = Z.of_nat size -> len pk = s_size o -> len dg = s_size o -> In d (draws size (n + 1)) ->
  let ur := fun i => nth i d [] in
  sign o n ur (VBytes pk) (VBytes dg) (VBytes []) =
  match first_below (s_q o) d with Some k => sign o n ur (VBytes pk) (VBytes dg) (VBytes (be_bytes size k)) | None => OutOfFuel end.
Proof.
  intros mode c o pk dg size n d EN Hs Hp Hd HI ur. pose proof (new_shaped mode c o EN) as HS. apply in_tuples in HI as [HL HF].
  rewrite sign_generated by assumption. rewrite (rand_loop_first o size d Hs HF n 0 [] ur) by (rewrite ?HL; reflexivity). destruct (first_below (s_q o) d) as [k|]; [|reflexivity]. cbn [bindO].
  rewrite sign_given; try assumption; [reflexivity|]. intros E. apply (f_equal len) in E. rewrite be_bytes_eq, int_to_bytearray_len in E. change (len (@nil Z)) with 0 in E. destruct HS as [HS _]. rewrite Hs in HS. lia.
Qed.
Print Assumptions C121_drawn.
(** Of all sequences of [n + 1] strings, equally many make each number below q the one that is used; in the rest none is. *)
Theorem C121_uniform : forall mode c o size n k, sig_new mode c = Ok o -> s_size o = Z.of_nat size -> 0 <= k < s_q o ->
  let N := 256 ^ Z.of_nat size in
  s_q o * cases (gives (s_q o) k) (draws size (n + 1)) = N ^ Z.of_nat (n + 1) - (N - s_q o) ^ Z.of_nat (n + 1) /\
  cases (gives_none (s_q o)) (draws size (n + 1)) = (N - s_q o) ^ Z.of_nat (n + 1) /\ Z.of_nat (List.length (draws size (n + 1))) = N ^ Z.of_nat (n + 1).
Proof.
  intros mode c o size n k EN Hs Hk N. destruct (new_shaped mode c o EN) as [_ HQ]. rewrite Hs in HQ.
  split; [now apply cases_gives|]. split; [now apply cases_gives_none | apply N_draws].
Qed.
Print Assumptions C121_uniform.
(** The range starts at zero, not at one: when zero is drawn the call does not end. *)
Theorem C121_zero_drawn : forall mode c o pk dg size n d, sig_new mode c = Ok o -> s_size o = Z.of_nat size -> len pk = s_size o -> len dg = s_size o -> In d (draws size (n + 1)) ->
  first_below (s_q o) d = Some 0 -> sign o n (fun i => nth i d []) (VBytes pk) (VBytes dg) (VBytes []) = OutOfFuel.
Proof.
  intros mode c o pk dg size n d EN Hs Hp Hd HI HF. rewrite (C121_drawn mode c o pk dg size n d EN Hs Hp Hd HI), HF. pose proof (new_shaped mode c o EN) as [HS _].
  assert (OB : bytes_ok (be_bytes size 0)) by (rewrite be_bytes_eq; apply int_to_bytearray_ok).
  destruct (C87_sign_exact mode c o (fun i => nth i d []) pk dg (be_bytes size 0) EN OB) as (_ & H & _); try assumption.
  - intros E. apply (f_equal len) in E. rewrite be_bytes_eq, int_to_bytearray_len in E. change (len (@nil Z)) with 0 in E. rewrite Hs in HS. lia.
  - apply H. rewrite number_eq, be_bytes_eq, int_to_bytearray_zero. unfold py_repeat. clear. induction (Z.to_nat (Z.of_nat size)) as [|m IH]; [reflexivity|]. cbn [repeat]. rewrite bytearray_to_int_cons, IH. lia.
Qed.
Print Assumptions C121_zero_drawn.
Definition zero_never_drawn : Prop := forall mode c o size n, sig_new mode c = Ok o -> s_size o = Z.of_nat size -> cases (gives (s_q o) 0) (draws size (n + 1)) = 0.
Theorem C121_positive_refuted : ~ zero_never_drawn.
Proof.
  intros H. destruct a_new as (o & EN & EO). assert (Hs : s_size o = Z.of_nat 32) by (subst o; reflexivity). pose proof (H _ _ o 32%nat 0%nat EN Hs) as HZ.
  assert (HQ : 0 < s_q o) by (destruct (new_shaped _ _ o EN); lia). destruct (C121_uniform _ _ o 32 0 0 EN Hs ltac:(lia)) as (E & _). rewrite HZ in E. cbn [Nat.add] in E. rewrite !Z.pow_1_r in E. lia.
Qed.
Print Assumptions C121_positive_refuted.
Example C121_example : exists o, sig_new MODE_256 curve_2012_256_paramSetB = Ok o /\ s_size o = Z.of_nat 32 /\
  In [repeat 255 32; 7 :: repeat 0 31] (draws 32 (1 + 1)) /\ first_below (s_q o) [repeat 255 32; 7 :: repeat 0 31] = Some (7 * 256 ^ 31) /\
  first_below (s_q o) [repeat 255 32; repeat 255 32] = None.
Proof.
  destruct a_new as (o & EN & EO). exists o. split; [exact EN|]. subst o. split; [reflexivity|]. split; [|split; vm_compute; reflexivity].
  apply in_tuples. split; [reflexivity|]. apply Forall_cons; [|apply Forall_cons; [|apply Forall_nil]]; apply strings_in; (split; [reflexivity|]).
  - apply (bytes_ok_repeat 255 32); unfold byte_ok; lia.
  - apply Forall_cons; [unfold byte_ok; lia|]. apply (bytes_ok_repeat 0 31); unfold byte_ok; lia.
Qed.
