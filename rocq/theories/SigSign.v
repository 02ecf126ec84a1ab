(** * The signature object: what [sign], [verify] and [public_key_generate] return *)
From Coq Require Import ZArith Znumtheory Lia String.
From Verif Require Import PyBase PyFacts PyLoop Utils UtilsFacts Euclid Fp SpecCurve CurveGroup SpecSign SigCurves Sig SigLemmas SigArith SigProps.
Open Scope Z_scope.

(** [sign] after the choice of the nonce. *)
Definition sign_with (o : sig_obj) (n : nat) (pk dg rk : bytes) : outcome bytes :=
  if bytearray_to_int rk >=? s_q o then Raises (GOSTSignatureError "GOSTSignatureError: invalid random value")
  else let? rs := sign_outer o n pk rk (gost_e (s_q o) (bytearray_to_int dg)) 0 0 0 in Returns (octets o (fst rs) ++ octets o (snd rs)).
Lemma sign_given o n ur pk dg rk : shaped o -> len pk = s_size o -> len dg = s_size o -> rk <> [] ->
  sign o n ur (VBytes pk) (VBytes dg) (VBytes rk) = sign_with o n pk dg rk.
Proof.
  intros HS Hp Hd N. unfold sign, sign_with, check_value. rewrite Hp, Hd, Z.eqb_refl. cbn [negb]. rewrite set_e_is by exact HS. cbn [liftO bindO].
  destruct rk as [|k0 rk]; [contradiction|]. reflexivity.
Qed.
Lemma sign_generated o n ur pk dg : shaped o -> len pk = s_size o -> len dg = s_size o ->
  sign o n ur (VBytes pk) (VBytes dg) (VBytes []) = let? rk := rand_loop o n ur 0 in sign_with o n pk dg rk.
Proof.
  intros HS Hp Hd. unfold sign, sign_with, check_value. rewrite Hp, Hd, Z.eqb_refl. cbn [negb]. rewrite set_e_is by exact HS. cbn [liftO bindO].
  unfold _get_rand_k. destruct (rand_loop o n ur 0); reflexivity.
Qed.
Lemma rand_loop_returns o ur : forall n i rk, rand_loop o n ur i = Returns rk -> exists j, rk = ur (i + j)%nat /\ bytearray_to_int rk < s_q o /\ forall l, (i <= l < i + j)%nat -> s_q o <= bytearray_to_int (ur l).
Proof.
  induction n as [|n IH]; intros i rk E; cbn [rand_loop] in E; destruct (bytearray_to_int (ur i) >=? s_q o) eqn:EB.
  - discriminate E.
  - injection E as <-. exists 0%nat. rewrite Nat.add_0_r. split; [reflexivity|]. split; [lia | intros; lia].
  - destruct (IH _ _ E) as (j & -> & HL & HA). exists (S j). replace (i + S j)%nat with (S i + j)%nat by lia. split; [reflexivity|]. split; [exact HL|].
    intros l Hl. destruct (Nat.eq_dec l i) as [->|N]; [lia | apply HA; lia].
  - injection E as <-. exists 0%nat. rewrite Nat.add_0_r. split; [reflexivity|]. split; [lia | intros; lia].
Qed.

(** The signature numbers from the [x]-coordinate. *)
Definition sig_r (o : sig_obj) (x : Z) : Z := x mod s_q o.
Definition sig_s (o : sig_obj) (x d k e : Z) : Z := (sig_r o x * d + k * e) mod s_q o.

(** The exact behaviour for a given nonce: it is enough that the object has passed the constructor. *)
Lemma sign_with_exact o pk dg rk : shaped o -> bytes_ok rk -> let k := bytearray_to_int rk in let e := gost_e (s_q o) (bytearray_to_int dg) in let d := bytearray_to_int pk in
  (s_q o <= k -> forall n, sign_with o n pk dg rk = Raises (GOSTSignatureError "GOSTSignatureError: invalid random value")) /\
  (k = 0 -> diverges (fun n => sign_with o n pk dg rk)) /\
  (0 < k < s_q o -> exists x y, (forall n, (iters o <= n)%nat -> _mul_point o n k (-1) (-1) = Returns (x, y)) /\
    (sig_r o x <> 0 -> sig_s o x d k e <> 0 -> forall n, (iters o < n)%nat -> sign_with o n pk dg rk = Returns (octets o (sig_r o x) ++ octets o (sig_s o x d k e))) /\
    (sig_r o x = 0 \/ sig_s o x d k e = 0 -> diverges (fun n => sign_with o n pk dg rk)) /\
    (forall n, sign_with o n pk dg rk = OutOfFuel \/ sign_with o n pk dg rk = Returns (octets o (sig_r o x) ++ octets o (sig_s o x d k e)))).
Proof.
  intros HS HO k e d. destruct HS as [S1 S2]. assert (HS : shaped o) by (split; assumption). split; [|split].
  - intros HK n. unfold sign_with. fold k. replace (k >=? s_q o) with true by lia. reflexivity.
  - intros HK n. unfold sign_with. fold k. replace (k >=? s_q o) with false by lia. rewrite sign_outer_zero by (exact HS || (fold k; lia)). reflexivity.
  - intros HK. destruct (mul_point_ends o k (-1) (-1) ltac:(lia) ltac:(lia)) as ([x y] & Hxy). exists x, y. split; [exact Hxy|].
    assert (EW : forall n, sign_with o n pk dg rk = let? rs := sign_outer o n pk rk e 0 0 0 in Returns (octets o (fst rs) ++ octets o (snd rs))).
    { intros n. unfold sign_with. fold k e. replace (k >=? s_q o) with false by lia. reflexivity. }
    split; [|split].
    + intros N1 N2 n Hn. rewrite EW. rewrite (sign_outer_ok o HS pk rk e (x, y) Hxy n Hn N1 N2). reflexivity.
    + intros H n. cbv beta. rewrite EW. rewrite (sign_outer_diverges o HS pk rk e (x, y) Hxy n H). reflexivity.
    + intros n. rewrite EW. destruct (Z.eq_dec (sig_r o x) 0) as [E0|N0]; [left; rewrite (sign_outer_diverges o HS pk rk e (x, y) Hxy n (or_introl E0)); reflexivity|].
      destruct (Z.eq_dec (sig_s o x d k e) 0) as [E1|N1]; [left; rewrite (sign_outer_diverges o HS pk rk e (x, y) Hxy n (or_intror E1)); reflexivity|].
      destruct n as [|n]; cbn [sign_outer]; rewrite zero_test by (exact HS || lia); cbn [bindO]; change (0 =? 0) with true; cbv iota; [left; reflexivity|].
      destruct (sign_inner_upto o HS rk (x, y) Hxy (S n) 0 N0) as [D|D]; rewrite D; cbn [bindO fst snd]; [left; reflexivity|]. right.
      assert (HB := s_range o HS pk rk e (x mod s_q o)).
      destruct n as [|n]; cbn [sign_outer]; rewrite zero_test by (exact HS || exact HB); cbn [bindO]; (destruct (Z.eqb_spec ((x mod s_q o * bytearray_to_int pk + bytearray_to_int rk * e) mod s_q o) 0) as [E|_]; [contradiction | reflexivity]).
Qed.
(** When [sign] returns, a nonce with [0 < k < q] has been used and both numbers are not 0. *)
Lemma sign_with_returns o n pk dg rk sg : shaped o -> bytes_ok rk -> sign_with o n pk dg rk = Returns sg ->
  let k := bytearray_to_int rk in let e := gost_e (s_q o) (bytearray_to_int dg) in let d := bytearray_to_int pk in
  0 < k < s_q o /\ exists x y, (forall m, (iters o <= m)%nat -> _mul_point o m k (-1) (-1) = Returns (x, y)) /\
  sig_r o x <> 0 /\ sig_s o x d k e <> 0 /\ sg = octets o (sig_r o x) ++ octets o (sig_s o x d k e).
Proof.
  intros HS HO E k e d. destruct (sign_with_exact o pk dg rk HS HO) as (H1 & H2 & H3). fold k e d in H1, H2, H3.
  pose proof (bytearray_to_int_bound rk HO) as HB. fold k in HB.
  destruct (Z_lt_le_dec k (s_q o)) as [L|L]; [|rewrite (H1 L n) in E; discriminate E].
  destruct (Z.eq_dec k 0) as [E0|N0]; [specialize (H2 E0 n); cbv beta in H2; rewrite H2 in E; discriminate E|].
  split; [lia|]. destruct (H3 ltac:(lia)) as (x & y & Hxy & _ & HD & HR). exists x, y. split; [exact Hxy|].
  destruct (Z.eq_dec (sig_r o x) 0) as [R0|R0]; [specialize (HD (or_introl R0) n); cbv beta in HD; rewrite HD in E; discriminate E|].
  destruct (Z.eq_dec (sig_s o x d k e) 0) as [S0|S0]; [specialize (HD (or_intror S0) n); cbv beta in HD; rewrite HD in E; discriminate E|].
  split; [exact R0|]. split; [exact S0|]. destruct (HR n) as [D|D]; rewrite D in E; [discriminate E | injection E as <-; reflexivity].
Qed.

(** The nonce of a call of [sign]. *)
Definition nonce (ur : nat -> bytes) (rkv rk : bytes) : Prop := (rkv <> [] /\ rk = rkv) \/ (rkv = [] /\ exists i, rk = ur i).
Lemma sign_returns o n ur pk dg rkv sg : shaped o -> len pk = s_size o -> len dg = s_size o -> sign o n ur (VBytes pk) (VBytes dg) (VBytes rkv) = Returns sg ->
  exists rk, nonce ur rkv rk /\ sign_with o n pk dg rk = Returns sg.
Proof.
  intros HS Hp Hd E. destruct (list_eq_dec Z.eq_dec rkv []) as [->|N].
  - rewrite sign_generated in E by assumption. destruct (rand_loop o n ur 0) as [rk| |] eqn:ER; cbn [bindO] in E; [|discriminate E|discriminate E].
    exists rk. split; [|exact E]. right. split; [reflexivity|]. destruct (rand_loop_returns o ur n 0 rk ER) as (j & -> & _). exists (0 + j)%nat. reflexivity.
  - rewrite sign_given in E by assumption. exists rkv. split; [left; split; [exact N | reflexivity] | exact E].
Qed.

(** Encoded pairs. *)
Lemma octets_len o v : 0 <= s_size o -> len (octets o v) = s_size o.
Proof. intros H. unfold octets. rewrite int_to_bytearray_len. lia. Qed.
Lemma pair_len o x y : 0 <= s_size o -> len (octets o x ++ octets o y) = s_size o * 2.
Proof. intros H. rewrite len_app, !octets_len by exact H. lia. Qed.
Lemma pair_x o x y : 0 <= s_size o -> 0 <= x < 256 ^ s_size o -> pk_x o (octets o x ++ octets o y) = x.
Proof.
  intros H Hx. unfold pk_x, py_upto. rewrite pair_len by exact H.
  replace (clamp (s_size o * 2) (s_size o)) with (s_size o) by (unfold clamp; destruct (Z.ltb_spec (s_size o) 0); [lia|]; destruct (Z.ltb_spec (s_size o) 0); [lia|]; destruct (Z.ltb_spec (s_size o * 2) (s_size o)); lia).
  rewrite firstn_app. pose proof (octets_len o x H) as HL. unfold len in HL. replace (Z.to_nat (s_size o) - length (octets o x))%nat with 0%nat by lia. rewrite firstn_O, app_nil_r, firstn_all2 by lia.
  unfold octets. now apply to_int_of_int_small.
Qed.
Lemma pair_y o x y : 0 <= s_size o -> 0 <= y < 256 ^ s_size o -> pk_y o (octets o x ++ octets o y) = y.
Proof.
  intros H Hx. unfold pk_y, py_from. rewrite pair_len by exact H.
  replace (clamp (s_size o * 2) (s_size o)) with (s_size o) by (unfold clamp; destruct (Z.ltb_spec (s_size o) 0); [lia|]; destruct (Z.ltb_spec (s_size o) 0); [lia|]; destruct (Z.ltb_spec (s_size o * 2) (s_size o)); lia).
  rewrite skipn_app. pose proof (octets_len o x H) as HL. unfold len in HL. replace (Z.to_nat (s_size o) - length (octets o x))%nat with 0%nat by lia. rewrite skipn_O, skipn_all2 by lia. cbn [app].
  unfold octets. now apply to_int_of_int_small.
Qed.
Lemma pair_ok o x y : bytes_ok (octets o x ++ octets o y).
Proof. apply Forall_app. split; apply int_to_bytearray_ok. Qed.
