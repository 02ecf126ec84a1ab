(** * Properties of the signature: C89, the built-in curves

    The primes, the orders and the powers are checked with the machine integers of the standard library (see DESIGN.md). *)
From Coq Require Import ZArith Znumtheory Lia String List.
From Verif Require Import PyBase PyFacts PyLoop Utils UtilsFacts Fp SpecCurve SpecSign SigCurves Sig SigLemmas SigArith SigProps SigCons SigBuiltin PropSig PropSig2.
Import ListNotations.
Open Scope string_scope.
Open Scope list_scope.
Open Scope Z_scope.

(** The demands of the standard (section 5.2) on the parameters of an object: see [gost_domain]; moreover [p <> q], and the powers of [p] up to the 31st or 131st are not 1 modulo [q]. *)
Definition meets_standard (o : sig_obj) (powers : Z) : Prop :=
  gost_domain (s_size o) (s_p o) (s_a o) (s_b o) (s_q o) (s_x o) (s_y o) /\ s_p o <> s_q o /\ (forall i, 1 <= i <= powers -> s_p o ^ i mod s_q o <> 1).
(** The object has the numbers of the dictionary. *)
Definition same_numbers (o : sig_obj) (c : curve) : Prop :=
  c_p c = Some (s_p o) /\ c_a c = Some (s_a o) /\ c_b c = Some (s_b o) /\ c_q c = Some (s_q o) /\ c_x c = Some (s_x o) /\ c_y c = Some (s_y o) /\ c_m c = Some (s_m o).

Lemma from_valid mode c : valid mode c -> same_numbers (sig_attrs mode c) c ->
  exists o, sig_new mode c = Ok o /\ same_numbers o c /\ meets_standard o (if mode =? MODE_256 then 31 else 131).
Proof. intros [V1 V2 V3 V4] S. exists (sig_attrs mode c). split; [exact V1|]. split; [exact S|]. split; [exact V2|]. split; assumption. Qed.
Lemma other_mode mode c o : sig_new mode c = Ok o -> same_numbers o c -> ~ (s_a o = 0 /\ s_b o = 0 /\ s_x o = 0 /\ s_y o = 0) ->
  (if mode =? MODE_256 then s_q o < 2 ^ 508 else 2 ^ 256 < s_q o) -> s_p o <> 0 -> s_q o <> 0 -> mode = MODE_256 \/ mode = MODE_512 ->
  sig_new (if mode =? MODE_256 then MODE_512 else MODE_256) c = Err (GOSTSignatureError "GOSTSignatureError: invalid parameters of the elliptic curve").
Proof.
  intros E (EP & EA & EB & EQ & EX & EY & EM) NW HQ NP NQ K. set (mode' := if mode =? MODE_256 then MODE_512 else MODE_256).
  assert (K' : mode' = MODE_256 \/ mode' = MODE_512) by (destruct K as [->| ->]; [right | left]; reflexivity).
  destruct (sig_new mode' c) as [o'|e] eqn:E'.
  - exfalso. assert (NW' : let o2 := sig_attrs mode' c in ~ (s_a o2 = 0 /\ s_b o2 = 0 /\ s_x o2 = 0 /\ s_y o2 = 0)) by (cbn [sig_attrs s_a s_b s_x s_y]; rewrite EA, EB, EX, EY; cbn [get]; exact NW).
    destruct (C88_weierstrass mode' c K' NW') as [H1 H2]. apply H2 in E' as E2. subst o'. apply H1 in E'. destruct E' as (_ & _ & _ & HR). cbn [sig_attrs s_q] in HR. rewrite EQ in HR. cbn [get] in HR.
    destruct K as [->| ->]; cbn in HQ; unfold mode' in HR; destruct HR as [[R1 R2]|[R1 R2]]; try discriminate R1; destruct R2 as [R2 R3]; [apply (Z.lt_irrefl (s_q o)); eapply Z.lt_le_trans; eassumption | apply (Z.lt_irrefl (s_q o)); eapply Z.le_lt_trans; eassumption].
  - f_equal. destruct (C88_errors mode' c e E') as [[N _]|[_ [H|[_ [H|H]]]]]; [contradiction | exact H | congruence | congruence].
Qed.
(** The name says the mode. *)
Definition modes_of_names : list (string * Z) :=
  [("id-tc26-gost-3410-2012-256-paramSetA", MODE_256); ("id-tc26-gost-3410-2012-256-paramSetB", MODE_256); ("id-tc26-gost-3410-2012-256-paramSetC", MODE_256);
   ("id-tc26-gost-3410-2012-256-paramSetD", MODE_256); ("id-tc26-gost-3410-12-512-paramSetA", MODE_512); ("id-tc26-gost-3410-12-512-paramSetB", MODE_512); ("id-tc26-gost-3410-2012-512-paramSetC", MODE_512)].
Theorem C89_builtin : map fst CURVES_R_1323565_1_024_2019 <> [] /\ NoDup (map fst CURVES_R_1323565_1_024_2019) /\ forall name c, In (name, c) CURVES_R_1323565_1_024_2019 ->
  exists mode o, In (name, mode) modes_of_names /\ sig_new mode c = Ok o /\ same_numbers o c /\ meets_standard o (if mode =? MODE_256 then 31 else 131) /\
    sig_new (if mode =? MODE_256 then MODE_512 else MODE_256) c = Err (GOSTSignatureError "GOSTSignatureError: invalid parameters of the elliptic curve").
Proof.
  split; [discriminate|]. split; [repeat (constructor; [cbn; intuition discriminate|]); constructor|]. intros name c HI.
  assert (KEY : forall mode, In (name, mode) modes_of_names -> valid mode c -> same_numbers (sig_attrs mode c) c -> (if mode =? MODE_256 then s_q (sig_attrs mode c) < 2 ^ 508 else 2 ^ 256 < s_q (sig_attrs mode c)) ->
    s_y (sig_attrs mode c) <> 0 -> mode = MODE_256 \/ mode = MODE_512 -> exists mode o, In (name, mode) modes_of_names /\ sig_new mode c = Ok o /\ same_numbers o c /\ meets_standard o (if mode =? MODE_256 then 31 else 131) /\
    sig_new (if mode =? MODE_256 then MODE_512 else MODE_256) c = Err (GOSTSignatureError "GOSTSignatureError: invalid parameters of the elliptic curve")).
  { intros mode IN V SN HQ NY K. destruct V as [V1 V2 V3 V4]. exists mode, (sig_attrs mode c). split; [exact IN|]. split; [exact V1|]. split; [exact SN|].
    split; [split; [exact V2 | split; assumption]|]. apply (other_mode mode c _ V1 SN); [tauto | exact HQ | | | exact K].
    - pose proof (prime_ge_2 _ (g_p_prime _ _ _ _ _ _ _ V2)). lia.
    - pose proof (prime_ge_2 _ (g_q_prime _ _ _ _ _ _ _ V2)). lia. }
  cbn [In CURVES_R_1323565_1_024_2019] in HI.
  repeat match type of HI with _ \/ _ => destruct HI as [HI|HI] end; [..|contradiction]; injection HI as <- <-.
  1-3: apply (KEY MODE_256). 19-20: apply (KEY MODE_512). 31: apply (KEY MODE_256). 37: apply (KEY MODE_512).
  all: try exact valid_256A; try exact valid_256B; try exact valid_256C; try exact valid_256D; try exact valid_512A; try exact valid_512B; try exact valid_512C.
  all: try (cbn; tauto).
  all: try (vm_compute; reflexivity); try (vm_compute; discriminate); try (left; reflexivity); try (right; reflexivity).
  all: repeat split; vm_compute; reflexivity.
Qed.
Print Assumptions C89_builtin.

(** The two curves that are given in both forms: without [a], [b], [x], [y] the constructor computes the same object from [e], [d], [u], [v]. *)
Definition only_edwards (c : curve) : curve := {| c_p := c_p c; c_a := None; c_b := None; c_e := c_e c; c_d := c_d c; c_m := c_m c; c_q := c_q c; c_x := None; c_y := None; c_u := c_u c; c_v := c_v c |}.
Lemma cancel p w x y : prime p -> ~ (p | w) -> (w * x) mod p = (w * y) mod p -> x mod p = y mod p.
Proof.
  intros HP NW E. pose proof (prime_ge_2 p HP). assert (D : (p | w * (x - y))).
  { apply Z.mod_divide; [lia|]. replace (w * (x - y)) with (w * x - w * y) by lia. rewrite Zminus_mod, E, Z.sub_diag. reflexivity. }
  apply prime_mult in D; [|exact HP]. destruct D as [D|[k Hk]]; [contradiction|]. replace x with (y + k * p) by lia. now rewrite Z.mod_add by lia.
Qed.
Lemma not_divides p w : 1 < p -> w mod p <> 0 -> ~ (p | w).
Proof. intros H N D. apply N. apply Z.mod_divide; [lia | exact D]. Qed.
Lemma one_minus p v : 1 < p -> (p | 1 - v) -> v mod p = 1.
Proof. intros H [k Hk]. replace v with (1 + (- k) * p) by lia. rewrite Z.mod_add by lia. apply Z.mod_small. lia. Qed.
Lemma minus_congr p x t X T : 0 < p -> (x - t) mod p = (X - T) mod p -> t mod p = T mod p -> x mod p = X mod p.
Proof. intros H E1 E2. replace x with ((x - t) + t) by lia. replace X with ((X - T) + T) by lia. rewrite Zplus_mod, E1, E2, <- Zplus_mod. reflexivity. Qed.
Lemma edwards_values o o' S T A B X Y : prime (s_p o) -> 3 < s_p o -> s_a o = 0 /\ s_b o = 0 /\ s_x o = 0 /\ s_y o = 0 -> _edvards_to_canonical o = Ok o' -> let p := s_p o in
  s_u o mod p <> 0 -> s_v o mod p <> 1 ->
  (4 * S) mod p = (s_e o - s_d o) mod p -> (6 * T) mod p = (s_e o + s_d o) mod p ->
  A mod p = (S * S - 3 * (T * T)) mod p -> B mod p = (2 * (T * T * T) - T * (S * S)) mod p ->
  ((X - T) * (1 - s_v o)) mod p = (S * (1 + s_v o)) mod p -> (Y * ((1 - s_v o) * s_u o)) mod p = (S * (1 + s_v o)) mod p ->
  s_a o' mod p = A mod p /\ s_b o' mod p = B mod p /\ s_x o' mod p = X mod p /\ s_y o' mod p = Y mod p.
Proof.
  intros HP H3 E0 EO p NU NV ES ET EA EB EX EY. destruct (C90_formulas o o' HP H3 E0 EO) as (s & t & Es & Et & Ea & Eb & Ex & Ey). fold p in HP, H3, Es, Et, Ea, Eb, Ex, Ey. specialize (Ex NV). specialize (Ey NV NU).
  assert (N2 : ~ (p | 2)) by (clear - H3; apply not_divides; [lia | rewrite Z.mod_small; lia]).
  assert (N3 : ~ (p | 3)) by (clear - H3; apply not_divides; [lia | rewrite Z.mod_small; lia]).
  assert (N4 : ~ (p | 4)) by (intros D; change 4 with (2 * 2) in D; apply prime_mult in D; tauto).
  assert (N6 : ~ (p | 6)) by (intros D; change 6 with (2 * 3) in D; apply prime_mult in D; tauto).
  assert (P1 : 1 < p) by (clear - H3; lia). assert (P0 : 0 < p) by (clear - H3; lia). assert (PN : p <> 0) by (clear - H3; lia).
  assert (NW : ~ (p | 1 - s_v o)) by (intros D; apply NV; now apply one_minus).
  assert (NWU : ~ (p | (1 - s_v o) * s_u o)).
  { intros D. apply prime_mult in D; [|exact HP]. destruct D as [D|D]; [contradiction|]. apply NU. apply Z.mod_divide; [exact PN | exact D]. }
  assert (QS : s mod p = S mod p) by (apply (cancel p 4); congruence). assert (QT : t mod p = T mod p) by (apply (cancel p 6); congruence).
  assert (PW : forall w w' z z', w mod p = w' mod p -> z mod p = z' mod p -> (w * z) mod p = (w' * z') mod p) by (intros w w' z z' E1 E2; rewrite Zmult_mod, E1, E2, <- Zmult_mod; reflexivity).
  assert (PM : forall w w' z z', w mod p = w' mod p -> z mod p = z' mod p -> (w - z) mod p = (w' - z') mod p) by (intros w w' z z' E1 E2; rewrite Zminus_mod, E1, E2, <- Zminus_mod; reflexivity).
  split; [|split; [|split]].
  - rewrite Ea, EA. apply PM; [now apply PW | apply PW; [reflexivity | now apply PW]].
  - rewrite Eb, EB. apply PM; [apply PW; [reflexivity | apply PW; [now apply PW | exact QT]] | apply PW; [exact QT | now apply PW]].
  - assert (EQ : (s * (1 + s_v o)) mod p = (S * (1 + s_v o)) mod p) by now apply PW.
    assert (H : (s_x o' - t) mod p = (X - T) mod p) by (apply (cancel p (1 - s_v o)); [exact HP | exact NW|]; rewrite (Z.mul_comm _ (s_x o' - t)), (Z.mul_comm _ (X - T)); congruence).
    exact (minus_congr p _ _ _ _ P0 H QT).
  - assert (EQ : (s * (1 + s_v o)) mod p = (S * (1 + s_v o)) mod p) by now apply PW.
    apply (cancel p ((1 - s_v o) * s_u o)); [exact HP | exact NWU|]. rewrite (Z.mul_comm _ (s_y o')), (Z.mul_comm _ Y). congruence.
Qed.
Lemma edwards_form mode c S T : valid mode c -> mode = MODE_256 \/ mode = MODE_512 ->
  let o := sig_attrs mode (only_edwards c) in let w := sig_attrs mode c in 3 < s_p w -> s_u w mod s_p w <> 0 -> s_v w mod s_p w <> 1 ->
  (4 * S) mod s_p w = (s_e w - s_d w) mod s_p w -> (6 * T) mod s_p w = (s_e w + s_d w) mod s_p w ->
  s_a w mod s_p w = (S * S - 3 * (T * T)) mod s_p w -> s_b w mod s_p w = (2 * (T * T * T) - T * (S * S)) mod s_p w ->
  ((s_x w - T) * (1 - s_v w)) mod s_p w = (S * (1 + s_v w)) mod s_p w -> (s_y w * ((1 - s_v w) * s_u w)) mod s_p w = (S * (1 + s_v w)) mod s_p w ->
  reduced (s_p w) (s_a w) -> reduced (s_p w) (s_b w) -> sig_new mode (only_edwards c) = Ok w.
Proof.
  intros V K o w H3 NU NV ES ET EA EB EX EY RA RB. assert (HP : prime (s_p o)) by exact (g_p_prime _ _ _ _ _ _ _ (v_usable _ _ V)).
  assert (E0 : s_a o = 0 /\ s_b o = 0 /\ s_x o = 0 /\ s_y o = 0) by (repeat split; reflexivity).
  destruct (canonical_is o HP H3 E0) as (o' & EO & E1 & E2 & E3 & E4 & E5 & R1 & R2 & R3 & R4 & _).
  destruct (edwards_values o o' S T (s_a w) (s_b w) (s_x w) (s_y w) HP H3 E0 EO NU NV ES ET EA EB EX EY) as (QA & QB & QX & QY).
  assert (RX := g_x _ _ _ _ _ _ _ (v_usable _ _ V)). assert (RY := g_y _ _ _ _ _ _ _ (v_usable _ _ V)).
  assert (EE : s_e o' = s_e w /\ s_d o' = s_d w /\ s_u o' = s_u w /\ s_v o' = s_v w).
  { clear - EO. unfold _edvards_to_canonical in EO. destruct (_ && _)%bool; [|injection EO as <-; repeat split; reflexivity]. unfold py_mod in EO. destruct (s_p o =? 0); cbn [bind] in EO; [discriminate EO|].
    apply (f_equal (fun z => match z with Ok w => w | Err _ => o' end)) in EO. cbv beta iota in EO. rewrite <- EO. repeat split; reflexivity. }
  destruct EE as (F1 & F2 & F3 & F4).
  assert (W : o' = w).
  { rewrite !Z.mod_small in QA by assumption. rewrite !Z.mod_small in QB by assumption. rewrite !Z.mod_small in QX by assumption. rewrite !Z.mod_small in QY by assumption.
    assert (G : forall z1 z2 : sig_obj, s_size z1 = s_size z2 -> s_oid z1 = s_oid z2 -> s_p z1 = s_p z2 -> s_a z1 = s_a z2 -> s_b z1 = s_b z2 -> s_e z1 = s_e z2 -> s_d z1 = s_d z2 -> s_m z1 = s_m z2 -> s_q z1 = s_q z2 -> s_x z1 = s_x z2 -> s_y z1 = s_y z2 -> s_u z1 = s_u z2 -> s_v z1 = s_v z2 -> z1 = z2).
    { clear. intros [] [] ; cbn. intros. subst. reflexivity. }
    apply G; assumption. }
  rewrite sig_new_known by exact K. apply (sig_init_ok _ _ _ K). rewrite <- W. split; [exact EO|]. rewrite W.
  assert (EN := v_new _ _ V). rewrite sig_new_known in EN by exact K. apply (sig_init_ok _ _ _ K) in EN. exact (proj2 EN).
Qed.
Ltac reduced_now := unfold reduced; vm_compute; split; [discriminate | reflexivity].
Lemma edwards_256A : sig_new MODE_256 (only_edwards curve_2012_256_paramSetA) = Ok (sig_attrs MODE_256 curve_2012_256_paramSetA).
Proof. apply (edwards_form MODE_256 curve_2012_256_paramSetA 0x7e7e82520f9f015faa1d0f18c14ab9fb35188275da3fd94206b74f34a48e0ecd 0x100fe73f595ff158e974b44d478d9588744fe5c192ac47ea63075dce7a14aaa valid_256A); first [right; reflexivity | left; reflexivity | vm_compute; reflexivity | vm_compute; discriminate | reduced_now]. Qed.
Lemma edwards_512C : sig_new MODE_512 (only_edwards curve_2012_512_paramSetC) = Ok (sig_attrs MODE_512 curve_2012_512_paramSetC).
Proof. apply (edwards_form MODE_512 curve_2012_512_paramSetC 0x186c289cffa09c983b168c30c829006c952ff4aaf99c73850875d7e77bebef18d653187d6ba8fe533ec74c6f061872585b97cc0f50f57752cd73f4913304621e 0x9a628f975594ecefd89ba28a2539ffb79c8ab238aeed0851fa5c1abb02b80b44c6734501b83a011dd625cd0b5145091a6d9acd4b1f5c5b1e21b2b249ddfd1271 valid_512C); first [right; reflexivity | left; reflexivity | vm_compute; reflexivity | vm_compute; discriminate | reduced_now]. Qed.
Theorem C89_edwards : Forall (fun t => c_e (snd t) <> None /\ sig_new (fst t) (only_edwards (snd t)) = sig_new (fst t) (snd t) /\ exists o, sig_new (fst t) (snd t) = Ok o /\ usable o)
  [(MODE_256, curve_2012_256_paramSetA); (MODE_512, curve_2012_512_paramSetC)].
Proof.
  apply Forall_cons; [|apply Forall_cons; [|apply Forall_nil]]; (split; [vm_compute; discriminate|]); cbn [fst snd].
  - rewrite edwards_256A, (v_new _ _ valid_256A). split; [reflexivity|]. eexists. split; [reflexivity | exact (v_usable _ _ valid_256A)].
  - rewrite edwards_512C, (v_new _ _ valid_512C). split; [reflexivity|]. eexists. split; [reflexivity | exact (v_usable _ _ valid_512C)].
Qed.
Print Assumptions C89_edwards.
(** The hypotheses of the theorems above about signatures hold for the objects that a user makes: the two defects of [verify] are present on six of the built-in curves ([x_G = 0] on the other). *)
Theorem C89_defects : forall name c mode o, In (name, c) CURVES_R_1323565_1_024_2019 -> name <> "id-tc26-gost-3410-2012-256-paramSetD" -> sig_new mode c = Ok o ->
  usable o /\ ~ verifies_only_standard o /\ ~ verifies_only_curve_points o.
Proof.
  intros name c mode o HI NN E. destruct (proj2 (proj2 C89_builtin) name c HI) as (mode' & o' & _ & E1 & S & (U & _) & E2).
  assert (EO : o = o').
  { assert (K : mode = MODE_256 \/ mode = MODE_512) by (unfold sig_new in E; destruct ((mode =? MODE_256) || (mode =? MODE_512))%bool eqn:EM; [rewrite orb_true_iff, !Z.eqb_eq in EM; exact EM | discriminate E]).
    assert (K' : mode' = MODE_256 \/ mode' = MODE_512) by (unfold sig_new in E1; destruct ((mode' =? MODE_256) || (mode' =? MODE_512))%bool eqn:EM; [rewrite orb_true_iff, !Z.eqb_eq in EM; exact EM | discriminate E1]).
    destruct K as [->| ->], K' as [->| ->]; [congruence | change (MODE_512 =? MODE_256) with false in E2 | change (MODE_256 =? MODE_256) with true in E2 | congruence]; cbv iota in E2; rewrite E in E2; discriminate E2. }
  subst o'. split; [exact U|]. destruct S as (EP & _ & _ & EQ & EX & _).
  assert (HX : s_x o <> 0 /\ s_x o mod s_q o <> 0 /\ ((-2 * s_x o) mod s_p o) mod s_q o <> 0).
  { cbn [In CURVES_R_1323565_1_024_2019] in HI. repeat match type of HI with _ \/ _ => destruct HI as [HI|HI] end; [..|contradiction]; injection HI as <- <-; try contradiction; injection EP as <-; injection EQ as <-; injection EX as <-;
    repeat match goal with |- _ /\ _ => split end; vm_compute; discriminate. }
  destruct HX as (H1 & H2 & H3). split; [now apply C84_only_standard_refuted | now apply C86_curve_points_refuted].
Qed.
Print Assumptions C89_defects.
Example C89_example : In ("id-tc26-gost-3410-12-512-paramSetB", curve_12_512_paramSetB) CURVES_R_1323565_1_024_2019 /\ c_e curve_12_512_paramSetB = None.
Proof. split; [cbn; tauto | reflexivity]. Qed.
