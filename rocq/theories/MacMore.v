(** * What the MAC of the standard distinguishes *)
From Verif Require Import PyBase PyFacts PyState Utils UtilsFacts UtilsLemmas CipherObj Modes Mac.
From Verif Require Import SpecModes CipherLemmas CipherObjFacts ModeFacts ModeSpecFacts ModeLemmas MacFacts MacFacts2 MacLemmas MacProps.
Open Scope Z_scope.

(** ** Doubling *)
Definition tail_bits (n : nat) : Z := if Nat.eqb n 8 then 0x1b else 0x87.
Lemma poly_eq n : poly n = (if Nat.eqb n 8 then 2 ^ 64 else 2 ^ 128) + tail_bits n.
Proof. unfold poly, tail_bits. now destruct (Nat.eqb n 8). Qed.

Lemma double_zero n v : (n = 8 \/ n = 16)%nat -> 0 <= v < 256 ^ Z.of_nat n -> double n v = 0 -> v = 0.
Proof.
  intros Hn Hv. unfold double. destruct (Z.ltb_spec (2 * v) (256 ^ Z.of_nat n)) as [Hl|Hl]; intros H; [lia|]. exfalso.
  apply Z.lxor_eq in H. apply (f_equal (fun z => z mod 2)) in H. rewrite Z.mul_comm, Z_mod_mult in H.
  destruct Hn as [-> | ->]; vm_compute in H; discriminate.
Qed.
Lemma double_fixed n v : (n = 8 \/ n = 16)%nat -> 0 <= v < 256 ^ Z.of_nat n -> double n v = v -> v = 0.
Proof.
  intros Hn Hv. unfold double. destruct (Z.ltb_spec (2 * v) (256 ^ Z.of_nat n)) as [Hl|Hl]; intros H; [lia|]. exfalso.
  assert (HB : forall i, 0 <= i -> Z.testbit v i = xorb (Z.testbit (2 * v) i) (Z.testbit (poly n) i)) by (intros i Hi; rewrite <- H at 1; apply Z.lxor_spec).
  assert (B0 : Z.testbit v 0 = Z.testbit (poly n) 0) by (rewrite HB, Z.testbit_even_0 by lia; apply xorb_false_l).
  assert (BS : forall i, 0 <= i -> Z.testbit v (Z.succ i) = xorb (Z.testbit v i) (Z.testbit (poly n) (Z.succ i))) by (intros i Hi; rewrite HB, Z.testbit_even_succ by lia; reflexivity).
  set (N := 8 * Z.of_nat n).
  assert (HT : Z.testbit v (N - 1) = true).
  { assert (E256 : 256 ^ Z.of_nat n = 2 * 2 ^ (N - 1)) by (unfold N; destruct Hn as [-> | ->]; reflexivity). rewrite E256 in *.
    assert (HN : 0 <= N - 1) by (unfold N; lia).
    rewrite Z.testbit_true by exact HN. assert (v / 2 ^ (N - 1) = 1) as -> by (symmetry; apply (Z.div_unique v (2 ^ (N - 1)) 1 (v - 2 ^ (N - 1))); lia). reflexivity. }
  assert (HC : forall k : nat, 7 + Z.of_nat k < N -> Z.testbit v (7 + Z.of_nat k) = false).
  { assert (H7 : Z.testbit v 7 = false).
    { assert (B1 := BS 0 ltac:(lia)). assert (B2 := BS 1 ltac:(lia)). assert (B3 := BS 2 ltac:(lia)). assert (B4 := BS 3 ltac:(lia)). assert (B5 := BS 4 ltac:(lia)). assert (B6 := BS 5 ltac:(lia)). assert (B7 := BS 6 ltac:(lia)).
      cbn [Z.succ Z.add Pos.add Pos.succ] in *. rewrite B7, B6, B5, B4, B3, B2, B1, B0. destruct Hn as [-> | ->]; reflexivity. }
    induction k as [|k IH]; intros Hk; [exact H7|]. rewrite Nat2Z.inj_succ. replace (7 + Z.succ (Z.of_nat k)) with (Z.succ (7 + Z.of_nat k)) by lia. rewrite BS, IH by lia. rewrite xorb_false_l.
    assert (HP : forall j, 8 <= j < N -> Z.testbit (poly n) j = false).
    { intros j Hj. rewrite poly_eq. assert (HR : 0 <= tail_bits n < 2 ^ 8) by (unfold tail_bits; destruct Hn as [-> | ->]; cbn; lia).
      replace (if Nat.eqb n 8 then 2 ^ 64 else 2 ^ 128) with (2 ^ N) by (unfold N; destruct Hn as [-> | ->]; reflexivity).
      rewrite <- (Z.mod_pow2_bits_low _ N) by lia. replace (2 ^ N + tail_bits n) with (tail_bits n + 1 * 2 ^ N) by lia. rewrite Z.mod_add by lia.
      rewrite Z.mod_pow2_bits_low by lia. rewrite <- (Z.mod_small (tail_bits n) (2 ^ 8)) by exact HR. apply Z.mod_pow2_bits_high. lia. }
    apply HP. lia. }
  specialize (HC (Z.to_nat (N - 8))). rewrite Z2Nat.id in HC by (unfold N; destruct Hn as [-> | ->]; cbn; lia).
  replace (7 + (N - 8)) with (N - 1) in HC by lia. rewrite HC in HT by lia. discriminate.
Qed.

(** ** The message as blocks and a last piece *)
Section Mac.
  Variables (n : nat) (E : bytes -> bytes).
  Hypothesis Hn : (n = 8 \/ n = 16)%nat.
  Definition blk (b : bytes) : Prop := bytes_ok b /\ List.length b = n.
  Hypothesis E_blk : forall b, blk b -> blk (E b).
  Hypothesis E_inj : forall a b, blk a -> blk b -> E a = E b -> a = b.

  Definition pieces_of (m : bytes) (bl : list bytes) (t : bytes) : Prop :=
    m = concat bl ++ t /\ Forall blk bl /\ bytes_ok t /\ (List.length t <= n)%nat /\ (t = [] -> bl = []).

  Lemma mac_blocks_of m bl t : pieces_of m bl t -> mac_blocks n m = bl ++ [t].
  Proof using All.
    intros (-> & HF & Ht & HL & Hne).  assert (Hp : (0 < n)%nat) by lia.
    destruct t as [|x t]; [rewrite (Hne eq_refl); reflexivity|]. unfold mac_blocks.
    assert (HM : concat bl ++ x :: t <> []) by (intros H; apply (f_equal (@List.length Z)) in H; rewrite app_length in H; cbn in H; lia).
    replace (match concat bl ++ x :: t with [] => [[]] | _ => blocks n (concat bl ++ x :: t) end) with (blocks n (concat bl ++ x :: t)) by (destruct (concat bl ++ x :: t); [contradiction | reflexivity]).
    assert (HF' : Forall (fun b => len b = Z.of_nat n) bl) by (apply Forall_impl with (2 := HF); intros b [_ Hb]; unfold len; now rewrite Hb).
    assert (EN : n = Z.to_nat (Z.of_nat n)) by lia. rewrite EN at 1.
    destruct (Nat.eq_dec (List.length (x :: t)) n) as [Hl|Hl].
    - rewrite (blocks_cut (Z.of_nat n) _ (bl ++ [x :: t]) []); [apply app_nil_r | lia|].
      split; [rewrite concat_app; cbn [concat]; now rewrite !app_nil_r|]. split; [|cbn; lia]. apply Forall_app. split; [exact HF'|]. constructor; [unfold len; lia | constructor].
    - rewrite (blocks_cut (Z.of_nat n) _ bl (x :: t)); [reflexivity | lia|]. split; [reflexivity|]. split; [exact HF'|]. unfold len. lia.
  Qed.
  Lemma pieces_exist m : bytes_ok m -> exists bl t, pieces_of m bl t.
  Proof using All.
     intros Hm. destruct (cut_exists (Z.of_nat n) m ltac:(lia)) as (bl & t & Hc). destruct (cut_bytes _ _ _ _ Hc Hm) as [HF Ht]. destruct Hc as (Em & _ & HL).
    assert (HFb : Forall blk bl) by (apply Forall_impl with (2 := HF); intros b [L B]; split; [exact B | unfold len in L; lia]). unfold len in HL.
    destruct t as [|x t].
    - rewrite app_nil_r in Em. destruct bl as [|b0 bl0] eqn:Eb; [exists [], []; repeat split; auto; cbn; lia|]. rewrite <- Eb in *.
      assert (Hb : bl <> []) by (rewrite Eb; discriminate). exists (removelast bl), (last bl []).
      assert (EL := app_removelast_last [] Hb). assert (HFl := HFb). rewrite EL in HFl. apply Forall_app in HFl as [H1 H2]. apply Forall_inv in H2 as [H2 H3].
      split; [rewrite Em, EL at 1; rewrite concat_app; cbn [concat]; now rewrite app_nil_r|]. split; [exact H1|]. split; [exact H2|]. split; [lia|].
      intros H. rewrite H in H3. cbn in H3. lia.
    - exists bl, (x :: t). split; [exact Em|]. split; [exact HFb|]. split; [exact Ht|]. split; [lia | discriminate].
  Qed.

  Definition zero : bytes := repeat 0 n.
  Definition key_of (t : bytes) : bytes := if Nat.eqb (List.length t) n then mac_key1 E n else mac_key2 E n.
  Definition full (t : bytes) : bytes := if Nat.eqb (List.length t) n then t else t ++ 0x80 :: repeat 0 (n - 1 - List.length t).
  Lemma mac_is m bl t : pieces_of m bl t -> mac E n m = E (bxor (bxor (full t) (cbc_mac E zero bl)) (key_of t)).
  Proof using All.
    intros H. unfold mac. rewrite (mac_blocks_of m bl t H), last_last, removelast_last. unfold full, key_of. now destruct (Nat.eqb (List.length t) n).
  Qed.

  Lemma zero_blk : blk zero.
  Proof using All. split; [|apply repeat_length]. apply zeros_ok. Qed.
  Lemma bxor_blk a b : blk a -> blk b -> blk (bxor a b).
  Proof using All. intros [A1 A2] [B1 B2]. split; [rewrite bxor_eq; now apply add_xor_ok|]. rewrite bxor_length. lia. Qed.
  Lemma bxor_left a b c : blk a -> blk b -> blk c -> bxor a c = bxor b c -> a = b.
  Proof using All. intros [_ A] [_ B] [_ C] H. rewrite <- (bxor_cancel a c), H by lia. apply bxor_cancel. lia. Qed.
  Lemma bxor_comm a b : bxor a b = bxor b a.
  Proof using All. rewrite !bxor_eq. apply add_xor_comm. Qed.
  Lemma be_blk v : blk (be_bytes n v).
  Proof using All. split; [|unfold be_bytes; rewrite map_length; apply seq_length]. unfold be_bytes. apply Forall_forall. intros x Hx. apply in_map_iff in Hx. destruct Hx as (i & <- & _). apply Z.mod_pos_bound. lia. Qed.
  Lemma key_blk t : blk (key_of t).
  Proof using All. unfold key_of. destruct (Nat.eqb _ _); apply be_blk. Qed.
  Lemma full_blk t : bytes_ok t -> (List.length t <= n)%nat -> blk (full t).
  Proof using All. intros Ht HL. unfold full. destruct (Nat.eqb_spec (List.length t) n) as [H|H]; [now split|]. split.
    - apply bytes_ok_app. split; [exact Ht|]. constructor; [unfold byte_ok; lia | apply zeros_ok].
    - rewrite app_length. cbn [List.length]. rewrite repeat_length. lia.
  Qed.
  Lemma chain_blk bl : Forall blk bl -> forall v, blk v -> blk (cbc_mac E v bl).
  Proof using All. induction 1 as [|b bl Hb _ IH]; intros v Hv; [exact Hv|]. cbn [cbc_mac fold_left]. apply IH. apply E_blk. now apply bxor_blk. Qed.
  Lemma chain_inj bl : Forall blk bl -> forall v w, blk v -> blk w -> cbc_mac E v bl = cbc_mac E w bl -> v = w.
  Proof using All.
    induction 1 as [|b bl Hb _ IH]; intros v w Hv Hw H; [exact H|]. cbn [cbc_mac fold_left] in H.
    assert (H1 := bxor_blk b v Hb Hv). assert (H2 := bxor_blk b w Hb Hw). apply IH in H; [|now apply E_blk | now apply E_blk]. apply E_inj in H; [|assumption|assumption].
    rewrite (bxor_comm b v), (bxor_comm b w) in H. now apply (bxor_left v w b).
  Qed.
  Lemma full_inj t u : List.length t = List.length u -> full t = full u -> t = u.
  Proof using All.
    intros HL. unfold full. rewrite <- HL. destruct (Nat.eqb (List.length t) n); [auto|]. intros H. now apply app_inv_tail in H.
  Qed.

  (** Equal pieces but one. *)
  Lemma mac_last m m' bl t t' : pieces_of m bl t -> pieces_of m' bl t' -> List.length t = List.length t' -> mac E n m = mac E n m' -> t = t'.
  Proof using All.
    intros H H' HL HE. rewrite (mac_is m bl t H), (mac_is m' bl t' H') in HE. destruct H as (_ & HF & Ht & Hl & _), H' as (_ & _ & Ht' & Hl' & _).
    assert (Ek : key_of t' = key_of t) by (unfold key_of; now rewrite HL). rewrite Ek in HE. assert (Hc := chain_blk bl HF zero zero_blk). assert (Hk := key_blk t). assert (F1 := full_blk t Ht Hl). assert (F2 := full_blk t' Ht' Hl').
    apply E_inj in HE; [|apply bxor_blk; [now apply bxor_blk | exact Hk] | apply bxor_blk; [now apply bxor_blk | exact Hk]].
    apply bxor_left in HE; [|now apply bxor_blk | now apply bxor_blk | exact Hk]. apply bxor_left in HE; [|assumption..]. now apply full_inj.
  Qed.
  Lemma mac_middle m m' bl b b' bl' t : pieces_of m (bl ++ b :: bl') t -> pieces_of m' (bl ++ b' :: bl') t -> mac E n m = mac E n m' -> b = b'.
  Proof using All.
    intros H H' HE. rewrite (mac_is m _ t H), (mac_is m' _ t H') in HE. destruct H as (_ & HF & Ht & Hl & _), H' as (_ & HF' & _).
    assert (Hc := chain_blk _ HF zero zero_blk). assert (Hc' := chain_blk _ HF' zero zero_blk). assert (Hk := key_blk t). assert (F1 := full_blk t Ht Hl).
    apply E_inj in HE; [|apply bxor_blk; [now apply bxor_blk | exact Hk] | apply bxor_blk; [now apply bxor_blk | exact Hk]].
    apply bxor_left in HE; [|now apply bxor_blk | now apply bxor_blk | exact Hk]. rewrite (bxor_comm (full t)), (bxor_comm (full t)) in HE. apply bxor_left in HE; [|assumption..].
    apply Forall_app in HF as [HB HF]. apply Forall_app in HF' as [_ HF']. inversion HF as [|? ? Hb HFl]; subst. inversion HF' as [|? ? Hb' _]; subst.
    rewrite !cbc_mac_app in HE. cbn [cbc_mac fold_left] in HE. fold (cbc_mac E zero bl) in HE. fold (cbc_mac E (E (bxor b (cbc_mac E zero bl))) bl') in HE. fold (cbc_mac E (E (bxor b' (cbc_mac E zero bl))) bl') in HE.
    assert (Hv := chain_blk bl HB zero zero_blk). apply chain_inj in HE; [|exact HFl | apply E_blk; now apply bxor_blk | apply E_blk; now apply bxor_blk].
    apply E_inj in HE; [|now apply bxor_blk | now apply bxor_blk]. now apply bxor_left in HE.
  Qed.

  (** Incomplete last block, and the same message completed. *)
  Lemma keys_equal : mac_key1 E n = mac_key2 E n <-> E zero = zero.
  Proof using All.
    assert (HZ := E_blk zero zero_blk). set (v := be_value (E zero)).
    assert (Hv : 0 <= v < 256 ^ Z.of_nat n). { unfold v. rewrite be_value_eq. destruct HZ as [H1 H2]. rewrite <- H2. now apply bytearray_to_int_bound. }
    assert (HD : forall x, 0 <= x < 256 ^ Z.of_nat n -> 0 <= double n x < 256 ^ Z.of_nat n).
    { intros x Hx. destruct Hn as [E8 | E8]; rewrite E8 in *; [apply (double_range (cleared_obj Mag) x Hx) | apply (double_range (cleared_obj Kuz) x Hx)]. }
    assert (BI : forall x y, 0 <= x < 256 ^ Z.of_nat n -> 0 <= y < 256 ^ Z.of_nat n -> be_bytes n x = be_bytes n y -> x = y).
    { intros x y Hx Hy H. rewrite !be_bytes_eq in H. apply (f_equal bytearray_to_int) in H. rewrite !to_int_of_int_small in H by lia. exact H. }
    unfold mac_key1, mac_key2. fold zero. fold v. split; intros H.
    - apply BI in H; [|auto|auto]. symmetry in H. apply double_fixed in H; [|exact Hn | auto]. apply double_zero in H; [|exact Hn | exact Hv].
      unfold v in H. rewrite be_value_eq in H. destruct HZ as [H1 H2]. rewrite <- (of_int_to_int (E zero) H1), H. unfold len. rewrite H2. unfold zero. clear - Hn. destruct Hn as [H | H]; rewrite H; reflexivity.
    - unfold v. rewrite H. unfold zero. clear - Hn. destruct Hn as [E8 | E8]; rewrite E8; vm_compute; reflexivity.
  Qed.
  Lemma mac_completed m bl t : pieces_of m bl t -> (List.length t < n)%nat ->
    (mac E n m = mac E n (m ++ 0x80 :: repeat 0 (n - 1 - List.length t)) <-> E zero = zero).
  Proof using All.
    intros H HL. assert (H' : pieces_of (m ++ 0x80 :: repeat 0 (n - 1 - List.length t)) bl (full t)).
    { assert (HB : blk (full t)) by (apply full_blk; [apply H | lia]). destruct H as (-> & HF & Ht & _ & _). split.
      - unfold full. replace (List.length t =? n)%nat with false by (symmetry; apply Nat.eqb_neq; lia). now rewrite app_assoc.
      - split; [exact HF|]. split; [apply HB|]. destruct HB as [_ HB]. split; [lia|]. intros E0. rewrite E0 in HB. cbn in HB. lia. }
    rewrite (mac_is _ _ _ H), (mac_is _ _ _ H'). assert (HB : blk (full t)) by (apply full_blk; [apply H | lia]).
    assert (EF : full (full t) = full t) by (unfold full at 1; destruct HB as [_ ->]; now rewrite Nat.eqb_refl).
    assert (K1 : key_of (full t) = mac_key1 E n) by (unfold key_of; destruct HB as [_ ->]; now rewrite Nat.eqb_refl).
    assert (K2 : key_of t = mac_key2 E n) by (unfold key_of; replace (List.length t =? n)%nat with false by (symmetry; apply Nat.eqb_neq; lia); reflexivity).
    rewrite EF, K1, K2. assert (Hc := chain_blk bl (proj1 (proj2 H)) zero zero_blk). set (x := bxor (full t) (cbc_mac E zero bl)). assert (Hx : blk x) by now apply bxor_blk.
    rewrite <- keys_equal. split.
    - intros HE. apply E_inj in HE; [|apply bxor_blk; [exact Hx | apply be_blk] | apply bxor_blk; [exact Hx | apply be_blk]].
      rewrite !(bxor_comm x) in HE. apply bxor_left in HE; [now symmetry | apply be_blk | apply be_blk | exact Hx].
    - now intros ->.
  Qed.

  (** One block, with the inverse of the cipher. *)
  Variable D : bytes -> bytes.
  Hypothesis D_blk : forall b, blk b -> blk (D b).
  Hypothesis ED : forall b, blk b -> E (D b) = b.
  Definition with_mac (v : bytes) : bytes := bxor (D v) (mac_key1 E n).
  Lemma with_mac_blk v : blk v -> blk (with_mac v).
  Proof using All. intros Hv. apply bxor_blk; [now apply D_blk | apply be_blk]. Qed.
  Lemma with_mac_is v : blk v -> mac E n (with_mac v) = v.
  Proof using All.
    intros Hv. assert (HB := with_mac_blk v Hv). assert (HD := D_blk v Hv).
    assert (HP : pieces_of (with_mac v) [] (with_mac v)) by (split; [reflexivity|]; split; [constructor|]; split; [apply HB|]; split; [destruct HB; lia | auto]).
    rewrite (mac_is _ _ _ HP). unfold full, key_of. destruct HB as [_ HB]. rewrite HB, Nat.eqb_refl. cbn [cbc_mac fold_left].
    assert (HZ : forall x, blk x -> bxor x zero = x). { intros x [_ Hx]. unfold zero. rewrite <- Hx. clear. induction x as [|a x IH]; [reflexivity|]. unfold bxor in *. cbn. now rewrite IH, Z.lxor_0_r. }
    rewrite HZ by (apply with_mac_blk; exact Hv). unfold with_mac. rewrite bxor_cancel; [now apply ED|]. destruct HD as [_ ->]. destruct (be_blk (double n (be_value (E (repeat 0 n))))) as [_ HK]. unfold mac_key1. rewrite HK. lia.
  Qed.
End Mac.
