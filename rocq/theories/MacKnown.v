(** * One key for the MAC and another mode; one who knows the key of a MAC *)
From Verif Require Import PyBase PyFacts PyState Utils UtilsFacts UtilsLemmas CipherObj Modes Mac.
From Verif Require Import SpecModes CipherLemmas CipherObjFacts ModeFacts ModeSpecFacts ModeLemmas ModeProps ModeSim ModeReuse MacFacts MacLemmas MacProps MacMore ModeCross MacMore2 ModeCross2 SpecFill.
Open Scope string_scope.
Open Scope list_scope.
Open Scope Z_scope.

(** The answer of a new object with this key and vector to [decrypt]. *)
Definition undo (a : balg) (mode : Z) (key iv c : bytes) : bytes :=
  match new (alg a) (VBytes key) (VInt mode) (with_iv iv) with
  | Ok (NewMode o) => match result (decrypt (VBytes c) o) with Ok m => m | Err _ => [] end
  | _ => []
  end.

(** ** The block cipher from the answers of the modes *)
Lemma block_whole n b : (0 < n)%nat -> blk n b -> blocks n b = [b].
Proof. intros Hn Hb. rewrite <- (blocks_whole n [b] Hn) by (constructor; [exact Hb | constructor]). cbn [concat]. now rewrite app_nil_r. Qed.
Lemma block_padded n b : (0 < n)%nat -> blk n b -> padded P1 n b = b.
Proof.
  intros Hn [_ Hb]. unfold padded, padding, pad_zeros. destruct b as [|x r]; [cbn in Hb; lia|]. rewrite Hb, Nat.mod_same, Nat.sub_0_r, Nat.mod_same by lia. apply app_nil_r.
Qed.
Lemma ecb_answer a key b : bytes_len 32 key -> blk (bsize a) b -> answer a MODE_ECB key [] b = spec_E a key b.
Proof.
  intros Hk Hb. assert (Hn : (0 < bsize a)%nat) by (destruct (n_cases a); lia). destruct (conforms_ecb a key (with_iv []) P1 b Hk eq_refl (proj1 Hb)) as (o & HO & E & _). unfold answer. rewrite HO, E. cbn [result fst].
  rewrite (block_padded _ _ Hn Hb), (block_whole _ _ Hn Hb). cbn [ecb_enc map concat]. apply app_nil_r.
Qed.
Lemma ecb_undo a key b : bytes_len 32 key -> blk (bsize a) b -> undo a MODE_ECB key [] b = spec_D a key b.
Proof.
  intros Hk Hb. assert (Hn : (0 < bsize a)%nat) by (destruct (n_cases a); lia). destruct (conforms_ecb a key (with_iv []) P1 b Hk eq_refl (proj1 Hb)) as (o & HO & _ & E). unfold undo. rewrite HO, E. cbn [result fst].
  replace (whole (bsize a) b) with [b]; [cbn [ecb_dec map concat]; apply app_nil_r|]. unfold whole. rewrite (block_whole _ _ Hn Hb). destruct Hb as [_ Hb]. rewrite Hb, Nat.div_same by lia. reflexivity.
Qed.
Lemma iv_block a b : blk (bsize a) b -> iv_blocks a b.
Proof. intros [H1 H2]. assert (Hn : (0 < bsize a)%nat) by (destruct (n_cases a); lia). split; [exact H1|]. split; [intros ->; cbn in H2; lia|]. unfold len. rewrite H2. apply Z.mod_same. lia. Qed.
Lemma ofb_answer a key b m : bytes_len 32 key -> blk (bsize a) b -> blk (bsize a) m -> answer a MODE_OFB key b m = bxor m (spec_E a key b).
Proof.
  intros Hk Hb Hm. assert (Hn : (0 < bsize a)%nat) by (destruct (n_cases a); lia). rewrite (answer_ofb a key b m Hk (iv_block a b Hb) (proj1 Hm)), (block_whole _ _ Hn Hb), (block_whole _ _ Hn Hm).
  cbn [ofb ofb_gamma List.length combine map hd tl concat fst snd]. apply app_nil_r.
Qed.
Lemma cfb_answer a key b m : bytes_len 32 key -> blk (bsize a) b -> blk (bsize a) m -> answer a MODE_CFB key b m = bxor m (spec_E a key b).
Proof.
  intros Hk Hb Hm. rewrite (first_cfb a key b m Hk (iv_block a b Hb) (proj1 Hm)) by (rewrite (proj2 Hm); lia). now apply ofb_answer.
Qed.
Lemma ctr_answer a key h m : bytes_len 32 key -> bytes_len (half a) h -> blk (bsize a) m -> answer a MODE_CTR key h m = bxor m (spec_E a key (h ++ repeat 0 (bsize a / 2))).
Proof.
  intros Hk Hh Hm. rewrite (first_ctr a key h m Hk Hh (proj1 Hm)) by (rewrite (proj2 Hm); lia). apply ofb_answer; [exact Hk| |exact Hm].
  destruct Hh as [Hl Hh]. split; [apply Forall_app; split; [exact Hh | apply zeros_ok]|]. rewrite app_length, repeat_length. unfold len in Hl. destruct a; cbn in *; lia.
Qed.
Lemma zero_block_xor n b : blk n b -> bxor (repeat 0 n) b = b.
Proof. intros [_ Hb]. rewrite zero_xor. apply firstn_all2. lia. Qed.
Lemma zeros_blk n : blk n (repeat 0 n).
Proof. split; [apply zeros_ok | apply repeat_length]. Qed.
Lemma via_is a key mode b : bytes_len 32 key -> In mode [MODE_CFB; MODE_OFB] -> blk (bsize a) b -> via_vector (bsize a) (answer a mode key) b = spec_E a key b.
Proof.
  intros Hk HM Hb. destruct (spec_facts a key Hk) as (EB & _). unfold via_vector. cbn [In] in HM. destruct HM as [<-|[<-|[]]].
  - rewrite (cfb_answer a key b _ Hk Hb (zeros_blk _)). apply zero_block_xor. now apply EB.
  - rewrite (ofb_answer a key b _ Hk Hb (zeros_blk _)). apply zero_block_xor. now apply EB.
Qed.

(** ** The MAC depends on the cipher for blocks only *)
Section Ext.
  Variables (n : nat) (E E' : bytes -> bytes).
  Hypothesis Hn : (n = 8 \/ n = 16)%nat.
  Hypothesis E_blk : forall b, blk n b -> blk n (E b).
  Hypothesis E_inj : forall a b, blk n a -> blk n b -> E a = E b -> a = b.
  Hypothesis Same : forall b, blk n b -> E' b = E b.
  Lemma same_blk b : blk n b -> blk n (E' b).
  Proof using E_blk Same. intros H. rewrite Same by exact H. now apply E_blk. Qed.
  Lemma same_inj x y : blk n x -> blk n y -> E' x = E' y -> x = y.
  Proof using E_inj Same. intros Hx Hy. rewrite !Same by assumption. now apply E_inj. Qed.
  Lemma same_chain bl : Forall (blk n) bl -> forall v, blk n v -> cbc_mac E' v bl = cbc_mac E v bl.
  Proof using E_blk Same.
    induction 1 as [|b bl Hb HF IH]; intros v Hv; [reflexivity|]. cbn [cbc_mac fold_left]. assert (HX : blk n (bxor b v)) by now apply xor_blk. rewrite Same by exact HX. apply IH. now apply E_blk.
  Qed.
  Lemma same_keys : mac_key1 E' n = mac_key1 E n /\ mac_key2 E' n = mac_key2 E n.
  Proof using Same. unfold mac_key1, mac_key2. rewrite Same by apply zeros_blk. split; reflexivity. Qed.
  Lemma same_mac m : bytes_ok m -> mac E' n m = mac E n m.
  Proof using All.
    intros Hm. destruct (pieces_exist n E Hn E_blk E_inj m Hm) as (bl & t & HP). rewrite (mac_is n E Hn E_blk E_inj m bl t HP), (mac_is n E' Hn same_blk same_inj m bl t HP). destruct HP as (_ & HF & Ht & HL & _).
    unfold zero. rewrite (same_chain bl HF _ (zeros_blk n)). destruct same_keys as [K1 K2]. assert (EK : MacMore.key_of n E' t = MacMore.key_of n E t) by (unfold MacMore.key_of; rewrite K1, K2; reflexivity). rewrite EK. apply Same.
    apply xor_blk; [apply xor_blk|].
    - apply (full_blk n E Hn E_blk E_inj); assumption.
    - apply (chain_blk n E Hn E_blk E_inj); [exact HF | apply zeros_blk].
    - apply (key_blk n E Hn E_blk E_inj).
  Qed.
End Ext.

(** ** A block that gives a message the wanted code *)
Section Fill.
  Variables (n : nat) (E D : bytes -> bytes).
  Hypothesis Hn : (n = 8 \/ n = 16)%nat.
  Hypothesis E_blk : forall b, blk n b -> blk n (E b).
  Hypothesis D_blk : forall b, blk n b -> blk n (D b).
  Hypothesis DE : forall b, blk n b -> D (E b) = b.
  Hypothesis ED : forall b, blk n b -> E (D b) = b.
  Lemma fill_inj x y : blk n x -> blk n y -> E x = E y -> x = y.
  Proof using DE. intros Hx Hy H. rewrite <- (DE x Hx), <- (DE y Hy), H. reflexivity. Qed.
  Lemma back_blk bl : Forall (blk n) bl -> forall c, blk n c -> blk n (back D c bl).
  Proof using D_blk. induction 1 as [|b bl Hb HF IH]; intros c Hc; [exact Hc|]. cbn [back]. apply xor_blk; [apply D_blk; now apply IH | exact Hb]. Qed.
  Lemma back_chain bl : Forall (blk n) bl -> forall c, blk n c -> cbc_mac E (back D c bl) bl = c.
  Proof using All.
    induction 1 as [|b bl Hb HF IH]; intros c Hc; [reflexivity|]. cbn [back cbc_mac fold_left]. assert (HB := back_blk bl HF c Hc). rewrite xor_comm, bxor_cancel by (rewrite (proj2 (D_blk _ HB)), (proj2 Hb); lia).
    rewrite ED by exact HB. exact (IH c Hc).
  Qed.
  Lemma xor_back x y : blk n x -> blk n y -> bxor (bxor x y) y = x.
  Proof using. clear. intros [_ Hx] [_ Hy]. apply bxor_cancel. lia. Qed.
  Lemma fill_is v u w : blk n v -> bytes_ok u -> (List.length u mod n = 0)%nat -> bytes_ok w -> blk n (fill E D n v u w) /\ mac E n (u ++ fill E D n v u w ++ w) = v.
  Proof using All.
    intros Hv Hu HU Hw. assert (Hp : (0 < n)%nat) by lia. pose proof fill_inj as E_inj. destruct (cut_at n u Hp Hu HU) as (bu & -> & HB). unfold fill. rewrite (blocks_whole n bu Hp HB).
    set (c0 := cbc_mac E (repeat 0 n) bu). assert (H0 : blk n c0) by (apply (chain_blk n E Hn E_blk E_inj); [exact HB | apply zeros_blk]). assert (HD := D_blk v Hv).
    destruct w as [|y w].
    - assert (K : blk n (mac_key1 E n)) by apply (be_blk n E Hn E_blk E_inj). set (x := bxor (bxor (D v) (mac_key1 E n)) c0). assert (HX : blk n x) by (apply xor_blk; [apply xor_blk; assumption | exact H0]). split; [exact HX|].
      assert (HP : pieces_of n (concat bu ++ x ++ []) bu x) by (split; [now rewrite app_nil_r|]; split; [exact HB|]; split; [apply HX|]; split; [destruct HX; lia|]; intros ->; destruct HX as [_ HX]; cbn in HX; lia).
      rewrite (mac_is n E Hn E_blk E_inj _ bu x HP). unfold MacMore.full, MacMore.key_of. rewrite (proj2 HX), Nat.eqb_refl. change (cbc_mac E (zero n) bu) with c0. unfold x at 1. rewrite (xor_back _ c0) by (try apply xor_blk; assumption). rewrite (xor_back (D v)) by assumption. now apply ED.
    - destruct (pieces_exist n E Hn E_blk E_inj (y :: w) Hw) as (bw & t & HW). rewrite (mac_blocks_of n E Hn E_blk E_inj _ bw t HW), last_last, removelast_last. destruct HW as (EW & HFw & Ht & HL & Hne).
      set (l := if Nat.eqb (List.length t) n then bxor t (mac_key1 E n) else bxor (t ++ 0x80 :: repeat 0 (n - 1 - List.length t)) (mac_key2 E n)).
      assert (El : l = bxor (MacMore.full n t) (MacMore.key_of n E t)) by (unfold l, MacMore.full, MacMore.key_of; destruct (Nat.eqb _ _); reflexivity).
      assert (F1 : blk n (MacMore.full n t)) by (apply (full_blk n E Hn E_blk E_inj); assumption). assert (F2 : blk n (MacMore.key_of n E t)) by apply (key_blk n E Hn E_blk E_inj). assert (HLb : blk n l) by (rewrite El; now apply xor_blk). clearbody l.
      set (c := bxor (D v) l). assert (Hc : blk n c) by now apply xor_blk. set (c1 := back D c bw). assert (H1 : blk n c1) by now apply back_blk. set (x := bxor (D c1) c0). assert (HX : blk n x) by (apply xor_blk; [now apply D_blk | exact H0]). split; [exact HX|].
      assert (HP : pieces_of n (concat bu ++ x ++ y :: w) (bu ++ x :: bw) t).
      { split; [rewrite EW, concat_app; cbn [concat]; now rewrite <- !app_assoc|]. split; [apply Forall_app; split; [exact HB | constructor; assumption]|]. split; [exact Ht|]. split; [exact HL|]. intros E0. exfalso. rewrite E0, (Hne E0) in EW. discriminate EW. }
      rewrite (mac_is n E Hn E_blk E_inj _ _ t HP). assert (EC : cbc_mac E (zero n) (bu ++ x :: bw) = c).
      { rewrite cbc_mac_app. cbn [cbc_mac fold_left]. change (fold_left (fun c2 p => E (bxor p c2)) bu (zero n)) with c0. change (cbc_mac E (E (bxor x c0)) bw = c). unfold x. rewrite (xor_back (D c1) c0) by (try apply D_blk; assumption). rewrite ED by exact H1. now apply back_chain. }
      rewrite EC. replace (bxor (bxor (MacMore.full n t) c) (MacMore.key_of n E t)) with (D v); [now apply ED|]. rewrite (xor_comm (MacMore.full n t) c), <- bxor_assoc, <- El. unfold c. symmetry. now apply xor_back.
  Qed.
End Fill.

(** ** The codes of the library *)
Lemma spec_inj a key x y : bytes_len 32 key -> blk (bsize a) x -> blk (bsize a) y -> spec_E a key x = spec_E a key y -> x = y.
Proof. intros Hk Hx Hy H. destruct (spec_facts a key Hk) as (_ & _ & DE & _). rewrite <- (DE x Hx), <- (DE y Hy), H. reflexivity. Qed.
Lemma code_via a key E' m s v : bytes_len 32 key -> (forall b, blk (bsize a) b -> E' b = spec_E a key b) -> 0 <= s <= Z.of_nat (bsize a) -> mac_of a key m s v -> v = firstn (Z.to_nat s) (mac E' (bsize a) m).
Proof.
  intros Hk HE Hs HM. apply mac_of_is in HM; [|exact Hk | exact Hs]. destruct HM as [Hm ->]. destruct (spec_facts a key Hk) as (EB & _). f_equal. symmetry. exact (same_mac (bsize a) (spec_E a key) E' (n_cases a) EB (fun x y => spec_inj a key x y Hk) HE m Hm).
Qed.
Lemma code_of a key m s : bytes_len 32 key -> bytes_ok m -> 0 <= s <= Z.of_nat (bsize a) -> (bsize a <= List.length m)%nat -> mac_of a key m s (firstn (Z.to_nat s) (mac (spec_E a key) (bsize a) m)).
Proof. intros Hk Hm Hs HL. destruct (mac_of_exists a key m s Hk Hm Hs (or_intror HL)) as (v & HV). destruct (mac_of_is a key m s v Hk Hs HV) as [_ <-]. exact HV. Qed.
Lemma half_blk a h : bytes_len (half a) h -> blk (bsize a) (h ++ repeat 0 (bsize a / 2)).
Proof. intros [Hl Hh]. split; [apply Forall_app; split; [exact Hh | apply zeros_ok]|]. rewrite app_length, repeat_length. unfold len in Hl. destruct a; cbn in *; lia. Qed.
Lemma zero_half a : repeat 0 (bsize a / 2) ++ repeat 0 (bsize a / 2) = repeat 0 (bsize a).
Proof. destruct a; reflexivity. Qed.
Lemma code_ctr a key h s : bytes_len 32 key -> bytes_len (half a) h -> 0 <= s <= Z.of_nat (bsize a) -> let n := bsize a in let zeros := repeat 0 n in
  mac_of a key (bxor (h ++ repeat 0 (n / 2)) (mac_key1 (fun _ => answer a MODE_CTR key (repeat 0 (n / 2)) zeros) n)) s (firstn (Z.to_nat s) (answer a MODE_CTR key h zeros)).
Proof.
  intros Hk Hh Hs n zeros. assert (Hn : (n = 8 \/ n = 16)%nat) by apply n_cases. destruct (spec_facts a key Hk) as (EB & _). fold n in EB. assert (EI := fun x y => spec_inj a key x y Hk). fold n in EI. set (E := spec_E a key) in *.
  assert (H0 : bytes_len (half a) (repeat 0 (n / 2))) by (split; [unfold len; rewrite repeat_length; unfold n; destruct a; reflexivity | apply zeros_ok]).
  assert (EZ : answer a MODE_CTR key (repeat 0 (n / 2)) zeros = E (repeat 0 n)).
  { rewrite (ctr_answer a key _ zeros Hk H0 (zeros_blk _)). pose proof (zero_half a) as EH. fold n in EH |- *. rewrite EH. fold E. apply zero_block_xor, EB, zeros_blk. }
  assert (HB : blk n (h ++ repeat 0 (n / 2))) by now apply half_blk. set (b := h ++ repeat 0 (n / 2)) in *.
  assert (EK : mac_key1 (fun _ => answer a MODE_CTR key (repeat 0 (n / 2)) zeros) n = mac_key1 E n) by (unfold mac_key1; rewrite EZ; reflexivity). rewrite EK. assert (HK : blk n (mac_key1 E n)) by apply (be_blk n E Hn EB EI).
  assert (HX : blk n (bxor b (mac_key1 E n))) by now apply xor_blk. pose proof (code_of a key (bxor b (mac_key1 E n)) s Hk (proj1 HX) Hs) as HC. fold n E in HC.
  rewrite (ctr_answer a key h zeros Hk Hh (zeros_blk _)). fold n b E. rewrite (zero_block_xor n _ (EB b HB) : bxor zeros (E b) = E b). replace (E b) with (mac E n (bxor b (mac_key1 E n))); [apply HC; rewrite (proj2 HX); lia|].
  assert (HP : pieces_of n (bxor b (mac_key1 E n)) [] (bxor b (mac_key1 E n))) by (split; [reflexivity|]; split; [constructor|]; split; [apply HX|]; split; [destruct HX; lia | reflexivity]).
  rewrite (mac_is n E Hn EB EI _ _ _ HP). unfold MacMore.full, MacMore.key_of. rewrite (proj2 HX), Nat.eqb_refl. cbn [cbc_mac fold_left]. f_equal. rewrite (xor_comm _ (zero n)). unfold zero. rewrite zero_block_xor by exact HX. apply xor_back with (n := n); assumption.
Qed.
Lemma code_fill a key u w v : bytes_len 32 key -> bytes_ok u -> (List.length u mod bsize a = 0)%nat -> bytes_ok w -> blk (bsize a) v -> let n := bsize a in
  let x := fill (answer a MODE_ECB key []) (undo a MODE_ECB key []) n v u w in
  blk n x /\ mac_of a key (u ++ x ++ w) (Z.of_nat n) v /\ (forall x', List.length x' = n -> mac_of a key (u ++ x' ++ w) (Z.of_nat n) v -> x' = x).
Proof.
  intros Hk Hu HU Hw Hv n x. assert (Hn : (n = 8 \/ n = 16)%nat) by apply n_cases. destruct (spec_facts a key Hk) as (EB & DB & DE & ED). fold n in EB, DB, DE, ED.
  assert (SE : forall b, blk n b -> answer a MODE_ECB key [] b = spec_E a key b) by (intros b Hb; now apply ecb_answer). assert (SD : forall b, blk n b -> undo a MODE_ECB key [] b = spec_D a key b) by (intros b Hb; now apply ecb_undo).
  destruct (fill_is n (answer a MODE_ECB key []) (undo a MODE_ECB key []) Hn) with (v := v) (u := u) (w := w) as [HX HM]; try assumption.
  - intros b Hb. rewrite SE by exact Hb. now apply EB.
  - intros b Hb. rewrite SD by exact Hb. now apply DB.
  - intros b Hb. rewrite SE by exact Hb. rewrite SD by now apply EB. now apply DE.
  - intros b Hb. rewrite SD by exact Hb. rewrite SE by now apply DB. now apply ED.
  - fold x in HX, HM. split; [exact HX|]. assert (HO : bytes_ok (u ++ x ++ w)) by (apply Forall_app; split; [exact Hu | apply Forall_app; split; [apply HX | exact Hw]]).
    assert (HC : mac_of a key (u ++ x ++ w) (Z.of_nat n) v).
    { pose proof (code_of a key (u ++ x ++ w) (Z.of_nat n) Hk HO) as HC. fold n in HC. rewrite <- (same_mac n (spec_E a key) _ Hn EB (fun y z => spec_inj a key y z Hk) SE _ HO), HM in HC. rewrite firstn_all2 in HC by (rewrite (proj2 Hv); lia). apply HC; [lia|]. rewrite !app_length, (proj2 HX). lia. }
    split; [exact HC|]. intros x' HL HC'. destruct (list_eq_dec Z.eq_dec x' x) as [H|H]; [exact H|]. exfalso. assert (HXL : List.length x' = List.length x) by (rewrite (proj2 HX); exact HL). exact (changed_piece a key u x' x w v v Hk HU HXL (or_introl HL) H HC' HC eq_refl).
Qed.
