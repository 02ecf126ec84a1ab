(** * The answers of MAC objects as a function of the message; CBC answers that are MACs *)
From Verif Require Import PyBase PyFacts PyState Utils UtilsFacts UtilsLemmas CipherObj Modes Mac.
From Verif Require Import SpecModes CipherLemmas CipherObjFacts ModeFacts ModeSpecFacts ModeLemmas ModeProps ModeSim ModeReuse MacFacts MacLemmas MacProps MacMore ModeCross.
Open Scope string_scope.
Open Scope list_scope.
Open Scope Z_scope.

(** [v] is what an object with this key answers to [digest(s)] after it has taken the message [msg],
    in the constructor and in any updates. *)
Definition mac_of (a : balg) (key msg : bytes) (s : Z) (v : bytes) : Prop :=
  exists d0 m0 cs, bytes_ok d0 /\ mac_object a key d0 m0 /\ Forall plain_call cs /\
    msg = d0 ++ accepted cs (fst (mrun cs m0)) /\ fst (mac_digest s (snd (mrun cs m0))) = Ok v.

Lemma accepted_ok cs : Forall plain_call cs -> forall rs, bytes_ok (accepted cs rs).
Proof.
  induction 1 as [|c cs Hc HF IH]; intros [|r rs]; try constructor.
  - destruct c as [[d| | |]| | |]; constructor.
  - destruct c as [[d| | |]| | |]; cbn [accepted]; try apply IH. destruct r; [|apply IH]. apply Forall_app. split; [exact Hc | apply IH].
Qed.
Lemma mac_of_is a key msg s v : bytes_len 32 key -> 0 <= s <= Z.of_nat (bsize a) -> mac_of a key msg s v ->
  bytes_ok msg /\ v = firstn (Z.to_nat s) (mac (spec_E a key) (bsize a) msg).
Proof.
  intros Hk Hs (d0 & m0 & cs & Hd & Hm & HF & -> & HV). split.
  - apply Forall_app. split; [exact Hd | now apply accepted_ok].
  - rewrite (streaming a key d0 m0 cs s Hk Hd Hm HF Hs) in HV. now injection HV.
Qed.
Lemma mac_of_exists a key msg s : bytes_len 32 key -> bytes_ok msg -> 0 <= s <= Z.of_nat (bsize a) ->
  (msg = [] \/ bsize a <= List.length msg)%nat -> exists v, mac_of a key msg s v.
Proof.
  intros Hk Hm Hs HL. destruct (mac_init_empty a key Hk) as (m0 & HI & HT & _).
  assert (HO : mac_object a key [] m0). { exists {| kw_init_vect := None; kw_data := None; kw_pad_mode := None |}. split; [reflexivity|]. rewrite new_mac_eq; cbn [kw_data kw_get]; rewrite HI; reflexivity. }
  destruct HL as [-> | HL].
  - eexists. exists [], m0, []. split; [constructor|]. split; [exact HO|]. split; [constructor|]. split; [reflexivity|]. exact (streaming a key [] m0 [] s Hk (Forall_nil _) HO (Forall_nil _) Hs).
  - pose proof (update_iff a key [] m0 [] msg Hk (Forall_nil _) HO (Forall_nil _) Hm) as HU. cbn [mrun fst snd accepted app] in HU.
    change (len (@nil Z)) with 0 in HU. rewrite Z.mod_0_l in HU by (destruct a; cbn; lia).
    replace (0 + len msg <? Z.of_nat (bsize a)) with false in HU by (symmetry; apply Z.ltb_ge; unfold len; lia). destruct HU as (m1 & HU).
    eexists. exists [], m0, [MUpdate (VBytes msg)]. split; [constructor|]. split; [exact HO|]. split; [constructor; [exact Hm | constructor]|]. split.
    + cbn [mrun mstep]. rewrite HU. cbn. now rewrite app_nil_r.
    + apply (streaming a key [] m0 [MUpdate (VBytes msg)] s Hk (Forall_nil _) HO ltac:(constructor; [exact Hm | constructor]) Hs).
Qed.

(** ** The MAC from answers of the CBC mode *)
(** One who gets the answers of an object in the CBC mode with the vector [iv] (one block): the answer
    to [iv] is E(0), hence the keys K1 and K2; then the message with the first block masked with [iv] and
    the last piece completed and masked as the MAC does; the last block of the answer. *)
Definition forge (n : nat) (iv : bytes) (enc : bytes -> bytes) (m : bytes) : bytes :=
  let e0 := be_value (enc iv) in
  let k1 := be_bytes n (double n e0) in
  let k2 := be_bytes n (double n (double n e0)) in
  let bl := mac_blocks n m in
  let l := last bl [] in
  let x := if Nat.eqb (List.length l) n then bxor l k1 else bxor (l ++ 0x80 :: repeat 0 (n - 1 - List.length l)) k2 in
  let ps := removelast bl ++ [x] in
  let c := enc (concat (bxor (hd [] ps) iv :: tl ps)) in
  skipn (List.length c - n) c.

Lemma xor_blk n a b : blk n a -> blk n b -> blk n (bxor a b).
Proof. intros [A1 A2] [B1 B2]. split; [rewrite bxor_eq; now apply add_xor_ok|]. unfold bxor. rewrite map_length, combine_length, A2, B2. apply Nat.min_id. Qed.
Lemma xor_comm a b : bxor a b = bxor b a.
Proof. revert b; induction a as [|x a IH]; intros [|y b]; try reflexivity. unfold bxor in *. cbn. now rewrite IH, Z.lxor_comm. Qed.
Section Chain.
  Variables (n : nat) (E : bytes -> bytes).
  Hypothesis E_blk : forall b, blk n b -> blk n (E b).
  Lemma cbc_last ps : forall v d, ps <> [] -> last (cbc_enc E [v] ps) d = cbc_mac E v ps.
  Proof using.
    clear. induction ps as [|p ps IH]; intros v d Hne; [contradiction|]. cbn [cbc_enc hd tl app]. unfold cbc_mac. cbn [fold_left]. destruct ps as [|q ps]; [reflexivity|].
    change (last (E (bxor p v) :: cbc_enc E [E (bxor p v)] (q :: ps)) d) with (last (cbc_enc E [E (bxor p v)] (q :: ps)) d). now apply IH.
  Qed.
  Lemma cbc_blks ps : Forall (blk n) ps -> forall R, R <> [] -> Forall (blk n) R -> Forall (blk n) (cbc_enc E R ps).
  Proof using E_blk.
    induction 1 as [|p ps Hp HF IH]; intros R Hne HR; [constructor|]. assert (Hh := hd_forall _ R Hne HR). cbn [cbc_enc].
    assert (HE : blk n (E (bxor p (hd [] R)))) by (apply E_blk, xor_blk; assumption).
    constructor; [exact HE|]. apply IH; [apply tl_snoc_ne | apply tl_snoc_forall; auto].
  Qed.
  Lemma skip_last cs d : cs <> [] -> Forall (blk n) cs -> skipn (List.length (concat cs) - n) (concat cs) = last cs d.
  Proof using.
    clear. intros Hne HF. destruct (exists_last Hne) as (cs' & c & ->). rewrite last_last, concat_app. cbn [concat]. rewrite app_nil_r. apply Forall_app in HF. destruct HF as [_ HF]. apply Forall_inv in HF. destruct HF as [_ HF].
    rewrite app_length, HF. replace (List.length (concat cs') + n - n)%nat with (List.length (concat cs')) by lia. rewrite skipn_app, skipn_all, Nat.sub_diag. reflexivity.
  Qed.
End Chain.

Lemma cbc_answer a key iv ps : bytes_len 32 key -> blk (bsize a) iv -> ps <> [] -> Forall (blk (bsize a)) ps ->
  answer a MODE_CBC key iv (concat ps) = concat (cbc_enc (spec_E a key) [iv] ps).
Proof.
  intros Hk Hi Hne HF. set (n := bsize a) in *. assert (Hn : (0 < n)%nat) by (unfold n; destruct a; cbn; lia).
  assert (Hb : bytes_ok (concat ps)). { clear -HF. induction HF as [|p ps [Hp _] _ IH]; [constructor|]. cbn. apply Forall_app. now split. }
  assert (HP : padded P1 n (concat ps) = concat ps).
  { unfold padded, padding, pad_zeros. destruct (concat ps) as [|x r] eqn:E0.
    - exfalso. apply (f_equal (@List.length Z)) in E0. rewrite (concat_blk_length n ps HF) in E0. destruct ps; [now apply Hne|]. cbn in E0. lia.
    - rewrite <- E0, (concat_blk_length n ps HF), Nat.mod_mul, Nat.sub_0_r, Nat.mod_same by lia. apply app_nil_r. }
  rewrite answer_cbc; [|exact Hk| |exact Hb].
  - fold n. rewrite HP, (blocks_whole n ps Hn HF). replace (blocks n iv) with [iv]; [reflexivity|]. symmetry. rewrite <- (blocks_whole n [iv] Hn) by (constructor; [exact Hi | constructor]). cbn [concat]. now rewrite app_nil_r.
  - destruct Hi as [H1 H2]. split; [exact H1|]. split; [intros ->; cbn in H2; lia|]. unfold len. fold n. rewrite H2. apply Z.mod_same. lia.
Qed.

Lemma forge_is a key iv m : bytes_len 32 key -> blk (bsize a) iv -> bytes_ok m ->
  forge (bsize a) iv (answer a MODE_CBC key iv) m = mac (spec_E a key) (bsize a) m.
Proof.
  intros Hk Hi Hm. set (n := bsize a) in *. destruct (spec_facts a key Hk) as (EB & DB & DE & ED). fold n in EB, DB, DE, ED. set (E := spec_E a key) in *. set (D := spec_D a key) in *.
  assert (Hn : (n = 8 \/ n = 16)%nat) by apply n_cases. assert (Hp : (0 < n)%nat) by lia.
  assert (EI : forall x y, blk n x -> blk n y -> E x = E y -> x = y) by (intros x y Hx Hy HE; rewrite <- (DE x Hx), <- (DE y Hy), HE; reflexivity).
  destruct (pieces_exist n E Hn EB EI m Hm) as (bl & t & HPc).
  assert (E0 : answer a MODE_CBC key iv iv = E (repeat 0 n)).
  { pose proof (cbc_answer a key iv [iv] Hk Hi ltac:(discriminate) ltac:(constructor; [exact Hi | constructor])) as H. cbn [concat] in H. rewrite app_nil_r in H. rewrite H. fold E. cbn [cbc_enc hd concat]. rewrite app_nil_r. f_equal.
    destruct Hi as [_ Hi]. rewrite <- Hi. clear. induction iv as [|x r IH]; [reflexivity|]. unfold bxor in *. cbn. now rewrite IH, Z.lxor_nilpotent. }
  unfold forge. rewrite E0, (mac_blocks_of n E Hn EB EI m bl t HPc), last_last, removelast_last.
  fold (mac_key1 E n) (mac_key2 E n).
  assert (EX : (if Nat.eqb (List.length t) n then bxor t (mac_key1 E n) else bxor (t ++ 0x80 :: repeat 0 (n - 1 - List.length t)) (mac_key2 E n)) = bxor (full n t) (key_of n E t)) by (unfold full, key_of; destruct (Nat.eqb _ _); reflexivity).
  rewrite EX. assert (HFt : blk n (full n t)) by (apply (full_blk n E Hn EB EI); apply HPc).
  assert (HX : blk n (bxor (full n t) (key_of n E t))) by (apply xor_blk; [exact HFt | apply (key_blk n E Hn EB EI)]).
  set (x := bxor (full n t) (key_of n E t)) in *. assert (HL : Forall (blk n) (bl ++ [x])) by (apply Forall_app; split; [apply HPc | constructor; [exact HX | constructor]]).
  assert (HM : cbc_mac E (zero n) (bl ++ [x]) = mac E n m).
  { rewrite (mac_is n E Hn EB EI m bl t HPc). unfold cbc_mac. rewrite fold_left_app. cbn [fold_left]. f_equal. unfold x. rewrite <- bxor_assoc, (xor_comm (key_of n E t)), bxor_assoc. reflexivity. }
  rewrite <- HM. destruct (bl ++ [x]) as [|b r] eqn:EL; [destruct bl; discriminate|]. cbn [hd tl]. apply Forall_cons_iff in HL. destruct HL as [Hb Hr].
  assert (HF : Forall (blk n) (bxor b iv :: r)) by (constructor; [now apply xor_blk | exact Hr]).
  rewrite (cbc_answer a key iv (bxor b iv :: r) Hk Hi ltac:(discriminate) HF). fold E.
  rewrite (skip_last n _ []); [|cbn [cbc_enc]; discriminate | apply cbc_blks; [exact EB | exact HF | discriminate | constructor; [exact Hi | constructor]]].
  rewrite cbc_last by discriminate. unfold cbc_mac. cbn [fold_left]. f_equal. f_equal. rewrite bxor_cancel by (destruct Hb as [_ ->], Hi as [_ ->]; lia).
  destruct Hb as [_ Hb]. rewrite xor_comm. unfold zero. symmetry. apply zero_xor_blk. split; [|exact Hb].
  (* the octets of [b] *)
  destruct bl as [|b0 bl]; cbn in EL; injection EL as <- _; [apply HX|]. destruct HPc as (_ & HB0 & _). apply Forall_inv in HB0. apply HB0.
Qed.

(** ** One changed block *)
Lemma cut_at n u : (0 < n)%nat -> bytes_ok u -> (List.length u mod n = 0)%nat -> exists bl, u = concat bl /\ Forall (blk n) bl.
Proof.
  intros Hn Hu HL. destruct (cut_blk n u Hn Hu) as (bl & t & _ & E & HF & _ & Ht). exists bl. split; [|exact HF]. destruct t as [|x t]; [now rewrite app_nil_r in E|]. exfalso.
  rewrite E, app_length, (concat_blk_length _ _ HF), Nat.add_comm, Nat.mod_add, Nat.mod_small in HL by lia. discriminate.
Qed.
Lemma changed_piece a key u x x' w v v' : bytes_len 32 key -> let n := bsize a in
  (List.length u mod n = 0)%nat -> List.length x = List.length x' -> (List.length x = n \/ (List.length x < n)%nat /\ w = []) -> x <> x' ->
  mac_of a key (u ++ x ++ w) (Z.of_nat n) v -> mac_of a key (u ++ x' ++ w) (Z.of_nat n) v' -> v <> v'.
Proof.
  intros Hk n Hu HX HS Hd HM HM' Hv. apply mac_of_is in HM; [|exact Hk | lia]. apply mac_of_is in HM'; [|exact Hk | lia]. destruct HM as [Hok Ev], HM' as [Hok' Ev']. apply Hd.
  rewrite Nat2Z.id in Ev, Ev'. fold n in Ev, Ev'. destruct (spec_facts a key Hk) as (EB & DB & DE & ED). fold n in EB, DB, DE, ED. set (E := spec_E a key) in *. set (D := spec_D a key) in *.
  assert (Hn : (n = 8 \/ n = 16)%nat) by apply n_cases. assert (Hp : (0 < n)%nat) by lia.
  assert (EI : forall x y, blk n x -> blk n y -> E x = E y -> x = y) by (intros y z Hy Hz HE; rewrite <- (DE y Hy), <- (DE z Hz), HE; reflexivity).
  apply Forall_app in Hok. destruct Hok as [Oku Hok]. apply Forall_app in Hok. destruct Hok as [Okx Okw]. apply Forall_app in Hok'. destruct Hok' as [_ Hok']. apply Forall_app in Hok'. destruct Hok' as [Okx' _].
  assert (ML : forall m, bytes_ok m -> List.length (mac E n m) = n).
  { intros m Hm. destruct (pieces_exist n E Hn EB EI m Hm) as (bl & t & HP). rewrite (mac_is n E Hn EB EI m bl t HP). apply EB, xor_blk; [apply xor_blk|].
    - apply (full_blk n E Hn EB EI); apply HP.
    - apply (chain_blk n E Hn EB EI); [apply HP | apply (zero_blk n E Hn EB EI)].
    - apply (key_blk n E Hn EB EI). }
  rewrite !firstn_all2 in Ev by (rewrite ML; [lia | repeat (apply Forall_app; split); assumption]). rewrite !firstn_all2 in Ev' by (rewrite ML; [lia | repeat (apply Forall_app; split); assumption]).
  subst v v'. destruct (cut_at n u Hp Oku Hu) as (bl & -> & HF). destruct w as [|y w].
  - rewrite !app_nil_r in Hv. assert (HL : (List.length x <= n)%nat) by (destruct HS as [?|[? _]]; lia).
    assert (Hne : x <> [] /\ x' <> []) by (clear -HX Hd; split; intros H0; apply Hd; rewrite H0 in HX; rewrite H0; [destruct x'; [exact eq_refl | discriminate HX] | destruct x; [exact eq_refl | discriminate HX]]).
    apply (mac_last n E Hn EB EI (concat bl ++ x) (concat bl ++ x') bl x x'); [| |exact HX | exact Hv].
    + split; [reflexivity|]. split; [exact HF|]. split; [exact Okx|]. split; [exact HL|]. intros H. now destruct (proj1 Hne).
    + split; [reflexivity|]. split; [exact HF|]. split; [exact Okx'|]. split; [now rewrite <- HX|]. intros H. now destruct (proj2 Hne).
  - destruct HS as [HS|[_ HS]]; [|discriminate HS]. destruct (pieces_exist n E Hn EB EI (y :: w) Okw) as (bl' & t & HP). destruct HP as (EW & HF' & Okt & HL & Hne).
    assert (Ht : t <> []) by (intros H; rewrite H, (Hne H) in EW; discriminate EW).
    apply (mac_middle n E Hn EB EI (concat bl ++ x ++ y :: w) (concat bl ++ x' ++ y :: w) bl x x' bl' t); [| |exact Hv].
    + split; [rewrite concat_app; cbn [concat]; rewrite EW, <- !app_assoc; reflexivity|]. split; [apply Forall_app; split; [exact HF | constructor; [split; assumption | exact HF']]|]. split; [exact Okt|]. split; [exact HL|]. contradiction.
    + split; [rewrite concat_app; cbn [concat]; rewrite EW, <- !app_assoc; reflexivity|]. split; [apply Forall_app; split; [exact HF | constructor; [split; [assumption | now rewrite <- HX] | exact HF']]|]. split; [exact Okt|]. split; [exact HL|]. contradiction.
Qed.

Lemma mac_is_block a key m : bytes_len 32 key -> bytes_ok m -> blk (bsize a) (mac (spec_E a key) (bsize a) m).
Proof.
  intros Hk Hm. set (n := bsize a). destruct (spec_facts a key Hk) as (EB & DB & DE & ED). fold n in EB, DB, DE, ED. set (E := spec_E a key) in *. set (D := spec_D a key) in *.
  assert (Hn : (n = 8 \/ n = 16)%nat) by apply n_cases.
  assert (EI : forall x y, blk n x -> blk n y -> E x = E y -> x = y) by (intros y z Hy Hz HE; rewrite <- (DE y Hy), <- (DE z Hz), HE; reflexivity).
  destruct (pieces_exist n E Hn EB EI m Hm) as (bl & t & HP). rewrite (mac_is n E Hn EB EI m bl t HP). apply EB, xor_blk; [apply xor_blk|].
  - apply (full_blk n E Hn EB EI); apply HP.
  - apply (chain_blk n E Hn EB EI); [apply HP | apply (zero_blk n E Hn EB EI)].
  - apply (key_blk n E Hn EB EI).
Qed.
(** A message completed by hand. *)
Lemma completed_message a key m v v' : bytes_len 32 key -> let n := bsize a in
  m = [] \/ (List.length m mod n <> 0)%nat ->
  mac_of a key m (Z.of_nat n) v -> mac_of a key (m ++ 0x80 :: repeat 0 (n - 1 - List.length m mod n)) (Z.of_nat n) v' ->
  (v = v' <-> spec_E a key (repeat 0 n) = repeat 0 n).
Proof.
  intros Hk n HS HM HM'. apply mac_of_is in HM; [|exact Hk | lia]. apply mac_of_is in HM'; [|exact Hk | lia]. destruct HM as [Hok ->], HM' as [Hok' ->].
  rewrite Nat2Z.id. fold n. rewrite !firstn_all2 by (match goal with |- (List.length (mac _ _ ?m) <= _)%nat => destruct (mac_is_block a key m Hk ltac:(assumption)) as [_ HL]; fold n in HL; rewrite HL end; lia).
  destruct (spec_facts a key Hk) as (EB & DB & DE & ED). fold n in EB, DB, DE, ED. set (E := spec_E a key) in *. set (D := spec_D a key) in *.
  assert (Hn : (n = 8 \/ n = 16)%nat) by apply n_cases. assert (Hp : (0 < n)%nat) by lia.
  assert (EI : forall x y, blk n x -> blk n y -> E x = E y -> x = y) by (intros y z Hy Hz HE; rewrite <- (DE y Hy), <- (DE z Hz), HE; reflexivity).
  destruct (cut_blk n m Hp Hok) as (bl & t & _ & Em & HF & Okt & Ht).
  assert (HL : (List.length m mod n = List.length t)%nat) by (rewrite Em, app_length, (concat_blk_length _ _ HF), Nat.add_comm, Nat.mod_add, Nat.mod_small by lia; reflexivity).
  rewrite HL. apply (mac_completed n E Hn EB EI m bl t); [|exact Ht]. split; [exact Em|]. split; [exact HF|]. split; [exact Okt|]. split; [lia|]. intros ->.
  destruct HS as [HS|HS]; [|rewrite HL in HS; now destruct HS]. rewrite HS in Em. destruct HF as [|b bl [_ Hb] _]; [reflexivity|]. exfalso. apply (f_equal (@List.length Z)) in Em. cbn [concat] in Em. rewrite !app_length in Em. cbn in Em. lia.
Qed.
(** Shortened codes: for every key, two one-block messages. *)
Lemma short_collision a key s : bytes_len 32 key -> 0 <= s < Z.of_nat (bsize a) ->
  exists x x' v, x <> x' /\ List.length x = bsize a /\ List.length x' = bsize a /\ mac_of a key x s v /\ mac_of a key x' s v.
Proof.
  intros Hk Hs. set (n := bsize a) in *. destruct (spec_facts a key Hk) as (EB & DB & DE & ED). fold n in EB, DB, DE, ED.
  assert (Hn : (n = 8 \/ n = 16)%nat) by apply n_cases. assert (Hp : (0 < n)%nat) by lia.
  assert (EI : forall x y, blk n x -> blk n y -> spec_E a key x = spec_E a key y -> x = y) by (intros y z Hy Hz HE; rewrite <- (DE y Hy), <- (DE z Hz), HE; reflexivity).
  set (p := fun e => repeat 0 (n - 1) ++ [e]). assert (Hpb : forall e, 0 <= e < 256 -> blk n (p e)).
  { intros e He. unfold p. split; [apply Forall_app; split; [apply zeros_ok | constructor; [exact He | constructor]]|]. rewrite app_length, repeat_length. cbn. lia. }
  set (f := fun e => with_mac n (spec_E a key) (spec_D a key) (p e)).
  assert (Hf : forall e, 0 <= e < 256 -> blk n (f e) /\ mac (spec_E a key) n (f e) = p e).
  { intros e He. split; [exact (with_mac_blk n (spec_E a key) Hn EB EI (spec_D a key) DB ED _ (Hpb e He)) | exact (with_mac_is n (spec_E a key) Hn EB EI (spec_D a key) DB ED _ (Hpb e He))]. }
  destruct (Hf 0 ltac:(lia)) as [B0 M0]. destruct (Hf 1 ltac:(lia)) as [B1 M1].
  destruct (mac_of_exists a key (f 0) s Hk (proj1 B0) ltac:(fold n; lia)) as (v & HV); [right; rewrite (proj2 B0); reflexivity|].
  destruct (mac_of_exists a key (f 1) s Hk (proj1 B1) ltac:(fold n; lia)) as (v' & HV'); [right; rewrite (proj2 B1); reflexivity|].
  exists (f 0), (f 1), v. split; [|split; [apply B0 | split; [apply B1 | split; [exact HV|]]]].
  - intros H. rewrite H, M1 in M0. unfold p in M0. apply app_inv_head in M0. discriminate M0.
  - replace v with v'; [exact HV'|]. apply mac_of_is in HV; [|exact Hk | fold n; lia]. apply mac_of_is in HV'; [|exact Hk | fold n; lia]. destruct HV as [_ ->], HV' as [_ ->]. fold n. rewrite M0, M1. unfold p.
    rewrite !firstn_app, repeat_length. replace (Z.to_nat s - (n - 1))%nat with 0%nat by lia. reflexivity.
Qed.
