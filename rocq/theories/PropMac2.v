(** * Properties C142-C144: what the MAC notices, and one key for several uses *)
From Verif Require Import PyBase PyState Utils CipherObj Modes Mac SpecModes CipherLemmas CipherObjFacts ModeLemmas ModeSim ModeExamples MacLemmas MacProps MacMore ModeCross MacMore2 ModeCross2.
Open Scope string_scope.
Open Scope list_scope.
Open Scope Z_scope.

(** C142. A message that differs in one block (or in a last, shorter piece of the same length). *)
Theorem C142_changed_block : forall a key u x x' w v v', bytes_len 32 key -> let n := bsize a in
  (List.length u mod n = 0)%nat -> List.length x = List.length x' -> (List.length x = n \/ (List.length x < n)%nat /\ w = []) -> x <> x' ->
  mac_of a key (u ++ x ++ w) (Z.of_nat n) v -> mac_of a key (u ++ x' ++ w) (Z.of_nat n) v' -> v <> v'.
Proof. exact changed_piece. Qed.
Print Assumptions C142_changed_block.

(** A message whose last block is completed by hand as the MAC completes it. *)
Theorem C142_completed : forall a key m v v', bytes_len 32 key -> let n := bsize a in
  m = [] \/ (List.length m mod n <> 0)%nat ->
  mac_of a key m (Z.of_nat n) v -> mac_of a key (m ++ 0x80 :: repeat 0 (n - 1 - List.length m mod n)) (Z.of_nat n) v' ->
  (v = v' <-> spec_E a key (repeat 0 n) = repeat 0 n).
Proof. exact completed_message. Qed.
Print Assumptions C142_completed.

(** A code cut to fewer octets does not notice every change, whatever the key. *)
Theorem C142_short : forall a key s, bytes_len 32 key -> 0 <= s < Z.of_nat (bsize a) ->
  exists x x' v, x <> x' /\ List.length x = bsize a /\ List.length x' = bsize a /\ mac_of a key x s v /\ mac_of a key x' s v.
Proof. exact short_collision. Qed.
Print Assumptions C142_short.
Definition every_size_notices : Prop := forall a key x x' s v v', bytes_len 32 key -> 0 < s <= Z.of_nat (bsize a) ->
  List.length x = bsize a -> List.length x' = bsize a -> x <> x' -> mac_of a key x s v -> mac_of a key x' s v' -> v <> v'.
Theorem C142_short_refuted : ~ every_size_notices.
Proof.
  intros H. assert (Hk : bytes_len 32 magma_test_key) by concrete_bytes. destruct (C142_short Mag magma_test_key 4 Hk ltac:(cbn; lia)) as (x & x' & v & Hd & L1 & L2 & M1 & M2).
  exact (H Mag _ x x' 4 v v Hk ltac:(cbn; lia) L1 L2 Hd M1 M2 eq_refl).
Qed.
Print Assumptions C142_short_refuted.

Lemma some_mac a key m : bytes_len 32 key -> bytes_ok m -> (m = [] \/ bsize a <= List.length m)%nat -> exists v, mac_of a key m (Z.of_nat (bsize a)) v.
Proof. intros Hk Hm HL. apply mac_of_exists; auto. lia. Qed.
Example C142_example : exists v v' e e',
  mac_of Mag magma_test_key ([1; 2; 3; 4; 5; 6; 7; 8] ++ [0; 0; 0; 0; 0; 0; 0; 0] ++ [9; 9]) 8 v /\
  mac_of Mag magma_test_key ([1; 2; 3; 4; 5; 6; 7; 8] ++ [0; 0; 0; 0; 0; 0; 0; 1] ++ [9; 9]) 8 v' /\ v <> v' /\
  mac_of Mag magma_test_key [] 8 e /\ mac_of Mag magma_test_key [0x80; 0; 0; 0; 0; 0; 0; 0] 8 e' /\ e <> e'.
Proof.
  assert (Hk : bytes_len 32 magma_test_key) by concrete_bytes.
  assert (O1 : bytes_ok ([1; 2; 3; 4; 5; 6; 7; 8] ++ [0; 0; 0; 0; 0; 0; 0; 0] ++ [9; 9])) by (apply bytes_okb_ok; reflexivity).
  assert (O2 : bytes_ok ([1; 2; 3; 4; 5; 6; 7; 8] ++ [0; 0; 0; 0; 0; 0; 0; 1] ++ [9; 9])) by (apply bytes_okb_ok; reflexivity).
  assert (O3 : bytes_ok [0x80; 0; 0; 0; 0; 0; 0; 0]) by (apply bytes_okb_ok; reflexivity).
  destruct (some_mac Mag _ _ Hk O1) as (v & Hv); [right; cbn; lia|]. destruct (some_mac Mag _ _ Hk O2) as (v' & Hv'); [right; cbn; lia|].
  destruct (some_mac Mag _ [] Hk (Forall_nil _) (or_introl eq_refl)) as (e & He). destruct (some_mac Mag _ _ Hk O3) as (e' & He'); [right; cbn; lia|].
  exists v, v', e, e'. split; [exact Hv|]. split; [exact Hv'|]. split.
  - refine (C142_changed_block Mag _ _ _ _ _ v v' Hk _ _ _ _ Hv Hv'); [reflexivity | reflexivity | left; reflexivity | discriminate].
  - split; [exact He|]. split; [exact He'|]. intros H. apply (C142_completed Mag _ [] e e' Hk (or_introl eq_refl) He He') in H. revert H. vm_compute. discriminate.
Qed.

(** C143. One key for the CBC mode and for the MAC. *)
Theorem C143_forge : forall a key iv m s v, bytes_len 32 key -> blk (bsize a) iv -> 0 <= s <= Z.of_nat (bsize a) ->
  mac_of a key m s v -> v = firstn (Z.to_nat s) (forge (bsize a) iv (answer a MODE_CBC key iv) m).
Proof. intros a key iv m s v Hk Hi Hs HM. apply mac_of_is in HM; [|exact Hk | exact Hs]. destruct HM as [Hm ->]. now rewrite forge_is. Qed.
Print Assumptions C143_forge.
(** The claim: no one who only gets answers of the CBC mode has a rule for the codes of messages. *)
Definition separate_uses : Prop := forall a iv, blk (bsize a) iv ->
  ~ exists rule : (bytes -> bytes) -> bytes -> bytes, forall key m v, bytes_len 32 key -> mac_of a key m (Z.of_nat (bsize a)) v -> rule (answer a MODE_CBC key iv) m = v.
Theorem C143_refuted : ~ separate_uses.
Proof.
  intros H. assert (Hi : blk (bsize Mag) (repeat 0 8)) by (split; [apply bytes_okb_ok|]; reflexivity). apply (H Mag _ Hi).
  exists (fun enc m => firstn 8 (forge 8 (repeat 0 8) enc m)). intros key m v Hk HM. symmetry. exact (C143_forge Mag key _ m 8 v Hk Hi ltac:(cbn; lia) HM).
Qed.
Print Assumptions C143_refuted.
Example C143_example : let iv := [0x12; 0x34; 0x56; 0x78; 0x90; 0xab; 0xcd; 0xef] in let m := [1; 2; 3; 4; 5; 6; 7; 8; 9; 10; 11] in
  exists v, mac_of Mag magma_test_key m 8 v /\ firstn 8 (forge 8 iv (answer Mag MODE_CBC magma_test_key iv) m) = v /\ answer Mag MODE_CBC magma_test_key iv m <> v.
Proof.
  intros iv m. assert (Hk : bytes_len 32 magma_test_key) by concrete_bytes. assert (Hm : bytes_ok m) by (apply bytes_okb_ok; reflexivity).
  assert (Hi : blk (bsize Mag) iv) by (split; [apply bytes_okb_ok|]; reflexivity).
  destruct (some_mac Mag _ m Hk Hm) as (v & Hv); [right; cbn; lia|]. exists v. split; [exact Hv|]. assert (HF := C143_forge Mag magma_test_key iv m 8 v Hk Hi ltac:(cbn; lia) Hv). split; [symmetry; exact HF|].
  rewrite HF. intros H. apply (f_equal (@List.length Z)) in H. revert H. vm_compute. discriminate.
Qed.

(** C144. The modes share their gamma: answers to a message of zeros in the CFB or the CBC mode. *)
Theorem C144_cfb : forall a key iv m, bytes_len 32 key -> iv_blocks a iv -> bytes_ok m ->
  answer a MODE_OFB key iv m = bxor m (answer a MODE_CFB key iv (repeat 0 (List.length m))).
Proof. exact cfb_gamma. Qed.
Print Assumptions C144_cfb.
Theorem C144_cbc : forall a key iv m, bytes_len 32 key -> iv_blocks a iv -> bytes_ok m ->
  answer a MODE_OFB key iv m = bxor m (answer a MODE_CBC key iv (repeat 0 (List.length m))).
Proof. exact cbc_gamma. Qed.
Print Assumptions C144_cbc.
(** The first block in the CFB, OFB and CTR modes. *)
Theorem C144_first_block : forall a key iv m, bytes_len 32 key -> iv_blocks a iv -> bytes_ok m -> (List.length m <= bsize a)%nat ->
  answer a MODE_CFB key iv m = answer a MODE_OFB key iv m.
Proof. exact first_cfb. Qed.
Print Assumptions C144_first_block.
Theorem C144_first_block_ctr : forall a key h m, bytes_len 32 key -> bytes_len (half a) h -> bytes_ok m -> (List.length m <= bsize a)%nat ->
  answer a MODE_CTR key h m = answer a MODE_OFB key (h ++ repeat 0 (bsize a / 2)) m.
Proof. exact first_ctr. Qed.
Print Assumptions C144_first_block_ctr.
(** The claim: what is encrypted in one mode cannot be read with the encryptions of another. *)
Definition own_gamma : Prop := forall a mode mode' iv, In mode [MODE_CBC; MODE_CFB] -> mode' = MODE_OFB -> iv_blocks a iv ->
  ~ exists read : (bytes -> bytes) -> bytes -> bytes, forall key m, bytes_len 32 key -> bytes_ok m -> read (answer a mode key iv) (answer a mode' key iv m) = m.
Theorem C144_refuted : ~ own_gamma.
Proof.
  intros H. assert (Hi : iv_blocks Mag (repeat 0 8)) by (split; [apply bytes_okb_ok; reflexivity|]; split; [discriminate | reflexivity]).
  apply (H Mag MODE_CBC MODE_OFB _ (or_introl eq_refl) eq_refl Hi). exists (fun enc c => bxor c (enc (repeat 0 (List.length c)))). intros key m Hk Hm.
  exact (own_gamma_read Mag key _ m Hk Hi Hm).
Qed.
Print Assumptions C144_refuted.
Example C144_example : let iv := [0x12; 0x34; 0x56; 0x78; 0x90; 0xab; 0xcd; 0xef; 0x23; 0x45; 0x67; 0x89; 0x0a; 0xbc; 0xde; 0xf1] in let m := [1; 2; 3; 4; 5; 6; 7; 8; 9; 10; 11] in
  let c := answer Mag MODE_OFB magma_test_key iv m in c <> m /\ bxor c (answer Mag MODE_CFB magma_test_key iv (repeat 0 11)) = m /\ bxor c (answer Mag MODE_CBC magma_test_key iv (repeat 0 11)) = m.
Proof. cbv zeta. split; [vm_compute; discriminate|]. split; vm_compute; reflexivity. Qed.
