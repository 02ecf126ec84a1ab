(** * Properties C151 and C152: codes of messages from other modes, and with a known key *)
From Verif Require Import PyBase PyState Utils CipherObj Modes Mac SpecModes SpecFill CipherLemmas CipherObjFacts ModeLemmas ModeSim ModeExamples MacFacts MacLemmas MacProps MacMore ModeCross MacMore2 ModeCross2 PropMac2 MacKnown.
Open Scope string_scope.
Open Scope list_scope.
Open Scope Z_scope.

(** C151. One key for the MAC and the ECB mode: the code is computed as in the standard, with the answers in the place of the cipher. *)
Theorem C151_ecb : forall a key m s v, bytes_len 32 key -> 0 <= s <= Z.of_nat (bsize a) -> mac_of a key m s v ->
  v = firstn (Z.to_nat s) (mac (answer a MODE_ECB key []) (bsize a) m).
Proof. intros a key m s v Hk Hs HM. exact (code_via a key _ m s v Hk (fun b Hb => ecb_answer a key b Hk Hb) Hs HM). Qed.
Print Assumptions C151_ecb.
(** The CFB and OFB modes: every block of the computation becomes a vector; one block of zeros is encrypted. *)
Theorem C151_vector : forall a mode key m s v, In mode [MODE_CFB; MODE_OFB] -> bytes_len 32 key -> 0 <= s <= Z.of_nat (bsize a) -> mac_of a key m s v ->
  v = firstn (Z.to_nat s) (mac (via_vector (bsize a) (answer a mode key)) (bsize a) m).
Proof. intros a mode key m s v HM Hk Hs HV. exact (code_via a key _ m s v Hk (fun b Hb => via_is a key mode b Hk HM Hb) Hs HV). Qed.
Print Assumptions C151_vector.
(** The CTR mode: the vector of zeros gives the first key of the MAC, and then every vector the code of a message of one block. *)
Theorem C151_ctr : forall a key h s, bytes_len 32 key -> bytes_len (half a) h -> 0 <= s <= Z.of_nat (bsize a) -> let n := bsize a in let zeros := repeat 0 n in
  mac_of a key (bxor (h ++ repeat 0 (n / 2)) (mac_key1 (fun _ => answer a MODE_CTR key (repeat 0 (n / 2)) zeros) n)) s (firstn (Z.to_nat s) (answer a MODE_CTR key h zeros)).
Proof. exact code_ctr. Qed.
Print Assumptions C151_ctr.
(** The claim: no one who only gets answers of another mode has a rule for the codes of messages. *)
Definition separate_modes : Prop := forall a mode, In mode [MODE_ECB; MODE_CFB; MODE_OFB] ->
  ~ exists rule : (bytes -> bytes -> bytes) -> bytes -> bytes, forall key m v, bytes_len 32 key -> mac_of a key m (Z.of_nat (bsize a)) v -> rule (answer a mode key) m = v.
Theorem C151_refuted : ~ separate_modes.
Proof.
  intros H. apply (H Kuz MODE_OFB (or_intror (or_intror (or_introl eq_refl)))). exists (fun enc m => firstn 16 (mac (via_vector 16 enc) 16 m)). intros key m v Hk HM.
  symmetry. exact (C151_vector Kuz MODE_OFB key m 16 v (or_intror (or_introl eq_refl)) Hk ltac:(cbn; lia) HM).
Qed.
Print Assumptions C151_refuted.
Example C151_example : let m := [1; 2; 3; 4; 5; 6; 7; 8; 9; 10; 11] in exists v, mac_of Mag magma_test_key m 8 v /\
  firstn 8 (mac (answer Mag MODE_ECB magma_test_key []) 8 m) = v /\ firstn 8 (mac (via_vector 8 (answer Mag MODE_CFB magma_test_key)) 8 m) = v /\ v <> firstn 8 m.
Proof.
  intros m. assert (Hk : bytes_len 32 magma_test_key) by concrete_bytes. assert (Hm : bytes_ok m) by (apply bytes_okb_ok; reflexivity). destruct (some_mac Mag _ m Hk Hm) as (v & Hv); [right; cbn; lia|]. exists v. split; [exact Hv|].
  assert (H1 := C151_ecb Mag magma_test_key m 8 v Hk ltac:(cbn; lia) Hv). assert (H2 := C151_vector Mag MODE_CFB magma_test_key m 8 v (or_introl eq_refl) Hk ltac:(cbn; lia) Hv). split; [symmetry; exact H1|]. split; [symmetry; exact H2|]. rewrite H1. vm_compute. discriminate.
Qed.

(** C152. With the key, a block can be put between any two parts so that the message has any code that is wanted; only one block does it. *)
Theorem C152_fill : forall a key u w v, bytes_len 32 key -> bytes_ok u -> (List.length u mod bsize a = 0)%nat -> bytes_ok w -> blk (bsize a) v -> let n := bsize a in
  let x := fill (answer a MODE_ECB key []) (undo a MODE_ECB key []) n v u w in
  blk n x /\ mac_of a key (u ++ x ++ w) (Z.of_nat n) v /\ (forall x', List.length x' = n -> mac_of a key (u ++ x' ++ w) (Z.of_nat n) v -> x' = x).
Proof. exact code_fill. Qed.
Print Assumptions C152_fill.
(** The claim: one who knows the key has no rule for a second message with the code of a given one. *)
Definition code_is_fingerprint : Prop := forall a,
  ~ exists other : bytes -> bytes -> bytes, forall key m v, bytes_len 32 key -> mac_of a key m (Z.of_nat (bsize a)) v -> other key m <> m /\ mac_of a key (other key m) (Z.of_nat (bsize a)) v.
Theorem C152_refuted : ~ code_is_fingerprint.
Proof.
  intros H. apply (H Mag). exists (fun key m => let u := repeat 0 (8 * List.length m) in u ++ fill (answer Mag MODE_ECB key []) (undo Mag MODE_ECB key []) 8 (mac (answer Mag MODE_ECB key []) 8 m) u []). intros key m v Hk HM.
  assert (EV : v = mac (answer Mag MODE_ECB key []) 8 m /\ blk 8 v).
  { pose proof (C151_ecb Mag key m 8 v Hk ltac:(cbn; lia) HM) as E. destruct (mac_of_is Mag key m 8 v Hk ltac:(cbn; lia) HM) as [Hm E']. pose proof (mac_is_block Mag key m Hk Hm) as HB. change (bsize Mag) with 8%nat in *. change (Z.to_nat 8) with 8%nat in *.
    rewrite firstn_all2 in E' by (rewrite (proj2 HB); lia). rewrite <- E' in HB. split; [|exact HB]. rewrite E. apply firstn_all2.
    destruct (spec_facts Mag key Hk) as (EB & _). rewrite (same_mac 8 (spec_E Mag key) (answer Mag MODE_ECB key []) (n_cases Mag) EB (fun x y => spec_inj Mag key x y Hk) (fun b Hb => ecb_answer Mag key b Hk Hb) m Hm), <- E'. rewrite (proj2 HB). lia. }
  destruct EV as [EV HB]. cbv zeta. rewrite <- EV. assert (HZ : forall k, bytes_ok (repeat 0 k)) by (intros k; apply MacFacts.zeros_ok).
  destruct (C152_fill Mag key (repeat 0 (8 * List.length m)) [] v Hk (HZ _)) as (HX & HC & _); [rewrite repeat_length; cbn [bsize]; rewrite Nat.mul_comm; apply Nat.mod_mul; lia | constructor | exact HB|]. cbv zeta in HC. rewrite app_nil_r in HC. split; [|exact HC].
  intros E. apply (f_equal (@List.length Z)) in E. rewrite app_length, repeat_length in E. destruct HX as [_ HX]. change (bsize Mag) with 8%nat in HX. rewrite HX in E. lia.
Qed.
Print Assumptions C152_refuted.
(** The message ["pay ", one block, " rubles"] with eight octets of 0xaa as its code. *)
Example C152_example : let u := [0x70; 0x61; 0x79; 0x20; 0x31; 0x30; 0x30; 0x20] in let w := [0x72; 0x75; 0x62; 0x6c; 0x65; 0x73] in exists x, List.length x = 8%nat /\ mac_of Mag magma_test_key (u ++ x ++ w) 8 (repeat 0xaa 8).
Proof.
  intros u w. assert (Hk : bytes_len 32 magma_test_key) by concrete_bytes. destruct (C152_fill Mag magma_test_key u w (repeat 0xaa 8) Hk) as (HX & HC & _); [apply bytes_okb_ok; reflexivity | reflexivity | apply bytes_okb_ok; reflexivity | split; [apply bytes_okb_ok; reflexivity | reflexivity]|].
  eexists. split; [exact (proj2 HX) | exact HC].
Qed.
