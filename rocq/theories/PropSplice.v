(** * Property C154: pieces of ciphertexts *)
From Verif Require Import PyBase PyFacts PyState Utils UtilsFacts UtilsLemmas CipherObj Modes SpecModes CipherLemmas CipherObjFacts ModeLemmas ModeSim ModeExamples MacFacts MacMore ModeCross ModeCross2 MacKnown ModeStreams ModeSplice.
Open Scope string_scope.
Open Scope list_scope.
Open Scope Z_scope.

(** C154. The rest of a ciphertext after whole blocks [u] is read with the last octets of vector and [u] as vector. *)
Theorem C154_rest : forall a mode key iv u c, In mode [MODE_CBC; MODE_CFB] -> bytes_len 32 key -> iv_blocks a iv -> bytes_ok u -> (List.length u mod bsize a = 0)%nat -> bytes_ok c -> (mode = MODE_CFB \/ List.length c mod bsize a = 0)%nat ->
  undo a mode key iv (u ++ c) = undo a mode key iv u ++ undo a mode key (skipn (List.length u) (iv ++ u)) c.
Proof.
  intros a mode key iv u c HM Hk Hi Hu HU Hc HF. apply parts; try assumption. cbn [In] in HM. destruct HM as [<-|[<-|[]]]; [destruct HF as [HF|HF]; [discriminate HF | right; now split] | now left].
Qed.
Print Assumptions C154_rest.
(** What is read of [c], but for as many octets as the vector has, depends neither on its place nor on the vector nor on what stands before it. *)
Theorem C154_moved : forall a mode key iv iv' u u' c, In mode [MODE_CBC; MODE_CFB] -> bytes_len 32 key -> iv_blocks a iv -> iv_blocks a iv' -> List.length iv = List.length iv' ->
  bytes_ok u -> (List.length u mod bsize a = 0)%nat -> bytes_ok u' -> (List.length u' mod bsize a = 0)%nat -> bytes_ok c -> (mode = MODE_CFB \/ List.length c mod bsize a = 0)%nat ->
  skipn (List.length u + List.length iv) (undo a mode key iv (u ++ c)) = skipn (List.length u' + List.length iv') (undo a mode key iv' (u' ++ c)).
Proof.
  intros a mode key iv iv' u u' c HM Hk Hi Hi' HL Hu HU Hu' HU' Hc HF. apply moved; try assumption. cbn [In] in HM. destruct HM as [<-|[<-|[]]]; [destruct HF as [HF|HF]; [discriminate HF | right; now split] | now left].
Qed.
Print Assumptions C154_moved.
(** The claim: no rule makes of two ciphertexts (three blocks, vectors of one block) one that is read as the beginning of the first message and the end of the second. *)
Definition bound_to_place : Prop := forall a mode, In mode [MODE_CBC; MODE_CFB] -> let n := bsize a in
  ~ exists splice : bytes -> bytes -> bytes, forall key iv iv' c c', bytes_len 32 key -> blk n iv -> blk n iv' -> blk (3 * n) c -> blk (3 * n) c' ->
      firstn n (undo a mode key iv (splice c c')) = firstn n (undo a mode key iv c) /\ skipn (2 * n) (undo a mode key iv (splice c c')) = skipn (2 * n) (undo a mode key iv' c').
Lemma vector_of_block a iv : blk (bsize a) iv -> iv_blocks a iv.
Proof.
  intros [H1 H2]. assert (Hn : (0 < bsize a)%nat) by (destruct a; cbn; lia). split; [exact H1|]. split; [intros ->; cbn in H2; lia|]. unfold len. rewrite H2. apply Z.mod_same. lia.
Qed.
Lemma one_block_read a mode key iv b : In mode [MODE_CBC; MODE_CFB] -> bytes_len 32 key -> blk (bsize a) iv -> blk (bsize a) b -> List.length (undo a mode key iv b) = bsize a.
Proof.
  intros HM Hk Hi Hb. assert (Hn : (0 < bsize a)%nat) by (destruct a; cbn; lia). destruct (undo_run a mode key Hk HM) as (F & HFp & HA). rewrite HA; [|now apply vector_of_block | apply Hb | cbn [In] in HM; destruct HM as [<-|[<-|[]]]; [right; split; [reflexivity | rewrite (proj2 Hb); apply Nat.mod_same; lia] | now left]].
  rewrite (block_whole _ iv Hn Hi), (block_whole _ b Hn Hb). cbn [run hd concat]. rewrite app_nil_r. destruct (HFp b iv (proj1 Hb) ltac:(destruct Hb; lia) (fun _ => proj2 Hb) Hi) as [_ ->]. apply Hb.
Qed.
Theorem C154_refuted : ~ bound_to_place.
Proof.
  intros H. apply (H Kuz MODE_CBC (or_introl eq_refl)). clear H. set (n := bsize Kuz). exists (fun c c' => firstn n c ++ skipn n c'). intros key iv iv' c c' Hk Hi Hi' [Hc HLc] [Hc' HLc'].
  assert (HM : In MODE_CBC [MODE_CBC; MODE_CFB]) by now left. assert (En : n = 16%nat) by reflexivity. assert (Vi := vector_of_block Kuz iv Hi). assert (Vi' := vector_of_block Kuz iv' Hi').
  assert (B1 : blk n (firstn n c)) by (split; [now apply bytes_ok_firstn | rewrite firstn_length; lia]). assert (B2 : blk n (firstn n c')) by (split; [now apply bytes_ok_firstn | rewrite firstn_length; lia]).
  assert (S1 : (List.length (skipn n c) mod n = 0)%nat) by (rewrite skipn_length, HLc, En; reflexivity). assert (S2 : (List.length (skipn n c') mod n = 0)%nat) by (rewrite skipn_length, HLc', En; reflexivity).
  assert (M1 : (List.length (firstn n c) mod n = 0)%nat) by (rewrite (proj2 B1); apply Nat.mod_same; lia). assert (M2 : (List.length (firstn n c') mod n = 0)%nat) by (rewrite (proj2 B2); apply Nat.mod_same; lia). split.
  - rewrite <- (firstn_skipn n c) at 2. rewrite (C154_rest Kuz MODE_CBC key iv (firstn n c) (skipn n c')), (C154_rest Kuz MODE_CBC key iv (firstn n c) (skipn n c)); try assumption; try (now right); try apply B1; try now apply bytes_ok_skipn.
    assert (HL := one_block_read Kuz MODE_CBC key iv (firstn n c) HM Hk Hi B1). fold n in HL. rewrite !firstn_app, HL, Nat.sub_diag. reflexivity.
  - assert (E := C154_moved Kuz MODE_CBC key iv iv' (firstn n c) (firstn n c') (skipn n c') HM Hk Vi Vi' ltac:(rewrite (proj2 Hi), (proj2 Hi'); reflexivity) (proj1 B1) M1 (proj1 B2) M2 (bytes_ok_skipn n c' Hc') (or_intror S2)).
    rewrite (proj2 B1), (proj2 B2), (proj2 Hi), (proj2 Hi'), firstn_skipn in E. fold n in E. replace (2 * n)%nat with (n + n)%nat by lia. exact E.
Qed.
Print Assumptions C154_refuted.
(** Magma, CFB: twelve octets after two different blocks. The first block of them is read differently, the rest in the same way. *)
Example C154_example : let iv := [0x12; 0x34; 0x56; 0x78; 0x90; 0xab; 0xcd; 0xef] in let c := [1; 2; 3; 4; 5; 6; 7; 8; 9; 10; 11; 12] in
  let x := undo Mag MODE_CFB magma_test_key iv (repeat 0 8 ++ c) in let y := undo Mag MODE_CFB magma_test_key iv (repeat 1 8 ++ c) in
  skipn 16 x = skipn 16 y /\ List.length (skipn 16 x) = 4%nat /\ skipn 8 x <> skipn 8 y.
Proof. cbv zeta. split; [vm_compute; reflexivity|]. split; [vm_compute; reflexivity | vm_compute; discriminate]. Qed.
