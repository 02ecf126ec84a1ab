(** * Property C153: vectors of several blocks *)
From Verif Require Import PyBase PyState Utils CipherObj Modes Mac SpecModes SpecStreams CipherLemmas CipherObjFacts ModeLemmas ModeSim ModeExamples MacFacts MacMore ModeCross ModeCross2 MacKnown ModeStreams.
Open Scope string_scope.
Open Scope list_scope.
Open Scope Z_scope.

(** C153. With a vector of z blocks, the blocks i, i + z, i + 2 z, ... are encrypted (decrypted) as by an object with the i-th block of the vector that gets only these. *)
Theorem C153_streams : forall a mode key iv m i, In mode [MODE_CFB; MODE_OFB] -> bytes_len 32 key -> iv_blocks a iv -> bytes_ok m -> let n := bsize a in let R := blocks n iv in let z := List.length R in (i < z)%nat ->
  every z i (blocks n (answer a mode key iv m)) = blocks n (answer a mode key (nth i R []) (concat (every z i (blocks n m)))) /\
  every z i (blocks n (undo a mode key iv m)) = blocks n (undo a mode key (nth i R []) (concat (every z i (blocks n m)))).
Proof. intros a mode key iv m i HM Hk Hi Hm n R z Hz. split; [now apply streams_enc | now apply streams_dec]. Qed.
Print Assumptions C153_streams.
Theorem C153_streams_cbc : forall a key iv ps i, bytes_len 32 key -> iv_blocks a iv -> Forall (blk (bsize a)) ps -> let n := bsize a in let R := blocks n iv in let z := List.length R in (i < z)%nat ->
  ((i < List.length ps)%nat -> every z i (blocks n (answer a MODE_CBC key iv (concat ps))) = blocks n (answer a MODE_CBC key (nth i R []) (concat (every z i ps)))) /\
  every z i (blocks n (undo a MODE_CBC key iv (concat ps))) = blocks n (undo a MODE_CBC key (nth i R []) (concat (every z i ps))).
Proof. exact streams_cbc. Qed.
Print Assumptions C153_streams_cbc.
(** Of two messages that differ in one block, the ciphertexts differ exactly in this block and every z-th after it. *)
Theorem C153_influence : forall a mode key iv u x x' w k, In mode [MODE_CBC; MODE_CFB] -> bytes_len 32 key -> iv_blocks a iv -> let n := bsize a in let z := List.length (blocks n iv) in
  Forall (blk n) u -> blk n x -> blk n x' -> Forall (blk n) w -> x <> x' -> (k < List.length (u ++ x :: w))%nat ->
  (nth k (blocks n (answer a mode key iv (concat (u ++ x :: w)))) [] = nth k (blocks n (answer a mode key iv (concat (u ++ x' :: w)))) [] <-> ~ (List.length u <= k /\ (k - List.length u) mod z = 0)%nat).
Proof. exact influence. Qed.
Print Assumptions C153_influence.
(** The claim: a changed block shows in every later block of the ciphertext. *)
Definition all_later_blocks : Prop := forall a mode key iv u x x' w k, In mode [MODE_CBC; MODE_CFB] -> bytes_len 32 key -> iv_blocks a iv -> let n := bsize a in
  Forall (blk n) u -> blk n x -> blk n x' -> Forall (blk n) w -> x <> x' -> (List.length u <= k < List.length (u ++ x :: w))%nat ->
  nth k (blocks n (answer a mode key iv (concat (u ++ x :: w)))) [] <> nth k (blocks n (answer a mode key iv (concat (u ++ x' :: w)))) [].
Lemma blk_okb n l : bytes_okb l && Nat.eqb (List.length l) n = true -> blk n l.
Proof. intros H. apply andb_true_iff in H as [H1 H2]. apply Nat.eqb_eq in H2. split; [now apply bytes_okb_ok | exact H2]. Qed.
Definition long_vector : bytes := [0x12; 0x34; 0x56; 0x78; 0x90; 0xab; 0xcd; 0xef; 0x23; 0x45; 0x67; 0x89; 0x0a; 0xbc; 0xde; 0xf1].
Lemma long_vector_ok : iv_blocks Mag long_vector.
Proof. split; [apply bytes_okb_ok; reflexivity|]. split; [discriminate | reflexivity]. Qed.
Theorem C153_refuted : ~ all_later_blocks.
Proof.
  intros H. assert (Hk : bytes_len 32 magma_test_key) by concrete_bytes. assert (H0 : blk (bsize Mag) (repeat 0 8)) by (apply blk_okb; reflexivity). assert (H1 : blk (bsize Mag) (repeat 1 8)) by (apply blk_okb; reflexivity). assert (HW : Forall (blk (bsize Mag)) [repeat 0 8]) by (constructor; [exact H0 | constructor]).
  refine (H Mag MODE_CBC magma_test_key long_vector [] (repeat 0 8) (repeat 1 8) [repeat 0 8] 1%nat (or_introl eq_refl) Hk long_vector_ok (Forall_nil _) H0 H1 HW ltac:(discriminate) ltac:(cbn; lia) _).
  apply (proj2 (C153_influence Mag MODE_CBC magma_test_key long_vector [] (repeat 0 8) (repeat 1 8) [repeat 0 8] 1%nat (or_introl eq_refl) Hk long_vector_ok (Forall_nil _) H0 H1 HW ltac:(discriminate) ltac:(cbn; lia))). vm_compute. intros [_ E]. discriminate E.
Qed.
Print Assumptions C153_refuted.
(** Magma, a vector of two blocks, twenty octets: three pieces, the first and the third form one stream. *)
Example C153_example : let m := [1; 2; 3; 4; 5; 6; 7; 8; 9; 10; 11; 12; 13; 14; 15; 16; 17; 18; 19; 20] in let c := answer Mag MODE_CFB magma_test_key long_vector m in
  every 2 0 (blocks 8 m) = [[1; 2; 3; 4; 5; 6; 7; 8]; [17; 18; 19; 20]] /\ every 2 0 (blocks 8 c) = blocks 8 (answer Mag MODE_CFB magma_test_key (firstn 8 long_vector) [1; 2; 3; 4; 5; 6; 7; 8; 17; 18; 19; 20]) /\ every 2 0 (blocks 8 c) <> every 2 0 (blocks 8 m).
Proof. cbv zeta. split; [reflexivity|]. split; vm_compute; [reflexivity | discriminate]. Qed.
