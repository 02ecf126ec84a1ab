(** * Property C165: an object is cleared while a thread encrypts with it *)
From Verif Require Import PyBase PyFacts PyState Utils UtilsFacts CipherObj Modes Mac SpecModes CipherLemmas CipherObjFacts ModeSpecFacts ModeFacts ModeLemmas ModeSem ModeMore ModeSim ModeExamples ModeProps MacMore ModeCross ModeCross2 MacKnown Threads ThreadFacts ThreadsModes ThreadModeFacts PropThreads PropThreads7.
From Verif Require Import ThreadsClear ThreadClearFacts.
Open Scope string_scope.
Open Scope list_scope.
Open Scope Z_scope.

(** C165. One thread encrypts a message in CBC or CFB, another clears the object (or makes a call that is refused) when part of the message is done. The
    first call ends as if nothing had happened. The rest of its message is decrypted by anyone who has the ciphertext: with an object made with any key and the last
    block of the first part as vector, and cleared. *)
Theorem C165_tail : forall f a key iv m1 m2 o q, bytes_len 32 key -> blk (bsize a) iv -> in_blocks a m1 -> in_blocks a m2 -> new (alg a) (VBytes key) (VInt (code f)) (with_iv iv) = Ok (NewMode o) -> clearing q ->
  exists sched c1 c2 q' r o', go sched [enc_thread f (m1 ++ m2); q] o = ([Ret (c1 ++ c2); q'], o') /\ ended q' = Some r /\ result (encrypt (VBytes m1) o) = Ok c1 /\
    forall key' o3, bytes_len 32 key' -> new (alg a) (VBytes key') (VInt (code f)) (with_iv (skipn (List.length c1 - bsize a) c1)) = Ok (NewMode o3) -> result (decrypt (VBytes c2) (snd (clear o3))) = Ok m2.
Proof.
  intros f a key iv m1 m2 o q Hk Hv Hm1 Hm2 HN HQ. destruct (fresh_chained f a key iv o Hk Hv HN) as (HM & Hb & HI & HC & HP). assert (Hc := proj1 HM).
  destruct (blocks_of f a key iv o Hk Hv HN m1 Hm1) as (E1 & F1 & B1). destruct (blocks_of f a key iv o Hk Hv HN m2 Hm2) as (E2 & F2 & B2). set (c := o_cipher o) in *. set (bl1 := blocks (nbs c) m1) in *. set (bl2 := blocks (nbs c) m2) in *.
  assert (Hm : in_blocks a (m1 ++ m2)). { destruct Hm1 as (X1 & X2 & X3), Hm2 as (Y1 & _ & Y3). split; [apply bytes_ok_app; now split|]. split; [destruct m1; [contradiction | discriminate]|]. rewrite app_length. apply Nat.mod_divide in X3, Y3; try (destruct a; cbn; lia). apply Nat.mod_divide; [destruct a; cbn; lia|]. now apply Nat.divide_add_r. }
  destruct (enc_is f a key iv o Hk Hv HN _ Hm) as (turn & check & _ & HT & HK & ET).
  destruct (clear_is o Hc) as (c' & EC & Hc' & HB & HE). fold c in HB, HE.
  assert (HCw : forall w, clear (set_iv o w) = (Ok tt, set_cipher (set_iv o w) c')). { intros w. unfold clear, bindM, getM, liftM, putM in EC |- *. cbn [o_cipher set_iv]. destruct (co_clear (o_cipher o)) as [c0|e]; [|discriminate EC]. injection EC as EC. now rewrite EC. }
  assert (HKc : check o = (Ok (concat (bl1 ++ bl2)), o)) by (rewrite concat_app, <- E1, <- E2; exact HK).
  destruct (cleared_between f o iv bl1 bl2 q check c' Hc Hb HI F1 F2 HKc HQ Hc' HB HCw) as (sched & q' & r & o' & G & HR). fold c in G.
  set (c1 := concat (own (e_of f c) iv bl1)) in *. set (w := later (e_of f c) iv bl1) in *. set (c2 := concat (own (e_of f c') w bl2)) in *.
  exists sched, c1, c2, q', r, o'. split; [rewrite HT, ET; exact G|]. split; [exact HR|]. split; [exact (enc_alone f a key iv o Hk Hv HN m1 Hm1)|].
  assert (OK1 : Forall (block c) (own (e_of f c) iv bl1)) by (apply (own_ok (block c) (e_of f c) (d_of f c) (e_next f c) (d_next f c) (e_ok f c Hc) (d_ok f c Hc)); auto).
  assert (NE : bl1 <> []) by (intros E; rewrite E in E1; destruct Hm1 as (_ & X & _); contradiction).
  assert (HW : block c w) by (unfold w; rewrite later_last by exact NE; destruct (exists_last NE) as (l & x & EL); assert (HL : own (e_of f c) iv bl1 <> []) by (destruct bl1; [contradiction | discriminate]); destruct (exists_last HL) as (l' & x' & EL'); rewrite EL', last_last; rewrite EL' in OK1; apply Forall_app in OK1 as [_ OK1]; now apply Forall_cons_iff in OK1 as [OK1 _]).
  assert (ES : skipn (List.length c1 - bsize a) c1 = w).
  { unfold w. rewrite later_last by exact NE. unfold c1. assert (HL : own (e_of f c) iv bl1 <> []) by (destruct bl1; [contradiction | discriminate]). destruct (exists_last HL) as (l' & x' & EL'). rewrite EL' in OK1 |- *. rewrite last_last, concat_app. cbn [concat]. rewrite app_nil_r, app_length. apply Forall_app in OK1 as [_ OK1]. apply Forall_cons_iff in OK1 as [OK1 _].
    pose proof (block_length _ _ OK1) as LX. rewrite (made_nbs _ _ _ HM) in LX. rewrite LX. replace (List.length (concat l') + bsize a - bsize a)%nat with (List.length (concat l')) by lia. rewrite skipn_app, skipn_all, Nat.sub_diag. reflexivity. }
  rewrite ES. intros key' o3 Hk' HN'. assert (Hw : blk (bsize a) w) by (pose proof (block_length _ _ HW) as LW; rewrite (made_nbs _ _ _ HM) in LW; split; [apply HW | exact LW]).
  destruct (fresh_chained f a key' w o3 Hk' Hw HN') as (HM3 & Hb3 & HI3 & HC3 & _). destruct (clear_is o3 (proj1 HM3)) as (c3 & EC3 & Hc3 & HB3 & HE3). rewrite EC3. cbn [snd].
  assert (EA : co_alg (o_cipher o3) = co_alg c) by (rewrite (proj1 (proj2 HM3)), (proj1 (proj2 HM)); reflexivity).
  assert (HB13 : bs c' = bs c3) by (rewrite HB, HB3, !bs_alg, EA; reflexivity).
  replace (result (decrypt (VBytes c2) (set_cipher o3 c3))) with (fst (run (dec_thread f c2) (set_cipher o3 c3))) by (unfold result, decrypt, bindM, getM; cbn [o_class set_cipher]; rewrite HC3; unfold dec_thread, class_of; destruct f; [now rewrite cbc_decrypt_alone | now rewrite cfb_decrypt_alone]).
  assert (F2' : Forall (block c') bl2) by (unfold block in *; now rewrite HB). assert (HW' : block c' w) by (unfold block in *; now rewrite HB).
  assert (OK2 : Forall (block c3) (own (e_of f c') w bl2)). { assert (X : Forall (block c') (own (e_of f c') w bl2)) by (apply (own_ok (block c') (e_of f c') (d_of f c') (e_next f c') (d_next f c') (e_ok f c' Hc') (d_ok f c' Hc')); auto). unfold block in *. now rewrite <- HB13. }
  destruct (blocks_back c3 _ OK2) as [BB W]. fold c2 in BB, W.
  rewrite dec_thread_is. rewrite (call_alone (set_cipher o3 c3) (d_of f c3) (dec_turn f) (fin_of f) w c2); [ | exact (dec_turn_good f (set_cipher o3 c3) Hc3) | unfold block in *; cbn [o_cipher set_cipher]; now rewrite HB3 | exact HI3 | exact W | intros r0; apply fin_whole; apply W | reflexivity].
  cbn [o_cipher set_cipher]. rewrite BB. f_equal. transitivity (concat bl2); [f_equal | symmetry; exact E2]. apply own_back; try assumption. intros b Hb'. destruct (HE b Hb') as [-> _]. symmetry. rewrite <- EA. apply HE3. unfold block in *. now rewrite <- HB13.
Qed.
Print Assumptions C165_tail.

(** The claim: the message is encrypted before or after the object is cleared. *)
Definition clearing_is_serial (f : chained) : Prop := forall a key iv m o sched r o', bytes_len 32 key -> blk (bsize a) iv -> in_blocks a m -> new (alg a) (VBytes key) (VInt (code f)) (with_iv iv) = Ok (NewMode o) ->
  go sched [enc_thread f m; p_clear] o = ([Ret r; Ret []], o') -> result (encrypt (VBytes m) o) = Ok r \/ result (encrypt (VBytes m) (snd (clear o))) = Ok r.
Definition two_blocks : bytes := [1; 2; 3; 4; 5; 6; 7; 8; 9; 10; 11; 12; 13; 14; 15; 16].
Definition clear_after_one (f : chained) : list nat := repeat 0%nat (match f with Cbc => 5 | Cfb => 4 end) ++ [1%nat] ++ repeat 0%nat 3.
Definition some_vector : bytes := [0x12; 0x34; 0x56; 0x78; 0x90; 0xab; 0xcd; 0xef].
Definition clear_object (f : chained) : option mode_obj := match new (alg Mag) (VBytes magma_test_key) (VInt (code f)) (with_iv some_vector) with Ok (NewMode o) => Some o | _ => None end.
(** Magma, two blocks: the first part is a block under the key; with another key and cleared the second is decrypted. *)
Definition read_tail (f : chained) : option (res bytes) :=
  match clear_object f with
  | Some o => match fst (go (clear_after_one f) [enc_thread f two_blocks; p_clear] o) with
      | [Ret c; Ret _] => match new (alg Mag) (VBytes (repeat 7 32)) (VInt (code f)) (with_iv (firstn 8 c)) with Ok (NewMode o3) => Some (result (decrypt (VBytes (skipn 8 c)) (snd (clear o3)))) | _ => None end
      | _ => None end
  | None => None
  end.
Theorem C165_clear_refuted : forall f, ~ clearing_is_serial f.
Proof.
  intros f H. destruct (clear_object f) as [o|] eqn:EO; [|destruct f; vm_compute in EO; discriminate EO].
  assert (HN : new (alg Mag) (VBytes magma_test_key) (VInt (code f)) (with_iv some_vector) = Ok (NewMode o)) by (unfold clear_object in EO; destruct (new (alg Mag) (VBytes magma_test_key) (VInt (code f)) (with_iv some_vector)) as [[o0|o0]|e]; try discriminate EO; now injection EO as ->).
  assert (Hk : bytes_len 32 magma_test_key) by (split; [reflexivity | now apply bytes_okb_ok]). assert (Hv : blk (bsize Mag) some_vector) by (split; [now apply bytes_okb_ok | reflexivity]). assert (Hm : in_blocks Mag two_blocks) by (split; [now apply bytes_okb_ok|]; split; [discriminate | reflexivity]).
  destruct (go (clear_after_one f) [enc_thread f two_blocks; p_clear] o) as [pool o'] eqn:G.
  assert (P : exists r, pool = [Ret r; Ret []] /\ Ok r <> result (encrypt (VBytes two_blocks) o) /\ Ok r <> result (encrypt (VBytes two_blocks) (snd (clear o)))).
  { replace pool with (fst (go (clear_after_one f) [enc_thread f two_blocks; p_clear] o)) by now rewrite G. clear - EO. destruct f; vm_compute in EO; injection EO as <-; eexists; (split; [vm_compute; reflexivity|]); split; vm_compute; discriminate. }
  destruct P as (r & -> & N1 & N2). destruct (H Mag magma_test_key some_vector two_blocks o _ r o' Hk Hv Hm HN G) as [E|E]; [now apply N1 | now apply N2].
Qed.
Print Assumptions C165_clear_refuted.
Example C165_example : in_blocks Mag (firstn 8 two_blocks) /\ in_blocks Mag (skipn 8 two_blocks) /\ clearing p_clear /\ clearing (p_cbc_encrypt VNone) /\ forall f, read_tail f = Some (Ok (skipn 8 two_blocks)).
Proof.
  split; [split; [now apply bytes_okb_ok|]; split; [discriminate | reflexivity]|]. split; [split; [now apply bytes_okb_ok|]; split; [discriminate | reflexivity]|]. split; [constructor|]. split; [now constructor|]. intros f. destruct f; vm_compute; reflexivity.
Qed.
