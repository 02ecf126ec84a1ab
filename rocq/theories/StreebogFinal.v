(** * The hash object after [hash_final] *)
From Verif Require Import PyBase PyState Utils Streebog SpecKuznechik SpecStreebog SpecHashHist SpecHashFinal StreebogFacts StreebogFacts2 StreebogObj StreebogLemmas StreebogProps.
Open Scope string_scope.
Open Scope list_scope.
Open Scope Z_scope.

Lemma pad_length b : (List.length b < 64)%nat -> List.length (pad b) = 64%nat.
Proof. intros H. unfold pad. rewrite !app_length, repeat_length. cbn [List.length]. lia. Qed.

Lemma finished_final s b : (List.length b < 64)%nat -> finished s b = final_state s b.
Proof.
  intros H. unfold final_state. rewrite <- (finished_stage3 s b H). unfold finished. cbn [st_h]. rewrite closing_pad by exact H.
  pose proof (pad_length b H) as HL. rewrite (firstn_all2 (pad b)) by lia. unfold count_block, len. rewrite (Z.mod_small _ 65536) by lia. reflexivity.
Qed.

Lemma finished_again s b : List.length b = 64%nat -> st_h (finished s b) = close (absorb s b).
Proof.
  intros H. unfold finished, close, absorb. cbn [st_h st_N st_Sigma]. rewrite closing_long by lia.
  rewrite firstn_app, H, firstn_all2 by lia. cbn [Nat.sub firstn]. rewrite app_nil_r. unfold count_block, len. rewrite H. reflexivity.
Qed.

Lemma second_final v m o o1 : bytes_ok m -> hash_new (VStr (vname v)) (Some (VBytes m)) = Ok o -> hash_final o = (Ok tt, o1) ->
  hash_digest o1 = (Ok (streebog_twice v m), o1) /\ exists o2, hash_final o1 = (Ok tt, o2) /\ get_hash o2 = streebog_twice v m.
Proof.
  intros Hm E E1. destruct (new_holds v (Some (VBytes m)) Hm) as (o' & E' & Ho). rewrite E in E'. injection E' as <-.
  set (n := (List.length m / 64)%nat) in *. set (s := fst (stage2 n (stage1 v) m)) in *. set (b := pending [] m) in *.
  pose proof (Nat.div_mod_eq (List.length m) 64) as HDM. pose proof (Nat.mod_upper_bound (List.length m) 64 ltac:(lia)) as HM. fold n in HDM.
  assert (RB : b = skipn (64 * n) m).
  { unfold b, pending. cbn [app]. fold n. destruct (Nat.eqb_spec (List.length m mod 64) 0) as [E0|_]; [|reflexivity]. symmetry. apply skipn_all2. lia. }
  assert (EB : stage2 n (stage1 v) m = (s, b)) by (rewrite RB, <- (stage2_rest n (stage1 v) m); apply surjective_pairing).
  assert (LB : (List.length b < 64)%nat) by (rewrite RB, skipn_length; lia).
  destruct (final_holds v s b o Ho) as (o1' & E1' & Ho1). rewrite E1 in E1'. injection E1' as <-.
  assert (HD : hash_digest o1 = (Ok (streebog_twice v m), o1)).
  { rewrite (digest_holds v _ _ o1 Ho1). unfold streebog_twice. fold n. rewrite EB, (finished_final s b LB), closing_pad by exact LB.
    rewrite finished_again by now apply pad_length. reflexivity. }
  split; [exact HD|]. destruct (final_holds v _ _ o1 Ho1) as (o2 & E2 & _). exists o2. split; [exact E2|].
  unfold hash_digest in HD. rewrite E2 in HD. cbn [bind] in HD. congruence.
Qed.
