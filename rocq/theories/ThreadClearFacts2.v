(** * A thread that clears an object of the mode CTR: lemmas *)
From Verif Require Import PyBase PyFacts PyState Utils UtilsFacts CipherObj Modes Mac SpecModes CipherLemmas CipherObjFacts ModeSpecFacts ModeFacts CtrFacts ModeLemmas ModeSem ModeMore ModeSim ModeProps MacMore ModeCross ModeCross2 Threads ThreadFacts ThreadRandomFacts ThreadMacFacts ThreadsModes ThreadModeFacts.
From Verif Require Import ThreadsClear ThreadClearFacts.
Open Scope string_scope.
Open Scope list_scope.
Open Scope Z_scope.

Lemma ctr_turn_alone o c d x r j : co_ok (o_cipher o) -> block (o_cipher o) c -> Threads.run (ctr_turn (bs (o_cipher o)) d x r) (set_counter o (ctr_next c j)) = (Ok (r ++ bxor (_get_block (bs (o_cipher o)) d x) (oE (o_cipher o) (ctr_next c j))), set_counter o (ctr_next c (Datatypes.S j))).
Proof.
  intros Hc Hb. unfold ctr_turn. rewrite run_bind, run_act, (ctr_gamma_ok o _ Hc (ctr_next_block _ _ j Hb)), run_bind, run_act, (ctr_increment_ok o c j Hb). cbn [Threads.run]. rewrite bxor_eq. now rewrite Nat.add_1_r.
Qed.
Lemma ctr_reach o c (q : proc mode_obj bytes) (H : bytes -> proc mode_obj bytes) d xs ys : co_ok (o_cipher o) -> block (o_cipher o) c -> forall j r,
  exists n, go (repeat 0%nat n) [bindP (forP (xs ++ ys) r (ctr_turn (bs (o_cipher o)) d)) H; q] (set_counter o (ctr_next c j)) =
    ([bindP (forP ys (r ++ concat (ctr_run (oE (o_cipher o)) c j (map (_get_block (bs (o_cipher o)) d) xs))) (ctr_turn (bs (o_cipher o)) d)) H; q], set_counter o (ctr_next c (j + List.length xs))).
Proof.
  intros Hc Hb. induction xs as [|x xs IH]; intros j r.
  - exists O. cbn [app map repeat go List.length]. rewrite Nat.add_0_r. change (concat (ctr_run (oE (o_cipher o)) c j [])) with (@nil Z). now rewrite app_nil_r.
  - cbn [app forP]. destruct (bind_first2 (fun acc => forP (xs ++ ys) acc (ctr_turn (bs (o_cipher o)) d)) H q _ _ _ _ (ctr_turn_alone o c d x r j Hc Hb)) as [n N].
    destruct (IH (Datatypes.S j) (r ++ bxor (_get_block (bs (o_cipher o)) d x) (oE (o_cipher o) (ctr_next c j)))) as [k K]. exists (n + k)%nat. rewrite repeat_app, go_app, N, K. cbn [map List.length]. rewrite ctr_run_cons. cbn [concat]. rewrite <- app_assoc. now replace (j + Datatypes.S (List.length xs))%nat with (Datatypes.S j + List.length xs)%nat by lia.
Qed.
Lemma ctr_alone_loop o c d xs : co_ok (o_cipher o) -> block (o_cipher o) c -> forall j r,
  Threads.run (forP xs r (ctr_turn (bs (o_cipher o)) d)) (set_counter o (ctr_next c j)) = (Ok (r ++ concat (ctr_run (oE (o_cipher o)) c j (map (_get_block (bs (o_cipher o)) d) xs))), set_counter o (ctr_next c (j + List.length xs))).
Proof.
  intros Hc Hb. induction xs as [|x xs IH]; intros j r.
  - cbn [forP Threads.run map List.length]. rewrite Nat.add_0_r. change (concat (ctr_run (oE (o_cipher o)) c j [])) with (@nil Z). now rewrite app_nil_r.
  - cbn [forP]. rewrite run_bind, (ctr_turn_alone o c d x r j Hc Hb), IH. cbn [map List.length]. rewrite ctr_run_cons. cbn [concat]. rewrite <- app_assoc. now replace (j + Datatypes.S (List.length xs))%nat with (Datatypes.S j + List.length xs)%nat by lia.
Qed.
(** A thread that clears an object of the mode CTR. *)
Definition ctr_clearing (q : proc mode_obj bytes) : Prop := q = p_clear \/ exists d, match d with VBytes _ => False | _ => True end /\ q = p_ctr_encrypt d.
Lemma ctr_clearing_acts q : ctr_clearing q -> forall p s c', clear s = (Ok tt, set_cipher s c') -> exists q' r, go [1%nat] [p; q] s = ([p; q'], set_cipher s c') /\ ended q' = Some r.
Proof.
  intros [->|(d & Hd & ->)] p s c' E; (try destruct d as [b|t|z|]; try contradiction); cbn [go nth_error p_clear p_ctr_encrypt bindP act]; unfold check_plaintext, bindM; rewrite E; cbn; eexists; eexists; (split; [reflexivity | reflexivity]).
Qed.
Definition ctr_rest (n : Z) (d result : bytes) : proc mode_obj bytes :=
  if negb (len d mod n =? 0) then
    let& gamma := act ctr_gamma in
    let& _ := act ctr_increment in
    Ret (result ++ add_xor (py_from d (n * _get_num_block n d)) gamma)
  else Ret result.
Lemma ctr_between o c bl1 bl2 t q c' : co_ok (o_cipher o) -> block (o_cipher o) c -> o_counter o = c -> cut (bs (o_cipher o)) (concat bl1 ++ concat bl2 ++ t) (bl1 ++ bl2) t ->
  ctr_clearing q -> co_ok c' -> bs c' = bs (o_cipher o) -> (forall w, clear (set_counter o w) = (Ok tt, set_cipher (set_counter o w) c')) ->
  exists sched q' r o', go sched [p_ctr_encrypt (VBytes (concat bl1 ++ concat bl2 ++ t)); q] o =
    ([Ret (concat (ctr_run (oE (o_cipher o)) c 0 bl1) ++ concat (ctr_run (oE c') c (List.length bl1) (bl2 ++ opt_block t))); q'], o') /\ ended q' = Some r.
Proof.
  intros Hc Hb Ec Hcut HQ Hc' HB HC. set (d := concat bl1 ++ concat bl2 ++ t) in *. pose proof (bs_pos (o_cipher o)) as Hn. pose proof (get_blocks _ _ _ _ Hn Hcut) as M1.
  assert (Hne : c <> []) by (intros ->; destruct Hb as [Hb _]; cbn in Hb; lia).
  assert (Eo : o = set_counter o (ctr_next c 0)) by (rewrite (ctr_next_0 c Hne (proj2 Hb)), <- Ec; symmetry; apply set_counter_same).
  set (n := bs (o_cipher o)) in *. set (R := py_range 0 (_get_num_block n d) 1) in *. set (k := List.length bl1). set (xs := firstn k R). set (ys := skipn k R). assert (HR : R = xs ++ ys) by (symmetry; apply firstn_skipn).
  assert (MX : map (_get_block n d) xs = bl1) by (unfold xs; rewrite <- firstn_map, M1; unfold k; rewrite firstn_app, Nat.sub_diag, firstn_all, firstn_O; apply app_nil_r).
  assert (MY : map (_get_block n d) ys = bl2) by (unfold ys; rewrite <- skipn_map, M1; unfold k; rewrite skipn_app, Nat.sub_diag, skipn_all; reflexivity).
  assert (LX : List.length xs = k) by (unfold k; rewrite <- MX; symmetry; apply map_length). assert (LY : List.length ys = List.length bl2) by (rewrite <- MY; symmetry; apply map_length).
  destruct (ctr_reach o c q (ctr_rest n d) d xs ys Hc Hb 0 []) as [n1 N]. fold n in N. rewrite MX, LX in N. cbn [app Nat.add] in N.
  set (o2 := set_cipher o c'). assert (Hb' : block c' c) by (unfold block in *; now rewrite HB).
  destruct (ctr_clearing_acts q HQ (bindP (forP ys (concat (ctr_run (oE (o_cipher o)) c 0 bl1)) (ctr_turn n d)) (ctr_rest n d)) _ _ (HC (ctr_next c k))) as (q' & r & K & HE).
  change (set_cipher (set_counter o (ctr_next c k)) c') with (set_counter o2 (ctr_next c k)) in K.
  assert (L : Threads.run (bindP (forP ys (concat (ctr_run (oE (o_cipher o)) c 0 bl1)) (ctr_turn n d)) (ctr_rest n d)) (set_counter o2 (ctr_next c k)) =
    (Ok (concat (ctr_run (oE (o_cipher o)) c 0 bl1) ++ concat (ctr_run (oE c') c k (bl2 ++ opt_block t))), set_counter o2 (ctr_next c (k + List.length (bl2 ++ opt_block t))))).
  { rewrite run_bind. pose proof (ctr_alone_loop o2 c d ys Hc' Hb' k (concat (ctr_run (oE (o_cipher o)) c 0 bl1))) as L. change (o_cipher o2) with c' in L. rewrite HB in L. fold n in L. rewrite L, MY, LY. clear L. unfold ctr_rest. rewrite (cut_mod _ _ _ _ Hcut). destruct t as [|x t].
    - cbn [opt_block Threads.run]. change (len (@nil Z) =? 0) with true. cbn [negb Threads.run]. now rewrite app_nil_r.
    - replace (len (x :: t) =? 0) with false by (symmetry; apply Z.eqb_neq; rewrite len_cons; pose proof (len_nonneg t); lia). cbn [negb]. rewrite run_bind, run_act. rewrite (ctr_gamma_ok o2 _ Hc' (ctr_next_block c' _ _ Hb')). rewrite run_bind, run_act, (ctr_increment_ok o2 c _ Hb'). cbn [Threads.run]. rewrite (cut_final _ _ _ _ Hn Hcut). change (o_cipher o2) with c'.
      cbn [opt_block]. rewrite ctr_run_app, concat_app, ctr_run_cons. change (ctr_run (oE c') c (Datatypes.S (k + List.length bl2)) []) with (@nil bytes). cbn [concat]. rewrite app_nil_r, bxor_eq, app_length. cbn [List.length]. rewrite <- app_assoc. now rewrite Nat.add_assoc. }
  destruct (go_first q' (bindP (forP ys (concat (ctr_run (oE (o_cipher o)) c 0 bl1)) (ctr_turn n d)) (ctr_rest n d)) (set_counter o2 (ctr_next c k))) as [m M]. rewrite L in M. cbn [fst snd fin] in M.
  exists ([0; 0]%nat ++ repeat 0%nat n1 ++ [1%nat] ++ repeat 0%nat m), q', r. eexists. split; [|exact HE].
  rewrite go_app. assert (G0 : go [0; 0]%nat [p_ctr_encrypt (VBytes d); q] o = ([bindP (forP R [] (ctr_turn n d)) (ctr_rest n d); q], o)) by reflexivity.
  rewrite G0, HR, go_app. rewrite Eo at 1. rewrite N, go_app, K. exact M.
Qed.
