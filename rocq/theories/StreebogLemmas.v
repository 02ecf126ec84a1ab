(** * Streebog: histories of calls on hash objects *)
From Verif Require Import PyBase PyState PyFacts Utils UtilsFacts Streebog SpecStreebog SpecHashHist StreebogFacts StreebogFacts2 StreebogObj.
Open Scope string_scope.
Open Scope list_scope.
Open Scope Z_scope.

(** ** Calls *)

Inductive hcall : Type :=
| HUpdate (x : pyval)
| HFinal
| HDigest
| HHexdigest
| HReset.

Inductive hres : Type := RNone | RBytes (b : bytes) | RStr (s : string).

Definition hmap {A} (f : A -> hres) (p : res A * hash_obj) : res hres * hash_obj :=
  match p with (Ok a, o) => (Ok (f a), o) | (Err e, o) => (Err e, o) end.

Definition hstep (c : hcall) (o : hash_obj) : res hres * hash_obj :=
  match c with
  | HUpdate x => hmap (fun _ => RNone) (hash_update x o)
  | HFinal => hmap (fun _ => RNone) (hash_final o)
  | HDigest => hmap RBytes (hash_digest o)
  | HHexdigest => hmap RStr (hash_hexdigest o)
  | HReset => hmap (fun _ => RNone) (hash_reset o)
  end.

Fixpoint hrun (cs : list hcall) (o : hash_obj) : list (res hres) * hash_obj :=
  match cs with
  | [] => ([], o)
  | c :: cs' => let (r, o1) := hstep c o in let (rs, o2) := hrun cs' o1 in (r :: rs, o2)
  end.

Definition varg_ok (x : pyval) : Prop := match x with VBytes b => bytes_ok b | _ => True end.
Definition hcall_ok (c : hcall) : Prop := match c with HUpdate x => varg_ok x | _ => True end.

Lemma hrun_app cs1 cs2 o : hrun (cs1 ++ cs2) o =
  (fst (hrun cs1 o) ++ fst (hrun cs2 (snd (hrun cs1 o))), snd (hrun cs2 (snd (hrun cs1 o)))).
Proof.
  revert o. induction cs1 as [|c cs1 IH]; intros o; cbn [app hrun fst snd]; [now destruct (hrun cs2 o)|].
  destruct (hstep c o) as [r o1]. rewrite IH. now destruct (hrun cs1 o1).
Qed.

(** An object after any calls. *)
Definition hash_used (v : variant) (o : hash_obj) : Prop :=
  exists data o0 cs, match data with Some d => varg_ok d | None => True end /\
    hash_new (VStr (vname v)) data = Ok o0 /\ Forall hcall_ok cs /\ o = snd (hrun cs o0).

(** ** The state determines the results *)

Definition next (c : hcall) (v : variant) (s : state) (b : bytes) : res hres * state * bytes :=
  match c with
  | HUpdate (VBytes d) => (Ok RNone, fst (stage2 (List.length (b ++ d) / 64) s (b ++ d)), pending b d)
  | HUpdate _ => (Err (GOSTHashError "GOSTHashError: invalid data value"), s, b)
  | HFinal => (Ok RNone, finished s b, closing b)
  | HDigest => (Ok (RBytes (skipn (64 - hash_bytes v) (st_h (finished s b)))), s, b)
  | HHexdigest => (Ok (RStr (py_hex (skipn (64 - hash_bytes v) (st_h (finished s b))))), s, b)
  | HReset => (Ok RNone, stage1 v, [])
  end.

Lemma step_holds v s b o c : holds v s b o -> hcall_ok c ->
  fst (hstep c o) = fst (fst (next c v s b)) /\ holds v (snd (fst (next c v s b))) (snd (next c v s b)) (snd (hstep c o)).
Proof.
  intros Ho Hc. destruct c as [x| | | |]; cbn [hstep next hcall_ok] in *.
  - destruct x as [d|str|z|]; try (split; [reflexivity | exact Ho]).
    destruct (update_holds v s b o d Ho Hc) as (o' & E & H). rewrite E. split; [reflexivity | exact H].
  - destruct (final_holds v s b o Ho) as (o' & E & H). rewrite E. split; [reflexivity | exact H].
  - rewrite (digest_holds v s b o Ho). split; [reflexivity | exact Ho].
  - unfold hash_hexdigest, bindM. rewrite (digest_holds v s b o Ho). split; [reflexivity | exact Ho].
  - unfold hash_reset, bindM, getM, putM. rewrite (ho_name _ _ _ _ Ho), (ho_oid _ _ _ _ Ho). split; [reflexivity | apply init_holds].
Qed.

Lemma new_holds v data : match data with Some d => varg_ok d | None => True end ->
  match data with
  | None => exists o, hash_new (VStr (vname v)) None = Ok o /\ holds v (stage1 v) [] o
  | Some (VBytes d) => exists o, hash_new (VStr (vname v)) (Some (VBytes d)) = Ok o /\
      holds v (fst (stage2 (List.length d / 64) (stage1 v) d)) (pending [] d) o
  | Some x => hash_new (VStr (vname v)) (Some x) = Err (GOSTHashError "GOSTHashError: invalid data value")
  end.
Proof.
  intros Hd. assert (EN : forall data, hash_new (VStr (vname v)) data = hash_init (vname v) (match data with Some d => d | None => VBytes [] end)) by (intros; destruct v; reflexivity).
  assert (EO : (if String.eqb (vname v) "streebog256" then "1.2.643.7.1.1.2.2" else "1.2.643.7.1.1.2.3") = void v) by (destruct v; reflexivity).
  pose proof (init_holds v) as HI.
  destruct data as [[d|str|z|]|]; rewrite EN; unfold hash_init; rewrite EO; try reflexivity.
  - destruct d as [|x d]; [eexists; split; [reflexivity | exact HI]|].
    destruct (update_holds v _ [] _ (x :: d) HI Hd) as (o' & E & H). rewrite E. eexists. split; [reflexivity | exact H].
  - eexists; split; [reflexivity | exact HI].
Qed.

Lemma run_holds v cs : Forall hcall_ok cs -> forall s b o, holds v s b o -> exists s' b', holds v s' b' (snd (hrun cs o)).
Proof.
  induction 1 as [|c cs Hc HF IH]; intros s b o Ho; [now exists s, b|]. cbn [hrun].
  destruct (step_holds v s b o c Ho Hc) as [_ H]. destruct (hstep c o) as [r o1]. cbn [snd] in H.
  destruct (IH _ _ _ H) as (s' & b' & H'). destruct (hrun cs o1) as [rs o2]. now exists s', b'.
Qed.

Lemma used_holds v o : hash_used v o -> exists s b, holds v s b o.
Proof.
  intros (data & o0 & cs & Hd & En & HF & ->). pose proof (new_holds v data Hd) as H.
  assert (H0 : exists s b, holds v s b o0).
  { destruct data as [[d|str|z|]|]; try (rewrite En in H; discriminate H); destruct H as (o & E & H); rewrite En in E; inversion E; subst; eauto. }
  destruct H0 as (s & b & H0). exact (run_holds v cs HF s b o0 H0).
Qed.

(** Objects with the same state behave alike. *)
Lemma same_results v cs : Forall hcall_ok cs -> forall s b o1 o2, holds v s b o1 -> holds v s b o2 -> fst (hrun cs o1) = fst (hrun cs o2).
Proof.
  induction 1 as [|c cs Hc HF IH]; intros s b o1 o2 H1 H2; [reflexivity|]. cbn [hrun].
  destruct (step_holds v s b o1 c H1 Hc) as [R1 N1]. destruct (step_holds v s b o2 c H2 Hc) as [R2 N2].
  destruct (hstep c o1) as [r1 p1]. destruct (hstep c o2) as [r2 p2]. cbn [fst snd] in *.
  specialize (IH _ _ _ _ N1 N2). destruct (hrun cs p1), (hrun cs p2). cbn [fst] in *. congruence.
Qed.

(** ** The hashed message *)

Lemma stage2_app n : forall s P Q, List.length P = (64 * n)%nat -> stage2 n s (P ++ Q) = (fst (stage2 n s P), Q).
Proof.
  induction n as [|n IH]; intros s P Q HP; [destruct P; [reflexivity | cbn in HP; lia]|].
  cbn [stage2]. rewrite firstn_app, skipn_app. replace (64 - List.length P)%nat with 0%nat by lia. change (firstn 0 Q) with (@nil Z). change (skipn 0 Q) with Q. rewrite app_nil_r.
  apply IH. rewrite skipn_length. lia.
Qed.

Lemma stage2_add n k : forall s m, stage2 (n + k) s m = stage2 k (fst (stage2 n s m)) (snd (stage2 n s m)).
Proof. induction n as [|n IH]; intros s m; cbn [Nat.add stage2 fst snd]; [reflexivity | apply IH]. Qed.

Lemma stage2_cut n s D : (64 * n <= List.length D)%nat -> fst (stage2 n s (firstn (64 * n) D)) = fst (stage2 n s D).
Proof.
  intros H. rewrite <- (firstn_skipn (64 * n) D) at 2. rewrite stage2_app by now apply firstn_length_le. reflexivity.
Qed.

(** State after whole blocks. *)
Definition after (v : variant) (P : bytes) : state := fst (stage2 (List.length P / 64) (stage1 v) P).

Lemma after_app v P D : (List.length P mod 64 = 0)%nat ->
  after v (P ++ firstn (64 * (List.length D / 64)) D) = fst (stage2 (List.length D / 64) (after v P) D).
Proof.
  intros HP. unfold after. set (n := (List.length P / 64)%nat). set (k := (List.length D / 64)%nat).
  assert (HLP : List.length P = (64 * n)%nat) by (unfold n; pose proof (Nat.div_mod_eq (List.length P) 64); lia).
  assert (HLD : List.length (firstn (64 * k) D) = (64 * k)%nat) by (apply firstn_length_le; unfold k; pose proof (Nat.div_mod_eq (List.length D) 64); lia).
  rewrite app_length, HLP, HLD. replace ((64 * n + 64 * k) / 64)%nat with (n + k)%nat by (rewrite <- Nat.mul_add_distr_l, Nat.mul_comm, Nat.div_mul; lia).
  rewrite stage2_add, stage2_app by exact HLP. cbn [fst snd]. apply stage2_cut. unfold k. pose proof (Nat.div_mod_eq (List.length D) 64). lia.
Qed.

Lemma streebog_split v P b : (List.length P mod 64 = 0)%nat -> (List.length b < 64)%nat ->
  streebog v (P ++ b) = skipn (64 - hash_bytes v) (stage3 (after v P) b).
Proof.
  intros HP Hb. unfold streebog, after. set (n := (List.length P / 64)%nat).
  assert (HLP : List.length P = (64 * n)%nat) by (unfold n; pose proof (Nat.div_mod_eq (List.length P) 64); lia).
  assert (En : (List.length (P ++ b) / 64 = n)%nat) by (rewrite app_length, HLP, Nat.mul_comm, Nat.div_add_l, Nat.div_small by lia; lia).
  rewrite En, stage2_app by exact HLP. reflexivity.
Qed.

(** The object has been fed [cs]. *)
Definition fed (v : variant) (cs : list bytes) (o : hash_obj) : Prop :=
  let (P, b) := fold_left feed cs ([], []) in
  holds v (after v P) b o /\ (List.length P mod 64 = 0)%nat /\ (List.length b < 64)%nat.

Lemma fold_snoc {A B} (f : A -> B -> A) l x a : fold_left f (l ++ [x]) a = f (fold_left f l a) x.
Proof. now rewrite fold_left_app. Qed.

Lemma fed_update v cs o d : fed v cs o -> bytes_ok d ->
  exists o', hash_update (VBytes d) o = (Ok tt, o') /\ fed v (cs ++ [d]) o'.
Proof.
  unfold fed. rewrite fold_snoc. destruct (fold_left feed cs ([], [])) as [P b]. intros (Ho & HP & Hb) Hd.
  destruct (update_holds v _ b o d Ho Hd) as (o' & E & H). exists o'. split; [exact E|]. cbn [feed].
  split; [rewrite after_app by exact HP; exact H|].
  pose proof (Nat.div_mod_eq (List.length (b ++ d)) 64) as HDM. pose proof (Nat.mod_upper_bound (List.length (b ++ d)) 64) as HM.
  split.
  - rewrite app_length, firstn_length_le by lia. rewrite Nat.add_mod by lia. rewrite HP, (Nat.mul_comm 64), Nat.mod_mul by lia. reflexivity.
  - destruct (List.length (b ++ d) mod 64 =? 0)%nat; [exact Hb|]. rewrite skipn_length. lia.
Qed.

Lemma fed_digest v cs o : fed v cs o -> hash_digest o = (Ok (streebog v (effective cs)), o).
Proof.
  unfold fed, effective. destruct (fold_left feed cs ([], [])) as [P b]. intros (Ho & HP & Hb).
  rewrite (digest_holds v _ b o Ho). now rewrite streebog_split, finished_stage3.
Qed.

Lemma fed_new v : exists o, hash_new (VStr (vname v)) None = Ok o /\ fed v [] o.
Proof.
  destruct (new_holds v None I) as (o & E & H). exists o. split; [exact E|]. unfold fed. cbn [fold_left List.length].
  split; [exact H|]. split; [reflexivity | lia].
Qed.

Lemma fed_new_data v d : bytes_ok d -> exists o, hash_new (VStr (vname v)) (Some (VBytes d)) = Ok o /\ fed v [d] o.
Proof.
  intros Hd. destruct (new_holds v (Some (VBytes d)) Hd) as (o & E & H). exists o. split; [exact E|]. unfold fed. cbn [fold_left feed app].
  pose proof (Nat.div_mod_eq (List.length d) 64) as HDM. pose proof (Nat.mod_upper_bound (List.length d) 64) as HM.
  split; [|split].
  - pose proof (after_app v [] d eq_refl) as HA. cbn [app] in HA. rewrite HA. exact H.
  - rewrite firstn_length_le by lia. rewrite Nat.mul_comm, Nat.mod_mul by lia. reflexivity.
  - destruct (List.length d mod 64 =? 0)%nat; [cbn [List.length]; lia|]. rewrite skipn_length. lia.
Qed.

(** ** Conformance *)

Lemma one_effective d : effective [d] = d.
Proof.
  unfold effective. cbn [fold_left feed app]. destruct (Nat.eqb_spec (List.length d mod 64) 0) as [E|E]; [|apply firstn_skipn].
  rewrite app_nil_r. apply firstn_all2. pose proof (Nat.div_mod_eq (List.length d) 64). lia.
Qed.

Lemma conforms v m : bytes_ok m ->
  exists o, hash_new (VStr (vname v)) (Some (VBytes m)) = Ok o /\ hash_digest o = (Ok (streebog v m), o).
Proof.
  intros Hm. destruct (fed_new_data v m Hm) as (o & E & H). exists o. split; [exact E|]. rewrite (fed_digest v [m] o H). now rewrite one_effective.
Qed.

Lemma conforms_empty v : exists o, hash_new (VStr (vname v)) None = Ok o /\ hash_digest o = (Ok (streebog v []), o).
Proof. destruct (fed_new v) as (o & E & H). exists o. split; [exact E|]. exact (fed_digest v [] o H). Qed.

(** ** Histories of updates and digests *)

Definition plain_hcall (c : hcall) : Prop := match c with HUpdate x => varg_ok x | HDigest | HHexdigest => True | _ => False end.
Fixpoint chunks (cs : list hcall) : list bytes :=
  match cs with
  | [] => []
  | HUpdate (VBytes d) :: cs' => d :: chunks cs'
  | _ :: cs' => chunks cs'
  end.

Lemma fed_run v cs : Forall plain_hcall cs -> forall l o, fed v l o -> fed v (l ++ chunks cs) (snd (hrun cs o)).
Proof.
  induction 1 as [|c cs Hc HF IH]; intros l o Ho; [cbn [chunks hrun snd]; now rewrite app_nil_r|].
  assert (Hd : hash_digest o = (Ok (streebog v (effective l)), o)) by now apply fed_digest.
  assert (SK : forall r, hstep c o = (r, o) -> fed v (l ++ chunks cs) (snd (hrun (c :: cs) o))).
  { intros r E. cbn [hrun]. rewrite E. specialize (IH l o Ho). now destruct (hrun cs o). }
  destruct c as [x| | | |]; cbn [plain_hcall] in Hc; try contradiction.
  - destruct x as [d|str|z|]; try (eapply SK; reflexivity).
    destruct (fed_update v l o d Ho Hc) as (o' & E & H). cbn [hrun hstep]. rewrite E. cbn [hmap chunks].
    specialize (IH (l ++ [d]) o' H). rewrite <- app_assoc in IH. now destruct (hrun cs o').
  - eapply SK. cbn [hstep]. rewrite Hd. reflexivity.
  - eapply SK. cbn [hstep]. unfold hash_hexdigest, bindM. rewrite Hd. reflexivity.
Qed.

Definition opt_chunk (data : option bytes) : list bytes := match data with Some d => [d] | None => [] end.

Lemma history v data cs o : match data with Some d => bytes_ok d | None => True end ->
  hash_new (VStr (vname v)) (option_map VBytes data) = Ok o -> Forall plain_hcall cs ->
  fst (hash_digest (snd (hrun cs o))) = Ok (streebog v (effective (opt_chunk data ++ chunks cs))).
Proof.
  intros Hd En HF. assert (H0 : fed v (opt_chunk data) o).
  { destruct data as [d|]; [destruct (fed_new_data v d Hd) as (o' & E & H) | destruct (fed_new v) as (o' & E & H)]; cbn [option_map] in En; rewrite En in E; inversion E; now subst. }
  rewrite (fed_digest v _ _ (fed_run v cs HF _ _ H0)). reflexivity.
Qed.

(** ** Which histories hash the concatenation *)

Lemma feed_length P t c : (List.length P mod 64 = 0)%nat -> (List.length t < 64)%nat ->
  let (P', t') := feed (P, t) c in
  (List.length P' mod 64 = 0)%nat /\ (List.length t' < 64)%nat /\
  (List.length P' + List.length t' = List.length P + List.length t + List.length c + (if (List.length (t ++ c) mod 64 =? 0)%nat then List.length t else 0))%nat /\
  (~ (List.length t <> 0 /\ (List.length t + List.length c) mod 64 = 0)%nat -> P' ++ t' = (P ++ t) ++ c /\ List.length t' = ((List.length t + List.length c) mod 64)%nat).
Proof.
  intros HP Ht. cbn [feed]. pose proof (Nat.div_mod_eq (List.length (t ++ c)) 64) as HDM. pose proof (Nat.mod_upper_bound (List.length (t ++ c)) 64 ltac:(lia)) as HM.
  rewrite (app_length t c) in *. set (q := ((List.length t + List.length c) / 64)%nat) in *. set (r := ((List.length t + List.length c) mod 64)%nat) in *.
  assert (HF : List.length (firstn (64 * q) (t ++ c)) = (64 * q)%nat) by (apply firstn_length_le; rewrite app_length; lia).
  split; [rewrite app_length, HF, Nat.add_mod, HP, (Nat.mul_comm 64), Nat.mod_mul by lia; reflexivity|].
  split; [destruct (r =? 0)%nat; [exact Ht | rewrite skipn_length, app_length; lia]|].
  split.
  - rewrite app_length, HF. destruct (Nat.eqb_spec r 0); [lia|]. rewrite skipn_length, app_length. lia.
  - intros Hs. destruct (Nat.eqb_spec r 0) as [E|E].
    + assert (Ez : List.length t = 0%nat) by (destruct (Nat.eq_dec (List.length t) 0); [assumption | exfalso; apply Hs; lia]).
      destruct t; [|cbn in Ez; lia]. cbn [app List.length] in *. rewrite !app_nil_r. split; [f_equal; apply firstn_all2; lia | lia].
    + split; [rewrite <- app_assoc, firstn_skipn; apply app_assoc | rewrite skipn_length, app_length; lia].
Qed.

Lemma feed_more cs : forall P t, (List.length P mod 64 = 0)%nat -> (List.length t < 64)%nat ->
  let (P', t') := fold_left feed cs (P, t) in
  (List.length P + List.length t + List.length (concat cs) <= List.length P' + List.length t')%nat /\
  (P' ++ t' = (P ++ t) ++ concat cs <-> safe (List.length t) cs).
Proof.
  induction cs as [|c cs IH]; intros P t HP Ht.
  - cbn [fold_left concat List.length safe]. rewrite app_nil_r. split; [lia | tauto].
  - cbn [fold_left]. pose proof (feed_length P t c HP Ht) as H. destruct (feed (P, t) c) as [P1 t1]. destruct H as (HP1 & Ht1 & HL & HS).
    specialize (IH P1 t1 HP1 Ht1). destruct (fold_left feed cs (P1, t1)) as [P' t']. destruct IH as [IHL IHS].
    cbn [concat safe]. rewrite app_length. split; [destruct (_ =? 0)%nat in HL; lia|].
    destruct (Nat.eq_dec (List.length t) 0) as [E|E]; [|destruct (Nat.eq_dec ((List.length t + List.length c) mod 64) 0) as [E1|E1]].
    + destruct HS as [HS HL1]; [lia|]. rewrite HS, HL1 in IHS. rewrite app_assoc. rewrite IHS. tauto.
    + split; [intros HX | tauto]. exfalso. apply (f_equal (@List.length Z)) in HX. rewrite !app_length in HX.
      rewrite app_length, E1 in HL. cbn [Nat.eqb] in HL. lia.
    + destruct HS as [HS HL1]; [lia|]. rewrite HS, HL1 in IHS. rewrite app_assoc. rewrite IHS. tauto.
Qed.

Lemma effective_safe cs : effective cs = concat cs <-> safe 0 cs.
Proof.
  unfold effective. pose proof (feed_more cs [] [] eq_refl ltac:(cbn; lia)) as H. destruct (fold_left feed cs ([], [])) as [P t].
  cbn [app List.length] in H. tauto.
Qed.

(** Whole blocks and one last chunk of any length. *)
Lemma safe_blocks cs d : Forall (fun c : bytes => List.length c mod 64 = 0)%nat cs -> safe 0 (cs ++ [d]).
Proof.
  induction 1 as [|c cs Hc HF IH]; cbn [app safe Nat.add]; [tauto|]. rewrite Hc. tauto.
Qed.

(** The stale pending part. *)
Lemma stale a b : (0 < List.length a < 64)%nat -> ((List.length a + List.length b) mod 64 = 0)%nat -> effective [a; b] = a ++ b ++ a.
Proof.
  intros Ha Hb. unfold effective. cbn [fold_left feed app]. rewrite (Nat.mod_small (List.length a)) by lia. rewrite (Nat.div_small (List.length a)) by lia.
  replace (List.length a =? 0)%nat with false by (symmetry; apply Nat.eqb_neq; lia). change (64 * 0)%nat with 0%nat. change (skipn 0 a) with a. change (firstn 0 a) with (@nil Z). cbn [app]. rewrite (app_length a b), Hb. change (0 =? 0)%nat with true. cbv iota.
  pose proof (Nat.div_mod_eq (List.length a + List.length b) 64) as HDM. rewrite firstn_all2 by (rewrite app_length; lia). now rewrite <- app_assoc.
Qed.
