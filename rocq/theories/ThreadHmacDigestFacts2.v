(** * Values taken during an update of an HMAC object that fills no block *)
From Verif Require Import PyBase PyState PyFacts Utils UtilsFacts Streebog SpecStreebog SpecHashHist StreebogFacts StreebogObj StreebogLemmas StreebogProps Hmac SpecHmac HmacLemmas HmacProps Threads ThreadFacts ThreadsRandom ThreadRandomFacts ThreadsHash ThreadHashFacts ThreadsHmac ThreadsHashDigest ThreadHashDigestFacts ThreadsHmacDigest ThreadHmacDigestFacts.
Open Scope string_scope.
Open Scope list_scope.
Open Scope Z_scope.

(** Threads that read the object in one step. *)
Definition read {S A} (P : S -> Prop) (f : S -> res A) (q0 p : proc S A) : Prop := p = q0 \/ exists s, P s /\ p = fin (f s).
Lemma readers_along {S A} (P : S -> Prop) (f : S -> res A) (kd : S -> S * proc S A) sched : (forall s, kd s = (s, fin (f s))) -> forall p qs s, along P p s -> Forall (read P f (Act kd)) qs ->
  exists p' qs' s', go sched (p :: qs) s = (p' :: qs', s') /\ along P p' s' /\ Forall (read P f (Act kd)) qs'.
Proof.
  intros HK. induction sched as [|[|i] sched IH]; intros p qs s HA HS.
  - exists p, qs, s. now split.
  - cbn [go nth_error]. destruct p as [a|e|k]; [apply IH; assumption | apply IH; assumption|]. cbn [along] in HA. destruct HA as [_ HA]. destruct (k s) as [s1 p1]. cbn [fst snd] in HA. cbn [upd]. apply IH; assumption.
  - cbn [go nth_error]. destruct (nth_error qs i) as [q|] eqn:E; [|apply IH; assumption]. pose proof (proj1 (Forall_forall _ _) HS q (nth_error_In _ _ E)) as [->|(s0 & _ & ->)].
    + rewrite HK. cbn [upd]. apply IH; [exact HA|]. apply upd_forall; [exact HS|]. right. exists s. split; [exact (along_here P p s HA) | reflexivity].
    + destruct (f s0); apply IH; assumption.
Qed.
Lemma along_ret {S A B} (P : S -> Prop) (x : B) : forall (p : proc S A) s, along P (bindP p (fun _ => Ret x)) s <-> along P p s.
Proof.
  fix IH 1. intros [a|e|k] s; cbn [bindP along]; [tauto | tauto|]. destruct (k s) as [s' p']. cbn [fst snd]. specialize (IH p' s'). tauto.
Qed.
Lemma along_within {A} (P : hash_obj -> Prop) : forall (p : proc hash_obj A) o, along P p (hm_hasher o) -> along (fun x => P (hm_hasher x) /\ x = hm_set_hasher o (hm_hasher x)) (within p) o.
Proof.
  fix IH 1. intros [a|e|k] o H; cbn [within along] in *.
  - split; [split; [exact (proj1 H) | destruct o; reflexivity] | exact I].
  - split; [split; [exact (proj1 H) | destruct o; reflexivity] | exact I].
  - destruct H as [H1 H2]. split; [split; [exact H1 | destruct o; reflexivity]|]. destruct (k (hm_hasher o)) as [h p']. cbn [fst snd] in *. specialize (IH p' (hm_set_hasher o h)). change (hm_hasher (hm_set_hasher o h)) with h in IH. exact (IH H2).
Qed.
Lemma along_weaken {S A} (P Q : S -> Prop) : (forall s, P s -> Q s) -> forall (p : proc S A) s, along P p s -> along Q p s.
Proof. intros H. fix IH 1. intros [a|e|k] s; cbn [along]; intros [H1 H2]; (split; [now apply H|]); [exact I | exact I|]. destruct (k s) as [s' p']. now apply IH. Qed.

Lemma value_same o : snd (hmac_digest o) = o.
Proof.
  unfold hmac_digest, bindM, getM, liftM. destruct (hash_init _ _) as [f|e]; [|reflexivity]. unfold on_hasher. pose proof (digest_same (hm_hasher o)) as D. destruct (hash_digest (hm_hasher o)) as [[t|e] h]; cbn [snd] in D; subst h; [|now destruct o].
  destruct (hash_update _ f) as [[u|e] f1]; cbn; [|now destruct o]. destruct (hash_digest f1) as [[t'|e] f2]; now destruct o.
Qed.
Lemma hm_short v k0 m c o d n sched i t : state_is v k0 [m] c o -> 0 < c -> bytes_ok d -> (List.length m mod 64 + List.length d < 64)%nat ->
  nth_error (fst (go sched (p_hmac (MUpd (VBytes d)) :: repeat (p_hmac MDig) n) o)) (Datatypes.S i) = Some (Ret (Some t)) -> t = outer v (firstn 64 k0) (streebog v m) \/ t = outer v (firstn 64 k0) (streebog v (m ++ d)).
Proof.
  intros HS Hc Hd HL HN. pose proof HS as [H1 H2 H3 H4 H5 H6 H7]. pose proof H4 as HF. unfold StreebogLemmas.fed in HF. cbn [fold_left SpecHashHist.feed app] in HF. destruct HF as (Ho & HP & Hb). set (q := (List.length m / 64)%nat) in *. pose proof (Nat.div_mod_eq (List.length m) 64) as HDM. fold q in HDM.
  assert (EB : (if (List.length m mod 64 =? 0)%nat then [] else skipn (64 * q) m) = skipn (64 * q) m) by (destruct (Nat.eqb_spec (List.length m mod 64) 0) as [E|E]; [symmetry; apply skipn_all2; lia | reflexivity]). rewrite EB in Ho, Hb.
  set (P := firstn (64 * q) m) in *. set (b := skipn (64 * q) m) in *. assert (LB : List.length b = (List.length m mod 64)%nat) by (unfold b; rewrite skipn_length; lia). assert (EM : m = P ++ b) by (unfold P, b; symmetry; apply firstn_skipn).
  pose proof (short_along v _ b (hm_hasher o) d Ho Hd ltac:(rewrite app_length; lia)) as HA. cbn [p_hash] in HA. apply along_ret in HA.
  set (good := fun x => exists c', state_is v k0 [m] c' x \/ state_is v k0 [m ++ d] c' x). set (o1 := hm_set_counter o (hm_counter o + 1)).
  assert (G1 : good o1) by (exists (c + 1); left; split; cbn [o1 hm_set_counter hm_key hm_hasher hm_counter hm_oid]; try assumption; lia). assert (G0 : good o) by (exists c; now left).
  assert (HG : along good (p_hmac (MUpd (VBytes d))) o).
  { cbn [p_hmac]. apply along_ret. unfold p_hmac_blocks. apply (along_act _ _ _ o tt o1); [exact G0 | reflexivity|]. apply (along_act _ _ _ o1 (hm_counter o1) o1); [exact G1 | reflexivity|].
    assert (E1 : (hm_counter o1 =? 1) = false) by (apply Z.eqb_neq; unfold o1; cbn [hm_set_counter hm_counter]; lia). rewrite E1. apply (along_act _ _ _ o1 (hm_counter o1) o1); [exact G1 | reflexivity|]. rewrite E1. cbn [negb].
    apply (along_weaken _ good) with (2 := along_within _ _ o1 HA). intros x [HX EX]. exists (c + 1). destruct HX as [HX|HX]; [left; rewrite EM | right; rewrite EM, <- app_assoc]; rewrite EX; split; cbn [o1 hm_set_hasher hm_set_counter hm_key hm_hasher hm_counter hm_oid]; try assumption; try lia; apply fed_holds; try assumption; rewrite ?app_length; lia. }
  set (f := fun s => let* t := fst (hmac_digest s) in Ok (Some t)).
  assert (HK : exists kd, p_hmac MDig = Act kd /\ forall s, kd s = (s, fin (f s))).
  { eexists. split; [reflexivity|]. intros s. cbv beta. unfold f. pose proof (value_same s) as D. destruct (hmac_digest s) as [[x|e] s1]; cbn [snd] in D; subst s1; reflexivity. }
  destruct HK as (kd & EK & HK). assert (HR : Forall (read good f (Act kd)) (repeat (p_hmac MDig) n)) by (apply Forall_forall; intros p Hp; left; rewrite <- EK; now apply repeat_spec in Hp).
  destruct (readers_along good f kd sched HK _ _ o HG HR) as (p' & qs & s' & G & _ & HQ). rewrite G in HN. cbn [fst nth_error] in HN.
  destruct (proj1 (Forall_forall _ _) HQ _ (nth_error_In _ _ HN)) as [E|(s & (c' & HH) & E)]; [discriminate E|]. unfold f in E.
  assert (HX : forall x y : bytes, @Ret hmac_obj (option bytes) (Some x) = fin (Ok (Some y)) -> x = y) by (intros x y HX; cbn in HX; congruence).
  destruct HH as [HH|HH]; rewrite (digest_is _ _ _ _ _ HH), one_effective in E; cbn [fst bind] in E; apply HX in E; [left | right]; exact E.
Qed.
