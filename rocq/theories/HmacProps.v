(** * HMAC: histories, clear, reset, copies and argument checks *)
From Verif Require Import PyBase PyState PyFacts Utils UtilsFacts Streebog SpecStreebog SpecHashHist StreebogFacts StreebogFacts2 StreebogObj StreebogLemmas StreebogProps Hmac SpecHmac World HmacLemmas.
Open Scope string_scope.
Open Scope list_scope.
Open Scope Z_scope.

Notation mrun := (World.run mstep).

Definition plain_mcall (c : mcall) : Prop := match c with MUpdate x => varg_ok x | MDigest | MHexdigest => True | _ => False end.
Fixpoint mchunks (cs : list mcall) : list bytes :=
  match cs with
  | [] => []
  | MUpdate (VBytes d) :: cs' => d :: mchunks cs'
  | _ :: cs' => mchunks cs'
  end.

Lemma hashed_snoc k cs d : hashed k (cs ++ [d]) = hashed k cs ++ [if Z.of_nat (List.length cs) =? 0 then with_pad 0x36 k ++ d else d].
Proof. destruct cs as [|c cs]; [reflexivity|]. cbn [hashed app List.length]. replace (Z.of_nat (S (List.length cs)) =? 0) with false by lia. reflexivity. Qed.

Lemma run_step_is v k l n o c cs : state_is v k l n o -> mcall_ok c ->
  let '(k', l', n') := snd (mnext c v k l n) in
  exists o', state_is v k' l' n' o' /\ snd (mrun (c :: cs) o) = snd (mrun cs o') /\ o' = snd (mstep c o).
Proof.
  intros Ho Hc. destruct (mstep_is v k l n o c Ho Hc) as [_ H]. destruct (snd (mnext c v k l n)) as [[k' l'] n'].
  exists (snd (mstep c o)). split; [exact H|]. split; [|reflexivity]. rewrite run_cons. reflexivity.
Qed.

Lemma plain_ok c : plain_mcall c -> mcall_ok c.
Proof. destruct c; cbn; tauto. Qed.

(** Updates of an object that was never cleared. *)
Lemma run_norm v k cs : Forall plain_mcall cs -> forall acc o, state_is v k (hashed (firstn 64 k) acc) (Z.of_nat (List.length acc)) o ->
  state_is v k (hashed (firstn 64 k) (acc ++ mchunks cs)) (Z.of_nat (List.length (acc ++ mchunks cs))) (snd (mrun cs o)).
Proof.
  induction 1 as [|c cs Hc HF IH]; intros acc o Ho; [cbn [mchunks]; rewrite app_nil_r; exact Ho|].
  pose proof (run_step_is v k _ _ o c cs Ho (plain_ok c Hc)) as HS. destruct c as [x| | | |]; cbn [plain_mcall] in Hc; try contradiction.
  - destruct x as [d|str|z|]; cbn [mnext snd mchunks] in *; destruct HS as (o' & H' & E & _); rewrite E; try (now apply IH).
    specialize (IH (acc ++ [d]) o'). rewrite <- app_assoc in IH. cbn [app] in IH. apply IH. rewrite hashed_snoc. rewrite app_length. cbn [List.length].
    replace (Z.of_nat (List.length acc + 1)) with (Z.of_nat (List.length acc) + 1) by lia. exact H'.
  - cbn [mnext snd mchunks] in *. destruct HS as (o' & H' & E & _). rewrite E. now apply IH.
  - cbn [mnext snd mchunks] in *. destruct HS as (o' & H' & E & _). rewrite E. now apply IH.
Qed.

(** Updates of an object with a counter that is not zero. *)
Lemma run_pos v k cs : Forall plain_mcall cs -> forall l n o, 0 < n -> state_is v k l n o ->
  state_is v k (l ++ mchunks cs) (n + Z.of_nat (List.length (mchunks cs))) (snd (mrun cs o)).
Proof.
  induction 1 as [|c cs Hc HF IH]; intros l n o Hn Ho; [cbn [mchunks List.length]; rewrite app_nil_r, Z.add_0_r; exact Ho|].
  pose proof (run_step_is v k _ _ o c cs Ho (plain_ok c Hc)) as HS. destruct c as [x| | | |]; cbn [plain_mcall] in Hc; try contradiction.
  - destruct x as [d|str|z|]; cbn [mnext snd mchunks] in *; destruct HS as (o' & H' & E & _); rewrite E; try (now apply IH).
    replace (n =? 0) with false in H' by lia. specialize (IH (l ++ [d]) (n + 1) o' ltac:(lia) H'). rewrite <- app_assoc in IH. cbn [app List.length] in *.
    replace (n + Z.of_nat (S (List.length (mchunks cs)))) with (n + 1 + Z.of_nat (List.length (mchunks cs))) by lia. exact IH.
  - cbn [mnext snd mchunks] in *. destruct HS as (o' & H' & E & _). rewrite E. now apply IH.
  - cbn [mnext snd mchunks] in *. destruct HS as (o' & H' & E & _). rewrite E. now apply IH.
Qed.

(** The tag of a list of chunks: without any chunk the inner key block is missing. *)
Definition tag (v : variant) (k : bytes) (cs : list bytes) : bytes :=
  match cs with
  | [] => outer v k (streebog v [])
  | _ => outer v k (inner v k (effective cs))
  end.

Lemma tag_hashed v k cs : List.length k = 64%nat -> outer v k (streebog v (effective (hashed k cs))) = tag v k cs.
Proof.
  intros Hk. destruct cs as [|c cs]; [reflexivity|]. cbn [hashed tag]. rewrite effective_block by now rewrite with_pad_length. reflexivity.
Qed.

Definition key_ok (key : bytes) : Prop := bytes_ok key /\ (List.length key <= 64)%nat.
Definition opt_ok (data : option bytes) : Prop := match data with Some d => bytes_ok d | None => True end.
Definition made (v : variant) (key : bytes) (data : option bytes) (o : hmac_obj) : Prop :=
  hmac_new (VStr (mname v)) (VBytes key) (option_map VBytes data) = Ok o.

Lemma K0_firstn key : key_ok key -> firstn 64 (K0 key) = K0 key.
Proof. intros [_ H]. apply firstn_all2. rewrite K0_length; lia. Qed.

Lemma made_run v key data cs o : key_ok key -> opt_ok data -> made v key data o -> Forall plain_mcall cs ->
  state_is v (K0 key) (hashed (K0 key) (first_chunk data ++ mchunks cs)) (Z.of_nat (List.length (first_chunk data ++ mchunks cs))) (snd (mrun cs o)).
Proof.
  intros Hk Hd E HF. pose proof (hmac_new_is v key data o (proj1 Hk) (proj2 Hk) Hd E) as H.
  rewrite <- (K0_firstn key Hk) in H at 2. apply (run_norm v (K0 key) cs HF) in H. rewrite (K0_firstn key Hk) in H. exact H.
Qed.

Lemma hmac_history v key data cs o : key_ok key -> opt_ok data -> made v key data o -> Forall plain_mcall cs ->
  fst (hmac_digest (snd (mrun cs o))) = Ok (tag v (K0 key) (first_chunk data ++ mchunks cs)).
Proof.
  intros Hk Hd E HF. rewrite (digest_is _ _ _ _ _ (made_run v key data cs o Hk Hd E HF)). cbn [fst]. rewrite K0_firstn by exact Hk.
  rewrite tag_hashed by (apply K0_length, Hk). reflexivity.
Qed.

Lemma tag_hmac v key cs : cs <> [] -> tag v (K0 key) cs = hmac v key (effective cs).
Proof. destruct cs; [contradiction | reflexivity]. Qed.

(** ** clear *)

Lemma clear_history v key data cs o cs' : key_ok key -> opt_ok data -> made v key data o -> Forall plain_mcall cs -> Forall plain_mcall cs' ->
  fst (hmac_digest (snd (mrun (cs ++ MClear :: cs') o))) =
  Ok (match first_chunk data ++ mchunks cs with
      | [] => tag v public_block (mchunks cs')
      | _ => outer v public_block (streebog v (effective (mchunks cs')))
      end).
Proof.
  intros Hk Hd E HF HF'. pose proof (made_run v key data cs o Hk Hd E HF) as H. rewrite run_app. cbn [fst snd].
  set (o1 := snd (mrun cs o)) in *. set (acc := first_chunk data ++ mchunks cs) in *. rewrite run_cons. cbn [snd].
  destruct (mstep_is v _ _ _ _ MClear H I) as [_ HC]. cbn [mnext snd] in HC.
  assert (HL : (16 <= List.length (K0 key))%nat) by (rewrite K0_length; [lia | apply Hk]).
  destruct acc as [|c acc].
  - cbn [List.length] in HC. change (Z.of_nat 0) with (Z.of_nat (@List.length bytes [])) in HC. change (@nil bytes) with (hashed (firstn 64 (zero_fill (K0 key))) []) in HC at 1.
    pose proof (run_norm v _ cs' HF' [] _ HC) as HR. rewrite (digest_is _ _ _ _ _ HR). cbn [fst app]. rewrite zero_fill_public by exact HL. now rewrite tag_hashed by reflexivity.
  - assert (HN : 0 < Z.of_nat (List.length (c :: acc))) by (cbn [List.length]; lia). pose proof (run_pos v _ cs' HF' [] _ _ HN HC) as HR. rewrite (digest_is _ _ _ _ _ HR). cbn [fst app]. now rewrite zero_fill_public by exact HL.
Qed.

(** Two objects with different keys and the same calls are the same after clear. *)
Definition alike (v : variant) (o1 o2 : hmac_obj) : Prop :=
  exists k1 k2 l1 l2 n, state_is v k1 l1 n o1 /\ state_is v k2 l2 n o2 /\ len k1 = len k2.

Lemma alike_step v c o1 o2 : alike v o1 o2 -> mcall_ok c -> alike v (snd (mstep c o1)) (snd (mstep c o2)).
Proof.
  intros (k1 & k2 & l1 & l2 & n & H1 & H2 & HL) Hc. destruct (mstep_is v _ _ _ _ c H1 Hc) as [_ S1]. destruct (mstep_is v _ _ _ _ c H2 Hc) as [_ S2].
  destruct c as [[d|str|z|]| | | |]; cbn [mnext snd] in S1, S2; unfold alike; do 5 eexists; (split; [exact S1|]); (split; [exact S2|]); try exact HL.
  now rewrite !zero_fill_len, HL.
Qed.
Lemma alike_run v cs : Forall mcall_ok cs -> forall o1 o2, alike v o1 o2 -> alike v (snd (mrun cs o1)) (snd (mrun cs o2)).
Proof.
  induction 1 as [|c cs Hc HF IH]; intros o1 o2 H; [exact H|]. rewrite !run_cons. cbn [snd]. apply IH. now apply alike_step.
Qed.
Lemma made_alike v k1 k2 data o1 o2 : key_ok k1 -> key_ok k2 -> opt_ok data -> made v k1 data o1 -> made v k2 data o2 -> alike v o1 o2.
Proof.
  intros H1 H2 Hd E1 E2. pose proof (hmac_new_is v k1 data o1 (proj1 H1) (proj2 H1) Hd E1) as S1. pose proof (hmac_new_is v k2 data o2 (proj1 H2) (proj2 H2) Hd E2) as S2.
  do 5 eexists. split; [exact S1|]. split; [exact S2|]. unfold len. rewrite !K0_length; [reflexivity | apply H2 | apply H1].
Qed.
Lemma clear_same v o1 o2 : alike v o1 o2 -> hmac_clear o1 = hmac_clear o2.
Proof.
  intros (k1 & k2 & l1 & l2 & n & H1 & H2 & HL). rewrite (clear_is _ _ _ _ _ H1), (clear_is _ _ _ _ _ H2). now rewrite (zero_fill_same_len k1 k2 HL).
Qed.

(** ** reset *)

Definition no_clear (c : mcall) : Prop := match c with MUpdate x => varg_ok x | MClear => False | _ => True end.
Lemma keeps_key v k cs : Forall no_clear cs -> forall l n o, state_is v k l n o -> exists l' n', state_is v k l' n' (snd (mrun cs o)).
Proof.
  induction 1 as [|c cs Hc HF IH]; intros l n o Ho; [now exists l, n|]. rewrite run_cons. cbn [snd].
  assert (Hok : mcall_ok c) by (destruct c; cbn in *; tauto). destruct (mstep_is v k l n o c Ho Hok) as [_ HS].
  destruct c as [[d|str|z|]| | | |]; cbn [mnext snd] in HS; try (eapply IH; exact HS). contradiction.
Qed.
Lemma hmac_reset_new v key data o cs o0 : key_ok key -> opt_ok data -> made v key data o -> Forall no_clear cs -> made v key None o0 ->
  hmac_reset (snd (mrun cs o)) = (Ok tt, o0).
Proof.
  intros Hk Hd E HF E0. pose proof (hmac_new_is v key data o (proj1 Hk) (proj2 Hk) Hd E) as S1. destruct (keeps_key v _ cs HF _ _ _ S1) as (l & n & S2).
  rewrite (reset_is _ _ _ _ _ S2). unfold made, hmac_new in E0. cbn [option_map] in E0. rewrite hmac_init_base in E0 by apply Hk. inversion E0. reflexivity.
Qed.

(** ** Reading *)

(** An object after any calls. *)
Definition hmac_used (v : variant) (o : hmac_obj) : Prop :=
  exists key data o0 cs, key_ok key /\ opt_ok data /\ made v key data o0 /\ Forall mcall_ok cs /\ o = snd (mrun cs o0).

Lemma run_is v cs : Forall mcall_ok cs -> forall k l n o, state_is v k l n o -> exists k' l' n', state_is v k' l' n' (snd (mrun cs o)).
Proof.
  induction 1 as [|c cs Hc HF IH]; intros k l n o Ho; [now exists k, l, n|]. rewrite run_cons. cbn [snd].
  destruct (mstep_is v k l n o c Ho Hc) as [_ HS]. destruct (snd (mnext c v k l n)) as [[k' l'] n']. eapply IH; exact HS.
Qed.
Lemma used_is v o : hmac_used v o -> exists k l n, state_is v k l n o.
Proof.
  intros (key & data & o0 & cs & Hk & Hd & E & HF & ->). eapply run_is; [exact HF|]. exact (hmac_new_is v key data o0 (proj1 Hk) (proj2 Hk) Hd E).
Qed.

Lemma outer_ok v k i : bytes_ok k -> bytes_ok i -> List.length (outer v k i) = hash_bytes v /\ bytes_ok (outer v k i).
Proof. intros Hk Hi. apply streebog_ok. apply bytes_ok_app. split; [apply with_pad_ok; [unfold byte_ok; lia | exact Hk] | exact Hi]. Qed.

Lemma hmac_reads v o : hmac_used v o -> exists d, hmac_digest o = (Ok d, o) /\ hmac_hexdigest o = (Ok (hex_of d), o) /\
  List.length d = hash_bytes v /\ bytes_ok d /\ hmac_digest_size o = Z.of_nat (hash_bytes v) /\ hmac_block_size o = 64 /\ hmac_name o = mname v.
Proof.
  intros Hu. destruct (used_is v o Hu) as (k & l & n & Ho). pose proof (digest_is v k l n o Ho) as E.
  destruct (outer_ok v (firstn 64 k) (streebog v (effective l))) as [HL HB]; [apply bytes_ok_firstn, (st_kok _ _ _ _ _ Ho) | exact (proj2 (fed_hash v l _ (st_fed _ _ _ _ _ Ho)))|].
  eexists. split; [exact E|]. split; [unfold hmac_hexdigest, bindM; rewrite E; unfold retM; now rewrite hex_eq|]. split; [exact HL|]. split; [exact HB|].
  unfold hmac_digest_size, hmac_block_size, hmac_name, digest_size. rewrite (fed_name _ _ _ (st_fed _ _ _ _ _ Ho)). destruct v; repeat split.
Qed.

(** ** Arguments *)

Definition is_mac_name (name : pyval) : Prop := exists v, name = VStr (mname v).
Definition good_key (key : pyval) : bool := match key with VBytes k => len k <=? 64 | _ => false end.

Lemma hmac_new_checks name key data : varg_ok key -> match data with Some d => varg_ok d | None => True end ->
  (~ is_mac_name name -> hmac_new name key data = Err (GOSTHMACError "GOSTHMACError: unsupported mode")) /\
  (is_mac_name name -> good_key key = false -> hmac_new name key data = Err (GOSTHMACError "GOSTHMACError: invalid key value")) /\
  (is_mac_name name -> good_key key = true ->
     match data with
     | Some x => if is_bytes x then exists o, hmac_new name key data = Ok o else hmac_new name key data = Err (GOSTHMACError "GOSTHMACError: invalid data value")
     | None => exists o, hmac_new name key data = Ok o
     end).
Proof.
  intros Hk Hd. split; [|split].
  - intros N. unfold hmac_new, hmac_init. destruct name as [b|str|z|]; try reflexivity.
    destruct (String.eqb_spec str "HMAC_GOSTR3411_2012_256") as [->|N1]; [exfalso; apply N; now exists S256|].
    destruct (String.eqb_spec str "HMAC_GOSTR3411_2012_512") as [->|N2]; [exfalso; apply N; now exists S512|]. reflexivity.
  - intros [v ->] Hg. unfold hmac_new, hmac_init. assert (EN : forall A (x y : A), (if negb (String.eqb (mname v) "HMAC_GOSTR3411_2012_256" || String.eqb (mname v) "HMAC_GOSTR3411_2012_512") then x else y) = y) by (intros; destruct v; reflexivity).
    rewrite EN. destruct key as [k|str|z|]; try reflexivity. cbn [good_key] in Hg. replace (len k >? _KEY_SIZE) with true by (unfold _KEY_SIZE; lia). reflexivity.
  - intros [v ->] Hg. destruct key as [k|str|z|]; try discriminate Hg. cbn [good_key varg_ok] in *. assert (HL : (List.length k <= 64)%nat) by (unfold len in Hg; lia).
    destruct data as [[d|str|z|]|]; cbn [is_bytes].
    + destruct (hmac_new_ok v k (Some d) Hk HL Hd) as (o & E). now exists o.
    + unfold hmac_new. rewrite hmac_init_base by exact HL. reflexivity.
    + unfold hmac_new. rewrite hmac_init_base by exact HL. reflexivity.
    + unfold hmac_new. rewrite hmac_init_base by exact HL. reflexivity.
    + destruct (hmac_new_ok v k None Hk HL I) as (o & E). now exists o.
Qed.

Lemma padded_same name k1 k2 data : (List.length k1 <= 64)%nat -> (List.length k2 <= 64)%nat -> K0 k1 = K0 k2 ->
  hmac_new name (VBytes k1) data = hmac_new name (VBytes k2) data.
Proof.
  intros H1 H2 E. unfold hmac_new, hmac_init. assert (EK : forall k, (List.length k <= 64)%nat -> (@len Z k >? _KEY_SIZE) = false) by (intros; unfold len, _KEY_SIZE; lia).
  rewrite !EK by assumption. rewrite !stored by assumption. now rewrite E.
Qed.
