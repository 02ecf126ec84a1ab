(** * The constructor *)
From Verif Require Import PyBase PyFacts PyState Utils UtilsFacts CipherObj Modes Mac SpecNew.
From Verif Require Import SpecModes CipherLemmas CipherObjFacts ModeFacts CtrFacts ModeSpecFacts ModeLemmas ModeSem ModeEmpty ModeSim.
Open Scope string_scope.
Open Scope list_scope.
Open Scope Z_scope.

Definition mode_code (cl : mode_class) : Z :=
  match cl with ECB => MODE_ECB | CBC => MODE_CBC | CFB => MODE_CFB | OFB => MODE_OFB | CTR => MODE_CTR end.

(** Algorithm values. *)
Lemma algorithm_cases (v : pyval) :
  (exists a, v = VStr (alg_name a) /\ supported_algorithm v = true) \/
  (supported_algorithm v = false /\ forall key, base_init v key = Err (GOSTCipherError "GOSTCipherError: unsupported cipher algorithm")).
Proof.
  destruct v as [b|s|z|]; try (right; split; reflexivity).
  cbn [supported_algorithm]. destruct (String.eqb s "kuznechik") eqn:E1.
  - apply String.eqb_eq in E1. subst. left. exists Kuz. split; reflexivity.
  - destruct (String.eqb s "magma") eqn:E2.
    + apply String.eqb_eq in E2. subst. left. exists Mag. split; reflexivity.
    + right. split; [reflexivity|]. intros key. unfold base_init. now rewrite E1, E2.
Qed.

Lemma base_init_key a key : arg_ok key ->
  (bytes_of_length key (fun l => l =? 32) = true /\ exists c k, key = VBytes k /\ bytes_len 32 k /\
     base_init (VStr (alg_name a)) key = Ok c /\ made a k c) \/
  (bytes_of_length key (fun l => l =? 32) = false /\
     base_init (VStr (alg_name a)) key = Err (GOSTCipherError "GOSTCipherError: invalid key value")).
Proof.
  intros Hok. assert (Hsup : match VStr (alg_name a) with VStr s => String.eqb s "magma" || String.eqb s "kuznechik" | _ => false end = true) by now destruct a.
  destruct key as [k|s|z|]; try (right; split; [reflexivity|]; unfold base_init; rewrite Hsup; reflexivity).
  cbn [bytes_of_length]. destruct (len k =? 32) eqn:E.
  - left. split; [reflexivity|]. apply Z.eqb_eq in E. destruct (base_init_ok a k (conj E Hok)) as (c & H1 & H2).
    exists c, k. repeat (split; auto).
  - right. split; [reflexivity|]. unfold base_init. rewrite Hsup. cbn [negb check_value].
    change _KEY_SIZE_13 with 32. rewrite E. reflexivity.
Qed.

Lemma block_bytes_alg a : block_bytes (VStr (alg_name a)) = Z.of_nat (bsize a).
Proof. now destruct a. Qed.

Definition kw_ok (kw : kwargs) : Prop :=
  arg_ok (kw_get (kw_init_vect kw) VNone) /\ arg_ok (kw_get (kw_data kw) VNone).

Definition pad_check (v : pyval) : bool := match v with VInt z => (z =? 0x800000f0) || (z =? 0x800000f1) | _ => false end.

Lemma padding_init_cases alg key v : padding_init alg key v =
  let* c := base_init alg key in
  if pad_check v then match v with VInt p => Ok (c, p) | _ => Err TypeError end
  else Err (GOSTCipherError "GOSTCipherError: invalid padding mode").
Proof.
  unfold padding_init. destruct (base_init alg key); [|reflexivity]. cbn [bind]. destruct v; reflexivity.
Qed.
Lemma feedback_init_cases a key v c k : base_init (VStr (alg_name a)) key = Ok c -> made a k c ->
  feedback_init (VStr (alg_name a)) key v =
  if bytes_of_length v (fun l => l mod Z.of_nat (bsize a) =? 0) then match v with VBytes b => Ok (c, b) | _ => Err TypeError end
  else Err (GOSTCipherError "GOSTCipherError: invalid initialization vector value").
Proof.
  intros Hb Hm. unfold feedback_init. rewrite Hb. cbn [bind]. destruct v; try reflexivity. cbn [bytes_of_length].
  rewrite (made_bs _ _ _ Hm). destruct (len b mod Z.of_nat (bsize a) =? 0); reflexivity.
Qed.
Lemma ctr_init_cases a key v c k : base_init (VStr (alg_name a)) key = Ok c -> made a k c ->
  ctr_init (VStr (alg_name a)) key v =
  if bytes_of_length v (fun l => l =? Z.of_nat (bsize a) / 2) then match v with VBytes b => Ok (c, b, b ++ py_repeat 0 (half a)) | _ => Err TypeError end
  else Err (GOSTCipherError "GOSTCipherError: invalid initialization vector value").
Proof.
  intros Hb Hm. unfold ctr_init. rewrite Hb. cbn [bind]. destruct v; try reflexivity. cbn [bytes_of_length].
  rewrite (made_bs _ _ _ Hm). assert (Hh : Z.of_nat (bsize a) / 2 = half a) by now destruct a. rewrite Hh.
  destruct (len b =? half a); reflexivity.
Qed.

Lemma pad_check_code v : pad_check v = true -> exists p, v = VInt (pad_code p).
Proof.
  destruct v; try discriminate. cbn. intros H. apply orb_true_iff in H as [H|H]; apply Z.eqb_eq in H; subst.
  - now exists P1.
  - now exists P2.
Qed.

(** The IV as [new] passes it on. *)
Definition default_iv (a : balg) (cl : mode_class) : bytes :=
  match cl, a with
  | CTR, Kuz => _DEFAULT_IV_CTR_KUZNECHIK
  | CTR, Mag => _DEFAULT_IV_CTR_MAGMA
  | CBC, Mag => _DEFAULT_IV_CBC_MAGMA
  | _, Kuz => _DEFAULT_IV_KUZNECHIK
  | _, Mag => _DEFAULT_IV_MAGMA
  end.
Definition iv_arg (a : balg) (cl : mode_class) (kw : kwargs) : pyval := kw_get (kw_init_vect kw) (VBytes (default_iv a cl)).
Definition pad_arg (kw : kwargs) : pyval := kw_get (kw_pad_mode kw) (VInt PAD_MODE_1).

Lemma default_iv_ok a cl : bytes_ok (default_iv a cl).
Proof. destruct a, cl; concrete_bytes. Qed.
Lemma iv_arg_ok a cl kw : kw_ok kw -> arg_ok (iv_arg a cl kw).
Proof.
  intros [H _]. unfold iv_arg, kw_get in *. destruct (kw_init_vect kw); [exact H | apply default_iv_ok].
Qed.

(** One mode at a time. *)
Lemma new_ecb_eq alg key kw : new alg key (VInt MODE_ECB) kw =
  let* (c, p) := padding_init alg key (pad_arg kw) in Ok (NewMode (mk ECB c p [] [])).
Proof. reflexivity. Qed.
Lemma new_cbc_eq a key kw : new (VStr (alg_name a)) key (VInt MODE_CBC) kw =
  let* (c, p, iv) := cbc_init (VStr (alg_name a)) key (iv_arg a CBC kw) (pad_arg kw) in Ok (NewMode (mk CBC c p iv [])).
Proof. destruct a; reflexivity. Qed.
Lemma new_cfb_eq a key kw : new (VStr (alg_name a)) key (VInt MODE_CFB) kw =
  let* (c, iv) := feedback_init (VStr (alg_name a)) key (iv_arg a CFB kw) in Ok (NewMode (mk CFB c 0 iv [])).
Proof. destruct a; reflexivity. Qed.
Lemma new_ofb_eq a key kw : new (VStr (alg_name a)) key (VInt MODE_OFB) kw =
  let* (c, iv) := feedback_init (VStr (alg_name a)) key (iv_arg a OFB kw) in Ok (NewMode (mk OFB c 0 iv [])).
Proof. destruct a; reflexivity. Qed.
Lemma new_ctr_eq a key kw : new (VStr (alg_name a)) key (VInt MODE_CTR) kw =
  let* (c, iv, counter) := ctr_init (VStr (alg_name a)) key (iv_arg a CTR kw) in Ok (NewMode (mk CTR c 0 iv counter)).
Proof. destruct a; reflexivity. Qed.

Lemma iv_default_mult a cl : cl <> CTR -> bytes_of_length (VBytes (default_iv a cl)) (fun l => l mod Z.of_nat (bsize a) =? 0) = true.
Proof. intros H. destruct a, cl; try reflexivity; contradiction. Qed.

Lemma absent_iv a cl kw f : bytes_of_length (VBytes (default_iv a cl)) f = true ->
  absent_or (kw_init_vect kw) (fun v => bytes_of_length v f) = bytes_of_length (iv_arg a cl kw) f.
Proof. intros H. unfold absent_or, iv_arg, kw_get. destruct (kw_init_vect kw); [reflexivity | now symmetry]. Qed.
Lemma absent_pad kw : absent_or (kw_pad_mode kw) pad_check = pad_check (pad_arg kw).
Proof. unfold absent_or, pad_arg, kw_get. destruct (kw_pad_mode kw); reflexivity. Qed.

(** The mode numbers other than MAC. *)
Lemma mode_cases (v : pyval) : v <> VInt MODE_MAC ->
  (exists cl, v = VInt (mode_code cl)) \/
  (supported_mode v = false /\ forall alg key kw, new alg key v kw = Err (GOSTCipherError "GOSTCipherError: unsupported cipher mode")).
Proof.
  intros Hm. destruct v as [b|s|z|]; try (right; split; reflexivity).
  assert (Hz : z <> 255) by (intros ->; now apply Hm).
  destruct (Z.eq_dec z 1) as [->|H1]; [left; now exists ECB|].
  destruct (Z.eq_dec z 2) as [->|H2]; [left; now exists CBC|].
  destruct (Z.eq_dec z 3) as [->|H3]; [left; now exists CFB|].
  destruct (Z.eq_dec z 5) as [->|H5]; [left; now exists OFB|].
  destruct (Z.eq_dec z 6) as [->|H6]; [left; now exists CTR|].
  right. cbn [supported_mode existsb]. unfold new, MODE_ECB, MODE_CBC, MODE_CFB, MODE_OFB, MODE_CTR, MODE_MAC.
  rewrite !(proj2 (Z.eqb_neq z _)) by assumption. split; reflexivity.
Qed.

Lemma new_bad_algorithm alg key cl kw : (forall key, base_init alg key = Err (GOSTCipherError "GOSTCipherError: unsupported cipher algorithm")) ->
  new alg key (VInt (mode_code cl)) kw = Err (GOSTCipherError "GOSTCipherError: unsupported cipher algorithm").
Proof.
  intros H. destruct cl; unfold new; cbn [mode_code];
  unfold MODE_ECB, MODE_CBC, MODE_CFB, MODE_OFB, MODE_CTR; cbn [Z.eqb Pos.eqb];
  unfold cbc_init, padding_init, feedback_init, ctr_init; rewrite H; reflexivity.
Qed.

(** The outcome of [new] for the five cipher modes. *)
Lemma new_outcome algorithm key mode kw : mode <> VInt MODE_MAC -> arg_ok key -> kw_ok kw ->
  match first_failure (conditions algorithm key mode kw) with
  | Some msg => new algorithm key mode kw = Err (GOSTCipherError msg)
  | None => exists a k cl o, algorithm = VStr (alg_name a) /\ key = VBytes k /\ mode = VInt (mode_code cl) /\
      new algorithm key mode kw = Ok (NewMode o) /\
      bytes_len 32 k /\ made a k (o_cipher o) /\ o_class o = cl /\ valid o /\
      o_counter o = match cl with CTR => o_init_vect o ++ py_repeat 0 (half a) | _ => [] end /\
      o_init_vect o = match cl, iv_arg a cl kw with ECB, _ => [] | _, VBytes b => b | _, _ => [] end /\
      match cl with ECB | CBC => pad_arg kw = VInt (o_pad_mode o) | _ => o_pad_mode o = 0 end
  end.
Proof.
  intros Hmac Hkey Hkw. unfold conditions.
  destruct (mode_cases mode Hmac) as [[cl ->]|[Hs Hn]]; [|rewrite Hs; cbn [first_failure]; apply Hn].
  replace (supported_mode (VInt (mode_code cl))) with true by now destruct cl. cbn [first_failure].
  destruct (algorithm_cases algorithm) as [(a & -> & Ha)|[Ha Hb]]; [|rewrite Ha; now apply new_bad_algorithm].
  rewrite Ha. rewrite block_bytes_alg.
  destruct (base_init_key a key Hkey) as [(Hk & c & k & -> & Hl & Hbi & Hmd)|[Hk Hbi]]; rewrite Hk.
  2:{ destruct cl; cbn [mode_code]; rewrite ?new_ecb_eq, ?new_cbc_eq, ?new_cfb_eq, ?new_ofb_eq, ?new_ctr_eq;
      unfold cbc_init, padding_init, feedback_init, ctr_init; rewrite Hbi; reflexivity. }
  assert (Hco := proj1 Hmd). assert (Hbs := made_bs _ _ _ Hmd).
  change (fun p : pyval => match p with VInt z => (z =? 2147483888) || (z =? 2147483889) | _ => false end) with pad_check.
  rewrite absent_pad.
  destruct cl.
  - assert (Hnew := new_ecb_eq (VStr (alg_name a)) (VBytes k) kw). change (mode_code ECB) with MODE_ECB.
    change (mode_is (VInt MODE_ECB) [1; 2]) with true. change (mode_is (VInt MODE_ECB) [2; 3; 5]) with false.
    change (mode_is (VInt MODE_ECB) [6]) with false. change (mode_is (VInt MODE_ECB) [255]) with false. cbn [negb orb].
    rewrite padding_init_cases, Hbi in Hnew. cbn [bind] in Hnew.
    destruct (pad_check (pad_arg kw)) eqn:Ep; [|exact Hnew]. destruct (pad_check_code _ Ep) as (p & Epa). rewrite Epa in Hnew.
    cbn [bind] in Hnew.
    cbn [first_failure].
    exists a, k, ECB, (mk ECB c (pad_code p) [] []).
    split; [reflexivity|]. split; [reflexivity|]. split; [reflexivity|]. split; [exact Hnew|]. split; [exact Hl|].
    split; [exact Hmd|]. split; [reflexivity|]. split; [|split; [reflexivity|]].
    + split; [exact Hco|]. now exists p.
    + split; [reflexivity | exact Epa].
  - assert (Hnew := new_cbc_eq a (VBytes k) kw). change (mode_code CBC) with MODE_CBC.
    change (mode_is (VInt MODE_CBC) [1; 2]) with true. change (mode_is (VInt MODE_CBC) [2; 3; 5]) with true.
    change (mode_is (VInt MODE_CBC) [6]) with false. change (mode_is (VInt MODE_CBC) [255]) with false. cbn [negb orb].
    unfold cbc_init in Hnew.
    rewrite padding_init_cases, Hbi in Hnew. cbn [bind] in Hnew.
    destruct (pad_check (pad_arg kw)) eqn:Ep; [|exact Hnew]. destruct (pad_check_code _ Ep) as (p & Epa). rewrite Epa in Hnew.
    cbn [bind] in Hnew.
    cbn [first_failure].
    rewrite (absent_iv a CBC) by now apply iv_default_mult.
    rewrite (feedback_init_cases a _ _ c k Hbi Hmd) in Hnew.
    destruct (bytes_of_length (iv_arg a CBC kw) _) eqn:Ei; [|exact Hnew].
    pose proof (iv_arg_ok a CBC kw Hkw) as Hiv. destruct (iv_arg a CBC kw) as [b| | |] eqn:Eiv; try discriminate.
    cbn [bind] in Hnew. cbn [first_failure].
    exists a, k, CBC, (mk CBC c (pad_code p) b []).
    split; [reflexivity|]. split; [reflexivity|]. split; [reflexivity|]. split; [exact Hnew|]. split; [exact Hl|].
    split; [exact Hmd|]. split; [reflexivity|]. split; [|split; [reflexivity|]].
    + split; [exact Hco|]. split; [now exists p|]. split; [exact Hiv|]. cbn in Ei |- *. unfold block_size. cbn. rewrite Hbs. lia.
    + rewrite Eiv. split; [reflexivity|]. exact Epa.
  - assert (Hnew := new_cfb_eq a (VBytes k) kw). change (mode_code CFB) with MODE_CFB.
    change (mode_is (VInt MODE_CFB) [1; 2]) with false. change (mode_is (VInt MODE_CFB) [2; 3; 5]) with true.
    change (mode_is (VInt MODE_CFB) [6]) with false. change (mode_is (VInt MODE_CFB) [255]) with false. cbn [negb orb].
    cbn [first_failure].
    rewrite (absent_iv a CFB) by now apply iv_default_mult.
    rewrite (feedback_init_cases a _ _ c k Hbi Hmd) in Hnew.
    destruct (bytes_of_length (iv_arg a CFB kw) _) eqn:Ei; [|exact Hnew].
    pose proof (iv_arg_ok a CFB kw Hkw) as Hiv. destruct (iv_arg a CFB kw) as [b| | |] eqn:Eiv; try discriminate.
    cbn [bind] in Hnew. cbn [first_failure].
    exists a, k, CFB, (mk CFB c 0 b []).
    split; [reflexivity|]. split; [reflexivity|]. split; [reflexivity|]. split; [exact Hnew|]. split; [exact Hl|].
    split; [exact Hmd|]. split; [reflexivity|]. split; [|split; [reflexivity|]].
    + split; [exact Hco|]. split; [exact Hiv|]. cbn in Ei |- *. unfold block_size. cbn. rewrite Hbs. lia.
    + rewrite Eiv. split; [reflexivity|]. reflexivity.
  - assert (Hnew := new_ofb_eq a (VBytes k) kw). change (mode_code OFB) with MODE_OFB.
    change (mode_is (VInt MODE_OFB) [1; 2]) with false. change (mode_is (VInt MODE_OFB) [2; 3; 5]) with true.
    change (mode_is (VInt MODE_OFB) [6]) with false. change (mode_is (VInt MODE_OFB) [255]) with false. cbn [negb orb].
    cbn [first_failure].
    rewrite (absent_iv a OFB) by now apply iv_default_mult.
    rewrite (feedback_init_cases a _ _ c k Hbi Hmd) in Hnew.
    destruct (bytes_of_length (iv_arg a OFB kw) _) eqn:Ei; [|exact Hnew].
    pose proof (iv_arg_ok a OFB kw Hkw) as Hiv. destruct (iv_arg a OFB kw) as [b| | |] eqn:Eiv; try discriminate.
    cbn [bind] in Hnew. cbn [first_failure].
    exists a, k, OFB, (mk OFB c 0 b []).
    split; [reflexivity|]. split; [reflexivity|]. split; [reflexivity|]. split; [exact Hnew|]. split; [exact Hl|].
    split; [exact Hmd|]. split; [reflexivity|]. split; [|split; [reflexivity|]].
    + split; [exact Hco|]. split; [exact Hiv|]. cbn in Ei |- *. unfold block_size. cbn. rewrite Hbs. lia.
    + rewrite Eiv. split; [reflexivity|]. reflexivity.
  - assert (Hnew := new_ctr_eq a (VBytes k) kw). change (mode_code CTR) with MODE_CTR.
    change (mode_is (VInt MODE_CTR) [1; 2]) with false. change (mode_is (VInt MODE_CTR) [2; 3; 5]) with false.
    change (mode_is (VInt MODE_CTR) [6]) with true. change (mode_is (VInt MODE_CTR) [255]) with false. cbn [negb orb].
    cbn [first_failure].
    rewrite (absent_iv a CTR) by now destruct a.
    rewrite (ctr_init_cases a _ _ c k Hbi Hmd) in Hnew.
    destruct (bytes_of_length (iv_arg a CTR kw) _) eqn:Ei; [|exact Hnew].
    pose proof (iv_arg_ok a CTR kw Hkw) as Hiv. destruct (iv_arg a CTR kw) as [b| | |] eqn:Eiv; try discriminate.
    cbn [bind] in Hnew. cbn [first_failure].
    exists a, k, CTR, (mk CTR c 0 b (b ++ py_repeat 0 (half a))).
    split; [reflexivity|]. split; [reflexivity|]. split; [reflexivity|]. split; [exact Hnew|]. split; [exact Hl|].
    split; [exact Hmd|]. split; [reflexivity|]. split; [|split; [reflexivity|]].
    + split; [exact Hco|]. apply (ctr_start a k); [exact Hmd|]. split; [|exact Hiv]. cbn in Ei. apply Z.eqb_eq in Ei. rewrite Ei. now destruct a.
    + rewrite Eiv. split; [reflexivity|]. reflexivity.
Qed.
