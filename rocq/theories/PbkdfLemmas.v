(** * PBKDF: the object against the specification *)
From Verif Require Import PyBase PyState PyFacts Utils UtilsFacts Streebog SpecStreebog SpecHashHist StreebogFacts StreebogFacts2 StreebogObj StreebogLemmas StreebogProps Hmac SpecHmac World HmacLemmas HmacProps Pbkdf SpecPbkdf.
Open Scope string_scope.
Open Scope list_scope.
Open Scope Z_scope.

Lemma xor_eq a : forall b, add_xor a b = xor_list a b.
Proof. induction a as [|x a IH]; intros [|y b]; try reflexivity. unfold xor_list in *. cbn [add_xor combine map fst snd]. now rewrite IH. Qed.

Lemma INT_eq i : int_to_bytearray i 4 = INT i.
Proof.
  rewrite int_to_bytearray_seq. change (seq 0 (Z.to_nat 4)) with [0; 1; 2; 3]%nat. cbn [map]. unfold INT.
  change (256 ^ (4 - 1 - Z.of_nat 0)) with (2 ^ 24). change (256 ^ (4 - 1 - Z.of_nat 1)) with (2 ^ 16). change (256 ^ (4 - 1 - Z.of_nat 2)) with (2 ^ 8). change (256 ^ (4 - 1 - Z.of_nat 3)) with 1.
  now rewrite Z.div_1_r.
Qed.

(** The HMAC object holds the key. *)
Definition keyed (P : bytes) (h : hmac_obj) : Prop := exists l n, state_is S512 (K0 P) l n h.

Lemma prf P h d : key_ok P -> keyed P h -> bytes_ok d ->
  exists h1 h2, hmac_reset h = (Ok tt, h1) /\ hmac_update (VBytes d) h1 = (Ok tt, h2) /\ hmac_digest h2 = (Ok (PRF P d), h2) /\ keyed P h2.
Proof.
  intros HP (l & n & H) Hd. pose proof (base_is S512 P (proj1 HP) (proj2 HP)) as HB. exists (hmac_base S512 P).
  destruct (update_is _ _ _ _ _ d HB Hd) as (h2 & E & H2). exists h2. split; [exact (reset_is _ _ _ _ _ H)|]. split; [exact E|].
  split; [|eexists; eexists; exact H2]. rewrite (digest_is _ _ _ _ _ H2). cbn [app]. change (0 =? 0) with true. cbv iota. rewrite one_effective, K0_firstn by exact HP. reflexivity.
Qed.

Lemma PRF_ok P d : key_ok P -> bytes_ok d -> List.length (PRF P d) = 64%nat /\ bytes_ok (PRF P d).
Proof.
  intros HP Hd. unfold PRF, hmac. apply (outer_ok S512); [apply K0_ok, HP|]. apply streebog_ok. apply bytes_ok_app. split; [apply with_pad_ok; [unfold byte_ok; lia | apply K0_ok, HP] | exact Hd].
Qed.

(** The object: password, salt and iterations of the construction. *)
Record pb_is (P S : bytes) (it : pyval) (o : pbkdf_obj) : Prop := {
  pb_salt : p_salt o = S;
  pb_it : p_iterations o = it;
  pb_key : keyed P (p_hmac o)
}.

Lemma INT_ok i : bytes_ok (INT i).
Proof. rewrite <- INT_eq. apply int_to_bytearray_ok. Qed.

Lemma u_first_is P S it o i : key_ok P -> bytes_ok S -> pb_is P S it o -> p_counter o = i ->
  exists o', _u_first o = (Ok (U P S i 0), o') /\ pb_is P S it o' /\ p_counter o' = i.
Proof.
  intros HP HS [H1 H2 H3] Hi. unfold _u_first. unfold bindM at 1. unfold on_hmac at 1.
  assert (Hd : bytes_ok (S ++ INT i)) by (apply bytes_ok_app; split; [exact HS | apply INT_ok]).
  destruct (prf P _ _ HP H3 Hd) as (h1 & h2 & E1 & E2 & E3 & HK). rewrite E1. unfold bindM at 1. unfold getM at 1. cbn [p_set_hmac p_salt p_counter]. rewrite H1, Hi, INT_eq.
  unfold bindM at 1. unfold on_hmac at 1. cbn [p_set_hmac p_hmac]. rewrite E2. unfold on_hmac. cbn [p_set_hmac p_hmac]. rewrite E3. eexists. split; [reflexivity|].
  split; [split; cbn [p_set_hmac p_salt p_iterations p_hmac]; assumption | exact Hi].
Qed.

Lemma u_iter_is P S it o i u : key_ok P -> bytes_ok u -> pb_is P S it o -> p_counter o = i ->
  exists o', _u_iter u o = (Ok (PRF P u), o') /\ pb_is P S it o' /\ p_counter o' = i.
Proof.
  intros HP Hu [H1 H2 H3] Hi. unfold _u_iter. unfold bindM at 1. unfold on_hmac at 1.
  destruct (prf P _ _ HP H3 Hu) as (h1 & h2 & E1 & E2 & E3 & HK). rewrite E1. 
  unfold bindM at 1. unfold on_hmac at 1. cbn [p_set_hmac p_hmac]. rewrite E2. unfold on_hmac. cbn [p_set_hmac p_hmac]. rewrite E3. eexists. split; [reflexivity|].
  split; [split; cbn [p_set_hmac p_salt p_iterations p_hmac]; assumption | exact Hi].
Qed.

Lemma U_ok P S i j : key_ok P -> bytes_ok S -> List.length (U P S i j) = 64%nat /\ bytes_ok (U P S i j).
Proof.
  intros HP HS. induction j as [|j IH]; cbn [U]; apply PRF_ok; try exact HP; [apply bytes_ok_app; split; [exact HS | apply INT_ok] | apply IH].
Qed.
Lemma T_ok P S i n : key_ok P -> bytes_ok S -> List.length (T P S i n) = 64%nat /\ bytes_ok (T P S i n).
Proof.
  intros HP HS. induction n as [|n IH]; [now apply U_ok|]. cbn [T]. rewrite <- xor_eq. destruct (U_ok P S i (Datatypes.S n) HP HS) as [L1 O1]. destruct IH as [L2 O2].
  split; [rewrite add_xor_length, L1, L2; reflexivity | now apply add_xor_ok].
Qed.

Definition f_body : Z -> bytes * bytes -> M pbkdf_obj (bytes * bytes) := fun _ '(t, internal) =>
  let! internal := _u_iter internal in retM (add_xor t internal, internal).

Lemma f_loop P S it i : key_ok P -> bytes_ok S -> forall (xs : list Z) j o, pb_is P S it o -> p_counter o = i ->
  exists o', forM xs (T P S i j, U P S i j) f_body o = (Ok (T P S i (j + List.length xs), U P S i (j + List.length xs)), o') /\ pb_is P S it o' /\ p_counter o' = i.
Proof.
  intros HP HS. induction xs as [|x xs IH]; intros j o Ho Hi; [exists o; cbn [List.length]; rewrite Nat.add_0_r; repeat split; try assumption; apply Ho|].
  cbn [forM]. unfold bindM at 1. unfold f_body at 1. unfold bindM at 1. destruct (u_iter_is P S it o i (U P S i j) HP ltac:(now apply U_ok) Ho Hi) as (o1 & E1 & H1 & Hi1). rewrite E1. unfold retM at 1.
  change (PRF P (U P S i j)) with (U P S i (Datatypes.S j)). rewrite xor_eq. change (xor_list (T P S i j) (U P S i (Datatypes.S j))) with (T P S i (Datatypes.S j)).
  destruct (IH (Datatypes.S j) o1 H1 Hi1) as (o' & E & H). exists o'. split; [|exact H]. cbn [List.length]. rewrite Nat.add_succ_r. exact E.
Qed.

(** The number of iterations after the first. *)
Definition more (z : Z) : nat := Z.to_nat (z - 1).

Lemma range_1_length z : List.length (py_range 1 z 1) = more z.
Proof. rewrite py_range_up_from, map_length, seq_length. reflexivity. Qed.

Lemma f_is P S z o i : key_ok P -> bytes_ok S -> pb_is P S (VInt z) o -> p_counter o = i ->
  exists o', _f o = (Ok (T P S i (more z)), o') /\ pb_is P S (VInt z) o' /\ p_counter o' = i.
Proof.
  intros HP HS Ho Hi. unfold _f. unfold bindM at 1. destruct (u_first_is P S _ o i HP HS Ho Hi) as (o1 & E1 & H1 & Hi1). rewrite E1.
  unfold bindM at 1. destruct (u_first_is P S _ o1 i HP HS H1 Hi1) as (o2 & E2 & H2 & Hi2). rewrite E2. unfold bindM at 1. unfold getM at 1. rewrite (pb_it _ _ _ _ H2).
  unfold bindM at 1. unfold liftM at 1. cbn [range_1]. change (fun (_ : Z) '(t, internal) => _) with f_body.
  destruct (f_loop P S (VInt z) i HP HS (py_range 1 z 1) 0 o2 H2 Hi2) as (o3 & E3 & H3). unfold bindM at 1. change (T P S i 0) with (U P S i 0) in E3. rewrite E3. rewrite range_1_length in *. exists o3. split; [reflexivity | exact H3].
Qed.

Definition calc_body : Z -> bytes -> M pbkdf_obj bytes := fun i result =>
  (let! self := getM in putM (p_set_counter self i)) ;!
  let! t := _f in retM (result ++ t).

Lemma calc_loop P S z : key_ok P -> bytes_ok S -> forall xs acc o, pb_is P S (VInt z) o ->
  exists o', forM xs acc calc_body o = (Ok (acc ++ concat (map (fun i => T P S i (more z)) xs)), o') /\ pb_is P S (VInt z) o'.
Proof.
  intros HP HS. induction xs as [|x xs IH]; intros acc o Ho; [exists o; cbn [map concat]; rewrite app_nil_r; split; [reflexivity | exact Ho]|].
  cbn [forM]. unfold bindM at 1. unfold calc_body at 1. unfold bindM at 1. unfold bindM at 1. unfold getM at 1. unfold putM at 1. unfold bindM at 1.
  destruct (f_is P S z (p_set_counter o x) x HP HS) as (o1 & E1 & H1 & _); [destruct Ho; split; assumption | reflexivity|]. rewrite E1. unfold retM at 1.
  destruct (IH (acc ++ T P S x (more z)) o1 H1) as (o' & E & H). exists o'. split; [|exact H]. cbn [map concat]. rewrite app_assoc. exact E.
Qed.

(** The number of blocks. *)
Lemma num_block dk : (if negb (dk mod 64 =? 0) then dk / 64 + 1 else dk / 64) = (dk + 63) / 64.
Proof. destruct (Z.eqb_spec (dk mod 64) 0); cbn [negb]; lia. Qed.

Lemma calculate_is P S z dk o : key_ok P -> bytes_ok S -> pb_is P S (VInt z) o ->
  exists o', _calculate_pbkdf dk o = (Ok (concat (map (fun i => T P S i (more z)) (py_range 1 ((dk + 63) / 64 + 1) 1))), o') /\ pb_is P S (VInt z) o'.
Proof.
  intros HP HS Ho. unfold _calculate_pbkdf. unfold bindM at 1. unfold getM at 1. unfold bindM at 1. unfold putM at 1. change _PBKDF_BLOCK_SIZE with 64. rewrite <- num_block.
  change (fun (i : Z) (result : list Z) => _) with calc_body.
  destruct (negb (dk mod 64 =? 0)); unfold bindM, getM, putM, retM; cbn [p_set_num_block p_num_block];
    match goal with |- exists o', forM ?xs [] calc_body ?o1 = _ /\ _ => destruct (calc_loop P S z HP HS xs [] o1) as (o' & E & H); [destruct Ho; split; assumption | exists o'; split; [exact E | exact H]] end.
Qed.

Lemma range_seq n : 0 <= n -> py_range 1 (n + 1) 1 = map Z.of_nat (seq 1 (Z.to_nat n)).
Proof.
  intros H. rewrite py_range_up_from. replace (Z.to_nat (n + 1 - 1)) with (Z.to_nat n) by lia. rewrite <- seq_shift, map_map. apply map_ext. intros i. lia.
Qed.

Lemma concat_length {A} (l : list (list A)) n : Forall (fun x => List.length x = n) l -> List.length (concat l) = (n * List.length l)%nat.
Proof. induction 1 as [|x l Hx HF IH]; cbn [concat List.length]; [lia|]. rewrite app_length, IH, Hx. lia. Qed.

(** derive. *)
Definition max_len : Z := (2 ^ 32 - 1) * 64.

Lemma stream_length P S n (is : list Z) : key_ok P -> bytes_ok S -> List.length (concat (map (fun i => T P S i n) is)) = (64 * List.length is)%nat.
Proof.
  intros HP HS. rewrite (concat_length _ 64), map_length; [reflexivity|]. apply Forall_forall. intros x Hx. apply in_map_iff in Hx as (i & <- & _). now apply T_ok.
Qed.

Lemma derive_is P S z dk o : key_ok P -> bytes_ok S -> pb_is P S (VInt z) o -> dk <= max_len ->
  exists o', derive dk o = (Ok (pbkdf2 P S (Datatypes.S (more z)) (Z.to_nat dk)), o') /\ pb_is P S (VInt z) o'.
Proof.
  intros HP HS Ho Hdk. unfold derive. replace (dk >? (2 ^ 32 - 1) * 64) with false by (unfold max_len in Hdk; lia). unfold bindM.
  destruct (calculate_is P S z dk o HP HS Ho) as (o' & E & H). rewrite E. exists o'. split; [|exact H]. unfold retM. do 2 f_equal. unfold pbkdf2. cbn [Nat.sub]. rewrite Nat.sub_0_r.
  destruct (Z.le_gt_cases 0 dk) as [H0|H0].
  - rewrite range_seq by lia. rewrite map_map. rewrite py_upto_firstn.
    + do 4 f_equal. lia.
    + exact H0.
  - replace (Z.to_nat dk) with 0%nat by lia. rewrite py_range_empty by lia. cbn [map concat]. rewrite firstn_O. unfold py_upto. apply firstn_nil.
Qed.
Lemma derive_too_long dk o : max_len < dk -> derive dk o = (Err (GOSTPBKDFError "GOSTPBKDFError: invalid size of the derived key"), o).
Proof. intros H. unfold derive. replace (dk >? (2 ^ 32 - 1) * 64) with true by (unfold max_len in H; lia). reflexivity. Qed.

Lemma hexderive_derive dk o : hexderive dk o = (match derive dk o with (Ok d, o') => (Ok (py_hex d), o') | (Err e, o') => (Err e, o') end).
Proof. unfold hexderive, derive. destruct (dk >? _); [reflexivity|]. unfold bindM. destruct (_calculate_pbkdf dk o) as [[r|e] o']; reflexivity. Qed.

(** An iteration count that is not an integer. *)
Lemma derive_bad_count P S it dk o : key_ok P -> bytes_ok S -> pb_is P S it o -> match it with VInt _ => False | _ => True end -> 0 < dk <= max_len ->
  exists o', derive dk o = (Err TypeError, o').
Proof.
  intros HP HS Ho Hit Hdk. unfold derive. replace (dk >? (2 ^ 32 - 1) * 64) with false by (unfold max_len in Hdk; lia). unfold bindM at 1.
  assert (HC : exists o', _calculate_pbkdf dk o = (Err TypeError, o')).
  { unfold _calculate_pbkdf. unfold bindM at 1. unfold getM at 1. unfold bindM at 1. unfold putM at 1. change _PBKDF_BLOCK_SIZE with 64.
    assert (HL : forall (n : Z) o1, 1 <= n -> pb_is P S it o1 -> exists o', forM (py_range 1 (n + 1) 1) [] calc_body o1 = (Err TypeError, o')).
    { intros n o1 Hn H1. rewrite py_range_cons by lia. cbn [forM]. unfold bindM at 1. unfold calc_body at 1. unfold bindM at 1. unfold bindM at 1. unfold getM at 1. unfold putM at 1. unfold bindM at 1.
      unfold _f. unfold bindM at 1. destruct (u_first_is P S it (p_set_counter o1 1) 1 HP HS) as (o2 & E2 & H2 & Hi2); [destruct H1; split; assumption | reflexivity|]. rewrite E2.
      unfold bindM at 1. destruct (u_first_is P S it o2 1 HP HS H2 Hi2) as (o3 & E3 & H3 & _). rewrite E3. unfold bindM at 1. unfold getM at 1. rewrite (pb_it _ _ _ _ H3).
      unfold bindM at 1. unfold liftM at 1. destruct it; [..|]; try contradiction; eexists; reflexivity. }
    change (fun (i : Z) (result : list Z) => _) with calc_body.
    pose proof (num_block dk) as NB. destruct (negb (dk mod 64 =? 0)); unfold bindM, getM, putM, retM; cbn [p_set_num_block p_num_block];
      (apply HL; [lia | destruct Ho; split; assumption]). }
  destruct HC as (o' & E). rewrite E. eexists; reflexivity.
Qed.

(** ** Construction *)

Lemma new_is u P S it o : key_ok P -> S <> [] -> pbkdf_new u (VBytes P) (Some (VBytes S)) it = Ok o ->
  pb_is P S (match it with Some c => c | None => VInt 1000 end) o.
Proof.
  intros HP HS E. unfold pbkdf_new, pbkdf_init in E. destruct S as [|x S]; [contradiction|].
  change (VStr "HMAC_GOSTR3411_2012_512") with (VStr (mname S512)) in E. rewrite hmac_init_base in E by apply HP. cbn [bind] in E. inversion E; subst o.
  split; [reflexivity..|]. exists [], 0. apply base_is; apply HP.
Qed.

(** ** Histories *)

Inductive pcall : Type :=
| PDerive (n : Z)
| PHexderive (n : Z)
| PClear.

Definition pmap {A} (f : A -> hres) (p : res A * pbkdf_obj) : res hres * pbkdf_obj :=
  match p with (Ok a, o) => (Ok (f a), o) | (Err e, o) => (Err e, o) end.
Definition pstep (c : pcall) (o : pbkdf_obj) : res hres * pbkdf_obj :=
  match c with
  | PDerive n => pmap RBytes (derive n o)
  | PHexderive n => pmap RStr (hexderive n o)
  | PClear => pmap (fun _ => RNone) (pbkdf_clear o)
  end.

(** The result of a call, from the password, the salt and the number of iterations. *)
Definition answer (P S : bytes) (c : nat) (x : pcall) : res hres :=
  match x with
  | PDerive n => if n <=? max_len then Ok (RBytes (pbkdf2 P S c (Z.to_nat n))) else Err (GOSTPBKDFError "GOSTPBKDFError: invalid size of the derived key")
  | PHexderive n => if n <=? max_len then Ok (RStr (hex_of (pbkdf2 P S c (Z.to_nat n)))) else Err (GOSTPBKDFError "GOSTPBKDFError: invalid size of the derived key")
  | PClear => Ok RNone
  end.

Lemma pbkdf2_ok P S c n : key_ok P -> bytes_ok S -> List.length (pbkdf2 P S c n) = n /\ bytes_ok (pbkdf2 P S c n).
Proof.
  intros HP HS. unfold pbkdf2. rewrite <- (map_map Z.of_nat (fun i => T P S i (c - 1))). split.
  - apply firstn_length_le. rewrite stream_length by assumption. rewrite map_length, seq_length. lia.
  - apply bytes_ok_firstn. unfold bytes_ok. apply Forall_concat. apply Forall_forall. intros x Hx. apply in_map_iff in Hx as (i & <- & _). now apply T_ok.
Qed.

Lemma pstep_is P S z o c : key_ok P -> bytes_ok S -> pb_is P S (VInt z) o ->
  fst (pstep c o) = answer P S (Datatypes.S (more z)) c /\ pb_is P S (VInt z) (snd (pstep c o)).
Proof.
  intros HP HS Ho. destruct c as [n|n|]; cbn [pstep answer].
  - destruct (Z.leb_spec n max_len) as [H|H]; [destruct (derive_is P S z n o HP HS Ho H) as (o' & E & H'); rewrite E; split; [reflexivity | exact H'] | rewrite derive_too_long by exact H; split; [reflexivity | exact Ho]].
  - rewrite hexderive_derive. destruct (Z.leb_spec n max_len) as [H|H]; [destruct (derive_is P S z n o HP HS Ho H) as (o' & E & H'); rewrite E; split; [|exact H'] | rewrite derive_too_long by exact H; split; [reflexivity | exact Ho]].
    cbn [pmap fst]. now rewrite hex_eq by now apply pbkdf2_ok.
  - unfold pbkdf_clear, bindM, getM, putM. cbn [pmap fst snd]. split; [reflexivity|]. destruct Ho; split; assumption.
Qed.

Lemma prun_is P S z cs : key_ok P -> bytes_ok S -> forall o, pb_is P S (VInt z) o ->
  fst (World.run pstep cs o) = map (answer P S (Datatypes.S (more z))) cs /\ pb_is P S (VInt z) (snd (World.run pstep cs o)).
Proof.
  intros HP HS. induction cs as [|c cs IH]; intros o Ho; [split; [reflexivity | exact Ho]|]. rewrite run_cons. destruct (pstep_is P S z o c HP HS Ho) as [E H].
  destruct (IH _ H) as [E' H']. cbn [fst snd map]. rewrite E, E'. split; [reflexivity | exact H'].
Qed.

Lemma new_ok u P S it : (List.length P <= 64)%nat -> S <> [] -> exists o, pbkdf_new u (VBytes P) (Some (VBytes S)) it = Ok o.
Proof.
  intros HP HS. unfold pbkdf_new, pbkdf_init. destruct S as [|x S]; [contradiction|].
  change (VStr "HMAC_GOSTR3411_2012_512") with (VStr (mname S512)). rewrite hmac_init_base by exact HP. eexists; reflexivity.
Qed.

(** Prefixes. *)
Lemma firstn_concat_prefix P S n (is1 is2 : list Z) m : key_ok P -> bytes_ok S -> (m <= 64 * List.length is1)%nat ->
  firstn m (concat (map (fun i => T P S i n) (is1 ++ is2))) = firstn m (concat (map (fun i => T P S i n) is1)).
Proof.
  intros HP HS H. rewrite map_app, concat_app, firstn_app, stream_length by assumption. replace (m - _)%nat with 0%nat by lia. cbn [firstn]. apply app_nil_r.
Qed.
Lemma pbkdf2_prefix P S c n m : key_ok P -> bytes_ok S -> (n <= m)%nat -> firstn n (pbkdf2 P S c m) = pbkdf2 P S c n.
Proof.
  intros HP HS H. unfold pbkdf2. rewrite firstn_firstn, Nat.min_l by exact H. rewrite <- !(map_map Z.of_nat (fun i => T P S i (c - 1))).
  replace ((m + 63) / 64)%nat with ((n + 63) / 64 + ((m + 63) / 64 - (n + 63) / 64))%nat by (pose proof (Nat.div_le_mono (n + 63) (m + 63) 64 ltac:(lia) ltac:(lia)); lia).
  rewrite seq_app, map_app. apply firstn_concat_prefix; [assumption..|]. rewrite map_length, seq_length. lia.
Qed.

(** Which arguments are accepted. *)
Lemma pbkdf_new_checks u p s c :
  pbkdf_new u p s c =
  match p with
  | VBytes P =>
      match s with
      | None | Some (VBytes _) =>
          if (List.length P <=? 64)%nat
          then Ok {| p_password := P; p_salt := match s with Some (VBytes (x :: s)) => x :: s | _ => u end;
                     p_iterations := match c with Some c => c | None => VInt 1000 end; p_num_block := 0; p_counter := 0; p_hmac := hmac_base S512 P |}
          else Err (GOSTHMACError "GOSTHMACError: invalid key value")
      | _ => Err (GOSTPBKDFError "GOSTPBKDFError: invalid salt value")
      end
  | _ => Err (GOSTPBKDFError "GOSTPBKDFError: invalid password value")
  end.
Proof.
  unfold pbkdf_new, pbkdf_init. destruct p as [P|str|z|]; try reflexivity.
  assert (EH : hmac_init (VStr "HMAC_GOSTR3411_2012_512") (VBytes P) (VBytes []) = if (List.length P <=? 64)%nat then Ok (hmac_base S512 P) else Err (GOSTHMACError "GOSTHMACError: invalid key value")).
  { destruct (Nat.leb_spec (List.length P) 64) as [H|H].
    - change (VStr "HMAC_GOSTR3411_2012_512") with (VStr (mname S512)). now rewrite hmac_init_base.
    - unfold hmac_init. replace (len P >? _KEY_SIZE) with true by (unfold len, _KEY_SIZE; lia). reflexivity. }
  destruct s as [[[|x s]|str|z|]|]; try reflexivity; rewrite EH; destruct (List.length P <=? 64)%nat; reflexivity.
Qed.
