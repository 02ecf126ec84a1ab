(** * Properties C64-C70: the key derivation function *)
From Verif Require Import PyBase PyState Utils Streebog SpecStreebog StreebogLemmas StreebogProps Hmac SpecHmac World HmacLemmas HmacProps Pbkdf SpecPbkdf PbkdfLemmas.
Open Scope string_scope.
Open Scope list_scope.
Open Scope Z_scope.

Ltac small_bytes := unfold bytes_ok; repeat (apply Forall_cons; [unfold byte_ok; lia|]); apply Forall_nil.
Definition password : bytes := [0x70; 0x61; 0x73; 0x73; 0x77; 0x6f; 0x72; 0x64].
Definition salt4 : bytes := [0x73; 0x61; 0x6c; 0x74].
Lemma password_ok : key_ok password.
Proof. split; [small_bytes | cbn; lia]. Qed.
Lemma salt4_ok : bytes_ok salt4.
Proof. small_bytes. Qed.

(** C64. *)
Theorem C64_pbkdf2 : forall u P S c n, bytes_ok P -> (List.length P <= 64)%nat -> bytes_ok S -> S <> [] -> 1 <= c -> 0 <= n <= (2 ^ 32 - 1) * 64 ->
  exists o o', pbkdf_new u (VBytes P) (Some (VBytes S)) (Some (VInt c)) = Ok o /\ derive n o = (Ok (pbkdf2 P S (Z.to_nat c) (Z.to_nat n)), o').
Proof.
  intros u P S c n HP HL HS N Hc Hn. assert (Hk : key_ok P) by (split; assumption). destruct (new_ok u P S (Some (VInt c)) HL N) as (o & E). exists o.
  destruct (derive_is P S c n o Hk HS (new_is u P S _ o Hk N E) (proj2 Hn)) as (o' & E' & _). exists o'. split; [exact E|]. rewrite E'. unfold more. replace (Datatypes.S (Z.to_nat (c - 1))) with (Z.to_nat c) by lia. reflexivity.
Qed.
Print Assumptions C64_pbkdf2.
(** Without a salt (or with an empty one) the salt is what [os.urandom] returned, and is the value of the property [salt]. *)
Theorem C64_random_salt : forall u P c s, u <> [] -> s = None \/ s = Some (VBytes []) ->
  pbkdf_new u (VBytes P) s c = pbkdf_new [] (VBytes P) (Some (VBytes u)) c /\ (forall o, pbkdf_new u (VBytes P) s c = Ok o -> salt o = u).
Proof.
  intros u P c s N [-> | ->]; rewrite !pbkdf_new_checks; (split; [destruct u; [contradiction | reflexivity]|]); intros o E; destruct (List.length P <=? 64)%nat; inversion E; reflexivity.
Qed.
Print Assumptions C64_random_salt.

(** The first control example of R 50.1.111-2016: one iteration, 64 octets. *)
Definition first_key : res bytes :=
  match pbkdf_new [] (VBytes password) (Some (VBytes salt4)) (Some (VInt 1)) with Ok o => fst (derive 64 o) | Err e => Err e end.
Example C64_example : key_ok password /\ bytes_ok salt4 /\ first_key =
  Ok (int_to_bytearray 0x64770af7f748c3b1c9ac831dbcfd85c26111b30a8a657ddc3056b80ca73e040d2854fd36811f6d825cc4ab66ec0a68a490a9e5cf5156b3a2b7eecddbf9a16b47 64).
Proof. split; [exact password_ok|]. split; [exact salt4_ok|]. vm_compute. reflexivity. Qed.

(** C65: after any calls. *)
Theorem C65_length : forall u P S c o cs n, bytes_ok P -> (List.length P <= 64)%nat -> bytes_ok S -> S <> [] ->
  pbkdf_new u (VBytes P) (Some (VBytes S)) (Some (VInt c)) = Ok o ->
  (0 <= n <= (2 ^ 32 - 1) * 64 -> exists d, fst (derive n (snd (World.run pstep cs o))) = Ok d /\ List.length d = Z.to_nat n /\ bytes_ok d) /\
  ((2 ^ 32 - 1) * 64 < n -> fst (derive n (snd (World.run pstep cs o))) = Err (GOSTPBKDFError "GOSTPBKDFError: invalid size of the derived key")) /\
  (n < 0 -> fst (derive n (snd (World.run pstep cs o))) = Ok []).
Proof.
  intros u P S c o cs n HP HL HS N E. assert (Hk : key_ok P) by (split; assumption). destruct (prun_is P S c cs Hk HS o (new_is u P S _ o Hk N E)) as [_ H]. split; [|split].
  - intros Hn. destruct (derive_is P S c n _ Hk HS H (proj2 Hn)) as (o' & E' & _). rewrite E'. eexists. split; [reflexivity|]. now apply pbkdf2_ok.
  - intros Hn. now rewrite derive_too_long.
  - intros Hn. assert (Hm : n <= max_len) by (unfold max_len; lia). destruct (derive_is P S c n _ Hk HS H Hm) as (o' & E' & _). rewrite E'. cbn [fst]. replace (Z.to_nat n) with 0%nat by lia. reflexivity.
Qed.
Print Assumptions C65_length.

Example C65_example : 0 <= 100 <= (2 ^ 32 - 1) * 64 /\ (2 ^ 32 - 1) * 64 < 274877906881 /\ (2 ^ 32 - 1) * 64 = 274877906880.
Proof. lia. Qed.

(** C66: after any calls. *)
Theorem C66_prefix : forall u P S c o cs cs' n m, bytes_ok P -> (List.length P <= 64)%nat -> bytes_ok S -> S <> [] ->
  pbkdf_new u (VBytes P) (Some (VBytes S)) (Some (VInt c)) = Ok o -> 0 <= n <= m -> m <= (2 ^ 32 - 1) * 64 ->
  exists d, fst (derive m (snd (World.run pstep cs o))) = Ok d /\ fst (derive n (snd (World.run pstep cs' o))) = Ok (firstn (Z.to_nat n) d).
Proof.
  intros u P S c o cs cs' n m HP HL HS N E Hn Hm. assert (Hk : key_ok P) by (split; assumption). pose proof (new_is u P S _ o Hk N E) as Ho.
  destruct (prun_is P S c cs Hk HS o Ho) as [_ H]. destruct (prun_is P S c cs' Hk HS o Ho) as [_ H'].
  destruct (derive_is P S c m _ Hk HS H Hm) as (o1 & E1 & _). assert (Hn' : n <= max_len) by (unfold max_len; lia). destruct (derive_is P S c n _ Hk HS H' Hn') as (o2 & E2 & _).
  rewrite E1, E2. eexists. split; [reflexivity|]. cbn [fst]. rewrite pbkdf2_prefix by (assumption || lia). reflexivity.
Qed.
Print Assumptions C66_prefix.

Example C66_example : 0 <= 65 <= 200 /\ 200 <= (2 ^ 32 - 1) * 64.
Proof. lia. Qed.

(** C67: every result is a function of the password, the salt and the iterations; also after [clear]. *)
Theorem C67_no_history : forall u P S c o cs, bytes_ok P -> (List.length P <= 64)%nat -> bytes_ok S -> S <> [] ->
  pbkdf_new u (VBytes P) (Some (VBytes S)) (Some (VInt c)) = Ok o ->
  fst (World.run pstep cs o) = map (answer P S (Nat.max 1 (Z.to_nat c))) cs.
Proof.
  intros u P S c o cs HP HL HS N E. assert (Hk : key_ok P) by (split; assumption). rewrite (proj1 (prun_is P S c cs Hk HS o (new_is u P S _ o Hk N E))).
  unfold more. replace (Datatypes.S (Z.to_nat (c - 1))) with (Nat.max 1 (Z.to_nat c)) by lia. reflexivity.
Qed.
Print Assumptions C67_no_history.
Theorem C67_repeat : forall u P S c o cs cs' n, bytes_ok P -> (List.length P <= 64)%nat -> bytes_ok S -> S <> [] ->
  pbkdf_new u (VBytes P) (Some (VBytes S)) (Some (VInt c)) = Ok o ->
  fst (derive n (snd (World.run pstep cs o))) = fst (derive n (snd (World.run pstep cs' o))).
Proof.
  intros u P S c o cs cs' n HP HL HS N E. assert (Hk : key_ok P) by (split; assumption). pose proof (new_is u P S _ o Hk N E) as Ho.
  destruct (prun_is P S c cs Hk HS o Ho) as [_ H]. destruct (prun_is P S c cs' Hk HS o Ho) as [_ H'].
  destruct (Z.le_gt_cases n max_len) as [L|L]; [|now rewrite !derive_too_long].
  destruct (derive_is P S c n _ Hk HS H L) as (o1 & E1 & _). destruct (derive_is P S c n _ Hk HS H' L) as (o2 & E2 & _). now rewrite E1, E2.
Qed.
Print Assumptions C67_repeat.

Example C67_example : exists o, pbkdf_new [] (VBytes password) (Some (VBytes salt4)) (Some (VInt 4096)) = Ok o /\ p_iterations o = VInt 4096.
Proof. eexists. split; reflexivity. Qed.

(** C68: the claim, and what happens instead. *)
Definition clear_forgets : Prop := forall u P S c n o o', key_ok P -> bytes_ok S -> S <> [] -> 0 < n <= (2 ^ 32 - 1) * 64 ->
  pbkdf_new u (VBytes P) (Some (VBytes S)) (Some (VInt c)) = Ok o -> pbkdf_clear o = (Ok tt, o') -> fst (derive n o') <> fst (derive n o).
Theorem C68_clear_keeps : forall u P S c n o o', bytes_ok P -> (List.length P <= 64)%nat -> bytes_ok S -> S <> [] -> 1 <= c -> 0 <= n <= (2 ^ 32 - 1) * 64 ->
  pbkdf_new u (VBytes P) (Some (VBytes S)) (Some (VInt c)) = Ok o -> pbkdf_clear o = (Ok tt, o') -> fst (derive n o') = Ok (pbkdf2 P S (Z.to_nat c) (Z.to_nat n)).
Proof.
  intros u P S c n o o' HP HL HS N Hc Hn E EC. destruct (C64_pbkdf2 u P S c n HP HL HS N Hc Hn) as (o1 & o2 & E1 & E2). rewrite E in E1. inversion E1; subst o1.
  pose proof (C67_repeat u P S c o [PClear] [] n HP HL HS N E) as HR. cbn [World.run pstep] in HR. rewrite EC in HR. cbn [pmap snd] in HR. rewrite HR, E2. reflexivity.
Qed.
Print Assumptions C68_clear_keeps.
Theorem C68_clear_refuted : ~ clear_forgets.
Proof.
  intros H. destruct (new_ok [] password salt4 (Some (VInt 1)) (proj2 password_ok) ltac:(discriminate)) as (o & E).
  apply (H [] password salt4 1 1 o (snd (pbkdf_clear o)) password_ok salt4_ok ltac:(discriminate) ltac:(lia) E eq_refl).
  exact (C67_repeat [] password salt4 1 o [PClear] [] 1 (proj1 password_ok) (proj2 password_ok) salt4_ok ltac:(discriminate) E).
Qed.
Print Assumptions C68_clear_refuted.

Example C68_example : exists o, pbkdf_new [] (VBytes password) (Some (VBytes salt4)) (Some (VInt 1)) = Ok o /\ p_password (snd (pbkdf_clear o)) <> p_password o.
Proof. eexists. split; [reflexivity | discriminate]. Qed.

(** C69: the claim; every case of [new]. *)
Definition pbkdf_errors : Prop := forall u p s c, match pbkdf_new u p s c with Ok _ | Err (GOSTPBKDFError _) => True | _ => False end.
Theorem C69_new_cases : forall u p s c,
  match p, s with
  | VBytes P, (None | Some (VBytes _)) =>
      if (List.length P <=? 64)%nat then exists o, pbkdf_new u p s c = Ok o
      else pbkdf_new u p s c = Err (GOSTHMACError "GOSTHMACError: invalid key value")
  | VBytes _, _ => pbkdf_new u p s c = Err (GOSTPBKDFError "GOSTPBKDFError: invalid salt value")
  | _, _ => pbkdf_new u p s c = Err (GOSTPBKDFError "GOSTPBKDFError: invalid password value")
  end.
Proof.
  intros u p s c. rewrite pbkdf_new_checks. destruct p as [P|str|z|]; try reflexivity. destruct s as [[s|str|z|]|]; try reflexivity; destruct (List.length P <=? 64)%nat; try reflexivity; eexists; reflexivity.
Qed.
Print Assumptions C69_new_cases.
Theorem C69_errors_refuted : ~ pbkdf_errors.
Proof. intros H. specialize (H [] (VBytes (repeat 65 65)) (Some (VBytes [1])) None). rewrite pbkdf_new_checks in H. exact H. Qed.
Print Assumptions C69_errors_refuted.
(** A count that is not an integer is accepted; [derive] then raises [TypeError]. *)
Theorem C69_count_unchecked : forall u P S it o n, bytes_ok P -> (List.length P <= 64)%nat -> bytes_ok S -> S <> [] ->
  pbkdf_new u (VBytes P) (Some (VBytes S)) (Some it) = Ok o -> match it with VInt _ => False | _ => True end -> 0 < n <= (2 ^ 32 - 1) * 64 ->
  exists o', derive n o = (Err TypeError, o').
Proof.
  intros u P S it o n HP HL HS N E Hit Hn. assert (Hk : key_ok P) by (split; assumption). exact (derive_bad_count P S it n o Hk HS (new_is u P S _ o Hk N E) Hit Hn).
Qed.
Print Assumptions C69_count_unchecked.

Example C69_example : (exists o, pbkdf_new [] (VBytes (repeat 65 64)) (Some (VBytes [1])) (Some (VStr "10")) = Ok o) /\ pbkdf_new [] (VStr "password") None None = Err (GOSTPBKDFError "GOSTPBKDFError: invalid password value").
Proof. split; [eexists; reflexivity | reflexivity]. Qed.

(** C70: the same results for the same calls. *)
Theorem C70_count_not_positive : forall u P S c o o1 cs, bytes_ok P -> (List.length P <= 64)%nat -> bytes_ok S -> S <> [] -> c <= 0 ->
  pbkdf_new u (VBytes P) (Some (VBytes S)) (Some (VInt c)) = Ok o -> pbkdf_new u (VBytes P) (Some (VBytes S)) (Some (VInt 1)) = Ok o1 ->
  fst (World.run pstep cs o) = fst (World.run pstep cs o1).
Proof.
  intros u P S c o o1 cs HP HL HS N Hc E E1. rewrite (C67_no_history u P S c o cs HP HL HS N E), (C67_no_history u P S 1 o1 cs HP HL HS N E1). replace (Nat.max 1 (Z.to_nat c)) with 1%nat by lia. reflexivity.
Qed.
Print Assumptions C70_count_not_positive.

Example C70_example : exists o, pbkdf_new [] (VBytes password) (Some (VBytes salt4)) (Some (VInt (-5))) = Ok o.
Proof. eexists. reflexivity. Qed.
