(** * Properties C109-C113: reuse of gamma, equivalent passwords, what clear leaves in memory, sizes of random outputs *)
From Verif Require Import PyBase PyFacts PyState Utils UtilsFacts CipherObj Modes Mac SpecNew.
From Verif Require Import SpecModes CipherLemmas CipherObjFacts ModeFacts CtrFacts ModeSpecFacts ModeLemmas ModeSem ModeConf ModeProps ModeEmpty ModeSim ModeNew ModeHist ModeMore ModeReuse.
Open Scope string_scope.
Open Scope list_scope.
Open Scope Z_scope.

(** C109.  An object in any state: two messages encrypted from that state give ciphertexts whose sum is the sum of the messages. *)
Theorem C109_same_state : forall a key cl kw o m1 m2, bytes_ok key -> kw_ok kw -> object_of a key cl kw o ->
  cl = CTR \/ cl = OFB /\ (exists iv, iv_arg a cl kw = VBytes iv /\ iv <> []) -> bytes_ok m1 -> bytes_ok m2 ->
  exists c1 c2 o1 o2, encrypt (VBytes m1) o = (Ok c1, o1) /\ encrypt (VBytes m2) o = (Ok c2, o2) /\ bxor c1 c2 = bxor m1 m2.
Proof. exact two_time. Qed.
Print Assumptions C109_same_state.
(** CFB: as far as the register reaches. *)
Theorem C109_same_state_cfb : forall a key kw iv o m1 m2, bytes_ok key -> kw_ok kw -> object_of a key CFB kw o ->
  iv_arg a CFB kw = VBytes iv -> iv <> [] -> bytes_ok m1 -> bytes_ok m2 ->
  exists c1 c2 o1 o2, encrypt (VBytes m1) o = (Ok c1, o1) /\ encrypt (VBytes m2) o = (Ok c2, o2) /\
    let z := List.length (o_init_vect o) in bxor (firstn z c1) (firstn z c2) = bxor (firstn z m1) (firstn z m2).
Proof. exact two_time_cfb. Qed.
Print Assumptions C109_same_state_cfb.
(** Two objects made with the same key and without an initialization vector. *)
Theorem C109_default_vector : forall a key cl m1 m2 o1 o2, bytes_len 32 key -> cl = CTR \/ cl = OFB -> bytes_ok m1 -> bytes_ok m2 ->
  let kw := {| kw_init_vect := None; kw_data := None; kw_pad_mode := None |} in
  new (alg a) (VBytes key) (VInt (mode_code cl)) kw = Ok (NewMode o1) -> new (alg a) (VBytes key) (VInt (mode_code cl)) kw = Ok (NewMode o2) ->
  exists c1 c2, result (encrypt (VBytes m1) o1) = Ok c1 /\ result (encrypt (VBytes m2) o2) = Ok c2 /\ bxor c1 c2 = bxor m1 m2.
Proof.
  intros a key cl m1 m2 o1 o2 Hk Hcl H1 H2 kw E1 E2. rewrite E1 in E2. injection E2 as <-.
  destruct (two_time a key cl kw o1 m1 m2) as (c1 & c2 & s1 & s2 & X1 & X2 & X); auto.
  - apply Hk.
  - unfold kw_ok, kw. cbn. tauto.
  - now apply object_fresh.
  - destruct Hcl as [-> | ->]; [now left | right]. split; [reflexivity|]. destruct a; eexists; (split; [reflexivity | discriminate]).
  - exists c1, c2. rewrite X1, X2. auto.
Qed.
Print Assumptions C109_default_vector.

(** C110.  Two counter-mode objects with one key: blocks [i] and [j] are under the same gamma block exactly
    when the vectors are equal and the positions agree modulo 256. *)
Theorem C110_two_objects : forall a key kw1 kw2 iv1 iv2 m1 m2 i j, bytes_len 32 key -> gives_iv kw1 iv1 -> gives_iv kw2 iv2 ->
  bytes_len (half a) iv1 -> bytes_len (half a) iv2 -> bytes_ok m1 -> bytes_ok m2 ->
  ((i + 1) * bsize a <= List.length m1)%nat -> ((j + 1) * bsize a <= List.length m2)%nat ->
  exists o1 o2 ct1 ct2, new (alg a) (VBytes key) (VInt MODE_CTR) kw1 = Ok (NewMode o1) /\ new (alg a) (VBytes key) (VInt MODE_CTR) kw2 = Ok (NewMode o2) /\
    result (encrypt (VBytes m1) o1) = Ok ct1 /\ result (encrypt (VBytes m2) o2) = Ok ct2 /\
    (bxor (nth_block (bsize a) ct1 i) (nth_block (bsize a) ct2 j) = bxor (nth_block (bsize a) m1 i) (nth_block (bsize a) m2 j) <->
     iv1 = iv2 /\ (i mod 256 = j mod 256)%nat).
Proof. exact ctr_two. Qed.
Print Assumptions C110_two_objects.

Definition example_key : bytes := map Z.of_nat (seq 1 32).
Definition ciphertext (o : res new_obj) (m : bytes) : res bytes :=
  match o with Ok (NewMode o) => result (encrypt (VBytes m) o) | Ok _ => Err TypeError | Err e => Err e end.
Example C109_example :
  let o := new (VStr "magma") (VBytes example_key) (VInt (mode_code OFB)) {| kw_init_vect := None; kw_data := None; kw_pad_mode := None |} in
  exists c1 c2, ciphertext o [1; 2; 3; 4; 5; 6; 7; 8; 9; 10] = Ok c1 /\ ciphertext o [9; 9; 9; 9; 9; 9; 9; 9; 9; 9; 9] = Ok c2 /\
    bxor c1 c2 = [8; 11; 10; 13; 12; 15; 14; 1; 0; 3] /\ firstn 3 c1 <> [1; 2; 3].
Proof. cbv zeta. eexists _, _. split; [vm_compute; reflexivity|]. split; [vm_compute; reflexivity|]. split; [reflexivity | discriminate]. Qed.
Example C110_example : bytes_len (half Mag) [1; 2; 3; 4] /\ bytes_len (half Mag) [1; 2; 3; 5] /\ bytes_len 32 example_key /\ [1; 2; 3; 4] <> [1; 2; 3; 5].
Proof. split; [|split; [|split]]; try discriminate; (split; [reflexivity|]); repeat (apply Forall_cons; [unfold byte_ok; cbn; lia|]); apply Forall_nil. Qed.
