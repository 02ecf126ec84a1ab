(** C140: finalisers.  What [__del__] does when an object is given up, also when it was only partly made. *)
From Verif Require Import PyBase PyState Utils Kuznechik Magma CipherObj Modes Mac Streebog Hmac Pbkdf Random Final.
From Verif Require Import PyFacts SpecModes CipherLemmas CipherObjFacts ModeLemmas ModeProps ModeFacts ModeSim ModeNew ModeHist ModeMore ModeClear MacLemmas MacProps FinalFacts.
Open Scope string_scope.
Open Scope list_scope.
Open Scope Z_scope.

(** A claim about finalisers: none of these calls raises. *)
Definition silent (calls : list outcome) : Prop := forall x, In x calls -> x = Done.
Lemma silent_forall calls : Forall (eq Done) calls -> silent calls.
Proof. intros H x Hx. rewrite Forall_forall in H. symmetry. now apply H. Qed.

(** [gostcipher.new] with any arguments: it ends as in Mac.v, and no finaliser that it causes raises. *)
Theorem C140_cipher_new algorithm key mode kw : arg_bytes key ->
  fst (new_life algorithm key mode kw) = (let* _ := new algorithm key mode kw in Ok tt) /\
  silent (l_calls (snd (new_life algorithm key mode kw))).
Proof.
  intros Hk. destruct (new_life_is algorithm key mode kw Hk) as [H HF]. split; [|now apply silent_forall].
  destruct (new algorithm key mode kw) as [o|e]; cbn [bind]; [apply H | exact H].
Qed.
Print Assumptions C140_cipher_new.

(** Mode objects and MAC objects, after any calls. *)
Theorem C140_cipher_drop a key cl kw o : bytes_ok key -> kw_ok kw -> object_of a key cl kw o ->
  drop_cipher (NewMode o) = [Done; Done].
Proof.
  intros Hk Hkw HO. destruct (object_valid a key cl kw o Hk Hkw HO) as [[Hc _] _].
  pose proof (drop_quiet (NewMode o) Hc) as HF. unfold drop_cipher, give_up, clear_attrs, bindM, getM, liftM in *. cbn [l_cipher cipher_of fst snd] in *.
  destruct (co_clear (o_cipher o)) as [c|e]; cbn in *; inversion HF as [|? ? E HF']; subst; inversion HF' as [|? ? E' HF'']; subst; congruence.
Qed.
Print Assumptions C140_cipher_drop.
Theorem C140_mac_drop a key m : bytes_len 32 key -> mac_used a key m -> drop_cipher (NewMac m) = [Done; Done].
Proof.
  intros Hk Hu. pose proof (mv_co _ _ (used_valid a key m Hk Hu)) as Hc.
  pose proof (drop_quiet (NewMac m) Hc) as HF. unfold drop_cipher, give_up, clear_attrs, bindM, getM, liftM in *. cbn [l_cipher cipher_of fst snd] in *.
  destruct (co_clear (m_cipher m)) as [c|e]; cbn in *; inversion HF as [|? ? E HF']; subst; inversion HF' as [|? ? E' HF'']; subst; congruence.
Qed.
Print Assumptions C140_mac_drop.

(** The block ciphers used directly: an object that could be made is given up silently; a key shorter than 32
    bytes is refused with an [IndexError], and the finaliser of what was made so far raises another one. *)
Theorem C140_direct key : bytes_ok key ->
  (32 = len key ->
   (exists keys, kuz_attrs key [] = (Ok tt, keys) /\ co_del (KuzObj keys) = Done) /\
   (exists keys, magma_attrs key [] = (Ok tt, keys) /\ co_del (MagmaObj keys) = Done)) /\
  (len key < 32 ->
   (exists keys, kuz_attrs key [] = (Err IndexError, keys) /\ co_del (KuzObj keys) = Raised IndexError) /\
   (exists keys, magma_attrs key [] = (Err IndexError, keys) /\ co_del (MagmaObj keys) = Raised IndexError)).
Proof.
  intros Hk. pose proof (kuz_attrs_agree key) as KA. pose proof (magma_attrs_agree key) as MA. unfold attrs_agree in *. split; intros Hl.
  - split.
    + destruct (kuz_new_total key) as [keys E]; [exact (conj (eq_sym Hl) Hk)|]. assert (HK := kuz_new_good key keys (conj (eq_sym Hl) Hk) E). rewrite E in KA.
      exists keys. split; [exact KA|]. apply co_del_done. exact HK.
    + destruct (magma_new_total key) as [keys E]; [exact (conj (eq_sym Hl) Hk)|]. assert (HK := magma_new_good key keys (conj (eq_sym Hl) Hk) E). rewrite E in MA.
      exists keys. split; [exact MA|]. apply co_del_done. exact HK.
  - rewrite kuz_new_short in KA by assumption. rewrite magma_new_short in MA by assumption. split.
    + destruct KA as (x & E & L). exists x. split; [exact E|]. unfold co_del, co_clear. rewrite kuz_clear_short by exact L. reflexivity.
    + destruct MA as (x & E & L). exists x. split; [exact E|]. unfold co_del, co_clear. rewrite magma_clear_short by exact L. reflexivity.
Qed.
Print Assumptions C140_direct.

(** HMAC objects: making one with any arguments, and giving up any object. *)
Theorem C140_hmac name key data : 
  fst (hmac_attrs name key data) = (let* _ := hmac_init name key data in Ok tt) /\ silent (hmac_new_calls name key data) /\
  (forall o, hmac_init name key data = Ok o -> snd (hmac_attrs name key data) = hmac_life_of o) /\
  forall o, hmac_del (hmac_life_of o) = Done.
Proof.
  assert (D : forall o, hmac_del (hmac_life_of o) = Done) by reflexivity.
  assert (G : match hmac_init name key data with
     | Ok o => hmac_attrs name key data = (Ok tt, hmac_life_of o)
     | Err e => fst (hmac_attrs name key data) = Err e /\ hmac_del (snd (hmac_attrs name key data)) = Done end).
  { unfold hmac_init, hmac_attrs. set (is256 := match name with VStr n => String.eqb n _ | _ => false end). set (is512 := match name with VStr n => String.eqb n "HMAC_GOSTR3411_2012_512" | _ => false end).
    destruct (negb (is256 || is512)); [now split|]. destruct key as [key|s|z|]; try (now split). destruct (len key >? Hmac._KEY_SIZE); [now split|].
    unfold hash_init. destruct is256; cbn [bind];
      (destruct data as [[|d0 d]|s|z|]; [reflexivity | | | |]; (destruct (hmac_update _ _) as [[[]|e] self]; [reflexivity | split; reflexivity])). }
  unfold hmac_new_calls. destruct (hmac_init name key data) as [o|e]; cbn [bind].
  - rewrite G. repeat split; auto. + intros x []. + intros o' [= <-]. reflexivity.
  - destruct (hmac_attrs name key data) as [r s]. cbn [fst snd] in G. destruct G as [-> G]. split; [reflexivity|]. split; [|split; [discriminate | exact D]].
    intros x [<-|[]]. exact G.
Qed.
Print Assumptions C140_hmac.

(** Generators. *)
Theorem C140_random urandom rand_size rand_k size_s :
  fst (random_attrs urandom rand_k size_s) = (let* _ := random_init urandom rand_size rand_k size_s in Ok tt) /\
  silent (random_new_calls urandom rand_k size_s) /\
  forall o : random_obj, random_del (Some (r_rand_u o)) = Done.
Proof.
  unfold random_new_calls, random_attrs, random_init. destruct (filling urandom size_s rand_k) as [u|e]; cbn [bind fst]; (split; [|split; [|reflexivity]]); try reflexivity; intros x Hx.
  - destruct Hx.
  - destruct Hx as [<-|[]]. reflexivity.
Qed.
Print Assumptions C140_random.

(** PBKDF objects: the finaliser raises exactly when the password was not a byte string. *)
Theorem C140_pbkdf urandom password salt iterations :
  fst (pbkdf_attrs urandom password salt) = (let* _ := pbkdf_init urandom password salt iterations in Ok tt) /\
  (match password with VBytes _ => silent (pbkdf_new_calls urandom password salt)
   | _ => pbkdf_new_calls urandom password salt = [NoAttribute "_password"] end) /\
  forall o : pbkdf_obj, pbkdf_end (pbkdf_life_of o) = [Done; Done].
Proof.
  split; [|split; [|reflexivity]].
  - unfold pbkdf_attrs, pbkdf_init. destruct password as [password|s|z|]; try reflexivity.
    destruct (C140_hmac (VStr "HMAC_GOSTR3411_2012_512") (VBytes password) (VBytes [])) as [H _].
    destruct (match salt with VBytes [] => VBytes urandom | _ => salt end); try reflexivity.
    destruct (hmac_attrs _ _ _) as [r h]. cbn [fst] in H. destruct (hmac_init _ _ _) as [o|e]; cbn [bind] in *; subst r; reflexivity.
  - unfold pbkdf_new_calls, pbkdf_attrs. destruct password as [password|s|z|]; try reflexivity.
    destruct (C140_hmac (VStr "HMAC_GOSTR3411_2012_512") (VBytes password) (VBytes [])) as (_ & H & _). unfold hmac_new_calls in H.
    destruct (match salt with VBytes [] => VBytes urandom | _ => salt end).
    2-4: intros x [<-|[]]; reflexivity.
    destruct (hmac_attrs _ _ _) as [[[]|e] h]; cbn [pl_calls]; intros x Hx; [destruct Hx|].
    apply in_app_or in Hx. destruct Hx as [Hx|[<-|[]]]; [now apply H | reflexivity].
Qed.
Print Assumptions C140_pbkdf.

(** So "no finaliser of the library raises" is false: a PBKDF object with a password that is a character string. *)
Theorem C140_refuted :
  ~ (forall urandom password salt, silent (pbkdf_new_calls urandom password salt)).
Proof. intros H. specialize (H [] (VStr "password") (VBytes [1]) (NoAttribute "_password") (or_introl eq_refl)). discriminate. Qed.
Print Assumptions C140_refuted.

(** A CBC object replaces its cipher object while it is made; so one finaliser is called, silently.  With a wrong
    vector both initialisers run, and three finalisers are called. *)
Definition example_key : bytes := py_repeat 7 32.
Definition plain : kwargs := {| kw_init_vect := None; kw_data := None; kw_pad_mode := None |}.
Example C140_example_cbc :
  new_life (VStr "magma") (VBytes example_key) (VInt MODE_CBC) plain = (Ok tt, snd (new_life (VStr "magma") (VBytes example_key) (VInt MODE_CBC) plain)) /\
  l_calls (snd (new_life (VStr "magma") (VBytes example_key) (VInt MODE_CBC) plain)) = [Done] /\
  l_calls (snd (new_life (VStr "magma") (VBytes example_key) (VInt MODE_CBC) {| kw_init_vect := Some (VBytes [1]); kw_data := None; kw_pad_mode := None |})) = [Done; Done; Done].
Proof. vm_compute. split; [reflexivity|]. split; reflexivity. Qed.
Example C140_example_short : (exists keys, magma_attrs [1; 2; 3; 4; 5] [] = (Err IndexError, keys) /\ len keys = 1 /\ co_del (MagmaObj keys) = Raised IndexError).
Proof. eexists. split; [vm_compute; reflexivity|]. split; reflexivity. Qed.
Example C140_example_hmac : hmac_new_calls (VStr "HMAC_GOSTR3411_2012_256") (VBytes (py_repeat 1 65)) (VBytes []) = [Done] /\
  hmac_new_calls (VStr "HMAC_GOSTR3411_2012_256") (VBytes [1]) (VStr "text") = [Done].
Proof. split; [reflexivity|]. reflexivity. Qed.
