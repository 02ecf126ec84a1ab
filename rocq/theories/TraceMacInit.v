(** * The steps of making a MAC object: how they depend on the key. *)
From Verif Require Import PyBase PyState PyFacts PyLoop Utils UtilsFacts CipherTables CipherObj Modes Mac SpecKuznechik SpecMagma SpecModes Kuznechik Magma KuzFacts KuzFacts2 MagmaFacts CipherLemmas CipherObjFacts ModeFacts CtrFacts ModeSpecFacts ModeLemmas ModeProps MacFacts MacFacts2 MacLemmas MacProps.
From Verif Require Import SpecTrace SpecTrace2 SpecTrace3 SpecTraceModes Trace TraceLemmas TraceFacts TraceCipher TraceCipherFacts TraceCipher2 TraceCipher2Facts PropTrace2 PropTrace3 TraceHashErase TraceHashFlow TracePbkdfFacts TraceRandomFacts TraceModes TraceModesErase TraceModesFlow TraceModesUse PropTrace6 TraceMac TraceMacErase TraceMacFlow SpecTraceMac.
Open Scope string_scope.
Open Scope list_scope.
Open Scope Z_scope.
Local Notation zero_block := MacFacts.zero_block.
Local Notation zero_block_ok := MacFacts.zero_block_ok.

(** ** Parts of which an observer sees nothing *)
Definition minor (e : event) : bool :=
  match e with
  | Enter FCipher l => negb ((l =? 551) || (l =? 760) || (l =? 532) || (l =? 736))
  | Enter FModes _ => false | Test FModes _ _ => false | Read FModes _ _ _ => false
  | _ => true end.
Definition calm {X A} (f : event -> list X) (t : T A) : Prop := flat_map f (fst t) = [].
Section Calm.
  Context {X : Type} (f : event -> list X) (HF : forall e, minor e = true -> f e = []).
  Lemma calm_ret {A} (a : A) : calm f (retT a). Proof using. reflexivity. Qed.
  Lemma calm_stop {A} (c : outcome A) : calm f (stopT c). Proof using. reflexivity. Qed.
  Lemma calm_res {A} (r : res A) : calm f (t_res r). Proof using. reflexivity. Qed.
  Lemma calm_bind {A B} (c : T A) (k : A -> T B) : calm f c -> (forall a, calm f (k a)) -> calm f (bindT c k).
  Proof using. unfold calm. intros H K. unfold bindT. destruct (snd c) as [a|e|]; cbn [fst]; [rewrite flat_map_app, H; apply K | exact H | exact H]. Qed.
  Lemma calm_step e : minor e = true -> calm f (step e).
  Proof using HF. intros H. unfold calm. cbn [step fst flat_map]. rewrite (HF e H). reflexivity. Qed.
  Lemma calm_if {A} g l b (x y : T A) : minor (Test g l b) = true -> calm f x -> calm f y -> calm f (if_ g l b x y).
  Proof using HF. intros H Hx Hy. unfold if_. apply calm_bind; [now apply calm_step|]. intros _. destruct b; assumption. Qed.
  Lemma calm_for {A S} g l (body : A -> S -> T S) : (forall b, minor (Test g l b) = true) -> (forall x s, calm f (body x s)) -> forall xs s, calm f (t_for g l xs s body).
  Proof using HF. intros H K. induction xs as [|x xs IH]; intros s; cbn [t_for]; (apply calm_bind; [apply calm_step, H|]; intros _); [apply calm_ret|]. apply calm_bind; [apply K | exact IH]. Qed.
  Lemma calm_xor a b : calm f (t_add_xor a b).
  Proof using HF.
    unfold calm, t_add_xor. cbn [fst flat_map]. rewrite HF by reflexivity. cbn [app]. rewrite flat_map_app. cbn [flat_map]. rewrite (HF (Test FUtils 63 false)) by reflexivity. rewrite app_nil_r.
    induction (py_range _ _ _) as [|i is IH]; [reflexivity|]. cbn [map concat app flat_map]. rewrite !HF by reflexivity. exact IH.
  Qed.
  Lemma calm_read {A} line op (l : list A) i : calm f (t_read line op l i).
  Proof using HF. unfold t_read. apply calm_bind; [now apply calm_step|]. intros _. reflexivity. Qed.
  Ltac calm_go := repeat lazymatch goal with
    | |- calm _ (retT _) => apply calm_ret | |- calm _ (stopT _) => apply calm_stop | |- calm _ (t_res _) => apply calm_res | |- calm _ (t_add_xor _ _) => apply calm_xor | |- calm _ (t_read _ _ _ _) => apply calm_read
    | |- calm _ (step _) => apply calm_step; reflexivity | |- calm _ (if_ _ _ _ _ _) => apply calm_if; [reflexivity| |] | |- calm _ (t_for _ _ _ _ _) => apply calm_for; [reflexivity|intros] | |- calm _ (bindT _ _) => apply calm_bind; [|intros]
    | |- calm _ (let (_, _) := ?p in _) => destruct p end.
  Lemma calm_bytes v n : calm f (t_int_to_bytearray v n). Proof using HF. unfold t_int_to_bytearray. calm_go. Qed.
  Lemma calm_s d : calm f (t_cipher_s d). Proof using HF. unfold t_cipher_s. calm_go. Qed.
  Lemma calm_r d : calm f (t_cipher_r d). Proof using HF. unfold t_cipher_r. calm_go. Qed.
  Lemma calm_l d : calm f (t_cipher_l d). Proof using HF. unfold t_cipher_l. calm_go; apply calm_r. Qed.
  Lemma calm_get_c : calm f t_cipher_get_c. Proof using HF. unfold t_cipher_get_c. calm_go; apply calm_l. Qed.
  Lemma calm_kuz_new k : calm f (t_kuz_new k). Proof using HF. unfold t_kuz_new. cbv zeta. calm_go; lazymatch goal with |- calm _ (t_cipher_get_c) => apply calm_get_c | |- calm _ (t_cipher_s _) => apply calm_s | |- calm _ (t_cipher_l _) => apply calm_l end. Qed.
  Lemma calm_zero v : calm f (t_zero_fill v). Proof using HF. unfold t_zero_fill. calm_go. Qed.
  Lemma calm_expand en ou inn li pos ks k : minor (Enter FCipher en) = true -> calm f (t_expand en ou inn li pos ks k).
  Proof using HF. intros H. unfold t_expand. apply calm_bind; [now apply calm_step|]. intros. calm_go; apply calm_zero. Qed.
  Lemma calm_magma_new k : calm f (t_magma_new k).
  Proof using HF. unfold t_magma_new, t_expand_iter_key, t_expand_iter_key_final. calm_go; lazymatch goal with |- calm _ (t_zero_fill _) => apply calm_zero | |- calm _ (t_expand _ _ _ _ _ _ _) => apply calm_expand; reflexivity end. Qed.
  Lemma calm_t d : calm f (t_cipher_t d). Proof using HF. unfold t_cipher_t. cbv zeta. calm_go. Qed.
  Lemma calm_add a b : calm f (t_cipher_add_32 a b). Proof using HF. unfold t_cipher_add_32. cbv zeta. calm_go. Qed.
  Lemma calm_g k a : calm f (t_cipher_g k a). Proof using HF. unfold t_cipher_g. cbv zeta. calm_go; lazymatch goal with |- calm _ (t_cipher_add_32 _ _) => apply calm_add | |- calm _ (t_cipher_t _) => apply calm_t end. Qed.
  Lemma calm_g_iter k a : calm f (t_cipher_g_iter k a). Proof using HF. unfold t_cipher_g_iter. cbv zeta. calm_go; apply calm_g. Qed.
  Lemma calm_g_prev k a : calm f (t_cipher_g_prev k a). Proof using HF. unfold t_cipher_g_prev. calm_go; apply calm_g_iter. Qed.
  Lemma calm_g_fin k a : calm f (t_cipher_g_fin k a). Proof using HF. unfold t_cipher_g_fin. calm_go; apply calm_g_iter. Qed.
  Context (H1 : f (Enter FCipher 551) = []) (H2 : f (Enter FCipher 760) = []).
  Lemma calm_encrypt c b : calm f (t_co_encrypt c b).
  Proof using HF H1 H2.
    destruct c as [ks|ks]; cbn [t_co_encrypt]; [unfold t_kuz_encrypt | unfold t_magma_encrypt]; (apply calm_bind; [unfold calm; cbn [step fst flat_map]; rewrite ?H1, ?H2; reflexivity|]; intros _); calm_go; lazymatch goal with |- calm _ (t_cipher_s _) => apply calm_s | |- calm _ (t_cipher_l _) => apply calm_l | |- calm _ (t_cipher_g_prev _ _) => apply calm_g_prev | |- calm _ (t_cipher_g_fin _ _) => apply calm_g_fin end.
  Qed.
End Calm.

(** ** The two bits *)
Lemma top_bit v k : 0 < k -> 0 <= v < 2 ^ k -> Z.testbit v (k - 1) = negb (2 * v <? 2 ^ k).
Proof.
  intros Hk Hv. assert (E : 2 ^ k = 2 * 2 ^ (k - 1)) by (rewrite <- Z.pow_succ_r by lia; f_equal; lia). pose proof (Z.pow_pos_nonneg 2 (k - 1) ltac:(lia) ltac:(lia)). destruct (2 * v <? 2 ^ k) eqn:L.
  - cbn [negb]. apply (bits_ge v (k - 1)); lia.
  - cbn [negb]. apply Z.testbit_true; [lia|]. replace (v / 2 ^ (k - 1)) with 1; [reflexivity|]. apply Z.div_unique with (v - 2 ^ (k - 1)); lia.
Qed.
Lemma pow_bs c : 256 ^ bs c = 2 ^ (8 * bs c).
Proof. rewrite <- nbs_bs. apply pow256. Qed.
Lemma land_high x : byte_ok x -> (Z.land x 128 =? 0) = (x <? 128).
Proof.
  intros Hx. assert (Q : forallb (fun x => Bool.eqb (Z.land x 128 =? 0) (x <? 128)) (map Z.of_nat (seq 0 256)) = true) by (vm_compute; reflexivity). rewrite forallb_forall in Q. specialize (Q x). apply Bool.eqb_prop, Q. apply in_map_iff. exists (Z.to_nat x). unfold byte_ok in Hx. split; [lia|]. apply in_seq. lia.
Qed.
Lemma msb_bit c v : block c v -> exists x, msb v = Ok x /\ (x =? 0) = negb (Z.testbit (be_value v) (8 * bs c - 1)).
Proof.
  intros Hb. pose proof (be_value_range c v Hb) as HV. destruct Hb as [Hl Hok]. pose proof (bs_pos c). rewrite pow_bs in HV. unfold msb. rewrite (py_get_nth v 0 0) by lia. cbn [bind]. eexists. split; [reflexivity|]. rewrite (top_bit _ (8 * bs c)) by (try exact HV; lia). rewrite Bool.negb_involutive, <- pow_bs, be_value_eq.
  destruct v as [|x v]; [rewrite len_nil in Hl; lia|]. apply bytes_ok_cons in Hok as [Hx Hok]. change (nth (Z.to_nat 0) (x :: v) 0) with x. rewrite land_high by exact Hx. rewrite bytearray_to_int_cons. pose proof (bytearray_to_int_bound v Hok) as Hb. rewrite len_cons in Hl.
  pose proof (len_nonneg v). replace (256 ^ bs c) with (256 * 256 ^ len v) by (rewrite <- Hl, Z.pow_add_r by lia; lia). set (p := 256 ^ len v) in *. clearbody p. destruct (x <? 128) eqn:Ex; symmetry; [apply Z.ltb_lt | apply Z.ltb_ge]; nia.
Qed.
Lemma double_bit c v : 0 <= v < 256 ^ bs c -> Z.testbit (double (nbs c) v) (8 * bs c - 1) = Z.testbit v (8 * bs c - 2).
Proof.
  intros Hv. pose proof (bs_pos c). unfold double. assert (E : Z.testbit (2 * v) (8 * bs c - 1) = Z.testbit v (8 * bs c - 2)) by (replace (8 * bs c - 1) with (Z.succ (8 * bs c - 2)) by lia; rewrite Z.double_bits_succ; reflexivity).
  destruct (_ <? _); [exact E|]. rewrite Z.lxor_spec, E. assert (P : Z.testbit (poly (nbs c)) (8 * bs c - 1) = false) by (unfold nbs; destruct (bs_cases c) as [-> | ->]; vm_compute; reflexivity). rewrite P. apply Bool.xorb_false_r.
Qed.

(** ** What a new object is *)
Definition const_of (c : cipher_obj) : bytes := if bs c =? 16 then _B_128 else if bs c =? 8 then _B_64 else [].
Definition fresh_mac (c : cipher_obj) : mac_obj :=
  {| m_cipher := c; m_key_1 := mac_key1 (oE c) (nbs c); m_key_2 := mac_key2 (oE c) (nbs c); m_fin_buff := []; m_iter_buf := []; m_prev_mac := zero_block c; m_cur_mac := zero_block c |}.
Lemma fresh_mst c : cm c -> mst (fresh_mac c) [] [].
Proof.
  intros H. split; [exact H | | reflexivity | apply be_bytes_block | apply be_bytes_block]. split; cbn [fresh_mac m_cipher m_iter_buf m_cur_mac m_prev_mac]; [now apply cm_ok | constructor | constructor | rewrite len_nil; apply bs_pos | reflexivity | reflexivity | reflexivity | reflexivity].
Qed.
Lemma base_cm a key c : bytes_len 32 key -> base_init (alg a) (VBytes key) = Ok c -> cm c /\ co_alg c = a.
Proof.
  intros HK EB. apply base_keys in EB. destruct a; destruct EB as (ks & -> & E); (split; [|reflexivity]); [destruct (kuz_new_keys key ks HK E) as (L & HFk & _); split; [apply L | exact HFk] | exact (magma_list' key ks HK E)].
Qed.
Lemma double_value c v line : block c v -> snd (t_mac_double line (bs c) (const_of c) v) = Returns (be_bytes (nbs c) (double (nbs c) (be_value v))).
Proof. intros H. rewrite erase_double. unfold const_of. rewrite double_ok by exact H. reflexivity. Qed.
Lemma const_value c : snd (if_ FModes 951 (bs c =? 16) (retT _B_128) (if_ FModes 953 (bs c =? 8) (retT _B_64) (retT []))) = Returns (const_of c).
Proof. rewrite snd_if. unfold const_of. destruct (bs c =? 16); [reflexivity|]. rewrite snd_if. destruct (bs c =? 8); reflexivity. Qed.
Lemma key_value c : cm c -> snd (t_get_mac_key (bs c) (oE c (zero_block c))) = Returns (m_key_1 (fresh_mac c), m_key_2 (fresh_mac c)).
Proof. intros H. rewrite erase_mac_key, keys_ok by now apply cm_ok. reflexivity. Qed.
Lemma zero_value c : cm c -> snd (t_co_encrypt c (zero_block c)) = Returns (oE c (zero_block c)) /\ block c (oE c (zero_block c)).
Proof. intros H. destruct (co_enc c (zero_block c) (cm_ok c H) (zero_block_ok c)) as [E K]. rewrite erase_co_encrypt, E. split; [reflexivity | exact K]. Qed.
Lemma init_steps a key d c : base_init (alg a) (VBytes key) = Ok c -> cm c ->
  fst (t_mac_init a key d) = Enter FModes 923 :: fst (t_base_init a key) ++ fst (t_co_encrypt c (zero_block c)) ++ fst (t_get_mac_key (bs c) (oE c (zero_block c))) ++ fst (if_ FModes 939 (negb (len d =? 0)) (t_mac_update d (fresh_mac c)) (retT (fresh_mac c))).
Proof.
  intros EB H. unfold t_mac_init. rewrite fst_step. cbn [app]. f_equal. assert (E : snd (t_base_init a key) = Returns c) by (rewrite erase_base, EB; reflexivity). rewrite (fst_bind_ok _ _ _ E). f_equal. rewrite (fst_bind_ok _ _ _ (proj1 (zero_value c H))). f_equal. change (co_block_size c) with (bs c). rewrite (fst_bind_ok _ _ _ (key_value c H)). reflexivity.
Qed.

(** ** Flow *)
Lemma same_base a key key' : bytes_len 32 key -> bytes_len 32 key' -> same (fun c c' => base_init (alg a) (VBytes key) = Ok c /\ base_init (alg a) (VBytes key') = Ok c') (t_base_init a key) (t_base_init a key').
Proof.
  intros Hk Hk'. destruct (base_init_ok a key Hk) as (c & Hb & _). destruct (base_init_ok a key' Hk') as (c' & Hb' & _). eapply same_weaken with (R := fun x y => x = c /\ y = c'); [|intros x y [-> ->]; split; assumption].
  apply same_any; [|rewrite erase_base, Hb; reflexivity | rewrite erase_base, Hb'; reflexivity]. pose proof (base_keys _ _ _ Hb) as KB. pose proof (base_keys _ _ _ Hb') as KB'. unfold t_base_init. apply same_at_, same_at_. eapply same_bind with (R := fun b b' => b = true /\ b' = true).
  - unfold t_check_value. apply same_at_. rewrite (proj1 Hk), (proj1 Hk'). change (32 =? 32) with true. cbn [negb]. apply same_if; [reflexivity | intros E; discriminate E | intros _; apply same_ret; split; reflexivity].
  - intros b b' [-> ->]. cbn [negb]. apply same_if; [reflexivity | intros E; discriminate E|]. intros _. destruct a; destruct KB as (ks & _ & EK), KB' as (ks' & _ & EK').
    + apply same_if; [reflexivity | |intros E; discriminate E]. intros _. eapply same_bind with (R := any); [|intros; now apply same_ret]. split; [now apply C127_flow|]. exists ks, ks'. rewrite !erase_kuz_new, EK, EK'. split; [reflexivity|]. split; [reflexivity | exact I].
    + apply same_if; [reflexivity | intros E; discriminate E|]. intros _. apply same_at_. eapply same_bind with (R := any); [|intros; now apply same_ret]. split; [rewrite (C129_new key key' Hk Hk'); reflexivity|]. exists ks, ks'. rewrite !erase_magma_new, EK, EK'. split; [reflexivity|]. split; [reflexivity | exact I].
Qed.
Lemma same_double line c c' v v' : co_alg c = co_alg c' -> bk2 c c' v v' -> Z.testbit (be_value v) (8 * bs c - 1) = Z.testbit (be_value v') (8 * bs c - 1) -> 
  same any (t_mac_double line (bs c) (const_of c) v) (t_mac_double line (bs c') (const_of c') v').
Proof.
  intros EA [Hv Hv'] ET. pose proof (bs2 c c' EA) as EB. destruct (msb_bit c v Hv) as (x & Ex & Bx). destruct (msb_bit c' v' Hv') as (x' & Ex' & Bx'). unfold t_mac_double. pose proof (bs_pos c).
  eapply same_bind with (R := fun u u' => u = x /\ u' = x').
  - apply same_any; [|rewrite erase_msb, Ex; reflexivity | rewrite erase_msb, Ex'; reflexivity]. unfold t_msb. apply same_at_. eapply same_bind; [apply same_get; destruct Hv, Hv'; lia|]. intros; now apply same_ret.
  - intros u u' [-> ->]. apply same_if; [rewrite Bx, Bx', <- EB, ET; reflexivity | |]; intros _.
    + rewrite <- EB. eapply same_weaken; [apply same_bytes_n | intros; exact I].
    + rewrite <- EB. eapply same_bind; [apply same_bytes_n|]. intros k k' (L & _). eapply same_weaken; [apply same_xor; [unfold len; lia | unfold const_of; rewrite EB; reflexivity] | intros; exact I].
Qed.
Definition bits_of (c : cipher_obj) : bool * bool := let r := be_value (oE c (zero_block c)) in (Z.testbit r (8 * bs c - 1), Z.testbit r (8 * bs c - 2)).
Lemma same_key c c' : cm2 c c' -> bits_of c = bits_of c' -> same any (t_get_mac_key (bs c) (oE c (zero_block c))) (t_get_mac_key (bs c') (oE c' (zero_block c'))).
Proof.
  intros (H & H' & EA) EB. pose proof (bs2 c c' EA) as ES. destruct (zero_value c H) as [_ V]. destruct (zero_value c' H') as [_ V']. unfold bits_of in EB. injection EB as B1 B2. rewrite <- ES in B1, B2. unfold t_get_mac_key. apply same_at_.
  eapply same_bind with (R := fun u u' => u = const_of c /\ u' = const_of c').
  - apply same_any; [|apply const_value | apply const_value]. rewrite <- ES. apply same_if; [reflexivity | intros _; now apply same_ret|]. intros _. apply same_if; [reflexivity | intros _; now apply same_ret | intros _; now apply same_ret].
  - intros u u' [-> ->]. eapply same_bind.
    + apply same_any; [apply same_double; [exact EA | split; assumption | exact B1] | apply double_value; exact V | apply double_value; exact V'].
    + cbv beta. intros k k' [-> ->]. eapply same_bind; [|intros; now apply same_ret]. apply same_double; [exact EA | split; apply be_bytes_block|]. pose proof (be_value_range c _ V) as R. pose proof (be_value_range c' _ V') as R'.
      rewrite !be_value_of by (now apply double_range). rewrite double_bit by exact R. rewrite ES at 2. rewrite double_bit by exact R'. rewrite <- ES. exact B2.
Qed.
Lemma flow_init a key key' c c' d d' : bytes_len 32 key -> bytes_len 32 key' -> base_init (alg a) (VBytes key) = Ok c -> base_init (alg a) (VBytes key') = Ok c' -> bits_of c = bits_of c' -> pair_ok d d' -> len d = 0 \/ bs c <= len d ->
  map shape (fst (t_mac_init a key d)) = map shape (fst (t_mac_init a key' d')).
Proof.
  intros Hk Hk' EB EB' EH Hd HL. destruct (base_cm a key c Hk EB) as [M A]. destruct (base_cm a key' c' Hk' EB') as [M' A']. assert (CM : cm2 c c') by (split; [exact M|]; split; [exact M' | congruence]).
  rewrite (init_steps a key d c EB M), (init_steps a key' d' c' EB' M'). cbn [map]. f_equal. rewrite !map_app. f_equal; [exact (proj1 (same_base a key key' Hk Hk'))|]. f_equal; [apply (shape_encrypt c c' _ _ CM); split; apply zero_block_ok|]. f_equal; [exact (proj1 (same_key c c' CM EH))|].
  assert (EL : len d' = len d) by (destruct Hd as [L _]; unfold len; lia). rewrite EL. enough (HS : same any (if_ FModes 939 (negb (len d =? 0)) (t_mac_update d (fresh_mac c)) (retT (fresh_mac c))) (if_ FModes 939 (negb (len d =? 0)) (t_mac_update d' (fresh_mac c')) (retT (fresh_mac c')))) by exact (proj1 HS).
  apply same_if; [reflexivity | |intros _; now apply same_ret]. intros E. apply (flow_update (fresh_mac c) (fresh_mac c') [] [] [] [] (fresh_mst c M) (fresh_mst c' M')); [cbn; congruence | reflexivity | exact Hd|]. cbn [fresh_mac m_cipher]. rewrite len_nil. destruct HL as [HL|HL]; [rewrite HL in E; discriminate E | lia].
Qed.

(** ** The decisions in the two lines *)
Definition test_in (line : Z) (e : event) : list bool := match e with Test FModes l b => if l =? line then [b] else [] | _ => [] end.
Section Decisions.
  Context (L : Z) (HL : L = 955 \/ L = 961).
  Local Notation f := (test_in L).
  Lemma minor_in e : minor e = true -> f e = [].
  Proof using. destruct e as [[] l|[] l b|[] l o i]; intros H; try reflexivity; discriminate H. Qed.
  Lemma calm_e e : f e = [] -> calm f (step e).
  Proof using. intros H. unfold calm. cbn [step fst flat_map]. rewrite H. reflexivity. Qed.
  Lemma calm_if' {A} g l b (x y : T A) : f (Test g l b) = [] -> calm f x -> calm f y -> calm f (if_ g l b x y).
  Proof using. intros H Hx Hy. unfold if_. apply calm_bind; [now apply calm_e|]. intros _. destruct b; assumption. Qed.
  Lemma calm_for' {A S} g l (body : A -> S -> T S) : (forall b, f (Test g l b) = []) -> (forall x s, calm f (body x s)) -> forall xs s, calm f (t_for g l xs s body).
  Proof using. intros H K. induction xs as [|x xs IH]; intros s; cbn [t_for]; (apply calm_bind; [apply calm_e, H|]; intros _); [apply calm_ret|]. apply calm_bind; [apply K | exact IH]. Qed.
  Ltac nothing := intros; destruct HL as [-> | ->]; reflexivity.
  Ltac calm_gone := repeat lazymatch goal with
    | |- calm _ (retT _) => apply calm_ret | |- calm _ (stopT _) => apply calm_stop | |- calm _ (t_add_xor _ _) => apply calm_xor, minor_in | |- calm _ (t_co_encrypt _ _) => apply calm_encrypt; [exact minor_in | nothing | nothing]
    | |- calm _ (t_kuz_new _) => apply calm_kuz_new, minor_in | |- calm _ (t_magma_new _) => apply calm_magma_new, minor_in | |- calm _ (t_zero_fill _) => apply calm_zero, minor_in | |- calm _ (t_int_to_bytearray _ _) => apply calm_bytes, minor_in
    | |- calm _ (step _) => apply calm_e; nothing | |- calm _ (if_ _ _ _ _ _) => apply calm_if'; [nothing| |] | |- calm _ (t_for _ _ _ _ _) => apply calm_for'; [nothing|intros] | |- calm _ (bindT _ _) => apply calm_bind; [|intros]
    | |- calm _ (let (_, _) := ?p in _) => destruct p end.
  Lemma calm_base a key : calm f (t_base_init a key).
  Proof using HL. unfold t_base_init, t_check_value. calm_gone. Qed.
  Lemma calm_pad n d : calm f (t_get_pad_size n d). Proof using HL. unfold t_get_pad_size. calm_gone. Qed.
  Lemma calm_num n d : calm f (t_get_num_block n d). Proof using HL. unfold t_get_num_block. calm_gone. Qed.
  Lemma calm_block n d i : calm f (t_get_block n d i). Proof using HL. unfold t_get_block. calm_gone. Qed.
  Lemma calm_update d m : calm f (t_mac_update d m).
  Proof using HL. unfold t_mac_update, t_mac_round, t_mac_last. cbv zeta. calm_gone; lazymatch goal with |- calm _ (t_get_pad_size _ _) => apply calm_pad | |- calm _ (t_get_num_block _ _) => apply calm_num | |- calm _ (t_get_block _ _ _) => apply calm_block end. Qed.
  Lemma test_double line c v : block c v -> flat_map f (fst (t_mac_double line (bs c) (const_of c) v)) = if line =? L then [negb (Z.testbit (be_value v) (8 * bs c - 1))] else [].
  Proof using HL.
    intros Hv. destruct (msb_bit c v Hv) as (x & Ex & Bx). unfold t_mac_double. assert (E : snd (t_msb v) = Returns x) by (rewrite erase_msb, Ex; reflexivity). rewrite (fst_bind_ok _ _ _ E), flat_map_app.
    assert (C0 : flat_map f (fst (t_msb v)) = []). { change (calm f (t_msb v)). unfold t_msb, t_get. calm_gone. } rewrite C0. cbn [app]. unfold if_. rewrite fst_step. cbn [flat_map]. rewrite Bx. set (k := if negb (Z.testbit (be_value v) (8 * bs c - 1)) then _ else _).
    assert (CK : flat_map f (fst k) = []). { change (calm f k). unfold k. destruct (negb _); calm_gone. } rewrite CK, !app_nil_r. reflexivity.
  Qed.
  Lemma test_init a key d c : base_init (alg a) (VBytes key) = Ok c -> cm c -> decisions L (fst (t_mac_init a key d)) = [negb (if L =? 955 then fst (bits_of c) else snd (bits_of c))].
  Proof using HL.
    intros EB M. destruct (zero_value c M) as [_ V]. pose proof (be_value_range c _ V) as R. rewrite (init_steps a key d c EB M). unfold decisions. change (fun e => _) with f. cbn [flat_map]. assert (E0 : f (Enter FModes 923) = []) by nothing. rewrite E0. cbn [app]. rewrite !flat_map_app.
    assert (E1 : flat_map f (fst (t_base_init a key)) = []) by exact (calm_base a key). assert (E2 : flat_map f (fst (t_co_encrypt c (zero_block c))) = []) by (refine (calm_encrypt f minor_in _ _ c (zero_block c)); nothing).
    assert (E3 : flat_map f (fst (if_ FModes 939 (negb (len d =? 0)) (t_mac_update d (fresh_mac c)) (retT (fresh_mac c)))) = []) by (apply calm_if'; [nothing | apply calm_update | apply calm_ret]). rewrite E1, E2, E3. cbn [app]. rewrite app_nil_r.
    unfold t_get_mac_key. rewrite fst_step. cbn [flat_map]. assert (E4 : f (Enter FModes 949) = []) by nothing. rewrite E4. cbn [app]. rewrite (fst_bind_ok _ _ _ (const_value c)), flat_map_app.
    assert (E5 : flat_map f (fst (if_ FModes 951 (bs c =? 16) (retT _B_128) (if_ FModes 953 (bs c =? 8) (retT _B_64) (retT [])))) = []) by (apply calm_if'; [nothing | apply calm_ret|]; apply calm_if'; [nothing | apply calm_ret | apply calm_ret]). rewrite E5. cbn [app].
    rewrite (fst_bind_ok _ _ _ (double_value c _ 955 V)), flat_map_app, test_double by exact V. pose proof (be_bytes_block c (double (nbs c) (be_value (oE c (zero_block c))))) as B1. rewrite (fst_bind_ok _ _ _ (double_value c _ 961 B1)), flat_map_app, test_double by exact B1. cbn [retT fst flat_map]. rewrite app_nil_r.
    rewrite be_value_of by now apply double_range. rewrite double_bit by exact R. unfold bits_of. cbv zeta. cbn [fst snd]. destruct HL as [-> | ->]; reflexivity.
  Qed.
End Decisions.

(** ** Operations of the block cipher *)
Lemma minor_op e : minor e = true -> op_of e = [].
Proof. destruct e as [[] l|[] l b|[] l o i]; intros H; try reflexivity. cbn [minor] in H. cbn [op_of]. destruct (_ || _); [discriminate H | reflexivity]. Qed.
Lemma use_mac_key c : cm c -> uses op_of c (t_co_encrypt c) 0 (fun k => k = (m_key_1 (fresh_mac c), m_key_2 (fresh_mac c))) (t_get_mac_key (bs c) (oE c (zero_block c))).
Proof.
  intros M. apply (uses_quiet _ _ _ _ _ (m_key_1 (fresh_mac c), m_key_2 (fresh_mac c))); [|now apply key_value | reflexivity]. change (calm op_of (t_get_mac_key (bs c) (oE c (zero_block c)))). unfold t_get_mac_key.
  assert (S : forall e, op_of e = [] -> calm op_of (step e)) by (intros e H; unfold calm; cbn [step fst flat_map]; rewrite H; reflexivity).
  assert (I : forall A l b (x y : T A), calm op_of x -> calm op_of y -> calm op_of (if_ FModes l b x y)) by (intros A l b x y Hx Hy; unfold if_; apply calm_bind; [apply S; reflexivity|]; intros _; destruct b; assumption).
  assert (D : forall l n vb v, calm op_of (t_mac_double l n vb v)). { intros l n vb v. unfold t_mac_double, t_msb, t_get. apply calm_bind; [|intros x; apply I; [apply calm_bytes, minor_op | apply calm_bind; [apply calm_bytes, minor_op | intros; apply calm_xor, minor_op]]]. apply calm_bind; [apply S; reflexivity | intros _]. apply calm_bind; [|intros; reflexivity]. apply calm_bind; [apply S; reflexivity | intros _; reflexivity]. }
  apply calm_bind; [apply S; reflexivity|]. intros _. apply calm_bind; [apply I; [reflexivity | apply I; reflexivity]|]. intros vb. apply calm_bind; [apply D|]. intros k1. apply calm_bind; [apply D|]. intros k2. reflexivity.
Qed.
Lemma base_quiet a key : flat_map op_of (fst (t_base_init a key)) = [].
Proof.
  change (calm op_of (t_base_init a key)). unfold t_base_init, t_check_value. assert (S : forall e, op_of e = [] -> calm op_of (step e)) by (intros e H; unfold calm; cbn [step fst flat_map]; rewrite H; reflexivity).
  assert (I : forall A g l b (x y : T A), calm op_of x -> calm op_of y -> calm op_of (if_ g l b x y)) by (intros A g l b x y Hx Hy; unfold if_; apply calm_bind; [apply S; reflexivity|]; intros _; destruct b; assumption).
  apply calm_bind; [apply S; reflexivity | intros _]. apply calm_bind; [apply S; reflexivity | intros _]. apply calm_bind; [apply calm_bind; [apply S; reflexivity | intros _; apply I; reflexivity]|]. intros ok. apply I; [apply calm_bind; [apply calm_zero, minor_op | intros; reflexivity]|].
  apply I; [apply calm_bind; [apply calm_kuz_new, minor_op | intros; reflexivity]|]. apply calm_bind; [apply S; reflexivity | intros _]. apply calm_bind; [apply calm_magma_new, minor_op | intros; reflexivity].
Qed.
Lemma ops_app l r : operations (l ++ r) = (operations l + operations r)%nat.
Proof. rewrite !ops_map, flat_map_app, app_length. reflexivity. Qed.
Lemma init_ops a key d c : base_init (alg a) (VBytes key) = Ok c -> cm c -> bytes_ok d -> len d = 0 \/ bs c <= len d -> operations (fst (t_mac_init a key d)) = (1 + Z.to_nat (len d / bs c))%nat.
Proof.
  intros EB M Hd HL. rewrite (init_steps a key d c EB M). change (Enter FModes 923 :: ?l) with ([Enter FModes 923] ++ l). rewrite !ops_app. rewrite (ops_map (fst (t_base_init a key))), base_quiet. rewrite (one_encrypt c _ M (zero_block_ok c)). rewrite (uses_ops _ _ _ _ _ (fun b => one_encrypt c b M) (use_mac_key c M)).
  assert (E : operations (fst (if_ FModes 939 (negb (len d =? 0)) (t_mac_update d (fresh_mac c)) (retT (fresh_mac c)))) = Z.to_nat (len d / bs c)); [|rewrite E; reflexivity].
  unfold if_. rewrite fst_step. change (Test FModes 939 (negb (len d =? 0)) :: ?l) with ([Test FModes 939 (negb (len d =? 0))] ++ l). rewrite ops_app. destruct HL as [HL|HL].
  - rewrite HL. change (0 =? 0) with true. cbn [negb]. rewrite Z.div_0_l by (pose proof (bs_pos c); lia). reflexivity.
  - pose proof (bs_pos c). replace (len d =? 0) with false by lia. cbn [negb]. assert (HB : bs (m_cipher (fresh_mac c)) <= len (@nil Z) + len d) by (rewrite len_nil; exact HL). rewrite (uses_ops _ _ _ _ _ (fun b => one_encrypt c b M) (use_update op_of op_of_cipher (fresh_mac c) [] [] (fresh_mst c M) d Hd HB)). rewrite len_nil. reflexivity.
Qed.

(** ** The indices of the table *)
Lemma idx_shape l : List.length (kuz_indices (map shape l)) = List.length (kuz_indices l).
Proof.
  induction l as [|e l IH]; [reflexivity|]. unfold kuz_indices in *. cbn [map flat_map]. rewrite !app_length, IH. f_equal. destruct e as [g n|g n b|g n m i]; try reflexivity. cbn [shape]. destruct g; destruct (m =? 1) eqn:E; cbv beta iota; rewrite ?E; try reflexivity; destruct (n =? 460); reflexivity.
Qed.
Lemma new_rows key : bytes_len 32 key -> List.length (kuz_indices (fst (t_kuz_new key))) = 512%nat.
Proof. intros Hk. rewrite <- idx_shape, (C127_flow key rfc7801_key Hk), idx_shape; [|concrete_bytes]. pose proof (f_equal fst C127_example) as H. cbv beta iota zeta delta [fst] in H. exact H. Qed.
Lemma new_recover_app s s1 r : kuz_indices s = kuz_indices s1 ++ r -> (32 <= List.length (kuz_indices s1))%nat -> kuz_new_recover s = kuz_new_recover s1.
Proof. intros E L. unfold kuz_new_recover. rewrite E, !row_app by lia. reflexivity. Qed.
Lemma flat_step {X A} (f : event -> list X) e (k : unit -> T A) : f e = [] -> flat_map f (fst (bindT (step e) k)) = flat_map f (fst (k tt)).
Proof. intros H. rewrite fst_step. cbn [flat_map]. rewrite H. reflexivity. Qed.
Lemma flat_skip {X A B} (f : event -> list X) (c : T A) (k : A -> T B) a : flat_map f (fst c) = [] -> snd c = Returns a -> flat_map f (fst (bindT c k)) = flat_map f (fst (k a)).
Proof. intros H E. rewrite (fst_bind_ok _ _ _ E), flat_map_app, H. reflexivity. Qed.
Lemma flat_end {X A B} (f : event -> list X) (c : T A) (g : A -> B) : flat_map f (fst (bindT c (fun x => retT (g x)))) = flat_map f (fst c).
Proof. unfold bindT. destruct (snd c); cbn [fst retT]; rewrite ?app_nil_r; reflexivity. Qed.
Lemma base_indices key : bytes_len 32 key -> flat_map at_460 (fst (t_base_init Kuz key)) = flat_map at_460 (fst (t_kuz_new key)).
Proof.
  intros Hk. unfold t_base_init. rewrite flat_step by reflexivity. rewrite flat_step by reflexivity. rewrite (flat_skip _ (t_check_value key 32) _ true); [|unfold t_check_value; rewrite (proj1 Hk); reflexivity | unfold t_check_value; rewrite (proj1 Hk); reflexivity].
  unfold if_. rewrite flat_step by reflexivity. cbn [negb]. cbv iota. rewrite flat_step by reflexivity. cbv iota. apply flat_end.
Qed.
Lemma init_recover key d : bytes_len 32 key -> kuz_new_recover (fst (t_mac_init Kuz key d)) = key.
Proof.
  intros Hk. destruct (base_init_ok Kuz key Hk) as (c & EB & _). destruct (base_cm Kuz key c Hk EB) as [M _]. destruct (base_keys _ _ _ EB) as (ks & _ & EK). assert (E : snd (t_kuz_new key) = Returns ks) by (rewrite erase_kuz_new, EK; reflexivity).
  assert (EI : exists r, kuz_indices (fst (t_mac_init Kuz key d)) = kuz_indices (fst (t_kuz_new key)) ++ r).
  { rewrite (init_steps Kuz key d c EB M). change kuz_indices with (flat_map at_460). cbn [flat_map]. rewrite flat_map_app. change (at_460 (Enter FModes 923)) with (@nil Z). cbn [app]. eexists.
    rewrite (base_indices key Hk). reflexivity. }
  destruct EI as [r EI]. rewrite (new_recover_app _ (fst (t_kuz_new key)) r EI) by (rewrite (new_rows key Hk); lia). now apply C127_recover.
Qed.
