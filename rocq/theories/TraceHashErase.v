(** * The traced model of hashing gives the results of the first model. *)
From Verif Require Import PyBase PyState PyFacts PyLoop Utils StreebogTables Streebog Hmac SpecTrace Trace TraceLemmas TraceCipher TraceCipherFacts TraceHash.
Open Scope string_scope.
Open Scope list_scope.
Open Scope Z_scope.

Lemma snd_at {A} l k (x : list A) i : snd (t_at l k x i) = liftO (py_get x i).
Proof. reflexivity. Qed.
Ltac next lem := rewrite snd_bind, lem, ?liftO_bind; apply bindO_ext; intros.

Lemma erase_add_512 a b : snd (t_hash_add_512 a b) = liftO (_hash_add_512 a b).
Proof.
  unfold t_hash_add_512, _hash_add_512. rewrite snd_step, snd_bind, liftO_bind.
  match goal with |- bindO ?x _ = bindO (liftO (for_ _ _ ?g)) _ => replace x with (liftO (for_ (py_range 0 _BLOCK_SIZE 1) (0, py_repeat 0 _BLOCK_SIZE) g)) end.
  - apply bindO_ext. intros [x r]. reflexivity.
  - symmetry. apply snd_for. intros i [x r]. next @snd_at. next @snd_at. cbv zeta. next @snd_res. reflexivity.
Qed.
Lemma erase_look l d j k : snd (t_look l d j k) = liftO (Streebog.t_get d j k).
Proof. unfold t_look, Streebog.t_get. next @snd_at. next @snd_at. reflexivity. Qed.
Lemma erase_word l d k0 k1 k2 k3 k4 k5 k6 k7 : snd (t_lps_word l d k0 k1 k2 k3 k4 k5 k6 k7) = liftO (lps_word d k0 k1 k2 k3 k4 k5 k6 k7).
Proof. unfold t_lps_word, lps_word. do 8 next erase_look. reflexivity. Qed.
Lemma erase_lps d : snd (t_hash_lps d) = liftO (_hash_lps d).
Proof. unfold t_hash_lps, _hash_lps. rewrite snd_step. cbv zeta. do 8 next erase_word. reflexivity. Qed.
Lemma erase_get_key k i : snd (t_hash_get_key k i) = liftO (_hash_get_key k i).
Proof. unfold t_hash_get_key, _hash_get_key. rewrite snd_step. next @snd_at. rewrite snd_bind. cbn [t_add_xor snd bindO]. apply erase_lps. Qed.
Lemma erase_e k d : snd (t_hash_e k d) = liftO (_hash_e k d).
Proof.
  unfold t_hash_e, _hash_e. rewrite snd_step, snd_bind. cbn [t_add_xor snd bindO]. rewrite snd_bind, liftO_bind.
  match goal with |- bindO ?x _ = bindO (liftO (for_ _ _ ?g)) _ => replace x with (liftO (for_ (py_range 0 12 1) (k, add_xor k d) g)) end.
  - apply bindO_ext. intros [x r]. reflexivity.
  - symmetry. apply snd_for. intros i [x r]. cbn [t_e_body]. next erase_lps. next erase_get_key. reflexivity.
Qed.
Lemma erase_g h n d : snd (t_hash_g h n d) = liftO (_hash_g h n d).
Proof.
  unfold t_hash_g, _hash_g. rewrite snd_step, snd_bind. cbn [t_add_xor snd bindO]. next erase_lps. next erase_e. reflexivity.
Qed.

(** Where a method without a result leaves the object. *)
Definition ends {S A} (c : M S A) (o : S) : res S := match c o with (Ok _, o') => Ok o' | (Err e, _) => Err e end.
Lemma ends_seq {S A} (c : M S unit) (d : M S A) o : ends (c ;! d) o = bind (ends c o) (ends d).
Proof. unfold ends, bindM. destruct (c o) as [[[]|e] o']; reflexivity. Qed.
Lemma ends_get {S A} (k : S -> M S A) o : ends (let! self := getM in k self) o = ends (k o) o.
Proof. reflexivity. Qed.
Lemma ends_put {S A} (v : S) (d : M S A) o : ends (putM v ;! d) o = ends d v.
Proof. reflexivity. Qed.
Lemma ends_put' {S} (v o : S) : ends (putM v) o = Ok v.
Proof. reflexivity. Qed.
Lemma ends_ret {S A} (a : A) (o : S) : ends (retM a) o = Ok o.
Proof. reflexivity. Qed.
Lemma ends_lift {S A B} (r : res B) (k : B -> M S A) o : ends (let! v := liftM r in k v) o = bind r (fun v => ends (k v) o).
Proof. destruct r; reflexivity. Qed.
Lemma ends_for {S} (body : Z -> unit -> M S unit) : forall xs o, ends (forM xs tt body) o = for_ xs o (fun x s => ends (body x tt) s).
Proof.
  induction xs as [|x xs IH]; intros o; [reflexivity|]. cbn [forM for_]. unfold ends at 1, bindM. unfold ends at 1. destruct (body x tt o) as [[[]|e] o']; [|reflexivity]. cbn [bind]. exact (IH o').
Qed.
Lemma erase_step_h o n b : snd (t_step_h o n b) = liftO (ends (step_h n b) o).
Proof. unfold t_step_h, step_h. rewrite ends_get, ends_lift. next erase_g. reflexivity. Qed.
Lemma erase_step_n o b : snd (t_step_n o b) = liftO (ends (step_n b) o).
Proof. unfold t_step_n, step_n. rewrite ends_get, ends_lift. next erase_add_512. reflexivity. Qed.
Lemma erase_step_sigma o b : snd (t_step_sigma o b) = liftO (ends (step_sigma b) o).
Proof. unfold t_step_sigma, step_sigma. rewrite ends_get, ends_lift. next erase_add_512. reflexivity. Qed.
Lemma erase_update d o : snd (t_hash_update d o) = liftO (ends (hash_update (VBytes d)) o).
Proof.
  unfold t_hash_update, hash_update. rewrite !snd_step. cbv zeta. rewrite ends_get, ends_put, ends_seq, ends_for, liftO_bind, snd_bind.
  match goal with |- bindO ?x _ = bindO (liftO (for_ ?l ?o ?g)) _ => replace x with (liftO (for_ l o g)) end.
  - apply bindO_ext. intros o'. rewrite snd_if, ends_get. destruct (_ <? _); reflexivity.
  - symmetry. apply snd_for. intros i o'. unfold t_update_body. rewrite ends_get, ends_seq. next erase_step_h. rewrite ends_seq. next erase_step_n. apply erase_step_sigma.
Qed.
Lemma erase_final_steps i o : snd (t_final_steps i o) = liftO (ends (let! self := getM in
  step_h (h_hash_n self) (h_buff self) ;!
  step_n i ;!
  step_sigma (h_buff self) ;!
  let! self := getM in
  step_h _V_0 (h_hash_n self) ;!
  let! self := getM in
  step_h _V_0 (h_hash_sigma self)) o).
Proof.
  unfold t_final_steps. cbv zeta. rewrite ends_get, ends_seq. next erase_step_h. rewrite ends_seq. next erase_step_n. rewrite ends_seq. next erase_step_sigma. rewrite ends_get, ends_seq. next erase_step_h. rewrite ends_get. apply erase_step_h.
Qed.
Lemma erase_final o : snd (t_hash_final o) = liftO (ends hash_final o).
Proof.
  unfold t_hash_final, hash_final. rewrite !snd_step. cbv zeta. rewrite ends_get, ends_put, ends_lift. next @snd_res. rewrite ends_lift. next @snd_res. rewrite ends_seq, ends_get, liftO_bind, snd_bind, snd_if.
  destruct (_ <=? _); [rewrite ends_put' | rewrite ends_ret]; cbn [liftO bindO retT snd]; apply erase_final_steps.
Qed.
Lemma erase_digest o : snd (t_hash_digest o) = liftO (fst (hash_digest o)).
Proof.
  unfold t_hash_digest, hash_digest. rewrite !snd_step, snd_bind, erase_final. unfold ends. destruct (hash_final o) as [[x|e] o']; reflexivity.
Qed.
Lemma erase_init n d : snd (t_hash_init n d) = liftO (hash_init n (VBytes d)).
Proof.
  unfold t_hash_init, hash_init. rewrite !snd_step. cbv zeta. rewrite snd_if. destruct d as [|x d]; [reflexivity|]. rewrite erase_update. reflexivity.
Qed.
Lemma erase_new n d : snd (t_hash_new n d) = liftO (hash_new (VStr n) (Some (VBytes d))).
Proof. unfold t_hash_new, hash_new. rewrite snd_step, snd_if. destruct (negb _); [reflexivity|]. apply erase_init. Qed.

(** ** HMAC *)
Lemma ends_hasher (c : M hash_obj unit) m : ends (on_hasher c) m = bind (ends c (hm_hasher m)) (fun h => Ok (hm_set_hasher m h)).
Proof. unfold ends, on_hasher. destruct (c (hm_hasher m)) as [[x|e] o]; reflexivity. Qed.
Lemma erase_hmac_update d m : snd (t_hmac_update d m) = liftO (ends (hmac_update (VBytes d)) m).
Proof.
  unfold t_hmac_update, hmac_update. rewrite !snd_step. cbv zeta. rewrite ends_get, ends_put, ends_get, snd_if. destruct (_ =? 1).
  - rewrite snd_bind. cbn [t_add_xor snd bindO]. rewrite ends_hasher. next erase_update. reflexivity.
  - rewrite snd_step, ends_hasher. next erase_update. reflexivity.
Qed.
Lemma erase_hmac_digest m : snd (t_hmac_digest m) = liftO (fst (hmac_digest m)).
Proof.
  unfold t_hmac_digest, hmac_digest. rewrite !snd_step, snd_bind, erase_init. unfold bindM at 1. unfold getM at 1. unfold bindM at 1. unfold liftM at 1. destruct (hash_init _ _) as [f|e]; [|reflexivity]. cbn [liftO bindO].
  rewrite snd_bind. cbn [t_add_xor snd bindO]. rewrite snd_bind, erase_digest. unfold bindM at 1. unfold on_hasher at 1. destruct (hash_digest (hm_hasher m)) as [[i|e] o]; [|reflexivity]. cbn [fst liftO bindO].
  rewrite snd_bind, erase_update. unfold ends. destruct (hash_update _ f) as [[x|e] f']; [|reflexivity]. cbn [liftO bindO]. rewrite snd_bind, erase_digest. unfold bindM, liftM. destruct (hash_digest f') as [[r|e] o']; reflexivity.
Qed.
Lemma erase_hmac_new n k d : snd (t_hmac_new n k d) = liftO (hmac_new (VStr n) (VBytes k) (Some (VBytes d))).
Proof.
  unfold t_hmac_new, hmac_new, hmac_init. rewrite !snd_step. cbv zeta. rewrite snd_if. destruct (negb _); [reflexivity|]. rewrite snd_if. destruct (_ >? _); [reflexivity|]. rewrite snd_bind, snd_if.
  replace (if len k <? _KEY_SIZE then snd (retT tt) else snd (step (Test FHmac 124 true))) with (Returns tt) by (destruct (_ <? _); reflexivity). cbn [bindO]. rewrite snd_bind, snd_if, liftO_bind.
  destruct (n =? "HMAC_GOSTR3411_2012_256")%string; (destruct d as [|x d]; [reflexivity|]); rewrite ?snd_step, snd_bind, erase_init; cbn [hash_init]; cbn [liftO bindO bind retT snd]; rewrite snd_if, erase_hmac_update; reflexivity.
Qed.
