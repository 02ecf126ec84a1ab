(** * The methods of HeapHmac.v against those of Hmac.v and Pbkdf.v *)
From Verif Require Import PyBase PyState PyFacts Utils UtilsFacts Oid Streebog SpecStreebog SpecHashHist StreebogProps StreebogLemmas Hmac SpecHmac HmacLemmas Pbkdf SpecPbkdf PbkdfLemmas Heap HeapLogic HeapCipher CipherObj Modes Mac HeapModes HeapHmac.
Open Scope string_scope.
Open Scope list_scope.
Open Scope Z_scope.

(** The value of an argument. *)
Definition aval (h : heap) (x : arg) : option pyval :=
  match x with
  | ABuf a => match nth_error h a with Some l => Some (VBytes l) | None => None end
  | AVal p => Some p
  end.
Lemma aval_buf h x p : aval h x = Some p ->
  match as_buf x with
  | Some v => exists l, p = VBytes l /\ content h v = Some l
  | None => match p with VBytes _ => False | _ => True end
  end.
Proof.
  destruct x as [a|q]; cbn.
  - destruct (nth_error h a) as [l|]; [|discriminate]. intros [= <-]. eauto.
  - intros [= <-]. destruct q; cbn; eauto.
Qed.
Lemma aval_same h h' x p : same h h' -> aval h x = Some p -> aval h' x = Some p.
Proof.
  intros S. destruct x as [a|q]; [|auto]. cbn. destruct (nth_error h a) as [l|] eqn:E; [|discriminate]. intros <-.
  pose proof (content_same h h' (Ref a) l S E) as X. cbn in X. now rewrite X.
Qed.
Lemma aval_of h v l : content h v = Some l -> aval h (arg_of v) = Some (VBytes l).
Proof. destruct v; cbn; [congruence|now intros ->]. Qed.

Definition put (s : hh_obj) (o : hmac_obj) : hh_obj :=
  {| hh_key := hh_key s; hh_hasher := hm_hasher o; hh_counter := hm_counter o; hh_oid := hm_oid o |}.

Lemma view_put h s o : content h (hh_key s) = Some (hm_key o) -> hh_view h (put s o) = Some o.
Proof. intros E. unfold hh_view, put. cbn. rewrite E. now destruct o. Qed.
Lemma view_inv h s o : hh_view h s = Some o ->
  content h (hh_key s) = Some (hm_key o) /\ hh_hasher s = hm_hasher o /\ hh_counter s = hm_counter o /\ hh_oid s = hm_oid o.
Proof. unfold hh_view. destruct (content h (hh_key s)); [|discriminate]. intros [= <-]. cbn. auto. Qed.
Lemma view_same h h' s o : same h h' -> hh_view h s = Some o -> hh_view h' s = Some o.
Proof. intros S V. unfold hh_view in *. destruct (content h (hh_key s)) as [k|] eqn:E; [|discriminate]. now rewrite (content_same h h' _ k S E). Qed.

Lemma on_hasher_key {A} (c : M hash_obj A) o : hm_key (snd (on_hasher c o)) = hm_key o.
Proof. unfold on_hasher. now destruct (c (hm_hasher o)). Qed.
Lemma update_key p o : hm_key (snd (hmac_update p o)) = hm_key o.
Proof.
  destruct p; try reflexivity. unfold hmac_update, bindM, getM, putM.
  destruct (hm_counter (hm_set_counter o (hm_counter o + 1)) =? 1); now rewrite on_hasher_key.
Qed.
Lemma digest_key o : hm_key (snd (hmac_digest o)) = hm_key o.
Proof.
  unfold hmac_digest, bindM, getM, liftM, on_hasher. destruct (hash_init _ _) as [f|e]; [|reflexivity].
  destruct (hash_digest (hm_hasher o)) as [[d|e] x]; [|reflexivity]. destruct (hash_update _ f) as [[u|e] f']; reflexivity.
Qed.
Lemma reset_key o : hm_key (snd (hmac_reset o)) = hm_key o.
Proof. unfold hmac_reset, bindM, getM, putM, on_hasher. destruct (hash_reset (hm_hasher o)) as [[u|e] x]; reflexivity. Qed.

Section View.
Variables (h : heap) (s : hh_obj) (o : hmac_obj).
Hypothesis V : hh_view h s = Some o.

Lemma hh_on_hasher_is {A} (c : M hash_obj A) : hh_on_hasher c (s, h) = (fst (on_hasher c o), (put s (snd (on_hasher c o)), h)).
Proof.
  destruct (view_inv _ _ _ V) as (K & X & C & O). unfold hh_on_hasher, on_hasher. rewrite X. destruct (c (hm_hasher o)) as [r x].
  unfold hh_set_hasher, put. cbn. now rewrite C, O.
Qed.
End View.

Lemma hh_update_is h s o x p : hh_view h s = Some o -> aval h x = Some p ->
  hh_update x (s, h) = (fst (hmac_update p o), (put s (snd (hmac_update p o)), h)).
Proof.
  intros V A. pose proof (aval_buf _ _ _ A) as B. destruct (view_inv _ _ _ V) as (K & X & C & O). unfold hh_update. destruct (as_buf x) as [v|].
  - destruct B as (l & -> & E).
    set (s1 := hh_set_counter s (hm_counter o + 1)). set (o1 := hm_set_counter o (hm_counter o + 1)).
    assert (V1 : hh_view h s1 = Some o1).
    { unfold hh_view, s1, o1, hh_set_counter, hm_set_counter. cbn. now rewrite K, X, O. }
    assert (HR : hmac_update (VBytes l) o =
                 if hm_counter o + 1 =? 1 then on_hasher (hash_update (VBytes (add_xor (hm_key o) _I_PAD ++ l))) o1
                 else on_hasher (hash_update (VBytes l)) o1).
    { change (hmac_update (VBytes l) o) with
        ((if hm_counter o1 =? 1 then on_hasher (hash_update (VBytes (add_xor (hm_key o1) _I_PAD ++ l))) else on_hasher (hash_update (VBytes l))) o1).
      change (hm_counter o1) with (hm_counter o + 1). now destruct (hm_counter o + 1 =? 1). }
    rewrite HR. unfold bindM at 1, getO at 1. unfold bindM at 1, putO at 1. unfold bindM at 1, getO at 1. rewrite C. fold s1.
    change (hh_counter s1) with (hm_counter o + 1). change (hh_key s1) with (hh_key s).
    destruct (hm_counter o + 1 =? 1); unfold bindM, onheap, rd; rewrite ?K, E; apply (hh_on_hasher_is _ _ _ V1).
  - assert (Ep : put s o = s) by (unfold put; rewrite <- X, <- C, <- O; now destruct s).
    destruct p; try contradiction; cbn; now rewrite Ep.
Qed.

Lemma hh_digest_is h s o : hh_view h s = Some o ->
  hh_digest (s, h) =
  match hmac_digest o with
  | (Ok d, o') => (Ok (Ref (List.length h)), (put s o', h ++ [d]))
  | (Err e, o') => (Err e, (put s o', h))
  end.
Proof.
  intros V. destruct (view_inv _ _ _ V) as (K & X & C & O).
  assert (Ep : put s o = s) by (unfold put; rewrite <- X, <- C, <- O; now destruct s).
  assert (HD : hmac_digest o =
    match hash_init (h_name (hm_hasher o)) (VBytes []) with
    | Ok f =>
        match on_hasher hash_digest o with
        | (Ok d, o') =>
            match hash_update (VBytes (add_xor (hm_key o) _O_PAD ++ d)) f with
            | (Ok _, f') => (fst (hash_digest f'), o')
            | (Err e, _) => (Err e, o')
            end
        | (Err e, o') => (Err e, o')
        end
    | Err e => (Err e, o)
    end).
  { unfold hmac_digest, bindM, getM, liftM. destruct (hash_init (h_name (hm_hasher o)) (VBytes [])) as [f|e]; [|reflexivity].
    destruct (on_hasher hash_digest o) as [[d|e] o']; [|reflexivity]. destruct (hash_update (VBytes (add_xor (hm_key o) _O_PAD ++ d)) f) as [[u|e] f']; reflexivity. }
  rewrite HD. unfold hh_digest. unfold bindM at 1, getO at 1. unfold bindM at 1. rewrite X. unfold liftM at 1.
  destruct (hash_init (h_name (hm_hasher o)) (VBytes [])) as [f|e]; [|now rewrite Ep].
  unfold bindM at 1. unfold onheap at 1, rd at 1. rewrite K. unfold bindM at 1. rewrite (hh_on_hasher_is _ _ _ V).
  destruct (on_hasher hash_digest o) as [[d|e] o']; cbn [fst snd]; [|reflexivity].
  destruct (hash_update (VBytes (add_xor (hm_key o) _O_PAD ++ d)) f) as [[u|e] f']; unfold bindM, liftM; [|reflexivity].
  destruct (fst (hash_digest f')) as [r|e]; reflexivity.
Qed.

Lemma hh_reset_is h s o : hh_view h s = Some o ->
  hh_reset (s, h) = (fst (hmac_reset o), (put s (snd (hmac_reset o)), h)).
Proof.
  intros V. unfold hh_reset, hmac_reset. unfold bindM at 1. rewrite (hh_on_hasher_is _ _ _ V). unfold bindM at 2. unfold bindM at 3.
  destruct (on_hasher hash_reset o) as [[u|e] o']; cbn [fst snd]; reflexivity.
Qed.

(** ** The constructor *)
Lemma hh_store_is h key k : content h key = Some k ->
  exists v h', hh_store_key key h = (Ok v, h') /\ same h h' /\ content h' v = Some (store_key k) /\
    if len k <? 64 then (exists b, v = Ref b /\ (List.length h <= b)%nat) else v = key.
Proof.
  intros E. unfold hh_store_key, store_key, _KEY_SIZE. unfold bindM at 1. unfold h_len, bindM at 1, rd at 1. rewrite E. unfold retM at 1.
  destruct (len k <? 64).
  - unfold h_add, bindM, rd. rewrite E. cbn [content]. unfold like, h_bytearray, bindM, rd, alloc, retM. destruct key as [l|a].
    + cbn [content]. do 2 eexists. split; [reflexivity|]. split; [apply same_app|]. split; [apply content_alloc|]. eexists. split; [reflexivity|lia].
    + rewrite content_alloc. do 2 eexists. split; [reflexivity|]. split; [rewrite <- app_assoc; apply same_app|]. split; [apply content_alloc|].
      eexists. split; [reflexivity|]. rewrite app_length. lia.
  - exists key, h. split; [reflexivity|]. split; [apply same_refl|]. auto.
Qed.

Definition keyed_by (h : heap) (s : hh_obj) (key : arg) (k : bytes) : Prop :=
  if len k <? 64 then (exists b, hh_key s = Ref b /\ (List.length h <= b)%nat) else as_buf key = Some (hh_key s).

Lemma hh_init_is name key data h pk pd : aval h key = Some pk -> aval h data = Some pd ->
  let (r, h') := hh_init name key data h in
  same h h' /\
  match r, hmac_init name pk pd with
  | Ok s, Ok o => hh_view h' s = Some o /\ exists k, pk = VBytes k /\ keyed_by h s key k
  | Err e, Err e' => e = e'
  | _, _ => False
  end.
Proof.
  intros A1 A2. unfold hh_init, hmac_init. cbv zeta.
  set (is256 := match name with VStr n => _ | _ => false end). set (is512 := match name with VStr n => String.eqb n "HMAC_GOSTR3411_2012_512" | _ => false end).
  destruct (negb (is256 || is512)); [split; [apply same_refl|reflexivity]|].
  pose proof (aval_buf _ _ _ A1) as B1. destruct (as_buf key) as [v|] eqn:Ek.
  2:{ destruct pk; try contradiction; split; [apply same_refl|reflexivity| | | |]; try apply same_refl; reflexivity. }
  destruct B1 as (k & -> & E1). unfold bindM at 1. unfold h_len at 1, bindM at 1, rd at 1. rewrite E1. unfold retM at 1.
  destruct (len k >? _KEY_SIZE); [split; [apply same_refl|reflexivity]|].
  destruct (hh_store_is h v k E1) as (w & h1 & Es & S1 & C1 & Kd). unfold bindM at 1. rewrite Es. unfold bindM at 1. unfold liftM at 1.
  destruct (if is256 then _ else _) as [[oid hasher]|e] eqn:EI; cbn [bind]; [|split; [exact S1|reflexivity]].
  set (s0 := {| hh_key := w; hh_hasher := hasher; hh_counter := 0; hh_oid := oid |}).
  set (o0 := {| hm_key := store_key k; hm_hasher := hasher; hm_counter := 0; hm_oid := oid |}).
  assert (V0 : hh_view h1 s0 = Some o0) by (unfold hh_view, s0; cbn [hh_key]; now rewrite C1).
  pose proof (aval_same _ _ _ _ S1 A2) as A2'. pose proof (aval_buf _ _ _ A2') as B2.
  assert (UP : let (r, h') := (let '(r, (self, h)) := hh_update data (s0, h1) in (match r with Ok _ => Ok self | Err e => Err e end, h)) in
               same h h' /\
               match r, match hmac_update pd o0 with (Ok _, self) => Ok self | (Err e, _) => Err e end with
               | Ok s, Ok o => hh_view h' s = Some o /\ exists k', VBytes k = VBytes k' /\ keyed_by h s key k'
               | Err e, Err e' => e = e'
               | _, _ => False
               end).
  { rewrite (hh_update_is _ _ _ _ _ V0 A2'). pose proof (update_key pd o0) as UK. destruct (hmac_update pd o0) as [[u|e] o1]; cbn [fst snd] in *; (split; [exact S1|]); [|reflexivity].
    split; [apply view_put; cbn; now rewrite UK|]. exists k. split; [reflexivity|]. unfold keyed_by. cbn [put hh_key s0]. destruct (len k <? 64); [exact Kd|congruence]. }
  assert (DONE : same h h1 /\ (hh_view h1 s0 = Some o0 /\ exists k', VBytes k = VBytes k' /\ keyed_by h s0 key k')).
  { split; [exact S1|]. split; [exact V0|]. exists k. split; [reflexivity|]. unfold keyed_by. cbn [hh_key s0]. destruct (len k <? 64); [exact Kd|congruence]. }
  unfold bindM at 1. destruct (as_buf data) as [dv|] eqn:Ed.
  - destruct B2 as (l & -> & E2). unfold bindM at 1, rd at 1. rewrite E2. unfold retM at 1. destruct l as [|z l].
    + exact DONE.
    + replace (len (z :: l) =? 0) with false by (symmetry; unfold len; cbn [List.length]; lia). exact UP.
  - unfold retM at 1. destruct pd; try contradiction; exact UP.
Qed.

Lemma hh_clear_is h s o : hh_view h s = Some o ->
  hh_clear (s, h) =
  match hmac_clear o with
  | (Ok u, o') => (Ok u, (put (hh_set_key s (Ref (List.length h))) o', h ++ [hm_key o']))
  | (Err e, o') => (Err e, (put s o', h))
  end.
Proof.
  intros V. destruct (view_inv _ _ _ V) as (K & X & C & O). unfold hh_clear. unfold bindM at 1. rewrite (hh_on_hasher_is _ _ _ V).
  unfold hmac_clear. pose proof (on_hasher_key hash_reset o) as Kk. destruct (on_hasher hash_reset o) as [[u|e] o'] eqn:E; cbn [fst snd] in *.
  - unfold bindM, getO, onheap, getM, putM, putO. rewrite E. change (hh_key (put s o')) with (hh_key s). unfold h_zero_fill, h_len, bindM, rd, retM. rewrite K. cbn [content h_bytearray].
    unfold h_bytearray, bindM, rd, alloc. cbn [content]. rewrite <- Kk. reflexivity.
  - unfold bindM. now rewrite E.
Qed.

(** ** A program that uses one HMAC object

    The program owns the first [n] buffers.  It calls the methods and writes its own buffers. *)
Inductive hcmd : Type :=
| HUpdate (x : arg)
| HDigest
| HReset
| HClear
| HWrite (a : nat) (l : bytes).

Definition mine (n : nat) (x : arg) : bool := match x with ABuf a => Nat.ltb a n | AVal _ => true end.
Definition no_bytes (r : res unit) : option (res bytes) := Some (match r with Ok _ => Ok [] | Err e => Err e end).

(** In the heap. *)
Definition hstep (n : nat) (c : hcmd) (w : hh_obj * heap) : option (res bytes) * (hh_obj * heap) :=
  match c with
  | HUpdate x => if mine n x then let (r, w) := hh_update x w in (no_bytes r, w) else (None, w)
  | HDigest =>
      match hh_digest w with
      | (Ok v, w) => (match content (snd w) v with Some l => Some (Ok l) | None => None end, w)
      | (Err e, w) => (Some (Err e), w)
      end
  | HReset => let (r, w) := hh_reset w in (no_bytes r, w)
  | HClear => let (r, w) := hh_clear w in (no_bytes r, w)
  | HWrite a l => if Nat.ltb a n then (Some (Ok []), (fst w, upd (snd w) a l)) else (None, w)
  end.
(** With the object as a value; the second component holds the buffers of the program. *)
Definition vstep (c : hcmd) (w : hmac_obj * heap) : option (res bytes) * (hmac_obj * heap) :=
  let (o, b) := w in
  match c with
  | HUpdate x => match aval b x with Some p => let (r, o) := hmac_update p o in (no_bytes r, (o, b)) | None => (None, (o, b)) end
  | HDigest => let (r, o) := hmac_digest o in (Some r, (o, b))
  | HReset => let (r, o) := hmac_reset o in (no_bytes r, (o, b))
  | HClear => let (r, o) := hmac_clear o in (no_bytes r, (o, b))
  | HWrite a l => if Nat.ltb a (List.length b) then (Some (Ok []), (o, upd b a l)) else (None, (o, b))
  end.
Fixpoint hrun {W} (st : hcmd -> W -> option (res bytes) * W) (cs : list hcmd) (w : W) : list (option (res bytes)) :=
  match cs with [] => [] | c :: cs => let (x, w) := st c w in x :: hrun st cs w end.

(** The key of the object is not a buffer of the program. *)
Definition apart_from (n : nat) (s : hh_obj) : Prop := match hh_key s with Imm _ => True | Ref b => (n <= b)%nat end.
Record hinv (n : nat) (s : hh_obj) (h : heap) (o : hmac_obj) (b : heap) : Prop := {
  hi_view : hh_view h s = Some o;
  hi_bufs : firstn n h = b;
  hi_len : (n <= List.length h)%nat;
  hi_apart : apart_from n s
}.
Lemma hi_count n s h o b : hinv n s h o b -> List.length b = n.
Proof. intros [V B L A]. subst b. rewrite firstn_length. lia. Qed.

Lemma aval_mine n s h o b x : hinv n s h o b -> if mine n x then exists p, aval b x = Some p /\ aval h x = Some p else aval b x = None.
Proof.
  intros Iv. pose proof (hi_count _ _ _ _ _ Iv) as Lb. destruct Iv as [V B L A]. destruct x as [a|p]; cbn [mine aval]; [|eauto].
  destruct (Nat.ltb_spec a n) as [T|T].
  - assert (E : nth_error b a = nth_error h a) by (subst b; rewrite <- (firstn_skipn n h) at 2; rewrite nth_error_app1 by (rewrite firstn_length; lia); reflexivity).
    rewrite E. destruct (nth_error h a) as [l|] eqn:El; [eauto|]. apply nth_error_None in El. lia.
  - replace (nth_error b a) with (@None bytes); [reflexivity|]. symmetry. apply nth_error_None. lia.
Qed.
Lemma firstn_upd_low {A} (l : list A) a x n : (a < n)%nat -> firstn n (upd l a x) = upd (firstn n l) a x.
Proof. revert l n. induction a as [|a IH]; intros [|y l] [|n]; cbn; intros; try lia; try reflexivity. f_equal. apply IH. lia. Qed.
Lemma put_inv n s h o o' b : hinv n s h o b -> hm_key o' = hm_key o -> hinv n (put s o') h o' b.
Proof.
  intros [V B L A] K. destruct (view_inv _ _ _ V) as (Kc & _). constructor; auto. apply view_put. now rewrite Kc, K.
Qed.

Lemma hstep_agree n s h o b c : hinv n s h o b ->
  fst (hstep n c (s, h)) = fst (vstep c (o, b)) /\
  hinv n (fst (snd (hstep n c (s, h)))) (snd (snd (hstep n c (s, h)))) (fst (snd (vstep c (o, b)))) (snd (snd (vstep c (o, b)))).
Proof.
  intros Iv. pose proof (hi_count _ _ _ _ _ Iv) as Lb. pose proof (hi_view _ _ _ _ _ Iv) as V. destruct c as [x| | | |a l]; cbn [hstep vstep].
  - pose proof (aval_mine _ _ _ _ _ x Iv) as X. destruct (mine n x).
    + destruct X as (p & E1 & E2). rewrite E1, (hh_update_is _ _ _ _ _ V E2). pose proof (update_key p o) as K. destruct (hmac_update p o) as [r o']. cbn [fst snd] in *.
      split; [reflexivity|]. now apply put_inv with (o := o).
    + rewrite X. split; [reflexivity|exact Iv].
  - rewrite (hh_digest_is _ _ _ V). pose proof (digest_key o) as K. destruct (hmac_digest o) as [[d|e] o']; cbn [fst snd] in *.
    + rewrite content_alloc. split; [reflexivity|]. destruct Iv as [_ B L A]. constructor.
      * apply view_put. destruct (view_inv _ _ _ V) as (Kc & _). rewrite K. exact (content_same _ _ _ _ (same_app h [d]) Kc).
      * rewrite firstn_app. replace (n - List.length h)%nat with 0%nat by lia. cbn [firstn]. now rewrite app_nil_r.
      * rewrite app_length. lia.
      * exact A.
    + split; [reflexivity|]. now apply put_inv with (o := o).
  - rewrite (hh_reset_is _ _ _ V). pose proof (reset_key o) as K. destruct (hmac_reset o) as [r o']. cbn [fst snd] in *. split; [reflexivity|]. now apply put_inv with (o := o).
  - rewrite (hh_clear_is _ _ _ V). destruct (hmac_clear o) as [[u|e] o'] eqn:E; cbn [fst snd].
    + split; [reflexivity|]. destruct Iv as [_ B L A]. constructor.
      * apply view_put. apply content_alloc.
      * rewrite firstn_app. replace (n - List.length h)%nat with 0%nat by lia. cbn [firstn]. now rewrite app_nil_r.
      * rewrite app_length. lia.
      * exact L.
    + split; [reflexivity|]. apply put_inv with (o := o); [exact Iv|]. unfold hmac_clear, bindM, getM, putM, on_hasher in E. destruct (hash_reset (hm_hasher o)) as [[u|e'] x]; [discriminate E|]. now injection E as <- <-.
  - rewrite Lb. destruct (Nat.ltb_spec a n) as [T|T]; [|split; [reflexivity|exact Iv]]. cbn [fst snd]. split; [reflexivity|]. destruct Iv as [_ B L A]. constructor.
    + unfold hh_view in *. rewrite content_wr_other; [exact V|]. intros E. unfold apart_from in A. rewrite E in A. lia.
    + subst b. now apply firstn_upd_low.
    + now rewrite upd_length.
    + exact A.
Qed.
Theorem hrun_agree n cs : forall s h o b, hinv n s h o b -> hrun (hstep n) cs (s, h) = hrun vstep cs (o, b).
Proof.
  induction cs as [|c cs IH]; intros s h o b Iv; [reflexivity|]. cbn [hrun]. destruct (hstep_agree n s h o b c Iv) as [E I'].
  destruct (hstep n c (s, h)) as [x [s' h']], (vstep c (o, b)) as [y [o' b']]. cbn [fst snd] in *. subst y. f_equal. now apply IH.
Qed.

(** A new object. *)
Lemma hh_new_is name key data h pk pd : aval h key = Some pk -> match data with Some d => aval h d = pd /\ pd <> None | None => pd = None end ->
  let (r, h') := hh_new name key data h in
  same h h' /\
  match r, hmac_new name pk pd with
  | Ok s, Ok o => hh_view h' s = Some o /\ exists k, pk = VBytes k /\ keyed_by h s key k
  | Err e, Err e' => e = e'
  | _, _ => False
  end.
Proof.
  intros A1 A2. unfold hh_new, hmac_new. destruct data as [d|].
  - destruct A2 as [A2 N]. destruct pd as [pd|]; [|contradiction]. now apply hh_init_is.
  - subst pd. now apply hh_init_is.
Qed.

(** ** PBKDF *)
Lemma h_bytearray_is h v l : content h v = Some l -> h_bytearray v h = (Ok (Ref (List.length h)), h ++ [l]).
Proof. intros E. unfold h_bytearray, bindM, rd, alloc. now rewrite E. Qed.

Definition newer_ref (n : nat) (v : buf) : Prop := exists b, v = Ref b /\ (n <= b)%nat.

Lemma hp_init_is u pw salt it h pp ps : aval h pw = Some pp -> aval h salt = Some ps ->
  let (r, h') := hp_init u pw salt it h in
  same h h' /\
  match r, pbkdf_init u pp ps it with
  | Ok s, Ok o =>
      hp_view h' s = Some o /\ newer_ref (List.length h) (hp_password s) /\ newer_ref (List.length h) (hp_salt s) /\
      newer_ref (List.length h) (hh_key (hp_hmac s)) /\ hp_salt s <> hp_password s /\ hp_salt s <> hh_key (hp_hmac s)
  | Err e, Err e' => e = e'
  | _, _ => False
  end.
Proof.
  intros A1 A2. unfold hp_init, pbkdf_init. pose proof (aval_buf _ _ _ A1) as B1. destruct (as_buf pw) as [v|].
  2:{ destruct pp; try contradiction; (split; [apply same_refl|reflexivity]). }
  destruct B1 as (P & -> & E1). unfold bindM at 1. rewrite (h_bytearray_is _ _ _ E1). set (h1 := h ++ [P]).
  assert (S1 : same h h1) by apply same_app. assert (L1 : List.length h1 = S (List.length h)) by (unfold h1; rewrite app_length; cbn; lia).
  pose proof (aval_buf _ _ _ (aval_same _ _ _ _ S1 A2)) as B2. destruct (as_buf salt) as [w|].
  2:{ destruct ps; try contradiction; (split; [exact S1|reflexivity]). }
  destruct B2 as (l & -> & E2). unfold bindM at 1, rd at 1. rewrite E2. unfold bindM at 1.
  assert (X : exists x h2 S0, (if len l =? 0 then alloc u else retM w) h1 = (Ok x, h2) /\ same h1 h2 /\ content h2 x = Some S0 /\ VBytes S0 = match l with [] => VBytes u | _ => VBytes l end).
  { destruct l as [|z l].
    - unfold alloc. cbn [len List.length Z.of_nat Z.eqb]. do 3 eexists. split; [reflexivity|]. split; [apply same_app|]. split; [apply content_alloc|reflexivity].
    - replace (len (z :: l) =? 0) with false by (symmetry; unfold len; cbn [List.length]; lia). exists w, h1, (z :: l). split; [reflexivity|]. split; [apply same_refl|]. auto. }
  destruct X as (x & h2 & S0 & EX & S2 & E3 & ES). rewrite EX. unfold bindM at 1. rewrite (h_bytearray_is _ _ _ E3). set (h3 := h2 ++ [S0]).
  assert (S3 : same h2 h3) by apply same_app. pose proof (same_len _ _ S2) as L2.
  replace (match match l with [] => VBytes u | _ => VBytes l end with VBytes salt0 => _ | VStr _ => _ | VInt _ => _ | VNone => _ end)
    with (let* h0 := hmac_init (VStr "HMAC_GOSTR3411_2012_512") (VBytes P) (VBytes []) in
          Ok {| p_password := P; p_salt := S0; p_iterations := it; p_num_block := 0; p_counter := 0; p_hmac := h0 |})
    by (destruct l; injection ES as <-; reflexivity).
  assert (Cp : content h3 (Ref (List.length h)) = Some P).
  { apply (content_same h2); [exact S3|]. apply (content_same h1); [exact S2|]. apply content_alloc. }
  assert (Cs : content h3 (Ref (List.length h2)) = Some S0) by apply content_alloc.
  pose proof (hh_init_is (VStr "HMAC_GOSTR3411_2012_512") (ABuf (List.length h)) (AVal (VBytes [])) h3 (VBytes P) (VBytes []) (aval_of _ _ _ Cp) eq_refl) as HI.
  unfold bindM at 1. cbn [arg_of]. destruct (hh_init _ (ABuf (List.length h)) (AVal (VBytes [])) h3) as [r h4]. destruct HI as [S4 HI].
  assert (SS : same h h4) by (apply (same_trans _ h1); [exact S1|]; apply (same_trans _ h2); [exact S2|]; apply (same_trans _ h3); [exact S3|exact S4]).
  destruct r as [m|e], (hmac_init _ (VBytes P) (VBytes [])) as [mo|e']; try contradiction; cbn [bind]; [|split; [exact SS|exact HI]].
  split; [exact SS|]. destruct HI as (V & k & Ek & Kd). injection Ek as <-. pose proof (same_len _ _ S3) as L3.
  cbn [hp_password hp_salt hp_hmac]. split.
  { unfold hp_view. cbn [hp_password hp_salt hp_hmac hp_iterations hp_num_block hp_counter]. rewrite (content_same _ _ _ _ S4 Cp), (content_same _ _ _ _ S4 Cs), V. reflexivity. }
  split; [eexists; split; [reflexivity|lia]|]. split; [eexists; split; [reflexivity|lia]|]. unfold keyed_by in Kd. cbn [as_buf] in Kd.
  assert (L4 : List.length h3 = S (List.length h2)) by (unfold h3; rewrite app_length; cbn; lia).
  destruct (len P <? 64).
  - destruct Kd as (b & -> & Lb). split; [eexists; split; [reflexivity|lia]|]. split; intros [= Q]; lia.
  - injection Kd as <-. split; [eexists; split; [reflexivity|lia]|]. split; intros [= Q]; lia.
Qed.

(** The derived key after the salt buffer has been given the content [S']. *)
Lemma hp_derive_is h s o n : hp_view h s = Some o ->
  match hp_derive n (s, h), derive n o with
  | (Ok v, (_, h')), (Ok d, _) => v = Ref (List.length h) /\ h' = h ++ [d]
  | (Err e, _), (Err e', _) => e = e'
  | _, _ => False
  end.
Proof. intros V. unfold hp_derive. rewrite V. destruct (derive n o) as [[d|e] o']; [split; reflexivity|reflexivity]. Qed.
Lemma hp_view_write h s o a S' : hp_view h s = Some o -> hp_salt s = Ref a -> hp_salt s <> hp_password s -> hp_salt s <> hh_key (hp_hmac s) ->
  hp_view (upd h a S') s = Some {| p_password := p_password o; p_salt := S'; p_iterations := p_iterations o; p_num_block := p_num_block o; p_counter := p_counter o; p_hmac := p_hmac o |}.
Proof.
  intros V E N1 N2. unfold hp_view in *. rewrite E in *. destruct (content h (hp_password s)) as [P|] eqn:EP; [|discriminate].
  destruct (content h (Ref a)) as [S0|] eqn:ES; [|discriminate]. destruct (hh_view h (hp_hmac s)) as [m|] eqn:EM; [|discriminate]. injection V as <-.
  rewrite content_wr_other, EP by congruence. rewrite content_wr_same by (now apply content_lt with (l := S0)).
  unfold hh_view in *. rewrite content_wr_other by congruence. now rewrite EM.
Qed.
