(** * Properties C119, C120: buffers shared between the program and hash objects or generators *)
From Verif Require Import PyBase PyState PyFacts Streebog Random Heap HeapLogic HeapCipher HeapModes HeapModesFacts HeapWorld HeapWorldFacts AliasLemmas HeapObjects HeapHash HeapHashFacts HashWorld HashWorldFacts.
Open Scope string_scope.
Open Scope list_scope.
Open Scope Z_scope.

(** C119.  A program sees hash objects and generators as values: it cannot tell the library from one
    whose calls read the contents of the arguments and keep no buffer. *)
Theorem C119_hashes_as_values : forall cs, Forall hash_cmd_ok cs ->
  fst (hash_run hash_step cs hash_start) = fst (hash_run hash_istep cs hash_istart).
Proof. intros cs O. exact (proj1 (hash_run_agree cs [] hash_start hash_istart hrel_start O)). Qed.
Print Assumptions C119_hashes_as_values.

(** The object that a statement calls. *)
Definition calls (c : hash_cmd) : option nat :=
  match c with
  | HUpdate k _ | HFinal k | HDigest k | HGetHash k | HReset k | RRandom k | RReset k _ _ | RClear k => Some k
  | _ => None
  end.
(** The statements that read an object: what they show. *)
Definition asks (k : nat) (c : hash_cmd) : Prop := c = HDigest k \/ c = HGetHash k \/ c = RRandom k.
Definition shown (cs : list hash_cmd) (c : hash_cmd) : out := fst (hash_step c (hash_after cs)).

Lemma own_objs {O} c (w : world O) : w_objs (snd (own_step c w)) = w_objs w.
Proof.
  destruct c; cbn [own_step]; try reflexivity.
  - unfold alloc, show. rewrite content_alloc. reflexivity.
  - destruct (nth_error (w_vars w) i); [|reflexivity]. unfold show. destruct (content _ _); reflexivity.
  - destruct (nth_error (w_vars w) i); [|reflexivity]. destruct (h_set _ _ _ _) as [[u|e] h]; reflexivity.
  - destruct (nth_error (w_vars w) i); [|reflexivity]. destruct (nth_error (w_vars w) j); [|reflexivity]. destruct (h_slice_set _ _ _ _ _) as [[u|e] h]; reflexivity.
  - destruct (nth_error (w_vars w) i); [|reflexivity]. destruct (content _ _); reflexivity.
Qed.
Lemma ogive_objs {O} r (w : world O) os : w_objs (snd (ogive r w os)) = os.
Proof. now destruct r. Qed.
Lemma i_object_objs {A} k (back : A -> v_object) o f i : exists o', w_objs (snd (i_object k back o f i)) = upd (w_objs i) k o'.
Proof. unfold i_object. destruct (f o) as [r o']. rewrite ogive_objs. now exists (back o'). Qed.
Lemma i_unit_objs {A} k (back : A -> v_object) o f i : exists o', w_objs (snd (i_object_unit k back o f i)) = upd (w_objs i) k o'.
Proof. unfold i_object_unit. destruct (f o) as [[u|e] o']; now exists (back o'). Qed.
Lemma i_add_objs {A} (back : A -> v_object) r i : exists x, w_objs (snd (i_add back r i)) = w_objs i ++ x.
Proof. destruct r as [o|e]; [now exists [back o]|exists []; cbn; now rewrite app_nil_r]. Qed.
Lemma istep_other c i k o : calls c <> Some k -> nth_error (w_objs i) k = Some o -> nth_error (w_objs (snd (hash_istep c i))) k = Some o.
Proof.
  intros T N. assert (L : (k < List.length (w_objs i))%nat) by (apply nth_error_Some; congruence).
  assert (U : forall k' x, calls c = Some k' -> nth_error (upd (w_objs i) k' x) k = Some o) by (intros k' x E; rewrite nth_upd_other; [exact N|congruence]).
  assert (Ap : forall x, nth_error (w_objs i ++ x) k = Some o) by (intros x; now rewrite nth_error_app1).
  destruct c as [c|name data|k0 x|k0|k0|k0|k0|k0|u n key size_s|k0|k0 u x|k0]; cbn [hash_istep calls] in *; try (rewrite own_objs; exact N);
    repeat match goal with
    | |- context [match nth_error ?l ?j with _ => _ end] => destruct (nth_error l j) as [[?|?]|] eqn:?
    | |- context [match opt_val ?a ?b ?c with _ => _ end] => destruct (opt_val a b c)
    | |- context [match operand_val ?a ?b ?c with _ => _ end] => destruct (operand_val a b c)
    end; try exact N.
  all: try (rewrite ogive_objs; exact N).
  all: try match goal with |- context [i_object ?k ?b ?o ?f ?i] => destruct (i_object_objs k b o f i) as [y ->]; now apply U end.
  all: try match goal with |- context [i_object_unit ?k ?b ?o ?f ?i] => destruct (i_unit_objs k b o f i) as [y ->]; now apply U end.
  all: try match goal with |- context [i_add ?b ?r ?i] => destruct (i_add_objs b r i) as [y ->]; apply Ap end.

Qed.
Lemma irun_other cs : forall i k o, Forall (fun c => calls c <> Some k) cs -> nth_error (w_objs i) k = Some o ->
  nth_error (w_objs (snd (hash_run hash_istep cs i))) k = Some o.
Proof.
  induction cs as [|c cs IH]; intros i k o F N; [exact N|]. inversion F; subst. cbn [hash_run].
  pose proof (istep_other c i k o H1 N) as N1. destruct (hash_istep c i) as [x i1]. cbn [snd] in N1. specialize (IH i1 k o H2 N1).
  destruct (hash_run hash_istep cs i1). exact IH.
Qed.
Lemma asks_objs k c i i' : asks k c -> nth_error (w_objs i) k = nth_error (w_objs i') k -> fst (hash_istep c i) = fst (hash_istep c i').
Proof.
  intros [-> |[-> | ->]] E; cbn [hash_istep]; rewrite E; destruct (nth_error (w_objs i') k) as [[o|o]|]; try reflexivity.
  - unfold i_object. destruct (hash_digest o) as [[l|e] o']; reflexivity.
  - unfold i_object. destruct (random o) as [[l|e] o']; reflexivity.
Qed.
Lemma asks_ok k c : asks k c -> hash_cmd_ok c.
Proof. intros [-> |[-> | ->]]; exact I. Qed.
Lemma shown_value cs c : Forall hash_cmd_ok cs -> hash_cmd_ok c -> shown cs c = fst (hash_istep c (snd (hash_run hash_istep cs hash_istart))).
Proof.
  intros O Oc. destruct (hash_run_agree cs [] hash_start hash_istart hrel_start O) as (_ & g & R). exact (proj1 (hash_step_agree _ _ _ c R Oc)).
Qed.
Lemma object_value cs k : Forall hash_cmd_ok cs -> nth_error (w_objs (hash_after cs)) k <> None -> exists o, nth_error (w_objs (snd (hash_run hash_istep cs hash_istart))) k = Some o.
Proof.
  intros O N. destruct (hash_run_agree cs [] hash_start hash_istart hrel_start O) as (_ & g & R). pose proof (o_obj_rep _ _ _ _ _ _ k R) as X. fold (hash_after cs) in X.
  destruct (nth_error (w_objs (hash_after cs)) k); [|congruence]. destruct (nth_error (w_objs (snd (hash_run hash_istep cs hash_istart))) k) as [o|]; [now exists o|contradiction].
Qed.

(** What an object shows depends only on the calls of that object: writes to buffers that were passed
    to it or that it returned, and calls of other objects (copies included), make no difference. *)
Theorem C119_only_own_calls : forall cs cs' k c, Forall hash_cmd_ok cs -> Forall hash_cmd_ok cs' ->
  nth_error (w_objs (hash_after cs)) k <> None -> Forall (fun c' => calls c' <> Some k) cs' -> asks k c ->
  shown (cs ++ cs') c = shown cs c.
Proof.
  intros cs cs' k c O O' N F A. pose proof (asks_ok k c A) as Oc. rewrite (shown_value cs c O Oc), (shown_value (cs ++ cs') c (proj2 (Forall_app _ _ _) (conj O O')) Oc).
  apply (asks_objs k); [exact A|]. destruct (object_value cs k O N) as [o No]. rewrite No. rewrite hash_run_app. cbn [snd]. now apply irun_other.
Qed.
Print Assumptions C119_only_own_calls.

(** Two hash objects, the second a copy, and a generator; then the program overwrites its buffers. *)
Definition hash_prog : list hash_cmd :=
  [HOwn (CBytearray [1; 2; 3]); HNew (VStr "streebog256") None; HUpdate 0 (OVar 0); HCopy 0;
   HOwn (CBytearray (repeat 7 16)); RNew [] 32 (Some (OVar 1)) (Some 16)].
Definition hash_writes : list hash_cmd := [HOwn (CSet 0 0 9); HUpdate 1 (OVar 0); HOwn (CSet 1 0 0); HReset 1].
Lemma small_ok l : forallb (fun x => (0 <=? x) && (x <? 256)) l = true -> bytes_ok l.
Proof. intros E. apply Forall_forall. intros x X. rewrite forallb_forall in E. specialize (E x X). unfold byte_ok. lia. Qed.
Lemma hash_prog_ok : Forall hash_cmd_ok hash_prog.
Proof.
  apply Forall_cons; [now apply small_ok|]. apply Forall_cons; [exact I|]. apply Forall_cons; [exact I|]. apply Forall_cons; [exact I|].
  apply Forall_cons; [now apply small_ok|]. apply Forall_cons; [split; [constructor|exact I]|]. apply Forall_nil.
Qed.
Lemma hash_writes_ok : Forall hash_cmd_ok hash_writes.
Proof. unfold hash_writes. repeat (apply Forall_cons; [exact I|]). apply Forall_nil. Qed.
Example C119_example : Forall hash_cmd_ok hash_prog /\ Forall hash_cmd_ok hash_writes /\
  nth_error (w_objs (hash_after hash_prog)) 0 <> None /\ nth_error (w_objs (hash_after hash_prog)) 2 <> None /\
  Forall (fun c => calls c <> Some 0%nat /\ calls c <> Some 2%nat) hash_writes /\ asks 0 (HDigest 0) /\ asks 2 (RRandom 2) /\
  w_heap (hash_after (hash_prog ++ hash_writes)) <> w_heap (hash_after hash_prog).
Proof.
  split; [exact hash_prog_ok|]. split; [exact hash_writes_ok|]. split; [vm_compute; discriminate|]. split; [vm_compute; discriminate|].
  split; [unfold hash_writes; repeat (apply Forall_cons; [cbn; split; discriminate|]); apply Forall_nil|].
  split; [left; reflexivity|]. split; [right; right; reflexivity|]. vm_compute. discriminate.
Qed.

(** C120.  A call leaves every variable of the program bound to the same buffer with the same contents
    and the constants of the module as they are; its result is in a buffer that nothing else denotes;
    no attribute of an object is a buffer of the program, of the module or of another object. *)
Theorem C120_arguments_untouched : forall cs c, Forall hash_cmd_ok cs -> hash_cmd_ok c -> hash_library c ->
  let w := hash_after cs in let w' := snd (hash_step c w) in
  (forall j x l, nth_error (w_vars w) j = Some x -> content (w_heap w) x = Some l ->
     nth_error (w_vars w') j = Some x /\ content (w_heap w') x = Some l) /\
  firstn 14 (w_heap w') = hash_consts.
Proof.
  intros cs c O Oc L w w'. destruct (hash_after_rel cs O) as (f & i & R). destruct (hash_step_agree f w i c R Oc) as (_ & g & R'). split.
  - exact (proj1 (o_call_keeps _ _ _ wrep_keep wrep_lt f w i g w' _ R R' (hash_istep_adds c i L) (hash_step_grows c w L))).
  - apply (constsK_first hash_consts), R'.
Qed.
Print Assumptions C120_arguments_untouched.
Theorem C120_result_is_new : forall cs c, Forall hash_cmd_ok cs -> hash_cmd_ok c -> hash_library c ->
  let w := hash_after cs in let w' := snd (hash_step c w) in
  forall x, nth_error (w_vars w') (List.length (w_vars w)) = Some x ->
  exists b, x = Ref b /\ (14 <= b)%nat /\ ~ In (Ref b) (w_vars w) /\ forall k s, nth_error (w_objs w') k = Some s -> ~ In b (wfoot s).
Proof.
  intros cs c O Oc L w w' x Nx. destruct (hash_after_rel cs O) as (f & i & R). destruct (hash_step_agree f w i c R Oc) as (_ & g & R'). fold w' in R'.
  destruct (o_call_keeps _ _ _ wrep_keep wrep_lt f w i g w' _ R R' (hash_istep_adds c i L) (hash_step_grows c w L)) as (_ & F & _).
  destruct (F x Nx) as (b & -> & NI). exists b. split; [reflexivity|].
  pose proof (o_var_rep _ _ _ _ _ _ (List.length (w_vars w)) R') as V. rewrite Nx in V. destruct (nth_error (w_vars (snd (hash_istep c i))) (List.length (w_vars w))) as [v|]; [|contradiction].
  destruct V as [At _]. destruct (at_ref _ _ _ At) as (a & -> & Na). apply nth_error_In in Na.
  split; [exact (or_low _ _ _ _ _ _ R' _ Na)|]. split; [exact NI|]. intros k s N I. exact (proj2 (or_foot _ _ _ _ _ _ R' k s b N I) Na).
Qed.
Print Assumptions C120_result_is_new.
Theorem C120_hashes_share_nothing : forall cs, Forall hash_cmd_ok cs ->
  let w := hash_after cs in
  (forall k s a, nth_error (w_objs w) k = Some s -> In a (wfoot s) -> (14 <= a)%nat /\ ~ In (Ref a) (w_vars w)) /\
  (forall k k' s s' a, nth_error (w_objs w) k = Some s -> nth_error (w_objs w) k' = Some s' -> In a (wfoot s) -> In a (wfoot s') -> k = k').
Proof.
  intros cs O w. destruct (hash_after_rel cs O) as (f & i & R). split; [|exact (or_sep _ _ _ _ _ _ R)].
  intros k s a N I. exact (o_apart _ _ _ f w i k s a R N I).
Qed.
Print Assumptions C120_hashes_share_nothing.
(** A copy shows what the original shows. *)
Theorem C120_copy_shows_the_same : forall cs k s, Forall hash_cmd_ok cs -> nth_error (w_objs (hash_after cs)) k = Some (WHash s) ->
  let k' := List.length (w_objs (hash_after cs)) in
  shown (cs ++ [HCopy k]) (HDigest k') = shown cs (HDigest k) /\ shown (cs ++ [HCopy k]) (HGetHash k') = shown cs (HGetHash k).
Proof.
  intros cs k s O N k'. assert (O1 : Forall hash_cmd_ok (cs ++ [HCopy k])) by (apply Forall_app; split; [exact O|repeat constructor]).
  rewrite !shown_value by (auto; exact I). rewrite hash_run_app. cbn [snd hash_run]. set (i := snd (hash_run hash_istep cs hash_istart)).
  destruct (hash_run_agree cs [] hash_start hash_istart hrel_start O) as (_ & g & R). fold i in R. fold (hash_after cs) in R.
  pose proof (o_obj_rep _ _ _ _ _ _ k R) as X. rewrite N in X. destruct (nth_error (w_objs i) k) as [[o|o]|] eqn:No; try contradiction.
  assert (L : k' = List.length (w_objs i)) by (unfold k'; pose proof (or_objs _ _ _ _ _ _ R) as H; clear - H; induction H; cbn; congruence).
  assert (E : nth_error (w_objs (snd (let (o0, w) := hash_istep (HCopy k) i in ([o0], w)))) k' = Some (WHash o)).
  { cbn [hash_istep]. rewrite No. cbn [i_add snd w_objs mkw]. rewrite L, nth_error_app2, Nat.sub_diag by lia. reflexivity. }
  set (i' := snd (let (o0, w) := hash_istep (HCopy k) i in ([o0], w))) in *. clearbody i'.
  cbn [hash_istep]. rewrite E, No. split; [|reflexivity]. unfold i_object. destruct (hash_digest o) as [[l|e] o']; reflexivity.
Qed.
Print Assumptions C120_copy_shows_the_same.
Example C120_example : Forall hash_cmd_ok hash_prog /\ hash_library (HGetHash 0) /\
  nth_error (w_vars (hash_after hash_prog)) 0 = Some (Ref 14) /\ content (w_heap (hash_after hash_prog)) (Ref 14) = Some [1; 2; 3] /\
  nth_error (w_vars (snd (hash_step (HGetHash 0) (hash_after hash_prog)))) 2 <> None /\
  (exists s s' a b, nth_error (w_objs (hash_after hash_prog)) 0 = Some (WHash s) /\ nth_error (w_objs (hash_after hash_prog)) 1 = Some s' /\
     In a (wfoot (WHash s)) /\ In b (wfoot s')).
Proof.
  split; [exact hash_prog_ok|]. split; [exact I|]. split; [vm_compute; reflexivity|]. split; [vm_compute; reflexivity|]. split; [vm_compute; discriminate|].
  do 4 eexists. split; [vm_compute; reflexivity|]. split; [vm_compute; reflexivity|]. split; left; reflexivity.
Qed.
