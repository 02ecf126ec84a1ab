(** * Programs that use hash objects and generators

    As in HeapWorld.v: in the first meaning every bytearray is a buffer of one heap, in the second
    only those of the program are, and the objects are the values of Streebog.v and Random.v. *)
From Verif Require Import PyBase PyState Streebog Random Heap HeapCipher HeapModes HeapWorld HeapObjects HeapHash.
Open Scope list_scope.

(** [HOwn c] is a statement that does not call the library.  [u] is what [os.urandom] gives. *)
Inductive hash_cmd : Type :=
| HOwn (c : cmd)
| HNew (name : pyval) (data : option operand)     (* o = gosthash.new(name, data=..) *)
| HUpdate (k : nat) (x : operand)                 (* o_k.update(..) *)
| HFinal (k : nat)                                (* o_k.hash_final() *)
| HDigest (k : nat)                               (* x = o_k.digest() *)
| HGetHash (k : nat)                              (* x = o_k.get_hash() *)
| HReset (k : nat)                                (* o_k.reset() *)
| HCopy (k : nat)                                 (* o = o_k.copy() *)
| RNew (u : bytes) (n : Z) (key : option operand) (size_s : option Z)  (* o = gostrandom.new(n, ..) *)
| RRandom (k : nat)                               (* x = o_k.random() *)
| RReset (k : nat) (u : bytes) (x : operand)      (* o_k.reset(..) *)
| RClear (k : nat).                               (* o_k.clear() *)

Inductive hash_or_random (A B : Type) : Type := WHash (a : A) | WRandom (b : B).
Arguments WHash {A B}. Arguments WRandom {A B}.
Definition h_object : Type := hash_or_random hs_obj hg_obj.
Definition v_object : Type := hash_or_random hash_obj random_obj.

(** ** The first meaning *)
Definition on_object {A} (k : nat) (back : A -> h_object) (s : A) (m : M (A * heap) buf) (w : world h_object) : out * world h_object :=
  let '(r, (s', h)) := m (s, w_heap w) in
  show h (w_vars w) (upd (w_objs w) k (back s')) r.
Definition on_object_unit {A} (k : nat) (back : A -> h_object) (s : A) (m : M (A * heap) unit) (w : world h_object) : out * world h_object :=
  let '(r, (s', h)) := m (s, w_heap w) in
  show_unit (mkw h (w_vars w) (upd (w_objs w) k (back s'))) r.
Definition add_object {A} (back : A -> h_object) (m : M heap A) (w : world h_object) : out * world h_object :=
  let (r, h) := m (w_heap w) in
  match r with
  | Ok o => (Some (Ok []), mkw h (w_vars w) (w_objs w ++ [back o]))
  | Err e => (Some (Err e), mkw h (w_vars w) (w_objs w))
  end.

Definition hash_step (c : hash_cmd) (w : world h_object) : out * world h_object :=
  let vs := w_vars w in
  match c with
  | HOwn c => own_step c w
  | HNew name data =>
      match opt_arg vs data with Some data => add_object WHash (hs_new name data) w | None => (None, w) end
  | HUpdate k x =>
      match nth_error (w_objs w) k, operand_arg vs x with
      | Some (WHash s), Some x => on_object_unit k WHash s (hs_update x) w
      | _, _ => (None, w)
      end
  | HFinal k => match nth_error (w_objs w) k with Some (WHash s) => on_object_unit k WHash s hs_final w | _ => (None, w) end
  | HDigest k => match nth_error (w_objs w) k with Some (WHash s) => on_object k WHash s hs_digest w | _ => (None, w) end
  | HGetHash k => match nth_error (w_objs w) k with Some (WHash s) => on_object k WHash s hs_get_hash w | _ => (None, w) end
  | HReset k => match nth_error (w_objs w) k with Some (WHash s) => on_object_unit k WHash s hs_reset w | _ => (None, w) end
  | HCopy k => match nth_error (w_objs w) k with Some (WHash s) => add_object WHash (hs_copy s) w | _ => (None, w) end
  | RNew u n key size_s =>
      match opt_arg vs key with Some key => add_object WRandom (hg_new u n key size_s) w | None => (None, w) end
  | RRandom k => match nth_error (w_objs w) k with Some (WRandom s) => on_object k WRandom s hg_random w | _ => (None, w) end
  | RReset k u x =>
      match nth_error (w_objs w) k, operand_arg vs x with
      | Some (WRandom s), Some x => on_object_unit k WRandom s (hg_reset u x) w
      | _, _ => (None, w)
      end
  | RClear k => match nth_error (w_objs w) k with Some (WRandom s) => on_object_unit k WRandom s hg_clear w | _ => (None, w) end
  end.

(** ** The second meaning *)
Definition i_object {A} (k : nat) (back : A -> v_object) (o : A) (f : M A bytes) (w : world v_object) : out * world v_object :=
  let (r, o') := f o in ogive r w (upd (w_objs w) k (back o')).
Definition i_object_unit {A} (k : nat) (back : A -> v_object) (o : A) (f : M A unit) (w : world v_object) : out * world v_object :=
  let (r, o') := f o in show_unit (mkw (w_heap w) (w_vars w) (upd (w_objs w) k (back o'))) r.
Definition i_add {A} (back : A -> v_object) (r : res A) (w : world v_object) : out * world v_object :=
  match r with
  | Ok o => (Some (Ok []), mkw (w_heap w) (w_vars w) (w_objs w ++ [back o]))
  | Err e => (Some (Err e), w)
  end.

Definition hash_istep (c : hash_cmd) (w : world v_object) : out * world v_object :=
  let val := operand_val (w_heap w) (w_vars w) in
  match c with
  | HOwn c => own_step c w
  | HNew name data =>
      match opt_val (w_heap w) (w_vars w) data with Some data => i_add WHash (hash_new name data) w | None => (None, w) end
  | HUpdate k x =>
      match nth_error (w_objs w) k, val x with
      | Some (WHash o), Some x => i_object_unit k WHash o (hash_update x) w
      | _, _ => (None, w)
      end
  | HFinal k => match nth_error (w_objs w) k with Some (WHash o) => i_object_unit k WHash o hash_final w | _ => (None, w) end
  | HDigest k => match nth_error (w_objs w) k with Some (WHash o) => i_object k WHash o hash_digest w | _ => (None, w) end
  | HGetHash k => match nth_error (w_objs w) k with Some (WHash o) => ogive (Ok (get_hash o)) w (w_objs w) | _ => (None, w) end
  | HReset k => match nth_error (w_objs w) k with Some (WHash o) => i_object_unit k WHash o hash_reset w | _ => (None, w) end
  | HCopy k => match nth_error (w_objs w) k with Some (WHash o) => i_add WHash (Ok o) w | _ => (None, w) end
  | RNew u n key size_s =>
      match opt_val (w_heap w) (w_vars w) key with Some key => i_add WRandom (random_new u n key size_s) w | None => (None, w) end
  | RRandom k => match nth_error (w_objs w) k with Some (WRandom o) => i_object k WRandom o random w | _ => (None, w) end
  | RReset k u x =>
      match nth_error (w_objs w) k, val x with
      | Some (WRandom o), Some x => i_object_unit k WRandom o (random_reset u x) w
      | _, _ => (None, w)
      end
  | RClear k => match nth_error (w_objs w) k with Some (WRandom o) => i_object_unit k WRandom o random_clear w | _ => (None, w) end
  end.

Fixpoint hash_run {O} (st : hash_cmd -> world O -> out * world O) (cs : list hash_cmd) (w : world O) : list out * world O :=
  match cs with
  | [] => ([], w)
  | c :: cs => let (o, w) := st c w in let (os, w) := hash_run st cs w in (o :: os, w)
  end.
Definition hash_start : world h_object := mkw hash_consts [] [].
Definition hash_istart : world v_object := mkw [] [] [].

(** Literals, and what [os.urandom] gives, are byte strings. *)
Definition hash_cmd_ok (c : hash_cmd) : Prop :=
  match c with
  | HOwn c => cmd_ok c
  | HNew _ data => opt_ok data
  | HUpdate _ x => operand_ok x
  | RNew u _ key _ => bytes_ok u /\ opt_ok key
  | RReset _ u x => bytes_ok u /\ operand_ok x
  | _ => True
  end.
