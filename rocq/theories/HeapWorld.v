(** * Programs that use the cipher objects

    Two meanings of a program.  In the first, every bytearray (of the program, of the objects and of
    the module) is a buffer in one heap, and the methods are those of HeapModes.v.  In the second,
    only the bytearrays of the program are buffers; a call reads the contents of its arguments, the
    objects are the values of Modes.v and Mac.v, and a result is a new buffer of the program. *)
From Verif Require Import PyBase PyState Utils CipherObj Modes Mac Heap HeapCipher HeapModes.
Open Scope string_scope.
Open Scope list_scope.
Open Scope Z_scope.

(** The argument of a call: a variable, or an immutable value written in the program. *)
Inductive operand : Type :=
| OVar (i : nat)
| OVal (p : pyval).

(** Statements.  Each variable is assigned once; variables and objects are numbered in the order of
    their creation. *)
Inductive cmd : Type :=
| CBytearray (l : bytes)                 (* x = bytearray(l) *)
| CBytes (l : bytes)                     (* x = bytes(l) *)
| CAlias (i : nat)                       (* x = x_i *)
| CSet (i : nat) (j v : Z)               (* x_i[j] = v *)
| CSliceSet (i : nat) (a b : Z) (j : nat) (* x_i[a:b] = x_j *)
| CRead (i : nat)                        (* bytes(x_i) *)
| CNew (alg : pyval) (key : operand) (mode : pyval) (iv data : option operand) (pad : option pyval)
| CEncrypt (k : nat) (x : operand)       (* x = o_k.encrypt(..) *)
| CDecrypt (k : nat) (x : operand)
| CIv (k : nat)                          (* x = o_k.iv *)
| CCounter (k : nat)                     (* x = bytearray(o_k.counter) *)
| CUpdate (k : nat) (x : operand)        (* o_k.update(..) *)
| CDigest (k : nat) (n : Z)              (* x = o_k.digest(n) *)
| CClear (k : nat).                      (* o_k.clear() *)

Record world (O : Type) : Type := { w_heap : heap; w_vars : list buf; w_objs : list O }.
Arguments w_heap {O}. Arguments w_vars {O}. Arguments w_objs {O}.
Definition mkw {O} (h : heap) (vs : list buf) (os : list O) : world O := {| w_heap := h; w_vars := vs; w_objs := os |}.

(** What a statement shows: the contents of the result, or the exception.  [None] stands for the use
    of a variable, an object or an attribute that does not exist. *)
Definition out : Type := option (res bytes).

Definition show {O} (h : heap) (vs : list buf) (os : list O) (r : res buf) : out * world O :=
  match r with
  | Ok v =>
      match content h v with
      | Some l => (Some (Ok l), mkw h (vs ++ [v]) os)
      | None => (None, mkw h vs os)
      end
  | Err e => (Some (Err e), mkw h vs os)
  end.
Definition show_unit {O} (w : world O) (r : res unit) : out * world O :=
  match r with Ok _ => (Some (Ok []), w) | Err e => (Some (Err e), w) end.

(** The statements that do not involve the library. *)
Definition own_step {O} (c : cmd) (w : world O) : out * world O :=
  let h := w_heap w in let vs := w_vars w in let os := w_objs w in
  match c with
  | CBytearray l => let (r, h) := alloc l h in show h vs os r
  | CBytes l => show h vs os (Ok (Imm l))
  | CAlias i => match nth_error vs i with Some v => show h vs os (Ok v) | None => (None, w) end
  | CRead i =>
      match nth_error vs i with
      | Some v => match content h v with Some l => (Some (Ok l), w) | None => (None, w) end
      | None => (None, w)
      end
  | CSet i j x =>
      match nth_error vs i with
      | Some v => let (r, h) := h_set v j x h in show_unit (mkw h vs os) r
      | None => (None, w)
      end
  | CSliceSet i a b j =>
      match nth_error vs i, nth_error vs j with
      | Some v, Some x => let (r, h) := h_slice_set v a b x h in show_unit (mkw h vs os) r
      | _, _ => (None, w)
      end
  | _ => (None, w)
  end.

(** ** The first meaning *)
Definition real : Type := world hnew_obj.
Definition start : real := mkw module_consts [] [].

Definition operand_arg (vs : list buf) (x : operand) : option arg :=
  match x with
  | OVar i => match nth_error vs i with Some v => Some (arg_of v) | None => None end
  | OVal p => Some (AVal p)
  end.
Definition opt_arg (vs : list buf) (x : option operand) : option (option arg) :=
  match x with
  | None => Some None
  | Some x => match operand_arg vs x with Some a => Some (Some a) | None => None end
  end.

Definition has_iv (c : mode_class) : bool := match c with CBC | CFB | OFB => true | _ => false end.
Definition has_counter (c : mode_class) : bool := match c with CTR => true | _ => false end.

Definition on_mode (k : nat) (s : hobj) (m : HM buf) (w : real) : out * real :=
  let '(r, (s', h)) := m (s, w_heap w) in
  show h (w_vars w) (upd (w_objs w) k (HNewMode s')) r.
Definition on_mode_unit (k : nat) (s : hobj) (m : HM unit) (w : real) : out * real :=
  let '(r, (s', h)) := m (s, w_heap w) in
  show_unit (mkw h (w_vars w) (upd (w_objs w) k (HNewMode s'))) r.
Definition on_mac (k : nat) (s : hcm_obj) (m : MM buf) (w : real) : out * real :=
  let '(r, (s', h)) := m (s, w_heap w) in
  show h (w_vars w) (upd (w_objs w) k (HNewMac s')) r.
Definition on_mac_unit (k : nat) (s : hcm_obj) (m : MM unit) (w : real) : out * real :=
  let '(r, (s', h)) := m (s, w_heap w) in
  show_unit (mkw h (w_vars w) (upd (w_objs w) k (HNewMac s'))) r.

Definition step (c : cmd) (w : real) : out * real :=
  let vs := w_vars w in
  match c with
  | CNew alg key mode iv data pad =>
      match operand_arg vs key, opt_arg vs iv, opt_arg vs data with
      | Some key, Some iv, Some data =>
          let (r, h) := h_new alg key mode {| hkw_init_vect := iv; hkw_data := data; hkw_pad_mode := pad |} (w_heap w) in
          match r with
          | Ok o => (Some (Ok []), mkw h vs (w_objs w ++ [o]))
          | Err e => (Some (Err e), mkw h vs (w_objs w))
          end
      | _, _, _ => (None, w)
      end
  | CEncrypt k x =>
      match nth_error (w_objs w) k, operand_arg vs x with
      | Some (HNewMode s), Some x => on_mode k s (h_encrypt x) w
      | _, _ => (None, w)
      end
  | CDecrypt k x =>
      match nth_error (w_objs w) k, operand_arg vs x with
      | Some (HNewMode s), Some x => on_mode k s (h_decrypt x) w
      | _, _ => (None, w)
      end
  | CIv k =>
      match nth_error (w_objs w) k with
      | Some (HNewMode s) => if has_iv (h_class s) then on_mode k s h_iv w else (None, w)
      | _ => (None, w)
      end
  | CCounter k =>
      match nth_error (w_objs w) k with
      | Some (HNewMode s) =>
          if has_counter (h_class s) then on_mode k s (let! c := h_get_counter in onheap (h_bytearray c)) w else (None, w)
      | _ => (None, w)
      end
  | CUpdate k x =>
      match nth_error (w_objs w) k, operand_arg vs x with
      | Some (HNewMac s), Some x => on_mac_unit k s (hcm_update x) w
      | _, _ => (None, w)
      end
  | CDigest k n =>
      match nth_error (w_objs w) k with
      | Some (HNewMac s) => on_mac k s (hcm_digest n) w
      | _ => (None, w)
      end
  | CClear k =>
      match nth_error (w_objs w) k with
      | Some (HNewMode s) => on_mode_unit k s h_clear w
      | Some (HNewMac s) => on_mac_unit k s hcm_clear w
      | None => (None, w)
      end
  | c => own_step c w
  end.

(** ** The second meaning *)
Definition ideal : Type := world new_obj.
Definition istart : ideal := mkw [] [] [].

Definition operand_val (h : heap) (vs : list buf) (x : operand) : option pyval :=
  match x with
  | OVar i =>
      match nth_error vs i with
      | Some v => match content h v with Some l => Some (VBytes l) | None => None end
      | None => None
      end
  | OVal p => Some p
  end.
Definition opt_val (h : heap) (vs : list buf) (x : option operand) : option (option pyval) :=
  match x with
  | None => Some None
  | Some x => match operand_val h vs x with Some a => Some (Some a) | None => None end
  end.

(** A result is put in a new buffer. *)
Definition give (r : res bytes) (w : ideal) (os : list new_obj) : out * ideal :=
  match r with
  | Ok l => (Some (Ok l), mkw (w_heap w ++ [l]) (w_vars w ++ [Ref (List.length (w_heap w))]) os)
  | Err e => (Some (Err e), mkw (w_heap w) (w_vars w) os)
  end.
Definition i_mode (k : nat) (o : mode_obj) (f : M mode_obj bytes) (w : ideal) : out * ideal :=
  let (r, o') := f o in give r w (upd (w_objs w) k (NewMode o')).
Definition i_mode_unit (k : nat) (o : mode_obj) (f : M mode_obj unit) (w : ideal) : out * ideal :=
  let (r, o') := f o in show_unit (mkw (w_heap w) (w_vars w) (upd (w_objs w) k (NewMode o'))) r.
Definition i_mac (k : nat) (o : mac_obj) (f : M mac_obj bytes) (w : ideal) : out * ideal :=
  let (r, o') := f o in give r w (upd (w_objs w) k (NewMac o')).
Definition i_mac_unit (k : nat) (o : mac_obj) (f : M mac_obj unit) (w : ideal) : out * ideal :=
  let (r, o') := f o in show_unit (mkw (w_heap w) (w_vars w) (upd (w_objs w) k (NewMac o'))) r.

Definition istep (c : cmd) (w : ideal) : out * ideal :=
  let vs := w_vars w in
  let val := operand_val (w_heap w) vs in
  match c with
  | CNew alg key mode iv data pad =>
      match val key, opt_val (w_heap w) vs iv, opt_val (w_heap w) vs data with
      | Some key, Some iv, Some data =>
          match new alg key mode {| kw_init_vect := iv; kw_data := data; kw_pad_mode := pad |} with
          | Ok o => (Some (Ok []), mkw (w_heap w) vs (w_objs w ++ [o]))
          | Err e => (Some (Err e), w)
          end
      | _, _, _ => (None, w)
      end
  | CEncrypt k x =>
      match nth_error (w_objs w) k, val x with
      | Some (NewMode o), Some x => i_mode k o (encrypt x) w
      | _, _ => (None, w)
      end
  | CDecrypt k x =>
      match nth_error (w_objs w) k, val x with
      | Some (NewMode o), Some x => i_mode k o (decrypt x) w
      | _, _ => (None, w)
      end
  | CIv k =>
      match nth_error (w_objs w) k with
      | Some (NewMode o) => if has_iv (o_class o) then give (Ok (iv o)) w (w_objs w) else (None, w)
      | _ => (None, w)
      end
  | CCounter k =>
      match nth_error (w_objs w) k with
      | Some (NewMode o) => if has_counter (o_class o) then give (Ok (o_counter o)) w (w_objs w) else (None, w)
      | _ => (None, w)
      end
  | CUpdate k x =>
      match nth_error (w_objs w) k, val x with
      | Some (NewMac o), Some x => i_mac_unit k o (mac_update x) w
      | _, _ => (None, w)
      end
  | CDigest k n =>
      match nth_error (w_objs w) k with
      | Some (NewMac o) => i_mac k o (mac_digest n) w
      | _ => (None, w)
      end
  | CClear k =>
      match nth_error (w_objs w) k with
      | Some (NewMode o) => i_mode_unit k o clear w
      | Some (NewMac o) => i_mac_unit k o mac_clear w
      | None => (None, w)
      end
  | c => own_step c w
  end.

(** A whole program. *)
Fixpoint run {O} (st : cmd -> world O -> out * world O) (cs : list cmd) (w : world O) : list out * world O :=
  match cs with
  | [] => ([], w)
  | c :: cs => let (o, w) := st c w in let (os, w) := run st cs w in (o :: os, w)
  end.

(** Literals are byte strings. *)
Definition operand_ok (x : operand) : Prop := match x with OVal (VBytes l) => bytes_ok l | _ => True end.
Definition opt_ok (x : option operand) : Prop := match x with Some x => operand_ok x | None => True end.
Definition cmd_ok (c : cmd) : Prop :=
  match c with
  | CBytearray l | CBytes l => bytes_ok l
  | CNew _ key _ iv data _ => operand_ok key /\ opt_ok iv /\ opt_ok data
  | CEncrypt _ x | CDecrypt _ x | CUpdate _ x => operand_ok x
  | _ => True
  end.
