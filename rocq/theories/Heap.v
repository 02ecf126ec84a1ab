(** * Byte buffers with identity

    The other files treat a byte string as a value.  Here a [bytearray] is an address in a heap,
    so that two variables can denote the same buffer and an assignment [x[i] = v] is visible
    through both.  A [bytes] object cannot change and stays a value. *)
From Verif Require Import PyBase PyState.

(** A [bytes] object or a [bytearray] object. *)
Inductive buf : Type :=
| Imm (l : bytes)
| Ref (a : nat).

(** The contents of the bytearrays; the address is the position. *)
Notation heap := (list bytes).

Definition content (h : heap) (v : buf) : option bytes :=
  match v with Imm l => Some l | Ref a => nth_error h a end.

(** Reading a whole buffer.  There are no dangling addresses in Python; the last case cannot occur
    for a buffer that has a content. *)
Definition rd (v : buf) : M heap bytes := fun h =>
  match content h v with Some l => (Ok l, h) | None => (Err TypeError, h) end.

(** A new bytearray. *)
Definition alloc (l : bytes) : M heap buf := fun h => (Ok (Ref (List.length h)), h ++ [l]).

(** An object of the same type as [v]: slices and sums of [bytes] are [bytes], slices and sums
    (with a bytearray on the left) of bytearrays are new bytearrays. *)
Definition like (v : buf) (l : bytes) : M heap buf :=
  match v with Imm _ => retM (Imm l) | Ref _ => alloc l end.

(** [bytearray(v)]. *)
Definition h_bytearray (v : buf) : M heap buf := let! l := rd v in alloc l.
(** [v + w]. *)
Definition h_add (v w : buf) : M heap buf :=
  let! a := rd v in let! b := rd w in like v (a ++ b).
(** [v[a:b]], [v[a:]], [v[:b]]. *)
Definition h_slice (v : buf) (a b : Z) : M heap buf := let! l := rd v in like v (py_slice l a b).
Definition h_from (v : buf) (a : Z) : M heap buf := let! l := rd v in like v (py_from l a).
Definition h_upto (v : buf) (b : Z) : M heap buf := let! l := rd v in like v (py_upto l b).
(** [len(v)]. *)
Definition h_len (v : buf) : M heap Z := let! l := rd v in retM (len l).
(** [v[i]]. *)
Definition h_get (v : buf) (i : Z) : M heap Z := let! l := rd v in liftM (py_get l i).

Definition wr (a : nat) (l : bytes) : M heap unit := fun h => (Ok tt, upd h a l).
(** [v[i] = x]; a [bytes] object does not support item assignment. *)
Definition h_set (v : buf) (i x : Z) : M heap unit :=
  match v with
  | Imm _ => raiseM TypeError
  | Ref a => let! l := rd v in let! l' := liftM (py_set l i x) in wr a l'
  end.
(** [v[a:b] = w]. *)
Definition h_slice_set (v : buf) (i j : Z) (w : buf) : M heap unit :=
  match v with
  | Imm _ => raiseM TypeError
  | Ref a => let! l := rd v in let! x := rd w in wr a (py_slice_set l i j x)
  end.
