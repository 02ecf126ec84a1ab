(** * Hash objects and generators with their buffers as addresses

    The methods of Streebog.v and Random.v, statement by statement, with every [bytearray] a cell of
    the heap: the attributes of the objects, the constants of the module, the blocks, the chaining
    values, the results.  Local buffers that are assigned and never used are left out. *)
From Verif Require Import PyBase PyState Utils Oid StreebogTables Streebog Random Heap HeapCipher CipherObj Modes Mac HeapModes.
Open Scope string_scope.
Open Scope list_scope.
Open Scope Z_scope.

(** gost_34_11_2012.py 25, 28, 562: the bytearrays of the module, created when it is imported, are the
    first fourteen cells of the heap.  [_T] (40) holds integers. *)
Definition hash_consts : heap := _V_0 :: _V_512 :: _C.
Definition at_V_0 : buf := Ref 0.
Definition at_V_512 : buf := Ref 1.
Definition at_C : list buf := map Ref (seq 2 12).

(** gost_34_11_2012.py 741-747: the attributes. *)
Record hs_obj : Type := {
  hs_name : string;
  hs_buff : buf;
  hs_num_block : Z;
  hs_pad_block_size : Z;
  hs_hash_h : buf;
  hs_hash_n : buf;
  hs_hash_sigma : buf;
  hs_oid : ObjectIdentifier
}.
Notation HS := (M (hs_obj * heap)).

Definition hs_set_h (s : hs_obj) (v : buf) : hs_obj :=
  {| hs_name := hs_name s; hs_buff := hs_buff s; hs_num_block := hs_num_block s; hs_pad_block_size := hs_pad_block_size s;
     hs_hash_h := v; hs_hash_n := hs_hash_n s; hs_hash_sigma := hs_hash_sigma s; hs_oid := hs_oid s |}.
Definition hs_set_n (s : hs_obj) (v : buf) : hs_obj :=
  {| hs_name := hs_name s; hs_buff := hs_buff s; hs_num_block := hs_num_block s; hs_pad_block_size := hs_pad_block_size s;
     hs_hash_h := hs_hash_h s; hs_hash_n := v; hs_hash_sigma := hs_hash_sigma s; hs_oid := hs_oid s |}.
Definition hs_set_sigma (s : hs_obj) (v : buf) : hs_obj :=
  {| hs_name := hs_name s; hs_buff := hs_buff s; hs_num_block := hs_num_block s; hs_pad_block_size := hs_pad_block_size s;
     hs_hash_h := hs_hash_h s; hs_hash_n := hs_hash_n s; hs_hash_sigma := v; hs_oid := hs_oid s |}.
Definition hs_set_buff (s : hs_obj) (v : buf) : hs_obj :=
  {| hs_name := hs_name s; hs_buff := v; hs_num_block := hs_num_block s; hs_pad_block_size := hs_pad_block_size s;
     hs_hash_h := hs_hash_h s; hs_hash_n := hs_hash_n s; hs_hash_sigma := hs_hash_sigma s; hs_oid := hs_oid s |}.
Definition hs_set_num_block (s : hs_obj) (v : Z) : hs_obj :=
  {| hs_name := hs_name s; hs_buff := hs_buff s; hs_num_block := v; hs_pad_block_size := hs_pad_block_size s;
     hs_hash_h := hs_hash_h s; hs_hash_n := hs_hash_n s; hs_hash_sigma := hs_hash_sigma s; hs_oid := hs_oid s |}.
Definition hs_set_pad_block_size (s : hs_obj) (v : Z) : hs_obj :=
  {| hs_name := hs_name s; hs_buff := hs_buff s; hs_num_block := hs_num_block s; hs_pad_block_size := v;
     hs_hash_h := hs_hash_h s; hs_hash_n := hs_hash_n s; hs_hash_sigma := hs_hash_sigma s; hs_oid := hs_oid s |}.

(** gost_34_11_2012.py 757-766 [_hash_init]: new buffers; for streebog256 the attribute [_hash_h] is
    assigned twice and the first buffer is dropped. *)
Definition hs_hash_init (name : string) (oid : ObjectIdentifier) : M heap hs_obj :=
  let! buff := alloc [] in
  let! hash_h := alloc (py_repeat 0 _BLOCK_SIZE) in
  let! hash_n := alloc (py_repeat 0 _BLOCK_SIZE) in
  let! hash_sigma := alloc (py_repeat 0 _BLOCK_SIZE) in
  let! hash_h := (if String.eqb name "streebog256" then alloc (py_repeat 0x01 _BLOCK_SIZE) else retM hash_h) in
  retM {| hs_name := name; hs_buff := buff; hs_num_block := 0; hs_pad_block_size := 0;
          hs_hash_h := hash_h; hs_hash_n := hash_n; hs_hash_sigma := hash_sigma; hs_oid := oid |}.

(** gost_34_11_2012.py 768-777 [_hash_add_512]. *)
Definition hs_add_512 (op_a op_b : buf) : M heap buf :=
  let! op_a := h_bytearray op_a in
  let! op_b := h_bytearray op_b in
  let! result := alloc (py_repeat 0 _BLOCK_SIZE) in
  let! _ :=
    forM (py_range 0 _BLOCK_SIZE 1) 0
      (fun i op_c =>
         let! a := h_get op_a i in
         let! b := h_get op_b i in
         let op_c := a + b + Z.shiftr op_c 8 in
         h_set result i (Z.land op_c 0xff) ;!
         retM op_c) in
  retM result.

(** [_T[j][data[k]]]. *)
Definition hs_t_get (data : buf) (j k : Z) : M heap Z :=
  let! row := liftM (py_get _T j) in
  let! d := h_get data k in
  liftM (py_get row d).

(** The right side of one assignment of [_hash_lps], a [bytes] object. *)
Definition hs_lps_word (data : buf) (k0 k1 k2 k3 k4 k5 k6 k7 : Z) : M heap bytes :=
  let! t0 := hs_t_get data 0 k0 in
  let! t1 := hs_t_get data 1 k1 in
  let! t2 := hs_t_get data 2 k2 in
  let! t3 := hs_t_get data 3 k3 in
  let! t4 := hs_t_get data 4 k4 in
  let! t5 := hs_t_get data 5 k5 in
  let! t6 := hs_t_get data 6 k6 in
  let! t7 := hs_t_get data 7 k7 in
  liftM (to_bytes_8_little
    (Z.lxor (Z.lxor (Z.lxor (Z.lxor (Z.lxor (Z.lxor (Z.lxor t0 t1) t2) t3) t4) t5) t6) t7)).

(** [internal[a::] = w]. *)
Definition hs_set_from (internal : buf) (a : Z) (w : bytes) : M heap unit :=
  let! n := h_len internal in
  h_slice_set internal a n (Imm w).

(** gost_34_11_2012.py 779-814 [_hash_lps]. *)
Definition hs_lps (data : buf) : M heap buf :=
  let! internal := alloc (py_repeat 0 _BLOCK_SIZE) in
  let! w := hs_lps_word data 0 8 16 24 32 40 48 56 in
  hs_set_from internal 0 w ;!
  let! w := hs_lps_word data 1 9 17 25 33 41 49 57 in
  hs_set_from internal 8 w ;!
  let! w := hs_lps_word data 2 10 18 26 34 42 50 58 in
  hs_set_from internal 16 w ;!
  let! w := hs_lps_word data 3 11 19 27 35 43 51 59 in
  hs_set_from internal 24 w ;!
  let! w := hs_lps_word data 4 12 20 28 36 44 52 60 in
  hs_set_from internal 32 w ;!
  let! w := hs_lps_word data 5 13 21 29 37 45 53 61 in
  hs_set_from internal 40 w ;!
  let! w := hs_lps_word data 6 14 22 30 38 46 54 62 in
  hs_set_from internal 48 w ;!
  let! w := hs_lps_word data 7 15 23 31 39 47 55 63 in
  hs_set_from internal 56 w ;!
  retM internal.

(** gost_34_11_2012.py 816-820 [_hash_get_key]. *)
Definition hs_get_key (k : buf) (i : Z) : M heap buf :=
  let! c := liftM (py_get at_C i) in
  let! key := h_add_xor k c in
  hs_lps key.

(** gost_34_11_2012.py 822-828 [_hash_e]. *)
Definition hs_e (k data : buf) : M heap buf :=
  let! internal := h_add_xor k data in
  let! (_, internal) :=
    forM (py_range 0 12 1) (k, internal)
      (fun i '(k, internal) =>
         let! internal := hs_lps internal in
         let! k := hs_get_key k i in
         let! internal := h_add_xor internal k in
         retM (k, internal)) in
  retM internal.

(** gost_34_11_2012.py 830-837 [_hash_g]. *)
Definition hs_g (hash_h hash_n data : buf) : M heap buf :=
  let! k := h_add_xor hash_n hash_h in
  let! k := hs_lps k in
  let! internal := hs_e k data in
  let! internal := h_add_xor internal hash_h in
  h_add_xor internal data.

(** Assignments to the attributes of the state. *)
Definition hs_step_h (n block : buf) : HS unit :=
  let! self := getO in
  let! v := onheap (hs_g (hs_hash_h self) n block) in
  putO (hs_set_h self v).
Definition hs_step_n (v : buf) : HS unit :=
  let! self := getO in
  let! v := onheap (hs_add_512 (hs_hash_n self) v) in
  putO (hs_set_n self v).
Definition hs_step_sigma (v : buf) : HS unit :=
  let! self := getO in
  let! v := onheap (hs_add_512 (hs_hash_sigma self) v) in
  putO (hs_set_sigma self v).

(** gost_34_11_2012.py 839-864 [update]. *)
Definition hs_update (data : arg) : HS unit :=
  match as_buf data with
  | Some data =>
      let! self := getO in
      let! data := onheap (h_add (hs_buff self) data) in
      let! n := onheap (h_len data) in
      let num_block := n / _BLOCK_SIZE in
      putO (hs_set_num_block self num_block) ;!
      forM (py_range 0 (num_block * _BLOCK_SIZE) _BLOCK_SIZE) tt
        (fun i _ =>
           let! block := onheap (h_slice data i (i + _BLOCK_SIZE)) in
           let! self := getO in
           hs_step_h (hs_hash_n self) block ;!
           hs_step_n at_V_512 ;!
           hs_step_sigma block) ;!
      let! self := getO in
      let! n := onheap (h_len data) in
      let pad_block_size := _BLOCK_SIZE - n mod _BLOCK_SIZE in
      let self := hs_set_pad_block_size self pad_block_size in
      if pad_block_size <? _BLOCK_SIZE
      then
        let! v := onheap (h_from data (- (_BLOCK_SIZE - pad_block_size))) in
        putO (hs_set_buff self v)
      else putO self
  | None => raiseM (GOSTHashError "GOSTHashError: invalid data value")
  end.

(** gost_34_11_2012.py 869-871: the number of bits in the last block; [z] is its length. *)
Definition hs_final_block (z : Z) : M heap buf :=
  let! internal := alloc (py_repeat 0 _BLOCK_SIZE) in
  h_set internal 1 (Z.land (Z.shiftr (z * 8) 8) 0xff) ;!
  h_set internal 0 (Z.land (z * 8) 0xff) ;!
  retM internal.

(** gost_34_11_2012.py 866-880 [hash_final]. *)
Definition hs_final : HS unit :=
  let! self := getO in
  let! n := onheap (h_len (hs_buff self)) in
  let pad_block_size := _BLOCK_SIZE - n in
  putO (hs_set_pad_block_size self pad_block_size) ;!
  let! internal := onheap (hs_final_block (_BLOCK_SIZE - pad_block_size)) in
  (let! self := getO in
   if pad_block_size <=? _BLOCK_SIZE
   then
     let! v := onheap (h_add (hs_buff self) (Imm [0x01])) in
     let! v := onheap (h_add v (Imm (py_repeat 0x00 (pad_block_size - 1)))) in
     putO (hs_set_buff self v)
   else retM tt) ;!
  let! self := getO in
  hs_step_h (hs_hash_n self) (hs_buff self) ;!
  hs_step_n internal ;!
  hs_step_sigma (hs_buff self) ;!
  let! self := getO in
  hs_step_h at_V_0 (hs_hash_n self) ;!
  let! self := getO in
  hs_step_h at_V_0 (hs_hash_sigma self).

(** gost_34_11_2012.py 922-934 [digest_size]. *)
Definition hs_digest_size (s : hs_obj) : Z := if String.eqb (hs_name s) "streebog512" then 64 else 32.

(** gost_34_11_2012.py 882-884 [get_hash]: a slice. *)
Definition hs_get_hash : HS buf :=
  let! self := getO in
  onheap (h_from (hs_hash_h self) (- hs_digest_size self)).

(** gost_34_11_2012.py 913-920 [copy]: [deepcopy] makes a new bytearray for each attribute.  (It would
    keep two attributes that are the same bytearray equal; no two of these ever are.) *)
Definition hs_copy (s : hs_obj) : M heap hs_obj :=
  let! buff := h_copy (hs_buff s) in
  let! hash_h := h_copy (hs_hash_h s) in
  let! hash_n := h_copy (hs_hash_n s) in
  let! hash_sigma := h_copy (hs_hash_sigma s) in
  retM {| hs_name := hs_name s; hs_buff := buff; hs_num_block := hs_num_block s; hs_pad_block_size := hs_pad_block_size s;
          hs_hash_h := hash_h; hs_hash_n := hash_n; hs_hash_sigma := hash_sigma; hs_oid := hs_oid s |}.

(** gost_34_11_2012.py 886-896 [digest]. *)
Definition hs_digest : HS buf :=
  let! self := getO in
  let! temp := onheap (hs_copy self) in
  on_temp temp (hs_final ;! hs_get_hash).

(** gost_34_11_2012.py 909-911 [reset]. *)
Definition hs_reset : HS unit :=
  let! self := getO in
  let! s := onheap (hs_hash_init (hs_name self) (hs_oid self)) in
  putO s.

(** gost_34_11_2012.py 732-754 [__init__]; the buffers assigned at 742-747 are replaced by
    [_hash_init] and left out. *)
Definition hs_init (name : string) (data : arg) : M heap hs_obj :=
  let oid := if String.eqb name "streebog256" then "1.2.643.7.1.1.2.2" else "1.2.643.7.1.1.2.3" in
  let! self := hs_hash_init name oid in
  let! empty := (match as_buf data with Some d => let! l := rd d in retM (len l =? 0) | None => retM false end) in
  if empty then retM self
  else fun h => let '(r, (self, h)) := hs_update data (self, h) in
                (match r with Ok _ => Ok self | Err e => Err e end, h).

(** gost_34_11_2012.py 673-700 [new]. *)
Definition hs_new (name : pyval) (data : option arg) : M heap hs_obj :=
  match name with
  | VStr name =>
      if negb (String.eqb name "streebog512" || String.eqb name "streebog256")
      then raiseM (GOSTHashError "GOSTHashError: unsupported hash type")
      else
        let! data := (match data with
                      | Some data => retM data
                      | None => let! v := alloc [] in retM (arg_of v)
                      end) in
        hs_init name data
  | _ => raiseM (GOSTHashError "GOSTHashError: unsupported hash type")
  end.

(** ** The generator *)

(** r_1323565_1_006_2017.py 71-94: the attributes. *)
Record hg_obj : Type := {
  hg_size_s : Z;
  hg_rand_u : buf;
  hg_q : Z;
  hg_r : Z;
  hg_limit : Z;
  hg_hash : hs_obj
}.
Notation HG := (M (hg_obj * heap)).

Definition hg_set_rand_u (s : hg_obj) (v : buf) : hg_obj :=
  {| hg_size_s := hg_size_s s; hg_rand_u := v; hg_q := hg_q s; hg_r := hg_r s; hg_limit := hg_limit s; hg_hash := hg_hash s |}.
Definition hg_set_hash (s : hg_obj) (v : hs_obj) : hg_obj :=
  {| hg_size_s := hg_size_s s; hg_rand_u := hg_rand_u s; hg_q := hg_q s; hg_r := hg_r s; hg_limit := hg_limit s; hg_hash := v |}.

(** A call of a method of [self._hash_obj]. *)
Definition hg_on_hash {A} (c : HS A) : HG A := fun '(self, h) =>
  let '(r, (x, h)) := c (hg_hash self, h) in (r, (hg_set_hash self x, h)).

(** r_1323565_1_006_2017.py 115-117 [_inc_rand_u]. *)
Definition hg_inc_rand_u : HG unit :=
  let! self := getO in
  let! u := onheap (rd (hg_rand_u self)) in
  let int_rand_u := bytearray_to_int u + 1 mod 2 ^ (_SIZE_M - 1) in
  let! v := onheap (h_int_to_bytearray int_rand_u (_SIZE_M - 1)) in
  putO (hg_set_rand_u self v).

(** r_1323565_1_006_2017.py 105-113 [_rand_iter]. *)
Definition hg_rand_iter : HG buf :=
  let! self := getO in
  let! c := onheap (h_from (hg_rand_u self) (hg_size_s self)) in
  let! c := onheap (rd c) in
  if bytearray_to_int c >=? hg_limit self
  then
    let! z := onheap (h_zero_fill (hg_rand_u self)) in
    putO (hg_set_rand_u self z) ;!
    raiseM (GOSTRandomError "GOSTRandomError: exceeded the limit value of the counter")
  else
    hg_inc_rand_u ;!
    let! self := getO in
    hg_on_hash (hs_update (arg_of (hg_rand_u self))) ;!
    let! result := hg_on_hash hs_digest in
    hg_on_hash hs_reset ;!
    retM result.

(** r_1323565_1_006_2017.py 119-141 [random]. *)
Definition hg_random : HG buf :=
  let! self := getO in
  let! s := onheap (h_upto (hg_rand_u self) (hg_size_s self)) in
  let! s := onheap (rd s) in
  if bytearray_to_int s =? 0
  then raiseM (GOSTRandomError "GOSTRandomError: the seed value is zero")
  else
    let! result := onheap (alloc []) in
    let! result :=
      forM (repeat tt (Z.to_nat (hg_q self))) result
        (fun _ result => let! b := hg_rand_iter in onheap (h_add result b)) in
    if negb (hg_r self =? 0)
    then
      let! b := hg_rand_iter in
      let! b := onheap (h_slice b (_SIZE_H - hg_r self) _SIZE_H) in
      onheap (h_add result b)
    else retM result.

(** r_1323565_1_006_2017.py 79-87 and 157-164: the initial filling, always a new bytearray. *)
Definition hg_filling (urandom : bytes) (size_s : Z) (rand_k : arg) : M heap buf :=
  let zeros := Imm (py_repeat 0 (_SIZE_M - size_s - 1)) in
  match as_buf rand_k with
  | Some v =>
      let! l := rd v in
      if len l =? 0
      then
        if size_s <? 0 then raiseM ValueError
        else let! u := h_add (Imm urandom) zeros in h_bytearray u
      else
        if negb (len l =? size_s) then raiseM (GOSTRandomError "GOSTRandomError: invalid seed value")
        else let! u := h_add v zeros in h_bytearray u
  | None => raiseM (GOSTRandomError "GOSTRandomError: invalid seed value")
  end.

(** r_1323565_1_006_2017.py 143-165 [reset]. *)
Definition hg_reset (urandom : bytes) (rand_k : arg) : HG unit :=
  let! self := getO in
  let! u := onheap (hg_filling urandom (hg_size_s self) rand_k) in
  putO (hg_set_rand_u self u) ;!
  hg_on_hash hs_reset.

(** r_1323565_1_006_2017.py 167-170 [clear]. *)
Definition hg_clear : HG unit :=
  let! self := getO in
  let! z := onheap (h_zero_fill (hg_rand_u self)) in
  putO (hg_set_rand_u self z).

(** r_1323565_1_006_2017.py 71-94 [__init__]. *)
Definition hg_init (urandom : bytes) (rand_size : Z) (rand_k : arg) (size_s : Z) : M heap hg_obj :=
  let! u := hg_filling urandom size_s rand_k in
  let! v := alloc [] in
  let! x := hs_init "streebog512" (arg_of v) in
  retM {| hg_size_s := size_s; hg_rand_u := u; hg_q := rand_size / _SIZE_H; hg_r := rand_size mod _SIZE_H;
          hg_limit := limit_of size_s; hg_hash := x |}.

(** r_1323565_1_006_2017.py 36-56 [new]. *)
Definition hg_new (urandom : bytes) (rand_size : Z) (rand_k : option arg) (size_s : option Z) : M heap hg_obj :=
  let! rand_k := (match rand_k with
                  | Some k => retM k
                  | None => let! v := alloc [] in retM (arg_of v)
                  end) in
  hg_init urandom rand_size rand_k (match size_s with Some s => s | None => SIZE_S_384 end).
