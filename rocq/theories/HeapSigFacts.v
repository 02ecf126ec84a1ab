(** * Signature calls on buffers and on values *)
From Verif Require Import PyBase PyFacts PyState PyLoop Utils Sig Heap HeapCipher CipherObj Modes Mac HeapModes HeapSig.
Open Scope string_scope.
Open Scope list_scope.
Open Scope Z_scope.

Definition grown (h h' : heap) : Prop := exists x, h' = h ++ x.
Lemma grown_refl h : grown h h.
Proof. exists []. symmetry. apply app_nil_r. Qed.
Lemma grown_trans h1 h2 h3 : grown h1 h2 -> grown h2 h3 -> grown h1 h3.
Proof. intros [x ->] [y ->]. exists (x ++ y). symmetry. apply app_assoc. Qed.
Lemma grown_content h h' v l : grown h h' -> content h v = Some l -> content h' v = Some l.
Proof. intros [x ->]. destruct v as [l0|a]; [easy|]. cbn [content]. intros E. rewrite nth_error_app1; [exact E|]. apply nth_error_Some. congruence. Qed.
Lemma grown_length h h' : grown h h' -> (List.length h <= List.length h')%nat.
Proof. intros [x ->]. rewrite app_length. lia. Qed.

(** The computation [m] on the heap [h] only adds cells, and ends as [v] says. *)
Definition sim {A B} (R : heap -> A -> B -> Prop) (m : HO A) (v : outcome B) (h : heap) : Prop :=
  grown h (snd (m h)) /\
  match v, fst (m h) with
  | Returns b, Returns a => R (snd (m h)) a b
  | Raises e, Raises e' => e' = e
  | OutOfFuel, OutOfFuel => True
  | _, _ => False
  end.
(** The same value. *)
Definition eqv {A} (_ : heap) (a b : A) : Prop := a = b.
(** A buffer with the content. *)
Definition holds (h : heap) (v : buf) (l : bytes) : Prop := content h v = Some l.
(** A bytearray with the content that is not among the first [n] cells. *)
Definition fresh (n : nat) (h : heap) (v : buf) (l : bytes) : Prop := content h v = Some l /\ exists a, v = Ref a /\ (n <= a)%nat.

Lemma s_ret {A B} (R : heap -> A -> B -> Prop) a b h : R h a b -> sim R (retO a) (Returns b) h.
Proof. intros H. split; [apply grown_refl | exact H]. Qed.
Lemma s_raise {A B} (R : heap -> A -> B -> Prop) e h : sim R (raiseO e) (Raises e) h.
Proof. split; [apply grown_refl | reflexivity]. Qed.
Lemma s_fuel {A B} (R : heap -> A -> B -> Prop) h : sim R noFuel OutOfFuel h.
Proof. split; [apply grown_refl | exact I]. Qed.
Lemma s_bind {A B A' B'} (R : heap -> A -> B -> Prop) (Q : heap -> A' -> B' -> Prop) m k v k' h : sim R m v h -> (forall h' a b, grown h h' -> R h' a b -> sim Q (k a) (k' b) h') -> sim Q (bindH m k) (bindO v k') h.
Proof.
  intros [G H] HK. unfold sim, bindH. destruct (m h) as [r h'] eqn:E. cbn [fst snd] in *. destruct v as [b|e|], r as [a|e'|]; try contradiction; cbn [bindO fst snd].
  - destruct (HK h' a b G H) as [G' H']. split; [exact (grown_trans _ _ _ G G') | exact H'].
  - split; assumption.
  - split; [exact G | exact I].
Qed.
Lemma s_step {A B A' B'} (R : heap -> A -> B -> Prop) (Q : heap -> A' -> B' -> Prop) m k b v h : sim R m (Returns b) h -> (forall h' a, grown h h' -> R h' a b -> sim Q (k a) v h') -> sim Q (bindH m k) v h.
Proof.
  intros [G H] HK. unfold sim, bindH. destruct (m h) as [r h'] eqn:E. cbn [fst snd] in *. destruct r as [a|e'|]; try contradiction. destruct (HK h' a G H) as [G' H']. split; [exact (grown_trans _ _ _ G G') | exact H'].
Qed.
Lemma ofM_bind {A B} (m : M heap A) (k : A -> M heap B) h : ofM (bindM m k) h = bindH (ofM m) (fun x => ofM (k x)) h.
Proof. unfold ofM, bindH, bindM. destruct (m h) as [[a|e] h']; reflexivity. Qed.
Lemma sim_ext {A B} (R : heap -> A -> B -> Prop) m m' v h : m h = m' h -> sim R m' v h -> sim R m v h.
Proof. unfold sim. now intros ->. Qed.
Lemma s_bindM {A B A' B'} (R : heap -> A -> B -> Prop) (Q : heap -> A' -> B' -> Prop) (m : M heap A) k v k' h : sim R (ofM m) v h -> (forall h' a b, grown h h' -> R h' a b -> sim Q (ofM (k a)) (k' b) h') -> sim Q (ofM (bindM m k)) (bindO v k') h.
Proof. intros H HK. apply (sim_ext _ _ _ _ _ (ofM_bind m k h)). now apply (s_bind R). Qed.
Lemma s_stepM {A B A' B'} (R : heap -> A -> B -> Prop) (Q : heap -> A' -> B' -> Prop) (m : M heap A) k b v h : sim R (ofM m) (Returns b) h -> (forall h' a, grown h h' -> R h' a b -> sim Q (ofM (k a)) v h') -> sim Q (ofM (bindM m k)) v h.
Proof. intros H HK. apply (sim_ext _ _ _ _ _ (ofM_bind m k h)). now apply (s_step R _ _ _ b). Qed.
Lemma s_retM {A B} (R : heap -> A -> B -> Prop) a b h : R h a b -> sim R (ofM (retM a)) (Returns b) h.
Proof. exact (s_ret R a b h). Qed.
Lemma s_lift {A} (r : res A) h : sim eqv (ofM (liftM r)) (liftO r) h.
Proof. unfold sim, ofM, liftM. destruct r; split; try apply grown_refl; reflexivity. Qed.

(** Reading and new buffers. *)
Lemma s_rd v l h : holds h v l -> sim eqv (ofM (rd v)) (Returns l) h.
Proof. unfold holds, sim, ofM, rd. intros ->. split; [apply grown_refl | reflexivity]. Qed.
Lemma s_alloc n l h : (n <= List.length h)%nat -> sim (fresh n) (ofM (alloc l)) (Returns l) h.
Proof.
  intros Hn. unfold sim, ofM, alloc. cbn [fst snd liftO]. split; [now exists [l]|]. split; [|exists (List.length h); now split]. cbn [content]. rewrite nth_error_app2, Nat.sub_diag by lia. reflexivity.
Qed.
Lemma fresh_holds n h v l : fresh n h v l -> holds h v l.
Proof. now intros [H _]. Qed.
Lemma fresh_weak n n' h v l : (n' <= n)%nat -> fresh n h v l -> fresh n' h v l.
Proof. intros Hn [H (a & -> & Ha)]. split; [exact H|]. exists a. split; [reflexivity | lia]. Qed.
Lemma s_copy v l h : holds h v l -> sim holds (ofM (h_bytearray v)) (Returns l) h.
Proof.
  intros H. unfold h_bytearray. apply (s_stepM eqv _ _ _ l); [now apply s_rd|]. intros h' a G <-. destruct (s_alloc 0 a h' ltac:(lia)) as [G' H']. split; [exact G'|]. destruct (ofM (alloc a) h') as [[b|e|] h'']; try contradiction. exact (fresh_holds _ _ _ _ H').
Qed.
Lemma s_like w l h : sim holds (ofM (like w l)) (Returns l) h.
Proof.
  destruct w as [l0|a]; [now apply s_retM|]. destruct (s_alloc 0 l h ltac:(lia)) as [G' H']. split; [exact G'|]. cbn [like]. destruct (ofM (alloc l) h) as [[b|e|] h'']; try contradiction. exact (fresh_holds _ _ _ _ H').
Qed.
Lemma s_int v n h : sim holds (ofM (h_int_to_bytearray v n)) (Returns (int_to_bytearray v n)) h.
Proof. exact (s_like (Ref 0) (int_to_bytearray v n) h). Qed.
Lemma s_upto v l n h : holds h v l -> sim holds (ofM (h_upto v n)) (Returns (py_upto l n)) h.
Proof. intros H. unfold h_upto. apply (s_stepM eqv _ _ _ l); [now apply s_rd|]. intros h' a G <-. apply s_like. Qed.
Lemma s_from v l n h : holds h v l -> sim holds (ofM (h_from v n)) (Returns (py_from l n)) h.
Proof. intros H. unfold h_from. apply (s_stepM eqv _ _ _ l); [now apply s_rd|]. intros h' a G <-. apply s_like. Qed.
Lemma s_number v l h : holds h v l -> sim eqv (ofM (h_bytearray_to_int v)) (Returns (bytearray_to_int l)) h.
Proof. intros H. unfold h_bytearray_to_int. apply (s_stepM eqv _ _ _ l); [now apply s_rd|]. intros h' a G <-. now apply s_retM. Qed.
Lemma s_compare a b x y h : holds h a x -> holds h b y -> sim eqv (ofM (h_compare a b)) (liftO (compare x y)) h.
Proof.
  intros Ha Hb. unfold h_compare. apply (s_stepM holds _ _ _ x); [now apply s_copy|]. intros h1 a1 G1 H1. apply (s_stepM holds _ _ _ y); [apply s_copy; exact (grown_content _ _ _ _ G1 Hb)|]. intros h2 b1 G2 H2.
  apply (s_stepM eqv _ _ _ x); [apply s_rd; exact (grown_content _ _ _ _ G2 H1)|]. intros h3 a3 G3 <-. apply (s_stepM eqv _ _ _ y); [apply s_rd; exact (grown_content _ _ _ _ G3 H2)|]. intros h4 a4 G4 <-. apply s_lift.
Qed.
Lemma s_compare_zero a x h : holds h a x -> sim eqv (ofM (h_compare_to_zero a)) (liftO (compare_to_zero x)) h.
Proof.
  intros Ha. unfold h_compare_to_zero. apply (s_stepM holds _ _ _ x); [now apply s_copy|]. intros h1 a1 G1 H1. apply (s_stepM eqv _ _ _ x); [now apply s_rd|]. intros h3 a3 G3 <-. apply s_lift.
Qed.
Lemma s_zero_fill v l h : holds h v l -> sim holds (ofM (h_zero_fill v)) (Returns (bytes_mul slash_x00 (len l))) h.
Proof.
  intros H. unfold h_zero_fill. apply (s_stepM eqv _ _ _ (len l)); [|intros h' a G <-; apply s_copy; reflexivity]. unfold h_len. apply (s_stepM eqv _ _ _ l); [now apply s_rd|]. intros h' a G <-. now apply s_retM.
Qed.

(** What an argument is. *)
Definition is_arg (h : heap) (x : arg) (p : pyval) : Prop :=
  match x with ABuf a => match p with VBytes l => nth_error h a = Some l | _ => False end | AVal p' => p' = p end.
Lemma grown_arg h h' x p : grown h h' -> is_arg h x p -> is_arg h' x p.
Proof. intros G. destruct x as [a|q]; [|easy]. cbn [is_arg]. destruct p; try easy. exact (grown_content h h' (Ref a) _ G). Qed.
Lemma arg_cases h x p : is_arg h x p -> (exists v l, as_buf x = Some v /\ p = VBytes l /\ holds h v l) \/ (as_buf x = None /\ forall l, p <> VBytes l).
Proof.
  destruct x as [a|q]; cbn [is_arg as_buf].
  - destruct p; try contradiction. intros E. left. now exists (Ref a), b.
  - intros ->. destruct p; try (right; split; [reflexivity | discriminate]). left. now exists (Imm b), b.
Qed.
Lemma s_check h x p n : is_arg h x p -> sim eqv (ofM (h_check_value x n)) (Returns (check_value p n)) h.
Proof.
  intros H. unfold h_check_value. destruct (arg_cases h x p H) as [(v & l & -> & -> & Hv)|[-> HN]].
  - apply (s_stepM eqv _ _ _ (len l)); [unfold h_len; apply (s_stepM eqv _ _ _ l); [now apply s_rd|]; intros h' a G <-; now apply s_retM|]. intros h' a G E. unfold eqv in E. subst a. apply s_retM. unfold eqv, check_value. destruct (len l =? n); reflexivity.
  - apply s_retM. unfold eqv. destruct p; try reflexivity. now destruct (HN b).
Qed.

(** ** The methods *)
Lemma liftO_bind {A B} (r : res A) (k : A -> res B) : liftO (bind r k) = bindO (liftO r) (fun x => liftO (k x)).
Proof. now destruct r. Qed.
Lemma s_add o a b c d h : sim eqv (ofM (hs_add o a b c d)) (liftO (_add o a b c d)) h.
Proof.
  unfold hs_add, _add. cbv zeta. apply (s_stepM holds _ _ _ _ _ _ (s_int a (s_size o) h)). intros h1 v1 G1 H1. apply (s_stepM holds _ _ _ _ _ _ (s_int b (s_size o) h1)). intros h2 v2 G2 H2.
  rewrite liftO_bind. apply (s_bindM eqv); [apply s_compare; [exact (grown_content _ _ _ _ G2 H1) | exact H2]|]. intros h3 cx cx' G3 E. unfold eqv in E. subst cx'.
  apply (s_stepM holds _ _ _ _ _ _ (s_int c (s_size o) h3)). intros h4 v4 G4 H4. apply (s_stepM holds _ _ _ _ _ _ (s_int d (s_size o) h4)). intros h5 v5 G5 H5.
  rewrite liftO_bind. apply (s_bindM eqv); [apply s_compare; [exact (grown_content _ _ _ _ G5 H4) | exact H5]|]. intros h6 cy cy' G6 E. unfold eqv in E. subst cy'. apply s_retM. reflexivity.
Qed.
Lemma s_mul_loop o fuel : forall v a b c d h, sim eqv (hs_mul_loop o fuel v a b c d) (mul_loop o fuel v a b c d) h.
Proof.
  induction fuel as [|fuel IH]; intros v a b c d h; cbn [hs_mul_loop mul_loop]; (destruct (v =? 0); [now apply s_ret|]); [apply s_fuel|]. cbv zeta.
  apply (s_bind eqv); [destruct (Z.land v 1 =? 1); [apply s_add | now apply s_ret]|]. intros h1 x x' _ E. unfold eqv in E. subst x'. apply (s_bind eqv); [apply s_add|]. intros h2 y y' _ E. unfold eqv in E. subst y'. apply IH.
Qed.
Lemma s_mul o fuel k x y h : sim eqv (hs_mul_point o fuel k x y) (_mul_point o fuel k x y) h.
Proof. apply s_mul_loop. Qed.
Lemma s_rand o ur fuel : forall i h, sim holds (hs_rand_loop o fuel ur i) (rand_loop o fuel ur i) h.
Proof.
  induction fuel as [|fuel IH]; intros i h; cbn [hs_rand_loop rand_loop]; apply (s_step holds _ _ _ (ur i)); try (now apply s_copy); intros h1 k G1 H1; (apply (s_step eqv _ _ _ _ _ _ (s_number k _ h1 H1)); intros h2 v G2 E; unfold eqv in E; subst v); destruct (bytearray_to_int (ur i) >=? s_q o); [apply s_fuel | apply s_ret; exact (grown_content _ _ _ _ G2 H1) | apply IH | apply s_ret; exact (grown_content _ _ _ _ G2 H1)].
Qed.
Lemma s_set_e o v l h : holds h v l -> sim eqv (ofM (hs_set_e o v)) (liftO (_set_e o l)) h.
Proof.
  intros H. unfold hs_set_e, _set_e. cbv zeta. apply (s_stepM eqv _ _ _ _ _ _ (s_number v l h H)). intros h1 n G1 E. unfold eqv in E. subst n. apply (s_stepM holds _ _ _ _ _ _ (s_int _ (s_size o) h1)). intros h2 b G2 H2.
  rewrite liftO_bind. apply (s_bindM eqv); [now apply s_compare_zero|]. intros h3 z z' G3 E. unfold eqv in E. subst z'. apply s_retM. reflexivity.
Qed.
Lemma s_inner o rk l fuel : forall r k h, holds h rk l -> sim eqv (hs_sign_inner o fuel rk r k) (sign_inner o fuel l r k) h.
Proof.
  induction fuel as [|fuel IH]; intros r k h H; cbn [hs_sign_inner sign_inner]; apply (s_step holds _ _ _ _ _ _ (s_int r (s_size o) h)); intros h1 b G1 H1; (apply (s_bind eqv); [now apply s_compare_zero|]); intros h2 z z' G2 E; unfold eqv in E; subst z'; (destruct z; [|now apply s_ret]).
  - apply s_fuel.
  - assert (HK := grown_content _ _ _ _ G2 (grown_content _ _ _ _ G1 H)). apply (s_step eqv _ _ _ _ _ _ (s_number rk l h2 HK)). intros h3 n G3 E. unfold eqv in E. subst n. cbv zeta. apply (s_bind eqv); [apply s_mul|]. intros h4 c c' G4 E. unfold eqv in E. subst c'. apply IH. exact (grown_content _ _ _ _ G4 (grown_content _ _ _ _ G3 HK)).
Qed.
Lemma s_outer o pk d rk l e fuel : forall r s k h, holds h pk d -> holds h rk l -> sim eqv (hs_sign_outer o fuel pk rk e r s k) (sign_outer o fuel d l e r s k) h.
Proof.
  induction fuel as [|fuel IH]; intros r s k h Hd H; cbn [hs_sign_outer sign_outer]; apply (s_step holds _ _ _ _ _ _ (s_int s (s_size o) h)); intros h1 b G1 H1; (apply (s_bind eqv); [now apply s_compare_zero|]); intros h2 z z' G2 E; unfold eqv in E; subst z'; (destruct z; [|now apply s_ret]).
  - apply s_fuel.
  - assert (HK := grown_content _ _ _ _ G2 (grown_content _ _ _ _ G1 H)). assert (HD := grown_content _ _ _ _ G2 (grown_content _ _ _ _ G1 Hd)). cbv zeta. apply (s_bind eqv); [now apply s_inner|]. intros h3 c c' G3 E. unfold eqv in E. subst c'. assert (HD3 := grown_content _ _ _ _ G3 HD). assert (HK3 := grown_content _ _ _ _ G3 HK).
    apply (s_step eqv _ _ _ _ _ _ (s_number pk d h3 HD3)). intros h4 n G4 E. unfold eqv in E. subst n. apply IH; [exact (grown_content _ _ _ _ G4 HD3) | exact (grown_content _ _ _ _ G4 HK3)].
Qed.
(** The sum of two new bytearrays. *)
Lemma s_sum n a b x y h : (n <= List.length h)%nat -> fresh n h a x -> holds h b y -> sim (fresh n) (ofM (h_add a b)) (Returns (x ++ y)) h.
Proof.
  intros Hn [Ha (i & -> & Hi)] Hb. unfold h_add. apply (s_stepM eqv _ _ _ _ _ _ (s_rd (Ref i) x h Ha)). intros h1 v G1 E. unfold eqv in E. subst v. apply (s_stepM eqv _ _ _ _ _ _ (s_rd b y h1 (grown_content _ _ _ _ G1 Hb))). intros h2 v G2 E. unfold eqv in E. subst v.
  cbn [like]. apply s_alloc. pose proof (grown_length _ _ G1). pose proof (grown_length _ _ G2). lia.
Qed.
(** Two numbers put together. *)
Lemma s_pair n r s size h : (n <= List.length h)%nat -> forall {B} (k : buf -> HO B) (Q : heap -> B -> bytes -> Prop), (forall h' v, grown h h' -> fresh n h' v (int_to_bytearray r size ++ int_to_bytearray s size) -> sim Q (k v) (Returns (int_to_bytearray r size ++ int_to_bytearray s size)) h') ->
  sim Q (let% a := ofM (h_int_to_bytearray r size) in let% b := ofM (h_int_to_bytearray s size) in let% c := ofM (h_add a b) in k c) (Returns (int_to_bytearray r size ++ int_to_bytearray s size)) h.
Proof.
  intros Hn B k Q HK. apply (s_step (fresh n) _ _ _ _ _ _ (s_alloc n _ h Hn)). intros h1 a G1 H1. apply (s_step holds _ _ _ _ _ _ (s_int s size h1)). intros h2 b G2 H2. pose proof (grown_length _ _ G1). pose proof (grown_length _ _ G2).
  apply (s_step (fresh n) _ _ _ (int_to_bytearray r size ++ int_to_bytearray s size)).
  - apply s_sum; [lia | | exact H2]. destruct H1 as [H1 HA]. split; [exact (grown_content _ _ _ _ G2 H1) | exact HA].
  - intros h3 c G3 H3. apply HK; [eauto using grown_trans | exact H3].
Qed.
Lemma s_sign o fuel ur pk dg rk pk' dg' rk' h : is_arg h pk pk' -> is_arg h dg dg' -> is_arg h rk rk' -> sim (fresh (List.length h)) (hs_sign o fuel ur pk dg rk) (sign o fuel ur pk' dg' rk') h.
Proof.
  intros Hp Hd Hr. unfold hs_sign, sign. apply (s_step eqv _ _ _ _ _ _ (s_check h pk pk' (s_size o) Hp)). intros h1 ok G1 E. unfold eqv in E. subst ok.
  destruct (arg_cases h pk pk' Hp) as [(p & lp & -> & -> & Vp)|[-> HN]].
  2:{ replace (check_value pk' (s_size o)) with false; [apply s_raise|]. destruct pk'; try reflexivity. now destruct (HN b). }
  destruct (check_value (VBytes lp) (s_size o)); cbn [negb]; [|apply s_raise]. apply (s_step eqv _ _ _ _ _ _ (s_check h1 dg dg' (s_size o) (grown_arg _ _ _ _ G1 Hd))). intros h2 ok G2 E. unfold eqv in E. subst ok.
  destruct (arg_cases h dg dg' Hd) as [(d & ld & -> & -> & Vd)|[-> HN]].
  2:{ replace (check_value dg' (s_size o)) with false; [destruct dg'; apply s_raise|]. destruct dg'; try reflexivity. now destruct (HN b). }
  destruct (check_value (VBytes ld) (s_size o)); cbn [negb]; [|apply s_raise]. assert (G02 := grown_trans _ _ _ G1 G2). apply (s_bind eqv); [apply s_set_e; exact (grown_content _ _ _ _ G02 Vd)|]. intros h3 e e' G3 E. unfold eqv in E. subst e'. assert (G03 := grown_trans _ _ _ G02 G3).
  apply (s_step holds _ _ _ _ _ _ (s_like (Ref 0) [] h3)). intros h4 em G4 _. assert (G04 := grown_trans _ _ _ G03 G4).
  apply (s_bind is_arg).
  - destruct (arg_cases h rk rk' Hr) as [(k & lk & -> & -> & Vk)|[-> HN]].
    + apply (s_step eqv _ _ _ _ _ _ (s_rd k lk h4 (grown_content _ _ _ _ G04 Vk))). intros h5 l G5 E. unfold eqv in E. subst l. assert (Hr5 := grown_arg _ _ _ _ (grown_trans _ _ _ G04 G5) Hr). destruct lk as [|b0 lk]; [|apply s_ret; exact Hr5].
      apply (s_bind holds); [apply s_rand|]. intros h6 v l G6 Hv. apply s_ret. destruct v as [l0|a]; [injection Hv as ->; reflexivity | exact Hv].
    + replace (match rk' with VBytes [] => _ | _ => Returns rk' end) with (Returns rk') by (destruct rk'; try reflexivity; now destruct (HN b)). apply s_ret. exact (grown_arg _ _ _ _ G04 Hr).
  - intros h5 a p5 G5 Ha. assert (G05 := grown_trans _ _ _ G04 G5). assert (Vp5 := grown_content _ _ _ _ G05 Vp). destruct (arg_cases h5 a p5 Ha) as [(k & lk & -> & -> & Vk)|[-> HN]].
    + apply (s_step eqv _ _ _ _ _ _ (s_number k lk h5 Vk)). intros h6 n G6 E. unfold eqv in E. subst n. assert (Vp6 := grown_content _ _ _ _ G6 Vp5). destruct (bytearray_to_int lk >=? s_q o).
      * apply (s_step holds _ _ _ _ _ _ (s_zero_fill p lp h6 Vp6)). intros h7 z G7 _. apply s_raise.
      * apply (s_bind eqv); [apply s_outer; [exact Vp6 | exact (grown_content _ _ _ _ G6 Vk)]|]. intros h7 rs rs' G7 E. unfold eqv in E. subst rs'. assert (G07 : grown h h7) by eauto using grown_trans. apply (s_pair (List.length h)); [exact (grown_length _ _ G07)|]. intros h8 v G8 [Hv Ha8].
        apply (s_step holds _ _ _ _ _ _ (s_zero_fill p lp h8 (grown_content _ _ _ _ G8 (grown_content _ _ _ _ G7 Vp6)))). intros h9 z G9 _. apply s_ret. split; [exact (grown_content _ _ _ _ G9 Hv) | exact Ha8].
    + apply (s_step holds _ _ _ _ _ _ (s_zero_fill p lp h5 Vp5)). intros h7 z G7 _. destruct p5; try apply s_raise. now destruct (HN b).
Qed.
Lemma s_public o fuel pk pk' h : is_arg h pk pk' -> sim (fresh (List.length h)) (hs_public_key_generate o fuel pk) (public_key_generate o fuel pk') h.
Proof.
  intros Hp. unfold hs_public_key_generate, public_key_generate. apply (s_step eqv _ _ _ _ _ _ (s_check h pk pk' (s_size o) Hp)). intros h1 ok G1 E. unfold eqv in E. subst ok.
  destruct (arg_cases h pk pk' Hp) as [(p & lp & -> & -> & Vp)|[-> HN]].
  2:{ replace (check_value pk' (s_size o)) with false; [apply s_raise|]. destruct pk'; try reflexivity. now destruct (HN b). }
  destruct (check_value (VBytes lp) (s_size o)); cbn [negb]; [|apply s_raise]. apply (s_step eqv _ _ _ _ _ _ (s_number p lp h1 (grown_content _ _ _ _ G1 Vp))). intros h2 n G2 E. unfold eqv in E. subst n. apply (s_bind eqv); [apply s_mul|]. intros h3 c c' G3 E. unfold eqv in E. subst c'.
  assert (G03 : grown h h3) by eauto using grown_trans. eapply sim_ext; [|apply (s_pair (List.length h) (fst c) (snd c) (s_size o) h3 (grown_length _ _ G03) (fun v => retO v)); intros h' v _ H; apply s_ret; exact H].
  unfold bindH. destruct (ofM (h_int_to_bytearray (fst c) (s_size o)) h3) as [[a|e|] h4]; try reflexivity. destruct (ofM (h_int_to_bytearray (snd c) (s_size o)) h4) as [[b|e|] h5]; try reflexivity. destruct (ofM (h_add a b) h5) as [[x|e|] h6]; reflexivity.
Qed.
Lemma s_verify o fuel pk dg sg pk' dg' sg' h : is_arg h pk pk' -> is_arg h dg dg' -> is_arg h sg sg' -> sim eqv (hs_verify o fuel pk dg sg) (verify o fuel pk' dg' sg') h.
Proof.
  intros Hp Hd Hs. unfold hs_verify, verify. apply (s_step eqv _ _ _ _ _ _ (s_check h pk pk' (s_size o * 2) Hp)). intros h1 ok G1 E. unfold eqv in E. subst ok.
  destruct (arg_cases h pk pk' Hp) as [(p & lp & -> & -> & Vp)|[-> HN]].
  2:{ replace (check_value pk' (s_size o * 2)) with false; [apply s_raise|]. destruct pk'; try reflexivity. now destruct (HN b). }
  destruct (check_value (VBytes lp) (s_size o * 2)); cbn [negb]; [|apply s_raise]. apply (s_step eqv _ _ _ _ _ _ (s_check h1 sg sg' (s_size o * 2) (grown_arg _ _ _ _ G1 Hs))). intros h2 ok G2 E. unfold eqv in E. subst ok.
  destruct (arg_cases h sg sg' Hs) as [(s & ls & -> & -> & Vs)|[-> HN]].
  2:{ replace (check_value sg' (s_size o * 2)) with false; [apply s_raise|]. destruct sg'; try reflexivity. now destruct (HN b). }
  destruct (check_value (VBytes ls) (s_size o * 2)); cbn [negb]; [|apply s_raise]. assert (G02 := grown_trans _ _ _ G1 G2). apply (s_step eqv _ _ _ _ _ _ (s_check h2 dg dg' (s_size o) (grown_arg _ _ _ _ G02 Hd))). intros h3 ok G3 E. unfold eqv in E. subst ok.
  destruct (arg_cases h dg dg' Hd) as [(d & ld & -> & -> & Vd)|[-> HN]].
  2:{ replace (check_value dg' (s_size o)) with false; [destruct dg'; apply s_raise|]. destruct dg'; try reflexivity. now destruct (HN b). }
  destruct (check_value (VBytes ld) (s_size o)); cbn [negb]; [|apply s_raise]. assert (G03 := grown_trans _ _ _ G02 G3).
  apply (s_step holds _ _ _ _ _ _ (s_upto p lp (s_size o) h3 (grown_content _ _ _ _ G03 Vp))). intros h4 b4 G4 H4. apply (s_step eqv _ _ _ _ _ _ (s_number b4 _ h4 H4)). intros h5 px G5 E. unfold eqv in E. subst px. assert (G05 : grown h h5) by eauto using grown_trans.
  apply (s_step holds _ _ _ _ _ _ (s_from p lp (s_size o) h5 (grown_content _ _ _ _ G05 Vp))). intros h6 b6 G6 H6. apply (s_step eqv _ _ _ _ _ _ (s_number b6 _ h6 H6)). intros h7 py G7 E. unfold eqv in E. subst py. assert (G07 : grown h h7) by eauto using grown_trans.
  apply (s_step holds _ _ _ _ _ _ (s_upto s ls (s_size o) h7 (grown_content _ _ _ _ G07 Vs))). intros h8 b8 G8 H8. apply (s_step eqv _ _ _ _ _ _ (s_number b8 _ h8 H8)). intros h9 r G9 E. unfold eqv in E. subst r. assert (G09 : grown h h9) by eauto using grown_trans.
  apply (s_step holds _ _ _ _ _ _ (s_from s ls (s_size o) h9 (grown_content _ _ _ _ G09 Vs))). intros h10 b10 G10 H10. apply (s_step eqv _ _ _ _ _ _ (s_number b10 _ h10 H10)). intros h11 s0 G11 E. unfold eqv in E. subst s0. assert (G011 : grown h h11) by eauto using grown_trans. cbv zeta.
  destruct (_verify_step_1 o _ _); cbn [negb]; [|now apply s_ret]. apply (s_bind eqv); [apply s_set_e; exact (grown_content _ _ _ _ G011 Vd)|]. intros h12 e e' G12 E. unfold eqv in E. subst e'. apply (s_bind eqv); [apply s_mul|]. intros h13 a a' G13 E. unfold eqv in E. subst a'. apply (s_bind eqv); [apply s_mul|]. intros h14 b b' G14 E. unfold eqv in E. subst b'.
  apply (s_bind eqv); [apply s_add|]. intros h15 c c' G15 E. unfold eqv in E. subst c'. apply (s_step holds _ _ _ _ _ _ (s_int _ (s_size o) h15)). intros h16 x G16 Hx. apply (s_step holds _ _ _ _ _ _ (s_int _ (s_size o) h16)). intros h17 y G17 Hy. apply s_compare; [exact (grown_content _ _ _ _ G17 Hx) | exact Hy].
Qed.
