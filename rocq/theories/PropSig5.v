(** * Property C146: known, related and shared secret numbers *)
From Coq Require Import ZArith Znumtheory Lia String.
From Verif Require Import PyBase PyFacts PyLoop Utils UtilsFacts Euclid Primes Fp SpecCurve SpecModes SpecSign SigCurves Sig SigLemmas SigArith SigProps SigSign SigFinal SigCons PropSig PropSig2.

Open Scope string_scope.
Open Scope list_scope.
Open Scope Z_scope.

(** [shaped] (SigProps.v) holds for every object that [new] makes: [new_shaped]. *)
Theorem C146_objects : forall mode c o, sig_new mode c = Ok o -> shaped o.
Proof. exact new_shaped. Qed.
Print Assumptions C146_objects.
(** The two parts of a signature made with a given secret number, as a congruence. *)
Lemma sign_equation o n ur d dg rk sg : shaped o -> bytes_ok rk -> rk <> [] -> len d = s_size o -> len dg = s_size o ->
  sign o n ur (VBytes d) (VBytes dg) (VBytes rk) = Returns sg ->
  exists r s t, 0 < r < s_q o /\ 0 < s < s_q o /\ sg = encode (s_size o) r s /\ s = r * number d + number rk * gost_e (s_q o) (number dg) + t * s_q o.
Proof.
  intros EN Ork N Ld L1 E1. pose proof EN as HS. destruct EN as [S1 S2].
  rewrite sign_given in E1 by assumption. destruct (sign_with_returns o n d dg rk sg HS Ork E1) as (HK & x & y & Hxy & N1 & N2 & ->). rewrite !number_eq.
  set (k := bytearray_to_int rk) in *. set (D := bytearray_to_int d) in *. set (e1 := gost_e (s_q o) (bytearray_to_int dg)) in *. set (r := sig_r o x) in *. set (s1 := sig_s o x D k e1) in *. set (q := s_q o) in *.
  assert (B0 : 0 <= r < q) by (apply Z.mod_pos_bound; lia). assert (B1 : 0 <= s1 < q) by (apply Z.mod_pos_bound; lia).
  exists r, s1, (- ((r * D + k * e1) / q)). split; [lia|]. split; [lia|]. split; [symmetry; apply encode_eq; lia|].
  pose proof (Z.div_mod (r * D + k * e1) q ltac:(lia)) as M1. change ((r * D + k * e1) mod q) with s1 in M1. lia.
Qed.
Lemma q_pos o : shaped o -> 0 < s_q o.
Proof. intros [S1 S2]. lia. Qed.
Lemma by_inverse q A X w D t : 0 < q -> (A * w) mod q = 1 mod q -> X = D * A + t * q -> D mod q = (X * w) mod q.
Proof.
  intros Hq Hw ->. replace ((D * A + t * q) * w) with (D * (A * w) + t * w * q) by ring. rewrite Z.mod_add by lia. rewrite <- Zmult_mod_idemp_r, Hw, Zmult_mod_idemp_r, Z.mul_1_r. reflexivity.
Qed.

(** One signature whose secret number is known. *)
Theorem C146_known : forall o n ur d dg rk sg, shaped o -> bytes_ok rk -> rk <> [] -> len d = s_size o -> len dg = s_size o ->
  sign o n ur (VBytes d) (VBytes dg) (VBytes rk) = Returns sg -> let e := gost_e (s_q o) (number dg) in
  exists r s, 0 < r < s_q o /\ sg = encode (s_size o) r s /\
  forall w, (r * w) mod s_q o = 1 mod s_q o -> number d mod s_q o = ((s - number rk * e) * w) mod s_q o.
Proof.
  intros o n ur d dg rk sg EN Ork N Ld L1 E1 e. destruct (sign_equation o n ur d dg rk sg EN Ork N Ld L1 E1) as (r & s & t & R1 & R2 & -> & Es). exists r, s. split; [exact R1|]. split; [reflexivity|]. intros w Hw.
  apply (by_inverse _ r _ w _ t); [exact (q_pos o EN) | exact Hw|]. unfold e. rewrite Es. ring.
Qed.
Print Assumptions C146_known.

(** Two signatures under one key whose secret numbers satisfy a known linear relation modulo q. *)
Theorem C146_related : forall o n n' ur ur' d dg1 dg2 rk1 rk2 u t sg1 sg2, shaped o -> bytes_ok rk1 -> rk1 <> [] -> bytes_ok rk2 -> rk2 <> [] ->
  len d = s_size o -> len dg1 = s_size o -> len dg2 = s_size o ->
  sign o n ur (VBytes d) (VBytes dg1) (VBytes rk1) = Returns sg1 -> sign o n' ur' (VBytes d) (VBytes dg2) (VBytes rk2) = Returns sg2 ->
  number rk2 mod s_q o = (u * number rk1 + t) mod s_q o ->
  let e1 := gost_e (s_q o) (number dg1) in let e2 := gost_e (s_q o) (number dg2) in
  exists r1 s1 r2 s2, sg1 = encode (s_size o) r1 s1 /\ sg2 = encode (s_size o) r2 s2 /\ 0 < r1 < s_q o /\ 0 < r2 < s_q o /\
  (forall w, ((e1 * r2 - u * e2 * r1) * w) mod s_q o = 1 mod s_q o -> number d mod s_q o = ((e1 * s2 - u * e2 * s1 - t * e1 * e2) * w) mod s_q o) /\
  (prime (s_q o) -> (e1 * r2 - u * e2 * r1) mod s_q o <> 0 -> exists w, ((e1 * r2 - u * e2 * r1) * w) mod s_q o = 1 mod s_q o).
Proof.
  intros o n n' ur ur' d dg1 dg2 rk1 rk2 u t sg1 sg2 EN O1 N1 O2 N2 Ld L1 L2 E1 E2 HR e1 e2. destruct (sign_equation _ _ _ _ _ _ _ EN O1 N1 Ld L1 E1) as (r1 & s1 & t1 & R1 & _ & -> & Es1). destruct (sign_equation _ _ _ _ _ _ _ EN O2 N2 Ld L2 E2) as (r2 & s2 & t2 & R2 & _ & -> & Es2).
  fold e1 in Es1. fold e2 in Es2. pose proof (q_pos o EN) as HQ. exists r1, s1, r2, s2. split; [reflexivity|]. split; [reflexivity|]. split; [exact R1|]. split; [exact R2|]. split.
  - intros w Hw. assert (HK : exists z, number rk2 = u * number rk1 + t + z * s_q o).
    { exists (number rk2 / s_q o - (u * number rk1 + t) / s_q o). pose proof (Z.div_mod (number rk2) (s_q o) ltac:(lia)). pose proof (Z.div_mod (u * number rk1 + t) (s_q o) ltac:(lia)). rewrite HR in *. lia. }
    destruct HK as (z & HK). apply (by_inverse _ _ _ w _ (e1 * t2 - u * e2 * t1 + z * e1 * e2) HQ Hw). rewrite Es1, Es2, HK. ring.
  - intros HP NE. exists (_invert (e1 * r2 - u * e2 * r1) (s_q o)). pose proof (prime_ge_2 _ HP). rewrite (Z.mod_small 1) by lia. apply (proj1 (proj2 (C79_inverse (s_q o) (e1 * r2 - u * e2 * r1) HP))). intros DV. apply NE. apply Z.mod_divide; [lia | exact DV].
Qed.
Print Assumptions C146_related.

(** One secret number used by two owners: each can compute the other's key. *)
Theorem C146_shared : forall o n n' ur ur' d d' dg1 dg2 rk sg1 sg2, shaped o -> bytes_ok rk -> rk <> [] ->
  len d = s_size o -> len d' = s_size o -> len dg1 = s_size o -> len dg2 = s_size o ->
  sign o n ur (VBytes d) (VBytes dg1) (VBytes rk) = Returns sg1 -> sign o n' ur' (VBytes d') (VBytes dg2) (VBytes rk) = Returns sg2 ->
  let e1 := gost_e (s_q o) (number dg1) in let e2 := gost_e (s_q o) (number dg2) in
  exists r1 s1 r2 s2, sg1 = encode (s_size o) r1 s1 /\ sg2 = encode (s_size o) r2 s2 /\ 0 < r1 < s_q o /\ 0 < r2 < s_q o /\
  forall w, (e1 * r2 * w) mod s_q o = 1 mod s_q o -> number d' mod s_q o = ((s2 * e1 - s1 * e2 + r1 * e2 * number d) * w) mod s_q o.
Proof.
  intros o n n' ur ur' d d' dg1 dg2 rk sg1 sg2 EN O1 N1 Ld Ld' L1 L2 E1 E2 e1 e2. destruct (sign_equation _ _ _ _ _ _ _ EN O1 N1 Ld L1 E1) as (r1 & s1 & t1 & R1 & _ & -> & Es1). destruct (sign_equation _ _ _ _ _ _ _ EN O1 N1 Ld' L2 E2) as (r2 & s2 & t2 & R2 & _ & -> & Es2).
  fold e1 in Es1. fold e2 in Es2. pose proof (q_pos o EN) as HQ. exists r1, s1, r2, s2. split; [reflexivity|]. split; [reflexivity|]. split; [exact R1|]. split; [exact R2|].
  intros w Hw. apply (by_inverse _ _ _ w _ (e1 * t2 - e2 * t1) HQ Hw). rewrite Es1, Es2. ring.
Qed.
Print Assumptions C146_shared.

(** On the small curve: the number 10 known; the numbers 10 and 11; the number 10 used with the keys 3 and 6. *)
Example C146_example : shaped toy /\ sign toy 9 (fun _ => []) (VBytes [3]) (VBytes [2]) (VBytes [10]) = Returns [7; 3] /\ sign toy 9 (fun _ => []) (VBytes [3]) (VBytes [5]) (VBytes [11]) = Returns [13; 18] /\
  sign toy 9 (fun _ => []) (VBytes [6]) (VBytes [5]) (VBytes [10]) = Returns [7; 16] /\
  (7 * 11) mod 19 = 1 /\ ((3 - 10 * 2) * 11) mod 19 = 3 /\ ((2 * 13 - 1 * 5 * 7) * 2) mod 19 = 1 /\ ((2 * 18 - 1 * 5 * 3 - 1 * 2 * 5) * 2) mod 19 = 3 /\
  (2 * 7 * 15) mod 19 = 1 /\ ((16 * 2 - 3 * 5 + 7 * 5 * 3) * 15) mod 19 = 6.
Proof. split; [apply usable_shaped, toy_usable|]. split; [vm_compute; reflexivity|]. split; [vm_compute; reflexivity|]. split; [vm_compute; reflexivity|]. repeat match goal with |- _ /\ _ => split end; reflexivity. Qed.
