(** * Properties of the signature: C102 - C107, what an accepted signature says *)
From Coq Require Import ZArith Znumtheory Lia String.
From Verif Require Import PyBase PyFacts PyLoop Utils UtilsFacts Euclid Primes Fp SpecCurve SpecModes SpecSign SigCurves Sig SigLemmas SigArith SigProps SigSign SigFinal SigCons SigMore SigMore2 PropSig PropSig2 SigMore3.
Open Scope string_scope.
Open Scope list_scope.
Open Scope Z_scope.

(** C102: a signature is accepted for a digest and for its opposite modulo [q] alike, so it never belongs to one digest only. *)
Theorem C102_opposite_digest : forall o X Y dg dg' r s t, usable o -> 0 < X < s_p o -> 0 < Y < s_p o -> gost_key (s_p o) (s_a o) (s_b o) (s_q o) (aff (s_p o) X Y) ->
  len dg = s_size o -> len dg' = s_size o -> 0 <= r < 256 ^ s_size o -> 0 <= s < 256 ^ s_size o -> (number dg + number dg') mod s_q o = 0 -> number dg mod s_q o <> 0 ->
  (eventually (fun n => verify o n (VBytes (encode (s_size o) X Y)) (VBytes dg) (VBytes (encode (s_size o) r s))) (Returns t) <->
   eventually (fun n => verify o n (VBytes (encode (s_size o) X Y)) (VBytes dg') (VBytes (encode (s_size o) r s))) (Returns t)).
Proof. intros o X Y dg dg' r s t U HX HY HK D D' Hr Hs HE HN. apply (opposite_digest o U X Y dg dg' r s (conj HX (conj HY HK)) D D' Hr Hs HE HN). Qed.
Print Assumptions C102_opposite_digest.
Theorem C102_one_digest_refuted : forall o X Y dg r s, usable o -> 0 < X < s_p o -> 0 < Y < s_p o -> gost_key (s_p o) (s_a o) (s_b o) (s_q o) (aff (s_p o) X Y) ->
  len dg = s_size o -> 0 <= r < 256 ^ s_size o -> 0 <= s < 256 ^ s_size o -> number dg mod s_q o <> 0 ->
  eventually (fun n => verify o n (VBytes (encode (s_size o) X Y)) (VBytes dg) (VBytes (encode (s_size o) r s))) (Returns true) ->
  exists dg', len dg' = s_size o /\ bytes_ok dg' /\ number dg' mod s_q o <> number dg mod s_q o /\
    eventually (fun n => verify o n (VBytes (encode (s_size o) X Y)) (VBytes dg') (VBytes (encode (s_size o) r s))) (Returns true).
Proof.
  intros o X Y dg r s U HX HY HK D Hr Hs HN HV. destruct (opposite_exists o U dg HN) as (dg' & D' & O' & HE & NE).
  exists dg'. split; [exact D'|]. split; [exact O'|]. split; [exact NE|]. exact (proj1 (opposite_digest o U X Y dg dg' r s (conj HX (conj HY HK)) D D' Hr Hs HE HN true) HV).
Qed.
Print Assumptions C102_one_digest_refuted.
Example C102_example : verify toy 9 (VBytes [10; 6]) (VBytes [26]) (VBytes [7; 15]) = Returns true /\ verify toy 9 (VBytes [10; 6]) (VBytes [12]) (VBytes [7; 15]) = Returns true /\
  (26 + 12) mod 19 = 0 /\ 26 mod 19 <> 12 mod 19.
Proof. repeat match goal with |- _ /\ _ => split end; vm_compute; try reflexivity; discriminate. Qed.

(** C103: every signature that the standard accepts is accepted for a second public key, [2 (s / r) G - Q]. *)
Theorem C103_second_key : forall o X Y X' Y' w dg r s, usable o -> 0 < X < s_p o -> 0 < Y < s_p o -> gost_key (s_p o) (s_a o) (s_b o) (s_q o) (aff (s_p o) X Y) ->
  0 < X' < s_p o -> 0 < Y' < s_p o -> (r * w) mod s_q o = 1 ->
  aff (s_p o) X' Y' = ec_add (s_p o) (s_a o) (ec_neg (s_p o) (aff (s_p o) X Y)) (ec_mul (s_p o) (s_a o) ((2 * s * w) mod s_q o) (base o)) ->
  len dg = s_size o -> gost_accepts (s_p o) (s_a o) (s_q o) (base o) (aff (s_p o) X Y) (gost_e (s_q o) (number dg)) r s ->
  eventually (fun n => verify o n (VBytes (encode (s_size o) X Y)) (VBytes dg) (VBytes (encode (s_size o) r s))) (Returns true) /\
  eventually (fun n => verify o n (VBytes (encode (s_size o) X' Y')) (VBytes dg) (VBytes (encode (s_size o) r s))) (Returns true) /\ (X', Y') <> (X, Y).
Proof.
  intros o X Y X' Y' w dg r s U HX HY HK HX' HY' Hw EQ D HA. split; [now apply C84_accepts_standard|].
  exact (other_key o U X Y X' Y' w dg r s (conj HX (conj HY HK)) HX' HY' Hw EQ D HA).
Qed.
Print Assumptions C103_second_key.
(** So the claim [one_key] fails: a signature of a digest is accepted for one generated key only. *)
Theorem C103_one_key_refuted : forall o x2 x3, usable o -> s_x o <> 0 -> 3 < s_q o ->
  x_coord (ec_mul (s_p o) (s_a o) 2 (base o)) = Some x2 -> x2 mod s_q o <> 0 -> x_coord (ec_mul (s_p o) (s_a o) 3 (base o)) = Some x3 -> x3 <> 0 -> ~ one_key o.
Proof. intros o x2 x3 U. apply (one_key_refuted o U). Qed.
Print Assumptions C103_one_key_refuted.
Example C103_example : verify toy 9 (VBytes [10; 6]) (VBytes [26]) (VBytes [7; 15]) = Returns true /\ (7 * 11) mod 19 = 1 /\
  ec_add 17 2 (ec_neg 17 (aff 17 10 6)) (ec_mul 17 2 ((2 * 15 * 11) mod 19) (aff 17 5 1)) = aff 17 3 1 /\ verify toy 9 (VBytes [3; 1]) (VBytes [26]) (VBytes [7; 15]) = Returns true /\
  usable toy /\ s_x toy = 5 /\ x_coord (ec_mul 17 2 2 (aff 17 5 1)) = Some 6 /\ x_coord (ec_mul 17 2 3 (aff 17 5 1)) = Some 10.
Proof. repeat match goal with |- _ /\ _ => split end; try (vm_compute; reflexivity). exact toy_usable. Qed.

(** C104: a digest and a signature for it are computed from the public key alone, for any [u] and [w]. *)
Theorem C104_chosen_digest : forall o X Y u w x y e r s, usable o -> 0 < X < s_p o -> 0 < Y < s_p o -> gost_key (s_p o) (s_a o) (s_b o) (s_q o) (aff (s_p o) X Y) ->
  ec_add (s_p o) (s_a o) (ec_mul (s_p o) (s_a o) (u mod s_q o) (base o)) (ec_mul (s_p o) (s_a o) (w mod s_q o) (aff (s_p o) X Y)) = aff (s_p o) x y -> 0 <= x < s_p o ->
  r = x mod s_q o -> r <> 0 -> (e * w) mod s_q o = (- r) mod s_q o -> s = (u * e) mod s_q o -> s <> 0 ->
  eventually (fun n => verify o n (VBytes (encode (s_size o) X Y)) (VBytes (int_to_bytearray (e mod s_q o) (s_size o))) (VBytes (encode (s_size o) r s))) (Returns true).
Proof. intros o X Y u w x y e r s U. apply (chosen_digest o U). Qed.
Print Assumptions C104_chosen_digest.
Example C104_example : ec_add 17 2 (ec_mul 17 2 2 (aff 17 5 1)) (ec_mul 17 2 4 (aff 17 10 6)) = aff 17 9 1 /\ (12 * 4) mod 19 = (- 9) mod 19 /\ (2 * 12) mod 19 = 5 /\
  verify toy 9 (VBytes [10; 6]) (VBytes [12]) (VBytes [9; 5]) = Returns true.
Proof. split; [apply pt_eq; vm_compute; reflexivity|]. repeat match goal with |- _ /\ _ => split end; vm_compute; reflexivity. Qed.

(** C105: what [verify] accepts for the key of [d] is what [sign] returns for [d] and some nonce, except when the sum is [Inf]; no nonce gives those. *)
Theorem C105_accepted_is_signed : forall o ur d dg r s X Y, usable o -> bytes_ok d -> len d = s_size o -> 1 <= number d < s_q o -> len dg = s_size o ->
  aff (s_p o) X Y = ec_mul (s_p o) (s_a o) (number d) (base o) -> 0 < X < s_p o -> 0 < Y < s_p o -> 0 <= r < 256 ^ s_size o -> 0 <= s < 256 ^ s_size o ->
  eventually (fun n => verify o n (VBytes (encode (s_size o) X Y)) (VBytes dg) (VBytes (encode (s_size o) r s))) (Returns true) ->
  (exists rk, bytes_ok rk /\ len rk = s_size o /\ 0 < number rk < s_q o /\ eventually (fun n => sign o n ur (VBytes d) (VBytes dg) (VBytes rk)) (Returns (encode (s_size o) r s))) \/
  infinity_accepts (s_p o) (s_a o) (s_q o) (base o) (aff (s_p o) X Y) (gost_e (s_q o) (number dg)) r s.
Proof. intros o ur d dg r s X Y U. apply (accepted_signed o U). Qed.
Print Assumptions C105_accepted_is_signed.
Theorem C105_not_signed : forall o n ur d dg rk r s X Y, usable o -> bytes_ok d -> bytes_ok rk -> (forall i, bytes_ok (ur i)) -> len d = s_size o -> 1 <= number d < s_q o -> len dg = s_size o ->
  aff (s_p o) X Y = ec_mul (s_p o) (s_a o) (number d) (base o) ->
  infinity_accepts (s_p o) (s_a o) (s_q o) (base o) (aff (s_p o) X Y) (gost_e (s_q o) (number dg)) r s ->
  sign o n ur (VBytes d) (VBytes dg) (VBytes rk) <> Returns (encode (s_size o) r s).
Proof. intros o n ur d dg rk r s X Y U. apply (not_signed o U). Qed.
Print Assumptions C105_not_signed.
Theorem C105_only_signed_refuted : forall o, usable o -> s_x o <> 0 -> ((- 2 * s_x o) mod s_p o) mod s_q o <> 0 -> ~ only_signed o.
Proof. intros o U. apply (only_signed_refuted o U). Qed.
Print Assumptions C105_only_signed_refuted.
Example C105_example : verify toy 9 (VBytes [10; 6]) (VBytes [26]) (VBytes [7; 15]) = Returns true /\ sign toy 9 (fun _ => []) (VBytes [3]) (VBytes [26]) (VBytes [10]) = Returns [7; 15] /\
  verify toy 9 (VBytes [5; 1]) (VBytes [7]) (VBytes [7; 7]) = Returns true /\ ((- 2 * s_x paramSetB) mod s_p paramSetB) mod s_q paramSetB <> 0.
Proof. repeat match goal with |- _ /\ _ => split end; try (vm_compute; reflexivity). vm_compute. discriminate. Qed.

(** C106: a public key with coordinates that are not reduced modulo [p] is accepted like the reduced one, if it fits. *)
Theorem C106_not_reduced : forall o X Y X' Y' dg r s t, usable o -> 0 < X < s_p o -> 0 < Y < s_p o -> gost_key (s_p o) (s_a o) (s_b o) (s_q o) (aff (s_p o) X Y) ->
  0 <= X' < 256 ^ s_size o -> 0 <= Y' < 256 ^ s_size o -> X' mod s_p o = X -> Y' mod s_p o = Y ->
  len dg = s_size o -> 0 <= r < 256 ^ s_size o -> 0 <= s < 256 ^ s_size o -> (r + gost_e (s_q o) (number dg)) mod s_q o <> 0 ->
  (eventually (fun n => verify o n (VBytes (encode (s_size o) X Y)) (VBytes dg) (VBytes (encode (s_size o) r s))) (Returns t) <->
   eventually (fun n => verify o n (VBytes (encode (s_size o) X' Y')) (VBytes dg) (VBytes (encode (s_size o) r s))) (Returns t)).
Proof. intros o X Y X' Y' dg r s t U HX HY HK FX FY EX EY D Hr Hs NZ. exact (unreduced_key o U X Y X' Y' dg r s (conj HX (conj HY HK)) FX FY EX EY D Hr Hs NZ t). Qed.
Print Assumptions C106_not_reduced.
(** The claim [one_encoding] (two keys that accept one signature of one digest, and denote the same point, are the same octets) fails for the built-in parameters. *)
Theorem C106_one_encoding_refuted : ~ one_encoding paramSetB.
Proof. exact one_encoding_refuted. Qed.
Print Assumptions C106_one_encoding_refuted.
Example C106_example : 0 < 5 < s_p toy /\ 22 mod s_p toy = 5 /\ (7 + gost_e 19 26) mod 19 <> 0 /\
  verify toy 9 (VBytes [10; 6]) (VBytes [26]) (VBytes [7; 15]) = Returns true /\ verify toy 9 (VBytes [27; 23]) (VBytes [26]) (VBytes [7; 15]) = Returns true.
Proof. repeat match goal with |- _ /\ _ => split end; try (vm_compute; reflexivity). vm_compute. discriminate. Qed.

(** C107: with parameters as the standard demands, [verify] ends for any arguments. *)
Theorem C107_verify_ends : forall o pk dg sg, usable o -> exists r, r <> OutOfFuel /\ eventually (fun n => verify o n pk dg sg) r.
Proof. intros o pk dg sg U. apply (verify_ends o U). Qed.
Print Assumptions C107_verify_ends.
(** The constructor accepts parameters for which it does not, so the claim [verify_always_ends] fails. *)
Theorem C107_verify_ends_refuted : ~ verify_always_ends.
Proof. exact verify_ends_refuted. Qed.
Print Assumptions C107_verify_ends_refuted.
Example C107_example : usable toy /\ verify toy 9 (VBytes [1; 1]) (VBytes [0]) (VBytes [18; 18]) = Returns false.
Proof. split; [exact toy_usable | vm_compute; reflexivity]. Qed.
