(** * Properties C05-C09: object identifiers *)
From Coq Require Import Ascii.
From Verif Require Import PyBase PyFacts OidTable Oid SpecDer SpecOidErr OidFacts2 OidLemmas
  SpecInt OidText.

Open Scope string_scope.
Open Scope Z_scope.

Theorem C05_oid_octet_decodes : forall arcs,
  legal_oid arcs -> Forall (fun v => v < 2 ^ 14) (oid_subids arcs) -> len arcs < 256 ^ 126 ->
  exists o, oid_digit (dotted arcs) = Ok arcs /\ oid_octet (dotted arcs) = Ok o /\ der_oid o = Some arcs.
Proof. exact oid_octet_small. Qed.
Print Assumptions C05_oid_octet_decodes.

Example C05_example :
  let arcs := [1; 2; 643; 7; 1; 1; 2; 2] in
  legal_oid arcs /\ Forall (fun v => v < 2 ^ 14) (oid_subids arcs) /\ len arcs < 256 ^ 126 /\
  dotted arcs = "1.2.643.7.1.1.2.2"%string /\
  oid_octet "1.2.643.7.1.1.2.2" = Ok [6; 8; 42; 133; 3; 7; 1; 1; 2; 2].
Proof. cbn; repeat split; auto; try lia; repeat constructor; lia. Qed.

Theorem C06_oid_octet_der_refuted : ~ oid_octets_are_der.
Proof. exact oid_octets_not_der. Qed.
Print Assumptions C06_oid_octet_der_refuted.

Theorem C06_oid_octet_injective_refuted : ~ oid_octets_injective.
Proof. exact oid_octets_not_injective. Qed.
Print Assumptions C06_oid_octet_injective_refuted.

(** Exactly which legal identifiers are encoded correctly. *)
Theorem C06_oid_octet_correct_iff : forall arcs o,
  legal_oid arcs -> len o < 256 ^ 127 -> oid_octet (dotted arcs) = Ok o ->
  (der_oid o = Some arcs <-> Forall (fun v => v < 2 ^ 14) (oid_subids arcs)).
Proof. exact oid_octets_der_iff. Qed.
Print Assumptions C06_oid_octet_correct_iff.

Theorem C07_oid_errors_refuted : ~ illegal_oids_raise_oid_error.
Proof. exact illegal_oids_not_oid_error. Qed.
Print Assumptions C07_oid_errors_refuted.

(** Exactly which exception each tuple raises. *)
Theorem C07_oid_octet_exception : forall s arcs,
  oid_digit s = Ok arcs -> oid_bits arcs < 256 ^ 127 ->
  match oid_error arcs with
  | Some e => oid_octet s = Err e
  | None => exists o, oid_octet s = Ok o
  end.
Proof. exact oid_octet_exn. Qed.
Print Assumptions C07_oid_octet_exception.

(** The tuples that are encoded: the legal ones and those with a negative second arc that is
    compensated by the first. *)
Theorem C07_oid_octet_accepted : forall arcs,
  oid_error arcs = None <->
  match arcs with
  | a :: b :: rest => (a = 0 \/ a = 1 \/ a = 2) /\ 0 <= 40 * a + b /\ (a < 2 -> b < 40) /\
      Forall (fun v => 0 <= v) rest
  | _ => False
  end.
Proof. exact oid_error_none_iff. Qed.
Print Assumptions C07_oid_octet_accepted.

Theorem C07_oid_digit_exception : forall s e,
  oid_digit s = Err e -> e = GOSTOIDError "invalid OID value" /\ oid_octet s = Err e.
Proof. exact oid_digit_exn. Qed.
Print Assumptions C07_oid_digit_exception.

Example C07_example :
  oid_octet "1" = Err IndexError /\ oid_octet "1.2.-3" = Err OverflowError /\
  oid_octet "0.-3" = Err OverflowError /\ oid_octet "1.-5" = Ok [6; 1; 35] /\
  oid_octet "3.1" = Err (GOSTOIDError "invalid first SID value") /\
  oid_octet "1.40" = Err (GOSTOIDError "invalid second SID value") /\
  oid_octet "1..2" = Err (GOSTOIDError "invalid OID value").
Proof. repeat split. Qed.

Theorem C08_der_length : forall n, 0 <= n < 256 ^ 127 ->
  exists ln, _len_oid_octet n = Ok ln /\ forall rest, der_length (ln ++ rest) = Some (n, rest).
Proof. exact der_length_minimal. Qed.
Print Assumptions C08_der_length.

Example C08_example : _len_oid_octet 300 = Ok [130; 1; 44] /\ der_length [130; 1; 44; 9] = Some (300, [9]).
Proof. repeat split. Qed.

Theorem C09_dotted_digit : forall arcs,
  arcs <> [] -> Forall (fun v => 0 <= v) arcs -> oid_digit (dotted arcs) = Ok arcs.
Proof. exact digit_dotted. Qed.
Print Assumptions C09_dotted_digit.

Theorem C09_bad_component : forall cs c,
  Forall (fun c => all_chars not_dot c = true) cs -> In c cs ->
  c = EmptyString \/ all_chars numeral_char c = false ->
  oid_digit (join_dot cs) = Err (GOSTOIDError "invalid OID value").
Proof. exact digit_rejects. Qed.
Print Assumptions C09_bad_component.

Example C09_example : dotted [1; 20; 643] = "1.20.643" /\
  Forall (fun c => all_chars not_dot c = true) ["1"; "x"; "3"] /\
  all_chars numeral_char "x" = false /\ join_dot ["1"; "x"; "3"] = "1.x.3" /\
  join_dot ["1"; ""; "3"] = "1..3".
Proof. cbn; repeat split; repeat constructor. Qed.

(** Exactly which strings are read, and as which numbers: every component is a text that
    [int] accepts (blanks around it, a sign, single underscores between digits). *)
Theorem C09_exact : forall cs vs,
  cs <> [] -> Forall (fun c => all_chars not_dot c = true) cs ->
  (oid_digit (join_dot cs) = Ok vs <-> Forall2 int_text cs vs).
Proof. exact digit_exact. Qed.
Print Assumptions C09_exact.

(** Every string is of that form. *)
Theorem C09_components : forall s,
  exists cs, cs <> [] /\ Forall (fun c => all_chars not_dot c = true) cs /\ s = join_dot cs.
Proof. exact string_components. Qed.
Print Assumptions C09_components.

Example C09_example_texts : Forall2 int_text ["+1"; " 2"; "-1_0"] [1; 2; -10] /\
  oid_digit "+1. 2.-1_0" = Ok [1; 2; -10].
Proof.
  split; [|reflexivity].
  assert (D : forall c, 48 <= code c <= 57 -> numeral (String c "") (code c - 48)) by exact num_digit.
  repeat apply Forall2_cons; try apply Forall2_nil.
  - exists "", "+", "1", "", 1, 1. unfold sign. cbn [blanks]. intuition. apply (D "1"%char). unfold code; cbn; lia.
  - exists " ", "", "2", "", 1, 2. unfold sign. cbn [blanks]. intuition; [right; reflexivity|].
    apply (D "2"%char). unfold code; cbn; lia.
  - exists "", "-", "1_0", "", (-1), 10. unfold sign. cbn [blanks]. intuition.
    apply (num_under "1" 1 "0"%char); [apply (D "1"%char)|]; unfold code; cbn; lia.
Qed.

(** Every entry of the name table is found under its key, and its key is a well-formed
    identifier whose octets decode. *)
Theorem C96_oid_table : forall k v, In (k, v) OBJECT_IDENTIFIER_TC26 ->
  oid_name k = v /\ exists arcs o, oid_digit k = Ok arcs /\ dotted arcs = k /\ oid_octet k = Ok o /\
    der_oid o = Some arcs.
Proof. exact oid_table_ok. Qed.
Print Assumptions C96_oid_table.

Example C96_example : List.length OBJECT_IDENTIFIER_TC26 = 51%nat /\
  In "1.2.643.7.1.1.1.1" (map fst OBJECT_IDENTIFIER_TC26).
Proof. cbn; auto 60. Qed.
