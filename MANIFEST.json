{
 "claims": [
  {
   "property": "C01",
   "status": "proved",
   "theorems": [
    "C01_to_int_value",
    "C01_to_int_of_int",
    "C01_of_int_to_int",
    "C01_of_int_shape"
   ],
   "note": ""
  },
  {
   "property": "C02",
   "status": "proved",
   "theorems": [
    "C02_add_xor",
    "C02_add_xor_algebra"
   ],
   "note": ""
  },
  {
   "property": "C03",
   "status": "proved",
   "theorems": [
    "C03_compare",
    "C03_compare_to_zero"
   ],
   "note": ""
  },
  {
   "property": "C04",
   "status": "proved",
   "theorems": [
    "C04_zero_fill_refuted",
    "C04_zero_fill_actual"
   ],
   "note": "The property as documented is false of the code: the literal b'/x00' is four characters. Refuted, and the exact behaviour proved for all inputs."
  },
  {
   "property": "C05",
   "status": "proved",
   "theorems": [
    "C05_oid_octet_decodes"
   ],
   "note": ""
  },
  {
   "property": "C06",
   "status": "proved",
   "theorems": [
    "C06_oid_octet_der_refuted",
    "C06_oid_octet_injective_refuted",
    "C06_oid_octet_correct_iff"
   ],
   "note": "False of the code; refuted with 1.2.113549, and the exact set of correctly encoded identifiers is characterised."
  },
  {
   "property": "C07",
   "status": "proved",
   "theorems": [
    "C07_oid_errors_refuted",
    "C07_oid_octet_exception",
    "C07_oid_octet_accepted",
    "C07_oid_digit_exception"
   ],
   "note": "False of the code; refuted with the string '1', and the exact exception for every tuple is proved."
  },
  {
   "property": "C08",
   "status": "proved",
   "theorems": [
    "C08_der_length"
   ],
   "note": ""
  },
  {
   "property": "C09",
   "status": "proved",
   "theorems": [
    "C09_dotted_digit",
    "C09_bad_component",
    "C09_exact",
    "C09_components"
   ],
   "note": ""
  },
  {
   "property": "C10",
   "status": "proved",
   "theorems": [
    "C10_kuznechik_inverse"
   ],
   "note": ""
  },
  {
   "property": "C11",
   "status": "proved",
   "theorems": [
    "C11_kuznechik_conforms"
   ],
   "note": ""
  },
  {
   "property": "C12",
   "status": "proved",
   "theorems": [
    "C12_magma_inverse"
   ],
   "note": ""
  },
  {
   "property": "C13",
   "status": "proved",
   "theorems": [
    "C13_magma_conforms"
   ],
   "note": ""
  },
  {
   "property": "C14",
   "status": "proved",
   "theorems": [
    "C14_kuznechik_wrong_size",
    "C14_magma_wrong_size"
   ],
   "note": ""
  },
  {
   "property": "C15",
   "status": "proved",
   "theorems": [
    "C15_kuznechik_output",
    "C15_magma_output"
   ],
   "note": ""
  },
  {
   "property": "C16",
   "status": "proved",
   "theorems": [
    "C16_ecb_roundtrip"
   ],
   "note": ""
  },
  {
   "property": "C17",
   "status": "proved",
   "theorems": [
    "C17_cbc_roundtrip"
   ],
   "note": "The decrypting object is in the state of a fresh object with the same key and IV."
  },
  {
   "property": "C18",
   "status": "proved",
   "theorems": [
    "C18_cfb_roundtrip"
   ],
   "note": "Same as C17, for messages of any length."
  },
  {
   "property": "C19",
   "status": "proved",
   "theorems": [
    "C19_ofb_roundtrip"
   ],
   "note": "Same as C17, for messages of any length."
  },
  {
   "property": "C20",
   "status": "proved",
   "theorems": [
    "C20_ctr_roundtrip"
   ],
   "note": "Same as C17, for messages of any length."
  },
  {
   "property": "C21",
   "status": "proved",
   "theorems": [
    "C21_ecb_conforms",
    "C21_cbc_conforms",
    "C21_cfb_conforms",
    "C21_ofb_conforms"
   ],
   "note": "Against SpecModes.v for all four modes and both ciphers; default padding of the library (see C28 for its relation to the standard)."
  },
  {
   "property": "C22",
   "status": "proved",
   "theorems": [
    "C22_ctr_conforms"
   ],
   "note": ""
  },
  {
   "property": "C23",
   "status": "proved",
   "theorems": [
    "C23_ctr_keystream_refuted",
    "C23_ctr_keystream_period"
   ],
   "note": "False as a property of the library: refuted, with the exact period (256 blocks)."
  },
  {
   "property": "C24",
   "status": "proved",
   "theorems": [
    "C24_chunks_encrypt",
    "C24_chunks_decrypt"
   ],
   "note": ""
  },
  {
   "property": "C25",
   "status": "proved",
   "theorems": [
    "C25_gamma_reused",
    "C25_gamma_refuted"
   ],
   "note": "False as a property of the library: refuted; proved that the gamma is reused for every key, IV and history."
  },
  {
   "property": "C26",
   "status": "proved",
   "theorems": [
    "C26_nothing_added",
    "C26_injective_on_length",
    "C26_ambiguous",
    "C26_collision_iff"
   ],
   "note": "Includes the exact condition for two messages to collide."
  },
  {
   "property": "C27",
   "status": "proved",
   "theorems": [
    "C27_removable",
    "C27_distinct"
   ],
   "note": ""
  },
  {
   "property": "C28",
   "status": "proved",
   "theorems": [
    "C28_pad2_exact",
    "C28_pad2_refuted"
   ],
   "note": "False as a property of the library: refuted, with the exact set of messages for which the padding is the standard's."
  },
  {
   "property": "C29",
   "status": "proved",
   "theorems": [
    "C29_stream_lengths",
    "C29_padding_lengths",
    "C29_decrypted_lengths"
   ],
   "note": ""
  },
  {
   "property": "C30",
   "status": "proved",
   "theorems": [
    "C30_truncated_dropped",
    "C30_truncated_refuted"
   ],
   "note": "False as a property of the library: refuted; the trailing partial block is always dropped."
  },
  {
   "property": "C31",
   "status": "proved",
   "theorems": [
    "C31_constructor_mac",
    "C31_constructor"
   ],
   "note": "MAC mode is covered by C31_constructor_mac in PropMac.v."
  },
  {
   "property": "C32",
   "status": "proved",
   "theorems": [
    "C32_nonempty_iv_works",
    "C32_empty_iv_stream",
    "C32_empty_iv_cbc",
    "C32_iv_refuted"
   ],
   "note": "False as a property of the library: refuted for the empty IV; proved for every other accepted IV in every reachable state."
  },
  {
   "property": "C33",
   "status": "proved",
   "theorems": [
    "C33_rejected_clears",
    "C33_rejected_refuted"
   ],
   "note": "False as a property of the library: refuted; a rejected argument is exactly clear(). MAC mode is in C36."
  },
  {
   "property": "C34",
   "status": "proved",
   "theorems": [
    "C34_clear_independent",
    "C34_clear_fresh"
   ],
   "note": ""
  },
  {
   "property": "C35",
   "status": "proved",
   "theorems": [
    "C35_cleared_behaves",
    "C35_cleared_refuted"
   ],
   "note": "False as a property of the library: refuted, with the exact behaviour."
  },
  {
   "property": "C36",
   "status": "proved",
   "theorems": [
    "C36_subkey_disclosed",
    "C36_clear_refuted",
    "C36_rejected_update"
   ],
   "note": "False as a property of the library: refuted; the exact subkey disclosed by the digest after clear() is stated, and a rejected update is exactly clear()."
  },
  {
   "property": "C37",
   "status": "proved",
   "theorems": [
    "C37_mac_conforms"
   ],
   "note": ""
  },
  {
   "property": "C38",
   "status": "proved",
   "theorems": [
    "C38_streaming"
   ],
   "note": ""
  },
  {
   "property": "C39",
   "status": "proved",
   "theorems": [
    "C39_update_iff",
    "C39_joined",
    "C39_chunking_refuted"
   ],
   "note": "False as a property of the library: refuted; the exact set of refused updates is stated (a refused update changes nothing), and where both updates return the documented law holds."
  },
  {
   "property": "C40",
   "status": "proved",
   "theorems": [
    "C40_digest",
    "C40_digest_transparent"
   ],
   "note": ""
  },
  {
   "property": "C41",
   "status": "proved",
   "theorems": [
    "C41_subkeys"
   ],
   "note": ""
  },
  {
   "property": "C42",
   "status": "proved",
   "theorems": [
    "C42_final_twice",
    "C42_final_then_update",
    "C42_final_refuted"
   ],
   "note": "False as a property of the library: refuted; the exact condition for the second value to equal the first is stated, and later updates are shown unaffected."
  },
  {
   "property": "C43",
   "status": "proved",
   "theorems": [
    "C43_same_object_refuted"
   ],
   "note": "False for every mode but ECB: proved as an equivalence over the modes."
  },
  {
   "property": "C44",
   "status": "proved",
   "theorems": [
    "C44_iv_cbc",
    "C44_iv_cfb",
    "C44_iv_ofb",
    "C44_iv_short",
    "C44_counter"
   ],
   "note": ""
  },
  {
   "property": "C45",
   "status": "proved",
   "theorems": [
    "C45_cbc_local",
    "C45_cfb_local"
   ],
   "note": ""
  },
  {
   "property": "C46",
   "status": "proved",
   "theorems": [
    "C46_lps"
   ],
   "note": ""
  },
  {
   "property": "C47",
   "status": "proved",
   "theorems": [
    "C47_hash_conforms",
    "C47_hash_no_data"
   ],
   "note": ""
  },
  {
   "property": "C48",
   "status": "proved",
   "theorems": [
    "C48_addition"
   ],
   "note": ""
  },
  {
   "property": "C49",
   "status": "proved",
   "theorems": [
    "C49_stale_block",
    "C49_collision",
    "C49_chunking_refuted"
   ],
   "note": "False as a property of the library: refuted; the message actually hashed is stated, and it gives collisions for every such pair of chunks."
  },
  {
   "property": "C50",
   "status": "proved",
   "theorems": [
    "C50_update_law"
   ],
   "note": ""
  },
  {
   "property": "C51",
   "status": "proved",
   "theorems": [
    "C51_safe_histories",
    "C51_exact",
    "C51_whole_blocks"
   ],
   "note": ""
  },
  {
   "property": "C52",
   "status": "proved",
   "theorems": [
    "C52_digest_reads",
    "C52_reading_transparent",
    "C52_independent",
    "C52_copy"
   ],
   "note": "Objects are values; copy() is modelled as a new object with equal attributes (deepcopy). No attribute is changed in place in the code."
  },
  {
   "property": "C53",
   "status": "proved",
   "theorems": [
    "C53_reset"
   ],
   "note": ""
  },
  {
   "property": "C54",
   "status": "proved",
   "theorems": [
    "C54_digest_size"
   ],
   "note": ""
  },
  {
   "property": "C55",
   "status": "proved",
   "theorems": [
    "C55_new_checks",
    "C55_update_checks",
    "C55_new_data"
   ],
   "note": ""
  },
  {
   "property": "C56",
   "status": "proved",
   "theorems": [
    "C56_hmac_conforms",
    "C56_hmac_with_data"
   ],
   "note": ""
  },
  {
   "property": "C57",
   "status": "proved",
   "theorems": [
    "C57_empty_message_value",
    "C57_empty_message_refuted"
   ],
   "note": "False as a property of the library: refuted; the value actually returned (no inner key block) is stated for every key."
  },
  {
   "property": "C58",
   "status": "proved",
   "theorems": [
    "C58_padded_keys"
   ],
   "note": ""
  },
  {
   "property": "C59",
   "status": "proved",
   "theorems": [
    "C59_new_checks",
    "C59_update_checks"
   ],
   "note": ""
  },
  {
   "property": "C60",
   "status": "proved",
   "theorems": [
    "C60_update_law",
    "C60_safe_histories",
    "C60_collision",
    "C60_chunking_refuted"
   ],
   "note": "False as a property of the library: refuted; the message actually authenticated is stated for every history, it is the fed message on safe histories, and every unsafe pair of chunks gives a collision."
  },
  {
   "property": "C61",
   "status": "proved",
   "theorems": [
    "C61_clear_forgets_key",
    "C61_cleared_object"
   ],
   "note": "Objects are values: a 64-byte bytearray key is stored by the code without a copy; changes of it by the caller are outside the model."
  },
  {
   "property": "C62",
   "status": "proved",
   "theorems": [
    "C62_reset"
   ],
   "note": ""
  },
  {
   "property": "C63",
   "status": "proved",
   "theorems": [
    "C63_digest_reads",
    "C63_independent",
    "C63_copy"
   ],
   "note": "copy() is modelled as a new object with equal attributes (deepcopy)."
  },
  {
   "property": "C64",
   "status": "proved",
   "theorems": [
    "C64_pbkdf2",
    "C64_random_salt"
   ],
   "note": "os.urandom is an argument of the model (the bytes it returns)."
  },
  {
   "property": "C65",
   "status": "proved",
   "theorems": [
    "C65_length"
   ],
   "note": ""
  },
  {
   "property": "C66",
   "status": "proved",
   "theorems": [
    "C66_prefix"
   ],
   "note": ""
  },
  {
   "property": "C67",
   "status": "proved",
   "theorems": [
    "C67_no_history",
    "C67_repeat"
   ],
   "note": ""
  },
  {
   "property": "C68",
   "status": "proved",
   "theorems": [
    "C68_clear_keeps",
    "C68_clear_refuted"
   ],
   "note": "False as a property of the library: refuted; derive after clear() is shown to be the same PBKDF2 value."
  },
  {
   "property": "C69",
   "status": "proved",
   "theorems": [
    "C69_new_cases",
    "C69_errors_refuted",
    "C69_count_unchecked"
   ],
   "note": "False as a property of the library: refuted; the exact case distinction is stated, and the iteration count is shown to be unchecked."
  },
  {
   "property": "C70",
   "status": "proved",
   "theorems": [
    "C70_count_not_positive"
   ],
   "note": "The statement describes the behaviour of the code; proved as stated."
  },
  {
   "property": "C71",
   "status": "proved",
   "theorems": [
    "C71_length",
    "C71_returns"
   ],
   "note": "Proved after any history of calls. The domain is 0 <= size_s <= 63 (the documented sizes are 32, 40 and 48); os.urandom is an argument of the model."
  },
  {
   "property": "C72",
   "status": "proved",
   "theorems": [
    "C72_history",
    "C72_stream",
    "C72_blocks"
   ],
   "note": "Proved for any history (a specification machine on the register) and in closed form for consecutive calls. The domain is 0 <= size_s <= 63 (the documented sizes are 32, 40 and 48); os.urandom is an argument of the model."
  },
  {
   "property": "C73",
   "status": "proved",
   "theorems": [
    "C73_never_limit",
    "C73_limit_refuted",
    "C73_carry"
   ],
   "note": "False as a property of the library: refuted; no history without clear() raises the limit error, and the counter is shown to carry into the seed (the object becomes that of the next seed). The domain is 0 <= size_s <= 63 (the documented sizes are 32, 40 and 48); os.urandom is an argument of the model."
  },
  {
   "property": "C74",
   "status": "proved",
   "theorems": [
    "C74_inputs",
    "C74_history"
   ],
   "note": "The hashed value of an iteration is the register attribute after it. The domain is 0 <= size_s <= 63 (the documented sizes are 32, 40 and 48); os.urandom is an argument of the model."
  },
  {
   "property": "C75",
   "status": "proved",
   "theorems": [
    "C75_cleared_fails",
    "C75_reset_after_clear"
   ],
   "note": "Proved for any history before and after clear(). The domain is 0 <= size_s <= 63 (the documented sizes are 32, 40 and 48); os.urandom is an argument of the model."
  },
  {
   "property": "C76",
   "status": "proved",
   "theorems": [
    "C76_reset",
    "C76_same_seed"
   ],
   "note": "Equality of the whole object with the new one. The domain is 0 <= size_s <= 63 (the documented sizes are 32, 40 and 48); os.urandom is an argument of the model."
  },
  {
   "property": "C77",
   "status": "proved",
   "theorems": [
    "C77_zero_seed",
    "C77_unchanged"
   ],
   "note": "The domain is 0 <= size_s <= 63 (the documented sizes are 32, 40 and 48); os.urandom is an argument of the model."
  },
  {
   "property": "C78",
   "status": "proved",
   "theorems": [
    "C78_new",
    "C78_reset",
    "C78_defaults"
   ],
   "note": "The domain is 0 <= size_s <= 63 (the documented sizes are 32, 40 and 48); os.urandom is an argument of the model."
  },
  {
   "property": "C79",
   "status": "proved",
   "theorems": [
    "C79_inverse"
   ],
   "note": "For every prime modulus and every integer."
  },
  {
   "property": "C80",
   "status": "proved",
   "theorems": [
    "C80_depth",
    "C80_depth_512"
   ],
   "note": "The recursion needs at most 2 log2|n| + 3 nested calls for all integers, and at most 740 for a modulus below 2^512 (Lame's bound); the model's gcdex takes the number of nested calls as an argument."
  },
  {
   "property": "C81",
   "status": "proved",
   "theorems": [
    "C81_add",
    "C81_opposite",
    "C81_group"
   ],
   "note": "Sum of points with reduced coordinates for every prime p with 2 < p <= 256^size; the group axioms for every curve of non-zero discriminant (associativity included); the exact result for opposite points."
  },
  {
   "property": "C82",
   "status": "proved",
   "theorems": [
    "C82_mul",
    "C82_base",
    "C82_distinct"
   ],
   "note": "For points of the subgroup of prime order q with non-zero coordinates and for the base point, 1 <= k < q; also injectivity in k."
  },
  {
   "property": "C83",
   "status": "proved",
   "theorems": [
    "C83_sign_verify",
    "C83_standard",
    "C83_complete"
   ],
   "note": "Supplied nonce or one from os.urandom; sign returns exactly the standard's signature. Hypothesis: the public key does not have x = 0 (see C86); y = 0 cannot occur."
  },
  {
   "property": "C84",
   "status": "proved",
   "theorems": [
    "C84_pairs",
    "C84_exact",
    "C84_accepts_standard",
    "C84_agrees",
    "C84_only_standard_refuted"
   ],
   "note": "False as a property of the library: refuted on every curve with (-2 x_G mod p) mod q <> 0 (the case of the point at infinity). C84_exact gives the exact answer, C84_agrees the agreement with the standard when the sum is not the point at infinity."
  },
  {
   "property": "C85",
   "status": "proved",
   "theorems": [
    "C85_out_of_range",
    "C85_errors",
    "C85_sign_errors",
    "C85_public_errors"
   ],
   "note": "Range check for every object and key; exact conditions of every exception of verify, sign and public_key_generate."
  },
  {
   "property": "C86",
   "status": "proved",
   "theorems": [
    "C86_zero_coordinate",
    "C86_forgery",
    "C86_curve_points_refuted"
   ],
   "note": "False as a property of the library: refuted on every curve with x_G mod q <> 0. C86_zero_coordinate: a key with a zero coordinate gives the same answers as the generator; C86_forgery: signatures made with private key 1 are accepted for it."
  },
  {
   "property": "C87",
   "status": "proved",
   "theorems": [
    "C87_sign_exact",
    "C87_sign_random",
    "C87_public_exact",
    "C87_sign_terminates_refuted",
    "C87_public_terminates_refuted"
   ],
   "note": "False as a property of the library: refuted. C87_sign_exact, C87_sign_random and C87_public_exact say exactly when the calls end, for every object returned by the constructor."
  },
  {
   "property": "C88",
   "status": "proved",
   "theorems": [
    "C88_accepts",
    "C88_weierstrass",
    "C88_errors",
    "C88_mov_refuted",
    "C88_primality_refuted"
   ],
   "note": "The acceptance part is proved as an equivalence; exceptions classified (a zero p or q raises ZeroDivisionError instead of GOSTSignatureError). Enforcement of the MOV condition and of primality is refuted with a witness, as the property says."
  },
  {
   "property": "C89",
   "status": "proved",
   "theorems": [
    "C89_builtin",
    "C89_edwards",
    "C89_defects"
   ],
   "note": "Primes by Pocklington and elliptic-curve certificates, orders by double-and-add traces, checked with BigZ (standard library axioms of Uint63/PrimInt63). C89_edwards: the two twisted Edwards curves give the same object from e, d, u, v alone. C89_defects instantiates the refutations of C84 and C86 on six built-in curves (paramSetD of 256 bits has x_G = 0)."
  },
  {
   "property": "C90",
   "status": "proved",
   "theorems": [
    "C90_conversion",
    "C90_only_edwards",
    "C90_formulas"
   ],
   "note": "Every prime p > 3; the formulas of the birational map, the Weierstrass equation, and no conversion otherwise."
  },
  {
   "property": "C91",
   "status": "proved",
   "theorems": [
    "C91_shape"
   ],
   "note": "For every object of the constructor, without assumptions on the curve."
  },
  {
   "property": "C92",
   "status": "proved",
   "theorems": [
    "C92_sign",
    "C92_verify",
    "C92_classes"
   ],
   "note": "For every object of the constructor; C92_classes says which digests are interchangeable."
  },
  {
   "property": "C93",
   "status": "proved",
   "theorems": [
    "C93_key_mod_q",
    "C93_not_rejected"
   ],
   "note": "For every object of the constructor."
  },
  {
   "property": "C94",
   "status": "proved",
   "theorems": [
    "C94_nonce_reuse"
   ],
   "note": "For every object of the constructor; the inverse exists when q is prime and the reduced digests differ."
  },
  {
   "property": "C95",
   "status": "proved",
   "theorems": [
    "C95_public_key",
    "C95_injective"
   ],
   "note": "Includes injectivity of the public key."
  },
  {
   "property": "C96",
   "status": "proved",
   "theorems": [
    "C96_oid_table"
   ],
   "note": ""
  },
  {
   "property": "C97",
   "status": "proved",
   "theorems": [
    "C97_defaults"
   ],
   "note": ""
  },
  {
   "property": "C98",
   "status": "proved",
   "theorems": [
    "C98_arguments_untouched",
    "C98_result_is_new",
    "C98_results_stay"
   ],
   "note": "For every program over the cipher and MAC API on a common heap of bytearrays (HeapWorld.v), and every call made after it."
  },
  {
   "property": "C99",
   "status": "proved",
   "theorems": [
    "C99_ciphers_share_nothing",
    "C99_hmac_as_value",
    "C99_hmac_shares_block_keys",
    "C99_hmac_as_value_refuted",
    "C99_pbkdf_copies"
   ],
   "note": "False as a property of the library: refuted for HMAC with a 64-byte bytearray key (C99_hmac_as_value_refuted; C99_hmac_shares_block_keys gives the tag for every such history). Proved for ciphers, MAC, PBKDF and all other HMAC keys."
  },
  {
   "property": "C100",
   "status": "proved",
   "theorems": [
    "C100_counter_is_live",
    "C100_counter_snapshot_refuted",
    "C100_counter_writable",
    "C100_encrypt_counter_refuted",
    "C100_salt_is_live",
    "C100_iv_is_snapshot"
   ],
   "note": "False as a property of the library: refuted for counter of CTR objects and encrypt(obj.counter); C100_counter_is_live, C100_counter_writable and C100_salt_is_live say what the attributes are. Proved for iv."
  },
  {
   "property": "C101",
   "status": "proved",
   "theorems": [
    "C101_objects_are_values"
   ],
   "note": "Observational equality of two semantics for all programs."
  },
  {
   "property": "C102",
   "status": "proved",
   "theorems": [
    "C102_opposite_digest",
    "C102_one_digest_refuted"
   ],
   "note": "False as a property of the library: refuted for every accepted signature (C102_one_digest_refuted); C102_opposite_digest is the exact relation. This is a property of the standard's equations too."
  },
  {
   "property": "C103",
   "status": "proved",
   "theorems": [
    "C103_second_key",
    "C103_one_key_refuted"
   ],
   "note": "False as a property of the library: refuted (C103_one_key_refuted: two generated keys accept one signature); C103_second_key gives the second key of every signature."
  },
  {
   "property": "C104",
   "status": "proved",
   "theorems": [
    "C104_chosen_digest"
   ],
   "note": "Existential forgery for caller-chosen digests; for all u and w."
  },
  {
   "property": "C105",
   "status": "proved",
   "theorems": [
    "C105_accepted_is_signed",
    "C105_not_signed",
    "C105_only_signed_refuted"
   ],
   "note": "False as a property of the library: refuted on every curve with -2 x_G mod p mod q <> 0 (C105_only_signed_refuted). C105_accepted_is_signed and C105_not_signed together say exactly which accepted signatures sign returns; the other direction is C83."
  },
  {
   "property": "C106",
   "status": "proved",
   "theorems": [
    "C106_not_reduced",
    "C106_one_encoding_refuted"
   ],
   "note": "False as a property of the library: refuted for the built-in parameter set B (C106_one_encoding_refuted). C106_not_reduced: keys that are equal modulo p answer alike, except when r = -e modulo q."
  },
  {
   "property": "C107",
   "status": "proved",
   "theorems": [
    "C107_verify_ends",
    "C107_verify_ends_refuted"
   ],
   "note": "False as a property of the library: refuted for parameters that the constructor accepts (C107_verify_ends_refuted). C107_verify_ends: for parameters as the standard demands it ends on any arguments."
  },
  {
   "property": "C108",
   "status": "proved",
   "theorems": [
    "C108_final_get",
    "C108_get_first",
    "C108_second_final",
    "C108_repeatable_refuted"
   ],
   "note": "False as a property of the library: refuted (C108_repeatable_refuted); C108_final_get is the first half, C108_second_final says what a second call returns (streebog_twice, SpecHashFinal.v)."
  },
  {
   "property": "C109",
   "status": "proved",
   "theorems": [
    "C109_same_state",
    "C109_same_state_cfb",
    "C109_default_vector"
   ],
   "note": "C109_same_state: OFB and CTR, any reachable state; C109_same_state_cfb: CFB on the bytes of the register; C109_default_vector: two new objects without init_vect."
  },
  {
   "property": "C110",
   "status": "proved",
   "theorems": [
    "C110_two_objects"
   ],
   "note": "An equivalence, for fresh objects; m1 and m2 are encrypted in one call (C24 reduces several calls to one)."
  },
  {
   "property": "C111",
   "status": "proved",
   "theorems": [
    "C111_padded_passwords",
    "C111_injective_refuted"
   ],
   "note": "False as a property of the library: refuted (C111_injective_refuted); C111_padded_passwords is the law, for all call histories and all (also invalid) salts and iteration counts."
  },
  {
   "property": "C112",
   "status": "proved",
   "theorems": [
    "C112_cipher_clear",
    "C112_hmac_clear",
    "C112_clear_overwrites_refuted"
   ],
   "note": "False as a property of the library: refuted (C112_clear_overwrites_refuted); C112_cipher_clear and C112_hmac_clear hold for every heap and every object, on the heap model. When an unreferenced buffer is freed is not modelled."
  },
  {
   "property": "C113",
   "status": "proved",
   "theorems": [
    "C113_prefix",
    "C113_suffix",
    "C113_sizes_refuted"
   ],
   "note": "False as a property of the library: refuted (C113_sizes_refuted); C113_prefix and C113_suffix say what holds."
  },
  {
   "property": "C114",
   "status": "proved",
   "theorems": [
    "C114_compare",
    "C114_lengths",
    "C114_zero"
   ],
   "note": "Steps are statements, tests and element reads at the level of the source text; what a built-in operation costs is outside the model."
  },
  {
   "property": "C115",
   "status": "proved",
   "theorems": [
    "C115_recover",
    "C115_results",
    "C115_distinct",
    "C115_hidden_refuted",
    "C115_key"
   ],
   "note": "False as a property of the library: refuted (C115_hidden_refuted); C115_recover gives the number and the private key from the steps, C115_key says that the key influences nothing else, C115_results ties the steps to the model of sign."
  },
  {
   "property": "C116",
   "status": "proved",
   "theorems": [
    "C116_recover",
    "C116_results",
    "C116_hidden_refuted"
   ],
   "note": "False as a property of the library: refuted (C116_hidden_refuted); C116_recover gives the private key from the steps."
  },
  {
   "property": "C117",
   "status": "proved",
   "theorems": [
    "C117_flow",
    "C117_results",
    "C117_recover",
    "C117_hidden_refuted"
   ],
   "note": "False as a property of the library: refuted (C117_hidden_refuted); C117_flow is the part that holds, C117_recover gives the key from the positions."
  },
  {
   "property": "C118",
   "status": "proved",
   "theorems": [
    "C118_flow",
    "C118_results",
    "C118_recover",
    "C118_hidden_refuted"
   ],
   "note": "False as a property of the library: refuted (C118_hidden_refuted); C118_flow is the part that holds, C118_recover gives the key from the positions."
  },
  {
   "property": "C119",
   "status": "proved",
   "theorems": [
    "C119_hashes_as_values",
    "C119_only_own_calls"
   ],
   "note": "hexdigest (a text) is not among the statements; os.urandom is an argument. Assumes literals and the answers of os.urandom are byte strings."
  },
  {
   "property": "C120",
   "status": "proved",
   "theorems": [
    "C120_arguments_untouched",
    "C120_result_is_new",
    "C120_hashes_share_nothing",
    "C120_copy_shows_the_same"
   ],
   "note": "Same programs as C119. C120_copy_shows_the_same covers digest and get_hash of the copy."
  },
  {
   "property": "C121",
   "status": "proved",
   "theorems": [
    "C121_drawn",
    "C121_uniform",
    "C121_zero_drawn",
    "C121_positive_refuted"
   ],
   "note": "C121_drawn: which number is used; C121_uniform: exact number of cases; the part 'from 1' is false: C121_zero_drawn, C121_positive_refuted. What os.urandom returns is an argument (all strings of the length asked for)."
  },
  {
   "property": "C122",
   "status": "proved",
   "theorems": [
    "C122_past",
    "C122_hidden_refuted"
   ],
   "note": "False as a property of the library: refuted (C122_hidden_refuted); C122_past gives the function. For calls that do not exhaust the register; resets start a new history."
  },
  {
   "property": "C123",
   "status": "proved",
   "theorems": [
    "C123_stream",
    "C123_vector",
    "C123_noticed_refuted"
   ],
   "note": "False as a property of the library: refuted (C123_noticed_refuted); C123_stream and C123_vector say exactly what a change does. Changes to CBC and CFB ciphertexts: C45."
  },
  {
   "property": "C124",
   "status": "proved",
   "theorems": [
    "C124_common_beginning",
    "C124_ecb_blocks"
   ],
   "note": "C124_common_beginning: all five modes (the chaining and feedback modes with a non-empty vector); C124_ecb_blocks: any two blocks."
  },
  {
   "property": "C125",
   "status": "proved",
   "theorems": [
    "C125_hash_flow",
    "C125_hmac_flow",
    "C125_results"
   ],
   "note": "C125_hash_flow, C125_hmac_flow; C125_results ties the step model to the value model. Left out: the steps of deepcopy and of ObjectIdentifier."
  },
  {
   "property": "C126",
   "status": "proved",
   "theorems": [
    "C126_message",
    "C126_key",
    "C126_hide_refuted"
   ],
   "note": "False as a property of the library: refuted (C126_hide_refuted); C126_message and C126_key compute the message and the key from the positions."
  },
  {
   "property": "C127",
   "status": "proved",
   "theorems": [
    "C127_flow",
    "C127_results",
    "C127_recover",
    "C127_hidden_refuted"
   ],
   "note": "False as a property of the library: refuted (C127_hidden_refuted); C127_flow is the part that holds, C127_recover gives the key from the positions alone."
  },
  {
   "property": "C128",
   "status": "proved",
   "theorems": [
    "C128_encrypt",
    "C128_decrypt",
    "C128_flow",
    "C128_results",
    "C128_ambiguous_refuted"
   ],
   "note": "False as a property of the library: refuted (C128_ambiguous_refuted); C128_encrypt and C128_decrypt give key and block from the positions alone."
  },
  {
   "property": "C129",
   "status": "proved",
   "theorems": [
    "C129_new",
    "C129_results",
    "C129_flow",
    "C129_recover",
    "C129_hidden_refuted"
   ],
   "note": "Making an object: proved (C129_new). Decrypting: false as a property of the library: refuted (C129_hidden_refuted); C129_recover gives the key from the positions and the block."
  },
  {
   "property": "C130",
   "status": "proved",
   "theorems": [
    "C130_hash_of_file",
    "C130_note_needed",
    "C130_other_sizes"
   ],
   "note": "C130_hash_of_file, C130_note_needed (every other size fails for some file), C130_other_sizes."
  },
  {
   "property": "C131",
   "status": "proved",
   "theorems": [
    "C131_hmac_of_file",
    "C131_empty_file",
    "C131_every_file_refuted"
   ],
   "note": "False as a property of the library: refuted (C131_every_file_refuted); C131_hmac_of_file is the part that holds, C131_empty_file gives the result for the empty file."
  },
  {
   "property": "C132",
   "status": "proved",
   "theorems": [
    "C132_mac_of_file",
    "C132_every_file_refuted"
   ],
   "note": "False as a property of the library: refuted (C132_every_file_refuted); C132_mac_of_file says exactly when the program raises and that it returns the MAC otherwise."
  },
  {
   "property": "C133",
   "status": "proved",
   "theorems": [
    "C133_ctr_file",
    "C133_shown_blocks",
    "C133_blocks_hidden_refuted"
   ],
   "note": "Round trip, length and conformity: C133_ctr_file. Hidden blocks: false as a property of the library: refuted (C133_blocks_hidden_refuted); C133_shown_blocks says exactly which differences show."
  },
  {
   "property": "C134",
   "status": "proved",
   "theorems": [
    "C134_encrypt_file",
    "C134_decrypt_file",
    "C134_round_trip",
    "C134_padding2_length",
    "C134_padded_once_refuted"
   ],
   "note": "Padding mode 1 and the stream modes: C134_encrypt_file, C134_decrypt_file, C134_round_trip. Padding mode 2: false as a property of the library: refuted (C134_padded_once_refuted); C134_padding2_length gives the exact length."
  },
  {
   "property": "C135",
   "status": "proved",
   "theorems": [
    "C135_password_file",
    "C135_random_key"
   ],
   "note": "C135_password_file, C135_random_key. The stream modes; the padding modes follow in the same way from C134."
  },
  {
   "property": "C136",
   "status": "proved",
   "theorems": [
    "C136_signed_file",
    "C136_other_length"
   ],
   "note": "C136_signed_file, C136_other_length. The x coordinate of the public key must not be 0 (C86)."
  },
  {
   "property": "C137",
   "status": "proved",
   "theorems": [
    "C137_self_inverse",
    "C137_unchanged_blocks",
    "C137_cleared",
    "C137_no_weak_key_refuted"
   ],
   "note": "False as a property of the library: refuted (C137_no_weak_key_refuted). C137_self_inverse, C137_unchanged_blocks, C137_cleared say what holds instead."
  },
  {
   "property": "C138",
   "status": "proved",
   "theorems": [
    "C138_last_bytes",
    "C138_like_63",
    "C138_too_long",
    "C138_every_byte_counts_refuted"
   ],
   "note": "False as a property of the library: refuted (C138_every_byte_counts_refuted). C138_last_bytes, C138_like_63, C138_too_long give the exact behaviour."
  },
  {
   "property": "C139",
   "status": "proved",
   "theorems": [
    "C139_inverse",
    "C139_every_ciphertext",
    "C139_mode_2_refuted"
   ],
   "note": "C139_inverse, C139_every_ciphertext; for padding mode 2 the claim about all ciphertexts is false: refuted (C139_mode_2_refuted)."
  },
  {
   "property": "C140",
   "status": "proved",
   "theorems": [
    "C140_cipher_new",
    "C140_cipher_drop",
    "C140_mac_drop",
    "C140_direct",
    "C140_hmac",
    "C140_random",
    "C140_pbkdf",
    "C140_refuted"
   ],
   "note": "False as a property of the library: refuted (C140_refuted, C140_direct, C140_pbkdf give the exact cases); proved for gostcipher.new, HMAC and the generator."
  },
  {
   "property": "C141",
   "status": "proved",
   "theorems": [
    "C141_ecb",
    "C141_cbc",
    "C141_cfb",
    "C141_ofb",
    "C141_unrelated_refuted"
   ],
   "note": "False as a property of the library: refuted (C141_unrelated_refuted); C141_ecb, C141_cbc, C141_cfb, C141_ofb give the relation for all keys."
  },
  {
   "property": "C142",
   "status": "proved",
   "theorems": [
    "C142_changed_block",
    "C142_completed",
    "C142_short",
    "C142_short_refuted"
   ],
   "note": "C142_changed_block and C142_completed for the full code; the claim for shortened codes is false (C142_short, C142_short_refuted)."
  },
  {
   "property": "C143",
   "status": "proved",
   "theorems": [
    "C143_forge",
    "C143_refuted"
   ],
   "note": "False as a property of the library: refuted (C143_refuted); C143_forge gives the code for all keys, vectors and messages."
  },
  {
   "property": "C144",
   "status": "proved",
   "theorems": [
    "C144_cfb",
    "C144_cbc",
    "C144_first_block",
    "C144_first_block_ctr",
    "C144_refuted"
   ],
   "note": "False as a property of the library: refuted (C144_refuted); C144_cfb, C144_cbc, C144_first_block, C144_first_block_ctr give the relations for all keys, vectors and messages."
  },
  {
   "property": "C145",
   "status": "proved",
   "theorems": [
    "C145_disjoint",
    "C145_longer",
    "C145_later",
    "C145_refuted"
   ],
   "note": "C145_disjoint for seeds of one size; false for seeds of different sizes (C145_refuted, C145_longer, C145_later)."
  },
  {
   "property": "C146",
   "status": "proved",
   "theorems": [
    "C146_objects",
    "C146_known",
    "C146_related",
    "C146_shared"
   ],
   "note": ""
  },
  {
   "property": "C147",
   "status": "proved",
   "theorems": [
    "C147_flow",
    "C147_results",
    "C147_work",
    "C147_password",
    "C147_refuted"
   ],
   "note": "C147_flow, C147_results and C147_work hold. False as a property of the library: one tag per iteration is refuted (C147_refuted; C147_work gives the exact number), and C147_password computes the password from the positions."
  },
  {
   "property": "C148",
   "status": "proved",
   "theorems": [
    "C148_flow",
    "C148_results",
    "C148_work",
    "C148_predict",
    "C148_seed",
    "C148_hidden_refuted"
   ],
   "note": "C148_flow, C148_results and C148_work hold. False as a property of the library: refuted (C148_hidden_refuted); C148_predict and C148_seed compute the other answers and the seed from the positions."
  },
  {
   "property": "C149",
   "status": "proved",
   "theorems": [
    "C149_flow",
    "C149_results",
    "C149_work",
    "C149_key",
    "C149_hidden_refuted"
   ],
   "note": "C149_flow, C149_results and C149_work hold. False as a property of the library: refuted (C149_hidden_refuted); C149_key computes the key from the positions."
  },
  {
   "property": "C150",
   "status": "proved",
   "theorems": [
    "C150_results",
    "C150_flow",
    "C150_bits",
    "C150_new",
    "C150_new_refuted",
    "C150_work",
    "C150_key"
   ],
   "note": "C150_results, C150_flow, C150_new, C150_bits and C150_work hold. False as a property of the library: refuted for new (C150_new_refuted) and for the positions read (C150_key computes the key)."
  },
  {
   "property": "C151",
   "status": "proved",
   "theorems": [
    "C151_ecb",
    "C151_vector",
    "C151_ctr",
    "C151_refuted"
   ],
   "note": "False as a property of the library: refuted (C151_refuted); C151_ecb, C151_vector and C151_ctr compute the code from the answers of the other modes."
  },
  {
   "property": "C152",
   "status": "proved",
   "theorems": [
    "C152_fill",
    "C152_refuted"
   ],
   "note": "False as a property of the library: refuted (C152_refuted); C152_fill gives the one block for any wanted code."
  },
  {
   "property": "C153",
   "status": "proved",
   "theorems": [
    "C153_streams",
    "C153_streams_cbc",
    "C153_influence",
    "C153_refuted"
   ],
   "note": "False as a property of the library for vectors of several blocks: refuted (C153_refuted); C153_streams, C153_streams_cbc and C153_influence give the exact law."
  },
  {
   "property": "C154",
   "status": "proved",
   "theorems": [
    "C154_rest",
    "C154_moved",
    "C154_refuted"
   ],
   "note": "False as a property of the library: refuted (C154_refuted); C154_rest and C154_moved give what pieces are decrypted to."
  },
  {
   "property": "C155",
   "status": "proved",
   "theorems": [
    "C155_keys",
    "C155_tags",
    "C155_next",
    "C155_refuted"
   ],
   "note": "False as a property of the library: refuted (C155_refuted); C155_keys, C155_tags and C155_next compute the answers of one class from those of the other."
  },
  {
   "property": "C156",
   "status": "proved",
   "theorems": [
    "C156_sign",
    "C156_public",
    "C156_verify",
    "C156_default",
    "C156_key_stays",
    "C156_refuted"
   ],
   "note": "C156_sign, C156_verify, C156_public and C156_default hold. That sign erases the private key is false of the library: refuted (C156_refuted, for every object C156_key_stays)."
  },
  {
   "property": "C157",
   "status": "proved",
   "theorems": [
    "C157_alone",
    "C157_ecb",
    "C157_ecb_ends",
    "C157_ofb",
    "C157_ctr",
    "C157_ctr_refuted",
    "C157_ecb_refuted"
   ],
   "note": "False as a property of the library: refuted for CTR (C157_ctr_refuted) and for ECB when a call is refused (C157_ecb_refuted). C157_ecb and C157_ecb_ends: it holds for ECB with byte strings, any number of threads and any schedule. C157_ofb, C157_ctr: threads that take turns encrypt two messages with one gamma. Threads switch between statements only; ECB statements write nothing, so that this is no restriction for C157_ecb."
  },
  {
   "property": "C158",
   "status": "proved",
   "theorems": [
    "C158_alone",
    "C158_same",
    "C158_refuted"
   ],
   "note": "False as a property of the library: refuted (C158_refuted). C158_same: for every generator and every history, if a call would succeed, two threads can both get exactly its result and leave the register as after one call. C158_alone ties the statements to the model of random()."
  },
  {
   "property": "C159",
   "status": "proved",
   "theorems": [
    "C159_alone",
    "C159_lost",
    "C159_refuted"
   ],
   "note": "False as a property of the library: refuted (C159_refuted). C159_lost: for every message given before and every pair of further pieces of which the second fills no block, there is an order of the statements after which the digest is that without the second piece. C159_alone ties the statements to the model of update()."
  },
  {
   "property": "C160",
   "status": "proved",
   "theorems": [
    "C160_alone",
    "C160_digests",
    "C160_lost",
    "C160_torn",
    "C160_refuted"
   ],
   "note": "False as a property of the library: refuted (C160_refuted). C160_torn: for messages of whole blocks there is an order in which the thread that asks gets the MAC of a message that nobody gave to the object; C160_lost: there is an order after which the object is as if the second update had not been. C160_digests: threads that only ask get the right MAC in every order. C160_alone ties the statements to the model of update()."
  },
  {
   "property": "C161",
   "status": "proved",
   "theorems": [
    "C161_alone",
    "C161_short",
    "C161_other",
    "C161_refuted"
   ],
   "note": "False as a property of the library: refuted (C161_refuted: a thread that asks for 32 octets gets the empty key). C161_short: the first thread gets as many blocks as the second one asked for; C161_other: it gets the last block of the key of the other thread in place of the first block. C161_alone ties the statements to the model of derive()."
  },
  {
   "property": "C162",
   "status": "proved",
   "theorems": [
    "C162_alone",
    "C162_keyless",
    "C162_reset",
    "C162_collision",
    "C162_refuted"
   ],
   "note": "False as a property of the library: refuted (C162_refuted). C162_keyless, C162_reset: there are orders after which the value is the outer hash of the unkeyed Streebog value of the data; C162_collision: messages that collide under Streebog then collide under every key. C162_alone ties the statements to the model of update() and reset()."
  },
  {
   "property": "C163",
   "status": "proved",
   "theorems": [
    "C163_alone",
    "C163_encrypt",
    "C163_cfb",
    "C163_decrypt",
    "C163_cbc_refuted",
    "C163_cfb_refuted"
   ],
   "note": "False as a property of the library: refuted (C163_cbc_refuted, C163_cfb_refuted). C163_encrypt: if two threads take turns, the second gets the ciphertext of a call alone; that of the first is decrypted to its message just if the two messages are equal up to their last blocks, and blocks of the ciphertexts are equal just where those of the messages are. C163_cfb: in CFB the sum of the ciphertexts is that of the messages. C163_decrypt: the same for threads that decrypt. C163_alone ties the statements to the model."
  },
  {
   "property": "C164",
   "status": "proved",
   "theorems": [
    "C164_alone",
    "C164_own",
    "C164_independent",
    "C164_ends",
    "C164_hash"
   ],
   "note": "C164_own: a thread that has ended has the results of its calls alone, and its object is as after them. C164_ends: with enough turns all end. C164_independent: what a thread has done depends on its own calls, object and number of turns only. C164_hash: so one message is hashed to its Streebog value. C164_alone ties the statements to the model. Objects are values here: that objects of the library share no mutable part is the subject of C99 and C120 (with the exception for HMAC keys given there)."
  },
  {
   "property": "C165",
   "status": "proved",
   "theorems": [
    "C165_ctr",
    "C165_tail",
    "C165_clear_refuted"
   ],
   "note": "False as a property of the library: refuted (C165_clear_refuted). C165_tail: for every place between two blocks there is a schedule in which the first part of the message is encrypted under the key, the call ends without error, and the rest is decrypted by an object made with any other key, with the last block of the first part as vector, and cleared. C165_ctr: the same for CTR, where an object with any key and the vector of the message is cleared after as many blocks. clear is one action."
  },
  {
   "property": "C166",
   "status": "proved",
   "theorems": [
    "C166_digests",
    "C166_short",
    "C166_torn",
    "C166_refuted"
   ],
   "note": "False as a property of the library: refuted; C166_torn: for every number of blocks the update fills there is an order in which the digest is that of a message nobody gave (the blocks so far followed by the octets that were pending before), C166_refuted: a witness (one new object, 65 octets). C166_short: it holds, for all orders and any number of asking threads, for updates that fill no block. C166_digests: asking threads do not disturb each other. The copy in digest() is taken in one step."
  },
  {
   "property": "C167",
   "status": "proved",
   "theorems": [
    "C167_alone",
    "C167_digests",
    "C167_short",
    "C167_prefix",
    "C167_later",
    "C167_refuted"
   ],
   "note": "False as a property of the library: refuted; C167_prefix: for every number of blocks of the first message there is an order in which the asking thread gets the valid HMAC of these blocks alone, C167_later: the same for later updates (the blocks so far followed by the octets that were pending before), C167_refuted: a witness (a new object, one octet: the value of the empty message). C167_short: it holds, for all orders and any number of asking threads, for later updates that fill no block. C167_alone: the call statement by statement is the call of the model. C167_digests: asking threads do not disturb each other. The copy of the hash object in digest() is taken in one step."
  },
  {
   "property": "C168",
   "status": "proved",
   "theorems": [
    "C168_alone",
    "C168_public",
    "C168_lost",
    "C168_refuted"
   ],
   "note": "False as a property of the library: refuted; there is an order of the statements in which the clearing is lost, and one in which the call gives octets that depend on their number only and the register follows a public one."
  }
 ]
}