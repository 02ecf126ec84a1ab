{"id": "C01", "title": "Integer/byte-string conversion round-trips", "statement": "bytearray_to_int(int_to_bytearray(v, n)) equals v mod 256^n for every integer v (negative too) and every n >= 0, hence v itself when 0 <= v < 256^n; int_to_bytearray(bytearray_to_int(b), len(b)) equals b; the result always has max(n,0) bytes.", "quantifier": "all integers v, all sizes n, all byte strings b", "why_tests_cant": "integers and lengths are unbounded; a test samples a handful of sizes", "anchors": ["gostcrypto/utils/utils.py:bytearray_to_int", "gostcrypto/utils/utils.py:int_to_bytearray"]}
{"id": "C02", "title": "Byte-wise xor is exact, truncating and involutive", "statement": "add_xor(a,b) has length min(len a, len b), its i-th byte is a[i]^b[i], it is commutative and associative, and add_xor(a, add_xor(a,b)) == b for equal lengths.", "quantifier": "all pairs of byte strings of any length", "why_tests_cant": "every chaining mode, MAC and hash relies on it for all data", "anchors": ["gostcrypto/utils/utils.py:add_xor"]}
{"id": "C03", "title": "Constant-time comparison decides equality", "statement": "compare(a,b) returns True exactly when a == b (as byte strings, lengths included), and compare_to_zero(a) exactly when every byte of a is zero.", "quantifier": "all byte strings of any length", "why_tests_cant": "an accumulator that could cancel or wrap would only fail on rare inputs", "anchors": ["gostcrypto/utils/utils.py:compare", "gostcrypto/utils/utils.py:compare_to_zero"]}
{"id": "C04", "title": "zero_fill zeroes its argument", "statement": "zero_fill(b) returns a byte string of the same length as b whose bytes are all zero (the documented 'Zeroing byte objects'). The code violates this for every non-empty b.", "quantifier": "all byte strings", "why_tests_cant": "a test on one value does not say what is returned for all lengths, nor what the constant result means for all users of clear()", "anchors": ["gostcrypto/utils/utils.py:zero_fill"]}
{"id": "C05", "title": "OID octets decode back to the same OID (arcs below 2^14)", "statement": "For every OID with at least two arcs, first arc 0..2, second arc < 40 when the first is 0 or 1, whose encoded sub-identifiers are below 2^14, the octet property is tag 06, a DER length and a body that a standard DER decoder maps back to exactly the arcs given by the digit property.", "quantifier": "all such OIDs of any number of arcs", "why_tests_cant": "arc count and values are unbounded", "anchors": ["gostcrypto/gostoid/oid.py:ObjectIdentifier.octet", "gostcrypto/gostoid/oid.py:_encode_octet", "gostcrypto/gostoid/oid.py:_int_to_octet"]}
{"id": "C06", "title": "OID octets are correct DER for every legal OID", "statement": "For every legal OID the octet property is the DER encoding and different OIDs have different octets. The code violates this for arcs of 2^14 and above: continuation bits are missing, and two different OIDs can have equal octets.", "quantifier": "all legal OIDs", "why_tests_cant": "tests contain only the small arcs of the TC26 tree", "anchors": ["gostcrypto/gostoid/oid.py:_int_to_octet", "gostcrypto/gostoid/oid.py:ObjectIdentifier.octet"]}
{"id": "C07", "title": "Illegal OIDs raise GOSTOIDError and nothing else", "statement": "octet/digit raise GOSTOIDError exactly for strings that are not legal OIDs, with the message determined by which arc is wrong. The code violates this: a one-component OID raises IndexError and a negative arc raises OverflowError.", "quantifier": "all OID strings / arc tuples", "why_tests_cant": "the set of malformed inputs is infinite", "anchors": ["gostcrypto/gostoid/oid.py:ObjectIdentifier.digit", "gostcrypto/gostoid/oid.py:_encode_octet"]}
{"id": "C08", "title": "DER length prefix is correct for every body length", "statement": "For every non-negative body length the length octets produced decode (short and long form) to that length, use the minimal number of octets, and are self-delimiting (followed by any suffix they decode to the length and the suffix).", "quantifier": "all lengths below 256^127, all suffixes", "why_tests_cant": "long-form lengths never occur in tests", "anchors": ["gostcrypto/gostoid/oid.py:_len_oid_octet", "gostcrypto/gostoid/oid.py:_len_int"]}
{"id": "C09", "title": "Dotted string to tuple conversion is exact", "statement": "For every non-empty tuple of non-negative integers, the digit property of the dotted decimal rendering of the tuple is that tuple; a string having an empty or non-numeric component raises GOSTOIDError.", "quantifier": "all tuples of naturals, all ASCII strings", "why_tests_cant": "unbounded arcs and strings", "anchors": ["gostcrypto/gostoid/oid.py:ObjectIdentifier.digit"]}
{"id": "C10", "title": "Kuznechik decryption inverts encryption (and conversely)", "statement": "For every 32-byte key and every 16-byte block, decrypt(encrypt(b)) == b and encrypt(decrypt(b)) == b, on one object or on two objects made from the same key.", "quantifier": "all 2^256 keys and 2^128 blocks", "why_tests_cant": "the space cannot be enumerated; tests use two or three vectors", "anchors": ["gostcrypto/gostcipher/gost_34_12_2015.py:GOST34122015Kuznechik.encrypt", "gostcrypto/gostcipher/gost_34_12_2015.py:GOST34122015Kuznechik.decrypt"]}
{"id": "C11", "title": "Kuznechik conforms to GOST R 34.12-2015", "statement": "For every key and block the ciphertext equals that of an independent mathematical definition: GF(2^8) modulo x^8+x^7+x^6+x+1, the linear form l with the standard coefficients, L=R^16, the standard permutation pi, Feistel key schedule with constants L(i).", "quantifier": "all keys and blocks", "why_tests_cant": "a wrong entry in one of the 16 multiplication tables changes only some blocks", "anchors": ["gostcrypto/gostcipher/gost_34_12_2015.py:GOST34122015Kuznechik", "gostcrypto/gostcipher/gost_34_12_2015.py:_GF", "gostcrypto/gostcipher/gost_34_12_2015.py:_S_BOX_KUZNECHIK"]}
{"id": "C12", "title": "Magma decryption inverts encryption (and conversely)", "statement": "For every 32-byte key and every 8-byte block, decrypt(encrypt(b)) == b and encrypt(decrypt(b)) == b.", "quantifier": "all 2^256 keys and 2^64 blocks", "why_tests_cant": "cannot be enumerated", "anchors": ["gostcrypto/gostcipher/gost_34_12_2015.py:GOST34122015Magma.encrypt", "gostcrypto/gostcipher/gost_34_12_2015.py:GOST34122015Magma.decrypt"]}
{"id": "C13", "title": "Magma conforms to GOST R 34.12-2015", "statement": "For every key and block the ciphertext equals that of an independent definition on 32-bit integers: addition mod 2^32, eight 4-bit permutations, rotation by 11, 32 Feistel rounds with key order K1..K8 three times then K8..K1.", "quantifier": "all keys and blocks", "why_tests_cant": "carry chains and rotations fail only on some words", "anchors": ["gostcrypto/gostcipher/gost_34_12_2015.py:GOST34122015Magma"]}
{"id": "C14", "title": "Behaviour of the block primitives on wrong-size blocks", "statement": "On a live object, a block shorter than the block size always raises IndexError and a longer block gives the result of its first block_size bytes, for both ciphers and both directions.", "quantifier": "all keys, all byte strings of wrong length", "why_tests_cant": "lengths are unbounded; callers in the modes rely on it at stream ends", "anchors": ["gostcrypto/gostcipher/gost_34_12_2015.py:GOST34122015Kuznechik.encrypt", "gostcrypto/gostcipher/gost_34_12_2015.py:GOST34122015Magma.encrypt"]}
{"id": "C15", "title": "Block cipher output is always one block of bytes", "statement": "For every key and block, encrypt and decrypt return exactly block_size bytes, each in 0..255, and do not change the object.", "quantifier": "all keys, blocks", "why_tests_cant": "intermediate arithmetic could overflow a byte on rare inputs", "anchors": ["gostcrypto/gostcipher/gost_34_12_2015.py:GOST34122015Kuznechik", "gostcrypto/gostcipher/gost_34_12_2015.py:GOST34122015Magma"]}
{"id": "C16", "title": "ECB round-trip", "statement": "For both algorithms, both padding modes, every key and every message m, decrypt(encrypt(m)) equals m followed by exactly the padding that was added.", "quantifier": "all keys, messages of any length", "why_tests_cant": "unbounded data", "anchors": ["gostcrypto/gostcipher/gost_34_13_2015.py:GOST34132015ecb"]}
{"id": "C17", "title": "CBC round-trip", "statement": "For both algorithms, both padding modes, every key, every non-empty initialization vector that is a multiple of the block size and every message m, decrypting with a fresh object what a fresh object encrypted gives m followed by the padding.", "quantifier": "all keys, IVs of any number of blocks, messages of any length", "why_tests_cant": "multi-block IV shift registers fail only at particular lengths", "anchors": ["gostcrypto/gostcipher/gost_34_13_2015.py:GOST34132015cbc", "gostcrypto/gostcipher/gost_34_13_2015.py:GOST34132015CipherFeedBack._set_init_vect"]}
{"id": "C18", "title": "CFB round-trip", "statement": "For every key, every non-empty multiple-of-block IV and every message of any length, decrypt with a fresh object returns exactly the message.", "quantifier": "all keys, IVs, messages", "why_tests_cant": "partial last blocks and long shift registers", "anchors": ["gostcrypto/gostcipher/gost_34_13_2015.py:GOST34132015cfb"]}
{"id": "C19", "title": "OFB round-trip", "statement": "For every key, every non-empty multiple-of-block IV and every message of any length, decrypt with a fresh object returns exactly the message.", "quantifier": "all keys, IVs, messages", "why_tests_cant": "partial last blocks and long shift registers", "anchors": ["gostcrypto/gostcipher/gost_34_13_2015.py:GOST34132015ofb"]}
{"id": "C20", "title": "CTR round-trip", "statement": "For every key, half-block IV and message of any length, decrypt with a fresh object returns exactly the message.", "quantifier": "all keys, IVs, messages", "why_tests_cant": "counter behaviour beyond 256 blocks is never tested", "anchors": ["gostcrypto/gostcipher/gost_34_13_2015.py:GOST34132015ctr"]}
{"id": "C21", "title": "ECB, CBC, CFB and OFB conform to GOST R 34.13-2015", "statement": "For every key, IV of m >= 1 blocks and data, the ciphertext of a fresh object equals the standard's mode (register of m blocks, taking the most significant block and shifting in the ciphertext/gamma block; last partial block truncated) applied to the (padded) data.", "quantifier": "all keys, IVs, data", "why_tests_cant": "unbounded data and register lengths", "anchors": ["gostcrypto/gostcipher/gost_34_13_2015.py:GOST34132015ecb", "gostcrypto/gostcipher/gost_34_13_2015.py:GOST34132015cbc", "gostcrypto/gostcipher/gost_34_13_2015.py:GOST34132015cfb", "gostcrypto/gostcipher/gost_34_13_2015.py:GOST34132015ofb"]}
{"id": "C22", "title": "CTR conforms to GOST R 34.13-2015 up to 256 blocks", "statement": "For every key, IV and data of at most 256 blocks encrypted by one fresh object, the ciphertext equals the standard's CTR mode (counter IV||0 incremented modulo 2^n).", "quantifier": "all keys, IVs, data up to 256 blocks", "why_tests_cant": "tests use 4 blocks", "anchors": ["gostcrypto/gostcipher/gost_34_13_2015.py:GOST34132015ctr._inc_ctr", "gostcrypto/gostcipher/gost_34_13_2015.py:GOST34132015ctr.encrypt"]}
{"id": "C23", "title": "CTR keystream does not repeat", "statement": "A CTR object does not use the same keystream block twice within the standard's limit of 2^(n/2) blocks. The code violates this: the counter has no carry, so keystream block i+256 equals block i, for every key and IV, and C_i xor C_{i+256} = P_i xor P_{i+256}.", "quantifier": "all keys, IVs, all block positions", "why_tests_cant": "needs messages longer than 4 KiB and reasoning about all positions", "anchors": ["gostcrypto/gostcipher/gost_34_13_2015.py:GOST34132015ctr._inc_ctr"]}
{"id": "C24", "title": "Chunked processing equals one-shot processing", "statement": "In every mode (for ECB/CBC with padding mode 1), splitting data into chunks all of which except the last are multiples of the block size (for ECB/CBC encryption no chunk may be empty, since the empty message is padded to a block) and calling encrypt (or decrypt) on each gives outputs whose concatenation is the one-shot output, and leaves the object in the same state.", "quantifier": "all keys, IVs, data and all such partitions", "why_tests_cant": "number of partitions is exponential", "anchors": ["gostcrypto/gostcipher/gost_34_13_2015.py:GOST34132015ecb", "gostcrypto/gostcipher/gost_34_13_2015.py:GOST34132015cbc", "gostcrypto/gostcipher/gost_34_13_2015.py:GOST34132015cfb", "gostcrypto/gostcipher/gost_34_13_2015.py:GOST34132015ofb", "gostcrypto/gostcipher/gost_34_13_2015.py:GOST34132015ctr"]}
{"id": "C25", "title": "Feedback modes do not reuse gamma across calls", "statement": "After any sequence of encrypt calls in CFB/OFB mode, the next call does not reuse keystream. The code violates this: a call ending in a partial block leaves the register unchanged, so the next call's first gamma block is the one just used and the xor of the two ciphertext pieces equals the xor of the plaintext pieces, for every key and IV.", "quantifier": "all keys, IVs, chunk histories", "why_tests_cant": "a chunk-length history property; tests only use block multiples", "anchors": ["gostcrypto/gostcipher/gost_34_13_2015.py:GOST34132015CipherFeedBack._final_cipher"]}
{"id": "C26", "title": "Padding mode 1 ambiguity", "statement": "Padding mode 1 pads to a block multiple with zero bytes only, adds nothing to a non-empty multiple, is injective on messages of equal length, but is not injective in general: the empty message and one zero block have equal ECB/CBC ciphertexts under every key.", "quantifier": "all keys, messages", "why_tests_cant": "claim about all messages and keys", "anchors": ["gostcrypto/gostcipher/gost_34_13_2015.py:GOST34132015CipherPadding._set_pad_mode_1"]}
{"id": "C27", "title": "Padding mode 2 is uniquely removable", "statement": "Encrypting under padding mode 2 appends 0x80 and zeros; the original message is recovered from every decrypted text by removing trailing zeros and one 0x80, so distinct messages have distinct ciphertexts.", "quantifier": "all keys, messages of any length", "why_tests_cant": "unbounded messages", "anchors": ["gostcrypto/gostcipher/gost_34_13_2015.py:GOST34132015CipherPadding._set_pad_mode_2"]}
{"id": "C28", "title": "Padding mode 2 conforms to GOST R 34.13-2015 procedure 2", "statement": "Padding mode 2 appends 0x80 and the minimal number of zeros to reach a block multiple. The code violates this for every message whose length is not a multiple of the block size (and for the empty message): one whole extra block of zeros is appended.", "quantifier": "all messages", "why_tests_cant": "length-class property", "anchors": ["gostcrypto/gostcipher/gost_34_13_2015.py:GOST34132015CipherPadding._set_pad_mode_2"]}
{"id": "C29", "title": "Ciphertext and plaintext lengths", "statement": "CFB, OFB and CTR outputs have the input's length; ECB/CBC encryption output is a positive multiple of the block size, at least the input length and less than it plus one (mode 1) or at most plus two (mode 2) blocks; ECB/CBC decryption output has the length of the input rounded down to a block multiple.", "quantifier": "all keys, IVs, data lengths", "why_tests_cant": "all lengths", "anchors": ["gostcrypto/gostcipher/gost_34_13_2015.py:GOST34132015ecb", "gostcrypto/gostcipher/gost_34_13_2015.py:GOST34132015cbc", "gostcrypto/gostcipher/gost_34_13_2015.py:GOST34132015cfb", "gostcrypto/gostcipher/gost_34_13_2015.py:GOST34132015ofb", "gostcrypto/gostcipher/gost_34_13_2015.py:GOST34132015ctr"]}
{"id": "C30", "title": "Truncated ciphertext is not silently accepted", "statement": "ECB/CBC decryption of a ciphertext whose length is not a multiple of the block size is rejected. The code violates this: the trailing partial block is dropped silently, for every key and every such ciphertext.", "quantifier": "all keys, ciphertexts", "why_tests_cant": "all lengths", "anchors": ["gostcrypto/gostcipher/gost_34_13_2015.py:GOST34132015ecb.decrypt", "gostcrypto/gostcipher/gost_34_13_2015.py:GOST34132015cbc.decrypt"]}
{"id": "C31", "title": "Constructor accepts exactly the documented arguments", "statement": "new(algorithm,key,mode,...) succeeds exactly when mode is supported, algorithm is 'kuznechik' or 'magma', key is a 32-byte bytes/bytearray, the padding mode (ECB, CBC) is one of two, the IV is bytes of the required length (multiple of block, or half block for CTR); otherwise the GOSTCipherError names the first violated condition in a fixed order.", "quantifier": "all argument values of all types", "why_tests_cant": "product of many invalid values; tests try each once", "anchors": ["gostcrypto/gostcipher/gost_34_13_2015.py:new", "gostcrypto/gostcipher/gost_34_13_2015.py:GOST34132015.__init__", "gostcrypto/gostcipher/gost_34_13_2015.py:GOST34132015CipherPadding.__init__", "gostcrypto/gostcipher/gost_34_13_2015.py:GOST34132015CipherFeedBack.__init__", "gostcrypto/gostcipher/gost_34_13_2015.py:GOST34132015ctr.__init__"]}
{"id": "C32", "title": "Every accepted IV yields a working cipher", "statement": "If the constructor accepts the IV then encrypt succeeds on all byte data and decrypt inverts it. The code violates this for the empty IV: it is accepted, then CFB/OFB processing of any non-empty data and CBC encryption of any data raise IndexError, and CBC decryption silently drops the first block and uses it as the IV.", "quantifier": "all keys, accepted IVs, data", "why_tests_cant": "tests never pass the empty IV; positive half quantifies over everything", "anchors": ["gostcrypto/gostcipher/gost_34_13_2015.py:GOST34132015CipherFeedBack.__init__", "gostcrypto/gostcipher/gost_34_13_2015.py:GOST34132015CipherFeedBack._get_gamma", "gostcrypto/gostcipher/gost_34_13_2015.py:GOST34132015CipherFeedBack._set_init_vect"]}
{"id": "C33", "title": "A rejected encrypt/decrypt/update argument leaves the object usable", "statement": "Passing non-bytes data raises GOSTCipherError and later calls behave as before. The code violates this: the key schedule is replaced by a public constant, and later calls succeed and encrypt under that constant, for every key.", "quantifier": "all keys, all histories", "why_tests_cant": "state after an exception is a history property", "anchors": ["gostcrypto/gostcipher/gost_34_13_2015.py:GOST34132015Cipher.encrypt", "gostcrypto/gostcipher/gost_34_13_2015.py:GOST34132015Cipher.decrypt", "gostcrypto/gostcipher/gost_34_13_2015.py:GOST34132015mac.update"]}
{"id": "C34", "title": "clear() makes later outputs independent of the key", "statement": "After clear(), every later encrypt/decrypt output and exception of an ECB/CBC/CFB/OFB/CTR object depends only on mode, IV state and data, never on the key it was created with.", "quantifier": "all pairs of keys, all later call sequences", "why_tests_cant": "two-run (noninterference) property", "anchors": ["gostcrypto/gostcipher/gost_34_13_2015.py:GOST34132015.clear", "gostcrypto/gostcipher/gost_34_12_2015.py:GOST34122015Kuznechik.clear", "gostcrypto/gostcipher/gost_34_12_2015.py:GOST34122015Magma.clear"]}
{"id": "C35", "title": "A cleared cipher object refuses to encrypt", "statement": "After clear() the object no longer encrypts. The code violates this: encrypt still succeeds and is exactly the cipher whose round keys are the bytes '/x00' repeated, so anybody can decrypt.", "quantifier": "all keys, data", "why_tests_cant": "history property", "anchors": ["gostcrypto/gostcipher/gost_34_13_2015.py:GOST34132015.clear", "gostcrypto/utils/utils.py:zero_fill"]}
{"id": "C36", "title": "clear() on a MAC object removes all key material", "statement": "After clear() digest output is independent of the key. The code violates this: the two subkeys remain and two keys give different digests after clear().", "quantifier": "pairs of keys", "why_tests_cant": "two-run property", "anchors": ["gostcrypto/gostcipher/gost_34_13_2015.py:GOST34132015mac", "gostcrypto/gostcipher/gost_34_13_2015.py:GOST34132015.clear"]}
{"id": "C37", "title": "MAC of a message equals the standard's MAC", "statement": "For both ciphers, every key and every message of at least one block, new(..., data=m).digest(s) equals the first s bytes of the MAC of GOST R 34.13-2015 5.6 (OMAC1/CMAC), for 0 <= s <= block size; a new object without data gives the MAC of the empty message.", "quantifier": "all keys, messages of >= 1 block of any length", "why_tests_cant": "unbounded messages", "anchors": ["gostcrypto/gostcipher/gost_34_13_2015.py:GOST34132015mac.update", "gostcrypto/gostcipher/gost_34_13_2015.py:GOST34132015mac.mac_final", "gostcrypto/gostcipher/gost_34_13_2015.py:GOST34132015mac.digest"]}
{"id": "C38", "title": "MAC streaming: every successful history is sound", "statement": "After any sequence of update calls (some of which may have raised), digest equals the standard MAC of the concatenation of exactly those chunks whose update returned normally.", "quantifier": "all keys, all finite histories of chunks", "why_tests_cant": "histories are unbounded", "anchors": ["gostcrypto/gostcipher/gost_34_13_2015.py:GOST34132015mac.update"]}
{"id": "C39", "title": "MAC update accepts any chunking", "statement": "update(a); update(b) is equivalent to update(a+b) for all byte strings a, b (as documented). The code violates this: an update that leaves fewer than block_size bytes pending raises IndexError, exactly when pending+chunk is shorter than a block; in particular messages shorter than a block cannot be authenticated. update(b'') is refused in every state.", "quantifier": "all keys, chunk pairs", "why_tests_cant": "exact failure set over all lengths", "anchors": ["gostcrypto/gostcipher/gost_34_13_2015.py:GOST34132015mac.update"]}
{"id": "C40", "title": "MAC digest is read-only, truncating and bounded", "statement": "digest(s) does not change the object, digest(s) is a prefix of digest(t) for 0<=s<=t<=block size and has length s, and s > block size raises GOSTCipherError; so interleaving digests with updates never changes later results.", "quantifier": "all reachable states, all sizes", "why_tests_cant": "history property", "anchors": ["gostcrypto/gostcipher/gost_34_13_2015.py:GOST34132015mac.digest"]}
{"id": "C41", "title": "MAC subkeys are doublings in GF(2^n)", "statement": "The two subkeys are x*E(0) and x^2*E(0) in GF(2^64)/GF(2^128) with the standard polynomials, for every key.", "quantifier": "all keys", "why_tests_cant": "the conditional branch on the top bit and truncation must be right for all values", "anchors": ["gostcrypto/gostcipher/gost_34_13_2015.py:GOST34132015mac._get_mac_key"]}
{"id": "C42", "title": "The public mac_final is repeatable", "statement": "Calling mac_final twice in a row returns the same value. The code violates this: the first call replaces a partial last block by its padded form, so the second call uses the other subkey. The two values agree exactly when the message is non-empty and consists of whole blocks, or the key encrypts the zero block to itself.", "quantifier": "all keys, messages", "why_tests_cant": "history property", "anchors": ["gostcrypto/gostcipher/gost_34_13_2015.py:GOST34132015mac.mac_final"]}
{"id": "C43", "title": "Decrypting on the same object that encrypted", "statement": "For CBC/CFB/OFB/CTR, decrypt called on the object that just encrypted recovers the message. The code violates this (register/counter has moved); it holds exactly for ECB.", "quantifier": "all keys, IVs, messages", "why_tests_cant": "history property", "anchors": ["gostcrypto/gostcipher/gost_34_13_2015.py:GOST34132015cbc", "gostcrypto/gostcipher/gost_34_13_2015.py:GOST34132015ctr", "gostcrypto/gostcipher/gost_34_13_2015.py:GOST34132015ecb"]}
{"id": "C44", "title": "The iv and counter attributes track the stream", "statement": "After a fresh CBC/CFB object processes at least one full block, iv is the last full ciphertext block; for OFB it is the last gamma block; for CTR counter is IV||0 with its last byte increased by the number of consumed blocks modulo 256.", "quantifier": "all keys, IVs, data histories", "why_tests_cant": "all lengths and histories", "anchors": ["gostcrypto/gostcipher/gost_34_13_2015.py:GOST34132015CipherFeedBack.iv", "gostcrypto/gostcipher/gost_34_13_2015.py:GOST34132015ctr.counter"]}
{"id": "C45", "title": "Error propagation of CBC and CFB decryption is local", "statement": "Changing ciphertext block j changes in CBC decryption only plaintext blocks j and j+m, and in CFB decryption only blocks j and j+m (m = blocks in the IV); all other plaintext blocks are identical.", "quantifier": "all keys, IVs, ciphertexts, modifications", "why_tests_cant": "two-run property over all positions", "anchors": ["gostcrypto/gostcipher/gost_34_13_2015.py:GOST34132015cbc.decrypt", "gostcrypto/gostcipher/gost_34_13_2015.py:GOST34132015cfb.decrypt"]}
{"id": "C46", "title": "Streebog compression tables realise L.P.S", "statement": "For every 64-byte input the table-driven step equals S-box substitution, byte transposition and multiplication by the standard 64x64 binary matrix.", "quantifier": "all 2^512 inputs", "why_tests_cant": "2048 64-bit table entries; a wrong entry affects few messages", "anchors": ["gostcrypto/gosthash/gost_34_11_2012.py:GOST34112012._hash_lps", "gostcrypto/gosthash/gost_34_11_2012.py:_T"]}
{"id": "C47", "title": "Hash of a message conforms to GOST R 34.11-2012", "statement": "For every byte string m, new(name, data=m).digest() equals an independent definition of Streebog-256/512 on integers modulo 2^512 (iv, g_N with E and 12 round constants, N and Sigma counters, padding).", "quantifier": "all messages of any length, both variants", "why_tests_cant": "unbounded messages", "anchors": ["gostcrypto/gosthash/gost_34_11_2012.py:GOST34112012"]}
{"id": "C48", "title": "512-bit addition is exact", "statement": "The Sigma/N accumulator addition is little-endian addition modulo 2^512.", "quantifier": "all pairs of 64-byte strings", "why_tests_cant": "long carry chains", "anchors": ["gostcrypto/gosthash/gost_34_11_2012.py:GOST34112012._hash_add_512"]}
{"id": "C49", "title": "Hash streaming equals one-shot", "statement": "update(a); update(b) is equivalent to update(a+b) for all byte strings (as documented). The code violates this: if a leaves a partial block and b completes it exactly, the stale partial block is kept, so the object behaves as if a+b followed by a repeated tail had been hashed, which gives collisions.", "quantifier": "all messages and partitions", "why_tests_cant": "number of partitions is exponential; failure only on exact block boundaries", "anchors": ["gostcrypto/gosthash/gost_34_11_2012.py:GOST34112012.update"]}
{"id": "C50", "title": "Exact law of hash update histories", "statement": "For every history of update calls the digest equals the standard hash of the message obtained by folding: pending tail t, chunk c; consume t+c; if its length is a positive multiple of 64 and t is non-empty then t stays pending, else the remainder becomes pending.", "quantifier": "all finite histories of chunks", "why_tests_cant": "histories are unbounded", "anchors": ["gostcrypto/gosthash/gost_34_11_2012.py:GOST34112012.update", "gostcrypto/gosthash/gost_34_11_2012.py:GOST34112012.hash_final"]}
{"id": "C51", "title": "Safe hash histories", "statement": "If no update call ends exactly on a 64-byte boundary while a partial block was pending before it (in particular if all chunks but the last are multiples of 64), digest equals the one-shot hash of the concatenation.", "quantifier": "all such histories", "why_tests_cant": "unbounded histories", "anchors": ["gostcrypto/gosthash/gost_34_11_2012.py:GOST34112012.update"]}
{"id": "C52", "title": "digest is read-only; copies are independent", "statement": "digest/hexdigest do not change the object; a copy yields the same digests, and updates to either do not affect the other; hexdigest is the hex of digest.", "quantifier": "all reachable states and interleavings", "why_tests_cant": "history property", "anchors": ["gostcrypto/gosthash/gost_34_11_2012.py:GOST34112012.digest", "gostcrypto/gosthash/gost_34_11_2012.py:GOST34112012.copy"]}
{"id": "C53", "title": "reset restores the initial state", "statement": "After any history, reset makes the object behave as a new one of the same name.", "quantifier": "all histories before and after", "why_tests_cant": "history property", "anchors": ["gostcrypto/gosthash/gost_34_11_2012.py:GOST34112012.reset"]}
{"id": "C54", "title": "Digest size", "statement": "digest always returns digest_size bytes (32 or 64) with values 0..255, in every reachable state.", "quantifier": "all reachable states", "why_tests_cant": "all inputs", "anchors": ["gostcrypto/gosthash/gost_34_11_2012.py:GOST34112012.get_hash", "gostcrypto/gosthash/gost_34_11_2012.py:GOST34112012.digest_size"]}
{"id": "C55", "title": "Hash argument checking", "statement": "new raises GOSTHashError for every name other than the two and for every non-bytes data; update with non-bytes raises and leaves the object unchanged; new(name,data=d) equals new(name) followed by update(d).", "quantifier": "all argument values, all states", "why_tests_cant": "all types", "anchors": ["gostcrypto/gosthash/gost_34_11_2012.py:new", "gostcrypto/gosthash/gost_34_11_2012.py:GOST34112012.update"]}
{"id": "C56", "title": "HMAC conforms to R 50.1.113-2016", "statement": "For both variants, every key of at most 64 bytes and every message m (empty included when passed to update), the digest after a single update(m) equals H((K xor opad)||H((K xor ipad)||m)) with H the standard hash and K the key zero-padded to 64 bytes.", "quantifier": "all keys up to 64 bytes, all messages", "why_tests_cant": "unbounded messages", "anchors": ["gostcrypto/gosthmac/r_50_1_113_2016.py:R5011132016.update", "gostcrypto/gosthmac/r_50_1_113_2016.py:R5011132016.digest"]}
{"id": "C57", "title": "HMAC of the empty message without update", "statement": "new(name,key).digest() and new(name,key,data=b'').digest() equal the HMAC of the empty message. The code violates this: the inner key block is omitted.", "quantifier": "all keys", "why_tests_cant": "tests always call update", "anchors": ["gostcrypto/gosthmac/r_50_1_113_2016.py:R5011132016.__init__", "gostcrypto/gosthmac/r_50_1_113_2016.py:R5011132016.digest"]}
{"id": "C58", "title": "Keys equal up to zero padding are interchangeable", "statement": "Two keys that agree after zero padding to 64 bytes give identical objects; hence HMAC keys are not injective below 64 bytes.", "quantifier": "all keys, messages, histories", "why_tests_cant": "two-run property", "anchors": ["gostcrypto/gosthmac/r_50_1_113_2016.py:R5011132016.__init__"]}
{"id": "C59", "title": "HMAC argument checking", "statement": "new succeeds exactly when name is one of the two, key is bytes/bytearray of at most 64 bytes and data is bytes; otherwise GOSTHMACError with the message for the first violated condition.", "quantifier": "all argument values", "why_tests_cant": "all types and lengths", "anchors": ["gostcrypto/gosthmac/r_50_1_113_2016.py:R5011132016.__init__", "gostcrypto/gosthmac/r_50_1_113_2016.py:R5011132016.update"]}
{"id": "C60", "title": "HMAC streaming", "statement": "update(a); update(b) is equivalent to update(a+b). Holds for histories that never complete a pending partial block exactly; violated otherwise (same stale buffer as the hash), producing equal tags for different messages.", "quantifier": "all keys, histories", "why_tests_cant": "exponential number of histories", "anchors": ["gostcrypto/gosthmac/r_50_1_113_2016.py:R5011132016.update"]}
{"id": "C61", "title": "HMAC clear removes the key", "statement": "After clear() every later digest is independent of the key. The object nevertheless remains usable with a public constant key and without the inner key block if it was updated before.", "quantifier": "all pairs of keys, later histories", "why_tests_cant": "two-run property", "anchors": ["gostcrypto/gosthmac/r_50_1_113_2016.py:R5011132016.clear"]}
{"id": "C62", "title": "HMAC reset", "statement": "After any history without clear, reset makes the object behave as new(name,key).", "quantifier": "all histories", "why_tests_cant": "history property", "anchors": ["gostcrypto/gosthmac/r_50_1_113_2016.py:R5011132016.reset"]}
{"id": "C63", "title": "HMAC digest is read-only with fixed size", "statement": "digest does not change the object, has digest_size bytes, and copy gives an independent equal object.", "quantifier": "all reachable states", "why_tests_cant": "history property", "anchors": ["gostcrypto/gosthmac/r_50_1_113_2016.py:R5011132016.digest", "gostcrypto/gosthmac/r_50_1_113_2016.py:R5011132016.copy"]}
{"id": "C64", "title": "PBKDF2 conformance", "statement": "For every password of at most 64 bytes, non-empty salt, iteration count c >= 1 and 0 <= dk_len <= (2^32-1)*64, derive(dk_len) equals PBKDF2 with HMAC-Streebog-512 (R 50.1.111-2016).", "quantifier": "all passwords, salts, counts, lengths", "why_tests_cant": "unbounded", "anchors": ["gostcrypto/gostpbkdf/r_50_1_111_2016.py:R5011112016.derive", "gostcrypto/gostpbkdf/r_50_1_111_2016.py:R5011112016._f"]}
{"id": "C65", "title": "Derived key length", "statement": "derive(n) returns exactly n bytes for 0 <= n <= (2^32-1)*64, raises GOSTPBKDFError above, and returns the empty string for negative n.", "quantifier": "all integers n", "why_tests_cant": "lengths up to 2^38 cannot be tested", "anchors": ["gostcrypto/gostpbkdf/r_50_1_111_2016.py:R5011112016.derive"]}
{"id": "C66", "title": "Derived keys are prefix-consistent", "statement": "derive(n) is the first n bytes of derive(m) for 0 <= n <= m within the limit.", "quantifier": "all n <= m", "why_tests_cant": "all pairs", "anchors": ["gostcrypto/gostpbkdf/r_50_1_111_2016.py:R5011112016.derive"]}
{"id": "C67", "title": "derive is independent of earlier calls", "statement": "The result of derive(n) does not depend on which derive/hexderive calls were made before on the object.", "quantifier": "all call histories", "why_tests_cant": "history property", "anchors": ["gostcrypto/gostpbkdf/r_50_1_111_2016.py:R5011112016.derive"]}
{"id": "C68", "title": "PBKDF clear removes the password", "statement": "After clear() derive no longer yields the password-dependent key. The code violates this: derive after clear() equals derive before clear().", "quantifier": "all passwords", "why_tests_cant": "history property", "anchors": ["gostcrypto/gostpbkdf/r_50_1_111_2016.py:R5011112016.clear"]}
{"id": "C69", "title": "PBKDF argument errors", "statement": "new raises GOSTPBKDFError exactly for inadmissible passwords/salts. The code violates this: a bytes password longer than 64 bytes raises GOSTHMACError instead; accepted set is exactly bytes of length <= 64 with bytes salt.", "quantifier": "all argument values", "why_tests_cant": "all types and lengths", "anchors": ["gostcrypto/gostpbkdf/r_50_1_111_2016.py:R5011112016.__init__", "gostcrypto/gosthmac/r_50_1_113_2016.py:R5011132016.__init__"]}
{"id": "C70", "title": "Non-positive iteration counts", "statement": "Iteration counts <= 0 are treated as 1 instead of being rejected: derive gives the 1-iteration key.", "quantifier": "all counts <= 0", "why_tests_cant": "all integers", "anchors": ["gostcrypto/gostpbkdf/r_50_1_111_2016.py:R5011112016._f"]}
{"id": "C71", "title": "Random output length", "statement": "random() returns exactly rand_size bytes for every rand_size >= 0 whenever it returns.", "quantifier": "all sizes, seeds, histories", "why_tests_cant": "all sizes", "anchors": ["gostcrypto/gostrandom/r_1323565_1_006_2017.py:R132356510062017.random"]}
{"id": "C72", "title": "Random stream is the standard's hash-counter stream", "statement": "With seed s (size_s bytes) the outputs of successive random() calls are determined by the seed and the number of earlier calls: each call consumes ceil(rand_size/64) consecutive counter values U+1, U+2, ..., (U = s followed by zeros, 63 bytes) and returns full hashes followed by the low r bytes of the last hash.", "quantifier": "all seeds, sizes, number of calls", "why_tests_cant": "history property of unbounded length", "anchors": ["gostcrypto/gostrandom/r_1323565_1_006_2017.py:R132356510062017.random", "gostcrypto/gostrandom/r_1323565_1_006_2017.py:R132356510062017._rand_iter", "gostcrypto/gostrandom/r_1323565_1_006_2017.py:R132356510062017._inc_rand_u"]}
{"id": "C73", "title": "Counter limit is enforced", "statement": "random() raises GOSTRandomError when the counter part is exhausted and never lets the counter run into the seed. The code violates this: on an object that was not cleared the limit error can never occur, whatever the number of calls, and the increment carries into the seed part.", "quantifier": "all seeds, histories", "why_tests_cant": "2^120 calls cannot be tested", "anchors": ["gostcrypto/gostrandom/r_1323565_1_006_2017.py:R132356510062017._rand_iter"]}
{"id": "C74", "title": "Hash inputs never repeat", "statement": "Within 256^63 iterations no two iterations of one object hash the same value, and the hashed value is always 63 bytes.", "quantifier": "all seeds, histories", "why_tests_cant": "astronomically long histories", "anchors": ["gostcrypto/gostrandom/r_1323565_1_006_2017.py:R132356510062017._inc_rand_u"]}
{"id": "C75", "title": "After clear() the generator fails until reset", "statement": "After clear(), every random() call with rand_size > 0 raises GOSTRandomError until reset; reset(seed) then behaves as new(seed).", "quantifier": "all histories", "why_tests_cant": "history property", "anchors": ["gostcrypto/gostrandom/r_1323565_1_006_2017.py:R132356510062017.clear", "gostcrypto/gostrandom/r_1323565_1_006_2017.py:R132356510062017.reset"]}
{"id": "C76", "title": "Generator determinism after reset", "statement": "After any history, reset(s) with an explicit valid seed makes the outputs equal to those of a new object with that seed; two objects with the same seed give the same outputs.", "quantifier": "all histories, seeds", "why_tests_cant": "history property", "anchors": ["gostcrypto/gostrandom/r_1323565_1_006_2017.py:R132356510062017.reset"]}
{"id": "C77", "title": "Zero seeds are refused at use", "statement": "random() raises 'the seed value is zero' exactly when the seed part is zero, and then does not change the object; construction accepts it.", "quantifier": "all seeds", "why_tests_cant": "all values", "anchors": ["gostcrypto/gostrandom/r_1323565_1_006_2017.py:R132356510062017.random"]}
{"id": "C78", "title": "Seed acceptance", "statement": "An explicit non-empty seed is accepted exactly when it is bytes/bytearray of length size_s; a rejected reset leaves the object unchanged.", "quantifier": "all values", "why_tests_cant": "all types and lengths", "anchors": ["gostcrypto/gostrandom/r_1323565_1_006_2017.py:R132356510062017.__init__", "gostcrypto/gostrandom/r_1323565_1_006_2017.py:R132356510062017.reset"]}
{"id": "C79", "title": "Modular inverse", "statement": "For every prime modulus n and every integer v (negative or larger than n too), the inverse routine returns x in [0,n) with v*x = 1 mod n when n does not divide v, and 0 when it does.", "quantifier": "all primes and integers", "why_tests_cant": "all values", "anchors": ["gostcrypto/gostsignature/gost_34_10_2012.py:GOST34102012._invert"]}
{"id": "C80", "title": "Inverse recursion depth is bounded", "statement": "The recursive extended Euclid makes at most 2*bitlength(modulus)+2 nested calls; for the 256/512-bit parameter sets at most 770 (1.45 bits per call), below CPython's default limit of 1000.", "quantifier": "all values, moduli up to 512 bits", "why_tests_cant": "worst case inputs (Fibonacci-like) are not random", "anchors": ["gostcrypto/gostsignature/gost_34_10_2012.py:GOST34102012._invert"]}
{"id": "C81", "title": "Point addition is the elliptic-curve group law", "statement": "For all points P,Q on the curve (reduced coordinates) with P != -Q, the addition routine returns the group-law sum, which lies on the curve; the group law is associative and commutative.", "quantifier": "all primes p > 3, curves, points", "why_tests_cant": "infinitely many curves; exceptional cases", "anchors": ["gostcrypto/gostsignature/gost_34_10_2012.py:GOST34102012._add"]}
{"id": "C82", "title": "Scalar multiplication is correct for 1 <= k < q", "statement": "For a point of prime order q the multiplication routine returns k times the point for every 1 <= k < q; double-and-add never hits the unsupported point at infinity in that range except harmlessly.", "quantifier": "all curves of prime-order subgroup, all k", "why_tests_cant": "k up to 2^512; intermediate infinity would corrupt silently", "anchors": ["gostcrypto/gostsignature/gost_34_10_2012.py:GOST34102012._mul_point"]}
{"id": "C83", "title": "A signature made by sign is accepted by verify", "statement": "For every valid curve with prime q, private key 1 <= d < q whose public key has non-zero coordinates, digest of the right size and nonce for which sign returns, verify(public_key_generate(d), digest, sign(d, digest, k)) is True.", "quantifier": "all curves, keys, digests, nonces", "why_tests_cant": "2^512 cases; depends on the group structure", "anchors": ["gostcrypto/gostsignature/gost_34_10_2012.py:GOST34102012.sign", "gostcrypto/gostsignature/gost_34_10_2012.py:GOST34102012.verify", "gostcrypto/gostsignature/gost_34_10_2012.py:GOST34102012.public_key_generate"]}
{"id": "C84", "title": "verify accepts exactly the standard's equation", "statement": "For every public key that is a curve point of order q with non-zero coordinates, verify returns True exactly if 0<r<q, 0<s<q and r equals the x-coordinate mod q of z1*P+z2*Q, provided z1*P+z2*Q is not the point at infinity; when it is the point at infinity the standard rejects.", "quantifier": "all curves, keys, digests, signatures", "why_tests_cant": "soundness over all forged inputs", "anchors": ["gostcrypto/gostsignature/gost_34_10_2012.py:GOST34102012.verify"]}
{"id": "C85", "title": "Out-of-range signatures are rejected", "statement": "verify returns False whenever r or s is 0 or >= q, for every curve, key and digest; and raises GOSTSignatureError exactly for wrong types/sizes.", "quantifier": "all inputs", "why_tests_cant": "all values", "anchors": ["gostcrypto/gostsignature/gost_34_10_2012.py:GOST34102012.verify", "gostcrypto/gostsignature/gost_34_10_2012.py:GOST34102012._verify_step_1"]}
{"id": "C86", "title": "Degenerate public keys are not accepted", "statement": "verify never treats an off-curve public key as valid. The code violates this: if either coordinate of the public key is 0 the generator is silently used instead, so everyone can sign (with private key 1) for such a key, and a correct key with x=0 is verified against the wrong point.", "quantifier": "all curves, digests", "why_tests_cant": "needs adversarial inputs", "anchors": ["gostcrypto/gostsignature/gost_34_10_2012.py:GOST34102012._mul_point", "gostcrypto/gostsignature/gost_34_10_2012.py:GOST34102012.verify"]}
{"id": "C87", "title": "sign and public_key_generate terminate", "statement": "They terminate for all arguments that pass the checks. The code violates this: nonce 0, s = 0 or r = 0 with a caller-supplied (or generated) nonce, and private key 0 loop forever.", "quantifier": "all arguments", "why_tests_cant": "non-termination cannot be observed by a test", "anchors": ["gostcrypto/gostsignature/gost_34_10_2012.py:GOST34102012.sign", "gostcrypto/gostsignature/gost_34_10_2012.py:GOST34102012._mul_point", "gostcrypto/gostsignature/gost_34_10_2012.py:GOST34102012._bits"]}
{"id": "C88", "title": "Curve parameter checking", "statement": "The constructor accepts exactly curves with p != m, base point on the curve mod p, and 2^254 <= q <= 2^256 (2^508 <= q <= 2^512), rejecting others with GOSTSignatureError; in particular the documented p^i != 1 mod q (MOV) check never rejects anything, and primality is not checked.", "quantifier": "all parameter sets", "why_tests_cant": "all values", "anchors": ["gostcrypto/gostsignature/gost_34_10_2012.py:GOST34102012._check_curve", "gostcrypto/gostsignature/gost_34_10_2012.py:GOST34102012._check_p", "gostcrypto/gostsignature/gost_34_10_2012.py:GOST34102012._check_q", "gostcrypto/gostsignature/gost_34_10_2012.py:GOST34102012._check_x_y"]}
{"id": "C89", "title": "The seven built-in curves are valid", "statement": "Every built-in parameter set is accepted in its mode, its base point lies on the curve and has order q, p and q are prime, and q != p.", "quantifier": "seven parameter sets", "why_tests_cant": "primality of 512-bit numbers and point order are not checked by any test", "anchors": ["gostcrypto/gostsignature/gost_34_10_2012.py:CURVES_R_1323565_1_024_2019"]}
{"id": "C90", "title": "Edwards-to-Weierstrass conversion", "statement": "For every prime p > 3 and Edwards parameters with e*u^2+v^2 = 1+d*u^2*v^2, u != 0, v != 1, the derived a, b, x, y satisfy the Weierstrass equation; conversion happens only when a=b=x=y=0.", "quantifier": "all primes and parameters", "why_tests_cant": "algebraic identity over all values", "anchors": ["gostcrypto/gostsignature/gost_34_10_2012.py:GOST34102012._edvards_to_canonical"]}
{"id": "C91", "title": "Signature shape", "statement": "When sign returns, the result has 2*size bytes and encodes r||s with 0<r<q, 0<s<q.", "quantifier": "all curves, keys, digests, nonces", "why_tests_cant": "all values", "anchors": ["gostcrypto/gostsignature/gost_34_10_2012.py:GOST34102012.sign"]}
{"id": "C92", "title": "Digest reduction", "statement": "Only the digest modulo q matters, with 0 replaced by 1: two digests with equal reduced value have the same signatures and the same verification results; the all-zero digest and the digest 1 are interchangeable.", "quantifier": "all digests, keys", "why_tests_cant": "all values", "anchors": ["gostcrypto/gostsignature/gost_34_10_2012.py:GOST34102012._set_e"]}
{"id": "C93", "title": "Private keys are only significant modulo q", "statement": "Keys d and d+q (when both fit) sign identically; private keys >= q are not rejected.", "quantifier": "all keys", "why_tests_cant": "all values", "anchors": ["gostcrypto/gostsignature/gost_34_10_2012.py:GOST34102012.sign", "gostcrypto/gostsignature/gost_34_10_2012.py:GOST34102012.public_key_generate"]}
{"id": "C94", "title": "Nonce reuse discloses the private key", "statement": "Two signatures made with the same nonce for digests with different reduced values determine the private key modulo q by a fixed formula.", "quantifier": "all curves of prime q, keys, nonces, digests", "why_tests_cant": "security consequence over all values", "anchors": ["gostcrypto/gostsignature/gost_34_10_2012.py:GOST34102012.sign"]}
{"id": "C95", "title": "Generated public keys lie on the curve", "statement": "public_key_generate(d) for 1 <= d < q returns 2*size bytes encoding d times the base point, a point on the curve with coordinates in [0,p).", "quantifier": "all curves of prime order subgroup, all d", "why_tests_cant": "all values", "anchors": ["gostcrypto/gostsignature/gost_34_10_2012.py:GOST34102012.public_key_generate"]}
{"id": "C96", "title": "The built-in OID table is consistent", "statement": "Every entry of the table of known identifiers is found by the name property under its own key (no duplicate keys), its key is the canonical dotted rendering of its digit property, and its octets decode to those arcs.", "quantifier": "all table entries", "why_tests_cant": "a test looks up a few identifiers", "anchors": ["gostcrypto/gostoid/oid.py:ObjectIdentifier.name", "gostcrypto/gostoid/oid.py:OBJECT_IDENTIFIER_TC26"]}
{"id": "C97", "title": "Omitted keyword arguments mean fixed constants", "statement": "Calling new without init_vect or pad_mode is exactly calling it with the documented constant IV of the cipher and mode and with padding mode 1; in particular the default IV is the same for every object and key.", "quantifier": "all keys, modes and keyword combinations", "why_tests_cant": "tests compare a few calls only", "anchors": ["gostcrypto/gostcipher/gost_34_13_2015.py:new", "gostcrypto/gostcipher/gost_34_13_2015.py:GOST34132015ctr.__init__", "gostcrypto/gostcipher/gost_34_13_2015.py:GOST34132015CipherFeedBack.__init__"]}
{"id": "C98", "title": "Arguments and earlier results are never modified", "statement": "No call of the cipher and MAC API writes to a bytearray that the caller passed in or obtained before, nor to the default vectors of the module; every returned bytearray is a new object, so later calls do not change it.", "quantifier": "all programs using any number of cipher and MAC objects, aliases and buffers", "why_tests_cant": "tests check a handful of calls and never re-read their arguments", "anchors": ["gostcrypto/gostcipher/gost_34_13_2015.py:new", "gostcrypto/gostcipher/gost_34_13_2015.py:GOST34132015Cipher.encrypt", "gostcrypto/gostcipher/gost_34_13_2015.py:GOST34132015CipherFeedBack._set_init_vect", "gostcrypto/gostcipher/gost_34_13_2015.py:GOST34132015ctr._inc_ctr", "gostcrypto/gostcipher/gost_34_13_2015.py:GOST34132015mac.update"]}
{"id": "C99", "title": "Objects keep no reference to the caller's buffers", "statement": "After construction the caller may overwrite (for example zero) the key, vector, password and salt buffers without any effect on the object. True for ciphers, MAC, PBKDF and HMAC keys that are bytes or shorter than 64; the code violates it for a 64-byte bytearray HMAC key, which is stored itself: zeroing it changes the tag.", "quantifier": "all programs, keys, writes", "why_tests_cant": "tests keep their key variables unchanged", "anchors": ["gostcrypto/gosthmac/r_50_1_113_2016.py:R5011132016.__init__", "gostcrypto/gostcipher/gost_34_13_2015.py:GOST34132015CipherFeedBack.__init__", "gostcrypto/gostpbkdf/r_50_1_111_2016.py:R5011112016.__init__"]}
{"id": "C100", "title": "Attributes read from an object are snapshots", "statement": "A value read from a property does not change later and writing to it does not change the object. True for iv; the code violates it for counter of CTR objects (the live buffer, so a saved counter changes and encrypt(obj.counter) is wrong) and salt of PBKDF objects (writing to it changes the derived keys).", "quantifier": "all programs", "why_tests_cant": "needs aliasing and later re-reads", "anchors": ["gostcrypto/gostcipher/gost_34_13_2015.py:GOST34132015ctr.counter", "gostcrypto/gostcipher/gost_34_13_2015.py:GOST34132015CipherFeedBack.iv", "gostcrypto/gostpbkdf/r_50_1_111_2016.py:R5011112016.salt"]}
{"id": "C101", "title": "Cipher and MAC objects behave as isolated values", "statement": "Any program with any number of cipher and MAC objects, shared buffers and writes by the caller produces exactly the outputs it would produce if every object were a separate immutable-state value, i.e. objects never interfere through shared buffers or module constants.", "quantifier": "all programs", "why_tests_cant": "interference needs particular interleavings", "anchors": ["gostcrypto/gostcipher/gost_34_13_2015.py:new", "gostcrypto/gostcipher/gost_34_13_2015.py:GOST34132015Cipher", "gostcrypto/gostcipher/gost_34_13_2015.py:GOST34132015mac"]}
{"id": "C102", "title": "A signature belongs to one digest", "statement": "If verify accepts a signature for a digest, it rejects it for every digest with another value modulo q. False: verify answers alike for a digest and for every digest of the opposite value modulo q (q - e), for every key and signature, so each accepted signature is accepted for a second digest value.", "quantifier": "all usable curves, public keys, digests and signatures", "why_tests_cant": "needs a second digest chosen from q", "anchors": ["gostcrypto/gostsignature/gost_34_10_2012.py:GOST34102012.verify", "gostcrypto/gostsignature/gost_34_10_2012.py:GOST34102012._set_e"]}
{"id": "C103", "title": "A signature belongs to one public key", "statement": "A signature accepted for a digest under one public key is rejected under every other. False: every signature that the standard accepts under Q is also accepted under 2(s/r)G - Q, which anyone can compute; two generated keys share one on every curve with usual coordinates.", "quantifier": "all usable curves, public keys, digests and signatures", "why_tests_cant": "needs a second key computed from the signature", "anchors": ["gostcrypto/gostsignature/gost_34_10_2012.py:GOST34102012.verify", "gostcrypto/gostsignature/gost_34_10_2012.py:GOST34102012.public_key_generate"]}
{"id": "C104", "title": "Signed digests can be chosen without the private key", "statement": "verify takes a digest, not a message: for any u and w the pair made from the point uG + wQ (r its x modulo q, e = -r/w, s = ue) is accepted for the digest e under Q, so acceptance of a caller-supplied digest alone does not show that the owner of the key signed anything.", "quantifier": "all usable curves, public keys, u and w", "why_tests_cant": "needs the algebra of the verification equation", "anchors": ["gostcrypto/gostsignature/gost_34_10_2012.py:GOST34102012.verify"]}
{"id": "C105", "title": "verify accepts exactly what sign can return", "statement": "For the public key of d, verify accepts (r, s) for a digest if and only if sign returns it for d, that digest and some nonce. The code violates one direction: signatures for which the sum of the two points is the point at infinity are accepted with r = -2x, and no nonce gives them; these are the only exceptions.", "quantifier": "all usable curves, private keys, digests, signatures and nonces", "why_tests_cant": "quantifies over all nonces", "anchors": ["gostcrypto/gostsignature/gost_34_10_2012.py:GOST34102012.verify", "gostcrypto/gostsignature/gost_34_10_2012.py:GOST34102012.sign", "gostcrypto/gostsignature/gost_34_10_2012.py:GOST34102012._add"]}
{"id": "C106", "title": "A public key has one encoding", "statement": "A public key is accepted in one encoding only. False: coordinates are not required to be smaller than p, so where p is less than 256^size the keys (x, y) and (x + p, y) are both accepted and answer alike; for the built-in 256-bit parameter set B this happens for the base point.", "quantifier": "all usable curves, keys, digests, signatures", "why_tests_cant": "needs coordinates at the border of the field", "anchors": ["gostcrypto/gostsignature/gost_34_10_2012.py:GOST34102012.verify"]}
{"id": "C107", "title": "verify terminates", "statement": "verify returns or raises for all arguments of any type and content. True for parameters as the standard demands; the constructor also accepts parameters (q not prime) for which verify loops for ever on some digest and signature.", "quantifier": "all objects and arguments", "why_tests_cant": "a hang on particular values is invisible to tests", "anchors": ["gostcrypto/gostsignature/gost_34_10_2012.py:GOST34102012.verify", "gostcrypto/gostsignature/gost_34_10_2012.py:GOST34102012._mul_point", "gostcrypto/gostsignature/gost_34_10_2012.py:GOST34102012.__init__"]}
{"id": "C108", "title": "The public hash_final and get_hash", "statement": "hash_final followed by get_hash gives the digest of everything hashed so far, and finalising twice gives the same digest. The code violates the second half: hash_final leaves the padded block in the buffer, so a second hash_final (or a digest call after it) hashes that block again with the state already closed and returns another value, given exactly by a closed formula.", "quantifier": "all variants, messages and histories of calls", "why_tests_cant": "a test finalises once", "anchors": ["gostcrypto/gosthash/gost_34_11_2012.py:GOST34112012.hash_final", "gostcrypto/gosthash/gost_34_11_2012.py:GOST34112012.get_hash", "gostcrypto/gosthash/gost_34_11_2012.py:GOST34112012.digest"]}
{"id": "C109", "title": "Messages encrypted from one state leak their sum", "statement": "Two messages encrypted by OFB or CTR objects in the same state (for instance two new objects with the same key and vector, or with the default vector) give ciphertexts whose sum is the sum of the messages over the whole common length, after any history; for CFB this holds on as many bytes as the register has. This is what a caller risks who relies on the default vector.", "quantifier": "all keys, vectors, histories, messages of any length", "why_tests_cant": "tests never compare two ciphertexts", "anchors": ["gostcrypto/gostcipher/gost_34_13_2015.py:GOST34132015ofb.encrypt", "gostcrypto/gostcipher/gost_34_13_2015.py:GOST34132015ctr.encrypt", "gostcrypto/gostcipher/gost_34_13_2015.py:GOST34132015cfb.encrypt", "gostcrypto/gostcipher/gost_34_13_2015.py:new"]}
{"id": "C110", "title": "Counter-mode objects with different vectors never share gamma", "statement": "For two CTR objects with the same key, block i of one ciphertext and block j of the other are formed with the same gamma block if and only if the two vectors are equal and i and j agree modulo 256.", "quantifier": "all keys, vectors, messages and block positions", "why_tests_cant": "quantifies over all pairs of vectors and positions", "anchors": ["gostcrypto/gostcipher/gost_34_13_2015.py:GOST34132015ctr.encrypt", "gostcrypto/gostcipher/gost_34_13_2015.py:GOST34132015ctr._inc_ctr", "gostcrypto/gostcipher/gost_34_13_2015.py:GOST34132015ctr.__init__"]}
{"id": "C111", "title": "Different passwords derive different keys", "statement": "Two different passwords give different derived keys. False: passwords that are equal after padding with zero bytes to 64 (p and p followed by zero bytes) behave alike in every call of every history, for every salt and iteration count, valid or not; so trailing zero bytes of a password carry nothing.", "quantifier": "all passwords, salts, iteration counts, histories", "why_tests_cant": "tests use printable passwords", "anchors": ["gostcrypto/gostpbkdf/r_50_1_111_2016.py:R5011112016.__init__", "gostcrypto/gostpbkdf/r_50_1_111_2016.py:R5011112016.derive", "gostcrypto/gosthmac/r_50_1_113_2016.py:R5011132016.__init__"]}
{"id": "C112", "title": "clear() overwrites the secret in memory", "statement": "After clear the buffers that held round keys (ciphers, MAC) or the key (HMAC) no longer hold them. False: clear binds the attributes to new buffers and writes to no existing one, so each buffer that held key material keeps it unchanged until the interpreter frees it, and whoever else refers to it still sees it.", "quantifier": "all programs and objects", "why_tests_cant": "memory contents are not visible to a test of results", "anchors": ["gostcrypto/utils/utils.py:zero_fill", "gostcrypto/gostcipher/gost_34_13_2015.py:GOST34132015.clear", "gostcrypto/gostcipher/gost_34_12_2015.py:GOST34122015Kuznechik.clear", "gostcrypto/gostcipher/gost_34_12_2015.py:GOST34122015Magma.clear", "gostcrypto/gosthmac/r_50_1_113_2016.py:R5011132016.clear"]}
{"id": "C113", "title": "The size of a generator only says where its stream is cut", "statement": "With the same seed, the output for a smaller size is a prefix of the output for a larger one. True when the smaller size is a multiple of 64; false otherwise: the last hash is cut at the front, so for sizes below 64 the shorter output is the end of the longer one.", "quantifier": "all seeds and pairs of sizes", "why_tests_cant": "needs two generators of different sizes", "anchors": ["gostcrypto/gostrandom/r_1323565_1_006_2017.py:R132356510062017.random", "gostcrypto/gostrandom/r_1323565_1_006_2017.py:R132356510062017.__init__"]}
{"id": "C114", "title": "Comparison takes the same steps whatever the contents", "statement": "compare of two byte strings of one length, and compare_to_zero, go through a sequence of statements and element reads that is a function of the length alone, and still answer correctly; for strings of different lengths compare stops at once. So the comparison of a MAC or a signature does not tell by its course where the first difference is.", "quantifier": "all byte strings of all lengths", "why_tests_cant": "a test sees only the answer, not the course of the computation", "anchors": ["gostcrypto/utils/utils.py:compare", "gostcrypto/utils/utils.py:compare_to_zero"]}
{"id": "C115", "title": "Signing takes the same steps whatever the secret number", "statement": "The sequence of statements executed by sign does not depend on the secret number k. False: the branches taken by the point multiplication are the bits of k - 1, so whoever sees them recovers k, and from k and the signature the private key modulo q; two different numbers always give different sequences. The private key itself does not influence the sequence directly.", "quantifier": "all objects, keys, digests, secret numbers given or drawn", "why_tests_cant": "the course of the computation is not a result", "anchors": ["gostcrypto/gostsignature/gost_34_10_2012.py:GOST34102012.sign", "gostcrypto/gostsignature/gost_34_10_2012.py:GOST34102012._mul_point"]}
{"id": "C116", "title": "Generating a public key takes the same steps whatever the private key", "statement": "The sequence of statements executed by public_key_generate does not depend on the private key. False: it determines the private key completely.", "quantifier": "all objects and private keys", "why_tests_cant": "the course of the computation is not a result", "anchors": ["gostcrypto/gostsignature/gost_34_10_2012.py:GOST34102012.public_key_generate", "gostcrypto/gostsignature/gost_34_10_2012.py:GOST34102012._mul_point"]}
{"id": "C117", "title": "Kuznechik reads its tables at positions that do not depend on the key", "statement": "Encrypting one block goes through the same statements for all keys and blocks, but which elements of the table are read depends on them. So the claim is false: with the block known, the positions read in the first two rounds give the whole key.", "quantifier": "all keys and blocks", "why_tests_cant": "positions of table look-ups are not results", "anchors": ["gostcrypto/gostcipher/gost_34_12_2015.py:GOST34122015Kuznechik.encrypt", "gostcrypto/gostcipher/gost_34_12_2015.py:GOST34122015Kuznechik._cipher_s"]}
{"id": "C118", "title": "Magma reads its tables at positions that do not depend on the key", "statement": "Encrypting one block goes through the same statements for all keys and blocks, but which elements of the tables are read depends on them. So the claim is false: with the block known, the positions read in the first eight rounds give the whole key.", "quantifier": "all keys and blocks", "why_tests_cant": "positions of table look-ups are not results", "anchors": ["gostcrypto/gostcipher/gost_34_12_2015.py:GOST34122015Magma.encrypt", "gostcrypto/gostcipher/gost_34_12_2015.py:GOST34122015Magma._cipher_t"]}
{"id": "C119", "title": "Hash objects and generators behave as values", "statement": "A program that creates hash objects, copies of them and generators, calls their methods in any order and writes into its own bytearrays at any moment sees the same results and exceptions as if each call only read the contents of its arguments. In particular what digest, get_hash or random of an object returns depends only on the calls of that object: not on later writes to buffers passed to it or returned by it, and not on calls of other objects, its copies included.", "quantifier": "all programs of any length, with any number of objects and aliases", "why_tests_cant": "quantifies over all interleavings and aliasing patterns", "anchors": ["gostcrypto/gosthash/gost_34_11_2012.py:GOST34112012.update", "gostcrypto/gosthash/gost_34_11_2012.py:GOST34112012.digest", "gostcrypto/gosthash/gost_34_11_2012.py:GOST34112012.copy", "gostcrypto/gostrandom/r_1323565_1_006_2017.py:R132356510062017.random", "gostcrypto/gostrandom/r_1323565_1_006_2017.py:R132356510062017.reset"]}
{"id": "C120", "title": "Hash objects and generators own their buffers", "statement": "A call of a hash object or a generator changes no buffer of the program and no constant of the module; a returned bytearray is new: no variable, object or constant refers to it; no attribute is a buffer of the program, of the module or of another object. A copy of a hash object shows what the original shows and shares nothing with it.", "quantifier": "all programs of any length, with any number of objects and aliases", "why_tests_cant": "identity of buffers shows only through later writes", "anchors": ["gostcrypto/gosthash/gost_34_11_2012.py:GOST34112012.update", "gostcrypto/gosthash/gost_34_11_2012.py:GOST34112012.hash_final", "gostcrypto/gosthash/gost_34_11_2012.py:GOST34112012.copy", "gostcrypto/gosthash/gost_34_11_2012.py:GOST34112012.get_hash", "gostcrypto/gostrandom/r_1323565_1_006_2017.py:R132356510062017.__init__", "gostcrypto/gostrandom/r_1323565_1_006_2017.py:R132356510062017.random"]}
{"id": "C121", "title": "Every secret number is drawn equally often", "statement": "When sign draws its own secret number, it uses the first string of os.urandom that is below q, and of all sequences of random strings equally many lead to each number from 0 to q - 1 (no bias, whatever q is). The standard asks for 1 to q - 1: zero is drawn as often as any other number, and then the call never ends.", "quantifier": "all objects, all numbers of draws, all sequences of strings", "why_tests_cant": "a distribution over 2^256 numbers and the rejected strings cannot be sampled", "anchors": ["gostcrypto/gostsignature/gost_34_10_2012.py:GOST34102012._get_rand_k", "gostcrypto/gostsignature/gost_34_10_2012.py:GOST34102012.sign"]}
{"id": "C122", "title": "The state of a generator hides its earlier outputs", "statement": "Someone who obtains a generator object cannot compute what it returned before. False: every earlier output is a function of the register, which is only incremented; the whole history since the last seeding can be computed from the object.", "quantifier": "all seeds, sizes and numbers of calls", "why_tests_cant": "quantifies over all functions of the state", "anchors": ["gostcrypto/gostrandom/r_1323565_1_006_2017.py:R132356510062017.random", "gostcrypto/gostrandom/r_1323565_1_006_2017.py:R132356510062017._inc_rand_u"]}
{"id": "C123", "title": "A changed ciphertext is noticed", "statement": "decrypt detects that a ciphertext or initialization vector was changed. False: in CTR and OFB, in any state, whatever is xored into the ciphertext is xored into the message with no error and the object continues as if nothing happened; in CBC whatever is xored into the initialization vector is xored into the beginning of the message.", "quantifier": "all keys, vectors, histories, ciphertexts and changes", "why_tests_cant": "quantifies over all changes", "anchors": ["gostcrypto/gostcipher/gost_34_13_2015.py:GOST34132015ctr.decrypt", "gostcrypto/gostcipher/gost_34_13_2015.py:GOST34132015ofb.decrypt", "gostcrypto/gostcipher/gost_34_13_2015.py:GOST34132015cbc.decrypt"]}
{"id": "C124", "title": "What equal ciphertext blocks say about the messages", "statement": "Two messages encrypted from one state of an object (or by two new objects with the same key and vector) have ciphertexts with the same first k blocks if and only if the messages have the same first k blocks, in every mode; in ECB any block of one ciphertext equals any block of another if and only if the message blocks are equal.", "quantifier": "all keys, vectors, histories, messages and block positions", "why_tests_cant": "one direction quantifies over all pairs of messages", "anchors": ["gostcrypto/gostcipher/gost_34_13_2015.py:GOST34132015ecb.encrypt", "gostcrypto/gostcipher/gost_34_13_2015.py:GOST34132015cbc.encrypt", "gostcrypto/gostcipher/gost_34_13_2015.py:GOST34132015cfb.encrypt", "gostcrypto/gostcipher/gost_34_13_2015.py:GOST34132015ofb.encrypt", "gostcrypto/gostcipher/gost_34_13_2015.py:GOST34132015ctr.encrypt"]}
{"id": "C125", "title": "Hashing takes the same steps for all messages of one length", "statement": "Which statements are executed by new, update and digest of a hash object, and by new and digest of an HMAC, depends only on the algorithm and on the lengths of the arguments: not on the contents of the message or of the key. (Which elements of the tables are read does depend on them: next property.)", "quantifier": "all algorithms, keys, messages, and all ways of dividing a message into updates", "why_tests_cant": "the course of the computation is not a result", "anchors": ["gostcrypto/gosthash/gost_34_11_2012.py:GOST34112012.update", "gostcrypto/gosthash/gost_34_11_2012.py:GOST34112012.digest", "gostcrypto/gosthash/gost_34_11_2012.py:GOST34112012._hash_lps", "gostcrypto/gosthash/gost_34_11_2012.py:GOST34112012._hash_add_512", "gostcrypto/gosthmac/r_50_1_113_2016.py:R5011132016.update", "gostcrypto/gosthmac/r_50_1_113_2016.py:R5011132016.digest"]}
{"id": "C126", "title": "Hashing reads its tables at positions that do not depend on the message", "statement": "The positions at which the tables of the hash function are read do not depend on what is hashed. False: the positions give the whole message that was hashed (as divided and joined by the updates), and the positions read by any digest of an HMAC object give its key, padded with zeros.", "quantifier": "all messages, all ways of dividing them into updates, all HMAC keys and histories without clear", "why_tests_cant": "positions of table look-ups are not results", "anchors": ["gostcrypto/gosthash/gost_34_11_2012.py:GOST34112012._hash_lps", "gostcrypto/gosthash/gost_34_11_2012.py:GOST34112012._hash_g", "gostcrypto/gosthash/gost_34_11_2012.py:GOST34112012.digest", "gostcrypto/gosthmac/r_50_1_113_2016.py:R5011132016.digest"]}
{"id": "C127", "title": "Making a Kuznechik object reads its tables at positions that do not depend on the key", "statement": "Making the object (expanding the key) goes through the same statements for all keys, but which elements of the table are read depends on the key. So the claim is false: the positions read while the first two pairs of the schedule are computed give the whole key to someone who knows nothing else.", "quantifier": "all keys", "why_tests_cant": "positions of table look-ups are not results", "anchors": ["gostcrypto/gostcipher/gost_34_12_2015.py:GOST34122015Kuznechik.__init__", "gostcrypto/gostcipher/gost_34_12_2015.py:GOST34122015Kuznechik._cipher_get_c", "gostcrypto/gostcipher/gost_34_12_2015.py:GOST34122015Kuznechik._cipher_s"]}
{"id": "C128", "title": "The positions read for one block of Kuznechik leave the key open to someone who knows neither text", "statement": "If neither the message nor the ciphertext is known, the positions read by a single encrypt or decrypt agree with more than one key. False: they give the key and the block together, in either direction; two pairs of key and block never have the same steps. (The statements executed are the same for all keys and blocks.)", "quantifier": "all keys and blocks", "why_tests_cant": "positions of table look-ups are not results; quantifies over all pairs of keys and blocks", "anchors": ["gostcrypto/gostcipher/gost_34_12_2015.py:GOST34122015Kuznechik.encrypt", "gostcrypto/gostcipher/gost_34_12_2015.py:GOST34122015Kuznechik.decrypt", "gostcrypto/gostcipher/gost_34_12_2015.py:GOST34122015Kuznechik._cipher_s_reverse", "gostcrypto/gostcipher/gost_34_12_2015.py:GOST34122015Kuznechik._cipher_l_reverse"]}
{"id": "C129", "title": "Magma: making an object and decrypting read tables at positions that do not depend on the key", "statement": "Making an object takes exactly the same steps for all keys, positions included. Decrypting a block goes through the same statements for all keys and blocks, but here the claim about positions is false: with the ciphertext block known, the positions read in the first eight rounds give the whole key.", "quantifier": "all keys and blocks", "why_tests_cant": "the course of the computation is not a result", "anchors": ["gostcrypto/gostcipher/gost_34_12_2015.py:GOST34122015Magma.__init__", "gostcrypto/gostcipher/gost_34_12_2015.py:GOST34122015Magma._expand_iter_key", "gostcrypto/gostcipher/gost_34_12_2015.py:GOST34122015Magma.decrypt"]}
{"id": "C130", "title": "The documented program hashes the file", "statement": "The program of the documentation that reads a file piece by piece and updates a hash object returns the hash of the file, provided that the size of the buffer is a positive multiple of the block size, as the note in the documentation asks. The note is needed: for every other positive size there is a file that is hashed as a different message. A negative size also gives the hash of the file, the size zero the hash of nothing.", "quantifier": "both algorithms, all files, all buffer sizes", "why_tests_cant": "all files and buffer sizes; a wrong result appears only for particular lengths", "anchors": ["docs/source/intro.rst:Getting a hash for a file", "gostcrypto/gosthash/gost_34_11_2012.py:GOST34112012.update", "gostcrypto/gosthash/gost_34_11_2012.py:GOST34112012.hexdigest"]}
{"id": "C131", "title": "The documented program computes the HMAC of the file", "statement": "The program of the documentation that reads a file piece by piece and updates an HMAC object returns the HMAC of the file. True for non-empty files (buffer a positive multiple of 64); false for the empty file: the inner key block is missing, so the result is the hash of the outer key block followed by the hash of the empty message.", "quantifier": "both algorithms, all keys, files and buffer sizes that follow the note", "why_tests_cant": "all files", "anchors": ["docs/source/intro.rst:Getting a HMAC for a file", "gostcrypto/gosthmac/r_50_1_113_2016.py:R5011132016.update", "gostcrypto/gosthmac/r_50_1_113_2016.py:R5011132016.hexdigest"]}
{"id": "C132", "title": "The documented program computes the MAC of the file", "statement": "The program of the documentation that reads a file piece by piece and updates a MAC object returns the MAC of the file. False: it raises IndexError exactly when the last read returns at least one octet but less than a block; for all other files it returns the MAC.", "quantifier": "both ciphers, all keys, MAC sizes, files and buffer sizes that follow the note", "why_tests_cant": "all lengths of files", "anchors": ["docs/source/intro.rst:Calculating MAC of the file", "gostcrypto/gostcipher/gost_34_13_2015.py:GOST34132015mac.update", "gostcrypto/gostcipher/gost_34_13_2015.py:GOST34132015mac.digest"]}
{"id": "C133", "title": "The documented program protects every file in CTR mode", "statement": "The program of the documentation that encrypts a file in CTR mode writes a file of the same length, from which the same program with decrypt (and any other allowed buffer size) restores the original; for files of up to 256 blocks it is the encryption of the standard. But the claim that the blocks of the file stay hidden is false for longer files: the difference of two ciphertext blocks is the difference of the two blocks of the file exactly when their positions agree modulo 256.", "quantifier": "both ciphers, all keys, vectors, files, buffer sizes that follow the note", "why_tests_cant": "all files; needs files longer than the tests have", "anchors": ["docs/source/intro.rst:File encryption in CTR mode", "gostcrypto/gostcipher/gost_34_13_2015.py:GOST34132015ctr.encrypt", "gostcrypto/gostcipher/gost_34_13_2015.py:GOST34132015ctr._inc_ctr"]}
{"id": "C134", "title": "Encrypting a file piece by piece is encrypting the file", "statement": "The documented program run with any mode gives what one call of encrypt (or decrypt) on the whole non-empty file gives, and decrypting with any other allowed buffer size restores the file, padded in ECB and CBC. This holds for the padding mode 1; with the padding mode 2 the claim is false: every piece is padded, the output has one block too many for every further piece, and decrypting does not restore the padded file.", "quantifier": "both ciphers, all modes, keys, vectors, non-empty files, buffer sizes that follow the note", "why_tests_cant": "all files and buffer sizes", "anchors": ["docs/source/intro.rst:File encryption in CTR mode", "gostcrypto/gostcipher/gost_34_13_2015.py:GOST34132015ecb.encrypt", "gostcrypto/gostcipher/gost_34_13_2015.py:GOST34132015cbc.encrypt", "gostcrypto/gostcipher/gost_34_13_2015.py:GOST34132015cfb.encrypt", "gostcrypto/gostcipher/gost_34_13_2015.py:GOST34132015ofb.encrypt"]}
{"id": "C135", "title": "Derived and random keys are good keys", "statement": "Where the cipher accepts any key at all, it accepts every 32 octets derived from a password and every 32 octets returned by a generator. A file encrypted with a key derived from a password is restored with the key that any other object derives from the same password, salt and number of iterations, whatever was called before.", "quantifier": "all passwords of up to 64 octets, salts, iterations, histories, ciphers, stream modes, files", "why_tests_cant": "the modules are tested separately", "anchors": ["gostcrypto/gostpbkdf/r_50_1_111_2016.py:R5011112016.derive", "gostcrypto/gostrandom/r_1323565_1_006_2017.py:R132356510062017.random", "gostcrypto/gostcipher/gost_34_12_2015.py:GOST34122015Kuznechik.__init__", "gostcrypto/gostcipher/gost_34_13_2015.py:new"]}
{"id": "C136", "title": "A signed file is verified", "statement": "If the digest of a file, computed piece by piece by the hash module, is signed, then the digest of the file computed with any other allowed buffer size is accepted by verify with the public key of the signer. With a digest of the other length (a 256-bit hash and a 512-bit curve, or conversely) sign and verify raise GOSTSignatureError and never return.", "quantifier": "all usable parameters, keys, random numbers, files, buffer sizes that follow the note", "why_tests_cant": "all files and keys; the modules are tested separately", "anchors": ["gostcrypto/gostsignature/gost_34_10_2012.py:GOST34102012.sign", "gostcrypto/gostsignature/gost_34_10_2012.py:GOST34102012.verify", "gostcrypto/gosthash/gost_34_11_2012.py:GOST34112012.digest"]}
{"id": "C137", "title": "Encrypting twice never gives the message back", "statement": "No accepted key makes encrypting the same operation as decrypting. False for Magma: for every key whose eight words of four octets read the same in both directions (the key of zeros among them) encrypting twice in ECB mode gives the message back, and at least 2^32 blocks are their own ciphertexts. Such keys are accepted; and clear leaves every Magma object with such a key.", "quantifier": "all keys of this kind, all messages of whole blocks; all objects after clear", "why_tests_cant": "needs keys of a special form and all messages", "anchors": ["gostcrypto/gostcipher/gost_34_12_2015.py:GOST34122015Magma._expand_iter_key", "gostcrypto/gostcipher/gost_34_12_2015.py:GOST34122015Magma._expand_iter_key_final", "gostcrypto/gostcipher/gost_34_12_2015.py:GOST34122015Magma.encrypt", "gostcrypto/gostcipher/gost_34_12_2015.py:GOST34122015Magma.clear", "gostcrypto/gostcipher/gost_34_13_2015.py:new"]}
{"id": "C138", "title": "Every octet of the seed counts", "statement": "Two different seeds lead to different random numbers. False for seeds of more than 63 octets: up to 198 octets only the last 63 count, so the generator answers all calls of random and clear as the one with these 63 octets as seed; with 199 octets or more it is made, but every call of random raises GOSTRandomError (the limit, a float, is 0).", "quantifier": "all seeds of 63 and more octets, all sizes of the result, all histories of random and clear", "why_tests_cant": "all seeds and histories; the limit is a float in Python", "anchors": ["gostcrypto/gostrandom/r_1323565_1_006_2017.py:R132356510062017.__init__", "gostcrypto/gostrandom/r_1323565_1_006_2017.py:R132356510062017._rand_iter", "gostcrypto/gostrandom/r_1323565_1_006_2017.py:R132356510062017.random"]}
{"id": "C139", "title": "Encryption and decryption undo each other in both orders", "statement": "In every mode, for an object in any state, encrypting m gives ct exactly when decrypting ct gives m (padded in ECB and CBC), and both calls leave the object in the same state. With padding mode 1 and in the stream modes every octet string (of whole blocks, not empty, in ECB and CBC) is a ciphertext, namely that of its own decryption. With padding mode 2 the last claim is false: no message has a ciphertext of one block.", "quantifier": "both ciphers, all modes, keys, vectors, histories, messages and ciphertexts", "why_tests_cant": "all ciphertexts, also those that were never produced by encrypt", "anchors": ["gostcrypto/gostcipher/gost_34_13_2015.py:GOST34132015ecb.decrypt", "gostcrypto/gostcipher/gost_34_13_2015.py:GOST34132015cbc.decrypt", "gostcrypto/gostcipher/gost_34_13_2015.py:GOST34132015cfb.decrypt", "gostcrypto/gostcipher/gost_34_13_2015.py:GOST34132015ofb.decrypt", "gostcrypto/gostcipher/gost_34_13_2015.py:GOST34132015ctr.decrypt", "gostcrypto/gostcipher/gost_34_13_2015.py:GOST34132015CipherPadding._set_pad_mode_2"]}
{"id": "C140", "title": "Giving up an object is silent", "statement": "No finaliser (__del__) of the library raises, whether an object was made completely and used in any way or its constructor raised half way. True for gostcipher.new (all arguments) and everything it makes, for HMAC objects and generators. False for PBKDF: if the password is not a byte string, and only then, the finaliser raises AttributeError after the constructor raised GOSTPBKDFError. False for the block cipher classes used directly with a key of fewer than 32 octets: the constructor raises IndexError and so does the finaliser.", "quantifier": "all arguments of the constructors, all objects after any calls", "why_tests_cant": "finalisers of half-made objects; their exceptions are not visible to a test", "anchors": ["gostcrypto/gostcipher/gost_34_13_2015.py:GOST34132015.__del__", "gostcrypto/gostcipher/gost_34_12_2015.py:GOST34122015Kuznechik.__del__", "gostcrypto/gostcipher/gost_34_12_2015.py:GOST34122015Magma.__del__", "gostcrypto/gosthmac/r_50_1_113_2016.py:R5011132016.__del__", "gostcrypto/gostpbkdf/r_50_1_111_2016.py:R5011112016.__del__", "gostcrypto/gostrandom/r_1323565_1_006_2017.py:R132356510062017.__del__"]}
{"id": "C141", "title": "Ciphertexts under one key say nothing about another key", "statement": "What an object with one key answers cannot be computed from what an object with another key answers. False for Magma: let key' be the key with the highest bit of every fourth octet (the first one, the fifth one, ...) complemented. Then in ECB mode the answer of an object with key' to the message complemented in the same bits is the answer of the object with key, complemented in these bits, for encrypt and for decrypt; in CBC, CFB and OFB modes with the vector complemented so, the ciphertext of the same message is the complemented ciphertext, and the complemented ciphertext is decrypted to the same message.", "quantifier": "all keys, vectors, messages of any length (whole blocks in ECB), both padding modes in CBC", "why_tests_cant": "all keys and messages", "anchors": ["gostcrypto/gostcipher/gost_34_12_2015.py:GOST34122015Magma._cipher_g", "gostcrypto/gostcipher/gost_34_12_2015.py:GOST34122015Magma._cipher_add_32", "gostcrypto/gostcipher/gost_34_12_2015.py:GOST34122015Magma.encrypt", "gostcrypto/gostcipher/gost_34_13_2015.py:GOST34132015ecb.encrypt", "gostcrypto/gostcipher/gost_34_13_2015.py:GOST34132015cbc.encrypt", "gostcrypto/gostcipher/gost_34_13_2015.py:GOST34132015cfb.encrypt", "gostcrypto/gostcipher/gost_34_13_2015.py:GOST34132015ofb.encrypt"]}
{"id": "C142", "title": "A change in one block is always noticed by the full MAC", "statement": "If two messages of the same length differ only within one block (or within the last, shorter piece), the codes digest(n) of n octets (the block size) under the same key differ, whatever the key and however the messages were split over the constructor and update. A message with an incomplete last block (or the empty message) and the same message completed by hand with 0x80 and zeros have the same full code exactly when the key maps the zero block to itself. False for shortened codes: for every key and every size below the block size there are two different one-block messages with the same digest(size).", "quantifier": "both ciphers, all keys, messages, histories and sizes", "why_tests_cant": "all keys and pairs of messages", "anchors": ["gostcrypto/gostcipher/gost_34_13_2015.py:GOST34132015mac.update", "gostcrypto/gostcipher/gost_34_13_2015.py:GOST34132015mac.digest", "gostcrypto/gostcipher/gost_34_13_2015.py:GOST34132015mac._set_pad_mode_3", "gostcrypto/gostcipher/gost_34_13_2015.py:GOST34132015mac._get_mac_key"]}
{"id": "C143", "title": "One key serves for CBC encryption and for the MAC", "statement": "One who can get messages of their choice encrypted in the CBC mode with a known one-block vector cannot compute the code of a message under the same key. False: a fixed rule asks for two encryptions (the vector itself, which gives the encryption of zero and so both MAC keys, and the message with its first block and last piece masked) and the last block of the second answer is the code of the message, for every key, vector, message and size of the code.", "quantifier": "both ciphers, all keys, one-block vectors, messages and sizes", "why_tests_cant": "all keys and messages; an adversary given as a function of the encryption", "anchors": ["gostcrypto/gostcipher/gost_34_13_2015.py:GOST34132015cbc.encrypt", "gostcrypto/gostcipher/gost_34_13_2015.py:GOST34132015mac.digest", "gostcrypto/gostcipher/gost_34_13_2015.py:new"]}
{"id": "C144", "title": "What is encrypted in one mode cannot be read through another mode with the same key", "statement": "With the same key and vector, the answers of an object in one mode do not reveal messages encrypted in another mode. False: the ciphertext of any message in the OFB mode is the message added to the CFB, or to the CBC, encryption of as many zeros, so that whoever can get zeros encrypted in CBC or CFB mode reads everything encrypted in OFB mode. The first block of a message has the same ciphertext in the CFB and OFB modes, and in CTR mode with vector h the same as in OFB mode with h followed by zeros.", "quantifier": "both ciphers, all keys, vectors of any number of blocks, messages of any length", "why_tests_cant": "all keys, vectors and messages; relation between two classes", "anchors": ["gostcrypto/gostcipher/gost_34_13_2015.py:GOST34132015ofb.encrypt", "gostcrypto/gostcipher/gost_34_13_2015.py:GOST34132015cfb.encrypt", "gostcrypto/gostcipher/gost_34_13_2015.py:GOST34132015cbc.encrypt", "gostcrypto/gostcipher/gost_34_13_2015.py:GOST34132015ctr.encrypt"]}
{"id": "C145", "title": "Generators with different seeds give different streams", "statement": "Two generators with different seeds of one size hash no common value until one of them has made 256^(63 - size of the seed) steps. With seeds of different sizes the claim is false: a seed followed by zero octets (size_s larger accordingly, at most 63) gives the same answers to all calls of random. And a generator whose register starts where another one will be after j calls repeats the other one's answers from there on: with 63 octets of seed, the next seed gives the same blocks one call later.", "quantifier": "all seeds of at most 63 octets, output sizes, numbers of calls", "why_tests_cant": "all seeds and unboundedly many calls", "anchors": ["gostcrypto/gostrandom/r_1323565_1_006_2017.py:R132356510062017.__init__", "gostcrypto/gostrandom/r_1323565_1_006_2017.py:R132356510062017._inc_rand_u", "gostcrypto/gostrandom/r_1323565_1_006_2017.py:R132356510062017._rand_iter", "gostcrypto/gostrandom/r_1323565_1_006_2017.py:R132356510062017.random"]}
{"id": "C146", "title": "Known, related and shared secret numbers disclose the private key", "statement": "If the secret number k of one signature is known, the private key modulo q is (s - ke)/r. If the secret numbers of two signatures satisfy a known linear relation k2 = u k1 + t modulo q (for example consecutive numbers), the private key is given by a fixed formula from the two signatures and digests whenever e1 r2 - u e2 r1 is invertible (for prime q: not zero). If two owners use the same secret number, each computes the key of the other from the two signatures.", "quantifier": "all parameter sets accepted by the constructor, keys, digests, secret numbers and relations", "why_tests_cant": "all keys, numbers and digests", "anchors": ["gostcrypto/gostsignature/gost_34_10_2012.py:GOST34102012.sign", "gostcrypto/gostsignature/gost_34_10_2012.py:GOST34102012._set_e"]}
{"id": "C147", "title": "Deriving a key takes one tag for every iteration and its steps say nothing about the password", "statement": "The sequence of calls, tests and line numbers of derive depends only on the length of the salt, the number of iterations and the length of the key: not on the password, its length, or earlier calls. The two further claims are false: the first tag of every block is computed twice, so that the look-ups in the tables of the hash function number 1600 for each of 2t(s+4) + (c-1)t(64) compressions for every block of 64 octets (t(n) those of a tag over n octets, s the length of the salt; c at most 0 costs as c = 1); and the positions read in the tables give the password (followed by zeros) by a fixed rule.", "quantifier": "all passwords of up to 64 octets, salts, numbers of iterations, sizes of the key and histories of the object", "why_tests_cant": "the number of steps and the positions read are not visible in results; all numbers of iterations", "anchors": ["gostcrypto/gostpbkdf/r_50_1_111_2016.py:R5011112016.derive", "gostcrypto/gostpbkdf/r_50_1_111_2016.py:R5011112016._f", "gostcrypto/gostpbkdf/r_50_1_111_2016.py:R5011112016._u_first", "gostcrypto/gostpbkdf/r_50_1_111_2016.py:R5011112016._u_iter", "gostcrypto/gostpbkdf/r_50_1_111_2016.py:R5011112016._calculate_pbkdf"]}
{"id": "C148", "title": "The steps of the generator say nothing about its seed", "statement": "The sequence of calls, tests and line numbers of random depends only on the size of the output: not on the seed, its size or the number of earlier calls. It takes 1600 look-ups in the tables of the hash function for each of 3 compressions for every block of 64 octets or part of one. False for the positions that are read in the tables: from those of any one call the register, and so the answers of all earlier and later calls, are computed by a fixed rule; from those of the first call the seed.", "quantifier": "all seeds that are not zero, sizes of seed and output, numbers of earlier calls", "why_tests_cant": "the positions read are not visible in results; all seeds and unboundedly many calls", "anchors": ["gostcrypto/gostrandom/r_1323565_1_006_2017.py:R132356510062017.random", "gostcrypto/gostrandom/r_1323565_1_006_2017.py:R132356510062017._rand_iter", "gostcrypto/gostrandom/r_1323565_1_006_2017.py:R132356510062017._inc_rand_u"]}
{"id": "C149", "title": "The steps of the modes say nothing about key and data", "statement": "For an object of gostcipher.new in one of the modes ECB, CBC, CFB, OFB, CTR (vector not empty), after any encrypt and decrypt calls, the sequence of calls, tests and line numbers of encrypt and of decrypt depends only on the algorithm, the mode, the padding method and the length of the data: not on the key, the vector, the data or the earlier calls. The number of uses of the block cipher is one for every block or part of one (ECB and CBC encryption: after padding, so at least one, and one more block with the second padding method; ECB and CBC decryption: one for every whole block). False for the positions that are read in the substitution table: with Kuznechik the whole key follows from those of any one call of encrypt with data that is not empty (also empty with ECB and CBC) or decrypt of a block or more.", "quantifier": "both ciphers, all modes, keys, vectors, data, padding methods and histories of the object", "why_tests_cant": "the positions read are not visible in results; all keys, data and lengths", "anchors": ["gostcrypto/gostcipher/gost_34_13_2015.py:GOST34132015ecb.encrypt", "gostcrypto/gostcipher/gost_34_13_2015.py:GOST34132015cbc.encrypt", "gostcrypto/gostcipher/gost_34_13_2015.py:GOST34132015cfb.encrypt", "gostcrypto/gostcipher/gost_34_13_2015.py:GOST34132015ofb.encrypt", "gostcrypto/gostcipher/gost_34_13_2015.py:GOST34132015ctr.encrypt", "gostcrypto/gostcipher/gost_34_13_2015.py:GOST34132015ecb.decrypt", "gostcrypto/gostcipher/gost_34_13_2015.py:GOST34132015cbc.decrypt", "gostcrypto/gostcipher/gost_34_13_2015.py:GOST34132015cfb.decrypt", "gostcrypto/gostcipher/gost_34_13_2015.py:GOST34132015ofb.decrypt", "gostcrypto/gostcipher/gost_34_13_2015.py:GOST34132015ctr.decrypt"]}
{"id": "C150", "title": "The steps of the MAC say nothing about key and message", "statement": "For an object of gostcipher.new in the MAC mode after any accepted calls of update and digest, the sequence of calls, tests and line numbers of update (with enough data for a block) and of digest depends only on the algorithm and the lengths of the data: not on the key or the message. The block cipher is used once when the object is made, once for every block that becomes complete, and once by every digest. The claim is false for making the object: two tests (lines 955 and 961) show the two highest bits of the encryption of the zero block, so that objects with different keys take different steps; keys that agree in these two bits take the same steps. It is false for the positions read: with Kuznechik the key is computed from those of new, of any such update and of any digest.", "quantifier": "both ciphers, all keys, messages, ways to divide them over calls, and sizes of the code", "why_tests_cant": "the steps and positions read are not visible in results; all keys and lengths", "anchors": ["gostcrypto/gostcipher/gost_34_13_2015.py:GOST34132015mac.__init__", "gostcrypto/gostcipher/gost_34_13_2015.py:GOST34132015mac.update", "gostcrypto/gostcipher/gost_34_13_2015.py:GOST34132015mac.digest", "gostcrypto/gostcipher/gost_34_13_2015.py:GOST34132015mac._get_mac_key", "gostcrypto/gostcipher/gost_34_13_2015.py:GOST34132015mac.mac_final"]}
{"id": "C151", "title": "One key serves for the MAC and for another mode", "statement": "One who gets answers of another mode (ECB, CFB, OFB) under the key of the MAC cannot compute the code of a message. False: the answers of ECB encrypt to one block, and those of CFB and OFB encrypt to one block of zeros with a chosen one-block vector, take the place of the block cipher in the definition of the code, for every key, message and size. With the CTR mode the vector of zeros gives the keys K1 and K2, and one more vector the code of a message of one block whose masked block ends in zeros.", "quantifier": "both ciphers, all keys, messages and sizes of the code", "why_tests_cant": "all keys and messages; an adversary given as a function of the encryption", "anchors": ["gostcrypto/gostcipher/gost_34_13_2015.py:GOST34132015ecb.encrypt", "gostcrypto/gostcipher/gost_34_13_2015.py:GOST34132015cfb.encrypt", "gostcrypto/gostcipher/gost_34_13_2015.py:GOST34132015ofb.encrypt", "gostcrypto/gostcipher/gost_34_13_2015.py:GOST34132015ctr.encrypt", "gostcrypto/gostcipher/gost_34_13_2015.py:GOST34132015mac.digest", "gostcrypto/gostcipher/gost_34_13_2015.py:GOST34132015mac._get_mac_key", "gostcrypto/gostcipher/gost_34_13_2015.py:new"]}
{"id": "C152", "title": "The code of a message is a fingerprint also for one who knows the key", "statement": "Nobody, not even the owner of the key, finds a second message with the full code of a given one. False: between any whole blocks u and any rest w there is exactly one block with which the message has a wanted full code, whatever the code; a fixed rule computes it with the ECB encrypt and decrypt answers.", "quantifier": "both ciphers, all keys, beginnings of whole blocks, rests and wanted codes", "why_tests_cant": "existence and uniqueness for all messages and codes", "anchors": ["gostcrypto/gostcipher/gost_34_13_2015.py:GOST34132015mac.update", "gostcrypto/gostcipher/gost_34_13_2015.py:GOST34132015mac.digest", "gostcrypto/gostcipher/gost_34_13_2015.py:GOST34132015mac._get_mac_key", "gostcrypto/gostcipher/gost_34_13_2015.py:GOST34132015ecb.decrypt"]}
{"id": "C153", "title": "Every later block of the ciphertext depends on a changed block", "statement": "If one block of the message is changed, every later block of a CBC or CFB ciphertext changes. True only for vectors of one block. With a vector of z blocks the blocks i, i+z, i+2z, ... are encrypted and decrypted (CBC, CFB, OFB) as by an object with the i-th block of the vector alone: z independent streams. The ciphertexts of two messages that differ in one block differ exactly in this block and every z-th after it.", "quantifier": "both ciphers, all keys, vectors of any number of blocks, messages of any length", "why_tests_cant": "all lengths of vectors and messages; exact set of changed blocks", "anchors": ["gostcrypto/gostcipher/gost_34_13_2015.py:GOST34132015CipherFeedBack._set_init_vect", "gostcrypto/gostcipher/gost_34_13_2015.py:GOST34132015cbc.encrypt", "gostcrypto/gostcipher/gost_34_13_2015.py:GOST34132015cbc.decrypt", "gostcrypto/gostcipher/gost_34_13_2015.py:GOST34132015cfb.encrypt", "gostcrypto/gostcipher/gost_34_13_2015.py:GOST34132015cfb.decrypt", "gostcrypto/gostcipher/gost_34_13_2015.py:GOST34132015ofb.encrypt", "gostcrypto/gostcipher/gost_34_13_2015.py:GOST34132015ofb.decrypt"]}
{"id": "C154", "title": "A piece of a ciphertext is tied to its place", "statement": "Pieces of CBC and CFB ciphertexts cannot be moved or exchanged. False: what decrypt gives for a piece, but for its first octets as many as the vector has, depends neither on the vector nor on what stands before the piece nor on its place; and the rest of a ciphertext after any whole blocks is decrypted completely by a new object with the same key whose vector consists of the last octets of vector and removed blocks. So of two ciphertexts a third one is made that begins like the first message and ends like the second.", "quantifier": "both ciphers, modes CBC and CFB, all keys, vectors of equal length, beginnings of whole blocks, pieces of any length (CBC: whole blocks)", "why_tests_cant": "all positions, lengths and contents", "anchors": ["gostcrypto/gostcipher/gost_34_13_2015.py:GOST34132015cbc.decrypt", "gostcrypto/gostcipher/gost_34_13_2015.py:GOST34132015cfb.decrypt", "gostcrypto/gostcipher/gost_34_13_2015.py:GOST34132015CipherFeedBack._set_init_vect", "gostcrypto/gostcipher/gost_34_13_2015.py:new"]}
{"id": "C155", "title": "One secret serves as password and as key of HMAC", "statement": "One who gets tags of messages of their choice under a key (HMAC over Streebog-512) cannot compute the keys that are derived from the same secret used as password, nor the other way round. False: every derived key is computed by a fixed rule that asks for c tags for every 64 octets (c the number of iterations); the tag of every message that ends in the octets 0, 0, 0, 1 and is longer is the key of 64 octets derived with the rest of the message as salt and one iteration; and the tag of such a derived key is the sum of it and the key derived with two iterations.", "quantifier": "all secrets of up to 64 octets, salts that are not empty, numbers of iterations, sizes of the key, messages", "why_tests_cant": "all secrets, salts and numbers of iterations; relation between two classes", "anchors": ["gostcrypto/gostpbkdf/r_50_1_111_2016.py:R5011112016.derive", "gostcrypto/gostpbkdf/r_50_1_111_2016.py:R5011112016._u_first", "gostcrypto/gostpbkdf/r_50_1_111_2016.py:R5011112016._u_iter", "gostcrypto/gosthmac/r_50_1_113_2016.py:R5011132016.update", "gostcrypto/gosthmac/r_50_1_113_2016.py:R5011132016.digest", "gostcrypto/gostpbkdf/r_50_1_111_2016.py:new", "gostcrypto/gosthmac/r_50_1_113_2016.py:new"]}
{"id": "C156", "title": "Signature objects change no buffer; sign erases the private key", "statement": "No call of sign, verify or public_key_generate writes to a bytearray that existed before the call (arguments, earlier results, the default of rand_k, which is one bytearray for all calls); each call ends (value, exception, no end) as it would on copies of its arguments made when it is called, also when several arguments are the same bytearray; a returned bytearray is new. The further claim that sign erases the private key, as its calls of zero_fill suggest, is false: the buffer of the private key holds the key when sign has returned or raised; zero_fill only makes a new bytearray with four octets '/x00' for every octet of the key.", "quantifier": "all signature objects, arguments of any type and aliasing, heaps, sources of random octets, sequences of calls", "why_tests_cant": "identity of buffers, aliasing between arguments, all heaps", "anchors": ["gostcrypto/gostsignature/gost_34_10_2012.py:GOST34102012.sign", "gostcrypto/gostsignature/gost_34_10_2012.py:GOST34102012.verify", "gostcrypto/gostsignature/gost_34_10_2012.py:GOST34102012.public_key_generate", "gostcrypto/gostsignature/gost_34_10_2012.py:GOST34102012._set_e", "gostcrypto/utils/utils.py:zero_fill", "gostcrypto/utils/utils.py:compare", "gostcrypto/utils/utils.py:compare_to_zero"]}
{"id": "C157", "title": "One object can be used by several threads", "statement": "If two threads call methods of one cipher object at the same time, each gets what it would get if the calls were made one after the other, in one or the other order.", "quantifier": "All pairs of calls on one object and all orders in which their statements can be interleaved; for ECB any number of threads.", "why_tests_cant": "The outcome depends on when the interpreter switches threads; a test sees a few schedules and mostly the harmless ones.", "anchors": ["gostcrypto/gostcipher/gost_34_13_2015.py:GOST34132015ecb.encrypt", "gostcrypto/gostcipher/gost_34_13_2015.py:GOST34132015ecb.decrypt", "gostcrypto/gostcipher/gost_34_13_2015.py:GOST34132015ofb.encrypt", "gostcrypto/gostcipher/gost_34_13_2015.py:GOST34132015ctr.encrypt"]}
{"id": "C158", "title": "Threads that share a generator get different numbers", "statement": "If two threads call random() of one generator at the same time, the register counts both calls, so that the two results come from different inputs of the hash function.", "quantifier": "All generators, whatever was called before, and all orders in which the statements of the two calls can be interleaved.", "why_tests_cant": "The outcome depends on when the interpreter switches threads between reading and assigning the register; a test hits this moment rarely and by chance.", "anchors": ["gostcrypto/gostrandom/r_1323565_1_006_2017.py:R132356510062017.random", "gostcrypto/gostrandom/r_1323565_1_006_2017.py:R132356510062017._rand_iter", "gostcrypto/gostrandom/r_1323565_1_006_2017.py:R132356510062017._inc_rand_u"]}
{"id": "C159", "title": "Updates of several threads all count", "statement": "If two threads call update() of one hash object at the same time, the digest afterwards is that of the data of both, in one or the other order.", "quantifier": "All hash objects, all data and all orders in which the statements of the two calls can be interleaved.", "why_tests_cant": "Data is lost only if the interpreter switches threads between reading and assigning the buffer; a test hits this moment rarely and by chance.", "anchors": ["gostcrypto/gosthash/gost_34_11_2012.py:GOST34112012.update", "gostcrypto/gosthash/gost_34_11_2012.py:GOST34112012.digest"]}
{"id": "C160", "title": "A MAC asked for during an update is that before or after the update", "statement": "If one thread asks for the MAC of a MAC object while another one updates it, it gets the MAC of the data before or after the update; updates of two threads all count; threads that only ask do not disturb each other.", "quantifier": "All MAC objects, all data and sizes, and all orders in which the statements of the calls can be interleaved.", "why_tests_cant": "The four attributes are assigned one after the other; a thread switch between two of these statements is rare and cannot be provoked by calling the API.", "anchors": ["gostcrypto/gostcipher/gost_34_13_2015.py:GOST34132015mac.update", "gostcrypto/gostcipher/gost_34_13_2015.py:GOST34132015mac.digest", "gostcrypto/gostcipher/gost_34_13_2015.py:GOST34132015mac.mac_final"]}
{"id": "C161", "title": "Threads deriving keys with one object get their own keys", "statement": "If two threads call derive() of one PBKDF object at the same time, each of them gets the key it would get alone, in particular a key of the length it asked for.", "quantifier": "All passwords, salts, iteration counts and lengths, and all orders in which the statements of the two calls can be interleaved.", "why_tests_cant": "The number of blocks and the number of the current block are attributes of the object; a test hits the switch between assigning and reading them only by chance.", "anchors": ["gostcrypto/gostpbkdf/r_50_1_111_2016.py:R5011112016.derive", "gostcrypto/gostpbkdf/r_50_1_111_2016.py:R5011112016._calculate_pbkdf", "gostcrypto/gostpbkdf/r_50_1_111_2016.py:R5011112016._f"]}
{"id": "C162", "title": "The key always enters the inner hash of HMAC", "statement": "Whatever threads do with one HMAC object, its first update hashes the inner key block before the data; the object is afterwards as after the calls one after the other.", "quantifier": "All keys, both hash functions, all data and all orders in which the statements of two calls (updates, reset) can be interleaved.", "why_tests_cant": "Whether the key is hashed is decided by reading a counter in another statement than the one that increments it; the value returned looks like any other.", "anchors": ["gostcrypto/gosthmac/r_50_1_113_2016.py:R5011132016.update", "gostcrypto/gosthmac/r_50_1_113_2016.py:R5011132016.reset", "gostcrypto/gosthmac/r_50_1_113_2016.py:R5011132016.digest"]}
{"id": "C163", "title": "What a thread encrypts in CBC or CFB it can decrypt", "statement": "If threads encrypt messages with one object of the mode CBC or CFB, each ciphertext is decrypted to its message by an object in the state in which the encryption began (directly, or after the other call); ciphertexts of different threads say no more about the messages than those of calls one after the other; the same for threads that decrypt.", "quantifier": "Both ciphers, all keys and vectors of one block, all messages of whole blocks, and all orders in which the statements of two calls can be interleaved.", "why_tests_cant": "The vector is read in one statement and replaced in another; a switch of threads between them is rare, the calls return without error, and the damage is seen only when the ciphertext is decrypted later.", "anchors": ["gostcrypto/gostcipher/gost_34_13_2015.py:GOST34132015cbc.encrypt", "gostcrypto/gostcipher/gost_34_13_2015.py:GOST34132015cbc.decrypt", "gostcrypto/gostcipher/gost_34_13_2015.py:GOST34132015cfb.encrypt", "gostcrypto/gostcipher/gost_34_13_2015.py:GOST34132015cfb.decrypt", "gostcrypto/gostcipher/gost_34_13_2015.py:GOST34132015CipherFeedBack._set_init_vect"]}
{"id": "C164", "title": "Threads with an object each do not disturb each other", "statement": "If every thread works with an object of its own, each thread gets exactly the results (values and exceptions) that its calls have alone, and leaves its object as they do, whatever the other threads do with theirs; and it ends if it gets enough turns.", "quantifier": "Any number of threads; objects of all modes, MAC, hash, HMAC, PBKDF and random objects in any states; all sequences of calls with all arguments; all orders in which the statements of the threads can be interleaved.", "why_tests_cant": "Tests run a few schedules on a few objects; a piece of state at class or module level shared by objects would show only in rare schedules.", "anchors": ["gostcrypto/gostcipher/gost_34_13_2015.py:GOST34132015ofb.decrypt", "gostcrypto/gostcipher/gost_34_13_2015.py:GOST34132015ctr.decrypt", "gostcrypto/gostcipher/gost_34_13_2015.py:GOST34132015mac.update", "gostcrypto/gosthash/gost_34_11_2012.py:GOST34112012.update", "gostcrypto/gosthmac/r_50_1_113_2016.py:R5011132016.update", "gostcrypto/gostpbkdf/r_50_1_111_2016.py:R5011112016.derive", "gostcrypto/gostrandom/r_1323565_1_006_2017.py:R132356510062017.random"]}
{"id": "C165", "title": "An object cleared during a call never encrypts under public keys", "statement": "If one thread clears an object of the mode CBC, CFB or CTR (by clear, or by a call that is refused) while another encrypts with it, the other call is refused or its ciphertext is that of the message encrypted before or after the clearing; no part of the message can be read without the key.", "quantifier": "Both ciphers, CBC, CFB and CTR, all keys, vectors of one block (half a block for CTR), messages of whole blocks (of any length for CTR), all places in the message between blocks, all ways to clear the object.", "why_tests_cant": "The call returns a ciphertext of the right length without error; that its end is encrypted under known round keys shows in no result of the call.", "anchors": ["gostcrypto/gostcipher/gost_34_13_2015.py:GOST34132015.clear", "gostcrypto/gostcipher/gost_34_13_2015.py:GOST34132015cbc.encrypt", "gostcrypto/gostcipher/gost_34_13_2015.py:GOST34132015cfb.encrypt", "gostcrypto/gostcipher/gost_34_13_2015.py:GOST34132015ctr.encrypt", "gostcrypto/gostcipher/gost_34_13_2015.py:GOST34132015Cipher.encrypt", "gostcrypto/gostcipher/gost_34_12_2015.py:GOST34122015Kuznechik.clear", "gostcrypto/gostcipher/gost_34_12_2015.py:GOST34122015Magma.clear"]}
{"id": "C166", "title": "A digest asked for during an update is that before or after the update", "statement": "If one thread asks for the digest of a hash object while another one updates it, it gets the digest of the data before or after the update; threads that only ask do not disturb each other.", "quantifier": "Both hash functions, all data already hashed, all data of the update, any number of asking threads, and all orders in which the statements of the calls can be interleaved.", "why_tests_cant": "The chaining value, the length, the checksum and the buffer are assigned one after the other, block by block; a test sees the states in between only if the interpreter happens to switch threads there.", "anchors": ["gostcrypto/gosthash/gost_34_11_2012.py:GOST34112012.update", "gostcrypto/gosthash/gost_34_11_2012.py:GOST34112012.digest", "gostcrypto/gosthash/gost_34_11_2012.py:GOST34112012.copy"]}
{"id": "C167", "title": "An authentication code asked for during an update is that before or after the update", "statement": "If one thread asks for the value of an HMAC object while another one updates it, it gets the HMAC of the data before or after the update, never a valid code of some other message; threads that only ask do not disturb each other.", "quantifier": "Both hash functions, all keys of at most 64 octets, all data already given, all data of the update, and all orders in which the statements of the calls (down to those of the hash object) can be interleaved.", "why_tests_cant": "The value obtained is a well-formed code, valid for a message that was cut off; a test sees it only if the interpreter happens to switch threads between two blocks of the update.", "anchors": ["gostcrypto/gosthmac/r_50_1_113_2016.py:R5011132016.update", "gostcrypto/gosthmac/r_50_1_113_2016.py:R5011132016.digest", "gostcrypto/gosthash/gost_34_11_2012.py:GOST34112012.update"]}
{"id": "C168", "title": "A generator that another thread clears during a call gives no more octets", "statement": "When one thread asks a generator for octets and another one clears it, the generator gives no more octets after both calls have returned, and the octets it gave are those of its seed.", "quantifier": "All sizes and seeds, everything called before, and all orders in which the statements of the two calls can be interleaved.", "why_tests_cant": "The register is checked, read and assigned in separate statements, and the wiped register is 252 known octets of which the next assignment keeps the last 63; a test sees this only if the interpreter happens to switch threads there.", "anchors": ["gostcrypto/gostrandom/r_1323565_1_006_2017.py:R132356510062017.random", "gostcrypto/gostrandom/r_1323565_1_006_2017.py:R132356510062017.clear", "gostcrypto/gostrandom/r_1323565_1_006_2017.py:R132356510062017._inc_rand_u"]}
