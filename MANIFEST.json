{
 "claims": [
  {
   "property": "C01",
   "status": "partial",
   "theorems": [
    "C01_wire_roundtrip",
    "C01_wire_roundtrip_headers_partial",
    "C01_wire_roundtrip_headers_refuted"
   ],
   "note": "Full round-trip for every message class except headers; for headers it needs transaction counts below 2^32-1, and the refuted theorem shows the failure at 2^32-1 (FtVarInteger.parse tests 0xfd twice)."
  },
  {
   "property": "C02",
   "status": "partial",
   "theorems": [
    "C02_varint_roundtrip_partial",
    "C02_varint_total",
    "C02_varint_roundtrip_refuted"
   ],
   "note": "True exactly below 2^32-1; refuted for every larger value because of the duplicated 0xfd test in FtVarInteger.parse."
  },
  {
   "property": "C03",
   "status": "partial",
   "theorems": [
    "C03_serialisable_partial",
    "C03_serialisable_refuted"
   ],
   "note": "The objects that serialise are characterised exactly; the full claim is refuted by three accepted objects that do not serialise."
  },
  {
   "property": "C04",
   "status": "partial",
   "theorems": [
    "C04_parsed_well_typed_partial",
    "C04_parsed_well_typed_refuted"
   ],
   "note": "Holds when the payload is not shorter than its fields and without array limits; the full claim is refuted (short byte strings, array limits ignored)."
  },
  {
   "property": "C05",
   "status": "proved",
   "theorems": [
    "C05_frame_integrity",
    "C05_bad_magic",
    "C05_bad_checksum",
    "C05_parse_errors"
   ],
   "note": "SHA-256 is a parameter."
  },
  {
   "property": "C06",
   "status": "proved",
   "theorems": [
    "C06_frame_length",
    "C06_short_header"
   ],
   "note": "SHA-256 is a parameter with at least 4 bytes of output."
  },
  {
   "property": "C07",
   "status": "partial",
   "theorems": [
    "C07_command_selects_class",
    "C07_unknown_command",
    "C07_opt_out_refuted",
    "C07_all_registered"
   ],
   "note": "Command selection proved; the opt-out half is refuted: _AutoRegister tests not_regist on the base class, so every class is registered."
  },
  {
   "property": "C08",
   "status": "proved",
   "theorems": [
    "C08_ip_roundtrip"
   ],
   "note": ""
  },
  {
   "property": "C09",
   "status": "partial",
   "theorems": [
    "C09_ip_validator_partial",
    "C09_ip_validator_refuted"
   ],
   "note": "Serialisable implies accepted; the converse is refuted by \"1:2\", and the validator raises on \"1:xyz\"."
  },
  {
   "property": "C10",
   "status": "partial",
   "theorems": [
    "C10_constructor_arguments_partial",
    "C10_missing_field",
    "C10_constructor_arguments_refuted"
   ],
   "note": "Proved when no surplus positional argument is given; refuted otherwise (zip drops them)."
  },
  {
   "property": "C11",
   "status": "proved",
   "theorems": [
    "C11_unambiguous"
   ],
   "note": "Under the same bound on VarInteger values as C01 (the bound holds for every class but headers)."
  },
  {
   "property": "C12",
   "status": "proved",
   "theorems": [
    "C12_txn_hash",
    "C12_header_hash"
   ],
   "note": "SHA-256 is a parameter."
  },
  {
   "property": "C13",
   "status": "proved",
   "theorems": [
    "C13_chunking",
    "C13_function_of_stream"
   ],
   "note": "All histories of events on any number of connections; the stream of one connection determines its outcomes whatever the chunking and the clock."
  },
  {
   "property": "C14",
   "status": "proved",
   "theorems": [
    "C14_frames_in_order",
    "C14_outcome",
    "C14_serialised_is_frame"
   ],
   "note": "SHA-256 is a parameter."
  },
  {
   "property": "C15",
   "status": "proved",
   "theorems": [
    "C15_outgoing_fifo",
    "C15_queued_are_messages",
    "C15_send"
   ],
   "note": ""
  },
  {
   "property": "C16",
   "status": "proved",
   "theorems": [
    "C16_counters"
   ],
   "note": "Incl. connections already closed."
  },
  {
   "property": "C17",
   "status": "proved",
   "theorems": [
    "C17_buffer_bound",
    "C17_buffer_bound_tight"
   ],
   "note": "The bound is 2^32+22 bytes, and it is tight (theorem C17_buffer_bound_tight)."
  },
  {
   "property": "C18",
   "status": "partial",
   "theorems": [
    "C18_ping_spacing",
    "C18_poll",
    "C18_close_refuted"
   ],
   "note": "Ping spacing and the exact poll behaviour are proved; \"received nothing for 3 hours is closed\" is refuted for a connection that never received anything."
  },
  {
   "property": "C19",
   "status": "proved",
   "theorems": [
    "C19_score_range",
    "C19_punish",
    "C19_heartbeat",
    "C19_other_events"
   ],
   "note": ""
  },
  {
   "property": "C20",
   "status": "partial",
   "theorems": [
    "C20_banned_refused_refuted",
    "C20_never_refused_refuted"
   ],
   "note": "Refuted: bans are stored under the ip and looked up under (ip, port), so no incoming connection is ever refused."
  },
  {
   "property": "C21",
   "status": "partial",
   "theorems": [
    "C21_book_bound_partial",
    "C21_book_bound_refuted"
   ],
   "note": "2501 is proved as the bound; 2500 is refuted by a history."
  },
  {
   "property": "C22",
   "status": "partial",
   "theorems": [
    "C22_reply_partial",
    "C22_reply_exists_partial",
    "C22_python3_refuted",
    "C22_hostname_refuted"
   ],
   "note": "Python 2: contents, order and size proved; an entry that is not an IP address blocks every reply. Python 3: refuted, TypeError on every getaddr."
  },
  {
   "property": "C23",
   "status": "proved",
   "theorems": [
    "C23_plurality"
   ],
   "note": ""
  },
  {
   "property": "C24",
   "status": "partial",
   "theorems": [
    "C24_heartbeat_budget",
    "C24_add_peer_budget",
    "C24_no_duplicate_dial",
    "C24_no_duplicate_refuted"
   ],
   "note": "Budgets proved for all states; dialling never duplicates an open address; refuted for incoming connections (no check)."
  },
  {
   "property": "C25",
   "status": "proved",
   "theorems": [
    "C25_when",
    "C25_only",
    "C25_heartbeat_rate"
   ],
   "note": ""
  },
  {
   "property": "C26",
   "status": "proved",
   "theorems": [
    "C26_ping",
    "C26_version",
    "C26_only_replies",
    "C26_no_handler"
   ],
   "note": "Replies to one complete frame; C13 extends them to all chunkings."
  },
  {
   "property": "C27",
   "status": "proved",
   "theorems": [
    "C27_decode_encode",
    "C27_encode_decode",
    "C27_other_characters",
    "C27_leading_zeros"
   ],
   "note": ""
  },
  {
   "property": "C28",
   "status": "proved",
   "theorems": [
    "C28_roundtrip",
    "C28_accepts_only",
    "C28_outcome"
   ],
   "note": "SHA-256 is a parameter with 32-byte output."
  },
  {
   "property": "C29",
   "status": "partial",
   "theorems": [
    "C29_wif_roundtrip",
    "C29_wif_accepts_only",
    "C29_wif_rejects_partial",
    "C29_bad_checksum_refuted",
    "C29_bad_characters",
    "C29_empty_payload_refuted"
   ],
   "note": "Round trips, leading characters and \"nothing else is accepted\" are proved; \"every other input raises ValueError\" is refuted: a bad checksum is a TypeError and an empty payload an IndexError."
  },
  {
   "property": "C30",
   "status": "proved",
   "theorems": [
    "C30_address_decodes",
    "C30_address_injective",
    "C30_vcn_recoverable"
   ],
   "note": "SHA-256, SHA-512 and RIPEMD-160 are parameters; versions of equal length (injectivity)."
  },
  {
   "property": "C31",
   "status": "partial",
   "theorems": [
    "C31_round_trip_partial",
    "C31_round_trip_fails",
    "C31_round_trip_refuted",
    "C31_sound",
    "C31_accepts",
    "C31_compressed"
   ],
   "note": "The round trip holds exactly if p - y < n or y is a square modulo p; refuted by the point with y = 6, whose compressed key is refused. Only texts of curve points are accepted."
  },
  {
   "property": "C32",
   "status": "partial",
   "theorems": [
    "C32_sign_verify_partial",
    "C32_ecc_sign_partial",
    "C32_sign_verify_refuted",
    "C32_accepted",
    "C32_address_partial",
    "C32_hd_partial"
   ],
   "note": "Proved for every key, message and nonce: the signature is accepted under each text of the public key exactly if x(kG) < n (r is not reduced modulo n). Refuted: for each message there are a key and a nonce with x(kG) = n + 2. Also proved for addresses and HD wallets, and for the watch-only wallet of the same key. SHA-256 is a parameter."
  },
  {
   "property": "C33",
   "status": "partial",
   "theorems": [
    "C33_boolean_partial",
    "C33_accepts",
    "C33_keys",
    "C33_lengths",
    "C33_boolean_refuted"
   ],
   "note": "True is answered exactly for valid signatures, whatever the byte strings. Refuted: IndexError, SquareRootError and TypeError escape (empty key, x = 5, empty signature, point at infinity)."
  },
  {
   "property": "C34",
   "status": "partial",
   "theorems": [
    "C34_two_values_partial",
    "C34_malleable",
    "C34_negated",
    "C34_unique_refuted"
   ],
   "note": "Refuted: for each accepted signature another byte string is accepted, and (r, n - s) always is. Proved: with the same r >= p - n only s and n - s are accepted."
  },
  {
   "property": "C35",
   "status": "partial",
   "theorems": [
    "C35_der_partial",
    "C35_der_refuted"
   ],
   "note": "Proved for r, s below 2^1015, which covers every supported curve; refuted above (the encoder writes a short-form length byte of 128)."
  },
  {
   "property": "C36",
   "status": "partial",
   "theorems": [
    "C36_length",
    "C36_integer_partial",
    "C36_integer_refuted",
    "C36_octet_string",
    "C36_bitstring",
    "C36_sequence",
    "C36_constructed",
    "C36_constructed_large",
    "C36_number",
    "C36_object_identifier",
    "C36_object_identifier_refused"
   ],
   "note": "Proved for lengths below 256^127 and integers below 2^1015; refuted for integers of 128 bytes and more."
  },
  {
   "property": "C37",
   "status": "proved",
   "theorems": [
    "C37_parameters",
    "C37_verifying_key_string",
    "C37_verifying_key_string_back",
    "C37_verifying_key_der",
    "C37_signing_key_string",
    "C37_signing_key_der",
    "C37_signing_key"
   ],
   "note": "All six curves; their parameters are proved (C37_parameters, C125). A key object exists exactly when the coordinates of its point are below the order (C37_signing_key). PEM: see C86."
  },
  {
   "property": "C38",
   "status": "proved",
   "theorems": [
    "C38_decrypt_encrypt",
    "C38_encrypt_decrypt",
    "C38_wrong_length"
   ],
   "note": "Python 2 and 3."
  },
  {
   "property": "C39",
   "status": "proved",
   "theorems": [
    "C39_encrypt_fips197",
    "C39_decrypt_fips197"
   ],
   "note": "Specification: AesSpec.v, transcribed from FIPS-197; the appendix C vectors are checked."
  },
  {
   "property": "C40",
   "status": "partial",
   "theorems": [
    "C40_modes_roundtrip",
    "C40_long_segments_refuted"
   ],
   "note": "Proved for all five modes, any calls and any re-cutting of the ciphertext, CFB segments up to 16 bytes. Refuted for longer CFB segments, which the constructor accepts and whose tail is lost."
  },
  {
   "property": "C41",
   "status": "partial",
   "theorems": [
    "C41_passphrases_refuted",
    "C41_passphrases_partial"
   ],
   "note": "Refuted: passphrases sharing 16 bytes or differing in trailing NULs are one key. Proved for passphrases of at most 16 bytes without trailing NUL."
  },
  {
   "property": "C42",
   "status": "partial",
   "theorems": [
    "C42_private",
    "C42_watch_only_partial",
    "C42_compressed_watch_only_lost",
    "C42_both_keys",
    "C42_refuted"
   ],
   "note": "Proved for addresses with a private key, with and without passphrase, through the text of the file. Watch-only: proved for uncompressed keys; refuted for compressed ones, which come back uncompressed with another address."
  },
  {
   "property": "C43",
   "status": "partial",
   "theorems": [
    "C43_private",
    "C43_watch_only_partial",
    "C43_refuted"
   ],
   "note": "Proved for private wallets, with and without passphrase. Watch-only: proved exactly for keys whose compressed text can be read; refuted by the point with y = 6."
  },
  {
   "property": "C44",
   "status": "proved",
   "theorems": [
    "C44_paths",
    "C44_same_public",
    "C44_public_key"
   ],
   "note": "For paths of any length: both derivations fail alike or give wallets that belong together, with the same public key and, for the same draw of the virtual chain number, the same address."
  },
  {
   "property": "C45",
   "status": "proved",
   "theorems": [
    "C45_verdict",
    "C45_hardened",
    "C45_index",
    "C45_depth",
    "C45_path_length"
   ],
   "note": "C45_verdict tells for every index, and every wallet whose key is in range or a point of the curve, which exception is raised."
  },
  {
   "property": "C46",
   "status": "partial",
   "theorems": [
    "C46_public_text_partial",
    "C46_private_text_partial",
    "C46_determines_partial",
    "C46_never_reads",
    "C46_never_reads_even_if",
    "C46_refuted"
   ],
   "note": "to_extended_key gives the layout of BIP-32 for private and watch-only wallets and determines them. Refuted: from_extended_key always raises TypeError."
  },
  {
   "property": "C47",
   "status": "partial",
   "theorems": [
    "C47_all_but_vcn_partial",
    "C47_master_partial",
    "C47_addresses_differ",
    "C47_refuted"
   ],
   "note": "Refuted: each derivation draws a new virtual chain number, and different draws give different addresses (for every wallet and path). Proved: everything else is a function of seed and path."
  },
  {
   "property": "C48",
   "status": "partial",
   "theorems": [
    "C48_crash_partial",
    "C48_lost",
    "C48_refuted",
    "C48_truncated"
   ],
   "note": "Refuted: after a crash the file can be cut anywhere, and a cut file never loads. Proved: the file is the old one, or loads the new wallet, or is refused with ValueError whatever the passphrase."
  },
  {
   "property": "C49",
   "status": "partial",
   "theorems": [
    "C49_whole_partial",
    "C49_number_refuted",
    "C49_ignored_bytes_refuted",
    "C49_address_partial",
    "C49_hd_refuted"
   ],
   "note": "Refuted for HD wallets by a concrete passphrase that loads another key (no check value is stored), and for passphrases that agree in the first 16 bytes. Proved for addresses: the loaded WIF text passes its checksum, so a wrong key needs a collision of the 4-byte checksum; whatever is loaded, by an address or an HD wallet, is the whole text that was decrypted (C49_whole_partial), except that a file with the private key 0 and an integer as public key is read as that integer (C49_number_refuted)."
  },
  {
   "property": "C50",
   "status": "partial",
   "theorems": [
    "C50_split_combine",
    "C50_exact",
    "C50_partial",
    "C50_refuted",
    "C50_python3_refuted",
    "C50_order",
    "C50_sum",
    "C50_public"
   ],
   "note": "Proved for Python 2: a split succeeds exactly when every draw does, gives max(1,count) shares, and all of them in any order combine to the number modulo the order (C50_split_combine); the text comes back exactly when it is the uncompressed text of a number below the order (C50_exact, C50_partial). Combining is independent of the order, gives the text of the sum, and public points add up. Refuted: compressed texts and numbers not below the order do not come back (C50_refuted); on Python 3 every split raises NameError (C50_python3_refuted)."
  },
  {
   "property": "C51",
   "status": "partial",
   "theorems": [
    "C51_exact",
    "C51_fewer",
    "C51_partial",
    "C51_refuted",
    "C51_python3_refuted",
    "C51_succeeds",
    "C51_equal_shares_refuted",
    "C51_mixed"
   ],
   "note": "Exact condition for any choice of groups (C51_exact); fewer than `required` groups never give the key (C51_fewer); any `required` groups do when required is 1, total-1 or total and the shares of each split differ (C51_partial). Refuted: for every other `required` there are `required` groups that give None (C51_refuted); equal shares make the key unrecoverable (C51_equal_shares_refuted); Python 3 raises NameError. C51_succeeds: when the split succeeds. C51_mixed: a key of another set is refused, or left out with ignore_errors."
  },
  {
   "property": "C52",
   "status": "partial",
   "theorems": [
    "C52_exact",
    "C52_order",
    "C52_partial",
    "C52_refuted",
    "C52_python3_refuted"
   ],
   "note": "Exact condition (C52_exact): the code is read back exactly when required is 3 or 4 modulo 5 and no index in the group exceeds required; C52_partial: all groups when also required >= total-1. Refuted otherwise: TypeError for the padding or another set of keys (C52_refuted); Python 3 never answers."
  },
  {
   "property": "C53",
   "status": "partial",
   "theorems": [
    "C53_merkle_root",
    "C53_merkle_empty",
    "C53_merkle_injective_partial",
    "C53_merkle_injective_refuted"
   ],
   "note": "The computed root is the protocol root and is injective for lists of equal length up to collisions; injectivity across lengths is refuted (CVE-2012-2459 duplication)."
  },
  {
   "property": "C54",
   "status": "partial",
   "theorems": [
    "C54_verify_target_partial",
    "C54_large",
    "C54_verify_target_refuted",
    "C54_no_coin_refuted",
    "C54_python3_refuted"
   ],
   "note": "Proved on Python 2 for every nBits, all exponents, with a target below 2^256 (C54_verify_target_partial); C54_large gives the exact behaviour above. Refuted: targets above 2^256 (C54_verify_target_refuted), Python 3 (C54_python3_refuted), and the library's own coin, which defines no proof_of_work (C54_no_coin_refuted)."
  },
  {
   "property": "C55",
   "status": "proved",
   "theorems": [
    "C55_get_make",
    "C55_make_get",
    "C55_make_domain"
   ],
   "note": ""
  },
  {
   "property": "C56",
   "status": "proved",
   "theorems": [
    "C56_inverse_mod"
   ],
   "note": ""
  },
  {
   "property": "C57",
   "status": "proved",
   "theorems": [
    "C57_square_root"
   ],
   "note": "For every prime p, including p = 2 and all three residue classes; the result is also in [0,p)."
  },
  {
   "property": "C58",
   "status": "proved",
   "theorems": [
    "C58_legendre",
    "C58_jacobi",
    "C58_total"
   ],
   "note": "Legendre symbol for odd primes, product over the prime factors for odd composites, AssertionError for n < 3 or even. Quadratic reciprocity is proved from scratch (Recip.v)."
  },
  {
   "property": "C59",
   "status": "partial",
   "theorems": [
    "C59_scalar_multiplication_partial",
    "C59_sum_is_a_function",
    "C59_doubling_and_addition",
    "C59_negative_multiplier_refuted",
    "C59_result_not_reduced_refuted"
   ],
   "note": "For every point of secp256k1, ec_add and doubling never raise and give the chord-and-tangent sum of EcSpec.v (plain modular equations, shown to be a function). P*e is the e-fold sum for every integer e when the point carries the order n, and for points without an order when 0<=e<2n-2 or e>=0 with e<>-1 mod n. Refuted in general: a point without an order times a negative number is an AssertionError, and P*(4n-1) is returned with a negative y coordinate, unequal to -P computed otherwise."
  },
  {
   "property": "C60",
   "status": "proved",
   "theorems": [
    "C60_group",
    "C60_order",
    "C60_multiples_distinct",
    "C60_cyclic",
    "C60_point_is_valid"
   ],
   "note": "Commutative group, neutral element, inverses; n is prime and nP=INFINITY for every point; every point is exactly one multiple kG, 0<=k<n; point_is_valid never raises and accepts exactly the curve points with coordinates below n. The parameters (p, n prime, no point of order two, nG=INFINITY) are proved from Pocklington certificates and computation checked by the kernel, without axioms."
  },
  {
   "property": "C61",
   "status": "proved",
   "theorems": [
    "C61_randrange",
    "C61_randrange_gives_up",
    "C61_randrange_uniform",
    "C61_overshoot_modulo",
    "C61_generate_k"
   ],
   "note": "Also: the first acceptable candidate is returned, and each value has exactly one preimage."
  },
  {
   "property": "C62",
   "status": "partial",
   "theorems": [
    "C62_padding_python2",
    "C62_padding_shape",
    "C62_padding_python3_refuted",
    "C62_feeders_python2",
    "C62_finished",
    "C62_feeders_python3_refuted"
   ],
   "note": "Python 2: padding and feeders for every mode proved for all chunkings. Python 3: refuted, TypeError on any data."
  },
  {
   "property": "C63",
   "status": "proved",
   "theorems": [
    "C63_alert_reads",
    "C63_alert_malformed_refuted"
   ],
   "note": "For payloads that follow the protocol layout; the malformed-payload theorem documents the cache defect."
  },
  {
   "property": "C64",
   "status": "partial",
   "theorems": [
    "C64_outpoint_eq_refuted",
    "C64_outpoint_eq_partial"
   ],
   "note": "Refuted: comparing outpoints with equal hashes raises NameError; correct for different hashes."
  },
  {
   "property": "C65",
   "status": "proved",
   "theorems": [
    "C65_encoding",
    "C65_rejected",
    "C65_inverse",
    "C65_string_signature"
   ],
   "note": ""
  },
  {
   "property": "C66",
   "status": "partial",
   "theorems": [
    "C66_hex_roundtrip",
    "C66_hex_inverse",
    "C66_hex_accepts",
    "C66_python3_refuted"
   ],
   "note": "Python 2: round trip both ways and the exact set of accepted texts. Refuted on Python 3, where both functions raise AttributeError (C66_python3_refuted)."
  },
  {
   "property": "C67",
   "status": "proved",
   "theorems": [
    "C67_block_header"
   ],
   "note": ""
  },
  {
   "property": "C68",
   "status": "proved",
   "theorems": [
    "C68_modes_sp800_38a",
    "C68_refused"
   ],
   "note": "Specification: ModesSpec.v, from SP 800-38A."
  },
  {
   "property": "C69",
   "status": "proved",
   "theorems": [
    "C69_ctr_keystream",
    "C69_ctr_blocks_distinct"
   ],
   "note": ""
  },
  {
   "property": "C70",
   "status": "partial",
   "theorems": [
    "C70_keys_python2",
    "C70_keys_python3_partial",
    "C70_keys_python3_refuted",
    "C70_other_keys"
   ],
   "note": "Python 2 proved; Python 3 refuted: a 32-byte key is a TypeError (range of a float)."
  },
  {
   "property": "C71",
   "status": "proved",
   "theorems": [
    "C71_wallet_encrypt",
    "C71_wallet_roundtrip"
   ],
   "note": "Python 3, passphrase of type bytes."
  },
  {
   "property": "C72",
   "status": "partial",
   "theorems": [
    "C72_low_s_partial",
    "C72_low_s_refuted"
   ],
   "note": "Refuted: order/2 is a float on Python 3, so secp256k1 values of s just above the half are kept. Proved up to the rounding error, exact for orders below 2^53."
  },
  {
   "property": "C73",
   "status": "partial",
   "theorems": [
    "C73_python2",
    "C73_python3_partial",
    "C73_python3_first_partial",
    "C73_unique",
    "C73_python3_refuted"
   ],
   "note": "Python 2 proved, specification in Rfc6979Spec.v. Python 3: proved when the float bound causes no extra HMAC turn, and whenever the first candidate is acceptable; refuted for retries otherwise."
  },
  {
   "property": "C74",
   "status": "partial",
   "theorems": [
    "C74_address_texts_partial",
    "C74_address_texts_refuted"
   ],
   "note": "Specification: WireSpec.v. Proved for every standard dotted quad and full or compressed text except '::' alone, which is refused."
  },
  {
   "property": "C75",
   "status": "partial",
   "theorems": [
    "C75_layout_partial",
    "C75_layout_refuted",
    "C75_understood"
   ],
   "note": "Specification: WireSpec.v. Layout and parsing proved for all 21 commands; sizes 65535 and 2^32-1 are not written in the shortest form (refuted for those), and nine-byte sizes are not read."
  },
  {
   "property": "C76",
   "status": "partial",
   "theorems": [
    "C76_strict_partial",
    "C76_strict_complete",
    "C76_trailing_bytes",
    "C76_strict_refuted",
    "C76_length_octets",
    "C76_liberal"
   ],
   "note": "Exact set of accepted strings proved for both decoders; trailing bytes and negative numbers are refused by the strict one. Refuted: missing bytes at the end of the sequence or of the last integer go unnoticed."
  },
  {
   "property": "C77",
   "status": "proved",
   "theorems": [
    "C77_shared_secret",
    "C77_wif",
    "C77_verdict"
   ],
   "note": "SHA-256 (in the WIF check) is a parameter; WIF private keys and both key texts. C77_verdict tells for all byte strings when there is a secret and which exceptions there are otherwise."
  },
  {
   "property": "C78",
   "status": "proved",
   "theorems": [
    "C78_private",
    "C78_watch_only"
   ],
   "note": "For private and watch-only wallets of depth below 255, from the two derivation functions of BIP-32; HMAC-SHA512, SHA-256 and RIPEMD-160 are parameters."
  },
  {
   "property": "C79",
   "status": "partial",
   "theorems": [
    "C79_private",
    "C79_same",
    "C79_watch_only_partial",
    "C79_watch_only_fails",
    "C79_refuted"
   ],
   "note": "Proved for addresses with a private key; for watch-only ones exactly if p - y < n or y is a square. Refuted: otherwise compress raises ValueError."
  },
  {
   "property": "C80",
   "status": "proved",
   "theorems": [
    "C80_generate",
    "C80_range"
   ],
   "note": ""
  },
  {
   "property": "C81",
   "status": "partial",
   "theorems": [
    "C81_refuted",
    "C81_compressed_partial",
    "C81_lengths_partial"
   ],
   "note": "Refuted: 65 bytes beginning with 4 are not checked. Proved for compressed keys."
  },
  {
   "property": "C82",
   "status": "partial",
   "theorems": [
    "C82_never_answers",
    "C82_python3",
    "C82_python2"
   ],
   "note": "Refuted: get_address never returns (C82_never_answers); Python 3 rejects every public key with ValueError (C82_python3), Python 2 raises TypeError for every valid pair of keys (C82_python2)."
  },
  {
   "property": "C83",
   "status": "proved",
   "theorems": [
    "C83_missing_share"
   ],
   "note": "C83_missing_share: exact, for each share that may be missing."
  },
  {
   "property": "C84",
   "status": "proved",
   "theorems": [
    "C84_shape",
    "C84_refused"
   ],
   "note": "C84_shape (Python 2, where the function works at all; texts have 60 characters). C84_refused: required > total raises ValueError."
  },
  {
   "property": "C85",
   "status": "proved",
   "theorems": [
    "C85_get_coin"
   ],
   "note": "Exact characterisation; letters are ASCII letters (no other character maps to a letter of the name or symbol)."
  },
  {
   "property": "C86",
   "status": "proved",
   "theorems": [
    "C86_shape",
    "C86_armour",
    "C86_layout",
    "C86_verifying_key",
    "C86_signing_key",
    "C86_no_private_key"
   ],
   "note": "PEM layer proved for all byte strings and layouts; keys for all six curves. base64 of the standard library is modelled, including the characters it skips."
  },
  {
   "property": "C87",
   "status": "partial",
   "theorems": [
    "C87_codecs",
    "C87_sign_verify_partial",
    "C87_refused",
    "C87_verify_exact",
    "C87_sign_verify_refuted"
   ],
   "note": "Exact behaviour on all six curves with all six encodings (C87_codecs). Refuted as stated: signatures whose nonce point has x >= order are refused by the key's own verifying key (C87_sign_verify_refuted)."
  },
  {
   "property": "C88",
   "status": "partial",
   "theorems": [
    "C88_deterministic",
    "C88_first_candidate",
    "C88_verify_partial"
   ],
   "note": "Equal to the RFC 6979 signature on Python 2 and, where the interpreters make the same number of HMAC turns or the first candidate is acceptable, on Python 3 (see C73). Verification as in C87. All six curves."
  },
  {
   "property": "C89",
   "status": "proved",
   "theorems": [
    "C89_generate",
    "C89_refused"
   ],
   "note": "Both outcomes, exactly, for all six curves."
  },
  {
   "property": "C90",
   "status": "proved",
   "theorems": [
    "C90_gcd",
    "C90_lcm",
    "C90_power"
   ],
   "note": "gcd divides and is divided by every common divisor; its sign is that of the arguments if none is negative (gcd(-4, 6) is -2, see C90_case). lcm for lists without zero, since lcm(0, 0) raises ZeroDivisionError."
  },
  {
   "property": "C91",
   "status": "partial",
   "theorems": [
    "C91_answers",
    "C91_prime_accepted",
    "C91_small_exact",
    "C91_miller_rabin",
    "C91_bases",
    "C91_composite_refuted"
   ],
   "note": "Refuted: a 261-bit product of three certified primes is accepted (C91_composite_refuted), since 12 fixed bases are used. Proved: always answers, accepts every prime, is exact up to 1229, and above accepts exactly the strong pseudoprimes to the bases tried (C91_miller_rabin). The float logarithm is a parameter; the refutation assumes only that it is between 250 and 300 for this number."
  },
  {
   "property": "C92",
   "status": "partial",
   "theorems": [
    "C92_first_accepted",
    "C92_next_prime_partial",
    "C92_next_prime_refuted"
   ],
   "note": "Proved: always ends and returns the first number above v accepted by is_prime, skipping no prime (C92_first_accepted); exact below 1229. Refuted just below the composite of C91."
  },
  {
   "property": "C93",
   "status": "partial",
   "theorems": [
    "C93_product",
    "C93_below_two",
    "C93_prime_factors_partial",
    "C93_prime_factors_refuted"
   ],
   "note": "Proved for every n: increasing order, product n, each factor prime or above 1229 and accepted by is_prime (C93_product); exact for every n on whose divisors is_prime makes no mistake. Refuted for the composite of C91."
  },
  {
   "property": "C94",
   "status": "partial",
   "theorems": [
    "C94_totient_partial",
    "C94_totient_refuted"
   ],
   "note": "Exact for every n on whose divisors is_prime makes no mistake; refuted for the composite of C91."
  },
  {
   "property": "C95",
   "status": "partial",
   "theorems": [
    "C95_carmichael_partial",
    "C95_carmichael_refuted"
   ],
   "note": "Exact, and a divisor of every universal exponent, for every n on whose divisors is_prime makes no mistake; refuted for the composite of C91."
  },
  {
   "property": "C96",
   "status": "partial",
   "theorems": [
    "C96_order_partial",
    "C96_order_refuted",
    "C96_refused",
    "C96_coprime_factor",
    "C96_kinda_order_partial"
   ],
   "note": "order_mod exact for non-negative x not congruent to 1 (or below m); refuted: order_mod(8, 7) is 2, and coprime negative x raise AssertionError (C96_refused). largest_factor_relatively_prime proved in full."
  },
  {
   "property": "C97",
   "status": "partial",
   "theorems": [
    "C97_mapping",
    "C97_free_port_partial",
    "C97_free_port_refuted",
    "C97_when",
    "C97_platform_refuted"
   ],
   "note": "Exact effect of a call (C97_mapping). A port in range if one from the given up is free; refuted: 65536 is mapped otherwise (C97_free_port_refuted), and on every platform but darwin the call raises NameError (C97_platform_refuted)."
  },
  {
   "property": "C98",
   "status": "partial",
   "theorems": [
    "C98_serves_partial",
    "C98_serves_refuted",
    "C98_mappings_refuted"
   ],
   "note": "Proved where the library is present or the node does not listen, and for the mappings if the port was free. Refuted: other platforms never serve (C98_serves_refuted); if the port was taken, the other host's mapping is removed and ours is left (C98_mappings_refuted)."
  },
  {
   "property": "C99",
   "status": "partial",
   "theorems": [
    "C99_no_loss",
    "C99_pop",
    "C99_any_address",
    "C99_one_consumer",
    "C99_two_consumers_refuted"
   ],
   "note": "All schedules of sections under the lock: no loss, no repetition; pop exact. That len > 0 guarantees pop holds for one consumer and is refuted for two (C99_two_consumers_refuted)."
  },
  {
   "property": "C100",
   "status": "proved",
   "theorems": [
    "C100_guess",
    "C100_one_entry",
    "C100_negative"
   ],
   "note": "Times are integers; thread start-up time is not counted. Sources with different names give one entry each (C100_one_entry)."
  },
  {
   "property": "C101",
   "status": "partial",
   "theorems": [
    "C101_json_partial",
    "C101_otherwise",
    "C101_json_refuted",
    "C101_number",
    "C101_unreachable"
   ],
   "note": "Exact set of answers: paths through objects only. Refuted for paths through arrays, which give None (C101_json_refuted), and connection errors, which one function passes on (C101_unreachable). json.loads is a parameter."
  },
  {
   "property": "C102",
   "status": "proved",
   "theorems": [
    "C102_commify"
   ],
   "note": "Reading the digits without the commas gives the absolute value back."
  },
  {
   "property": "C103",
   "status": "partial",
   "theorems": [
    "C103_version_first_partial",
    "C103_first_bytes_partial",
    "C103_hostname_refuted"
   ],
   "note": "Proved for every history whose dialled and accepted addresses are IP texts with ports, with a clock below 2^32 seconds and a configuration that fits its fields - as shipped. Refuted otherwise: a peer dialled by host name stays open without a version message (C103_hostname_refuted)."
  },
  {
   "property": "C104",
   "status": "partial",
   "theorems": [
    "C104_listening_partial",
    "C104_accepts_partial",
    "C104_addresses_partial",
    "C104_own_address_refuted",
    "C104_clock_refuted"
   ],
   "note": "Proved in the same surroundings, with acceptance of every later connection and the serialisability of all learned addresses. Refuted: a node bound to '', 'localhost' or '::' stops listening at the first connection (C104_own_address_refuted), and so does every node from 2106 on (C104_clock_refuted)."
  },
  {
   "property": "C105",
   "status": "partial",
   "theorems": [
    "C105_built",
    "C105_received",
    "C105_send_partial",
    "C105_handle_partial",
    "C105_quiet",
    "C105_received_partial",
    "C105_locators_refuted",
    "C105_level_refuted",
    "C105_raises"
   ],
   "note": "Exact condition for every built or received message and level (C105_built, C105_received); equal effects under it, and always for twelve commands (C105_quiet). Refuted: no getblocks or getheaders message can be sent at level PROTOCOL (C105_locators_refuted); alerts naming versions, blocks with fractional timestamps (C105_level_refuted)."
  },
  {
   "property": "C106",
   "status": "partial",
   "theorems": [
    "C106_serialisable",
    "C106_relay_partial",
    "C106_version_refuted",
    "C106_count_refuted"
   ],
   "note": "Serialisable: every received message. Same fields: every class but version, payloads not shorter than their fields. Refuted for version messages without the relay byte (True becomes 1) and header counts of 2^32-1."
  },
  {
   "property": "C107",
   "status": "partial",
   "theorems": [
    "C107_texts",
    "C107_trytryagain",
    "C107_range",
    "C107_ends",
    "C107_overshoot",
    "C107_uniform",
    "C107_truncate_refuted",
    "C107_truncate_python2_refuted",
    "C107_truncate_bytes_partial"
   ],
   "note": "Range, exact result, termination and uniformity of the try-again method and result of the overshoot method, for any SHA-256 of 32 bytes; int(math.log(order-1, 2)+1) is a parameter. Refuted for the truncating methods: TypeError on every input on Python 3 (C107_truncate_refuted), assertion failures and unreached numbers on Python 2."
  },
  {
   "property": "C108",
   "status": "partial",
   "theorems": [
    "C108_txn",
    "C108_txn_partial",
    "C108_header",
    "C108_long_form_refuted",
    "C108_shortest_refuted"
   ],
   "note": "Headers: always (C108_header). Transactions: exactly for encodings with the library's own form of sizes (C108_txn), hence for shortest sizes other than 65535 and 2^32-1; refuted for longer forms and for a script of 65535 bytes."
  },
  {
   "property": "C109",
   "status": "proved",
   "theorems": [
    "C109_agree"
   ],
   "note": "For every block whose message can be serialised."
  },
  {
   "property": "C110",
   "status": "proved",
   "theorems": [
    "C110_nearest",
    "C110_errors",
    "C110_order"
   ],
   "note": "Every non-negative bits: nearest double (ties to even), exact error conditions, order."
  },
  {
   "property": "C111",
   "status": "proved",
   "theorems": [
    "C111_dialogue",
    "C111_counts",
    "C111_kinds"
   ],
   "note": "Every history, no hypothesis for the dialogue; the counts assume the application itself sends no verack, pong or addr."
  },
  {
   "property": "C112",
   "status": "proved",
   "theorems": [
    "C112_details"
   ],
   "note": "Every history of byte chunks."
  },
  {
   "property": "C113",
   "status": "proved",
   "theorems": [
    "C113_known"
   ],
   "note": "Every history."
  },
  {
   "property": "C114",
   "status": "proved",
   "theorems": [
    "C114_silent",
    "C114_closed",
    "C114_numbered",
    "C114_after_connect"
   ],
   "note": "Every history. Bytes may still be queued on a closed connection, by the application only; they are never sent."
  },
  {
   "property": "C115",
   "status": "proved",
   "theorems": [
    "C115_reason"
   ],
   "note": "Every history and every random choice."
  },
  {
   "property": "C116",
   "status": "partial",
   "theorems": [
    "C116_once_refuted",
    "C116_once_partial"
   ],
   "note": "Refuted: when the peer closes its end, handle_close runs twice (asyncore's recv and handle_read). Proved for every history without that and without punish_peer: exactly once."
  },
  {
   "property": "C117",
   "status": "partial",
   "theorems": [
    "C117_time_refuted",
    "C117_recorded_partial"
   ],
   "note": "Refuted for the time: Connection.timestamp is the age of the last reception, so that peers are recorded as heard in 1970. Proved otherwise."
  },
  {
   "property": "C118",
   "status": "proved",
   "theorems": [
    "C118_encoding",
    "C118_negative",
    "C118_decoding",
    "C118_back",
    "C118_again",
    "C118_digest",
    "C118_twos_complement",
    "C118_no_bits"
   ],
   "note": "All integers and byte strings; int_to_string(string_to_int(s)) = s exactly for strings without a leading zero byte."
  },
  {
   "property": "C119",
   "status": "proved",
   "theorems": [
    "C119_entries",
    "C119_peers"
   ],
   "note": "Every history; descriptors are any numbers not in use when handed out."
  },
  {
   "property": "C120",
   "status": "partial",
   "theorems": [
    "C120_never_equal_refuted",
    "C120_comparable_refuted",
    "C120_in_partial",
    "C120_remove_partial",
    "C120_set_partial"
   ],
   "note": "Refuted: __eq__ calls itself, so every comparison ends in RecursionError. Proved: what membership in lists answers instead, and that sets and dictionaries work when no other element has the same hash."
  },
  {
   "property": "C121",
   "status": "proved",
   "theorems": [
    "C121_last_ban",
    "C121_only_ips",
    "C121_reason",
    "C121_kept"
   ],
   "note": "Every history. (The list is never consulted successfully: C20.)"
  },
  {
   "property": "C122",
   "status": "partial",
   "theorems": [
    "C122_created",
    "C122_in_use_partial",
    "C122_in_use_refuted"
   ],
   "note": "Proved except for AddrInUseError, which is raised only where EADDRINUSE is 48; refuted for every other platform, such as Linux (98)."
  },
  {
   "property": "C123",
   "status": "partial",
   "theorems": [
    "C123_deaf_refuted",
    "C123_serves_refuted",
    "C123_stops_refuted",
    "C123_listens_partial"
   ],
   "note": "Refuted: the listening socket is in asyncore's global map while serve_forever polls the node's own empty table; no connection is ever accepted, and with Python 3 serving ends at once."
  },
  {
   "property": "C124",
   "status": "partial",
   "theorems": [
    "C124_truth_partial",
    "C124_truth_refuted"
   ],
   "note": "Python 2: proved. Python 3 ignores __nonzero__; there the node is false exactly when all its sockets are closed, which is reachable."
  },
  {
   "property": "C125",
   "status": "proved",
   "theorems": [
    "C125_parameters",
    "C125_scalar_multiplication",
    "C125_scalar_without_order",
    "C125_sum_is_a_function",
    "C125_doubling_and_addition",
    "C125_group",
    "C125_order",
    "C125_cyclic",
    "C125_point_is_valid",
    "C125_generators"
   ],
   "note": "All six curves. Multiplication: every integer for points that carry their order (C125_scalar_multiplication); for others see C125_scalar_without_order, and C59 for what fails beyond. Primes: Pocklington certificates; 2^521-1: the Lucas-Lehmer test. No point of order two: the cubics have no root."
  },
  {
   "property": "C126",
   "status": "proved",
   "theorems": [
    "C126_understood",
    "C126_introduced",
    "C126_handshake"
   ],
   "note": "Two histories of the node model joined by the bytes of one connection. C126_understood: what is heard; C126_introduced: what is reported; C126_handshake: the verack on both sides. Addresses are numeric, as in C103; the application sends messages made by the constructors, headers excepted (their counts may be read back differently, C01)."
  },
  {
   "property": "C127",
   "status": "proved",
   "theorems": [
    "C127_kept",
    "C127_watch_only",
    "C127_private"
   ],
   "note": "Inductive closure of the operations; passphrases, typed or given, may differ between saving and loading. from_extended_key is not among the operations: it always fails (C46)."
  },
  {
   "property": "C128",
   "status": "proved",
   "theorems": [
    "C128_first_characters",
    "C128_address_is_no_key",
    "C128_keys_differ",
    "C128_extended"
   ],
   "note": "First characters for every digest and checksum (only the lengths of hash results are assumed). Extended keys: wallets with the ranges of BIP-32 (fields_ok)."
  },
  {
   "property": "C129",
   "status": "proved",
   "theorems": [
    "C129_only_replies",
    "C129_silence",
    "C129_quiet",
    "C129_balance"
   ],
   "note": "The bound for a pair is stated for one node and holds for the other by exchanging them. Application messages are those of C126 (ordinary_event); C129_only_replies holds for any peer."
  },
  {
   "property": "C130",
   "status": "proved",
   "theorems": [
    "C130_others",
    "C130_isolated",
    "C130_timer"
   ],
   "note": "Two-run noninterference for continuations without heartbeats and without remove_peer of the connection's own address; C130_timer says what a heartbeat does. Exceptions of handlers, which are only logged, are not compared."
  },
  {
   "property": "C131",
   "status": "partial",
   "theorems": [
    "C131_signatures_partial",
    "C131_only_the_private"
   ],
   "note": "For signatures whose r, the x coordinate of the nonce's point, is below the order n; those with n <= r < p are refused by everybody (C32_sign_verify_refuted). C131_only_the_private is complete."
  },
  {
   "property": "C132",
   "status": "partial",
   "theorems": [
    "C132_stolen",
    "C132_refuted",
    "C132_hardened_partial"
   ],
   "note": "Refuted for every path without hardened steps (C132_refuted): C132_stolen gives the computation. For hardened steps only that this computation does not apply (C132_hardened_partial); that no other exists is a matter of cryptography that the model, in which hashes are arbitrary functions, cannot express."
  },
  {
   "property": "C133",
   "status": "partial",
   "theorems": [
    "C133_heartbeat_partial",
    "C133_reaches_partial",
    "C133_exhausts_partial",
    "C133_own_address",
    "C133_refuted"
   ],
   "note": "For heartbeats whose draws select no seed and as long as the node's own address is not among those to be tried. Refuted in that case: once a peer has announced the node's own address and its turn has come, the node dials nobody any more (C133_refuted, C133_own_address). Order of the book as in Python 3.7+ dictionaries."
  },
  {
   "property": "C134",
   "status": "partial",
   "theorems": [
    "C134_no_amplification_partial",
    "C134_python2_refuted"
   ],
   "note": "On Python 3. On Python 2 refuted (C134_python2_refuted): getaddr, 24 bytes, is answered with up to 1000 addresses of 30 bytes each. Ping, version and getaddr messages that the node sends by itself are not counted."
  },
  {
   "property": "C135",
   "status": "proved",
   "theorems": [
    "C135_curves",
    "C135_public",
    "C135_private",
    "C135_public_file",
    "C135_private_file"
   ],
   "note": "For the keys whose coordinates are below the order, the only ones the library makes (C37). The names of the curves and the text of to_pem in Python 2's str are not modelled."
  },
  {
   "property": "C136",
   "status": "partial",
   "theorems": [
    "C136_queue_partial",
    "C136_refuted"
   ],
   "note": "The bytes received are bounded (C17). Those waiting to be sent are not: a peer that sends pings and reads nothing makes them exceed every bound (C136_refuted). On Python 3 they are at most what the peer has sent and what the node said of its own accord (C136_queue_partial)."
  },
  {
   "property": "C137",
   "status": "partial",
   "theorems": [
    "C137_transport",
    "C137_signed_partial",
    "C137_genuine",
    "C137_never",
    "C137_text_refuted"
   ],
   "note": "For nonces whose point has x below n (C32), and for public key texts that the library reads (C31); verify may raise instead of answering False (C33). An alert made of a str is sent but cannot be checked by its maker on Python 3 (C137_text_refuted)."
  },
  {
   "property": "C138",
   "status": "partial",
   "theorems": [
    "C138_bounded_partial",
    "C138_bounded_refuted"
   ],
   "note": "Proved for every registered message class but getblocks, getheaders and merkleblock. For those it is false: FtBytes.parse does not check that the bytes are there, so a getblocks frame of 33 bytes makes any number of list items below 2^32 (C138_bounded_refuted)."
  },
  {
   "property": "C139",
   "status": "partial",
   "theorems": [
    "C139_texts",
    "C139_wallets",
    "C139_secrets_partial",
    "C139_hd_secrets",
    "C139_secrets_refuted"
   ],
   "note": "Proved for public keys and for the private keys of HD wallets, which are below the order. For private keys given as text the secrets agree modulo the order only: Address accepts numbers above the order, so the texts of d and d + order give one address (C139_secrets_refuted)."
  },
  {
   "property": "C140",
   "status": "proved",
   "theorems": [
    "C140_text",
    "C140_raises",
    "C140_tells"
   ],
   "note": "An HD wallet made from the point at infinity has no address; its str raises what address raises (C140_raises)."
  },
  {
   "property": "C141",
   "status": "proved",
   "theorems": [
    "C141_reused",
    "C141_known",
    "C141_visible",
    "C141_same_r"
   ],
   "note": "For r not divisible by the order, which holds for every signature that verify accepts. That other sets of signatures give nothing away is not a statement about single computations and is not claimed."
  },
  {
   "property": "C142",
   "status": "partial",
   "theorems": [
    "C142_public_partial",
    "C142_private_partial",
    "C142_strict_refuted",
    "C142_trailing"
   ],
   "note": "C142_public_partial and C142_private_partial say exactly what is accepted. It is more than the standards allow: leading zeros in lengths and identifiers, values cut short at the end of the file, and anything after the curve in a private key file, so that the public key there may be missing or wrong (C142_strict_refuted)."
  },
  {
   "property": "C143",
   "status": "proved",
   "theorems": [
    "C143_prefix",
    "C143_equal",
    "C143_size",
    "C143_accepts",
    "C143_altered"
   ],
   "note": "AES-128-CBC with a zero iv (C71). That blocks which differ tell nothing more is a statement about AES as a pseudorandom permutation and is not claimed."
  },
  {
   "property": "C144",
   "status": "proved",
   "theorems": [
    "C144_read",
    "C144_apart",
    "C144_strangers"
   ],
   "note": "C144_read holds in every state of the node; C144_apart and C144_strangers for all pairs of histories joined by a connection, as in C126."
  },
  {
   "property": "C145",
   "status": "proved",
   "theorems": [
    "C145_archive",
    "C145_order",
    "C145_checkout",
    "C145_otherwise",
    "C145_shipped",
    "C145_not_newest"
   ],
   "note": "White space and digits are parameters that agree with ASCII. Names are assumed free of commas and not to begin or end with a parenthesis. C145_not_newest shows that the order of the dictionary is not that of the versions."
  },
  {
   "property": "C146",
   "status": "proved",
   "theorems": [
    "C146_asks",
    "C146_written",
    "C146_heard"
   ],
   "note": "Runs are infinite sequences of events. Headers excepted, as in C112; the network is assumed to deliver, which no program can prove."
  },
  {
   "property": "C147",
   "status": "proved",
   "theorems": [
    "C147_side",
    "C147_kept"
   ],
   "note": "Times are exact numbers. The socket is assumed to take at least a byte when it is written, since a write that takes nothing also restarts the timer. The connection starts with its version message queued, as the constructor leaves it."
  },
  {
   "property": "C148",
   "status": "partial",
   "theorems": [
    "C148_learned",
    "C148_received",
    "C148_kept",
    "C148_answers_partial",
    "C148_spread_partial",
    "C148_spread_refuted"
   ],
   "note": "Learning and keeping are proved for both Python versions. The telling is proved for Python 2; refuted for Python 3, where every getaddr fails with a TypeError (C22). Addresses arrive in the usual notation of the IP address."
  },
  {
   "property": "C149",
   "status": "partial",
   "theorems": [
    "C149_noticed_partial",
    "C149_mute_refuted"
   ],
   "note": "Proved for connections on which something was received at least once. Refuted for peers that never say anything: no poll ever closes their connection (an endless run is given)."
  },
  {
   "property": "C150",
   "status": "partial",
   "theorems": [
    "C150_made",
    "C150_standard_partial",
    "C150_invalid_refuted"
   ],
   "note": "Proved for all seeds valid for BIP-32; of the others exactly the multiples of the order are refused. Refuted for the rest: a number above the order is reduced instead of refused."
  },
  {
   "property": "C151",
   "status": "partial",
   "theorems": [
    "C151_frame",
    "C151_quiet",
    "C151_levels",
    "C151_default",
    "C151_none",
    "C151_levels_refuted",
    "C151_refused_partial",
    "C151_refused_refuted"
   ],
   "note": "Proved: the line of every frame at every level (C151_frame), no line by other events (C151_quiet), raising the level takes lines away (C151_levels), nothing about malformed messages at the default level. Refuted: messages without method are reported at every level, so that a peer can write to the log above FATAL; on Python 3 a refused connection writes a traceback at ERROR."
  },
  {
   "property": "C152",
   "status": "partial",
   "theorems": [
    "C152_private",
    "C152_public",
    "C152_signature",
    "C152_tag",
    "C152_curve",
    "C152_number",
    "C152_point",
    "C152_expected_refuted"
   ],
   "note": "Proved: the exceptions of the readers on all bytes, and which of them for a wrong tag, an unknown curve, a key out of range and a point off the curve. Refuted: UnexpectedDER is not the only one; the empty file raises IndexError, a length that is announced and missing ValueError, a negative number AssertionError."
  },
  {
   "property": "C153",
   "status": "partial",
   "theorems": [
    "C153_exactly",
    "C153_returns_partial",
    "C153_serves_partial",
    "C153_unread_refuted",
    "C153_asleep_refuted",
    "C153_hung_refuted",
    "C153_ends",
    "C153_history",
    "C153_tended",
    "C153_writes"
   ],
   "note": "Proved: exactly when a round fails; that it returns if no connection is overdue, that overdue connections are closed in every round, that the first write of a round to a connection finds something to write, and that the loop is a history. Refuted: closing in readable leaves writable true while something is unsent, so select is given a closed descriptor and serve_forever ends with OSError: after a sleep of three hours, with a peer that does not read, or with one that hangs."
  },
  {
   "property": "C154",
   "status": "partial",
   "theorems": [
    "C154_address",
    "C154_hd",
    "C154_saved",
    "C154_vcn_text",
    "C154_raises",
    "C154_watch_only_refuted",
    "C154_depth_refuted"
   ],
   "note": "Proved: loaded addresses and HD wallets are ones that the constructors make, with keys in range, 32 bytes of chain code, vcn of 16 bits and depth below 256; those with a private key can be saved and loaded again; loading raises at most eight exceptions. Refuted: a watch-only file with an x coordinate of more than 32 bytes is loaded, but the wallet has no address and cannot be saved; a negative depth is accepted and the wallet then has no extended key. Simplified: JSON floats and nested values, and child numbers that are not integers, are not modelled."
  },
  {
   "property": "C155",
   "status": "proved",
   "theorems": [
    "C155_handshake"
   ],
   "note": "For every pair of infinite runs whose connection stays open from some moment on; the interleaving is arbitrary, since the two runs have their own clocks. The application sends no pong, verack or addr of its own."
  },
  {
   "property": "C156",
   "status": "proved",
   "theorems": [
    "C156_written",
    "C156_heard",
    "C156_handshake"
   ],
   "note": "For loops that go on for ever (C153 says exactly when they end). What select and the sockets answer is arbitrary but for the room of the socket concerned. The rounds are flattened into an infinite run, which is shown to be fair; the rest is C146 and C155."
  },
  {
   "property": "C157",
   "status": "partial",
   "theorems": [
    "C157_let_go",
    "C157_taken_along_refuted"
   ],
   "note": "C157_let_go: the connection is closed by that round in every case. That the node goes on is false: C157_taken_along_refuted, a peer that leaves something it was sent in the buffer of the node and then does nothing at all ends the loop of the node after three hours, whatever the other peers do meanwhile (asyncore is given the closed descriptor for writing). C153 says for one round exactly when this happens."
  },
  {
   "property": "C158",
   "status": "partial",
   "theorems": [
    "C158_agrees",
    "C158_printable",
    "C158_one_line",
    "C158_agent_refuted",
    "C158_forged_refuted",
    "C158_alert_refuted"
   ],
   "note": "Proved on Python 3 (C158_printable, C158_one_line); C158_agrees ties the text to the model of C105. False on Python 2, where bytes are put into the text as they are: the user agent of a version message (C158_forged_refuted, at DEBUG) and the sub-versions of an alert (C158_alert_refuted, at PROTOCOL) may hold line breaks and make lines that look like those of any other peer. What is shown of values that no message holds is a parameter (odd)."
  },
  {
   "property": "C159",
   "status": "partial",
   "theorems": [
    "C159_headers",
    "C159_inventory",
    "C159_block_refuted"
   ],
   "note": "Proved for headers and the three inventories (C159_headers, C159_inventory). False for blocks: the 80 bytes of the header are shown, not their hash (C159_block_refuted)."
  },
  {
   "property": "C160",
   "status": "partial",
   "theorems": [
    "C160_one_line",
    "C160_ascii_partial",
    "C160_tells",
    "C160_bounded",
    "C160_eightfold",
    "C160_ascii_refuted"
   ],
   "note": "One line of printable Latin-1 characters (C160_one_line), every byte recoverable (C160_tells), at most 13 characters for a byte received (C160_bounded; the factor for long messages is 8, C160_eightfold). ASCII on Python 2 only: on Python 3 the command of an unknown message is shown with repr of a str, which keeps printable Latin-1 characters (C160_ascii_refuted), so that a log stream in ASCII raises."
  },
  {
   "property": "C161",
   "status": "partial",
   "theorems": [
    "C161_faithful_partial",
    "C161_history_partial",
    "C161_faithful_refuted",
    "C161_relay",
    "C161_debug_refuted"
   ],
   "note": "Proved for all messages but alerts, for single messages (C161_faithful_partial) and for the log of any sequence of them from any peers (C161_history_partial); filterload and filteradd are told apart although both are shown as FilterLoad. False for alerts, whose signature is not shown (C161_faithful_refuted), and at DEBUG, where lists are told by their first item (C161_debug_refuted). On Python 3 messages with lists of hashes cannot be logged at this level (C105)."
  },
  {
   "property": "C162",
   "status": "partial",
   "theorems": [
    "C162_bounded_partial",
    "C162_history_partial",
    "C162_bounded_refuted"
   ],
   "note": "Proved for all messages but alerts, on Python 2 without the three messages with lists of hashes, for single messages (C162_bounded_partial) and for histories (C162_history_partial). False for those on Python 2: for every n below 2^32 there is a frame of 33 bytes whose line has more than 4n characters (C162_bounded_refuted). On Python 3 lists of hashes that are not empty cannot be logged at this level (C105). Alerts, whose text is made of the payload decoded when first read, are not covered."
  },
  {
   "property": "C163",
   "status": "proved",
   "theorems": [
    "C163_combine",
    "C163_recombine",
    "C163_encode",
    "C163_decode",
    "C163_damaged",
    "C163_short",
    "C163_cut_code"
   ],
   "note": "Which exceptions may occur: C163_combine, C163_recombine, C163_encode, C163_decode; wrong checksums: C163_damaged (TypeError or AttributeError, since None is used as if it were the key); cut shares and codes: C163_short, C163_cut_code. The example shows that each exception occurs. On Python 3 all operations on partial keys fail (C51, C52)."
  },
  {
   "property": "C164",
   "status": "proved",
   "theorems": [
    "C164_errors",
    "C164_verdict",
    "C164_cut",
    "C164_longer",
    "C164_undemanding",
    "C164_node",
    "C164_short_refuted"
   ],
   "note": "The four exceptions: C164_errors; when each is raised: C164_verdict (bytes that end within the size raise struct.error, not MsgFormatError); cut and longer payloads: C164_cut, C164_longer; the six messages that are never refused: C164_undemanding; what a node notes of the frames it refuses, over any history: C164_node. C164_short_refuted shows that a payload cut short is not always noticed: a ping with three bytes of its nonce is accepted."
  },
  {
   "property": "C165",
   "status": "proved",
   "theorems": [
    "C165_public",
    "C165_form",
    "C165_private",
    "C165_letter",
    "C165_read",
    "C165_checksum",
    "C165_zero",
    "C165_long",
    "C165_points_refuted",
    "C165_expected_refuted"
   ],
   "note": "Public keys: C165_public (the only exceptions, and when it is SquareRootError), C165_form, C165_long (accepted without a look at the point); private keys: C165_private, C165_letter, C165_read, C165_checksum, C165_zero. Refuted on the way: accepted keys are points (C165_points_refuted), keys that are none raise ValueError (C165_expected_refuted)."
  }
 ]
}