{"id": "C01", "title": "Message wire round-trip", "statement": "For every message class and every message object whose fields the constructor accepts and that serialises, parsing the serialised bytes with the same magic returns a message of the same class whose fields are the originals in canonical form (floats truncated, addresses in canonical text, str fields as bytes, version addresses with timestamp 0).", "quantifier": "all message classes, all accepted field values of any size", "why_tests_cant": "field values, strings and arrays are unbounded; only finitely many messages can be sampled", "anchors": ["nbc/protocol/messages.py:Message.binary", "nbc/protocol/messages.py:Message.parse", "nbc/protocol/format.py:CompoundType.binary", "nbc/protocol/format.py:CompoundType.parse", "nbc/protocol/format.py:FormatType"]}
{"id": "C02", "title": "Variable-length integer round-trip", "statement": "Every integer that can be serialised as a VarInteger is read back unchanged, and exactly the bytes written are consumed, whatever follows them.", "quantifier": "all integers 0 <= n < 2^64 and all trailing bytes", "why_tests_cant": "the 64-bit domain cannot be enumerated", "anchors": ["nbc/protocol/format.py:FtVarInteger.binary", "nbc/protocol/format.py:FtVarInteger.parse"]}
{"id": "C03", "title": "Accepted messages can be serialised", "statement": "If the constructor of a message accepts the field values, calling binary(magic) on the object succeeds.", "quantifier": "all field values accepted by the constructors", "why_tests_cant": "acceptance is a predicate over an infinite set of Python values", "anchors": ["nbc/protocol/format.py:CompoundType.__init__", "nbc/protocol/format.py:FtIPAddress.validate", "nbc/protocol/format.py:FtVarInteger.validate", "nbc/protocol/format.py:FtVarString.validate"]}
{"id": "C04", "title": "Parsed messages are well typed", "statement": "Every object returned by a parser has field values that the same field type would accept in the constructor (fixed-length byte strings have their declared length, arrays their declared minimum and maximum length).", "quantifier": "all byte strings handed to the parser", "why_tests_cant": "adversarial payloads are arbitrary byte strings", "anchors": ["nbc/protocol/format.py:FtBytes.parse", "nbc/protocol/format.py:FtArray.parse", "nbc/protocol/format.py:parse_var_set", "nbc/protocol/format.py:CompoundType.parse"]}
{"id": "C05", "title": "Frame integrity", "statement": "Message.parse returns a message only if the first four bytes equal the expected magic and bytes 20..24 equal the first four bytes of the double SHA-256 of the payload delimited by the length field; with a different magic or checksum it raises MsgFormatError and delivers nothing.", "quantifier": "all byte strings, all magics", "why_tests_cant": "ranges over every corrupted frame", "anchors": ["nbc/protocol/messages.py:Message.parse"]}
{"id": "C06", "title": "Frame length announces exactly one message", "statement": "For every serialised message followed by arbitrary bytes, first_msg_len returns the length of the first message; on fewer than 20 bytes it returns None.", "quantifier": "all messages, all trailing bytes", "why_tests_cant": "unbounded payloads and suffixes", "anchors": ["nbc/protocol/messages.py:Message.first_msg_len", "nbc/protocol/messages.py:Message.binary"]}
{"id": "C07", "title": "Command selects the message class and opt-out is honoured", "statement": "A frame is parsed by the class registered for its command; a class that sets not_regist = True is not registered, and unregistered commands raise UnknownMsgError.", "quantifier": "all class definitions in messages.py and all 12-byte command fields", "why_tests_cant": "every command field value must be covered", "anchors": ["nbc/protocol/format.py:_AutoRegister", "nbc/protocol/messages.py:Message.register", "nbc/protocol/messages.py:Message.parse"]}
{"id": "C08", "title": "IP address binary/text round-trip", "statement": "For every 16-byte address field, parsing it to text and serialising the text gives the same 16 bytes, and the text is accepted by the validator.", "quantifier": "all 2^128 addresses", "why_tests_cant": "2^128 inputs", "anchors": ["nbc/protocol/format.py:FtIPAddress.parse", "nbc/protocol/format.py:FtIPAddress.binary", "nbc/protocol/format.py:FtIPAddress.validate"]}
{"id": "C09", "title": "IP address validator accepts exactly the serialisable texts", "statement": "FtIPAddress.validate accepts a text iff binary succeeds on it, and rejects by returning None without raising.", "quantifier": "all strings", "why_tests_cant": "all strings", "anchors": ["nbc/protocol/format.py:FtIPAddress._ipv6_groups", "nbc/protocol/format.py:FtIPAddress._ipv4_groups"]}
{"id": "C10", "title": "Constructor argument discipline", "statement": "A compound object is created only when every declared field is given exactly once (positionally or by keyword) and nothing else is given.", "quantifier": "all argument lists", "why_tests_cant": "all argument tuples/dicts", "anchors": ["nbc/protocol/format.py:CompoundType.__init__"]}
{"id": "C11", "title": "Serialisation is unambiguous", "statement": "Two messages of one class with different canonical field values have different serialisations, and no serialisation is a proper prefix of another one of the same class (except through the optional relay flag).", "quantifier": "all pairs of messages", "why_tests_cant": "pairs of unbounded objects", "anchors": ["nbc/protocol/format.py:CompoundType.binary", "nbc/protocol/messages.py:Message.binary"]}
{"id": "C12", "title": "Transaction and block-header hashes", "statement": "The hash of a transaction is the double SHA-256 of its serialisation, that of a block header of its first 80 bytes; repeated reads in any order give the same value and never change the serialisation.", "quantifier": "all transactions/headers and all sequences of reads", "why_tests_cant": "histories of reads interleaved with serialisations", "anchors": ["nbc/protocol/format.py:Txn.hash", "nbc/protocol/format.py:BlockHeader.hash", "nbc/util/__init__.py:get_block_header"]}
{"id": "C13", "title": "Stream reassembly is independent of chunking", "statement": "The sequence of messages handled (and errors reported) for a received byte stream does not depend on how the stream is split into chunks by the network.", "quantifier": "all byte streams and all ways to split them", "why_tests_cant": "exponentially many splits of unbounded streams", "anchors": ["nbc/node/connection.py:Connection.handle_read"]}
{"id": "C14", "title": "A bad message does not derail the stream", "statement": "When a stream consists of well-delimited frames, every frame is processed in order exactly once, and a frame that fails to parse (bad magic, checksum, command or payload) affects only itself.", "quantifier": "all sequences of frames, good and bad, under all chunkings", "why_tests_cant": "unbounded sequences", "anchors": ["nbc/node/connection.py:Connection.handle_read", "nbc/protocol/messages.py:Message.parse"]}
{"id": "C15", "title": "Outgoing stream is FIFO without loss or duplication", "statement": "The bytes handed to the socket are always a prefix of the concatenation of the serialised messages in send order; the rest is still in the send buffer.", "quantifier": "all interleavings of send_message and partial socket writes", "why_tests_cant": "all schedules of partial writes", "anchors": ["nbc/node/connection.py:Connection.send_message", "nbc/node/connection.py:Connection.handle_write"]}
{"id": "C16", "title": "Traffic counters are exact", "statement": "A connection's rx/tx byte counters equal the bytes received/sent on it, and the node's totals equal the sums over all its connections, past and present.", "quantifier": "all histories over any number of connections", "why_tests_cant": "interleavings of many connections", "anchors": ["nbc/node/connection.py:Connection.handle_read", "nbc/node/connection.py:Connection.handle_write"]}
{"id": "C17", "title": "Receive buffer is bounded", "statement": "A peer cannot make the receive buffer grow beyond a fixed bound without delivering complete messages.", "quantifier": "all byte streams from a peer", "why_tests_cant": "adversarial streams", "anchors": ["nbc/node/connection.py:Connection.handle_read", "nbc/protocol/messages.py:Message.first_msg_len"]}
{"id": "C18", "title": "Idle connection timers", "statement": "After 30 minutes without sending, at most one ping per 5 minutes is queued; a connection that has received nothing for 3 hours is closed.", "quantifier": "all clock readings and poll schedules", "why_tests_cant": "all schedules", "anchors": ["nbc/node/connection.py:Connection.readable"]}
{"id": "C19", "title": "Misbehaviour score and ban decision", "statement": "A peer's score is never negative, each punishment adds one, each heartbeat removes at most one, and the peer is banned and disconnected exactly when its score exceeds 5.", "quantifier": "all sequences of punishments and heartbeats", "why_tests_cant": "all histories", "anchors": ["nbc/node/basenode.py:BaseNode.punish_peer", "nbc/node/basenode.py:BaseNode.heartbeat", "nbc/node/connection.py:Connection.add_banscore", "nbc/node/connection.py:Connection.reduce_banscore"]}
{"id": "C20", "title": "A banned peer cannot reconnect for an hour", "statement": "An incoming connection from an IP banned less than 3600 seconds ago is refused.", "quantifier": "all histories of bans and accepts", "why_tests_cant": "all histories", "anchors": ["nbc/node/basenode.py:BaseNode.handle_accept", "nbc/node/basenode.py:BaseNode.punish_peer"]}
{"id": "C21", "title": "Address book is bounded by MAX_ADDRESSES", "statement": "The node never stores more than 2500 addresses.", "quantifier": "all histories of addr/verack messages and disconnects", "why_tests_cant": "all message histories", "anchors": ["nbc/node/basenode.py:BaseNode.command_address", "nbc/node/basenode.py:BaseNode.command_version_ack", "nbc/node/basenode.py:BaseNode.disconnected"]}
{"id": "C22", "title": "getaddr reply", "statement": "The reply to getaddr has at most 1000 entries, each a currently known address with known services, most recent first, and it is accepted by the Address message constructor.", "quantifier": "all address books", "why_tests_cant": "all address books", "anchors": ["nbc/node/basenode.py:BaseNode.command_get_address"]}
{"id": "C23", "title": "External IP is the plurality vote", "statement": "After a peer announces its version, the guessed external IP is one reported by a maximal number of connected peers (the largest text among ties); in particular the value reported by a strict majority wins.", "quantifier": "all multisets of peers' reports", "why_tests_cant": "all vote multisets", "anchors": ["nbc/node/basenode.py:BaseNode._check_external_ip"]}
{"id": "C24", "title": "Outgoing connection budget", "statement": "One heartbeat opens at most 5 connections and never raises the number of peers above seek_peers; add_peer without force never raises the number of connections above max_peers; no address is connected twice.", "quantifier": "all node states, random choices and connection failures", "why_tests_cant": "all states and schedules", "anchors": ["nbc/node/basenode.py:BaseNode.heartbeat", "nbc/node/basenode.py:BaseNode.add_any_peer", "nbc/node/basenode.py:BaseNode.add_peer"]}
{"id": "C25", "title": "Heartbeat rate", "statement": "A turn of the event loop runs a heartbeat exactly when the last one (the epoch, if there was none) is more than 10 seconds ago on the node's clock, and nothing else runs one; so two heartbeats are more than 10 seconds apart.", "quantifier": "all sequences of loop iterations and clock values", "why_tests_cant": "all schedules", "anchors": ["nbc/node/basenode.py:BaseNode.items"]}
{"id": "C26", "title": "Protocol replies", "statement": "A ping is answered by a pong with the same nonce, a version by a verack, and messages without handler only by a log line; nothing else is sent in response.", "quantifier": "all messages and node states", "why_tests_cant": "all inputs", "anchors": ["nbc/node/basenode.py:BaseNode.command_ping", "nbc/node/basenode.py:BaseNode.command_version", "nbc/node/connection.py:Connection.handle_message"]}
{"id": "C27", "title": "Base58 round-trip", "statement": "b58decode(b58encode(v)) = v for every byte string (leading zeros included) and b58encode(b58decode(s)) = s for every string over the alphabet; other characters raise ValueError.", "quantifier": "all byte strings and all alphabet strings", "why_tests_cant": "unbounded strings", "anchors": ["nbc/util/base58.py:b58encode", "nbc/util/base58.py:b58decode"]}
{"id": "C28", "title": "Base58Check integrity", "statement": "decode_check(encode_check(v)) = v; decode_check(s) returns v only if s decodes to v followed by the first 4 bytes of its double SHA-256, otherwise None.", "quantifier": "all byte strings", "why_tests_cant": "all corruptions", "anchors": ["nbc/util/base58.py:encode_check", "nbc/util/base58.py:decode_check"]}
{"id": "C29", "title": "WIF private key round-trip", "statement": "privkey_from_wif(privkey_to_wif(k)) = k for every 32-byte key, and for k+b'\\x01' (compressed form) it returns k; the text starts with 5, respectively K or L; every other input raises ValueError.", "quantifier": "all 2^256 keys", "why_tests_cant": "2^256 keys; the leading-character check depends on exact base-58 magnitudes", "anchors": ["nbc/util/key.py:privkey_to_wif", "nbc/util/key.py:privkey_from_wif"]}
{"id": "C30", "title": "Address text determines version, vcn and key hash", "statement": "publickey_to_address yields a Base58Check text from which version, the low 16 bits of vcn and the key digest can be recovered; different (version, vcn mod 65536, digest) give different addresses.", "quantifier": "all keys, vcn integers and versions", "why_tests_cant": "unbounded", "anchors": ["nbc/util/key.py:publickey_to_address", "nbc/util/key.py:pubkeyhash_to_address"]}
{"id": "C31", "title": "Public key compression round-trip", "statement": "For every point of the curve with coordinates in the range the library accepts, compress_public_key then decompress_public_key returns the same 65-byte key; inputs not denoting a curve point are rejected.", "quantifier": "all curve points, all byte strings", "why_tests_cant": "2^256 points", "anchors": ["nbc/util/key.py:compress_public_key", "nbc/util/key.py:decompress_public_key", "nbc/util/ecdsa/numbertheory.py:square_root_mod_prime"]}
{"id": "C32", "title": "Signatures verify", "statement": "For every private key, message and nonce, a signature that sign returns is accepted by verify under the matching public key (Address, HDWallet and raw key API).", "quantifier": "all keys, messages and nonces", "why_tests_cant": "2^512 combinations", "anchors": ["nbc/util/ecc.py:sign", "nbc/util/ecc.py:verify", "nbc/util/ecdsa/ecdsa.py:Private_key.sign", "nbc/util/ecdsa/ecdsa.py:Public_key.verifies", "nbc/wallet/address.py:Address.sign", "nbc/wallet/hdwallet.py:HDWallet.sign"]}
{"id": "C33", "title": "verify answers with a boolean", "statement": "ecc.verify returns True or False for every public key, message and signature byte string; it never raises.", "quantifier": "all byte strings", "why_tests_cant": "adversarial inputs", "anchors": ["nbc/util/ecc.py:verify", "nbc/util/ecc.py:sigdecode_der"]}
{"id": "C34", "title": "A signature is unique for its nonce (non-malleability)", "statement": "No second signature (r,s') or byte string is accepted for the same message and key once one is known.", "quantifier": "all accepted signatures", "why_tests_cant": "universally quantified over signatures", "anchors": ["nbc/util/ecc.py:sigdecode_der", "nbc/util/ecdsa/ecdsa.py:Public_key.verifies"]}
{"id": "C35", "title": "DER signature round-trip", "statement": "Decoding an encoded (r,s) returns (r,s) for both the strict and the liberal decoder.", "quantifier": "all non-negative r, s in the supported range", "why_tests_cant": "unbounded integers", "anchors": ["nbc/util/ecdsa/util.py:sigencode_der", "nbc/util/ecdsa/util.py:sigdecode_der", "nbc/util/ecc.py:sigdecode_der", "nbc/util/ecdsa/der.py:encode_integer", "nbc/util/ecdsa/der.py:remove_integer"]}
{"id": "C36", "title": "DER primitive round-trips", "statement": "Lengths, integers, object identifiers, octet strings, bit strings, constructed tags and sequences are read back exactly, leaving exactly the trailing bytes.", "quantifier": "all values and suffixes", "why_tests_cant": "unbounded", "anchors": ["nbc/util/ecdsa/der.py:encode_length", "nbc/util/ecdsa/der.py:read_length", "nbc/util/ecdsa/der.py:encode_oid", "nbc/util/ecdsa/der.py:remove_object", "nbc/util/ecdsa/der.py:encode_number", "nbc/util/ecdsa/der.py:read_number"]}
{"id": "C37", "title": "Key object serialisation round-trip", "statement": "SigningKey/VerifyingKey to_string/from_string and to_der/from_der are inverse on every key of every supported curve.", "quantifier": "all keys of all six curves", "why_tests_cant": "2^521 keys", "anchors": ["nbc/util/ecdsa/keys.py:SigningKey.to_der", "nbc/util/ecdsa/keys.py:SigningKey.from_der", "nbc/util/ecdsa/keys.py:VerifyingKey.to_der", "nbc/util/ecdsa/keys.py:VerifyingKey.from_der"]}
{"id": "C38", "title": "AES block cipher is invertible", "statement": "For every AES object the constructor returns and every 16-byte block, decrypt(encrypt(block)) = block and encrypt(decrypt(block)) = block; a block of another length is a ValueError.", "quantifier": "all keys and blocks", "why_tests_cant": "2^128 blocks times 2^256 keys", "anchors": ["nbc/util/pyaes/aes.py:AES.__init__", "nbc/util/pyaes/aes.py:AES.encrypt", "nbc/util/pyaes/aes.py:AES.decrypt"]}
{"id": "C39", "title": "AES implementation equals FIPS-197", "statement": "The table-driven cipher computes exactly the FIPS-197 function (SubBytes, ShiftRows, MixColumns, AddRoundKey over GF(2^8)).", "quantifier": "all keys and blocks", "why_tests_cant": "2^384 inputs", "anchors": ["nbc/util/pyaes/aes.py:AES.encrypt", "nbc/util/pyaes/aes.py:AES.T1"]}
{"id": "C40", "title": "Modes of operation round-trip", "statement": "For ECB, CBC, CFB, OFB and CTR, decrypting the concatenated ciphertexts with a fresh object of the same key/iv/counter yields the plaintext, for any sequence of calls.", "quantifier": "all keys, ivs, plaintexts and call sequences", "why_tests_cant": "unbounded plaintext and call histories", "anchors": ["nbc/util/pyaes/aes.py:AESModeOfOperationCBC", "nbc/util/pyaes/aes.py:AESModeOfOperationCTR", "nbc/util/pyaes/aes.py:AESModeOfOperationOFB", "nbc/util/pyaes/aes.py:AESModeOfOperationCFB"]}
{"id": "C41", "title": "Passphrase discrimination", "statement": "Two different passphrases encrypt a wallet under different AES keys.", "quantifier": "all pairs of passphrases", "why_tests_cant": "all pairs", "anchors": ["nbc/wallet/address.py:_aesEncrypt", "nbc/wallet/address.py:_aesDecrypt"]}
{"id": "C42", "title": "Address wallet save/load", "statement": "loadFrom(saveTo(w)) with the same passphrase yields an Address with the same private key, public key, vcn, testnet flag, compression and address text.", "quantifier": "all addresses and passphrases", "why_tests_cant": "all keys and passphrases", "anchors": ["nbc/wallet/address.py:Address.dump_to_cfg", "nbc/wallet/address.py:Address.load_from_cfg", "nbc/wallet/__init__.py:saveTo", "nbc/wallet/__init__.py:loadFrom"]}
{"id": "C43", "title": "HD wallet save/load", "statement": "loadFrom(saveTo(w)) with the same passphrase yields an HD wallet with the same key, chain code, vcn, testnet flag, depth, parent fingerprint and child number.", "quantifier": "all HD wallets (private or watch-only) and passphrases", "why_tests_cant": "all wallets", "anchors": ["nbc/wallet/hdwallet.py:HDWallet.dump_to_cfg", "nbc/wallet/hdwallet.py:HDWallet.load_from_cfg", "nbc/wallet/hdwallet.py:point_decompress", "nbc/wallet/hdwallet.py:point_compress"]}
{"id": "C44", "title": "HD derivation: watch-only and private wallets agree", "statement": "For every non-hardened index, the public point of the child of a private wallet equals the child derived from the watch-only wallet with the same chain code; chain code, depth, parent fingerprint and child number agree too.", "quantifier": "all keys, chain codes and indices, along paths of any length", "why_tests_cant": "all derivation paths", "anchors": ["nbc/wallet/hdwallet.py:HDWallet.child", "nbc/util/ecdsa/ellipticcurve.py:Point.__add__", "nbc/util/ecdsa/ellipticcurve.py:Point.__mul__"]}
{"id": "C45", "title": "Hardened children need the private key", "statement": "child(i) with i >= 2^31 fails on a watch-only wallet, and derivation fails at depth 255 and for indices outside [0, 2^32).", "quantifier": "all wallets and indices", "why_tests_cant": "all inputs", "anchors": ["nbc/wallet/hdwallet.py:HDWallet.child"]}
{"id": "C46", "title": "Extended key round-trip", "statement": "HDWallet.from_extended_key(w.to_extended_key(...)) reconstructs the wallet.", "quantifier": "all wallets", "why_tests_cant": "all wallets", "anchors": ["nbc/wallet/hdwallet.py:HDWallet.to_extended_key", "nbc/wallet/hdwallet.py:HDWallet.from_extended_key"]}
{"id": "C47", "title": "Derived address is a function of seed and path", "statement": "Deriving the same path from the same seed (and vcn) twice gives the same address.", "quantifier": "all seeds, paths and random-generator outcomes", "why_tests_cant": "randomness is hidden from a test that runs once", "anchors": ["nbc/wallet/hdwallet.py:HDWallet.child", "nbc/wallet/hdwallet.py:HDWallet.address", "nbc/wallet/hdwallet.py:HDWallet.__init__"]}
{"id": "C48", "title": "Crash-safe saving", "statement": "If the process crashes at any point of saveTo over an existing wallet file, the file still loads either the old or the new wallet.", "quantifier": "all crash points", "why_tests_cant": "crash points are not exercised by tests", "anchors": ["nbc/wallet/__init__.py:saveTo"]}
{"id": "C49", "title": "Wrong passphrase is detected", "statement": "Loading an encrypted wallet with a wrong passphrase raises instead of returning a different wallet.", "quantifier": "all wallets and wrong passphrases", "why_tests_cant": "all passphrases", "anchors": ["nbc/wallet/address.py:Address.load_from_cfg", "nbc/wallet/hdwallet.py:HDWallet.load_from_cfg"]}
{"id": "C50", "title": "Key splitting and combining", "statement": "combine_private_keys(split_private_key(k, count)) = k for every key, count and entropy; combining is independent of order and public keys add up accordingly.", "quantifier": "all keys, counts and random shares", "why_tests_cant": "all entropies", "anchors": ["nbc/util/piecewise.py:split_private_key", "nbc/util/piecewise.py:combine_private_keys"]}
{"id": "C51", "title": "m-of-n partial split", "statement": "Any `required` of the `total` key sets produced by partial_split_private_key recombine to the key; fewer do not.", "quantifier": "all keys, required/total, subsets and entropies", "why_tests_cant": "all subsets", "anchors": ["nbc/util/piecewise.py:partial_split_private_key", "nbc/util/piecewise.py:partial_combine_private_keys"]}
{"id": "C52", "title": "QR encoding of a key set", "statement": "partial_split_qr_decode(partial_split_qr_encode(set)) = set for every key set produced by partial_split_private_key.", "quantifier": "all key sets", "why_tests_cant": "all key sets", "anchors": ["nbc/util/piecewise.py:partial_split_qr_encode", "nbc/util/piecewise.py:partial_split_qr_decode"]}
{"id": "C53", "title": "Merkle root", "statement": "get_merkle_root computes the Bitcoin Merkle root (odd levels duplicate their last hash) of the transaction hashes, and different transaction lists have different roots unless the hash collides.", "quantifier": "all non-empty transaction lists", "why_tests_cant": "unbounded lists", "anchors": ["nbc/util/__init__.py:get_merkle_root"]}
{"id": "C54", "title": "Proof-of-work target comparison", "statement": "verify_target accepts a header iff its proof-of-work hash, read as a little-endian number, does not exceed the target mantissa * 256^(exponent-3) encoded by bits.", "quantifier": "all headers and bits values", "why_tests_cant": "2^32 bits values times all hashes", "anchors": ["nbc/util/__init__.py:verify_target", "nbc/util/__init__.py:get_target"]}
{"id": "C55", "title": "Version number packing", "statement": "get_version(make_version(M,m,r,b)) = (M,m,r,b) for all accepted components, make_version rejects the others, and make_version(*get_version(v)) = v for all integers v.", "quantifier": "all integers", "why_tests_cant": "unbounded integers", "anchors": ["nbc/util/__init__.py:get_version", "nbc/util/__init__.py:make_version"]}
{"id": "C56", "title": "Modular inverse", "statement": "inverse_mod(a,m) returns the unique b in [1,m) with a*b = 1 mod m when gcd(a,m)=1 and fails otherwise.", "quantifier": "all integers a and m > 1", "why_tests_cant": "unbounded integers; termination", "anchors": ["nbc/util/ecdsa/numbertheory.py:inverse_mod"]}
{"id": "C57", "title": "Modular square root", "statement": "square_root_mod_prime(a,p) returns y with y*y = a mod p whenever a is a square mod the prime p, and raises SquareRootError otherwise.", "quantifier": "all primes p and 0 <= a < p", "why_tests_cant": "unbounded primes", "anchors": ["nbc/util/ecdsa/numbertheory.py:square_root_mod_prime", "nbc/util/ecdsa/numbertheory.py:polynomial_exp_mod"]}
{"id": "C58", "title": "Jacobi symbol", "statement": "jacobi(a,p) is 1/-1/0 according to whether a is a nonzero square, a non-square or 0 modulo the odd prime p; for odd composite n it is the product over the prime factors.", "quantifier": "all odd n >= 3 and integers a", "why_tests_cant": "unbounded integers", "anchors": ["nbc/util/ecdsa/numbertheory.py:jacobi"]}
{"id": "C59", "title": "Elliptic-curve scalar multiplication", "statement": "P * e is the e-fold sum of P under the chord-and-tangent addition, the result is always on the curve, and the operations never fail on points of secp256k1.", "quantifier": "all points and all integers e", "why_tests_cant": "2^512 combinations", "anchors": ["nbc/util/ecdsa/ellipticcurve.py:Point.__mul__", "nbc/util/ecdsa/ellipticcurve.py:Point.__add__", "nbc/util/ecdsa/ellipticcurve.py:Point.double"]}
{"id": "C60", "title": "Curve points form a commutative group of order n", "statement": "Addition of points of secp256k1 is associative and commutative with neutral INFINITY; every point has order dividing n, and point_is_valid accepts exactly the curve points in its coordinate range.", "quantifier": "all points", "why_tests_cant": "all triples of points", "anchors": ["nbc/util/ecdsa/ellipticcurve.py:Point.__add__", "nbc/util/ecdsa/ecdsa.py:point_is_valid"]}
{"id": "C61", "title": "Random and derived nonces/keys are in range", "statement": "randrange and rfc6979.generate_k return k with 1 <= k < order whatever the entropy/hash outputs; randrange gives up with RuntimeError after 10000 attempts.", "quantifier": "all orders and entropy streams", "why_tests_cant": "all entropy streams", "anchors": ["nbc/util/ecdsa/util.py:randrange", "nbc/util/ecdsa/rfc6979.py:generate_k"]}
{"id": "C62", "title": "PKCS7 padding and streaming feeders", "statement": "strip(append(data)) = data, and Encrypter/Decrypter round-trip any data fed in any chunks; a flushed one refuses further data.", "quantifier": "all data and chunkings", "why_tests_cant": "all chunkings", "anchors": ["nbc/util/pyaes/util.py:append_PKCS7_padding", "nbc/util/pyaes/util.py:strip_PKCS7_padding", "nbc/util/pyaes/blockfeeder.py:BlockFeeder.feed"]}
{"id": "C63", "title": "Alert payload", "statement": "The lazily parsed fields of an alert equal the fields a conforming sender packed, whatever order they are read in, and parsing is done once.", "quantifier": "all alert payloads and read orders", "why_tests_cant": "all read orders", "anchors": ["nbc/protocol/messages.py:Alert._parse_and_get"]}
{"id": "C64", "title": "Equality of out-points", "statement": "Two OutPoint objects compare equal iff hash and index are equal.", "quantifier": "all pairs", "why_tests_cant": "all pairs", "anchors": ["nbc/protocol/format.py:OutPoint.__eq__"]}
{"id": "C65", "title": "Number/byte-string conversions", "statement": "number_to_string(x, order) is the big-endian encoding of x in the byte length of order and string_to_number inverts it; larger numbers are rejected.", "quantifier": "all integers and orders", "why_tests_cant": "unbounded", "anchors": ["nbc/util/ecdsa/util.py:number_to_string", "nbc/util/ecdsa/util.py:string_to_number"]}
{"id": "C66", "title": "Hexadecimal identifiers", "statement": "hex_to_bin(bin_to_hex(b)) = b for every byte string, and bin_to_hex(hex_to_bin(s)) = s for every lower-case hexadecimal string of even length; other strings raise.", "quantifier": "all byte strings and texts", "why_tests_cant": "unbounded", "anchors": ["nbc/util/__init__.py:hex_to_bin", "nbc/util/__init__.py:bin_to_hex"]}
{"id": "C67", "title": "Block header helper agrees with the header object", "statement": "get_block_header(version, prev, root, time, bits, nonce) equals the first 80 bytes of the serialised BlockHeader with the same fields, the bytes that are hashed.", "quantifier": "all header fields", "why_tests_cant": "all field values", "anchors": ["nbc/util/__init__.py:get_block_header", "nbc/protocol/format.py:BlockHeader"]}
{"id": "C68", "title": "Modes of operation equal SP 800-38A", "statement": "Whatever the sequence of calls, the concatenated output of an ECB, CBC, CFB (segments up to a block), OFB or CTR object is what NIST SP 800-38A prescribes for the concatenated input; inputs of a wrong length are refused with ValueError.", "quantifier": "all keys, ivs, counters, plaintexts and call sequences", "why_tests_cant": "unbounded plaintexts and call histories", "anchors": ["nbc/util/pyaes/aes.py:AESModeOfOperationECB", "nbc/util/pyaes/aes.py:AESModeOfOperationCBC", "nbc/util/pyaes/aes.py:AESModeOfOperationCFB", "nbc/util/pyaes/aes.py:AESModeOfOperationOFB", "nbc/util/pyaes/aes.py:AESModeOfOperationCTR"]}
{"id": "C69", "title": "CTR keystream", "statement": "The CTR keystream is the encryption of consecutive 128-bit counter values starting at the initial value and wrapping at 2^128, however the input is cut into calls, and no keystream block occurs twice among 2^128 consecutive ones.", "quantifier": "all keys, initial values, inputs and call sequences", "why_tests_cant": "2^128 blocks", "anchors": ["nbc/util/pyaes/aes.py:Counter.increment", "nbc/util/pyaes/aes.py:AESModeOfOperationCTR.encrypt"]}
{"id": "C70", "title": "AES key sizes", "statement": "The AES constructor accepts exactly the keys of 16, 24 and 32 bytes and raises ValueError for every other length.", "quantifier": "all keys, Python 2 and 3", "why_tests_cant": "all keys and both interpreters", "anchors": ["nbc/util/pyaes/aes.py:AES.__init__"]}
{"id": "C71", "title": "Wallet encryption is AES-128-CBC", "statement": "Wallet data is encrypted with AES-128 in CBC mode with a zero iv under the first 16 bytes of the passphrase (NUL-padded), after zero padding to whole blocks; decryption with the same passphrase returns the padded data for 1 to 240 bytes and raises ValueError for other sizes.", "quantifier": "all data and passphrases", "why_tests_cant": "all byte strings", "anchors": ["nbc/wallet/address.py:_aesEncrypt", "nbc/wallet/address.py:_aesDecrypt"]}
{"id": "C72", "title": "Canonical signature encoders give the low s", "statement": "sigencode_*_canonize encodes (r, min(s, order - s)), so that of the two valid signatures for a nonce the one with s <= order/2 is written.", "quantifier": "all r, s and orders", "why_tests_cant": "2^256 values of s; the failing ones are a vanishing fraction", "anchors": ["nbc/util/ecdsa/util.py:sigencode_der_canonize", "nbc/util/ecdsa/util.py:sigencode_string_canonize", "nbc/util/ecdsa/util.py:sigencode_strings_canonize"]}
{"id": "C73", "title": "Deterministic nonces equal RFC 6979", "statement": "generate_k returns the nonce RFC 6979 prescribes for the order, private key and message hash, for any HMAC, including the retries after a rejected candidate.", "quantifier": "all orders, keys, hashes and HMAC functions, Python 2 and 3", "why_tests_cant": "retries occur with probability 2^-128 on secp256k1", "anchors": ["nbc/util/ecdsa/rfc6979.py:generate_k", "nbc/util/ecdsa/rfc6979.py:bits2int", "nbc/util/ecdsa/rfc6979.py:bits2octets"]}
{"id": "C74", "title": "Address texts denote the standard addresses", "statement": "Every IPv4 dotted quad and every IPv6 text, full or with one '::', is accepted by the address format and serialised as the 16 bytes that the standard gives for it, IPv4 in the IPv4-mapped range.", "quantifier": "all texts", "why_tests_cant": "unbounded set of texts", "anchors": ["nbc/protocol/format.py:FtIPAddress.binary", "nbc/protocol/format.py:FtIPAddress._ipv6_groups", "nbc/protocol/format.py:FtIPAddress._ipv4_groups"]}
{"id": "C75", "title": "Message bytes have the documented layout", "statement": "The bytes of every message are the network magic, the NUL-padded command, the length, the checksum and the fields in the order and encoding documented for the command, sizes as shortest CompactSize; and any bytes in that layout are parsed to the message they encode.", "quantifier": "all commands, field values, magics and trailing bytes", "why_tests_cant": "all field values and nested variable-length structures", "anchors": ["nbc/protocol/messages.py:Message.binary", "nbc/protocol/messages.py:Message.parse", "nbc/protocol/format.py:FormatType", "nbc/protocol/format.py:FtVarInteger", "nbc/protocol/format.py:FtVarString"]}
{"id": "C76", "title": "Accepted DER signatures", "statement": "The strict signature decoder accepts exactly the encodings of a SEQUENCE of two non-negative INTEGERs with no byte missing and none left over; the liberal one used by ecc.verify accepts exactly those sequences with any bytes after them.", "quantifier": "all byte strings", "why_tests_cant": "all byte strings, accepted or not", "anchors": ["nbc/util/ecdsa/util.py:sigdecode_der", "nbc/util/ecc.py:sigdecode_der", "nbc/util/ecdsa/der.py:read_length"]}
{"id": "C77", "title": "Shared secret is symmetric", "statement": "shared_secret(B's public key, A's WIF private key) and shared_secret(A's public key, B's WIF private key) return the same 32 bytes, the x coordinate of the product of both private keys with the generator, for compressed and uncompressed keys.", "quantifier": "all pairs of key pairs", "why_tests_cant": "2^512 pairs of keys", "anchors": ["nbc/util/ecc.py:shared_secret"]}
{"id": "C78", "title": "Children follow BIP-32", "statement": "child(i) of a private or watch-only HD wallet is the key, chain code, depth, index and parent fingerprint that BIP-32 prescribes, and fails exactly where BIP-32 calls the child invalid.", "quantifier": "all wallets, indices and HMAC functions", "why_tests_cant": "invalid children occur with probability 2^-127; 2^32 indices of 2^512 keys", "anchors": ["nbc/wallet/hdwallet.py:HDWallet.child"]}
{"id": "C79", "title": "Compressing and decompressing addresses", "statement": "Address.compress and Address.decompress keep the key pair, virtual chain number and network, and undo each other.", "quantifier": "all addresses, private and watch-only", "why_tests_cant": "2^256 keys; a quarter of them behave differently", "anchors": ["nbc/wallet/address.py:Address.compress", "nbc/wallet/address.py:Address.decompress"]}
{"id": "C80", "title": "Generated addresses", "statement": "Address.generate returns the address of the private key that was drawn, in range, with the requested compression, virtual chain number and network.", "quantifier": "all random draws and options", "why_tests_cant": "2^256 draws", "anchors": ["nbc/wallet/address.py:Address.generate", "nbc/wallet/address.py:Address.__init__"]}
{"id": "C81", "title": "Public keys are checked", "statement": "Address(pubKey) accepts only the texts of points of the curve.", "quantifier": "all byte strings", "why_tests_cant": "all byte strings", "anchors": ["nbc/wallet/address.py:Address.__init__"]}
{"id": "C82", "title": "Address of a combined key", "statement": "get_address(public_key, private_key) returns the address of the sum of the public key's point and the point of the private key, for every valid public key and private key.", "quantifier": "all 65-octet public keys, private key texts and versions", "why_tests_cant": "all pairs of keys", "anchors": ["nbc/util/piecewise.py:get_address"]}
{"id": "C83", "title": "All shares are needed", "statement": "The shares of split_private_key without one of them reveal nothing of the key: the same shares are part of a split of every other key (save, at most, the one key that would need a drawn share of zero).", "quantifier": "all keys, counts, draws, missing shares and alternative keys", "why_tests_cant": "information-theoretic statement over all keys and entropies", "anchors": ["nbc/util/piecewise.py:split_private_key", "nbc/util/piecewise.py:combine_private_keys"]}
{"id": "C84", "title": "Shape of a partial split", "statement": "partial_split_private_key returns `total` sets of `required` different keys each, and every key starts with 6C, as documented.", "quantifier": "all keys, required/total and entropies", "why_tests_cant": "the prefix must hold for all 2^304 payloads", "anchors": ["nbc/util/piecewise.py:partial_split_private_key"]}
{"id": "C85", "title": "Finding a coin", "statement": "get_coin(name, symbol) returns the coin whose name or one of whose symbols is the given text, in any case of letters, and None when neither is known.", "quantifier": "all names and symbols, given or not", "why_tests_cant": "all texts", "anchors": ["nbc/coins/__init__.py:get_coin", "nbc/coins/newbitcoin.py:Newbitcoin"]}
{"id": "C86", "title": "PEM files of keys", "statement": "to_pem writes a key as PEM with lines of 64 characters and from_pem reads the same key back, also from files with other line breaks or, for private keys, with other sections before the key.", "quantifier": "all keys, layouts and preceding sections", "why_tests_cant": "all keys and all layouts", "anchors": ["nbc/util/ecdsa/der.py:topem", "nbc/util/ecdsa/der.py:unpem", "nbc/util/ecdsa/keys.py:VerifyingKey.to_pem", "nbc/util/ecdsa/keys.py:VerifyingKey.from_pem", "nbc/util/ecdsa/keys.py:SigningKey.to_pem", "nbc/util/ecdsa/keys.py:SigningKey.from_pem"]}
{"id": "C87", "title": "Key objects sign and verify", "statement": "A signature made by a signing key is accepted by its verifying key with any of the library's signature encodings; verify returns True exactly for valid ECDSA signatures and raises otherwise, never returning False.", "quantifier": "all keys, digests, nonces and the six encodings", "why_tests_cant": "2^512 keys and nonces; the failing nonces are a 2^-128 fraction", "anchors": ["nbc/util/ecdsa/keys.py:SigningKey.sign_digest", "nbc/util/ecdsa/keys.py:SigningKey.sign_number", "nbc/util/ecdsa/keys.py:VerifyingKey.verify_digest", "nbc/util/ecdsa/keys.py:SigningKey.sign", "nbc/util/ecdsa/keys.py:VerifyingKey.verify"]}
{"id": "C88", "title": "Deterministic signatures", "statement": "sign_deterministic returns the ECDSA signature with the nonce that RFC 6979 prescribes for the key and the message hash, and the key's verifying key accepts it.", "quantifier": "all keys, messages, hash and HMAC functions, Python 2 and 3", "why_tests_cant": "all keys and messages; rejected candidates occur with probability 2^-128", "anchors": ["nbc/util/ecdsa/keys.py:SigningKey.sign_deterministic", "nbc/util/ecdsa/keys.py:SigningKey.sign_digest_deterministic", "nbc/util/ecdsa/rfc6979.py:generate_k"]}
{"id": "C89", "title": "Generated signing keys", "statement": "SigningKey.generate returns the key of the first number in [1, order) that is drawn, with the verifying key for its multiple of the generator.", "quantifier": "all entropy sources and curves", "why_tests_cant": "2^256 draws", "anchors": ["nbc/util/ecdsa/keys.py:SigningKey.generate", "nbc/util/ecdsa/util.py:randrange"]}
{"id": "C90", "title": "Divisors, multiples and powers", "statement": "gcd and lcm of any list return a greatest common divisor and a least common multiple of the numbers (positive for positive numbers), and modular_exp(b, e, m) is b^e mod m, refusing negative exponents.", "quantifier": "all lists of integers, bases, exponents and moduli", "why_tests_cant": "unbounded", "anchors": ["nbc/util/ecdsa/numbertheory.py:gcd", "nbc/util/ecdsa/numbertheory.py:lcm", "nbc/util/ecdsa/numbertheory.py:gcd2", "nbc/util/ecdsa/numbertheory.py:lcm2", "nbc/util/ecdsa/numbertheory.py:modular_exp"]}
{"id": "C91", "title": "Primality test", "statement": "is_prime(n) is True exactly for the prime numbers.", "quantifier": "all integers", "why_tests_cant": "the composites that pass are too rare to meet by sampling", "anchors": ["nbc/util/ecdsa/numbertheory.py:is_prime"]}
{"id": "C92", "title": "Next prime", "statement": "next_prime(v) returns the least prime above v.", "quantifier": "all integers", "why_tests_cant": "infinitely many starting values; the loop must end for each", "anchors": ["nbc/util/ecdsa/numbertheory.py:next_prime"]}
{"id": "C93", "title": "Factorisation", "statement": "factorization(n) returns the primes that divide n with their multiplicities, in increasing order, and their product is n.", "quantifier": "all integers", "why_tests_cant": "unbounded", "anchors": ["nbc/util/ecdsa/numbertheory.py:factorization"]}
{"id": "C94", "title": "Totient", "statement": "phi(n) is the number of integers from 1 to n coprime to n.", "quantifier": "all positive integers", "why_tests_cant": "unbounded", "anchors": ["nbc/util/ecdsa/numbertheory.py:phi"]}
{"id": "C95", "title": "Universal exponent", "statement": "carmichael(n) is the least positive t with x^t = 1 mod n for all x coprime to n.", "quantifier": "all positive integers and all residues", "why_tests_cant": "unbounded", "anchors": ["nbc/util/ecdsa/numbertheory.py:carmichael", "nbc/util/ecdsa/numbertheory.py:carmichael_of_factorized", "nbc/util/ecdsa/numbertheory.py:carmichael_of_ppower"]}
{"id": "C96", "title": "Orders of residues", "statement": "order_mod(x, m) is the least positive k with x^k = 1 mod m and raises when x and m are not coprime; largest_factor_relatively_prime(a, b) is the largest divisor of a coprime to b; kinda_order_mod(x, m) is the order of x modulo the largest divisor of m coprime to x.", "quantifier": "all integers", "why_tests_cant": "unbounded", "anchors": ["nbc/util/ecdsa/numbertheory.py:order_mod", "nbc/util/ecdsa/numbertheory.py:largest_factor_relatively_prime", "nbc/util/ecdsa/numbertheory.py:kinda_order_mod"]}
{"id": "C97", "title": "Port mappings", "statement": "add_portmap redirects the first free external port from the given one up to this host and leaves every other mapping of the gateway alone; it returns None, without changing a mapping, when the gateway cannot be used.", "quantifier": "all gateways, ports and answers of the gateway", "why_tests_cant": "all sets of 65535 mappings", "anchors": ["nbc/node/__init__.py:add_portmap", "nbc/node/__init__.py:_init_upnp"]}
{"id": "C98", "title": "Serving", "statement": "serve_forever runs the event loop until the node is stopped, then closes the node, passes on exceptions other than the stop, and leaves the gateway's port mappings as they were before.", "quantifier": "all gateways, platforms and ways the loop ends", "why_tests_cant": "all gateway states and platforms", "anchors": ["nbc/node/basenode.py:BaseNode.serve_forever", "nbc/node/__init__.py:remove_portmap"]}
{"id": "C99", "title": "DNS seeds are neither lost nor repeated", "statement": "Whatever the interleaving of the seeds' threads and the callers, the addresses returned by pop and those still waiting are together exactly those the seeds have delivered, with multiplicity; pop raises IndexError exactly when none is waiting; after a non-zero len a sole consumer's pop succeeds.", "quantifier": "all answers of the seeds and all schedules", "why_tests_cant": "all interleavings of any number of threads", "anchors": ["nbc/util/bootstrap.py:DNSSeeder"]}
{"id": "C100", "title": "Guessing the block height", "statement": "guess_block_height returns within its timeout, as soon as the last source has ended, with an entry for every source that answered in time and for no source that failed or has not answered.", "quantifier": "all lists of sources, their delays, outcomes and timeouts", "why_tests_cant": "all interleavings and delays", "anchors": ["nbc/util/__init__.py:guess_block_height"]}
{"id": "C101", "title": "Numbers from web pages", "statement": "The function made by fetch_url_json_path_int returns the integer at the given path of the page, through objects by key and arrays by index, and None when there is none; that of fetch_url_int returns the integer that is the page and None otherwise.", "quantifier": "all pages, JSON values and paths", "why_tests_cant": "unbounded nesting", "anchors": ["nbc/util/__init__.py:fetch_url_json_path_int", "nbc/util/__init__.py:fetch_url_int"]}
{"id": "C102", "title": "Numbers with commas", "statement": "commify writes the sign, then the decimal digits of the absolute value with a comma before each full group of three digits counted from the right.", "quantifier": "all integers", "why_tests_cant": "unbounded", "anchors": ["nbc/util/__init__.py:commify"]}
{"id": "C103", "title": "The version message opens every connection", "statement": "On every connection that is dialled or accepted, our version message - to that peer's address, with our protocol version, user agent and height - is the first message sent and the only version message; a connection whose dialling failed is closed and sends nothing.", "quantifier": "all histories of socket events, messages received and API calls", "why_tests_cant": "all interleavings of connections and messages", "anchors": ["nbc/node/connection.py:Connection.__init__", "nbc/node/connection.py:Connection.send_message", "nbc/node/basenode.py:BaseNode.add_peer", "nbc/node/basenode.py:BaseNode.handle_accept"]}
{"id": "C104", "title": "A node keeps listening", "statement": "No history of peers, messages and errors closes the listening socket of a running node: every later incoming connection is accepted.", "quantifier": "all histories of socket events, messages received and API calls", "why_tests_cant": "all histories", "anchors": ["nbc/node/basenode.py:BaseNode.handle_accept", "nbc/node/basenode.py:BaseNode.handle_error", "nbc/node/connection.py:Connection.__init__"]}
{"id": "C105", "title": "Logging does not change behaviour", "statement": "Whatever the node's log level, a message can be logged: sending and handling a message has the same effects at every level as at the lowest.", "quantifier": "all messages that can be built or are received, all log levels", "why_tests_cant": "all messages; the failing ones need uncommon fields", "anchors": ["nbc/protocol/messages.py:Message.__str__", "nbc/protocol/messages.py:Message._debug", "nbc/protocol/messages.py:Alert.__str__", "nbc/protocol/messages.py:Block._debug", "nbc/protocol/format.py:FtArray.str", "nbc/node/connection.py:Connection.send_message", "nbc/node/connection.py:Connection.handle_message"]}
{"id": "C106", "title": "Received messages can be sent on", "statement": "Every message accepted from the network can be serialised again, for any network, and whoever reads it there gets a message with the same fields.", "quantifier": "all messages received, all networks", "why_tests_cant": "all byte strings", "anchors": ["nbc/protocol/messages.py:Message.parse", "nbc/protocol/messages.py:Message.binary", "nbc/protocol/format.py:FormatType.binary"]}
{"id": "C107", "title": "Numbers derived from seeds", "statement": "Each randrange_from_seed function turns every seed into a number in [1, order), always the same one: the try-again method into the first number below order - 1, plus one, among the groups of bits of the hash stream, reaching every number of the range equally; different seeds use different hash inputs.", "quantifier": "all seeds and orders, any hash function", "why_tests_cant": "all seeds; the failing digests are rare", "anchors": ["nbc/util/ecdsa/util.py:PRNG", "nbc/util/ecdsa/util.py:randrange_from_seed__trytryagain", "nbc/util/ecdsa/util.py:randrange_from_seed__overshoot_modulo", "nbc/util/ecdsa/util.py:randrange_from_seed__truncate_bytes", "nbc/util/ecdsa/util.py:randrange_from_seed__truncate_bits", "nbc/util/ecdsa/util.py:bits_and_bytes"]}
{"id": "C108", "title": "Hashes of received transactions and headers", "statement": "The hash of a transaction read from the network is the double SHA-256 of the bytes received, that of a header of its first 80 bytes.", "quantifier": "all encodings of transactions and headers", "why_tests_cant": "all byte strings; the failing ones have uncommon sizes", "anchors": ["nbc/protocol/format.py:Txn.hash", "nbc/protocol/format.py:BlockHeader.hash", "nbc/protocol/format.py:FtVarInteger.binary"]}
{"id": "C109", "title": "A block and its header agree", "statement": "BlockHeader.from_block and Block.from_block of one block give the same six header fields and the same first 80 bytes, the header counts the block's transactions, and its hash is the double SHA-256 of the first 80 bytes of the block message.", "quantifier": "all block objects", "why_tests_cant": "unbounded", "anchors": ["nbc/protocol/format.py:BlockHeader.from_block", "nbc/protocol/messages.py:Block.from_block"]}
{"id": "C110", "title": "Difficulty of a header", "statement": "get_difficulty(bits) is the double nearest to the quotient of the difficulty-one target and the target that bits encodes; it raises ZeroDivisionError exactly for a zero mantissa and OverflowError exactly for targets of 2^1024 and above; a smaller target never has a smaller difficulty.", "quantifier": "all compact targets", "why_tests_cant": "rounding of a quotient at 2^32 values and beyond", "anchors": ["nbc/util/__init__.py:get_difficulty", "nbc/util/__init__.py:DifficultyOneTarget"]}
{"id": "C111", "title": "Every reply has its request", "statement": "On each connection the node says nothing but version, ping and getaddr messages, what the application sends, and the answers that directly follow a received message: one verack for each version message, one pong with the same nonce for each ping, at most one addr for a getaddr. It never relays anything unasked.", "quantifier": "all histories of socket events, messages received and API calls", "why_tests_cant": "all histories and interleavings", "anchors": ["nbc/node/connection.py:Connection.handle_message", "nbc/node/basenode.py:BaseNode.command_ping", "nbc/node/basenode.py:BaseNode.command_version", "nbc/node/basenode.py:BaseNode.command_get_address", "nbc/node/basenode.py:BaseNode._heartbeat", "nbc/node/connection.py:Connection.readable"]}
{"id": "C112", "title": "What a connection reports of its peer", "statement": "version, services, user_agent, start_height, relay and external_ip of a connection are those of the last version message received on it, and None before the first; verack is True exactly after a verack was received. Nothing else that happens changes them.", "quantifier": "all histories of socket events, messages received and API calls", "why_tests_cant": "all histories and interleavings", "anchors": ["nbc/node/connection.py:Connection.handle_message", "nbc/node/connection.py:Connection.verack", "nbc/node/connection.py:Connection.user_agent", "nbc/node/connection.py:Connection.external_ip"]}
{"id": "C113", "title": "Addresses in the book come from peers", "statement": "Every entry of the address book is one that a received addr message contained, with that timestamp and those services, or the address of a peer that acknowledged our version, with the services it announced.", "quantifier": "all histories of socket events, messages received and API calls", "why_tests_cant": "all histories", "anchors": ["nbc/node/basenode.py:BaseNode.command_address", "nbc/node/basenode.py:BaseNode.command_version_ack", "nbc/node/basenode.py:BaseNode.disconnected"]}
{"id": "C114", "title": "A closed connection is silent", "statement": "Once a connection has been closed it is never a peer again, nothing is received, handled or pinged on it and no byte of its queue is sent; connections keep their address and direction, and nothing happens on one before it is made.", "quantifier": "all histories of socket events, messages received and API calls", "why_tests_cant": "all histories and interleavings", "anchors": ["nbc/node/connection.py:Connection.handle_close", "nbc/node/connection.py:Connection.handle_read", "nbc/node/connection.py:Connection.handle_write", "nbc/node/connection.py:Connection.readable", "nbc/node/basenode.py:BaseNode.peers"]}
{"id": "C115", "title": "Every connection has a reason", "statement": "Every incoming connection was accepted by a listening node; every outgoing one goes to a bootstrap address, to an address given to add_peer, or to one that a peer had announced before or that had acknowledged us before.", "quantifier": "all histories of socket events, messages received and API calls", "why_tests_cant": "all histories and random choices", "anchors": ["nbc/node/basenode.py:BaseNode.add_any_peer", "nbc/node/basenode.py:BaseNode.add_peer", "nbc/node/basenode.py:BaseNode.handle_accept", "nbc/node/basenode.py:BaseNode.heartbeat"]}
{"id": "C116", "title": "A node is told once that a connection is closed", "statement": "disconnected is called exactly once for each connection that was closed, and for no other.", "quantifier": "all histories of socket events, messages received and API calls", "why_tests_cant": "all histories", "anchors": ["nbc/node/connection.py:Connection.handle_close", "nbc/node/connection.py:Connection.handle_read", "nbc/node/basenode.py:BaseNode.disconnected"]}
{"id": "C117", "title": "What is recorded of a peer that acknowledges us", "statement": "When a verack arrives and the book is not full, the peer's address is recorded with the services it announced and the time at which it was last heard; no other entry changes.", "quantifier": "all states with room in the book, all connections and clocks", "why_tests_cant": "all states", "anchors": ["nbc/node/basenode.py:BaseNode.command_version_ack", "nbc/node/connection.py:Connection.timestamp"]}
{"id": "C118", "title": "Integers as byte strings", "statement": "int_to_string gives the shortest big-endian byte string of every non-negative integer (one zero byte for zero) and refuses negative ones; string_to_int gives the number that a byte string denotes, so that reading back is the identity; digest_integer hashes that shortest string; twos_comp(val, bits) is the number congruent to val in the signed range of bits bits.", "quantifier": "all integers, byte strings and widths", "why_tests_cant": "unbounded", "anchors": ["nbc/util/ecdsa/ecdsa.py:int_to_string", "nbc/util/ecdsa/ecdsa.py:string_to_int", "nbc/util/ecdsa/ecdsa.py:digest_integer", "nbc/util/ecc.py:twos_comp"]}
{"id": "C119", "title": "The node is the table of its sockets", "statement": "Used as a mapping, the node holds its listening socket, while open, and every open connection exactly once, each under its own file descriptor and in the order in which they were made, also when the system reuses descriptors; peers lists the open connections and len counts all entries.", "quantifier": "all histories and all unused descriptors the system may hand out", "why_tests_cant": "all histories and descriptor choices", "anchors": ["nbc/node/basenode.py:BaseNode.__getitem__", "nbc/node/basenode.py:BaseNode.__setitem__", "nbc/node/basenode.py:BaseNode.__delitem__", "nbc/node/basenode.py:BaseNode.__len__", "nbc/node/basenode.py:BaseNode.values", "nbc/node/basenode.py:BaseNode.peers"]}
{"id": "C120", "title": "Comparing connections", "statement": "Two connections compare equal exactly when they are the same connection, and looking a connection up in a list, in a set or among the node's peers tells whether it is there.", "quantifier": "all connections and all lists and sets of them", "why_tests_cant": "all lists", "anchors": ["nbc/node/connection.py:Connection.__eq__", "nbc/node/connection.py:Connection.__hash__"]}
{"id": "C121", "title": "The list of bans", "statement": "The list of bans holds, for every IP and nothing else, the time of its last ban; each ban was imposed by the punishment of a connection with that IP and with five points or more, and none is ever dropped.", "quantifier": "all histories of socket events, messages received and API calls", "why_tests_cant": "all histories", "anchors": ["nbc/node/basenode.py:BaseNode.punish_peer", "nbc/node/basenode.py:BaseNode.handle_accept"]}
{"id": "C122", "title": "Creating a node", "statement": "A node is created exactly when its socket can be created, bound and listened on; it takes incoming connections exactly when an address was given, and its address is the one it is bound to; an address in use is reported by AddrInUseError.", "quantifier": "all addresses and answers of the system, all platforms", "why_tests_cant": "needs every failure of the system calls on every platform", "anchors": ["nbc/node/basenode.py:BaseNode.__init__", "nbc/node/__init__.py:AddrInUseError"]}
{"id": "C123", "title": "The older RawNode", "statement": "A RawNode of raw_.py that serves accepts the connections that arrive.", "quantifier": "all sequences of arriving connections, Python 2 and 3", "why_tests_cant": "all sequences of arrivals", "anchors": ["nbc/node/raw_.py:RawNode.serve_forever", "nbc/node/raw_.py:RawNode.__init__", "nbc/node/raw_.py:RawNode.handle_accept"]}
{"id": "C124", "title": "A node is true", "statement": "A node counts as true in conditions, so that its event loop does not end by itself.", "quantifier": "all histories, Python 2 and 3", "why_tests_cant": "all histories", "anchors": ["nbc/node/basenode.py:BaseNode.__nonzero__", "nbc/node/basenode.py:BaseNode.__len__", "nbc/node/basenode.py:BaseNode.serve_forever"]}
{"id": "C125", "title": "The six curves are groups of prime order", "statement": "For each of the library's six curves the field and the order are prime, point addition is associative and commutative with neutral INFINITY and inverses, P * e is the e-fold sum of P (for every integer e if P carries its order, as generators and public keys do, and for 0 <= e < 2 * order - 2 if it does not), order * P is INFINITY, every point is exactly one multiple of the generator below the order, and point_is_valid accepts exactly the curve points in its coordinate range.", "quantifier": "all points of all six curves, all integers e", "why_tests_cant": "2^521 points; the orders cannot be counted", "anchors": ["nbc/util/ecdsa/curves.py:curves", "nbc/util/ecdsa/ecdsa.py:generator_192", "nbc/util/ecdsa/ecdsa.py:generator_521", "nbc/util/ecdsa/ellipticcurve.py:Point.__add__", "nbc/util/ecdsa/ellipticcurve.py:Point.__mul__", "nbc/util/ecdsa/ecdsa.py:point_is_valid"]}
{"id": "C126", "title": "Two nodes understand each other", "statement": "When two nodes of the same coin are joined by a connection that delivers a prefix of what was written, each hears exactly the first messages that the other said, in order and with the values given, and reports none as malformed; once it has heard anything it reports the other's protocol version, services, user agent, height and the address at which it is itself reached; when both have read everything both have acknowledged each other.", "quantifier": "all pairs of histories of the two nodes, all ways the network splits and delays the bytes, all messages, headers excepted, that applications make with the constructors and send", "why_tests_cant": "all interleavings and splits of two programs", "anchors": ["nbc/node/basenode.py:BaseNode.command_version", "nbc/node/basenode.py:BaseNode.command_version_ack", "nbc/node/connection.py:Connection.__init__", "nbc/node/connection.py:Connection.handle_message", "nbc/protocol/messages.py:Message.binary", "nbc/protocol/messages.py:Message.parse"]}
{"id": "C127", "title": "Watch-only wallets stay watch-only", "statement": "However children are derived, addresses compressed or decompressed and wallets saved and loaded with any passphrases, a wallet made without a private key never acquires one: it cannot sign, derive hardened children or export an extended private key, and its files hold no private key; and one made with a private key always keeps a usable one.", "quantifier": "all wallets and all sequences of derivation, conversion, saving and loading with all passphrases", "why_tests_cant": "all sequences of operations", "anchors": ["nbc/wallet/__init__.py:loadFrom", "nbc/wallet/__init__.py:saveTo", "nbc/wallet/address.py:Address.compress", "nbc/wallet/address.py:Address.decompress", "nbc/wallet/address.py:Address.sign", "nbc/wallet/hdwallet.py:HDWallet.child", "nbc/wallet/hdwallet.py:HDWallet.sign", "nbc/wallet/hdwallet.py:HDWallet.to_extended_key"]}
{"id": "C128", "title": "Texts of different kinds are told apart", "statement": "Addresses start with 1 (test network: R), private keys with 5, K or L, extended keys with xpub, xprv, tpub or tprv; an address, an extended key, a private key given as a public key or a public key given as a private key is always refused with ValueError.", "quantifier": "all keys, vcns, networks and HD wallets, any hash function with results of 32 bytes", "why_tests_cant": "all keys and all values of the checksum", "anchors": ["nbc/wallet/address.py:Address.__init__", "nbc/util/key.py:privkey_from_wif", "nbc/util/key.py:publickey_to_address", "nbc/wallet/hdwallet.py:HDWallet.to_extended_key"]}
{"id": "C129", "title": "Two nodes left alone fall silent", "statement": "While the timers, the dialling and the application of a node rest, it says nothing on a connection but verack, pong and addr messages, at most one for each version, ping or getaddr it reads there. Of two connected nodes left alone, each says from then on at most as many messages as requests of the other were still unread; once it has read all that the other had said it never says anything again. Over their whole lives the replies of one never outnumber the requests of the other.", "quantifier": "all pairs of histories and continuations, all ways the network splits and delays the bytes", "why_tests_cant": "all continuations, without bound on their length", "anchors": ["nbc/node/connection.py:Connection.handle_message", "nbc/node/basenode.py:BaseNode.command_ping", "nbc/node/basenode.py:BaseNode.command_version", "nbc/node/basenode.py:BaseNode.command_get_address", "nbc/node/basenode.py:BaseNode.command_version_ack", "nbc/node/basenode.py:BaseNode.command_pong"]}
{"id": "C130", "title": "Connections do not interfere", "statement": "An event of one connection, an incoming connection or a call of add_peer leaves every other connection exactly as it was, and remove_peer touches only connections to the given address. What a connection receives, handles, sends and records is determined by its own state and events, whatever happens on other connections and in whatever order (answers to getaddr on Python 2 excepted). The timer of the node only lowers the score of an open connection and may send it one getaddr.", "quantifier": "all states, pairs of histories and continuations", "why_tests_cant": "all interleavings of any number of connections", "anchors": ["nbc/node/connection.py:Connection.handle_read", "nbc/node/connection.py:Connection.handle_write", "nbc/node/connection.py:Connection.readable", "nbc/node/connection.py:Connection.handle_message", "nbc/node/basenode.py:BaseNode.punish_peer", "nbc/node/basenode.py:BaseNode.remove_peer", "nbc/node/basenode.py:BaseNode.heartbeat"]}
{"id": "C131", "title": "Watch-only wallets check what private wallets sign", "statement": "A signature made by a wallet derived from a private HD wallet without hardened steps is accepted by the wallet derived at the same indices from its watch-only counterpart, which can itself sign nothing.", "quantifier": "all wallets, paths, messages and nonces", "why_tests_cant": "all keys, paths and nonces; the failing signatures have probability 2^-128", "anchors": ["nbc/wallet/hdwallet.py:HDWallet.child", "nbc/wallet/hdwallet.py:HDWallet.sign", "nbc/wallet/hdwallet.py:HDWallet.verify"]}
{"id": "C132", "title": "A child's private key does not give away its parent", "statement": "From a watch-only wallet and the private key of one of its children nobody can compute the private key of the wallet.", "quantifier": "all wallets and paths", "why_tests_cant": "all wallets; a statement about every procedure", "anchors": ["nbc/wallet/hdwallet.py:HDWallet.child", "nbc/wallet/hdwallet.py:HDWallet.to_extended_key"]}
{"id": "C133", "title": "A node that lacks peers finds them", "statement": "While a node has fewer peers than it seeks and knows addresses it is not connected to, every heartbeat dials the next of them, as many as peers are missing but at most five; those that answer become peers, the others are forgotten. So after finitely many heartbeats the number sought is reached or every known address has been tried.", "quantifier": "all histories of the node, all outcomes of the dialled connections", "why_tests_cant": "all histories; the failing ones need an uncommon announcement", "anchors": ["nbc/node/basenode.py:BaseNode.heartbeat", "nbc/node/basenode.py:BaseNode.add_any_peer", "nbc/node/basenode.py:BaseNode.add_peer", "nbc/node/basenode.py:BaseNode.disconnected"]}
{"id": "C134", "title": "A peer cannot make the node say more than it said itself", "statement": "On every connection the verack, pong and addr messages that the node says there are together no longer than what it has received there, so that the node cannot be used to amplify traffic.", "quantifier": "all histories in which the application itself sends no such messages, all peers", "why_tests_cant": "all histories; a bound on sums", "anchors": ["nbc/node/basenode.py:BaseNode.command_ping", "nbc/node/basenode.py:BaseNode.command_version", "nbc/node/basenode.py:BaseNode.command_get_address", "nbc/node/connection.py:Connection.handle_message", "nbc/node/connection.py:Connection.send_message"]}
{"id": "C135", "title": "Key files follow the published formats", "statement": "On each of the six curves to_der of a public key is the structure of RFC 5480 and that of a private key the structure of RFC 5915, with the published object identifier of the curve and the numbers as bytes of the fixed length, and to_pem is its base64 text (RFC 4648) in lines of 64 characters between the lines that name the kind of key.", "quantifier": "all keys of all six curves", "why_tests_cant": "all keys; a round trip does not notice a private dialect", "anchors": ["nbc/util/ecdsa/keys.py:VerifyingKey.to_der", "nbc/util/ecdsa/keys.py:VerifyingKey.to_pem", "nbc/util/ecdsa/keys.py:SigningKey.to_der", "nbc/util/ecdsa/keys.py:SigningKey.to_pem", "nbc/util/ecdsa/der.py:topem", "nbc/util/ecdsa/curves.py:curves"]}
{"id": "C136", "title": "A peer that does not read cannot fill the memory", "statement": "What the node keeps for a connection, the bytes received and not yet handled and the bytes waiting to be sent, stays below a bound that does not depend on how long the connection lasts.", "quantifier": "all histories, all peers", "why_tests_cant": "all histories without bound on their length", "anchors": ["nbc/node/connection.py:Connection.send_message", "nbc/node/connection.py:Connection.writable", "nbc/node/connection.py:Connection.handle_message", "nbc/node/basenode.py:BaseNode.command_ping"]}
{"id": "C137", "title": "A signed alert is found genuine by everyone who receives it", "statement": "An alert that is packed and signed with a private key, sent over the wire and parsed by another node is found genuine by verify under the matching public key and shows the fields that were signed; verify answers True only for a valid signature of exactly the payload whose fields are shown.", "quantifier": "all alerts, keys, nonces and orders of reading", "why_tests_cant": "all keys, payloads and nonces", "anchors": ["nbc/protocol/messages.py:Alert.verify", "nbc/protocol/messages.py:Alert._parse_and_get", "nbc/protocol/messages.py:Message.parse", "nbc/util/ecc.py:verify", "nbc/util/ecc.py:sign"]}
{"id": "C138", "title": "A short message does not become a large object", "statement": "What parsing makes of the bytes of a message, the bytes of its byte strings and the items of its lists together, is never larger than the payload that arrived.", "quantifier": "all byte strings, all message classes, all numbers of announced items", "why_tests_cant": "every byte string a peer may send; the failing frames announce items that do not follow", "anchors": ["nbc/protocol/messages.py:Message.parse", "nbc/protocol/format.py:FtArray.parse", "nbc/protocol/format.py:FtVarString.parse", "nbc/protocol/format.py:FtBytes.parse"]}
{"id": "C139", "title": "Different keys have different addresses", "statement": "Two wallets that show the same address are of the same network and vcn and have the same public key, and if both have private keys the same private key, unless an explicit collision of the hash functions is at hand.", "quantifier": "all wallets of both kinds, all keys, vcns and networks, any hash functions with results of the usual length", "why_tests_cant": "all pairs of keys", "anchors": ["nbc/wallet/address.py:Address.__init__", "nbc/wallet/hdwallet.py:HDWallet.address", "nbc/util/key.py:publickey_to_address"]}
{"id": "C140", "title": "Printing a wallet does not show its private key", "statement": "str of a wallet tells its kind, its address and whether it has a private key, and nothing else: two wallets have the same text exactly if they agree in these three.", "quantifier": "all wallets, Python 2 and 3", "why_tests_cant": "all private keys; a statement about pairs of wallets", "anchors": ["nbc/wallet/address.py:Address.__str__", "nbc/wallet/hdwallet.py:HDWallet.__str__"]}
{"id": "C141", "title": "A nonce used twice gives the private key away", "statement": "From two signatures of different numbers made with one key and one nonce everybody computes the private key, and from one signature whoever knows its nonce; two signatures have the same r exactly if their nonces are equal or add up to the order, so reuse is visible to everybody, and then the key is one of two numbers that can be computed.", "quantifier": "all keys of the six curves, all nonces and numbers signed", "why_tests_cant": "all keys and nonces", "anchors": ["nbc/util/ecdsa/keys.py:SigningKey.sign_number", "nbc/util/ecdsa/ecdsa.py:Private_key.sign", "nbc/util/ecdsa/numbertheory.py:inverse_mod"]}
{"id": "C142", "title": "Key files are read strictly", "statement": "from_der accepts exactly the DER structures of RFC 5480 and RFC 5915 for a curve of the library, and takes the key from them; anything before, between or after them is refused.", "quantifier": "all byte strings, all six curves", "why_tests_cant": "all byte strings", "anchors": ["nbc/util/ecdsa/keys.py:VerifyingKey.from_der", "nbc/util/ecdsa/keys.py:SigningKey.from_der", "nbc/util/ecdsa/der.py:remove_object", "nbc/util/ecdsa/der.py:remove_constructed", "nbc/util/ecdsa/der.py:remove_bitstring", "nbc/util/ecdsa/der.py:remove_octet_string"]}
{"id": "C143", "title": "What an encrypted wallet gives away", "statement": "Under one passphrase two encrypted texts agree in their first blocks of 16 bytes exactly as far as what was encrypted does, two encrypted private keys are the same text exactly if they are the same key, and the length is given away up to one block. Decryption refuses no text of 1 to 15 blocks under any passphrase: exchanging a block of the text spoils that block of the data, changes exactly the exchanged bits in the next one and leaves the rest as it was.", "quantifier": "all data, passphrases and alterations of a block", "why_tests_cant": "all pairs of texts and passphrases", "anchors": ["nbc/wallet/address.py:_aesEncrypt", "nbc/wallet/address.py:_aesDecrypt", "nbc/wallet/address.py:Address.dump_to_cfg", "nbc/wallet/hdwallet.py:HDWallet.dump_to_cfg"]}
{"id": "C144", "title": "Nodes of different coins do not mix", "statement": "A node that is joined to a node of another coin handles none of its messages: each that arrives is reported as malformed, in order and whatever it is; nothing of the other is learned, recorded, answered, punished or closed, and only the counters and the receive buffer of that connection change.", "quantifier": "all pairs of histories of nodes whose coins have different magics, all ways the network splits and delays the bytes", "why_tests_cant": "all interleavings and splits of two programs", "anchors": ["nbc/protocol/messages.py:Message.parse", "nbc/node/connection.py:Connection.handle_read", "nbc/node/basenode.py:BaseNode.invalid_command", "nbc/coins/newbitcoin.py:Newbitcoin"]}
{"id": "C145", "title": "The version that the ECDSA package reports", "statement": "An archive made by git reports, of the tags that git lists (or, if it names none, of the names with a digit) and that carry the prefix, the first in the order of the dictionary, however the names are ordered or repeated, and its commit if there is none; a checkout reports what git describe prints and says in both places that it is modified; otherwise the name of the directory tells or the version is unknown. The copy in this repository reports the same commit everywhere.", "quantifier": "all lists of names, all answers of git, all platforms and directories", "why_tests_cant": "all lists of names and surroundings", "anchors": ["nbc/util/ecdsa/_version.py:get_versions", "nbc/util/ecdsa/_version.py:versions_from_expanded_variables", "nbc/util/ecdsa/_version.py:versions_from_vcs", "nbc/util/ecdsa/_version.py:versions_from_parentdir", "nbc/util/ecdsa/_version.py:run_command"]}
{"id": "C146", "title": "What is said is written in the end, and heard", "statement": "A connection asks to be written exactly while something said on it is not written. If the connection stays open, its socket takes something sooner or later whenever asked, and the network delivers in the end what was written, then everything that one node says the other hears in the end, in order, before anything said later, and for good.", "quantifier": "all infinite runs of two nodes, all fair sockets and networks, all ways the bytes are split and delayed", "why_tests_cant": "a statement about the whole infinite run; every finite run is too short", "anchors": ["nbc/node/connection.py:Connection.writable", "nbc/node/connection.py:Connection.handle_write", "nbc/node/connection.py:Connection.send_message", "nbc/node/connection.py:Connection.handle_read"]}
{"id": "C147", "title": "Two nodes that run keep their connection", "statement": "Two connected nodes that are polled, write what they have to write and read what arrives within 25 minutes each time never close their connection by the timers, however long both have nothing to say: an idle node pings in time. A poll closes the connection only if the other end was closed before.", "quantifier": "all infinite timed runs of two nodes in which nothing else closes the connection, all delays up to the bound, all other events", "why_tests_cant": "all schedules and delays over unbounded time", "anchors": ["nbc/node/connection.py:Connection.readable", "nbc/node/connection.py:Connection.handle_read", "nbc/node/connection.py:Connection.handle_write", "nbc/node/connection.py:Connection.writable"]}
{"id": "C148", "title": "Announced addresses are learned and told", "statement": "A node that hears an addr message knows each listed address afterwards, with the time and services listed last, and forgets nothing; while its book has not been full it knows every address ever announced to it unless a connection with that address has ended since. Asked with getaddr, it tells the up to 1000 most recent ones, and the asking node knows them once it has read the answer.", "quantifier": "all addr messages, all histories of socket events, messages received and API calls of one node and of two connected nodes", "why_tests_cant": "all histories and interleavings", "anchors": ["nbc/node/basenode.py:BaseNode.command_address", "nbc/node/basenode.py:BaseNode.command_get_address", "nbc/node/basenode.py:BaseNode.disconnected"]}
{"id": "C149", "title": "A peer that falls silent is noticed", "statement": "A connection from which nothing arrives any more is closed within three hours and one polling interval after the last bytes received, and stays closed.", "quantifier": "all infinite timed runs in which the connection is polled at least once in each interval, all other events", "why_tests_cant": "all schedules and delays over unbounded time", "anchors": ["nbc/node/connection.py:Connection.readable", "nbc/node/connection.py:Connection.handle_read", "nbc/node/connection.py:Connection.handle_close"]}
{"id": "C150", "title": "A master seed gives the BIP-32 master wallet", "statement": "HDWallet.from_master_seed gives, for every seed that BIP-32 declares valid, the wallet with the master key and chain code of BIP-32, depth 0, child number 0 and no parent, and refuses the others.", "quantifier": "all seeds, vcns and networks, any HMAC function with results of 64 bytes", "why_tests_cant": "the seeds that matter have probability 2^-128", "anchors": ["nbc/wallet/hdwallet.py:HDWallet.from_master_seed", "nbc/wallet/hdwallet.py:HDWallet.__init__"]}
{"id": "C151", "title": "What the log of a node shows", "statement": "At level INFO the log tells in exactly one line of every message received that is malformed, whose handling failed or that has no method, and of nothing else but failed connections; a line is written exactly if its level is at least the level of the node, so raising the level only takes lines away and above FATAL nothing is written; at the level of a new node only failures are. A connection that the peer refused is reported as refused.", "quantifier": "all histories, frames, states and levels from INFO on, Python 2 and 3", "why_tests_cant": "all frames and levels", "anchors": ["nbc/node/basenode.py:BaseNode.log", "nbc/node/basenode.py:BaseNode.invalid_command", "nbc/node/connection.py:Connection.handle_read", "nbc/node/connection.py:Connection.handle_message", "nbc/node/connection.py:Connection.handle_error"]}
{"id": "C152", "title": "How malformed keys and signatures are refused", "statement": "Whatever bytes are given to the readers of private keys, public keys and signatures, they return a value or raise one of six, five and four exceptions. Bytes that do not start a SEQUENCE are refused with UnexpectedDER, files of curves the library does not have with UnknownCurveError, keys out of range and points off the curve with AssertionError. A caller who catches UnexpectedDER has caught every malformed file.", "quantifier": "all byte strings, the six curves", "why_tests_cant": "all byte strings", "anchors": ["nbc/util/ecdsa/keys.py:SigningKey.from_der", "nbc/util/ecdsa/keys.py:VerifyingKey.from_der", "nbc/util/ecdsa/der.py:read_length", "nbc/util/ecdsa/der.py:remove_object", "nbc/util/ecdsa/util.py:sigdecode_der"]}
{"id": "C153", "title": "A silent peer does not stop the node", "statement": "Every round of the loop that serves a node asks every connection and closes those on which nothing was heard for three hours; the loop goes on whatever the peers do or do not do, for how long the computer is stopped meanwhile, and whatever is left unsent. What is proved of histories holds of every node that is served.", "quantifier": "all states, rounds, times, answers of the system and of the peers, Python 2 and 3", "why_tests_cant": "all states and times; the failing rounds need three hours of silence", "anchors": ["nbc/node/basenode.py:BaseNode.serve_forever", "nbc/node/basenode.py:BaseNode.items", "nbc/node/connection.py:Connection.readable", "nbc/node/connection.py:Connection.writable", "nbc/node/connection.py:Connection.handle_close"]}
{"id": "C154", "title": "What wallet files are loaded as", "statement": "Whatever text a wallet file holds and whatever passphrase is given, loading returns a wallet or raises one of eight exceptions. A wallet that is returned is one that the constructors make: its key is in range or a point of the curve, its chain code has 32 bytes, its vcn 16 bits, its depth is below 256, its address is that of its public key; it shows an address, and it can be saved and loaded again.", "quantifier": "all texts, passphrases and typed answers", "why_tests_cant": "all byte strings a file may hold", "anchors": ["nbc/wallet/__init__.py:loadFrom", "nbc/wallet/hdwallet.py:HDWallet.load_from_cfg", "nbc/wallet/address.py:Address.load_from_cfg", "nbc/wallet/hdwallet.py:HDWallet.__init__", "nbc/wallet/address.py:Address.__init__"]}
{"id": "C155", "title": "Two connected nodes complete the handshake", "statement": "If two nodes of one coin are connected, the connection stays open, the sockets take something sooner or later whenever asked and the network carries the bytes, then from some moment on each has been acknowledged by the other and reports the version, services, user agent and height that the other was configured with and its own address as the other sees it.", "quantifier": "all infinite runs of two nodes, all interleavings, all fair sockets and networks, all ways the bytes are split and delayed, all other connections and messages", "why_tests_cant": "a statement about the whole infinite run; every finite run is too short", "anchors": ["nbc/node/connection.py:Connection.__init__", "nbc/node/connection.py:Connection.handle_read", "nbc/node/connection.py:Connection.handle_write", "nbc/node/basenode.py:BaseNode.command_version", "nbc/node/basenode.py:BaseNode.command_version_ack"]}
{"id": "C156", "title": "A node that is served says what it has to say", "statement": "A node whose loop goes on writes in the end, on every connection that stays open and whose socket has room again and again, everything it says; if the network carries the bytes, the node at the other end, whatever its own loop does meanwhile, hears it, and two served nodes complete the handshake.", "quantifier": "all infinite sequences of rounds of the loops of one and two nodes, all answers of select and of the sockets, Python 2 and 3", "why_tests_cant": "a statement about all infinite executions of the event loop", "anchors": ["nbc/node/basenode.py:BaseNode.serve_forever", "nbc/node/basenode.py:BaseNode.items", "nbc/node/connection.py:Connection.readable", "nbc/node/connection.py:Connection.writable", "nbc/node/connection.py:Connection.handle_write", "nbc/node/connection.py:Connection.handle_read"]}
{"id": "C157", "title": "A served node outlives its silent peers", "statement": "However many rounds the loop of a node has run since a peer was last heard, and whatever happened in them, the first round that asks more than three hours after that closes the connection, and the node goes on serving the others.", "quantifier": "all states, all sequences of rounds of any length, all answers of select and of the sockets, Python 2 and 3", "why_tests_cant": "a statement about hours of uninterrupted service with arbitrary events of other peers", "anchors": ["nbc/node/basenode.py:BaseNode.serve_forever", "nbc/node/basenode.py:BaseNode.items", "nbc/node/connection.py:Connection.readable", "nbc/node/connection.py:Connection.writable"]}
{"id": "C158", "title": "What a peer sends cannot forge the log", "statement": "Whatever message a peer sends, what the log shows of it consists of printable characters only, at every level, so it makes exactly one line, which begins with the address of the peer and an arrow; nothing in a message can end the line or look like a line of another connection.", "quantifier": "all frames that are accepted, all levels, Python 2 and 3", "why_tests_cant": "all byte strings in all fields of all messages", "anchors": ["nbc/node/basenode.py:BaseNode.log", "nbc/node/connection.py:Connection.handle_message", "nbc/protocol/format.py:CompoundType.__str__", "nbc/protocol/messages.py:Message._debug", "nbc/protocol/messages.py:_debug", "nbc/protocol/messages.py:Version._debug", "nbc/protocol/messages.py:Alert.__str__"]}
{"id": "C159", "title": "The log names blocks and transactions by their hashes", "statement": "At level DEBUG the line of a headers message, an inventory, a getdata or a notfound tells how many items there are and names the first by its hash, the inventories with its kind; the line of a block names the block by its hash.", "quantifier": "all received messages that list anything, Python 2 and 3", "why_tests_cant": "all contents of blocks, headers and inventories", "anchors": ["nbc/protocol/messages.py:Headers", "nbc/protocol/messages.py:Inventory", "nbc/protocol/messages.py:Block", "nbc/protocol/messages.py:Message._debug"]}
{"id": "C160", "title": "What malformed messages write to the log", "statement": "A message that is not understood makes exactly one line of the log at level INFO. The line consists of printable ASCII characters whatever the message contains, and tells every byte of it. In the life of a node, the malformed messages of a connection write at most thirteen characters for each byte received on it.", "quantifier": "all malformed frames, all histories, Python 2 and 3", "why_tests_cant": "all byte strings and all histories", "anchors": ["nbc/node/basenode.py:BaseNode.invalid_command", "nbc/node/basenode.py:BaseNode.log", "nbc/node/connection.py:Connection.handle_read", "nbc/protocol/messages.py:Message.parse"]}
{"id": "C161", "title": "The log at its most detailed level is a faithful record", "statement": "Two messages received that the log shows alike at level PROTOCOL are equal in type and in every field, and the log as a whole tells which peer sent which messages in which order: no choice of strings, lists or numbers in a message makes it look like another message or like several.", "quantifier": "all messages that parse, all sequences of them from any peers, Python 2 and 3", "why_tests_cant": "all pairs of messages; the failing ones hold the separators of the text", "anchors": ["nbc/node/connection.py:Connection.handle_message", "nbc/protocol/format.py:CompoundType.__str__", "nbc/protocol/format.py:FtArray.str", "nbc/protocol/format.py:FtVarString.str", "nbc/protocol/messages.py:Alert.__str__", "nbc/node/basenode.py:BaseNode.log"]}
{"id": "C162", "title": "Small messages do not fill the log", "statement": "In the log at its most detailed level a message received leaves at most fifteen characters for each byte of its frame, whatever its fields hold and whatever numbers of items it announces; so over the life of a node the messages of a connection leave at most fifteen characters for each byte received on it.", "quantifier": "all frames that are accepted, all histories, Python 2 and 3", "why_tests_cant": "all byte strings and histories; the failing frames announce items that do not follow", "anchors": ["nbc/node/connection.py:Connection.handle_message", "nbc/node/basenode.py:BaseNode.log", "nbc/protocol/format.py:CompoundType.__str__", "nbc/protocol/format.py:FtArray.str", "nbc/protocol/format.py:FtArray.parse", "nbc/protocol/format.py:FtBytes.str"]}
{"id": "C163", "title": "Texts that are no shares are refused", "statement": "Whatever texts are given as keys to be combined, as shares to be recombined or put into a code, or as a code to be read, the answer is a result or one of three exceptions for each operation. A text with a wrong checksum is refused by all of them; a share or code that was cut off and sealed again raises IndexError.", "quantifier": "all lists of texts, all codes, any hash function; Python 2", "why_tests_cant": "all byte strings", "anchors": ["nbc/util/piecewise.py:combine_private_keys", "nbc/util/piecewise.py:partial_combine_private_keys", "nbc/util/piecewise.py:partial_split_qr_encode", "nbc/util/piecewise.py:partial_split_qr_decode", "nbc/util/base58.py:decode_check"]}
{"id": "C164", "title": "How malformed messages are refused", "statement": "Whatever bytes are given to the parser of messages, it returns a message or raises one of four exceptions, and which one tells what is wrong: bytes that end before the size of the payload, a magic number or checksum that does not fit, an unknown command, a payload whose fields cannot be read. A payload that is refused is refused as well when it is cut short, and one that is accepted is accepted as well when bytes follow; six messages are accepted with any payload, all others are refused with an empty one.", "quantifier": "all byte strings, all magic numbers, all commands, any hash function", "why_tests_cant": "all byte strings; the cases differ by single bytes of the header and by where the payload ends", "anchors": ["nbc/protocol/messages.py:Message.parse", "nbc/protocol/format.py:CompoundType.parse", "nbc/protocol/format.py:FtArray.parse", "nbc/protocol/format.py:FtVarInteger.parse", "nbc/protocol/format.py:FtBytes.parse", "nbc/protocol/format.py:FtOptional.parse"]}
{"id": "C165", "title": "How keys that are none are refused by address wallets", "statement": "Whatever bytes are given to an address wallet as public or private key, the answer is a wallet or one of two exceptions for public keys and three for private keys. Bytes of neither form of public keys raise ValueError, a short form whose x is on no point of the curve raises SquareRootError and nothing else does, and a private key with another first letter than 5, K and L raises ValueError, one with a wrong checksum or a multiple of the order TypeError. A long form is taken as it is, whether or not it is a point.", "quantifier": "all byte strings as public and private keys, all vcns and networks, any hash functions", "why_tests_cant": "all byte strings, and that no other exception is possible", "anchors": ["nbc/wallet/address.py:Address.__init__", "nbc/util/key.py:decompress_public_key", "nbc/util/key.py:privkey_from_wif"]}
