# Formal model of nb-coin/new-bitcoin: design

## 1. Technique

The code is modelled in Coq 8.16.1 as small total Gallina functions, one per
Python function, mirroring the source branch by branch.  Every definition of a
`*Model.v` file cites the file and lines it models.  Proofs are in separate
files.  `theories/Props*.v` contains the final statements
(`Theorem Cxx_... `), followed by `Print Assumptions`, and beside them
`Example`s showing that the hypotheses are met by concrete, non-trivial cases.
Small independent specifications (wire format, FIPS-197, SP 800-38A, X.690,
chord-and-tangent law, ECDSA, RFC 6979, BIP-32) are in `*Spec.v` files or at
the head of the `Props*.v` file that uses them.

Where the code violates the English property, the *negation* is proved with a
concrete witness (`..._refuted`), together with the strongest positive theorem
that does hold (`..._partial`).

### Conventions

* Bytes are `list Z` with the predicate "all in 0..255"; Python text is a list
  of code points.
* Python exceptions are values: `res A := Ok a | Raise e`.
* Python 3 semantics is used wherever the function works on Python 3.
  Functions that work only on Python 2 (`xrange`, `/` on ints, `ord` on
  bytes...) are modelled with Python 2 semantics and their comment says so.
* Hash functions are not modelled: they are section variables, with explicit hypotheses about output length where needed.  The theorems
  therefore hold for every hash function, including the real ones.
* Clock, `os.urandom`, `random` and socket results are explicit inputs.
* Loops whose termination is not structural take fuel or well-founded
  recursion; the theorems prove the fuel sufficient.

## 2. Trusted base

* Coq's kernel (incl. `vm_compute`), checked by `coqchk`, which recomputes with
  its own reduction.
* What `Print Assumptions` lists: "Closed under the global context" for every
  property theorem.  No axiom is used, neither of the standard library nor
  ours.
* The hand translation Python -> Gallina (reviewable through the citations).
* The meaning given to CPython primitives in PyBase.v, PyVal.v, PyLoop.v and
  JsonModel.v: `struct`, slicing, hexadecimal conversions, integer arithmetic,
  `int(text, base)`, `str.split`, dictionaries in insertion order, `sorted`,
  exceptions, `base64.b32encode/b32decode`, the part of `json` that wallet
  files use, and what a file can contain when `open(..., 'w')`/`write` is
  interrupted.

### Which file models what

| Python | Model | Proofs, specifications | Theorems |
|---|---|---|---|
| nbc/protocol/format.py, messages.py, `__init__.py` | FormatModel, MessagesModel, AlertModel, BlockModel | FormatProofs(2), FormatSpec, MessagesProofs, AlertProofs, WireSpec, WireProofs, PyTextProofs | PropsProtocol, PropsWire, PropsAlert, PropsSize, PropsHash, PropsMalformed |
| nbc/node/connection.py, basenode.py, raw_.py | NodeModel, TableModel, PollModel, LoopModel, LineModel, LogModel, TextModel, ComplaintModel | NodeProofs(2-12), LogProofs, TextProofs | PropsNode, PropsHello, PropsTalk, PropsLife, PropsTable, PropsMeet, PropsSilent, PropsApart, PropsSeek, PropsFair, PropsHold, PropsForeign, PropsDeliver, PropsAlive, PropsBeat, PropsSpread, PropsDead, PropsLoop, PropsAccord, PropsServe, PropsStall, PropsLines, PropsLog, PropsText, PropsNames, PropsComplaint, PropsFaithful, PropsVolume, PropsRender |
| nbc/util/`__init__`.py, coins/`__init__`.py | UtilModel, DiffModel | UtilProofs | PropsUtil, PropsDiff |
| nbc/util/base58.py, key.py | Base58Model | Base58Proofs | PropsBase58 |
| nbc/util/pyaes/*.py | AesModel, AesTables, AesModes | AesSpec, AesProofs, ModesSpec, ModesProofs(2,3), ModesUse | PropsAes, PropsFile |
| nbc/util/ecdsa/der.py, util.py, rfc6979.py, nbc/util/ecc.py | DerModel, SeedModel | DerProofs, DerSpec, DerAccept, Rfc6979Spec, Rfc6979Proofs | PropsDer, PropsSeed |
| nbc/util/ecdsa/numbertheory.py | NtModel, PrimeModel | ZpTheory, Recip, NtProofs, NtJacobi, NtSqrt; PrimeProofs, FactorProofs, OrderProofs, TotientProofs, CarmichaelProofs, PseudoPrime (certificates) | PropsNt, PropsPrime |
| nbc/util/ecdsa/ellipticcurve.py, ecdsa.py, ecc.py (twos_comp) | EcModel, X962Model | EcSpec, EcGroup, GrpMul, EcProofs, EcOrder, EcLib; DigArith, LucasLehmer, EcCheck, EcParams192/224/256/384/521/256k1 (certificates) | PropsEc, PropsX962, PropsCurves |
| nbc/util/ecdsa/keys.py, curves.py, nbc/util/key.py, ecc.py | KeyModel | KeySpec, EcdsaSpec, EcdsaProofs, KeyProofs, KeyDer, KeyCases | PropsKey, PropsRead, PropsRefuse, PropsNonce |
| nbc/util/ecdsa/der.py (PEM), keys.py (to_pem, from_pem, generate, sign, verify, sign_deterministic) | PemModel | PemProofs, SignProofs | PropsSign, PropsStd |
| nbc/wallet/*.py | WalletModel, JsonModel, PrintModel | JsonProofs, WalletProofs, HdProofs | PropsWallet, PropsWatch, PropsFamily, PropsIdent, PropsPrint, PropsMaster, PropsSecret, PropsLoad, PropsNoKey |
| nbc/util/piecewise.py | PieceModel | PieceProofs, PieceB32, PieceQr | PropsPiece, PropsShards |
| nbc/node/`__init__`.py, basenode.py (serve_forever), nbc/util/bootstrap.py, nbc/util/`__init__`.py (block height, commify) | OnlineModel | | PropsOnline |
| nbc/util/ecdsa/_version.py | VersionModel | | PropsVersion |

That the parameters of the six curves are right (p and n prime, nG = infinity,
no point of order two) is itself proved: Pocklington certificates, for 2^521 - 1
the Lucas-Lehmer test, and computations with numbers in base 64 that the
kernel's conversion can run without the virtual machine (DigArith.v).  The group law is proved from
scratch (EcGroup.v), and so is quadratic reciprocity (Recip.v).

## 3. Plan per property

| Property | What is modelled | How it is proved |
|---|---|---|
| C01,C11 | deep embedding `ft` of the field types, table of all message classes, `validate/binary/parse` | induction on the type descriptor; parse(binary v ++ rest) = canonical v |
| C02 | FtVarInteger | case analysis on the four ranges; refutation at 2^32-1 |
| C03 | constructor acceptance | refutations for var-int, text address, text strings; positive theorem per type |
| C04 | parsers | refutation for short fixed strings and array bounds; positive theorem for the other types |
| C05,C06,C07 | frame codec, registry computed from the class table | list reasoning |
| C08,C09 | IPv4/IPv6 text conversion | digit-string lemmas; refutations "1:2", "::" |
| C10 | CompoundType constructor | list reasoning; refutation: surplus positional arguments |
| C12 | hash caching state | invariant over read sequences |
| C13,C14,C17 | `handle_read` as buffer automaton | confluence of the drain loop; refutation of bound |
| C15,C16 | `handle_write`/`send_message`, counters | invariant over event histories |
| C18 | `readable` | functional spec + trace invariant |
| C19-C26 | node state machine | invariants over reachable states |
| C27-C30 | base58, WIF, addresses | positional-number lemmas |
| C31 | (de)compression | field theory of Z/p, Euler criterion |
| C32-C34 | ECDSA over the curve model | group law |
| C35-C37,C65 | DER, key objects | list reasoning |
| C38-C40 | table-driven AES, modes | byte sweeps by computation + xor linearity |
| C41-C49 | wallets | from the above |
| C50-C52 | piecewise keys | sums mod n |
| C53-C55 | util | induction / arithmetic |
| C56-C60 | number theory, curve | Euclid; Euler criterion; quadratic reciprocity; group law by `field`; primality of p,n by Pocklington certificates |
| C61 | randrange, rfc6979 | induction on attempts |
| C62 | padding, feeders (Python 2) | list reasoning |
| C63 | Alert | state invariant |
| C64 | OutPoint equality | refutation (NameError) |
| C66,C67 | hex helpers, header helper of nbc/util | list reasoning; equality with the header object of the message model |
| C68,C69,C70,C71 | modes of operation, counter, key schedule lengths, wallet cipher | relation of each mode with ModesSpec.v by induction on the blocks |
| C72 | canonical encoders with the float `order / 2` | exact rounding error of the 53-bit half |
| C73 | rfc6979.generate_k | equality with Rfc6979Spec.v; float comparison of Python 3 modelled |
| C74,C75 | address texts, bytes of all 21 commands | equality with WireSpec.v |
| C76 | both DER signature decoders | both inclusions with the relations of DerSpec.v |
| C77 | shared_secret | commutativity of multiplication by integers; multiples of the order by the group law (PropsNoKey) |
| C78-C80 | HD children, compress/decompress, generate | from the group law and the key texts |
| C81 | public keys accepted by Address | refutation for 65-byte keys, proof for 33-byte keys |
| C82-C84 | get_address, missing shares, shape of partial splits | arithmetic modulo n, list reasoning |
| C85 | get_coin | case analysis, both directions |
| C86 | base64, PEM lines, to_pem/from_pem | induction over groups of three bytes and over lines |
| C87-C89 | sign/verify for any codec, sign_deterministic, generate | from the ECDSA theorems, RFC 6979 theorems and randrange |
| C90,C96 | gcd, lcm, modular_exp, order_mod, largest_factor_relatively_prime, kinda_order_mod | Euclid; loop invariants; periodicity of powers |
| C91,C92 | is_prime, next_prime; `1 + int(math.log(n, 2))` is a parameter | Fermat, square roots of one; refutation by a certified composite |
| C93-C95 | factorization, phi, carmichael | loop invariants; multiplicativity of the totient; units modulo prime powers |
| C97,C98 | add_portmap, remove_portmap, serve_forever over a table of mappings | invariant of the search for a free port |
| C99 | DNS seeder as a transition system over sections under the lock | induction over schedules |
| C100 | guess_block_height over sources with end times | induction over the joins |
| C101,C102 | path lookup in JSON values, commify | induction; both directions |
| C103,C104 | node model; version_message succeeds on usable addresses | invariant of all histories: listener open, every address in book, votes and connections serialisable, queue = version :: others |
| C105 | str/debug methods of the formats, `__str__`, `_debug`, levels | exact condition under which the text can be made; send and handle with and without log |
| C106 | parse and binary | parsed values are serialisable and stable under a round trip (C04, C02) |
| C107 | PRNG as a generator with state, the four methods | invariant: state = position in the stream of digests; first candidate in range |
| C108 | parse, binary, hash | encodings with a functional form of sizes are unique; both directions |
| C109 | from_block constructors | shared validations |
| C110 | get_difficulty with correctly rounded division of integers | comparison of the rounded quotient with every double over Q |
| C111 | traces of the node model | each primitive extends the conversation of each connection by a dialogue |
| C112 | connection attributes and traces | invariant: attributes = function of the messages handled |
| C113 | traces of the node model | one invariant of all histories: connections, closings, book and reasons agree with the trace (NodeProofs11) |
| C114 | traces of the node model | same invariant |
| C115 | traces of the node model | same invariant |
| C116 | traces of the node model | refuted by a remote close; same invariant otherwise |
| C117 | one read event | case analysis of a verack; refuted for the timestamp |
| C118 | int_to_string, string_to_int, digest_integer, twos_comp | loop invariant; uniqueness of the shortest string |
| C119,C124 | asyncore's map: the dictionary under file descriptors, driven by the traces of the node model | invariant: table = listener and open connections in order |
| C120 | `__eq__`, list and set membership | induction on the recursion limit |
| C121 | ban list and traces of the node model | induction over histories from the one-event theorems of C19 |
| C122 | the constructor over the answers of the system calls | case analysis, both directions |
| C123 | raw_.py: construction and serving | induction over the polls |
| C125 | the six curves of curves.py | the theorems of C59 and C60, proved for any curve with the right parameters, and the certificates |
| C126 | two histories of the node model; what one reads is a prefix of what the other wrote | invariant: every message said can be read back; unique framing of the byte stream (C20) |
| C127 | closure of child, compress, decompress, save and load | induction; one lemma per operation |
| C128 | constructors of keys and texts | bounds on the base-58 value give the leading digits |
| C129 | handlers of a node, two histories | every network event extends the trace by messages heard with their answers; with C126 the requests heard are among those said |
| C130 | step of the node, two histories | frame relation for every handler; a relational invariant (same connection, same actions on it) kept by own events in both runs and by foreign events in either |
| C131 | HD wallets and their watch-only counterparts | C44_paths gives the two children, C32_hd_partial the signature; partial for r in [n, p) |
| C132 | same | refuted: the child's key minus the left half of the HMAC, which the watch-only wallet determines, is the parent's key; induction on the path |
| C133 | heartbeats of the node | exact effect of one attempt, of m attempts and of one heartbeat on the known and the connected addresses; induction on the heartbeats; refuted if the node's own address is next |
| C134 | connections of the node | weights: every message handled is a frame received, every reply follows its request (C111) and is no longer than it; refuted on Python 2 |
| C135 | key files of ecdsa/keys.py | table of the published headers; lengths are constant, so the DER lengths are computed once per curve; base64 by induction over groups of three bytes |
| C136 | send buffer of a connection | bound from C134 and C15; refuted by k pings for every k, with the conversation theorem of C111 and uniqueness of the framing |
| C137 | AlertModel `alert_verify` over MessagesModel and KeyModel | combination of the wire round trip (C01), the alert fields (C63), signing (C32) and the exact set of accepted signatures (C33) |
| C138 | FormatModel `parse` and MessagesModel `msg_parse` | induction over the types (reading a type that always takes a byte pays for one item); refuted by a family of frames for lists of byte strings of fixed length |
| C139 | WalletModel `address_new`, `hd_address` | from C30 and the group of the curve (a point is one multiple below the order); collisions of hash functions are explicit alternatives; refuted for texts of numbers above the order |
| C140 | PrintModel `wallet_str` | the text is a fixed function of kind, address and privacy; that function is injective because addresses hold neither blanks nor quotes |
| C141 | KeyModel `sk_sign_number`, NtModel `inverse_mod` | the equation s k = h + d r of each signature, solved modulo the prime order; same r iff same point up to sign |
| C142 | KeyModel `vk_from_der`, `sk_from_der` | exact description of what each `remove_` function accepts, composed; refuted by two files |
| C143 | AesModes `wallet_encrypt`, `wallet_decrypt`; WalletModel `wrap_secret` | induction over the blocks of CBC, the cipher being a bijection on blocks |
| C144 | NodeModel `handle_read`, `read_loop`; MessagesModel `msg_parse` | one read computed in closed form for any state; histories by unique framing of the stream |
| C145 | VersionModel `get_versions`, `versions_from_expanded` | what is read from the joined names is the list of names; the sorted list is ascending, so the first match is the least |
| C146 | PollModel `writable`, infinite runs of NodeModel | what is unwritten shrinks with every fair write (induction on its length); a stream that begins with complete frames has them as its first frames; each frame parses to what was said |
| C147 | NodeModel `readable`, infinite timed runs | only writes, reads and polls of a connection touch its timers; after each write either another one or a due ping follows within 30 minutes; a poll that closes would need a gap of 3 hours; induction over time for both ends together |
| C148 | NodeModel `learn_addresses`, `get_address_reply`, histories of two nodes | the parser returns only well-shaped entries; learning is a fold over the book; outside the reading of a socket nothing is received and addresses leave only when a connection ends; induction over the history; C126 carries the answer to the other node; Python 3 by evaluation |
| C149 | NodeModel `readable`, infinite timed runs (PropsAlive) | the time of the last reception changes only when something is read; the first poll more than three hours later closes; closed connections never reopen; an endless run with a mute peer refutes the rest |
| C150 | WalletModel `from_master_seed`, `hd_new` | BIP-32 master key generation as a separate specification; case split on the number modulo the order; an HMAC value above the order refutes the rest |
| C151 | LineModel: `log` and the lines its callers write at INFO and above, as a function of the effects of an event; classes of OSError by number | effects that write no line as a relation preserved by all operations; case split of `handle_frame`; filters commute with the levels; concrete histories refute the rest |
| C152 | KeyModel and DerModel readers; the set of exceptions of a result | sets of exceptions compose over bind; the forms of C142 for the precise ones; concrete files refute the rest |
| C153 | LoopModel: asyncore's `loop` and `poll` of the standard library with the node as map, over NodeModel; `select` raises when it is given a closed descriptor | each connection's answers computed from its state before the round; the round as a list of events; refuted in general for overdue connections with something unsent or a ping due |
| C154 | WalletModel, JsonModel, AddressModel, HdModel: loading a wallet from any text | inversion of the loaders; the exception sets by composition over bind; witnesses: a watch-only file with an oversized x, a file with depth -1 |
| C155 | NodeModel, two infinite runs joined by a fair network | C103 (the version comes first), C146 (what is said is heard), C111 (a version is answered with verack) and C112, C126 (what is reported) combined; non-vacuity by two concrete runs that go on for ever |
| C156 | LoopModel, infinite sequences of rounds | the rounds flattened into one infinite run of events; what is unsent stays unsent until the socket takes something, so that select is asked for it and a socket with room is written: the run is fair; then C146 and C155; non-vacuity by two loops that come to rest |
| C157 | LoopModel, any number of rounds from any state | the time of the last reception, and an open connection with something unsent, as invariants of the events of a round that are not its own; then C153 for the last round; the rest is refuted |
| C158 | TextModel: the texts of messages and of the lines they leave in the log, character by character | received values have the shape their types give (induction over types); every text is made of literals, numbers, hex digits and `repr`s, which are printable; refuted on Python 2 |
| C159 | TextModel | the debug line of headers and inventories computed from the received values, with the hash of C10; refuted for blocks |
| C160 | ComplaintModel: the text of `invalid_command` with those of the exceptions | `repr` is printable and can be decoded up to its closing quote; the frames of a connection are cut from what was received (stream invariant of C14); refuted: ASCII on Python 3 |
| C161 | TextModel: `__str__` and `str` of all field types, as for C158 | texts of fields can be decoded: numbers, addresses and hexadecimal words end at a blank, comma, `>` or `]`, strings at their closing quote, lists and objects by induction; class and first label tell the message types apart; refuted: alerts, level DEBUG |
| C162 | TextModel: `__str__` and `str` of all field types, as for C158; histories as for C160 | every type has a least number of bytes and a length of labels, both computed; induction over types: the text is at most the labels, four characters for each byte and eleven for each byte beyond the least; the labels of items are paid for by their least bytes; refuted on Python 2 with the frames of C138 |
| C163 | PieceModel, as for C50 to C52; Base58Model | the exceptions of every function collected bottom up (`only`, as for C152); the three cases by computation with the model |
| C164 | FormatModel.parse, MessagesModel.msg_parse, as for C04 and C05 | the cases of the parser in order; by induction over field types: what is read does not change when bytes follow, unless the data were used up, and what reads from no data reads from any data |
| C165 | WalletModel.address_new, KeyModel.decompress_with, KeyModel.privkey_from_wif | the cases of the constructor; square roots from KeyProofs; multiples of the order by the group law; witnesses x = 5 and (0, 0) |

## 4. Not modelled

* asyncore and `select` beyond the rounds of `poll` (LoopModel.v: C153, C156, C157)
  and the map of channels (C119); sockets, DNS lookups and connections beyond the
  events and results they deliver; nbc/node/raw.py (other default arguments), the
  darwin packages, the contents of the bootstrap list.
* Hash functions, HMAC, `os.urandom`, `random`, the clock: parameters.
* `math.log` in ecdsa/util.py (a parameter of C107).
* `get_expanded_variables` of ecdsa/_version.py (used by setup.py only) and the self-tests in `__main__` blocks.
* The texts of tracebacks in the log (C151 says where they are logged); the
  `__str__`/`__repr__` methods other than those of messages (C158) and of the
  wallets (C140), and `main` of hdwallet.py.

## 5. Testing the theorems

Wrong programs are made in a scratch copy by editing one definition of the
model; the copy is rebuilt with each failing proof replaced by `Admitted`, and
`Print Assumptions` then shows which property theorems depended on a failed
proof.  Each attempt is a line of seeded/LOG.jsonl.
