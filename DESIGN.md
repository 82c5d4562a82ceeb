# Formal model of Gigamonkey in Rocq (Coq 8.16.1)

## How the development is laid out

`rocq/theories` is built in layers.  For each area `X` of the library:

* `XModel.v`  – executable Gallina functions that follow the C++ function by function.  Every definition
  carries a comment with the file and lines in `/repo` it models and the simplifications made.  No proofs.
* `XSpec.v`   – where needed, a small specification that does not use the model's helpers.
* `XProofs.v` – lemmas.
* `PropertiesX.v` – only the property theorems, each closed by `exact lemma.`, with `Print Assumptions`
  and an `Example` showing that a concrete non-trivial case meets the hypotheses.

`Base.v` holds bytes (`Coq.Init.Byte.byte`, so a byte is in range by type), little/big endian conversion
and generic list facts.

## Trusted base

* Coq's kernel (8.16.1) and `vm_compute`, used for closed examples and finite sweeps.
* `Print Assumptions` below every property theorem says `Closed under the global context` unless the
  section on axioms at the end of this file lists the theorem.
* My reading of the C++.  The code is not run.  The external libraries `data`, `libsecp256k1`, Crypto++,
  boost and nlohmann-json are not in `/repo`; what is assumed about them is:
  * `data` readers throw `end_of_stream` when fewer bytes are left than asked for; writers append.
    `uint16_little`, … are fixed-width little-endian integers.
  * `data::Z_bytes_BC_little` / `integer` is little-endian sign-magnitude (the Bitcoin script number).
  * `data::list`, `data::map`, `data::set`, `data::stack`, `cross` behave as finite sequences / maps / sets.
  * hash functions, HMAC, ECDSA sign/verify, elliptic-curve operations and random generators are
    *parameters* of the model (Section variables that become explicit arguments of each theorem).
    Where a theorem needs a fact about them (e.g. no collision between two given strings, the group law)
    this is an explicit hypothesis in its statement.
* Undefined behaviour (out-of-range `operator[]`, dereferencing an empty `maybe`, uninitialised variables)
  is a distinct outcome of the model, never a normal value.
* Memory exhaustion, exceptions from allocation, threads, coroutines and I/O are not modelled.

## Plan per property

| id | what is modelled | how it is proved |
|----|------------------|------------------|
| C01, C02 | `var_int` size/write/read over byte lists | case split on the four ranges, little-endian round trip; shortest form by inverting the reader |
| C03–C07 | outpoint, input, output, transaction, header, block writers and readers | round trips composed from readers with arbitrary tails; induction on lists; prefix lemma for readers; re-write lemma by inverting readers |
| C08, C09 | `instruction` push/read/write/size, minimality predicates | case split on size thresholds |
| C10, C11 | `compile`, `decompile`, `program_counter` | induction on fuel/byte length; both directions |
| C12–C15 | script numbers as sign-magnitude byte strings and the byte operations | induction on byte lists; reference semantics is `Z` |
| C16 | `two_stack`, `limited_two_stack` | invariant over `fold_left` of operations |
| C17–C21 | the machine's `step`, `interpreter` step/run | measure = remaining script; witnesses for the refuted parts; characterisation for all scripts |
| C22–C25 | sighash writers | field-by-field list equation; injectivity of fixed-width fields; independence by rewriting |
| C26–C28 | merkle root, path generation, derive | induction on rounds; hash is a parameter; collision hypothesis explicit |
| C29, C30 | dual, BUMP | invariant over additions; codec round trip |
| C31–C33 | compact target, ASICBoost, work string | arithmetic with `N` powers; bit lemmas |
| C34–C36 | base58check, address, WIF, BIP276 | positional numeral round trip, checksum as parameter |
| C37–C39 | HD path parser, derivation, extended-key codec | parser with fuel, divergence for all fuel; group law as hypothesis |
| C40 | BIP39 generate/valid | bit-list packing round trip |
| C42 | SPV proof validation, generation and extension | exact characterisation of `validate` on coherent proofs; soundness by induction on proof trees; counterexamples by `vm_compute` |
| C43, C44 | BEEF and extended codecs | composed round trips |
| C45, C53 | expected size, sums | arithmetic |
| C48, C49 | key sources, entropy | induction on steps; witness |
| C50 | Stratum methods, messages, errors, session ids, notify, submit, subscribe, authorize and the other parameters | independent descriptions of what a message says; exactness of every reader; round trips with the exact set of survivors |
| C51 | version masks, matching of responses with requests, share counts | histories of sends, completions and received messages |
| C54 | slices of raw transactions and blocks | inversion of the scanner against the writer |
| C55, C56 | `min_push_size`, `pre_verify` | threshold case split; nesting grammar as an inductive specification |
| C66–C69 | original preimage, cache, cache ownership, incomplete transactions | exact layouts through shortest forms; invariants over sessions and heap histories |
| C70, C71 | `dual::valid`, `tree::operator []` | final leaf of every path as loop invariant; closed form of the walk |
| C30, C72, C73 | BUMP codec, root, paths, sums, single branches | codec calculus; level-by-level invariant over well-ordered levels; merge of descending sequences characterised by common prefixes |
| C31–C33, C74 | compact targets, version rolling, work strings and proofs, cpu solver | closed arithmetic spec and exactness; bit-level spec for versions; explicit collisions for commitments; solver as a counter, first-solution theorem |
| C34–C36, C75 | base58check, recover, address, WIF, BIP276, key validity | numeral systems proved bijective against a declarative notation; exact readers; checksum as parameter |
| C37–C39, C76 | Paths, derivation and extended keys of BIP 32 are modelled for any HMAC, hash and group; well-formed paths, BIP 32 child functions and texts are independent specifications; exact theorems and refutations (`HdPathProofs`, `HdKeyProofs`, `HdTextProofs`) |
| C48, C49, C77, C78 | secret and public key arithmetic over big-endian residues and discrete logarithms, incrementing and random key sources, bitcoind_entropy | exact sequences over all histories, exact equality and verification, refutations |
| C44, C45, C53, C79–C81 | extended transactions, sums of amounts, fee rates, fees in doubles, transaction designs | codecs and exact reader forms; induction over lists; rounding of fractions to 53 bits; refutations |
| C43, C82 | BEEF: binary form, validity, roots, validation against a database; round trip, exact reader, exact validity; validation refuted in three ways and proved when BUMP indices are checked | `BeefProofs`, `BeefExamples` |
| C41, C83, C84 | SPV.cpp 26-109 and 261-353: the in-memory database as maps over a heap of entries | invariants over histories; exact effect of each operation; refutations by concrete histories |
| C85–C87 | generation of SPV proofs, extended transactions, comparison | induction on ancestries with an explicit rank; the link to the in-memory database through its invariants |
| C88–C89 | conversions between BEEF and SPV proofs | invariants of the reader over the list of transactions and of the writer over the tree; round trip by comparing nodes; counterexamples by computation |
| C40, C91 | bip_39.cpp `generate`, `valid`, `read`; electrum_SV.cpp `read` | both word lists are data; sentences as bits, exact characterisations of `generate` and `valid` for any list of 2048 different words, then the English list is checked to be one |
| C90 | bip_44.hpp, wallets of bip_39.hpp, key and address sources | on top of HdModel; composition of paths, agreement of public and secret accounts |
| C46 | script patterns and the templates pay-to-address, -pubkey, -hash, -script-hash | every pattern class as a function from script and captured variables to result; a classification of the front of any script; exact characterisation of each template. That the payload determines the script is refuted (pushes need not be minimal), and so is that match always answers |
| C47 | boost output and input scripts, their patterns, and the work proofs of a pair | scans of the two patterns characterised step by step; fixed code reduced to a list of tokens; forms are explicit byte descriptions; written scripts computed exactly |
| C92 | evaluation of pay-to-address and pay-to-pubkey outputs | a general theorem runs straight scripts by the opcode table (room and operation counts tracked), then CHECKSIG and the end of the script; applied to both templates |
| C93 | execution of boost outputs by the interpreter; agreement with the work proofs of the library | the straight-line calculus of C92, piece by piece through the boost script; number lemmas for ensure_positive and expand_target; then pairing with library inputs |
| C52 | pay/envelope.cpp: constructors, verify, reading and writing JSON | exact characterisation of verify and of reading; round trip iff base64 |
| C94 | mining.configure: extension requests and results | readers are exactly what the dotted names say; round trips with the exact set of survivors |
| C95 | client and server sessions | fields as the last message that says them, for all histories; single steps exactly |
| C96, C97 | TSC Merkle proofs | readers against forms in both directions; JSON values exactly; validate exactly, soundness from C27 and C83 |
| C98 | BUMP as JSON | readers against what the JSON says, both directions; undefined cases exactly; round trip up to unknown flags |
| C99, C100 | redeeming | exact result of redeem for any redeemer; default redeemer against what outputs ask for; end to end with the interpreter of C79–C92; spends against signed documents with C23 |
| C101, C102 | Merchant API messages and answers | `MapiModel`; every reader characterised by what its JSON says (`MapiSpec`), every writer member by member; round trips proved or refuted; accepted answers characterised through C52 |
| C103, C104 | SPV envelopes | `SpvEnvModel`; validity equals an independent inductive definition, conversions from and to SPV proofs and JSON characterised by relations and composed into round trips; the missing checks refuted |
| C105–C107 | ARC: responses, requests, policy | `ArcModel`; validity of each response as an iff over an independent reading of JSON, headers as a relation that determines the options, bodies proved to carry one list of transactions only; the fee, sigops and error paths refuted |
| C108 | The text of a script says what the script is | Words of the text have no space and are distinct (decided opcode by opcode, hexadecimal read back), so the text determines the words; minimal pushes determine their opcode from the data |
| C109, C110 | The fields and the text of a timestamp are those of its moment; the text is read back | Day numbers as sums of years and months; closed form by induction over years, then the arithmetic of to_time_t month by month; counting days by induction; digits read back |
| C111, C112 | Stratum jobs, shares and the record of jobs | the header is specified independently of work::string; validity is proved equivalent to it; refuted where checks are missing or masks inverted |
| C113, C114 | payments end to end | validate of AncModel.v with the interpreter of MachineModel.v as its evaluation; composes C42, C85, C99 and C100 |
| C115–C116 | Redeeming Boost outputs | bredeem composed with BoostRunRedeem and RedeemProofs: per input, spending is equivalent to the work; candidates by induction over insertions into an abstract set |
| C117–C118 | peer messages | exact characterisation of commands; injectivity of version messages on the fields of the version; lengths compared with the stated sizes and with the protocol |
| C119–C121 | Signature encodings | `DerModel.v` follows the index arithmetic with reads outside as undefined; `DerSpec.v` has the grammar; the reader is proved equal to one on the rest of the input, and that to the grammar |
| C122–C125 | difficulties as doubles: order of targets, targets and numbers got back, profitability | doubles as fractions rounded to 53 bits, half to even; nearest, monotone and error lemmas; exact round trip by binades |
| C126–C129 | raw outputs, inputs, outpoints and blocks; validity of blocks; genesis block; cached ids | exactness against the wire forms; concrete SHA-256 evaluated on the genesis block; histories of one object |
| C130 | JSON form of BEEF | exactness against an object given directly; injectivity by taking the object apart |
| C131 | errors of scripts and their texts | an invariant carried through all operations of the machine; one script for each error that is reported |
| C132 | functions on byte strings beside the machine | signs and magnitudes of strings; uniqueness of the widened string; bits |
| C133 | limits for scripts and profiles of flags | exact conditions and values; the exact differences of the profiles; refuted for the chronicle profile |
| C134 | requests of a client of MAPI | what is sent, as JSON and as a query, is characterised and determines what was submitted; conditions for refusal |
| C135 | the first letters of base 58 texts | the digits above the last k are those of the quotient by 58^k, whose range follows from the leading bytes; then by cases on the few quotients |
| C136 | OP_CHECKMULTISIG on lists of keys and signatures | the trial is an inductive relation; the loop computes it by induction on the keys, and the layout of the stack turns negative indices into list positions |
| C137 | outputs that ask for several signatures, end to end | the straight run of C92 with another last step, which is C136; matchings are reversed; strict checks match one by one |
| C138 | scripts with any number of signature checks, end to end | one step for each kind of check from C19 and C136, then induction over the instructions as in C92 |
| C139 | outputs with the hash of a script, end to end | the program that is built from both scripts is again pushes, a separator and the rest, so C138 applies with that rest as script code |
| C140 | `CheckRunSpec.check_step` (the lock cases), `CheckRunSpec.lock_opens` | one step of a lock is added to the steps of C138; the whole script is followed step by step, and the check of lock times (C20) is put into the words of BIP 65 and BIP 112 |
| C141 | `CheckRunSpec.falls`, `CheckRunSpec.good_end`, `CheckRunSpec.well_formed` | the instructions up to the condition as for C138, the rest by C18; what is checked before the run is given exactly, with conditions and OP_RETURN |
| C142 | `CheckRunSpec.cond_runs` (and `StraightSpec.at_level`) | induction on the relation, with the number of open conditions; skipped parts by C18, what is checked before the run as for C141 |
| C143 | `CheckRunSpec.cond_runs` (the case of code that is not read) | what follows a separator in a branch is never balanced, so that reading it throws; the rest by C142 |
| C144 | `HashLockSpec.hash_lock`, `hash_or_time`: an output with a hash, a key and a fallback after a time | from `cond_spends` (C142) and `first_condition` (C141), for every rest of the script after OP_ELSE |
| C145 | `PuzzleRunSpec.puzzle`, `puzzle_key`, `digest`: outputs with the hash of a secret | from `check_spends` (C138), every case of the stack that the unlocking script leaves |
| C57–C65 | OP_RETURN, multisignature, exceptions, operand decoding, signature checks, definedness | lemmas on single steps lifted to runs over all scripts; witnesses by `vm_compute` |

Not expressible in this model: coroutine scheduling in the stratum sessions and network I/O, ECDSA security,
timing, random quality.

Each property whose full statement is false of the code is recorded as a `…_refuted` theorem with the
witness, plus the strongest true theorem.

## What is modelled

| file | source | not modelled / simplified |
|------|--------|---------------------------|
| `WireModel.v` | `numbers.hpp` var_int, `timechain.{hpp,cpp}` codecs and slices | sums of sizes are not wrapped at 2^64 |
| `ScriptModel.v` | `script/instruction.{hpp,cpp}`, `script/script.hpp` flags, `program_counter` | nothing of these; the text forms are in `AsmModel.v` |
| `NumModel.v` | `numbers.hpp`, `numbers.cpp`, the external number class as sign and magnitude | arbitrary-precision division (parameter `x_div`, `x_mod`) |
| `StackModel.v` | `script/stack.{hpp,cpp}` | vector reallocation |
| `MachineModel.v` | `script/machine.cpp`, `script/interpreter.{hpp,cpp}`, `script/config.{hpp,cpp}`, `script.cpp` (signature, lock time, sequence) | logging and state printing; hashes and ECDSA are parameters |
| `SighashModel.v` | `sighash.{hpp,cpp}`, `signature.cpp`, `incomplete.{hpp,cpp}`, validity of inputs, outputs, transactions | Hash256 is a parameter; an index out of range is undefined behaviour |
| `MerkleModel.v` | `merkle.cpp`, `merkle/{proof,tree,dual,server}.hpp`, `merkle/dual.cpp` | stream output; order and duplicate policy of the external maps are parameters `ins`, `ord`, `dup`; Hash256 is the parameter `H` |
| `BumpModel.v` | `merkle/BUMP.{hpp,cpp}` | JSON form (`BumpJsonModel.v`); behaviour of the external ordered sequence on an offset it already has is the parameter `ins`, of the map on a repeated key `dup` |
| `WorkModel.v` | work.cpp, work/{target,ASICBoost,string,proof}.hpp, timechain.cpp 9–54: compact, expand, category, work strings, proofs, cpu_solve | Hash256 is a parameter; the floating quotient of compact(difficulty) is given as p/2^s; difficulties are in DifficultyModel.v; an unset exponent is a parameter |
| `TextModel.v` | p2p/checksum.cpp, address.cpp, wif.cpp, script/typed_data_bip_276.cpp with their headers, secp256k1.hpp 257–259 | Hash256 is a parameter; external base58 and hex functions are positional notation, the base58 text of an empty sequence is a parameter; the digest of a decoded address starts as zeros |
| `HdModel.v` | schema/hd.cpp, schema/hd.hpp | HMAC, Hash160, public keys and tweak are parameters; loops that may not end carry fuel; exceptions of CryptoPP, pubkey::valid and comparison are not modelled |
| `SecpModel.v` | secp256k1.cpp 209-370, secp256k1.hpp, keysource.hpp, random.cpp, random.hpp | libsecp256k1 given by residues and by the oracles `parse`, `ser`, `der`, `ecdsa`; `strict` says whether it refuses invalid secrets; signing is not modelled; the body of the loop of bitcoind_entropy::read is undefined behaviour whenever it is entered |
| `ExtModel.v` | pay/extended.cpp, extended.hpp, satoshi.hpp, fees.hpp | overflow of sums of int64_little is the parameter `ovf`; overflow of native products is undefined; doubles are fractions, their exponents unbounded; script evaluation of inputs and script_so_far are in `RedeemModel.v` |
| `BeefModel.v` | `pay/BEEF.cpp` 9–58, `pay/BEEF.hpp`: reading, writing, sizes, equality, valid, roots, validate | the header database is an oracle on digests; JSON form |
| `SpvModel.v` | `SPV.cpp` 26-109, 272-353, `SPV.hpp` 20-31, 127-330: `database::memory`, `confirmation`, `database::tx` | sharing is modelled by a heap of entries; the order in which `data` sets and maps are iterated is a parameter; the constructor from the genesis block takes any header |
| `AncModel.v` | `SPV.cpp` 111–270, 355–380, `SPV.hpp` 36–112, 242–255, 269–333: proofs, their validation, generation, extension and comparison | scripts are an oracle; null pointers, indices out of range and `std::optional` without a value are `Bad`; inserting a key that is there either keeps or replaces (`keep`) and does not throw; the default constructed time of the second visit is the parameter `unset` |
| `ConvModel.v` | pay/BEEF.cpp 60-221 | exceptions of the database; more than 2^32 BUMPs |
| `Bip39Model.v` | schema/bip_39.cpp, electrum_SV.cpp | limits of int; Unicode normalisation (the code does none) |
| `Bip44Model.v` | schema/bip_44.hpp, bip_39.hpp 32-54, hd.hpp sources | electrum_sv_wallet (declared only) |
| `PatternModel.v` | `script/pattern.cpp`, `script/pattern.hpp`, `script/pattern/pay_to_*.hpp` | slices past the end of their parent (`Beyond`), `pattern/op_return.hpp` (nothing includes it and it does not compile) |
| `BoostModel.v` | boost/boost.cpp, boost/boost.hpp | text forms; sets of prevouts are in BoostRedeemModel.v |
| `StraightSpec.v`, `PayRunSpec.v` | specifications over `MachineModel.v` and `PatternModel.v` | no new code |
| `BoostRunSpec.v` | specification only (uses `BoostModel.v`, `MachineModel.v`) | |
| `JsonModel.v`, `EnvelopeModel.v` | data::JSON values; pay/envelope.{cpp,hpp} | the text form of JSON (parameters), floating point numbers, base64, signatures (parameters) |
| `StratumModel.v` | methods, messages, errors and parameters of Stratum, over the JSON values of `JsonModel.v` | text of JSON, floating point difficulties (opaque), functions declared and never defined |
| `StratumConfigModel.v` | `stratum/extensions.{hpp,cpp}`, `stratum/mining_configure.{hpp,cpp}`; maps are sorted lists |
| `StratumSessionModel.v` | `stratum/{remote,client_session,server_session}.{hpp,cpp}`; a send begins (number taken) and finishes (number counted, method remembered) as two events; the transport, logging and the virtual functions left to the user are effects or parameters |
| `TscModel.v` | `merkle/serialize.{hpp,cpp}`; hexadecimal case and the digest constructor on other texts are parameters |
| `BumpJsonModel.v` | `merkle/BUMP.cpp` JSON part; digit case, digests of other texts, floating point conversions and the ordered sequence are parameters |
| `RedeemModel.v` | redeem.{cpp,hpp}, fees.hpp 79-101, script.{cpp,hpp} redemption_document, signature.hpp sign and verify | ECDSA signing and DER are parameters; secp256k1 may give an empty signature, which is one of the values of the parameter |
| `MapiModel.v` | pay/MAPI.{cpp,hpp} | hexadecimal case, digests of odd texts, validity of keys, the stream form of digests, duplicates in maps, JSON text and the envelope's cryptography are parameters; HTTP requests beyond JSON bodies and parameters, response::verify and the JSON form of a response are not modelled |
| `SpvEnvModel.v` | pay/SPV_envelope.{cpp,hpp} | maps are lists sorted by id; insertion of an existing key, hexadecimal case, digests of odd texts, JSON text and the JSON form of an answer are parameters; sharing of nodes cannot be observed; memory leaks are not modelled |
| `ArcModel.v` | pay/ARC.{cpp,hpp} | transport not modelled; JSON text, hexadecimal case, net::error::valid, conversion of floating point numbers and the comparison of an amount with a double are parameters |
| `AsmModel.v` | `script/opcodes.cpp` names, `script/instruction.cpp` 188–300 | the case of hexadecimal digits is a parameter |
| `TimeModel.v` | `timestamp.{hpp,cpp}` | gmtime, strftime and strptime (glibc, C locale) are modelled for the one format used; `now` and differences are not |
| `StratumJobModel.v` | stratum/job.hpp, mining_notify.hpp 25-116, mining.hpp 50-97, server_session.hpp 178-211 | what data::valid says of a worker is a parameter; times are whole seconds. The bodies in server_session.cpp 59-245 are commented out and not modelled |
| `SpvRunModel.v` | SPV.cpp 185-195, interpreter.hpp 34-37 | an exception of the interpreter, which would end the validation, is not taken for a success |
| `BoostRedeemModel.v` | `boost/boost.hpp` 299-373, 722-770, `boost/boost.cpp` 388-428, `fees.hpp` 18-32 | the external set is the list of its elements, and insertion into it a parameter; both walks over it (for_each and values) give the same order, and map_thread applies its function in order; a valid digest is one that is not zero |
| `P2pModel.v` | `p2p/command.hpp`, `p2p/net_address.hpp`, `p2p/version.hpp`, `p2p/version.cpp` | a message is the record of its fields; constructors that fill in a default sender are not modelled; the address library gives bytes or nothing |
| `DerModel.v` | `secp256k1.cpp` 13-211, `secp256k1.hpp` 17-59, 166-169, `signature.hpp` 64-79 | positions do not wrap (inputs below 2^63 bytes); libsecp256k1 parse_compact and normalize are comparisons with the order |
| `DifficultyModel.v` | work.cpp 89–155, work/target.hpp 83–118, 190–280, boost/boost.hpp 740–746 | doubles have unbounded exponents; conversions from integers give the nearest double; the external mantissa_bits<64> is 52; sums, products of difficulties and hashpower are not modelled |
| `RawModel.v` | timechain.cpp 81–106, 131–149, 235–268, 288–305, timechain.hpp 134–168, 196–203, 268–324, 450–453, SPV.cpp 9–21 | std::bad_alloc is not modelled; a cached hash is kept by value; `Sha256Spec.v` gives SHA-256 (external to the library) for the genesis block only |
| `BeefJsonModel.v` | pay/BEEF.cpp 223–257 | the case of hexadecimal digits is a parameter; fields hold values in the ranges of their C++ types |
| `ErrorModel.v` | script/error.cpp 10–113 | the count of errors, which is in the enumeration, is left out |
| `NumLibModel.v` | numbers.cpp 5–74, numbers.hpp 172–217 | range with one argument is a parameter |
| `MapiRequestModel.v` | `pay/MAPI.cpp` 29–50, 72–78, 193–213; `pay/MAPI.hpp` 241–264, 296–304, 348–354, 443–476 | how streams write digests, GET and form encoding are parameters; headers left out |

Numeric contract: byte-string sizes are `N`; where the code converts a size or operand to a 32- or 64-bit type the
model wraps explicitly, or the theorem has the bound as a hypothesis (`< 2^31` for script sizes).

`neg1` in the script theorems is the byte string that the external number class produces for the expression
`integer {0x81}` (instruction.hpp, data of OP_1NEGATE); the source does not determine it.

## Checks of the model against the project's own test values

No property rests on these files. They run the model by `vm_compute` on values found in `/repo/test`, with the
external functions made concrete (`Sha1Spec`, `Sha256Spec`, `Sha512Spec`, `Ripemd160Spec`, `CurveSpec`), so that a
mistake in transcription which no theorem would notice stops the build. Each check is a `Succeed Example`: Coq
typechecks it and then forgets it, so that nothing of it is left for `coqchk`, which has no virtual machine, to redo.

| File | Values from |
|---|---|
| `VectorsText.v` | `testBase58Check.cpp`, `testFormat.cpp` |
| `VectorsHd.v` | `testBip32.cpp`, `testBip32Derivations.cpp` (the first steps of each chain) |
| `VectorsMerkle.v` | `testBUMP.cpp`, `testBEEF.cpp`, `testMerkle.cpp` (trees of 1 and 3 leaves) |
| `VectorsScript.v` | `testScript.cpp`; TestMultisig with a hash of key and script code in the place of ECDSA |
| `VectorsWork.v` | `testExpandCompact.cpp`, `testDifficulty.cpp`, `testTimestamp.cpp`, `testWorkString.cpp`, `testGenesis.cpp`, `testPush.cpp`, `testWork.cpp` |
| `VectorsTx.v` | `testTransaction.cpp`; the second transaction of TestTransaction2 spends the first, and its ECDSA signature is verified by the modelled interpreter over the modelled signature hash |
| `VectorsStratum.v` | `testStratum.cpp` |
| `VectorsBoost.v` | `testBoost.cpp` (the scripts of boostpow-js and their proofs of work) |

## Axioms

`Print Assumptions` prints `Closed under the global context` for every property theorem.  Loading the `Zify` tactics of
the standard library brings `Coq.ssr.ssrunder` into the environment, whose module type fields `Under_rel.*` a whole-library
scan lists; no theorem depends on them.
