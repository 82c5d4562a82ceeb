{"id": "C01", "title": "Variable-length integers survive a round trip and are written in the shortest form", "statement": "Writing any 64-bit count as a var_int and reading it back, with arbitrary bytes following, returns the same count and leaves exactly those following bytes; the number of bytes written equals var_int::size, and no sequence of bytes that the reader decodes to the same count is shorter.", "quantifier": "every integer 0..2^64-1 and every trailing byte string", "why_tests_cant": "2^64 values times arbitrary tails; boundary values 0xfc/0xfd, 0xffff, 0xffffffff only sample it", "anchors": ["src/gigamonkey/include/gigamonkey/p2p/var_int.hpp: var_int::size, var_int::read, var_int::write", "src/gigamonkey/p2p/var_int.cpp: var_int::read, var_int::write"]}
{"id": "C02", "title": "Reading a var_int is bounded and only non-minimal encodings are ambiguous", "statement": "Whenever the var_int reader succeeds the value fits in 64 bits, the consumed bytes are a prefix of the input of 1, 3, 5 or 9 bytes, and re-writing the value gives back exactly the consumed bytes if and only if the consumed length equals var_int::size of the value (the reader accepts non-minimal encodings).", "quantifier": "every byte string", "why_tests_cant": "the malleable encodings are exactly the ones test vectors never contain", "anchors": ["src/gigamonkey/p2p/var_int.cpp: var_int::read", "src/gigamonkey/include/gigamonkey/p2p/var_int.hpp: var_int::size"]}
{"id": "C03", "title": "Transactions survive serialization", "statement": "Serializing any transaction and reading the bytes back, with any bytes following, gives the same version, inputs (outpoint, script, sequence), outputs (value, script) and lock time, in the same order, and leaves the following bytes unread. Hence two different transactions never serialize to the same bytes.", "quantifier": "every transaction whose fields fit their wire widths, with any number of inputs and outputs and any script sizes; every trailing byte string", "why_tests_cant": "unbounded numbers of inputs/outputs/script bytes; sequences are read with prepend-and-reverse", "anchors": ["src/gigamonkey/timechain.cpp: operator << / >> for transaction, input, output, outpoint", "src/gigamonkey/include/gigamonkey/timechain.hpp: transaction"]}
{"id": "C04", "title": "Announced serialized sizes are the real sizes", "statement": "serialized_size of an input, output, transaction and block equals the number of bytes that its serialization produces.", "quantifier": "every input, output, transaction and block", "why_tests_cant": "off-by-some errors at the var_int thresholds (253, 65536 scripts/counts) need sizes tests do not build", "anchors": ["src/gigamonkey/include/gigamonkey/timechain.hpp: serialized_size", "src/gigamonkey/timechain.cpp: serialized_size"]}
{"id": "C05", "title": "A truncated transaction or block is never accepted", "statement": "No strict prefix of the serialization of a transaction (or block, or header) reads successfully as a transaction (block, header): the reader reports end of stream.", "quantifier": "every transaction/header/block and every cut position", "why_tests_cant": "needs every cut point of every message", "anchors": ["src/gigamonkey/timechain.cpp: operator >>, transaction (slice)"]}
{"id": "C06", "title": "Block headers are exactly 80 bytes and blocks round-trip", "statement": "A header serializes to 80 bytes with each field at its fixed offset, reads back to itself, two different headers have different bytes; a block (header plus any list of transactions) reads back to itself.", "quantifier": "every header and every block", "why_tests_cant": "all field values and unbounded transaction lists", "anchors": ["src/gigamonkey/include/gigamonkey/timechain.hpp: header, block", "src/gigamonkey/timechain.cpp: header read/write, block read/write"]}
{"id": "C07", "title": "Reading then re-writing a transaction is the identity up to count-field malleability", "statement": "If bytes read as a transaction, re-serializing that transaction gives at most as many bytes as were consumed, and gives exactly the consumed bytes if and only if the lengths are equal; in particular for an input with minimally encoded counts the transaction id computed from the parsed object is the id of the raw bytes.", "quantifier": "every byte string accepted by the transaction reader", "why_tests_cant": "quantifies over all accepted, including adversarial, byte strings", "anchors": ["src/gigamonkey/timechain.cpp: operator >>, operator <<, transaction::id"]}
{"id": "C08", "title": "Pushing data and reading the instruction back gives the data", "statement": "For every byte string d, the instruction built by instruction::push has push_data equal to d, and its compiled bytes, followed by any other script bytes, are read back as that same instruction and leave the other bytes; the compiled length equals instruction::serialized_size.", "quantifier": "every byte string of length below 2^32 and every following script", "why_tests_cant": "all lengths, incl. the PUSHDATA1/2/4 thresholds 75/76/255/256/65535/65536", "anchors": ["src/gigamonkey/script/instruction.cpp: instruction::push, push_data, read_push, serialized_size"]}
{"id": "C09", "title": "Pushes are minimal except at two exact sizes", "statement": "instruction::push chooses the shortest push opcode available for the data, and is_minimal_instruction accepts its result for every data except exactly those of 256 or 65536 bytes, for which the library rejects its own push; conversely any push instruction accepted as minimal is the one instruction::push would build.", "quantifier": "every byte string of length below 2^32", "why_tests_cant": "exact thresholds over all lengths; the existing tests sample other lengths", "anchors": ["src/gigamonkey/script/instruction.cpp: is_minimal_instruction, is_minimal_push, instruction::push"]}
{"id": "C10", "title": "compile and decompile are inverse", "statement": "Whenever decompile succeeds on script bytes, compiling the resulting program gives exactly those bytes back; and decompiling the compilation of a program of well-formed instructions gives the program back or fails with a control-flow or size error, never a different program.", "quantifier": "every byte string / every program", "why_tests_cant": "unbounded scripts", "anchors": ["src/gigamonkey/script/instruction.cpp: compile, decompile, script_reader"]}
{"id": "C11", "title": "The program counter visits exactly the decompiled instructions", "statement": "Stepping a program_counter from the start of any script yields, in order, exactly the instruction encodings that sequential decoding produces, never reads outside the script, and stops at the end; the text from the last code separator is the suffix after the last executed OP_CODESEPARATOR.", "quantifier": "every script byte string and number of steps", "why_tests_cant": "every script", "anchors": ["src/gigamonkey/include/gigamonkey/script/counter.hpp: program_counter", "src/gigamonkey/script/counter.cpp: program_counter::read_instruction, next"]}
{"id": "C12", "title": "Script numbers are a canonical encoding of the integers", "statement": "Encoding any integer as a script number and decoding it gives the integer back; the encoding is minimal; any minimal byte string is the encoding of its value, so two minimal strings with equal value are equal; zero is the empty string; trimming never changes the value.", "quantifier": "every integer / every byte string", "why_tests_cant": "infinitely many integers; sign-bit carry cases", "anchors": ["src/gigamonkey/numbers.cpp", "src/gigamonkey/include/gigamonkey/numbers.hpp: integer, is_minimal, trim"]}
{"id": "C13", "title": "Numeric opcodes compute integer arithmetic", "statement": "OP_1ADD, OP_1SUB, OP_NEGATE, OP_ABS, OP_NOT, OP_0NOTEQUAL, OP_ADD, OP_SUB, OP_MUL, OP_DIV, OP_MOD, OP_BOOLAND, OP_BOOLOR, comparisons, OP_MIN, OP_MAX and OP_WITHIN on script numbers leave the minimal encoding of the mathematically right integer (truncated division; sign of remainder follows the dividend) and division by zero is an error.", "quantifier": "every pair of operands accepted by the size/minimality rules", "why_tests_cant": "all operand pairs", "anchors": ["src/gigamonkey/script/machine.cpp: step (numeric opcodes)", "src/gigamonkey/include/gigamonkey/numbers.hpp"]}
{"id": "C14", "title": "Numeric operands are range checked", "statement": "A numeric operand longer than the configured maximum is always rejected with SCRIPTNUM_OVERFLOW, and when minimal encoding is required a non-minimal operand is always rejected with SCRIPTNUM_MINENCODE; otherwise its value is read exactly.", "quantifier": "every byte string, limit and minimality flag", "why_tests_cant": "all operands at all limits", "anchors": ["src/gigamonkey/numbers.cpp: read_integer", "src/gigamonkey/script/machine.cpp"]}
{"id": "C15", "title": "Byte-string opcodes are exact", "statement": "OP_CAT/OP_SPLIT are inverse, OP_AND/OP_OR/OP_XOR act bitwise on equal-length strings and otherwise fail, OP_INVERT flips every bit, OP_LSHIFT/OP_RSHIFT preserve length and shift the big-endian bit string, OP_NUM2BIN/OP_BIN2NUM preserve the numeric value, OP_SIZE reports the length.", "quantifier": "every operand and shift amount", "why_tests_cant": "all lengths and shift amounts, incl. non-multiples of 8", "anchors": ["src/gigamonkey/numbers.cpp: bit_and, bit_or, bit_xor, left_shift, right_shift, cat, split", "src/gigamonkey/script/machine.cpp"]}
{"id": "C16", "title": "Script stack limits can never be exceeded", "statement": "After any sequence of stack operations the pre-genesis stack never holds more than 1000 elements in main plus alt stack nor any element over 520 bytes, and the post-genesis stack's accounted memory is exactly the sum over both stacks of element size plus 32 and never exceeds its configured maximum; an operation that would break this throws.", "quantifier": "every history of stack operations", "why_tests_cant": "an invariant over unbounded operation histories", "anchors": ["src/gigamonkey/include/gigamonkey/script/stack.hpp: limited_two_stack", "src/gigamonkey/script/stack.cpp"]}
{"id": "C17", "title": "Script evaluation terminates", "statement": "Evaluating any unlocking/locking script pair terminates: the machine halts within one step more than the number of instructions in the script, whatever the data, flags and signature oracle.", "quantifier": "every script, configuration and signature-check oracle", "why_tests_cant": "termination over all scripts", "anchors": ["src/gigamonkey/script/interpreter.cpp: run", "src/gigamonkey/script/machine.cpp: step"]}
{"id": "C18", "title": "Conditional execution", "statement": "OP_IF/OP_NOTIF/OP_ELSE/OP_ENDIF execute exactly the selected branch. In this code a false condition skips every following instruction, including the matching OP_ELSE and OP_ENDIF, so the result is decided by the stack at that point; the behaviour is right exactly when every executed condition is taken.", "quantifier": "every script with conditionals", "why_tests_cant": "needs all nestings; no test in the repository runs the not-taken branch", "anchors": ["src/gigamonkey/script/machine.cpp: step (executed test, OP_IF, OP_ELSE, OP_ENDIF)"]}
{"id": "C19", "title": "VERIFY forms do not end the script", "statement": "OP_CHECKSIGVERIFY / OP_CHECKMULTISIGVERIFY with a good signature behave as OP_CHECKSIG OP_VERIFY: the script goes on. In this code success halts the whole script with success, so everything after it (e.g. a failing condition) is ignored.", "quantifier": "every script containing such an opcode", "why_tests_cant": "requires quantifying over everything that could follow", "anchors": ["src/gigamonkey/script/machine.cpp: step (OP_CHECKSIGVERIFY, OP_CHECKMULTISIGVERIFY)"]}
{"id": "C20", "title": "Lock time opcodes", "statement": "OP_CHECKLOCKTIMEVERIFY and OP_CHECKSEQUENCEVERIFY enforce the lock exactly when the corresponding flag is set (in this code the test is inverted), and check_locktime / check_sequence accept exactly when the operand is of the same kind and not larger than the transaction's lock time / sequence and the input is not final.", "quantifier": "every flag set, operand, transaction lock time and sequence", "why_tests_cant": "all 2^32 x 2^32 operand/lock-time pairs", "anchors": ["src/gigamonkey/script/machine.cpp: OP_CHECKLOCKTIMEVERIFY, OP_CHECKSEQUENCEVERIFY", "src/gigamonkey/script.cpp: check_locktime, check_sequence"]}
{"id": "C21", "title": "Single-stepping and running agree", "statement": "Repeatedly stepping an interpreter until it halts gives the same final stack, error code and result as run, and a halted interpreter never changes state again.", "quantifier": "every script, state and number of steps", "why_tests_cant": "all scripts and all interleavings of step/run", "anchors": ["src/gigamonkey/script/interpreter.cpp: step, run"]}
{"id": "C22", "title": "Signature hash preimage layout (fork id)", "statement": "The fork-id signature-hash preimage is exactly version, hash of prevouts, hash of sequences, outpoint, script code with length, value, sequence, hash of outputs, lock time and sighash type, with the three hashes zeroed as the sighash type requires; its length is fixed by the script code length.", "quantifier": "every transaction, input index, sighash byte", "why_tests_cant": "all transactions and sighash types", "anchors": ["src/gigamonkey/sighash.cpp: Amaury::write", "src/gigamonkey/include/gigamonkey/sighash.hpp"]}
{"id": "C23", "title": "Signature hash commits to what it should", "statement": "If two documents have the same fork-id preimage (and the component hashes do not collide) then they agree on version, spent outpoint, script code, value, sequence, lock time, sighash type and, for SIGHASH_ALL, on all outputs; without ANYONECANPAY on all outpoints.", "quantifier": "every pair of documents", "why_tests_cant": "injectivity over pairs", "anchors": ["src/gigamonkey/sighash.cpp: Amaury::write, hash_prevouts, hash_sequence, hash_outputs"]}
{"id": "C24", "title": "Signature hash ignores what it may", "statement": "The fork-id signature hash does not depend on any input script; with ANYONECANPAY it does not depend on other inputs; with SIGHASH_NONE it does not depend on outputs; sequences of other inputs matter only for SIGHASH_ALL without ANYONECANPAY.", "quantifier": "every pair of documents that differ only there", "why_tests_cant": "independence over all modifications", "anchors": ["src/gigamonkey/sighash.cpp: Amaury::write"]}
{"id": "C25", "title": "Sighash flag byte decomposition", "statement": "Every sighash byte decomposes into base type, fork-id bit and anyone-can-pay bit, these determine it when it is valid, and has_fork_id / is_anyone_can_pay / is_valid agree with the bits.", "quantifier": "all sighash bytes and all ways to build them", "why_tests_cant": "cheap but exhaustive: all 256 values and builders", "anchors": ["src/gigamonkey/include/gigamonkey/sighash.hpp: directive, base, has_fork_id, is_anyone_can_pay, is_valid"]}
{"id": "C26", "title": "Merkle proofs generated for a list verify", "statement": "For every non-empty list of leaf digests and every index in it, the generated path has that index, and deriving the root from the leaf and path gives the Merkle root of the list.", "quantifier": "every leaf list (any length, also not a power of two) and every index; every hash function", "why_tests_cant": "unbounded lengths, duplication of last nodes at every level", "anchors": ["src/gigamonkey/merkle.cpp", "src/gigamonkey/include/gigamonkey/merkle/proof.hpp: path, branch, proof", "src/gigamonkey/include/gigamonkey/merkle/tree.hpp"]}
{"id": "C27", "title": "Merkle proofs are sound", "statement": "If a branch of the full tree height derives the Merkle root of a list then, unless two different node pairs with the same hash are exhibited, its leaf is the list's leaf at the branch index (clipped by duplication).", "quantifier": "every list, branch and hash function", "why_tests_cant": "an adversary chooses the branch", "anchors": ["src/gigamonkey/include/gigamonkey/merkle/proof.hpp: proof::valid, branch::root"]}
{"id": "C28", "title": "Merkle root duplication ambiguity", "statement": "The Merkle root of a list with odd length above one equals the root of the list with its last leaf repeated: the root does not determine the list.  Lists of the same height have the same root exactly when their completions by duplication are equal, unless a collision among the strings hashed is exhibited.", "quantifier": "every hash function and every odd-length list", "why_tests_cant": "universal over lists", "anchors": ["src/gigamonkey/merkle.cpp: round, root"]}
{"id": "C29", "title": "Adding Merkle branches to a dual keeps it valid and complete", "statement": "A Merkle dual to which only valid branches for its root are added stays valid, contains every added branch, and branches extracted from it derive its root.", "quantifier": "every history of additions", "why_tests_cant": "histories", "anchors": ["src/gigamonkey/include/gigamonkey/merkle/dual.hpp: dual, operator +, valid"]}
{"id": "C30", "title": "BUMP binary format round-trips and paths extracted are right", "statement": "A BUMP read from its own binary form is unchanged, its announced size is right, and the paths it yields derive its root when it is valid.", "quantifier": "every BUMP with height at most 255 and offsets in range", "why_tests_cant": "unbounded node sets", "anchors": ["src/gigamonkey/merkle/BUMP.cpp", "src/gigamonkey/include/gigamonkey/merkle/BUMP.hpp"]}
{"id": "C31", "title": "Compact targets", "statement": "Expanding a compact target gives digits * 256^(exponent-3) exactly when it is non-negative and fits in 256 bits and 0 otherwise; encoding a 256-bit number of at least 2^24 as compact never gives a larger value and loses only low-order digits; encoding an expanded target again expands to the same target.", "quantifier": "all 2^32 compact values / all 256-bit numbers", "why_tests_cant": "2^256 values", "anchors": ["src/gigamonkey/work.cpp: compact::expand, compact::compact", "src/gigamonkey/include/gigamonkey/work/target.hpp"]}
{"id": "C32", "title": "Version rolling splits and joins losslessly", "statement": "ASICBoost::category rebuilt from magic_number and bits is the original version field, and with a mask the worker controls only bits outside the mask.", "quantifier": "all 2^32 versions", "why_tests_cant": "2^32 values", "anchors": ["src/gigamonkey/include/gigamonkey/work/ASICBoost.hpp", "src/gigamonkey/include/gigamonkey/work/proof.hpp: proof::string"]}
{"id": "C33", "title": "Proof of work validity means what it says", "statement": "A work proof is valid exactly when the double-SHA256 of its 80-byte work string, read as a little-endian number, is below the expanded target; the work string is the header bytes; the cpu solver returns the first valid attempt or throws.", "quantifier": "every puzzle and solution", "why_tests_cant": "all solutions", "anchors": ["src/gigamonkey/include/gigamonkey/work/proof.hpp: proof::valid, proof::string", "src/gigamonkey/include/gigamonkey/work/string.hpp: string::valid"]}
{"id": "C34", "title": "Base58Check round-trips and detects corruption", "statement": "Encoding any byte string with Base58Check and decoding gives it back, including leading zeros; a decoded string always carries a correct checksum; encoding is injective.", "quantifier": "every byte string", "why_tests_cant": "all lengths and numbers of leading zeros", "anchors": ["src/gigamonkey/p2p/checksum.cpp: base58::check::encode, decode, append_checksum, remove_checksum"]}
{"id": "C35", "title": "Addresses and WIF keys round-trip", "statement": "Encoding an address (network, digest) and decoding returns it; likewise for WIF secrets with the compressed flag; main and test encodings never collide.", "quantifier": "every digest/secret and network", "why_tests_cant": "2^160 / 2^256 payloads", "anchors": ["src/gigamonkey/address.cpp", "src/gigamonkey/wif.cpp"]}
{"id": "C36", "title": "BIP 276 text scripts round-trip", "statement": "Writing a script in BIP 276 form and reading it gives the same version, network and non-empty data; changing the text so that the checksum does not match is rejected; the empty script does not round-trip (rejected by the length test).", "quantifier": "every data, version, network", "why_tests_cant": "all payloads", "anchors": ["src/gigamonkey/script/typed_data_bip_276.cpp"]}
{"id": "C37", "title": "HD paths are parsed correctly", "statement": "Writing a path in the canonical form (numbers separated by '/', ' for hardened) and parsing it gives the path back; parsing terminates only if every scanned character is a digit, ' or / \u2014 on any other character the parser never returns.", "quantifier": "every path and every string", "why_tests_cant": "non-termination cannot be tested", "anchors": ["src/gigamonkey/schema/hd.cpp: read_path"]}
{"id": "C38", "title": "HD derivation of public and private keys commute", "statement": "For a non-hardened child, deriving the public key of the derived secret equals deriving the child from the public key, provided no HMAC output reaches the group order; deriving along a concatenated path equals deriving in two stages; hardened derivation from a public key fails.", "quantifier": "every key, chain code, index and path; any HMAC oracle and group", "why_tests_cant": "all keys and indices", "anchors": ["src/gigamonkey/schema/hd.cpp: derive"]}
{"id": "C39", "title": "Extended keys round-trip", "statement": "Writing an extended secret or public key and reading it gives the same depth, parent, sequence, chain code, key and network.", "quantifier": "every extended key", "why_tests_cant": "all 2^256 keys", "anchors": ["src/gigamonkey/schema/hd.cpp: secret::write, secret::read, pubkey::write, pubkey::read"]}
{"id": "C40", "title": "BIP 39 sentences validate", "statement": "The sentence generated from any entropy of 16, 20, 24, 28 or 32 bytes is accepted by valid, has the right number of words and determines the entropy.", "quantifier": "every entropy, any SHA-256", "why_tests_cant": "2^128..2^256 entropies", "anchors": ["src/gigamonkey/schema/bip_39.cpp: generate, valid"]}
{"id": "C41", "title": "SPV database stays consistent", "statement": "Over any history of inserts and removals the in-memory SPV database never confirms a transaction without holding, at the recorded root, a header and a Merkle path that derives that root from the transaction id. Where the code breaks this (removing the latest header keeps confirmations; inserting a transaction with its path does not record the confirmation) the exact failing history is shown.", "quantifier": "every history of operations", "why_tests_cant": "unbounded histories", "anchors": ["src/gigamonkey/SPV.cpp: database::memory", "src/gigamonkey/include/gigamonkey/SPV.hpp"]}
{"id": "C42", "title": "A validated SPV proof supports the payment", "statement": "If validate accepts a proof then every payment input's antecedent is included and either confirmed by a Merkle path to a known header or itself supported by included antecedents, and the spent value covers the sent value. The code does not check that an antecedent's id matches the outpoint nor that an outpoint is spent once, so value can be counted twice; both are exhibited.", "quantifier": "every proof, header database and script oracle", "why_tests_cant": "adversarial proofs", "anchors": ["src/gigamonkey/SPV.cpp: proof::validate, check_sub_proof"]}
{"id": "C43", "title": "BEEF round-trips", "statement": "Writing a BEEF and reading it gives it back, the announced size is the real size; validity implies transactions are unique and every unproven transaction's inputs refer to earlier transactions in the list.", "quantifier": "every BEEF", "why_tests_cant": "unbounded lists", "anchors": ["src/gigamonkey/pay/BEEF.cpp", "src/gigamonkey/include/gigamonkey/pay/BEEF.hpp"]}
{"id": "C44", "title": "Extended-format transactions round-trip", "statement": "Writing an extended transaction and reading it gives the same transaction with the same previous outputs, the announced size is right, and dropping the previous outputs gives the plain transaction; the reader ignores the six marker bytes.", "quantifier": "every extended transaction", "why_tests_cant": "unbounded lists", "anchors": ["src/gigamonkey/pay/extended.cpp", "src/gigamonkey/include/gigamonkey/pay/extended.hpp"]}
{"id": "C45", "title": "Fee estimation uses the right size", "statement": "The expected size of a transaction design equals the size of the completed transaction when every redeem script has its expected size and the numbers of inputs and outputs have var_ints of equal size; otherwise it is off by the difference of the two var_int sizes.", "quantifier": "every design", "why_tests_cant": "needs more than 252 outputs", "anchors": ["src/gigamonkey/include/gigamonkey/fees.hpp: transaction_design::expected_size, complete"]}
{"id": "C46", "title": "Script templates recognise exactly their own scripts", "statement": "Pay-to-pubkey, pay-to-address, pay-to-hash, pay-to-script-hash and OP_RETURN templates extract from the scripts they build the same payload, and a script in which the pay-to-address pattern matches is exactly the script that would be built from the extracted address.", "quantifier": "every payload and every script", "why_tests_cant": "all scripts", "anchors": ["src/gigamonkey/include/gigamonkey/script/pattern/pay_to_address.hpp", "src/gigamonkey/include/gigamonkey/script/pattern/pay_to_pubkey.hpp", "src/gigamonkey/script/pattern.cpp"]}
{"id": "C47", "title": "Boost scripts round-trip", "statement": "A boost output script built from valid parameters is read back to the same parameters and has the announced size; likewise input scripts.", "quantifier": "every boost puzzle/solution", "why_tests_cant": "all parameters", "anchors": ["src/gigamonkey/boost/boost.cpp: output_script, input_script"]}
{"id": "C48", "title": "Key sources do not repeat keys", "statement": "Successive keys from an incrementing key source are distinct. In this code adding secrets returns the constant 1, so from the second key on every key is the same.", "quantifier": "every start key and number of steps", "why_tests_cant": "histories", "anchors": ["src/gigamonkey/include/gigamonkey/schema/keysource.hpp", "src/gigamonkey/secp256k1.cpp: secret::plus"]}
{"id": "C49", "title": "Entropy comes from the generator", "statement": "bitcoind_entropy returns generator output. In this code the first read of up to 32 bytes returns 32 constant zero bytes whatever the generator produces.", "quantifier": "every generator and read size", "why_tests_cant": "needs all generators", "anchors": ["src/gigamonkey/schema/random.cpp: bitcoind_entropy::read"]}
{"id": "C50", "title": "Stratum messages round-trip", "statement": "Method names, session ids, share submissions and notify parameters written to JSON are read back unchanged; the fields for which this fails (byte order of masks, Merkle path digests, digest word order) are exhibited.", "quantifier": "every message", "why_tests_cant": "all values", "anchors": ["src/gigamonkey/stratum/method.cpp", "src/gigamonkey/stratum/mining.cpp", "src/gigamonkey/include/gigamonkey/stratum/session_id.hpp"]}
{"id": "C51", "title": "Stratum version masks and sessions", "statement": "A negotiated version mask only has bits allowed by both sides and at least the requested number of them; responses are matched with the one outstanding request of that id exactly once; share counts never exceed submissions.", "quantifier": "every history of messages", "why_tests_cant": "histories", "anchors": ["src/gigamonkey/stratum/extensions.cpp: parameters<version_rolling>::make", "src/gigamonkey/stratum/remote.cpp", "src/gigamonkey/include/gigamonkey/stratum/client_session.hpp"]}
{"id": "C52", "title": "Signed JSON envelopes", "statement": "An envelope signed with a secret verifies, an envelope written to JSON is read back unchanged. In this code UTF-8 envelopes are written with encoding name UTF_8 and read as UTF-8, so they do not survive.", "quantifier": "every payload, any signature scheme", "why_tests_cant": "all payloads", "anchors": ["src/gigamonkey/pay/envelope.cpp", "src/gigamonkey/include/gigamonkey/pay/envelope.hpp"]}
{"id": "C53", "title": "Monetary sums", "statement": "Amounts accepted as valid (0 <= v < 2.1e15) can be summed over up to 4392 outputs without 64-bit overflow, so fee = spent - sent is exact; beyond that wraparound can make an overspending transaction look balanced.", "quantifier": "every list of valid amounts", "why_tests_cant": "overflow needs thousands of huge outputs", "anchors": ["src/gigamonkey/include/gigamonkey/satoshi.hpp", "src/gigamonkey/pay/extended.cpp: spent, sent, fee"]}
{"id": "C54", "title": "Slices of raw transactions and blocks", "statement": "transaction::input of the serialization of a transaction whose version is 1, or 2 up to ASICBoost bits, is the serialization of the requested input, and the empty slice if there is no such input; block::transactions of the serialization of a block gives the serializations of its transactions in order. transaction::output reads an uninitialised counter: its behaviour is undefined for every such transaction.", "quantifier": "every transaction / block, every index, any trailing bytes", "why_tests_cant": "undefined behaviour cannot be tested away; all indices and counts", "anchors": ["src/gigamonkey/timechain.cpp: transaction::input, transaction::output, scan_input, to_transaction_outputs, block::transactions"]}
{"id": "C55", "title": "Predicted push size", "statement": "instruction::min_push_size equals the serialized size of the push that instruction::push builds for every data except exactly those of 75, 255 and 65535 bytes, for which it predicts 77, 258 and 65540 instead of 76, 257 and 65538.", "quantifier": "every byte string shorter than 2^31", "why_tests_cant": "the exact exceptions over all lengths", "anchors": ["src/gigamonkey/include/gigamonkey/script/instruction.hpp: min_push_size"]}
{"id": "C56", "title": "Pre-verification accepts exactly the well-formed programs", "statement": "pre_verify accepts a program exactly when every instruction passes verification under the flags, its conditionals are properly nested with at most one OP_ELSE each, and OP_RETURN occurs only where the flags allow it, or the program is the one allowed data-only form.", "quantifier": "every program and flag set", "why_tests_cant": "unbounded nesting", "anchors": ["src/gigamonkey/script/instruction.cpp: pre_verify, valid_program"]}
{"id": "C57", "title": "OP_RETURN after genesis", "statement": "After genesis an executed top-level OP_RETURN should end the script with the result of the stack. In this code it ends evaluation with success whatever the stack holds: an OP_0 OP_RETURN data output evaluates to true with an empty unlocking script, and where the unlocking script may contain opcodes a lone OP_RETURN unlocks every well-formed locking script.", "quantifier": "every script containing OP_RETURN; every well-formed locking script", "why_tests_cant": "quantifies over all locking scripts", "anchors": ["src/gigamonkey/script/machine.cpp: step (OP_RETURN)", "src/gigamonkey/script/interpreter.cpp"]}
{"id": "C58", "title": "Multisignature with strict failure rules", "statement": "OP_CHECKMULTISIG accepts any m signatures that match an ordered subset of the n keys. In this code, under the library's profiles (NULLFAIL with mandatory FORKID), the check goes on only if the m signatures match the m topmost keys one to one; a valid 1-of-2 signature by the other key is an error.", "quantifier": "every stack, key list and signature oracle", "why_tests_cant": "all m-of-n and all subsets", "anchors": ["src/gigamonkey/script/machine.cpp: OP_CHECKMULTISIG", "src/gigamonkey/script.cpp: verify_signature"]}
{"id": "C59", "title": "Evaluation reports malformed scripts as results", "statement": "evaluate returns a result for every byte string. In this code the only exception that escapes is end-of-stream, and it escapes exactly for scripts whose last push lacks its size bytes.", "quantifier": "every pair of byte strings", "why_tests_cant": "all byte strings", "anchors": ["src/gigamonkey/script/interpreter.cpp: interpreter", "src/gigamonkey/script/instruction.cpp: decompile"]}
{"id": "C60", "title": "Zero operands are zero however written", "statement": "A zero operand written with a sign bit (0x80) behaves as zero when minimal encoding is not required. In this code OP_LEFT and OP_RIGHT then read outside the string and OP_SPLIT fails with an unknown error for every string shorter than 128 bytes.", "quantifier": "every machine state with such operands", "why_tests_cant": "needs a non-minimal zero as an index", "anchors": ["src/gigamonkey/script/machine.cpp: read_as_uint32_little, OP_SPLIT, OP_LEFT, OP_RIGHT"]}
{"id": "C61", "title": "Code separators inside conditionals", "statement": "A signature check after OP_CODESEPARATOR inside a taken conditional uses the rest of the script as script code. In this code the rest is decompiled on its own and rejected because its OP_ENDIF has no OP_IF, so the check fails with an unknown error.", "quantifier": "scripts with a separator inside a conditional", "why_tests_cant": "combination of separator and conditional", "anchors": ["src/gigamonkey/script/machine.cpp: OP_CHECKSIG", "src/gigamonkey/include/gigamonkey/script/interpreter.hpp: program_counter::to_last_code_separator"]}
{"id": "C62", "title": "A locking script can only be satisfied through its conditions", "statement": "False in this code: where unlocking scripts may contain opcodes, OP_1 OP_0 OP_IF OP_ENDIF unlocks every well-formed locking script, because a false condition skips all that follows.", "quantifier": "every well-formed locking script, any signature oracle", "why_tests_cant": "quantifies over all locking scripts", "anchors": ["src/gigamonkey/script/machine.cpp: step", "src/gigamonkey/script/interpreter.cpp"]}
{"id": "C63", "title": "Lock time operands above 32 bits", "statement": "A lock time operand of 2^32 or more is never met. In this code it is reduced modulo 2^32 first, so 2^32 is accepted as 0.", "quantifier": "every five-byte operand", "why_tests_cant": "needs five-byte operands", "anchors": ["src/gigamonkey/script/machine.cpp: OP_CHECKLOCKTIMEVERIFY"]}
{"id": "C64", "title": "Signature checks under the flags", "statement": "verify_signature succeeds exactly when every rule that the flags select holds (compressed key, valid key, sighash type, FORKID, DER, low S) and the ECDSA verification succeeds; it returns false without error only for the empty signature or without NULLFAIL; otherwise it is an error.", "quantifier": "every flag set, key, signature and verification oracle", "why_tests_cant": "all flag combinations", "anchors": ["src/gigamonkey/script.cpp: verify_signature"]}
{"id": "C65", "title": "Script evaluation has defined behaviour", "statement": "Evaluating any pair of byte strings (shorter than 2^31) never has undefined behaviour and always produces a result or the end-of-stream exception, provided minimal encodings are required and stack memory is below 2^31.", "quantifier": "every pair of byte strings, configuration and oracle", "why_tests_cant": "undefined behaviour cannot be tested away", "anchors": ["src/gigamonkey/script/interpreter.cpp", "src/gigamonkey/script/machine.cpp", "src/gigamonkey/script/stack.cpp"]}
{"id": "C66", "title": "Original signature hash preimage", "statement": "Without the fork id the preimage is the serialisation of the modified transaction followed by the directive: script code without separators in the signed input, other scripts empty, other sequence numbers zero unless SIGHASH_ALL, outputs all / one / none. Equal preimages mean equal directives and equal modified transactions. It follows the consensus rule for ALL and NONE; for SINGLE with index above 0, and for kinds other than 1 to 3, it does not.", "quantifier": "every document and directive without the fork id", "why_tests_cant": "all transactions, indices and directives", "anchors": ["src/gigamonkey/sighash.cpp: reconstruct, remove_code_separators", "src/gigamonkey/include/gigamonkey/sighash.hpp: write_original"]}
{"id": "C67", "title": "Cached signature hashes are invisible", "statement": "Computing any sequence of preimages from one incomplete transaction gives the same bytes as computing each from a fresh copy, whatever the order.", "quantifier": "every transaction and every sequence of requests", "why_tests_cant": "all interleavings of cache states", "anchors": ["src/gigamonkey/include/gigamonkey/sighash.hpp: hash_prevouts, hash_sequence, hash_outputs", "src/gigamonkey/include/gigamonkey/incomplete.hpp: cached"]}
{"id": "C68", "title": "Incomplete transactions can be copied", "statement": "Creating, hashing, copying and destroying incomplete transactions never frees memory twice or reads freed memory. True as long as only transactions with an empty cache are copied; false otherwise, because the copy shares the owning pointers.", "quantifier": "every sequence of such operations", "why_tests_cant": "undefined behaviour that usually goes unnoticed", "anchors": ["src/gigamonkey/include/gigamonkey/incomplete.hpp: cached"]}
{"id": "C69", "title": "Incomplete and complete transactions correspond", "statement": "Completing an incomplete transaction with scripts gives exactly the transaction with those scripts and that incomplete form, and fails exactly when the number of scripts is wrong. The byte form of an incomplete transaction reads back as itself; this is false except for transactions that look like a coinbase.", "quantifier": "every incomplete transaction and script list", "why_tests_cant": "all sizes", "anchors": ["src/gigamonkey/incomplete.cpp", "src/gigamonkey/include/gigamonkey/incomplete.hpp"]}
{"id": "C70", "title": "Checking a dual terminates", "statement": "dual::valid answers false on every dual with an invalid part or no path, terminates exactly when all its paths lead to one digest at one remaining position, and otherwise runs for ever; the answer true means every path derives the root.", "quantifier": "every dual, every hash function, every ordering of the external containers", "why_tests_cant": "termination for every input; the failing inputs make the test hang", "anchors": ["src/gigamonkey/merkle/dual.cpp: dual::valid", "src/gigamonkey/include/gigamonkey/merkle/dual.hpp"]}
{"id": "C71", "title": "Looking up a proof by position in a Merkle tree", "statement": "tree::operator [] is meant to return the proof of the leaf at the index.  What it returns for every tree and index: the first leaf with the left edge for every index but the last, and undefined behaviour for the last index unless the number of leaves is a power of two; no result derives the root unless the root is part of one of its own preimages.", "quantifier": "every list of leaves and index", "why_tests_cant": "the shift-and-mask error is invisible unless every index is examined", "anchors": ["src/gigamonkey/merkle.cpp: tree::operator []"]}
{"id": "C72", "title": "Adding BUMPs keeps every client path and drops only what can be derived", "statement": "The sum of two BUMPs of the same block is a BUMP with the same root whose client leaves are exactly the client leaves of the two; removing unnecessary nodes removes exactly the nodes derivable from their children. (The merge takes the smaller head of two descending sequences; the intended behaviour fails for three or more paths.)", "quantifier": "all pairs of well-ordered BUMPs with nodes in one tree, and all complete BUMPs", "why_tests_cant": "Tests add two or three fixed paths; the property ranges over every pair of node sets and every tree height.", "anchors": ["src/gigamonkey/merkle/BUMP.cpp: operator +, remove_unnecessary_nodes, combine_nodes (208-361)", "src/gigamonkey/include/gigamonkey/merkle/BUMP.hpp"]}
{"id": "C73", "title": "A BUMP made from one branch has that branch's root and gives the branch back", "statement": "BUMP (block height, branch) has the root the branch derives, and paths () of it is the single path of that branch with implicit siblings written out.", "quantifier": "all branches with index below 2^32", "why_tests_cant": "Tests use a few branches with explicit siblings; the property ranges over all heights, indices and implicit siblings.", "anchors": ["src/gigamonkey/merkle/BUMP.cpp: read_branch / constructors (67-69, 141-164, 195)", "src/gigamonkey/include/gigamonkey/merkle/BUMP.hpp"]}
{"id": "C74", "title": "Compact target of a difficulty", "statement": "The compact target made from a difficulty is the canonical encoding of the integral part of unit/difficulty, saturating at min and max; the conversion always ends.", "quantifier": "every quotient p/2^s of the floating division", "why_tests_cant": "unbounded range of quotients", "anchors": ["src/gigamonkey/work.cpp: compact::compact (work::difficulty)", "src/gigamonkey/include/gigamonkey/work/target.hpp: difficulty"]}
{"id": "C75", "title": "Accepted secret keys are usable keys", "statement": "secret::valid accepts a key exactly when the number it stands for is between 1 and the group order. In this code the 32 bytes are compared little-endian while every operation of the curve library reads them big-endian, so valid keys can be unusable and usable keys invalid.", "quantifier": "all 2^256 byte strings", "why_tests_cant": "2^256 values", "anchors": ["src/gigamonkey/include/gigamonkey/secp256k1.hpp: secret::valid", "src/gigamonkey/secp256k1.cpp: secret::valid, to_public_compressed", "src/gigamonkey/include/gigamonkey/types.hpp: uint256", "src/gigamonkey/wif.cpp"]}
{"id": "C76", "title": "Depth and index of derived keys", "statement": "The depth of a derived key is the depth of the parent plus the length of the path, and different indices give keys of their own. In this code the depth is one byte and starts again at 0 after 255, and an index that is skipped gives the same key as the index after it.", "quantifier": "every key, path and HMAC", "why_tests_cant": "needs paths of 256 steps and rare HMAC values", "anchors": ["src/gigamonkey/schema/hd.cpp: derive", "src/gigamonkey/include/gigamonkey/schema/hd.hpp: key_source, address_source"]}
{"id": "C77", "title": "Arithmetic of keys", "statement": "Adding, multiplying and negating secrets and public keys follows the group: (-a) + a = 0, the public key of -a is the negation of the public key of a, tweaking adds, compressing and expanding undo each other. In this code the sum and the product of two secrets are the constants 0 or 1 (the result of a comparison is returned), and the sum of two public keys is the second key; negation, tweaking, multiplication of a public key by a secret and (de)compression are right.", "quantifier": "all secrets and points, any encoding of points with the stated laws", "why_tests_cant": "2^512 pairs; the results are valid-looking keys", "anchors": ["src/gigamonkey/secp256k1.cpp: secret::plus, secret::times, secret::negate, pubkey::plus, pubkey::tweak, pubkey::times, pubkey::negate, compress, decompress"]}
{"id": "C78", "title": "Equality of public keys and verification of signatures", "statement": "Two public keys are equal exactly when their expanded forms are, so equal keys encode one point; hybrid encodings are valid keys that equal no other encoding of their point. A signature (r, s) verifies exactly when (r, n - s) does, and nothing verifies with an unreadable key or signature.", "quantifier": "all byte strings, any encoding of points and any ECDSA", "why_tests_cant": "needs hybrid keys and malleated signatures", "anchors": ["src/gigamonkey/include/gigamonkey/secp256k1.hpp: operator ==", "src/gigamonkey/secp256k1.cpp: pubkey::verify, verify_signature"]}
{"id": "C79", "title": "Fee rates compare as fractions", "statement": "Comparing two fee rates compares the fractions satoshis / bytes: total, transitive, consistent with equality. This holds when the sizes are positive and below 2^63 and the cross products fit 64 bits; otherwise comparison is undefined behaviour, or with a size of 2^63 and more inverted, and a default rate equals every rate.", "quantifier": "all rates", "why_tests_cant": "overflow and intransitivity need particular triples", "anchors": ["src/gigamonkey/include/gigamonkey/satoshi.hpp: operator <=>, operator =="]}
{"id": "C80", "title": "Fees are rounded up exactly", "statement": "calculate_fee gives the least integer not below satoshis * size / bytes, although it computes in doubles, as long as satoshis * size is below 2^53 and bytes is at most 2^53; beyond, it can be too low.", "quantifier": "all rates and sizes", "why_tests_cant": "rounding of 2^106 products", "anchors": ["src/gigamonkey/include/gigamonkey/satoshi.hpp: calculate_fee"]}
{"id": "C81", "title": "A design is completed to what was signed", "statement": "Completing a transaction design with one script per input gives a transaction whose incomplete form (what signatures sign) is that of the design, with the same previous outputs and outputs and exactly the given scripts; any other number of scripts throws.", "quantifier": "all designs and scripts", "why_tests_cant": "unbounded lists", "anchors": ["src/gigamonkey/include/gigamonkey/fees.hpp: transaction_design::complete, operator incomplete::transaction"]}
{"id": "C82", "title": "Validating a BEEF anchors its transactions", "statement": "If validate accepts a BEEF then every transaction in it is proven by a Merkle path to a known block or spends only transactions of the BEEF that go back to known blocks. The code checks neither that a BUMP index is in range nor that the BUMP contains the transaction, and one BUMP without a root switches the check of all roots off, so this is refuted; it holds when the caller checks these things.", "quantifier": "every BEEF, every header database, any hash", "why_tests_cant": "adversarial containers; the hash is arbitrary", "anchors": ["src/gigamonkey/pay/BEEF.cpp: valid, roots", "src/gigamonkey/include/gigamonkey/pay/BEEF.hpp: validate"]}
{"id": "C83", "title": "SPV header look-ups agree", "statement": "In the in-memory SPV database a header found by height is valid and stands at that height; a header found by hash or by root is the one at its height; every header is found by its hash and root; the latest header is the highest; inserting and removing headers change exactly what they say. Where the code breaks this (gaps in the chain, equal roots, unlinked headers) the failing history is shown.", "quantifier": "every history of operations, any hash", "why_tests_cant": "unbounded histories", "anchors": ["src/gigamonkey/SPV.cpp: database::memory::header, insert, remove_header", "src/gigamonkey/include/gigamonkey/SPV.hpp: database::memory"]}
{"id": "C84", "title": "Pending transactions are the unconfirmed ones", "statement": "A transaction in the in-memory SPV database is pending if and only if it is unconfirmed; replacing a header unconfirms exactly the transactions of that block and the later ones; inserting and removing transactions change exactly that transaction. Where the code breaks this the failing history is shown.", "quantifier": "every history of operations, any hash", "why_tests_cant": "unbounded histories", "anchors": ["src/gigamonkey/SPV.cpp: database::memory::insert, remove, transaction", "src/gigamonkey/include/gigamonkey/SPV.hpp: database::memory::unconfirmed"]}
{"id": "C85", "title": "Generated SPV proofs exist and validate", "statement": "A proof is generated from a database exactly when no payment is confirmed and every transaction that the unproved ones spend from is known; it contains the payments, only transactions of the database, each under its own id and always with the same sub-proof; and on a database built from consistent Merkle proofs it validates exactly when the payments are distinct and every unproved transaction correctly spends what it refers to.", "quantifier": "every database history, list of payments and script oracle", "why_tests_cant": "unbounded ancestries", "anchors": ["src/gigamonkey/SPV.cpp: generate_proof, generate_proof_node", "src/gigamonkey/include/gigamonkey/SPV.hpp: proof"]}
{"id": "C86", "title": "Extending a transaction keeps it", "statement": "The extended transactions made from a validated proof have as plain parts exactly the payments, carry the outputs their inputs refer to and send no more than they spend. Extending a transaction from a database reverses its inputs, so with two inputs the result is another transaction; the exact result is given.", "quantifier": "every proof, database and transaction", "why_tests_cant": "unbounded lists of inputs", "anchors": ["src/gigamonkey/SPV.cpp: extended_transaction, extend", "src/gigamonkey/include/gigamonkey/SPV.hpp: extend"]}
{"id": "C87", "title": "Comparisons of confirmations and proofs mean what they say", "statement": "Proofs are ordered by whether one transaction occurs in the ancestry of the other. Equality of confirmations ignores the branch of the Merkle path, so a valid and an invalid one can be equal, and the three-way comparison of confirmations always says equal.", "quantifier": "every pair of confirmations and proof trees", "why_tests_cant": "unbounded trees", "anchors": ["src/gigamonkey/include/gigamonkey/SPV.hpp: confirmation::operator ==, operator <=>", "src/gigamonkey/SPV.cpp: contains_branch, ordering"]}
{"id": "C88", "title": "SPV proofs read from BEEF are sound and complete", "statement": "Whatever BEEF it was read from, an SPV proof that validates has only genuine payments; a BEEF in which every Merkle proof can be worked out, every header is known, no transaction occurs twice and unproven transactions come after what they spend is read as the proof whose payments are exactly the unproven transactions nobody spends, and it validates exactly when every unproven transaction correctly spends transactions of the BEEF and the proven ones are mined. A BEEF that cannot be read gives the empty proof, which is valid, or undefined behaviour.", "quantifier": "every BEEF, header database and script oracle, any hash", "why_tests_cant": "unbounded lists of transactions and BUMPs; adversarial input", "anchors": ["src/gigamonkey/pay/BEEF.cpp: SPV_proof_reader, read_SPV_proof_leaf, read_SPV_proof_node, read_SPV_proof", "src/gigamonkey/include/gigamonkey/pay/BEEF.hpp: BEEF"]}
{"id": "C89", "title": "SPV proofs survive being written as BEEF", "statement": "Writing an SPV proof as BEEF lists every transaction once, after those it spends from; reading it again gives the same proof up to the order in the maps, which validates exactly when the original does, if payments do not spend from each other and each block has one mined transaction in the proof. Generated proofs have the required shape. Payments that spend from each other, blocks with one transaction and three transactions of one block are not read back.", "quantifier": "every SPV proof and header database, any hash", "why_tests_cant": "unbounded trees with shared nodes", "anchors": ["src/gigamonkey/pay/BEEF.cpp: SPV_proof_writer, BEEF::BEEF (const SPV::proof &)", "src/gigamonkey/include/gigamonkey/SPV.hpp: proof"]}
{"id": "C91", "title": "Seeds from mnemonic sentences", "statement": "A seed is PBKDF2 of the sentence with the salt 'mnemonic' and the passphrase, so two sentences or passphrases share a seed only if PBKDF2 collides. The sentence is not checked first. Electrum seeds put words, label and passphrase into one password with no salt, so different pairs share a seed whatever PBKDF2 is; exactly which pairs is characterised.", "quantifier": "every sentence and passphrase, any PBKDF2", "why_tests_cant": "all texts", "anchors": ["src/gigamonkey/schema/bip_39.cpp: read", "src/gigamonkey/schema/electrum_SV.cpp: read"]}
{"id": "C90", "title": "BIP 44 accounts and wallets derive the standard paths", "statement": "Receive and change keys of an account are those along m/44'/coin'/account'/change/index from the root; different accounts, chains and indices have different paths; the watch-only account and the address source give the addresses of the secret account's keys. Accounts of 2^31 or more alias, and a hardened index of a watch-only account gives the address of no key.", "quantifier": "every root, coin, account below 2^31, chain and index; any HMAC and group", "why_tests_cant": "all roots and 2^31 accounts and indices", "anchors": ["src/gigamonkey/include/gigamonkey/schema/bip_44.hpp", "src/gigamonkey/include/gigamonkey/schema/bip_39.hpp: simply_cash_wallet, moneybutton_wallet, relay_x_wallet, centbee_wallet", "src/gigamonkey/include/gigamonkey/schema/hd.hpp: key_source, address_source"]}
{"id": "C92", "title": "Outputs that pay to an address or a key are spent by that key alone", "statement": "Evaluating any unlocking script made of pushes against a pay-to-address (or pay-to-pubkey) script succeeds exactly when the last two pushes (the last push) are a public key with that hash and a signature (are a signature) that the redemption document accepts for that key over the locking script as script code, the stack is clean when asked, and pushes are minimal when asked. With SIGPUSHONLY no other unlocking script succeeds. The unlocking script the library writes spends exactly when the key hashes to the address and the signature is accepted.", "quantifier": "all 20-byte addresses, keys, unlocking scripts, signature checkers, hash functions, flags and limits (sufficient limits only for the success direction)", "why_tests_cant": "A test evaluates a few scripts; it cannot show that no unlocking script spends without the key.", "anchors": ["src/gigamonkey/script/interpreter.cpp: interpreter, run, step", "src/gigamonkey/script/machine.cpp: step", "src/gigamonkey/include/gigamonkey/script/pattern/pay_to_address.hpp", "src/gigamonkey/include/gigamonkey/script/pattern/pay_to_pubkey.hpp", "src/gigamonkey/include/gigamonkey/script.hpp: redemption_document"]}
{"id": "C93", "title": "Boost outputs are spent exactly by valid work", "statement": "Executed by the interpreter, a boost output is spent by an unlocking script that only pushes if and only if the script presents fields of the right sizes, a header whose double SHA-256 is below the target, a public key with the miner's address and a signature for it; for scripts written by the library this is the case exactly when the library's own proof of work is valid, the target has an exponent from 3 to 32 and a positive mantissa, and the key and signature are the miner's. Targets outside that range, data whose push is not minimal and number limits below the target make an output unspendable although its proofs of work are valid.", "quantifier": "every boost output that can be written, every unlocking script, every configuration and every document", "why_tests_cant": "The two implementations of the work check (C++ and script) agree only on part of their inputs; tests mine one or two easy puzzles.", "anchors": ["src/gigamonkey/boost/boost.cpp: expand_target, ensure_positive, output_script::write", "src/gigamonkey/include/gigamonkey/boost/boost.hpp: output_script, input_script, proof", "src/gigamonkey/script/machine.cpp: machine::step", "src/gigamonkey/include/gigamonkey/script.hpp: evaluate"]}
{"id": "C94", "title": "Stratum extensions survive mining.configure", "statement": "Requests for extensions are read from the parameters of mining.configure exactly as the dotted names say, results likewise from the answer; what the library itself writes is read back, and what the single extensions write is understood by their readers.", "quantifier": "every set of requests and results, every message", "why_tests_cant": "names with dots, refused results with parameters and collisions of names need inputs nobody writes by hand; the constructor's mistake is invisible while only extensions without parameters are tested", "anchors": ["src/gigamonkey/include/gigamonkey/stratum/mining_configure.hpp: configure_request::parameters, configure_response::parameters", "src/gigamonkey/stratum/mining_configure.cpp", "src/gigamonkey/include/gigamonkey/stratum/extensions.hpp: accepted, configuration, configured, result", "src/gigamonkey/stratum/extensions.cpp"]}
{"id": "C95", "title": "What Stratum sessions make of messages", "statement": "A client's difficulty, extranonce, job and mask are those of the last message that says one, it is authorized exactly when the pool said so, it takes the results of the extensions it asked for, requests are answered once; a server can set difficulties, extranonces and masks and authorizes exactly the users it accepts.", "quantifier": "every history of messages, every message, every state of the server", "why_tests_cant": "the effects are spread over virtual functions that only run against a live pool; the tests build no session", "anchors": ["src/gigamonkey/include/gigamonkey/stratum/client_session.hpp", "src/gigamonkey/stratum/client_session.cpp", "src/gigamonkey/include/gigamonkey/stratum/server_session.hpp", "src/gigamonkey/stratum/server_session.cpp", "src/gigamonkey/include/gigamonkey/stratum/remote.hpp"]}
{"id": "C96", "title": "Merkle proofs in the standardised format survive their binary and JSON forms", "statement": "A proof written as bytes or as JSON is read back as the same proof; exactly the well-formed bytes and values are read, and the functions that look into a JSON value agree with the record read from it.", "quantifier": "every record, every byte sequence, every JSON value, both cases of hexadecimal digits", "why_tests_cant": "the tests hold one sample of each form; records with transactions, large indices and missing targets are not in them", "anchors": ["src/gigamonkey/merkle/serialize.cpp", "src/gigamonkey/include/gigamonkey/merkle/serialize.hpp"]}
{"id": "C97", "title": "A standardised proof is confirmed only if the block is in the database", "statement": "validate accepts a proof only if the header with the derived Merkle root is in the database, the target agrees with it and the transaction is a leaf of that block, and every constructor gives a proof that can be written.", "quantifier": "every proof, every history of the database, every block whose tree has the height of the path", "why_tests_cant": "soundness needs all trees and all paths, up to collisions of the hash", "anchors": ["src/gigamonkey/merkle/serialize.cpp:validate", "src/gigamonkey/include/gigamonkey/merkle/serialize.hpp", "src/gigamonkey/SPV.cpp"]}
{"id": "C98", "title": "A BUMP survives its JSON form", "statement": "The JSON written for a BUMP says exactly its height, levels, offsets, hashes and flags; reading accepts exactly the JSON that says a BUMP, gives that BUMP, and is never undefined; what is written is read back unchanged.", "quantifier": "every BUMP, every JSON value, every ordered sequence implementation", "why_tests_cant": "nested JSON of any shape and any number of levels and nodes", "anchors": ["src/gigamonkey/merkle/BUMP.cpp:write_json", "src/gigamonkey/merkle/BUMP.cpp:read_json", "src/gigamonkey/include/gigamonkey/merkle/BUMP.hpp"]}
{"id": "C99", "title": "Redeeming a design gives a transaction whose inputs spend", "statement": "If every input of a design has one key with a valid fork-id directive, and its output pays to that key or to its address, then redeem returns a transaction with the version, outputs, references, sequence numbers and locktime of the design, and every input of it evaluates to success in the interpreter. In general the unlocking scripts are exactly those of the redeemer for the document with the code after the last separator.", "quantifier": "every design, key, compressed or not, directive, script so far, every flag set and memory and operation limits that leave room; hash functions, point encodings and ECDSA as explicit parameters", "why_tests_cant": "Tests redeem a few fixed outputs; the link from templates, script code, signature hash, DER, unlocking script and interpreter has to hold together for every key and transaction, and failures are silent.", "anchors": ["src/gigamonkey/redeem.cpp: redeem_p2pkh_and_p2pk, redeem", "src/gigamonkey/include/gigamonkey/redeem.hpp: redemption, redeemable_transaction", "src/gigamonkey/include/gigamonkey/fees.hpp: transaction_design::input::script_so_far", "src/gigamonkey/script.cpp: remove_after_last_code_separator, redemption_document::verify", "src/gigamonkey/include/gigamonkey/signature.hpp: signature::sign, signature::verify"]}
{"id": "C100", "title": "Only what a key of the address has signed spends an output to it", "statement": "When unlocking scripts may only push and the fork id is required, any script that spends a pay-to-address output in any transaction holds a signature of a document that a key with that address signed, and the transaction agrees with that document in everything its directive commits to; with ALL the transactions, amounts and scripts are equal.", "quantifier": "every transaction, input, amount, address, unlocking script and list of signed documents, given that no other signatures verify and that the hashes of the messages concerned do not collide", "why_tests_cant": "A security property over all scripts and transactions; tests only replay the honest spender.", "anchors": ["src/gigamonkey/script.cpp: redemption_document::verify, evaluate", "src/gigamonkey/include/gigamonkey/signature.hpp: signature::verify, signature::document", "src/gigamonkey/redeem.cpp: redeem_p2pkh_and_p2pk", "src/gigamonkey/include/gigamonkey/script/pattern/pay_to_address.hpp: pay_to_address"]}
{"id": "C101", "title": "Messages of the Merchant API say what they are meant to say", "statement": "A message of the Merchant API that is written and read again is the same message, and what is read is valid exactly when the JSON value has the members of the message; reading is defined for every JSON value.", "quantifier": "every fee quote, policy quote, conflict, status, transaction status and submission result, and every JSON value", "why_tests_cant": "Each message has a dozen members whose absence, type and content matter separately; tests use one or two messages.", "anchors": ["src/gigamonkey/pay/MAPI.cpp: get_fee_quote, get_policy_quote, conflicted_with, read_status, submit_transaction, transaction_status, submit_transactions, transaction_submission, operator JSON", "src/gigamonkey/include/gigamonkey/pay/MAPI.hpp: fee, status, valid"]}
{"id": "C102", "title": "The Merchant API client returns what the server has signed", "statement": "A call succeeds exactly when the answer has a successful code, the JSON content type and a body that is an envelope which verifies, and what is returned to the caller is the message that the envelope carries, with its key and signature.", "quantifier": "every answer of the server, every signature scheme and every kind of message", "why_tests_cant": "The client talks to a server; no test sends it answers, and the loss of the message is a matter of types.", "anchors": ["src/gigamonkey/pay/MAPI.cpp: client::call", "src/gigamonkey/include/gigamonkey/pay/MAPI.hpp: response, client", "src/gigamonkey/pay/envelope.cpp: JSON_JSON_envelope"]}
{"id": "C103", "title": "A valid SPV envelope proves its inputs", "statement": "An SPV envelope is valid exactly when its id is that of its transaction, every node is keyed by the id of its transaction and has either a well-formed Merkle proof or inputs, and the answers of miners are given throughout or not at all; validating it against headers also checks every Merkle proof; the envelope made of an SPV proof carries the same transactions and proofs.", "quantifier": "every envelope of any depth and size, every database of headers, every SPV proof and every hash function", "why_tests_cant": "Envelopes are trees of any depth from the counterparty; no test builds one, and the check that is missing changes nothing for honest envelopes.", "anchors": ["src/gigamonkey/pay/SPV_envelope.cpp: validate_node, validate, to_SPV_envelope", "src/gigamonkey/include/gigamonkey/pay/SPV_envelope.hpp: SPV_envelope::valid, SPV_envelope::validate"]}
{"id": "C104", "title": "SPV envelopes survive JSON and give back their SPV proof", "statement": "Writing an SPV envelope as JSON and reading it gives the same envelope, what is read is exactly what the JSON says, and the SPV proof read from an envelope made of an SPV proof is that proof whenever the database knows its headers.", "quantifier": "every envelope and SPV proof of any depth and size, every JSON value, every database", "why_tests_cant": "Round trips range over trees of unbounded depth; the losses (answers of miners, headers not compared) do not show in samples.", "anchors": ["src/gigamonkey/pay/SPV_envelope.cpp: write_JSON, read_JSON, read_mapi_responses, read_confirmation, read_SPV_node", "src/gigamonkey/include/gigamonkey/pay/SPV_envelope.hpp: SPV_envelope::operator JSON, SPV_envelope::read_SPV_proof"]}
{"id": "C105", "title": "What is taken for a valid response of ARC can be read", "statement": "A response of ARC is valid exactly when its status and its JSON are those the API documents for the call, and for each valid response the accessors return the fields of its JSON.", "quantifier": "every response: any status, content type and body, any JSON", "why_tests_cant": "Responses range over all bodies and JSON values; the responses that are accepted and cannot be read have bodies a test server does not send.", "anchors": ["src/gigamonkey/pay/ARC.cpp: response::valid, response::error, response::body, health::valid, policy::valid, status::valid, status_response::valid, submit_response::valid, submit_txs_response::valid", "src/gigamonkey/include/gigamonkey/pay/ARC.hpp: ARC::response, success, health_response, policy_response, status_response"]}
{"id": "C106", "title": "Requests to ARC carry the options and the transactions", "statement": "The headers of a submission are exactly the options that are set, so that they determine the options; the body carries the submitted transactions, in order and with everything of them, in each content type, and no two lists of transactions have the same body; the path of a status request names one transaction.", "quantifier": "all options, every list of well-formed extended transactions of any length, every content type", "why_tests_cant": "Injectivity of bodies ranges over pairs of unbounded lists in three formats.", "anchors": ["src/gigamonkey/pay/ARC.cpp: submit_tx_request, submit_txs_request, submit::operator HTTP::headers, status_request", "src/gigamonkey/include/gigamonkey/pay/ARC.hpp: ARC::submit, submit_request, status_request"]}
{"id": "C107", "title": "A transaction that satisfies the policy pays the fee and keeps the limits", "statement": "policy::satisfies holds exactly of transactions that keep the limits on size, scripts and signature operations and pay the mining fee for their size.", "quantifier": "every policy and every extended transaction of any size", "why_tests_cant": "The rate is compared with a fee whatever the size; tests with small transactions or generous fees give the right answer.", "anchors": ["src/gigamonkey/pay/ARC.cpp: policy::satisfies", "src/gigamonkey/include/gigamonkey/pay/ARC.hpp: ARC::policy", "src/gigamonkey/include/gigamonkey/satoshi.hpp: satoshis_per_byte", "src/gigamonkey/timechain.cpp: transaction::sigops"]}
{"id": "C108", "title": "The text of a script says what the script is", "statement": "The ASM text of a script determines the script if all its pushes are minimal, and in general determines its opcodes and the data pushed; the text of an instruction determines the instruction; there is a text exactly for scripts that can be parsed.", "quantifier": "all scripts of any size, all pairs of scripts, both cases of hexadecimal digits", "why_tests_cant": "The claim is about all pairs of scripts; the colliding pairs lie outside of anything a test would compare.", "anchors": ["src/gigamonkey/include/gigamonkey/script/instruction.hpp: ASM", "src/gigamonkey/script/instruction.cpp: ASM, write_asm, operator <<", "src/gigamonkey/script/opcodes.cpp: GetOpName, operator <<", "src/gigamonkey/include/gigamonkey/timechain.hpp: operator << (input, output)"]}
{"id": "C109", "title": "The fields and the text of a timestamp are those of its moment", "statement": "Year, month, day, weekday, hour, minute and second of a timestamp, and its text, are those of the moment it stands for in the Gregorian calendar; the text determines the timestamp; timestamps are made exactly of numbers from 0 to 2^32 - 1.", "quantifier": "all timestamps, all days of the calendar, all 64-bit and 32-bit numbers", "why_tests_cant": "There are 2^32 timestamps and the calendar repeats after 400 years only; a test looks at a few dates.", "anchors": ["src/gigamonkey/include/gigamonkey/timestamp.hpp: year, month, day, weekday, hour, minute, second, timestamp (time_t), timestamp (int)", "src/gigamonkey/timestamp.cpp: operator std::tm, operator <<"]}
{"id": "C110", "title": "The text of a timestamp is read back", "statement": "Reading the text of a timestamp gives the timestamp; a text of the format gives the seconds of its moment, and other texts are refused.", "quantifier": "all timestamps, all texts and whatever follows them in memory", "why_tests_cant": "The arithmetic overflows for half of all timestamps, in years that tests do not use; malformed texts are infinitely many.", "anchors": ["src/gigamonkey/timestamp.cpp: parse_tm, to_time_t, timestamp::read", "src/gigamonkey/include/gigamonkey/timestamp.hpp: timestamp (string_view)"]}
{"id": "C111", "title": "An accepted Stratum share is a proof of work for its job", "statement": "A Stratum proof or solved job is valid exactly when the share is for the job, has what was negotiated, and the 80-byte header built of job, worker and share is hashed below the target; the version is the one the miner rolled (BIP 310), and distinct shares are distinct work; puzzles survive being sent as notifications.", "quantifier": "all hash functions, jobs, workers, shares and targets", "why_tests_cant": "A pool pays for shares; whether a share could be forged or sent twice depends on all combinations of fields and masks, not on the shares a test mines.", "anchors": ["src/gigamonkey/include/gigamonkey/stratum/job.hpp: job, solved", "src/gigamonkey/include/gigamonkey/stratum/mining_notify.hpp: proof, parameters", "src/gigamonkey/include/gigamonkey/stratum/mining.hpp: worker, share"]}
{"id": "C112", "title": "A session remembers exactly the recent jobs", "statement": "Pushing a job keeps exactly the jobs that are not older than the limit, in order, with the new one in front.", "quantifier": "all histories, times and limits", "why_tests_cant": "Depends on the order in which times arrive, of which a test tries few.", "anchors": ["src/gigamonkey/include/gigamonkey/stratum/server_session.hpp: history::push", "src/gigamonkey/include/gigamonkey/timestamp.hpp: operator -"]}
{"id": "C113", "title": "A payment signed with the wallet's keys is accepted by the receiver", "statement": "A design whose inputs spend outputs of known transactions, with their keys, redeemed by the default redeemer, yields a transaction for which an SPV proof can be generated, and the receiver's validation, which runs the scripts, accepts it.", "quantifier": "all designs, keys, databases, hash functions and signature schemes that work, outputs from before and after genesis, any ancestry", "why_tests_cant": "The path goes through sighash, templates, interpreter, Merkle proofs and the recursion over ancestors; a test follows a few fixed payments.", "anchors": ["src/gigamonkey/SPV.cpp: proof_validate, generate_proof", "src/gigamonkey/redeem.cpp: redeemable_transaction", "src/gigamonkey/include/gigamonkey/script/interpreter.hpp: evaluate"]}
{"id": "C114", "title": "What a receiver accepts was signed for by the owners of what it spends", "statement": "Every input of a payment that the validation accepts spends an output of a genuine transaction, and if that pays to an address a key with this address has signed for this spending.", "quantifier": "all proofs, transactions, inputs, and everything that keys have signed", "why_tests_cant": "Forgeries are what nobody tested; the statement is about all scripts and all proofs an attacker may send.", "anchors": ["src/gigamonkey/SPV.cpp: proof_validate", "src/gigamonkey/include/gigamonkey/script/interpreter.hpp: evaluate", "src/gigamonkey/sighash.cpp"]}
{"id": "C115", "title": "Redeeming Boost outputs gives a transaction that spends them exactly if the work was done", "statement": "For a candidate whose script the library has written, the transaction that puzzle::redeem gives has the prevouts as inputs and the outputs asked for, and under the interpreter each input spends its output if and only if the solution has the right form, its work meets the target, the target is one that the script can compute with, and the contract's address is that of the key; the work asked of the miner is the work that the script checks.", "quantifier": "all candidates, keys, solutions, outputs, and all hash functions and signature schemes of the right sizes that verify", "why_tests_cant": "Mining is random search; a test can only try a few solutions, against one target, and never the ones that almost work.", "anchors": ["src/gigamonkey/boost/boost.cpp: puzzle::redeem", "src/gigamonkey/include/gigamonkey/boost/boost.hpp: puzzle, candidate", "src/gigamonkey/include/gigamonkey/script/interpreter.hpp: evaluate"]}
{"id": "C116", "title": "Boost candidates hold the outputs that they were given", "statement": "A candidate has every outpoint that it was given once, with its value; its value is their sum; a puzzle is valid exactly if there is something to redeem, the script is a Boost script, and the key is valid and may redeem it; all outputs of a candidate have its script.", "quantifier": "all lists of outputs, all orders of insertion", "why_tests_cant": "Lists with repeated outpoints and mixed scripts are not in the tests.", "anchors": ["src/gigamonkey/include/gigamonkey/boost/boost.hpp: candidate, candidate::add, puzzle", "src/gigamonkey/boost/boost.cpp: puzzle::valid"]}
{"id": "C117", "title": "A version message says what it was made of, but not in the form or size peers expect", "statement": "What is written for a version message determines exactly the fields that a message of its version has (the sender, nonce, agent and height after version 105, relay after version 70000), and its length is 42, 76 or 77 bytes plus the agent. The stated serialized sizes differ from the length of what is written for every message, and no message is written in the form of the protocol: timestamp and nonce take 32 bits in place of 64.", "quantifier": "all version messages with fields in range, of any agent and version", "why_tests_cant": "The code has no test for these messages, and the sizes and layouts are wrong for every input, which only a comparison against the protocol shows.", "anchors": ["src/gigamonkey/include/gigamonkey/p2p/version.hpp:version_message", "src/gigamonkey/p2p/version.cpp:operator <<"]}
{"id": "C118", "title": "Commands and network addresses are encoded uniquely; ports and IPv4 addresses are not as in the protocol", "statement": "A command is made of a zero-terminated text exactly if its name has at most 12 characters, and then it is the name padded with zeros; longer or unterminated texts are undefined. Different names give different commands. Addresses have the stated sizes, and their order and equality agree. The port is written little endian, hence as the protocol says only if both its bytes are equal, and an IPv4 address is never put in the IPv4 range.", "quantifier": "all texts, addresses, ports and services", "why_tests_cant": "Tests use a few short commands; the overrun of a long name and the byte order of ports do not show in a test that writes and compares with itself.", "anchors": ["src/gigamonkey/include/gigamonkey/p2p/command.hpp:command", "src/gigamonkey/include/gigamonkey/p2p/net_address.hpp:net_address", "src/gigamonkey/include/gigamonkey/p2p/net_address.hpp:endpoint"]}
{"id": "C119", "title": "The lax signature reader is safe and exact", "statement": "The reader of DER signatures that tolerates violations never reads outside of the signature. It takes exactly what begins with a sequence of two integers whose lengths are in short or long form, and gives these integers, or zeros if one is not below the order. DER is read back whatever follows it. A signature counts as normalized exactly if the second number so read is at most half of the order, so exactly one of (r, s) and (r, n - s) is.", "quantifier": "every sequence of bytes below 2^63, every pair of numbers below the order", "why_tests_cant": "The reader is hand-written index arithmetic on input from the network; tests cover a few encodings out of all byte strings.", "anchors": ["src/gigamonkey/secp256k1.cpp:ecdsa_signature_parse_der_lax", "src/gigamonkey/secp256k1.cpp:signature::normalized"]}
{"id": "C120", "title": "Strict encodings are what they should be", "statement": "The tests for valid and minimal signatures are defined for every input and take exactly the encodings that the comment in the header describes. DER of positive numbers below 2^256 passes, in at most 72 bytes, and different pairs have different encodings. Signatures as they are produced pass every test.", "quantifier": "every sequence of bytes below 2^63, every pair of numbers", "why_tests_cant": "The difference between minimal and BIP 66 lies in inputs that no signer produces, but anyone can send.", "anchors": ["src/gigamonkey/secp256k1.cpp:signature::valid", "src/gigamonkey/secp256k1.cpp:signature::minimal", "src/gigamonkey/include/gigamonkey/signature.hpp:signature::DER"]}
{"id": "C121", "title": "Points are written as they are read", "statement": "A point that is written is read back, and a signature made from a point ends with its directive. (It is not so: what is written declares a size that is not that of its content.)", "quantifier": "every pair of numbers below 2^256, every directive, whatever follows", "why_tests_cant": "The declared size depends on the values; the round trip works for some of them by accident.", "anchors": ["src/gigamonkey/include/gigamonkey/secp256k1.hpp:operator << (writer, point)", "src/gigamonkey/secp256k1.cpp:operator >> (reader, point)", "src/gigamonkey/include/gigamonkey/signature.hpp:signature::signature", "src/gigamonkey/include/gigamonkey/numbers.hpp:serialized_size"]}
{"id": "C122", "title": "The difficulty of a target is the nearest double and orders targets", "statement": "For every valid compact target the difficulty is the double nearest to 0xffff*2^208 divided by the target; of two valid targets the lower one has the strictly greater difficulty and equal difficulties mean equal targets; a target that expands to zero has infinite difficulty.", "quantifier": "all compact targets; all numbers of 53 bits", "why_tests_cant": "Rounding of each of the billions of quotients cannot be tried, and a test compares a few decimal places.", "anchors": ["src/gigamonkey/include/gigamonkey/work/target.hpp: compact::difficulty, difficulty::unit, operator <, operator =="]}
{"id": "C123", "title": "A target recovered from its difficulty", "statement": "For every normal target that is not a power of 256, compact (difficulty (c)) is c when the double quotient is not below the target and c - 1 otherwise; it is c whenever the leading fraction of the target is at most the root of that of the unit; it never stands for a larger target; a power of 256 comes back as a target that expands to zero.", "quantifier": "all normal compact targets", "why_tests_cant": "About one target in twelve loses one unit; the test vectors use targets that do not.", "anchors": ["src/gigamonkey/work.cpp: compact::compact (difficulty)", "src/gigamonkey/include/gigamonkey/work/target.hpp: compact::difficulty"]}
{"id": "C124", "title": "The number of 256 bits of a difficulty", "statement": "For every positive difficulty, difficulty::operator uint256 is defined exactly when the quotient of the unit by it is at least 2^52, and then is that quotient modulo 2^256; for the difficulty of a target of at least 2^53 it is within two parts in 2^53 of the target, and equal to it when the leading fraction is low.", "quantifier": "all positive doubles; all compact targets", "why_tests_cant": "The shift by a negative amount and the rounding appear only for values no test uses.", "anchors": ["src/gigamonkey/work.cpp: difficulty::operator uint256"]}
{"id": "C125", "title": "Profitability of Boost candidates", "statement": "The difficulty and profitability of a candidate are those of the target of its output and the sum of its values; profitability is within two parts in 2^53 of value * target / unit; it never decreases when the value grows or the target gets easier.", "quantifier": "all candidates, all values, all targets", "why_tests_cant": "Monotonicity under rounding holds for all pairs of values or not at all; there is no test for it.", "anchors": ["src/gigamonkey/include/gigamonkey/boost/boost.hpp: candidate::difficulty, candidate::profitability"]}
{"id": "C126", "title": "Fields of raw outputs, inputs and outpoints", "statement": "Reading an output, input, outpoint or block from raw bytes gives the object at the front if there is one and the default otherwise; the value and the script looked up in a raw output are those of the output. The script look-up reaches beyond the buffer exactly when fewer bytes are left than announced. The slice of an input of a raw transaction is the input exactly if the length of its script is in its shortest form; otherwise it is cut short.", "quantifier": "all byte strings; all outputs, inputs, outpoints and blocks and all their forms", "why_tests_cant": "A test tries well-formed outputs; missing bytes and long forms of counts are unbounded in number.", "anchors": ["src/gigamonkey/timechain.cpp: input::input, output::output, output::value, output::script, block::block, outpoint::digest, outpoint::index, outpoint::write, transaction::input, scan_input"]}
{"id": "C127", "title": "Validity of blocks", "statement": "A block is valid exactly if its header is and each of its transactions is. The Merkle root of the header is not compared with the transactions: any valid transactions, or none, may stand under a valid header. A coinbase transaction gets no special treatment, because the exemption is for index 0 and not 0xffffffff: validity of a block throws if the script of the coinbase is not a program. The Merkle root computed from a raw block is the root of the ids of its transactions.", "quantifier": "all blocks, all hash functions", "why_tests_cant": "Valid blocks cannot be made at will in a test, since the header needs proof of work.", "anchors": ["src/gigamonkey/include/gigamonkey/timechain.hpp: block::valid, block::merkle_root, transaction::valid, outpoint::coinbase"]}
{"id": "C128", "title": "The genesis block", "statement": "The block built into the library is the genesis block: it reads as one whole block, is written back to the same 285 bytes, has the known hash under double SHA-256, the Merkle root of its one transaction and enough work, and is valid.", "quantifier": "the genesis block under the real hash function", "why_tests_cant": "The whole of the reading, writing, hashing and checking code meets on real data.", "anchors": ["src/gigamonkey/SPV.cpp: genesis"]}
{"id": "C129", "title": "Cached ids of transactions", "statement": "The id of a transaction is the hash of its fields when the id was first asked for, or the hash loaded last after that. It is the hash of the present fields if neither fields nor hash were set after the first question; setting a field later leaves the old id, and loading a known hash into a new transaction has no effect.", "quantifier": "all transactions, all sequences of questions, changes of fields and loads", "why_tests_cant": "The order of operations is arbitrary.", "anchors": ["src/gigamonkey/include/gigamonkey/timechain.hpp: transaction::id, chain_loader::set_hash"]}
{"id": "C130", "title": "JSON form of BEEF", "statement": "The JSON form of a BEEF is written exactly if every node of its Merkle paths is valid, and then it has the paths, and of each transaction the version, the inputs with their outpoints, scripts and sequence numbers, the outputs, the lock time and the index of the path if there is one. A valid BEEF always has a JSON form, and the form determines the BEEF up to flags on nodes that are not known. The text of the id of a previous transaction is never the text that the Merkle paths have for the same id, since only the former starts with 0x.", "quantifier": "all BEEFs, both cases of hexadecimal digits", "why_tests_cant": "There are arbitrarily many paths, nodes and transactions, and pairs of BEEFs with the same form cannot be searched by tests.", "anchors": ["src/gigamonkey/pay/BEEF.cpp: BEEF::operator JSON"]}
{"id": "C131", "title": "Errors of scripts", "statement": "The errors that checking a script can report are exactly those of the list but for five: evaluated false, script too big, disabled opcode, big integer and invalid script code are never reported. Each of the others is reported for some script under the limits that go with some flags. A check that succeeds reports no error. The text of an error tells which it is, but for unknown error, which is also the text for an invalid script code. The limit on the size of scripts is not applied.", "quantifier": "all scripts, transactions, flags and limits; all errors", "why_tests_cant": "That an error is never reported is a statement about all scripts.", "anchors": ["src/gigamonkey/script/error.cpp: ScriptErrorString", "src/gigamonkey/script/machine.cpp: machine::step", "src/gigamonkey/script/interpreter.cpp: interpreter::run, catch_all_errors", "src/gigamonkey/include/gigamonkey/script/error.h: ScriptError", "src/gigamonkey/include/gigamonkey/script/config.hpp: MaxScriptSize"]}
{"id": "C132", "title": "Functions on byte strings and numbers", "statement": "The bitwise functions on byte strings write both operands as numbers with as many bytes as the longer has, sign in the top bit, and combine the bits; this determines the result. On operands of one length they agree with OP_AND, OP_OR, OP_XOR and OP_INVERT, which refuse others. Adding zero bytes would give the same exclusive or only if the shorter operand is not negative. The complement is its own inverse. Left, right and split give the parts of a string and fail exactly if it is too short, and agree with the opcodes; the version of right on strings stops early if more than half is asked for.", "quantifier": "all byte strings and positions", "why_tests_cant": "The strings have any length; tests use a few.", "anchors": ["src/gigamonkey/include/gigamonkey/numbers.hpp: left, right, split, bool_not, bool_and, bool_or", "src/gigamonkey/numbers.cpp: bit_and, bit_or, bit_xor, bit_not, cat"]}
{"id": "C133", "title": "Limits for scripts and profiles of flags", "statement": "A configuration with custom limits is made exactly if the limits are within the bounds that the flags set, and then has the limits that were asked for; the limits that go with a set of flags are among those allowed. The profiles before genesis, of genesis and of chronicle differ in exactly the flags listed, and every profile that customizes limits has the limits of genesis.", "quantifier": "all sets of flags and all limits", "why_tests_cant": "There are 2^32 sets of flags and five limits; tests use the profiles.", "anchors": ["src/gigamonkey/script/config.cpp: script_config", "src/gigamonkey/include/gigamonkey/script/config.hpp: genesis_profile, pre_genesis_profile, chronicle_profile"]}
{"id": "C134", "title": "Requests to MAPI carry the submission", "statement": "The request for a submission determines the transaction and all parameters, whether these are sent as JSON or in the query, and names each parameter that is set and no other; a request is refused exactly if a transaction is missing. Requests of different kinds go to different paths, and the question for the status of a transaction names it by its hexadecimal digest.", "quantifier": "all submissions, lists of submissions, parameters and digests", "why_tests_cant": "Each of six optional parameters with any value, and lists of any length.", "anchors": ["src/gigamonkey/pay/MAPI.cpp: get_transaction_status, submit_transaction, submit_transactions, transaction_submission", "src/gigamonkey/include/gigamonkey/pay/MAPI.hpp: MAPI, transaction_submission, submission_parameters"]}
{"id": "C135", "title": "Text forms show what they are", "statement": "The text of an address begins with 1 on the main network and with m or n otherwise; that of a secret with 5, K, L, 9 or c depending on network and compression; that of an extended key with xprv, xpub, tprv or tpub; each has a fixed length (addresses of the main network at most 34). A text that is read as one of these has the letters of what it is read as, and no text is read as two of them.", "quantifier": "all networks, digests, secrets, extended keys, texts and hash functions", "why_tests_cant": "There are 2^160 digests and 2^256 secrets, and the letters depend on where in its range the number lies.", "anchors": ["src/gigamonkey/include/gigamonkey/address.hpp: address", "src/gigamonkey/address.cpp: address::encode", "src/gigamonkey/include/gigamonkey/wif.hpp: secret", "src/gigamonkey/wif.cpp: secret::encode, secret::decode", "src/gigamonkey/schema/hd.cpp: secret::write, secret::read, pubkey::write, pubkey::read"]}
{"id": "C136", "title": "OP_CHECKMULTISIG exactly", "statement": "Any stack whose top does not hold a readable number of keys within the limits, that many keys, a readable number of signatures not above the number of keys, that many signatures and one element more is refused, with a stated error that depends only on the stack, the operations counted so far and the configuration. For any other stack the signatures are tried against the keys in order: if no check is an error, the opcode gives true exactly when the signatures go with some of the keys in the same order; the first check that is an error ends the program with that error. Afterwards a failure with a signature that is not empty is NULLFAIL and an extra element that is not empty is NULLDUMMY where the flags require it; otherwise exactly the arguments are replaced by the result. What is removed from the script code are the signatures only if nothing lies below the arguments.", "quantifier": "all stacks, keys, signatures, configurations, documents and script codes", "why_tests_cant": "Tests try a few numbers of keys and signatures in a few orders; that the greedy trial finds a matching whenever there is one is a statement about all of them.", "anchors": ["src/gigamonkey/script/machine.cpp: OP_CHECKMULTISIG, OP_CHECKMULTISIGVERIFY", "src/gigamonkey/script/machine.cpp: cleanup_script_code"]}
{"id": "C137", "title": "Outputs that ask for several signatures are spent exactly by them", "statement": "For a locking script that pushes m, any list of keys and their number and ends with OP_CHECKMULTISIG, an unlocking script that only pushes spends the output exactly when it leaves m signatures on top of one element more, the trial of these signatures against the keys (over the locking script as script code) succeeds, the extra element is empty and nothing lies below where the flags require it, and pushes are minimal where required; with SIGPUSHONLY no other script spends it. If no single check is an error this means that the signatures are by some of the keys in the same order. With NULLFAIL and FORKID required, as after genesis, any key that is tried and did not sign is an error, so that exactly the last m keys can sign.", "quantifier": "all numbers m, lists of keys, signatures, unlocking scripts, flags, limits and documents", "why_tests_cant": "Tests sign with one or two choices of keys; which choices spend an output, under all flags and for all numbers of keys, is a statement about all of them.", "anchors": ["src/gigamonkey/script/machine.cpp: OP_CHECKMULTISIG", "src/gigamonkey/script/interpreter.cpp: interpreter, run, step", "src/gigamonkey/script.cpp: verify_signature", "src/gigamonkey/include/gigamonkey/script/interpreter.hpp: evaluate"]}
{"id": "C138", "title": "Scripts that check signatures are evaluated as the tables say, to the end or to the first check that verifies", "statement": "For every locking script without conditions that may check signatures with OP_CHECKSIG, OP_CHECKMULTISIG and their verifying forms at any place and any number of times, an unlocking script that only pushes spends the output exactly when going through the instructions one by one, by the tables of effects and with the whole locking script as script code, ends with a nonzero element on top and nothing below where the flags ask for it, or reaches a verifying check that is good; and pushes are minimal where required. Whatever follows a verifying check that is good is ignored, so that two keys joined by OP_CHECKSIGVERIFY do not both have to sign.", "quantifier": "all scripts without conditions, unlocking scripts, hash functions, documents, flags and limits", "why_tests_cant": "scripts can be of any length and mix any number of checks; that the rest of the script is skipped shows only in scripts that continue after a verifying check", "anchors": ["src/gigamonkey/script/machine.cpp: step", "src/gigamonkey/script/interpreter.cpp: setup_interpreter", "src/gigamonkey/include/gigamonkey/script/interpreter.hpp: evaluate"]}
{"id": "C139", "title": "Outputs with the hash of a script are spent by a script that has the hash and is satisfied, with exceptions", "statement": "With the flag P2SH, an output with a hash of 20 bytes is spent by an unlocking script that only pushes exactly when the script that is pushed last, run on the other pushes, ends with a nonzero element on top and has the hash, and nothing lies below where the flags ask for it; or when that script ends early by a verifying check that is good, in which case its hash does not matter. So the same five bytes spend every such output. Signatures in the script are checked with a script code that is the script followed by OP_VERIFY, the push of the script and the locking script, so that a signature for the script alone does not do.", "quantifier": "all hashes, unlocking scripts, redeem scripts without open conditions, hash functions, documents, flags and limits", "why_tests_cant": "the outcome depends on hash functions and on all scripts that may be pushed; that the hash is not compared shows only with scripts that end early", "anchors": ["src/gigamonkey/script/instruction.cpp: full", "src/gigamonkey/script/interpreter.cpp: setup_interpreter", "src/gigamonkey/script/machine.cpp: step", "src/gigamonkey/include/gigamonkey/script/interpreter.hpp: evaluate"]}
{"id": "C140", "title": "Outputs that are locked until a time are spent when the lock is kept and the key has signed, with exceptions", "statement": "An output with the script: operand, OP_CHECKLOCKTIMEVERIFY or OP_CHECKSEQUENCEVERIFY, OP_DROP, key, OP_CHECKSIG, is spent by the push of a signature exactly when the lock opens and the key has signed. Without the flag of the lock it opens as BIP 65 and BIP 112 say: the lock time of the transaction or the sequence of the input has reached the operand, of the same kind, and is in force. With the flag the lock is not looked at; when upgradable instructions are discouraged as well, no pushes spend any output whose script starts so, which is the case with the library's rules before Genesis.", "quantifier": "all operands of 32 bits, lock times, sequences, versions, keys, signatures, documents, flags and limits", "why_tests_cant": "the lock compares two 32-bit values of two kinds, and the meaning of the flag shows only when a kept and an unkept lock are run with and without it", "anchors": ["src/gigamonkey/script/machine.cpp: step", "src/gigamonkey/script.cpp: check_locktime, check_sequence", "src/gigamonkey/include/gigamonkey/script/config.hpp: pre_genesis_profile"]}
{"id": "C141", "title": "Outputs with conditions ask for what their branches ask for (refuted): a condition that is not met ends the script", "statement": "When the first condition in a locking script is not met, the output is spent by an unlocking script that only pushes exactly when the stack below the condition would be a good end of the script: neither the other branch nor anything after the condition is run. So the two bytes OP_1 OP_0 spend every output whose script starts with OP_IF, and OP_1 OP_1 every output whose script starts with OP_NOTIF, with any flags; an output that either of two keys may spend needs no signature.", "quantifier": "all scripts up to a condition, all that may follow, unlocking scripts, documents, flags and limits", "why_tests_cant": "the branch that is not run can be any script; tests with conditions that are met, or with the same element below, do not show that the rest is skipped", "anchors": ["src/gigamonkey/script/machine.cpp: step", "src/gigamonkey/include/gigamonkey/script/machine.hpp: machine", "src/gigamonkey/include/gigamonkey/script/interpreter.hpp: evaluate"]}
{"id": "C142", "title": "In an output with conditions, what follows a condition is run (refuted): the run of scripts with conditions, end to end", "statement": "An output whose locking script has conditions, nested to any depth, is spent by an unlocking script that only pushes exactly when running the script by a relation of a few lines gives a good end. In it a condition that is met goes on into its branch, OP_ENDIF closes it, and a condition that is not met, and OP_ELSE at the end of a branch that was run, both skip all that is left of the script; the skipped opcodes still count against the limit. So when the first branch only pushes a value, the one byte OP_1 spends the output, whatever is asked for after OP_ENDIF. OP_RETURN outside of conditions satisfies the script at once, so that anyone can spend an output that starts with it wherever such scripts are let through; within a condition it does nothing. After OP_CODESEPARATOR signatures are checked with the code that follows it.", "quantifier": "all scripts of instructions as in C138, OP_RETURN, OP_CODESEPARATOR and conditions at any depth, unlocking scripts, documents, flags and limits", "why_tests_cant": "nesting and branches are unbounded, and which part of a script is run depends on values; that the check after OP_ENDIF is skipped shows only with a signature that is wrong", "anchors": ["src/gigamonkey/script/machine.cpp: step", "src/gigamonkey/include/gigamonkey/script/machine.hpp: machine", "src/gigamonkey/include/gigamonkey/script/interpreter.hpp: evaluate"]}
{"id": "C143", "title": "A signature can be checked after OP_CODESEPARATOR in a branch (refuted): such a branch never spends", "statement": "When a locking script starts with a condition whose branch has OP_CODESEPARATOR and then a check of one signature or of several, no unlocking script that only pushes and meets the condition spends the output, whatever the signature is good for. The code that is signed starts at the separator and so closes a condition that it does not open; it is read as a script by itself, which throws, and the check ends in an error. The same script without the separator is spent by a good signature.", "quantifier": "all instructions that only work on the stacks between the separator and the check, all that follows, unlocking scripts, documents, flags and limits", "why_tests_cant": "it takes a separator inside a branch and a real signature to reach the exception, and the rest of the script is arbitrary", "anchors": ["src/gigamonkey/script/machine.cpp: step", "src/gigamonkey/script/instruction.cpp: decompile", "src/gigamonkey/include/gigamonkey/script/counter.hpp: to_last_code_separator"]}
{"id": "C144", "title": "An output locked by a hash, a key and a time is protected by one of them (refuted)", "statement": "An output script IF SHA256 <h> EQUALVERIFY <k> ELSE rest, as used for hash locks with a fallback after a time, is meant to need the preimage with a signature of k, or the time with a signature of another key. In the interpreter the preimage followed by OP_1 spends it exactly if its hash is h, without any signature, because OP_ELSE after a branch that was run skips the rest of the script. OP_1 OP_0 spends it as well, with no preimage, no signature and no waiting, because a condition that is not met skips the rest.", "quantifier": "All hashes, keys, rests of the script, preimages, documents, configurations within the stated limits", "why_tests_cant": "A test that a correct spend of a hash lock is accepted passes; that nothing of what is checked after OP_ELSE is ever run needs the semantics of the control stack over every rest of the script", "anchors": ["src/gigamonkey/script/machine.cpp: step", "src/gigamonkey/include/gigamonkey/script/interpreter.hpp: evaluate"]}
{"id": "C145", "title": "Outputs with the hash of a secret are spent exactly by the secret, and by a signature when a key is asked for", "statement": "An output script with one of the five hash opcodes, a hash and OP_EQUAL is spent by a script of pushes exactly if the last push has the hash (and the stack is clean when that is asked for). With OP_EQUALVERIFY <key> OP_CHECKSIG instead of OP_EQUAL it is spent exactly if the last push has the hash and the one before it is a signature that the key verifies for the script.", "quantifier": "All hash opcodes, hashes, keys, unlocking scripts of pushes, documents, configurations within the stated limits", "why_tests_cant": "A test tries a few secrets; that nothing else spends the output ranges over all unlocking scripts and all byte strings", "anchors": ["src/gigamonkey/script/machine.cpp: step", "src/gigamonkey/include/gigamonkey/script/interpreter.hpp: evaluate"]}
