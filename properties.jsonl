{"id": "C01", "title": "Integer/byte conversions are exact inverses and fail rather than truncate", "statement": "utils.i2le / i2be turn every non-negative int into the shortest non-empty byte string that utils.le2i / be2i read back as the same int, and raise OverflowError on every negative int. utils.i2le_padded / i2be_padded return exactly `length` bytes that read back as the same int whenever the int fits in `length` bytes, and otherwise raise OverflowError; they never truncate. Conversely, padding what le2i / be2i read gives the original bytes. change_endianness is an involution that exchanges the two byte orders.", "quantifier": "every integer (negative, zero, arbitrarily large), every length, every byte string", "why_tests_cant": "The domain is all integers and all byte strings; the corner cases sit at every power of 256.", "anchors": ["riemann/utils.py:i2le", "riemann/utils.py:i2le_padded", "riemann/utils.py:le2i", "riemann/utils.py:be2i", "riemann/utils.py:i2be", "riemann/utils.py:i2be_padded", "riemann/utils.py:change_endianness"]}
{"id": "C02", "title": "Script numbers are encoded as Bitcoin Script numbers", "statement": "utils.i2le_script(n) returns the hex of the minimal Script-number encoding of n (little endian, sign carried by the top bit of the last byte), for every n that fits, so that a script interpreter reads n back.", "quantifier": "every integer n", "why_tests_cant": "Tests sample a few numbers; the minimality and sign rules must hold at each byte-width boundary, and for both signs.", "anchors": ["riemann/utils.py:i2le_script"]}
{"id": "C03", "title": "VarInt encodes every 64-bit number as the canonical CompactSize and rejects the rest", "statement": "VarInt(n) serializes n in 0..2^64-1 as the shortest CompactSize encoding (1, 3, 5 or 9 bytes) and raises ValueError for every other integer.", "quantifier": "every integer n", "why_tests_cant": "2^64 values and four width boundaries.", "anchors": ["riemann/tx/shared.py:VarInt.__init__"]}
{"id": "C04", "title": "A VarInt written by the library is read back with the same value and the same length", "statement": "For every n in 0..2^64-1 and every byte string that follows it, VarInt.from_bytes(VarInt(n).to_bytes() + rest) yields a VarInt with number n and the same serialized length, on every supported network.", "quantifier": "every n, every trailing byte string, every supported network", "why_tests_cant": "The network-dependent compactness rule interacts with the value; only some (n, network) pairs go wrong.", "anchors": ["riemann/tx/shared.py:VarInt.from_bytes", "riemann/tx/shared.py:VarInt.__init__"]}
{"id": "C05", "title": "Reading a VarInt accounts for exactly the bytes it occupies on the wire", "statement": "Whenever VarInt.from_bytes accepts a byte string, the length of the returned object is the number of wire bytes the CompactSize occupied, so that the surrounding parser continues at the right offset; byte strings too short for the announced width are rejected.", "quantifier": "every byte string, every network", "why_tests_cant": "Needs every non-canonical and every truncated encoding.", "anchors": ["riemann/tx/shared.py:VarInt.from_bytes"]}
{"id": "C06", "title": "Base58 encoding and decoding are mutually inverse", "statement": "base58.decode(base58.encode(b, checksum=False), checksum=False) == b for every byte string b including all its leading zero bytes, every string that decodes re-encodes to itself, and decoding raises ValueError exactly on strings with a character outside the alphabet.", "quantifier": "every byte string; every string", "why_tests_cant": "Arbitrary lengths and arbitrary runs of leading zeros / '1' characters.", "anchors": ["riemann/encoding/base58.py:encode", "riemann/encoding/base58.py:decode", "riemann/encoding/base58.py:from_long", "riemann/encoding/base58.py:to_long"]}
{"id": "C07", "title": "Base58Check accepts exactly the strings it could have produced", "statement": "decode_with_checksum(encode_with_checksum(b)) == b for every b; decode_with_checksum(s) returns b only if s == encode_with_checksum(b); in every other case it raises ValueError; has_checksum(s) is True exactly when s is the encoding of some payload. (Hence every address has a unique spelling.)", "quantifier": "every byte string, every string, every network (hash selection)", "why_tests_cant": "Universally quantified over strings and payloads; tests cannot exclude a second spelling.", "anchors": ["riemann/encoding/base58.py:encode_with_checksum", "riemann/encoding/base58.py:decode_with_checksum", "riemann/encoding/base58.py:has_checksum"]}
{"id": "C08", "title": "Bech32 encoding of a witness program decodes to the same program and is BIP173-valid", "statement": "On every network with a bech32 prefix, bech32.encode of a witness script (version byte, length byte, program) for a valid version/program returns a string s of at most 90 characters that starts with the prefix and '1', uses the bech32 alphabet only, passes the checksum, and bech32.decode(s) returns the same witness script.", "quantifier": "every witness version 0..16, every program of valid length, every bech32 network", "why_tests_cant": "Requires the linearity of the checksum and the correctness of 8-to-5-bit regrouping for all contents.", "anchors": ["riemann/encoding/bech32.py:encode", "riemann/encoding/bech32.py:decode", "riemann/encoding/bech32.py:segwit_encode", "riemann/encoding/bech32.py:segwit_decode", "riemann/encoding/bech32.py:convertbits"]}
{"id": "C09", "title": "Bech32 decoding accepts only canonical spellings of valid witness programs", "statement": "Whenever bech32.decode(s) returns bytes b, then b is (version <= 16, length, program of length 2..40, 20 or 32 for version 0), s is all lower or all upper case, and lower-casing s gives exactly bech32.encode(b).", "quantifier": "every string s, every network", "why_tests_cant": "Quantifies over all strings; a second accepted spelling would be invisible to round-trip tests.", "anchors": ["riemann/encoding/bech32.py:decode", "riemann/encoding/bech32.py:bech32_decode", "riemann/encoding/bech32.py:convertbits"]}
{"id": "C10", "title": "Bech32 detects every small number of substituted characters", "statement": "If bech32.decode accepts s, and s' differs from s by substituting characters of the data part in one to four positions, then bech32.decode rejects s'.", "quantifier": "every accepted string, every position set of size 1 to 4, every replacement character", "why_tests_cant": "Error detection is a distance property of a code; tests can only sample error patterns.", "anchors": ["riemann/encoding/bech32.py:bech32_polymod", "riemann/encoding/bech32.py:bech32_verify_checksum"]}
{"id": "C11", "title": "Cashaddr encoding decodes to the same payload", "statement": "On every network with a cashaddr prefix, cashaddr.decode(cashaddr.encode(b)) == b for the 21-byte payloads the library produces, and for every byte string b.", "quantifier": "every byte string b, every cashaddr network", "why_tests_cant": "Depends on the payload length modulo 5; the tests use only one length.", "anchors": ["riemann/encoding/cashaddr.py:encode", "riemann/encoding/cashaddr.py:decode", "riemann/encoding/cashaddr.py:convertbits"]}
{"id": "C12", "title": "Cashaddr rejects corrupted addresses and foreign prefixes", "statement": "If cashaddr.decode accepts prefix:payload then replacing any single payload character by a different character makes it raise; a string is accepted only if it carries the network prefix and its checksum is valid for it.", "quantifier": "every string, every position, every replacement character", "why_tests_cant": "Error detection is a property of the whole code.", "anchors": ["riemann/encoding/cashaddr.py:decode", "riemann/encoding/cashaddr.py:polymod"]}
{"id": "C13", "title": "Output script to address to output script is the identity on standard scripts", "statement": "For every supported network and every P2PKH, P2SH, P2WPKH or P2WSH output script that the network supports, to_output_script(from_output_script(script)) == script.", "quantifier": "every 20/32-byte hash, each of the 72 networks, cashaddr on or off", "why_tests_cant": "72 prefix configurations times all hashes; address formats are tried in sequence and may shadow each other.", "anchors": ["riemann/encoding/addresses.py:to_output_script", "riemann/encoding/addresses.py:from_output_script", "riemann/encoding/addresses.py:parse"]}
{"id": "C14", "title": "to_output_script only ever yields a standard output script committing to the address payload", "statement": "Whenever to_output_script(address) returns, the result is a P2PKH, P2SH, P2WPKH or P2WSH template around the hash encoded in the address; otherwise it raises ValueError. No other exception escapes for any string.", "quantifier": "every string, every supported network", "why_tests_cant": "Quantifies over all strings, including malformed ones, on 72 networks.", "anchors": ["riemann/encoding/addresses.py:to_output_script", "riemann/encoding/addresses.py:parse"]}
{"id": "C15", "title": "from_output_script produces an address only for scripts that pay to that address", "statement": "Whenever from_output_script(script) returns an address, that address pays to exactly `script`; scripts that are not one of the standard templates raise ValueError, and different scripts never share an address.", "quantifier": "every output script, every supported network", "why_tests_cant": "The dangerous scripts are the almost-standard ones, which tests do not include.", "anchors": ["riemann/encoding/addresses.py:from_output_script"]}
{"id": "C16", "title": "Addresses made from keys and scripts encode the right hash", "statement": "make_p2pkh_address(pubkey), make_p2wpkh_address(pubkey), make_p2sh_address(script), make_p2wsh_address(script) (and the legacy variants) produce addresses whose parse_hash is hash160(pubkey), hash160(script) or sha256(script), and whose output script is the corresponding template.", "quantifier": "every public key, every script string, every supported network", "why_tests_cant": "All keys, scripts and networks.", "anchors": ["riemann/encoding/addresses.py:make_pkh_address", "riemann/encoding/addresses.py:make_sh_address", "riemann/encoding/addresses.py:parse_hash"]}
{"id": "C17", "title": "Script strings survive serialization", "statement": "For every script string made of opcode names and lower-case hex data of 1..1000 bytes, deserialize(serialize(s)) names the same opcodes and data (up to opcode aliases), on every supported network, and each datum is pushed with the smallest push opcode among OP_PUSH_n / PUSHDATA1 / PUSHDATA2.", "quantifier": "every token list, every network (opcode overrides)", "why_tests_cant": "All push lengths, all opcodes and all combinations of neighbours.", "anchors": ["riemann/script/serialization.py:serialize", "riemann/script/serialization.py:deserialize", "riemann/script/opcodes.py"]}
{"id": "C18", "title": "Serialized scripts survive deserialization", "statement": "Whenever deserialize(b) returns a string, serialize of it gives b back.", "quantifier": "every byte string, every network", "why_tests_cant": "The failing scripts are the non-minimal ones that do occur on chain.", "anchors": ["riemann/script/serialization.py:serialize", "riemann/script/serialization.py:deserialize"]}
{"id": "C19", "title": "Deserialization rejects scripts whose pushes run past the end", "statement": "deserialize raises for every script containing a push opcode that announces more bytes than remain.", "quantifier": "every byte string", "why_tests_cant": "Every truncation point of every push.", "anchors": ["riemann/script/serialization.py:deserialize"]}
{"id": "C20", "title": "Transaction objects are immutable", "statement": "After construction, no sequence of attribute assignments, += operations or reads changes the bytes or any attribute of a VarInt, Outpoint, TxIn, TxOut, witness or transaction; each attempted write raises.", "quantifier": "every finite history of operations on every constructed object", "why_tests_cant": "Quantifies over operation histories.", "anchors": ["riemann/tx/shared.py:ByteData", "riemann/tx/shared.py:ByteData.__setattr__", "riemann/tx/shared.py:ByteData._make_immutable"]}
{"id": "C21", "title": "Byte-like objects compare by content", "statement": "==, != on ByteData objects and bytes-like values is equality of the underlying bytes (an equivalence relation, != its negation); comparing with anything else raises TypeError.", "quantifier": "every pair of values", "why_tests_cant": "All pairs.", "anchors": ["riemann/tx/shared.py:ByteData.__eq__", "riemann/tx/shared.py:ByteData.__ne__"]}
{"id": "C22", "title": "Inputs, outputs and witnesses serialize in the Bitcoin wire format and parse back", "statement": "Outpoint, TxIn, TxOut, WitnessStackItem and InputWitness serialize to the wire format (fixed-width fields, CompactSize-prefixed scripts and stacks); parsing that serialization followed by any bytes gives an equal object, for scriptSigs in canonical push form, output scripts below 252 bytes and all witnesses.", "quantifier": "every field value, every trailing byte string, every network", "why_tests_cant": "All script contents and lengths; the script-sig splitter re-serializes what it parses.", "anchors": ["riemann/tx/tx.py:Outpoint", "riemann/tx/tx.py:TxIn", "riemann/tx/tx.py:TxOut", "riemann/tx/tx.py:WitnessStackItem", "riemann/tx/tx.py:InputWitness"]}
{"id": "C23", "title": "The Tx constructor accepts exactly the well-formed transactions", "statement": "Tx(...) succeeds exactly when version and lock time are 4 bytes, there is at least one input and one output, the flag is absent or the segwit flag, and witnesses (if any) come with the flag and one per input; otherwise ValueError. The bytes of the result are the BIP144 / legacy serialization of its fields.", "quantifier": "every combination of arguments, every network", "why_tests_cant": "All list lengths and flag/witness combinations.", "anchors": ["riemann/tx/tx.py:Tx.__init__"]}
{"id": "C24", "title": "Parsing a serialized transaction returns the same transaction", "statement": "For every Tx object with canonical script sigs and output scripts below 252 bytes, Tx.from_bytes(tx.to_bytes()) has the same version, flag, inputs, outputs, witnesses, lock time, bytes and txid; it never mistakes a legacy transaction for a segwit one or vice versa.", "quantifier": "every such transaction, with any number of inputs, outputs and witnesses, every network", "why_tests_cant": "Unbounded vectors and contents; ambiguity between flag and input count.", "anchors": ["riemann/tx/tx.py:Tx.from_bytes"]}
{"id": "C25", "title": "A parsed transaction serializes to the bytes it was parsed from", "statement": "Whenever Tx.from_bytes(b) succeeds on a complete serialized transaction b, the result's to_bytes() is b (so its tx_id is the network's id).", "quantifier": "every byte string, every network", "why_tests_cant": "Fails only for particular script sigs (non-minimal pushes) and encodings that appear on chain but not in tests.", "anchors": ["riemann/tx/tx.py:Tx.from_bytes", "riemann/tx/tx.py:TxIn._parse_script_sig"]}
{"id": "C26", "title": "tx_id commits to everything except witnesses, wtx_id to everything", "statement": "tx_id is the byte-reversed hash256 of the witness-stripped serialization and does not depend on flag or witnesses; wtx_id is the byte-reversed hash256 of the full serialization. Two transactions with equal tx_id have equal version, inputs, outputs and lock time, or exhibit a hash256 collision.", "quantifier": "every pair of transactions", "why_tests_cant": "Injectivity of a serialization over all transactions.", "anchors": ["riemann/tx/tx.py:Tx.__init__", "riemann/tx/tx.py:Tx.no_witness"]}
{"id": "C27", "title": "Legacy SIGHASH_ALL digests follow the Bitcoin signature-hash algorithm", "statement": "For a transaction without flag or witness list on a network without fork id, sighash_all(index, script, anyone_can_pay) is hash256 of the Bitcoin signature-hash preimage: other scripts emptied, the signed input's script replaced by the given script, ANYONECANPAY keeping only the signed input, followed by the 4-byte hash type 0x01 or 0x81.", "quantifier": "every transaction, every input index, every script, both flags", "why_tests_cant": "Tests use one input index and one script.", "anchors": ["riemann/tx/tx.py:Tx.sighash_all", "riemann/tx/tx.py:Tx._sighash_prep", "riemann/tx/tx.py:Tx._sighash_anyone_can_pay"]}
{"id": "C28", "title": "Legacy SIGHASH_SINGLE digests follow the Bitcoin signature-hash algorithm", "statement": "For the same transactions sighash_single(index, script, anyone_can_pay) is hash256 of the Bitcoin SIGHASH_SINGLE preimage: the output vector is cut to index+1 entries, those before index are nulled, the other inputs' sequences are zeroed.", "quantifier": "every transaction, every input index, every script, both flags", "why_tests_cant": "Wrong only when the number of inputs differs from index+1.", "anchors": ["riemann/tx/tx.py:Tx.sighash_single"]}
{"id": "C29", "title": "Segwit digests follow BIP143", "statement": "For every transaction carrying the segwit flag or a witness list on a network without fork id, sighash_all / sighash_single with a prevout value are hash256 of the BIP143 preimage for hash types 0x01, 0x81, 0x03, 0x83, except that SINGLE without an output at the index is refused with NotImplementedError.", "quantifier": "every transaction, index, script code, value, hash type", "why_tests_cant": "All numbers of inputs and outputs and all indices.", "anchors": ["riemann/tx/tx.py:Tx.segwit_sighash", "riemann/tx/tx.py:Tx._hash_prevouts", "riemann/tx/tx.py:Tx._hash_sequence", "riemann/tx/tx.py:Tx._hash_outputs"]}
{"id": "C30", "title": "Fork-id digests follow the replay-protected signature hash", "statement": "On every network with a fork id, for every transaction, sighash_all / sighash_single are hash256 of the replay-protected preimage with hash type (forkid << 8) | 0x40 | type, require an 8-byte prevout value (ValueError otherwise), and therefore never coincide with a digest preimage of a network without fork id.", "quantifier": "every transaction, index, script code, value, hash type, fork-id network", "why_tests_cant": "All transactions; replay protection is a statement about pairs of preimages.", "anchors": ["riemann/tx/tx.py:Tx._sighash_forkid", "riemann/tx/tx.py:Tx._forkid_sighash_adjustment"]}
{"id": "C31", "title": "A digest binds exactly what its hash type promises", "statement": "SIGHASH_ALL digests determine every input outpoint, sequence, every output, version and lock time (or exhibit a hash collision); with ANYONECANPAY the digest does not change when other inputs are added, removed or altered; with SINGLE it does not change when other outputs are altered; SINGLE without a matching output is refused.", "quantifier": "every pair of transactions differing in the listed parts", "why_tests_cant": "Non-interference and commitment are statements about pairs of transactions.", "anchors": ["riemann/tx/tx.py:Tx.sighash_all", "riemann/tx/tx.py:Tx.sighash_single", "riemann/tx/tx.py:Tx.segwit_sighash"]}
{"id": "C32", "title": "A transaction obtained by parsing gives the same digests as the one it was serialized from", "statement": "For every transaction t, Tx.from_bytes(t.to_bytes()) returns the same sighash_all and sighash_single digests as t.", "quantifier": "every transaction, index, script", "why_tests_cant": "Tests never compute a legacy digest on a parsed transaction.", "anchors": ["riemann/tx/tx.py:Tx.from_bytes", "riemann/tx/tx.py:Tx.is_witness"]}
{"id": "C33", "title": "copy replaces exactly the requested fields", "statement": "x.copy() equals x for every Outpoint, TxIn, TxOut, InputWitness and transaction (Bitcoin, Sprout, Overwinter, Sapling, Decred); x.copy(field=v) has field v and all other fields unchanged, is validated like a fresh object, and is again an object. An argument of None means: keep. The key and signatures that belong to JoinSplits or shielded parts go when those are replaced by nothing.", "quantifier": "every object, every combination of overrides", "why_tests_cant": "All combinations of overrides on all objects.", "anchors": ["riemann/tx/tx.py:Outpoint.copy", "riemann/tx/tx.py:TxIn.copy", "riemann/tx/tx.py:TxOut.copy", "riemann/tx/tx.py:Tx.copy"]}
{"id": "C34", "title": "Fees are inputs minus outputs", "statement": "calculate_fee(values) is the sum of the values minus the sum of output values read as unsigned 64-bit integers, and adding an output lowers it by that output's value; on Sapling, value balance counts as an input when positive and an output when negative.", "quantifier": "every transaction and value list", "why_tests_cant": "All transactions.", "anchors": ["riemann/tx/tx.py:Tx.calculate_fee", "riemann/tx/sapling.py:SaplingTx.calculate_fee", "riemann/tx/overwinter.py:OverwinterTx.calculate_fee"]}
{"id": "C35", "title": "Parsers terminate and touch only their input", "statement": "Every from_bytes parser, on every byte string, either returns an object or raises; the number of items it reads is bounded by the input length even if a count field announces up to 2^64-1 items.", "quantifier": "every byte string, every parser", "why_tests_cant": "Termination on all inputs.", "anchors": ["riemann/tx/tx.py:Tx.from_bytes", "riemann/tx/tx.py:InputWitness.from_bytes", "riemann/tx/sapling.py:SaplingTx.from_bytes", "riemann/tx/overwinter.py:OverwinterTx.from_bytes", "riemann/tx/sprout.py:SproutTx.from_bytes", "riemann/tx/decred.py:DecredTx.from_bytes"]}
{"id": "C36", "title": "Network selection is all-or-nothing and names agree", "statement": "After select_network(name) succeeds, get_current_network_name() is name; an unknown name raises ValueError and leaves the current network unchanged, after any history of selections.", "quantifier": "every sequence of select_network calls with arbitrary names", "why_tests_cant": "Histories of calls; 72 networks.", "anchors": ["riemann/__init__.py:select_network", "riemann/__init__.py:get_current_network_name", "riemann/networks/__init__.py:get_network"]}
{"id": "C37", "title": "BLAKE-256 digests do not depend on how the message is split into updates", "statement": "For every message and digest size, feeding the message to the hasher in any sequence of update calls (and a last piece to final) gives the same result as hashing it at once; final() called again returns the same digest whatever its argument.", "quantifier": "every message and every way of cutting it", "why_tests_cant": "Infinitely many messages and cuts; the block buffer has boundary cases at 55, 56, 63, 64 bytes.", "anchors": ["riemann/blake256.py:BLAKE.update", "riemann/blake256.py:BLAKE.final"]}
{"id": "C38", "title": "BLAKE-256 implements the BLAKE specification's padding and counters", "statement": "blake_hash(m) is the BLAKE-256 hash of m as defined by the BLAKE specification: message padded with 1, zeros, 1 and the 64-bit length, compressed block by block with the counter of message bits so far (0 for a block without message bits).", "quantifier": "every message", "why_tests_cant": "Padding and counter cases depend on the length modulo 64; all contents.", "anchors": ["riemann/blake256.py:BLAKE", "riemann/blake256.py:blake_hash"]}
{"id": "C39", "title": "OP_RETURN outputs carry the data unmodified", "statement": "make_op_return_output(data) for data of at most 77 bytes yields a zero-value output whose script deserializes to OP_RETURN and exactly the data; longer data raises ValueError.", "quantifier": "every data string", "why_tests_cant": "Boundary between direct pushes and PUSHDATA1 within the allowed range.", "anchors": ["riemann/tx/tx_builder.py:make_op_return_output"]}
{"id": "C40", "title": "Builder output scripts pay to the hash of the given key or script", "statement": "tx_builder.make_pkh_output_script / make_sh_output_script (and the p2pkh, p2sh, p2wpkh, p2wsh helpers) give the standard template around hash160/sha256 of their argument, raise on networks without segwit when a witness script is requested, and agree with the address functions: to_output_script(make_..._address(x)) equals make_..._output_script(x).", "quantifier": "every pubkey, every script string, every network", "why_tests_cant": "Agreement of two code paths on all inputs.", "anchors": ["riemann/tx/tx_builder.py:make_sh_output_script", "riemann/tx/tx_builder.py:make_pkh_output_script", "riemann/encoding/addresses.py:to_output_script"]}
{"id": "C41", "title": "The simple interface builds the transaction it describes", "statement": "simple.output, simple.outpoint, simple.unsigned_input, simple.unsigned_legacy_tx / unsigned_witness_tx and tx_builder.make_tx produce objects whose fields are the arguments in wire byte order (tx id reversed, index, value, version, lock time and sequence little endian), with sequence default 0xFFFFFFFE, version default 2 and lock time default 0; values outside the width of their field raise OverflowError.", "quantifier": "every argument, every network", "why_tests_cant": "All values and networks; several networks take different code paths.", "anchors": ["riemann/simple.py", "riemann/tx/tx_builder.py:make_tx"]}
{"id": "C42", "title": "Zcash Overwinter transactions serialize, parse back and hash per ZIP-143", "statement": "OverwinterTx serializes as header, version group id, inputs, outputs, lock time, expiry, joinsplits; from_bytes of it returns an equal transaction; sighash(type, ...) is the BLAKE2b of the ZIP-143 preimage.", "quantifier": "every transaction, any number of inputs, outputs and joinsplits; every hash type", "why_tests_cant": "Offsets in the parser depend on the number of outputs (CompactSize widths).", "anchors": ["riemann/tx/overwinter.py:OverwinterTx"]}
{"id": "C43", "title": "Zcash Sapling transactions serialize, parse back and hash per ZIP-243", "statement": "SaplingTx serializes all transparent, shielded and joinsplit parts in order; from_bytes of it returns an equal transaction; sighash(type, ...) is the BLAKE2b of the ZIP-243 preimage.", "quantifier": "every transaction, any number of components; every hash type", "why_tests_cant": "Offsets depend on counts; all component combinations.", "anchors": ["riemann/tx/sapling.py:SaplingTx"]}
{"id": "C44", "title": "ANYONECANPAY is honoured by Zcash sighash_all / sighash_single", "statement": "For Overwinter and Sapling transactions sighash_all(..., anyone_can_pay=True) and sighash_single(..., anyone_can_pay=True) return the ANYONECANPAY digest of ZIP-143/243.", "quantifier": "every transaction, index, script, value", "why_tests_cant": "A dropped argument goes unnoticed unless the two digests are compared for an ANYONECANPAY call.", "anchors": ["riemann/tx/overwinter.py:OverwinterTx.sighash_all", "riemann/tx/sapling.py:SaplingTx.sighash_all"]}
{"id": "C45", "title": "Shielded component encodings are fixed-width and lossless", "statement": "Sprout and Sapling joinsplits, proofs, shielded spends and outputs serialize to their fixed widths and parse back to equal objects; constructors reject any wrong-width field and joinsplits with both vpub values non-zero.", "quantifier": "every field value", "why_tests_cant": "All field contents.", "anchors": ["riemann/tx/zcash_shared.py", "riemann/tx/sapling.py:SaplingShieldedSpend", "riemann/tx/sapling.py:SaplingShieldedOutput"]}
{"id": "C46", "title": "Zcash Sprout transactions serialize and parse back", "statement": "SproutTx of version 1 and 2 serializes its fields in order and from_bytes of the result gives an equal transaction.", "quantifier": "every transaction", "why_tests_cant": "All joinsplit counts and versions.", "anchors": ["riemann/tx/sprout.py:SproutTx"]}
{"id": "C47", "title": "Decred transactions serialize, parse back and digest per the Decred rules", "statement": "DecredTx serializes as version, prefix and witness; from_bytes of it returns an equal transaction; tx_id hashes the prefix serialization only; SIGHASH_ALL / SINGLE / ANYONECANPAY digests commit to exactly what the hash type promises.", "quantifier": "every transaction, index, script", "why_tests_cant": "All vectors; non-interference over pairs of transactions.", "anchors": ["riemann/tx/decred.py:DecredTx"]}
{"id": "C48", "title": "Standardness checks agree with Bitcoin's policy", "statement": "is_push_only(script) is True exactly when the script consists of pushes; check_is_standard_tx accepts ordinary payments with several standard outputs; check_final compares lock times with height below 500,000,000 and with time above.", "quantifier": "every script, every transaction", "why_tests_cant": "All scripts and transactions.", "anchors": ["riemann/networks/standard.py:is_push_only", "riemann/networks/standard.py:check_is_standard", "riemann/networks/standard.py:check_final"]}
{"id": "C49", "title": "Script sig assembly places the redeem script as the last push", "statement": "tx_builder.make_script_sig(stack, redeem) and make_legacy_input produce inputs whose script_sig deserializes to the stack items followed by one push of the serialized redeem script; parsing such an input separates stack script and redeem script again.", "quantifier": "every stack script and redeem script string", "why_tests_cant": "All scripts; push width of the redeem script varies.", "anchors": ["riemann/tx/tx_builder.py:make_script_sig", "riemann/tx/tx.py:TxIn._parse_script_sig"]}
{"id": "C50", "title": "The cross-network opcode tables are consistent", "statement": "On every supported network, serializing the name that deserialize gives to an opcode byte yields that byte again, and distinct opcode bytes have distinct names.", "quantifier": "every opcode byte, every supported network", "why_tests_cant": "256 bytes times 72 networks with overrides.", "anchors": ["riemann/script/opcodes.py:CODE_TO_INT", "riemann/script/opcodes.py:INT_TO_CODE", "riemann/networks/networks.py:DecredMain"]}
{"id": "C51", "title": "hSig and primary inputs of JoinSplits", "statement": "For every Sprout, Overwinter and Sapling transaction the stored hsigs and primary inputs are, JoinSplit by JoinSplit, BLAKE2b-256 personalised with ZcashComputehSig of random seed, nullifiers and public key, and anchor, nullifiers, commitments, vpub_old, vpub_new, hSig and MACs in that order.", "quantifier": "every transaction, any number of JoinSplits, any hash function", "why_tests_cant": "The order of the parts and the pairing of JoinSplits with hSigs has to hold for any number of JoinSplits.", "anchors": ["riemann/tx/sprout.py:SproutTx.__init__", "riemann/tx/overwinter.py:OverwinterTx.__init__", "riemann/tx/sapling.py:SaplingTx.__init__"]}
{"id": "C52", "title": "Sprout signature digests", "statement": "SproutTx.sighash_all of an input and a script is the double SHA-256 of the transaction with that script in that input, empty scripts in the others, no JoinSplit signature, and the hash type; it raises ValueError when script or message is too large, and always for ANYONECANPAY; sighash_single always raises ValueError.", "quantifier": "every transaction, position and script", "why_tests_cant": "Tests look at a few transactions; the message has to be right for any number of inputs and JoinSplits.", "anchors": ["riemann/tx/sprout.py:SproutTx.sighash_all", "riemann/tx/sprout.py:SproutTx.sighash_single"]}
{"id": "C53", "title": "Script and signature-script readers fail only in documented ways", "statement": "serialize on every text either returns bytes or raises ValueError or NotImplementedError (never KeyError); deserialize on every byte string returns or raises ValueError, IndexError or NotImplementedError; TxIn._parse_script_sig returns a (stack, redeem) pair for every byte string and never raises.", "quantifier": "every text, every byte string, every network", "why_tests_cant": "The set of exceptions over all inputs cannot be enumerated.", "anchors": ["riemann/script/serialization.py:serialize", "riemann/script/serialization.py:deserialize", "riemann/tx/tx.py:TxIn._parse_script_sig"]}
{"id": "C54", "title": "Witness stacks and length prefixes keep their data", "statement": "make_witness(l) builds a witness whose stack is exactly l; length_prepend(b) is the CompactSize of len(b) followed by b; both raise ValueError for lengths of 2^64 or more.", "quantifier": "every list of byte strings, every byte string", "why_tests_cant": "The number and the lengths of the items are unbounded.", "anchors": ["riemann/tx/tx_builder.py:make_witness", "riemann/tx/tx_builder.py:length_prepend"]}
{"id": "C55", "title": "BLAKE hashes text as its UTF-8 encoding", "statement": "For every str s, update(s) has the effect of update(s.encode('utf-8')).", "quantifier": "every str, every object reached by updates", "why_tests_cant": "All strings; only strings with characters above U+007F behave differently.", "anchors": ["riemann/blake256.py:BLAKE.update"]}
{"id": "C56", "title": "A finished BLAKE object takes no more data", "statement": "After final(), update() either raises or continues the message, so that the next final() returns the digest of everything fed so far.", "quantifier": "every message", "why_tests_cant": "All messages.", "anchors": ["riemann/blake256.py:BLAKE.update", "riemann/blake256.py:BLAKE.final"]}
{"id": "C57", "title": "BLAKE digest sizes and salts", "statement": "BLAKE(n) exists exactly for n = 224, 256, 384, 512 and its digests are n/8 bytes; a salt of at least four words enters every compression as the specification says; a shorter salt, and a salt after an update, raise.", "quantifier": "every size, every salt, every message", "why_tests_cant": "All salts and messages.", "anchors": ["riemann/blake256.py:BLAKE.__init__", "riemann/blake256.py:BLAKE.addsalt"]}
{"id": "C58", "title": "The address functions return the network's address text", "statement": "On each supported network, make_legacy_p2pkh_address and make_legacy_p2sh_address return the Base58Check text of the network's version byte(s) and the key or script hash; make_p2pkh_address and make_p2sh_address return the same, or CashAddr text on Bitcoin Cash; make_p2wpkh_address and make_p2wsh_address return the witness address under the network's prefix, or raise where the network has none; from_output_script returns the same texts for the four templates.", "quantifier": "every supported network, public key, serializable script and hash", "why_tests_cant": "Tests use a few keys on a few networks; most of the 72 parameter sets are never exercised.", "anchors": ["riemann/encoding/addresses.py:make_legacy_p2pkh_address", "riemann/encoding/addresses.py:make_p2pkh_address", "riemann/encoding/addresses.py:make_p2sh_address", "riemann/encoding/addresses.py:make_p2wsh_address", "riemann/encoding/addresses.py:from_output_script", "riemann/networks/networks.py"]}
{"id": "C59", "title": "A text accepted by two networks means the same payment on both", "statement": "If to_output_script returns a script for the same text on two supported networks, the two scripts are equal.", "quantifier": "every text, every pair of supported networks", "why_tests_cant": "All texts, all pairs of networks.", "anchors": ["riemann/encoding/addresses.py:to_output_script", "riemann/encoding/addresses.py:parse", "riemann/networks/networks.py"]}
{"id": "C60", "title": "Which outputs is_standard_output_type accepts", "statement": "An output whose script is a sequence of opcodes and non-empty pushes is called standard exactly if the script has the opening bytes and length of a P2PKH, P2SH or (where the network has an address for it) witness template, or consists of a word ending in a decimal digit d, 1 to 3 pushes of 33 or 65 bytes, the number of pushes as OP_1 to OP_3, and OP_CHECKMULTISIG, with d at most the number of pushes.", "quantifier": "every supported network, every such script", "why_tests_cant": "All scripts.", "anchors": ["riemann/networks/standard.py:is_standard_output_type"]}
{"id": "C61", "title": "make_tx never mixes the parts of two families", "statement": "A transaction that make_tx returns is of the selected network's kind and holds exactly the inputs, outputs, JoinSplits, shielded parts, witnesses, lock time and expiry that were given, each of the classes of that kind. An input, output, JoinSplit or witness of another family's class is refused with ValueError.", "quantifier": "every supported network, every combination of classes, all lists of parts and all integers", "why_tests_cant": "Five families of transactions, eight classes of parts and lists of any length; a test mixes one pair at most.", "anchors": ["riemann/tx/tx_builder.py:make_tx", "riemann/tx/tx.py:Tx.__init__", "riemann/tx/decred.py:DecredTx.__init__", "riemann/tx/overwinter.py:OverwinterTx.__init__", "riemann/tx/sapling.py:SaplingTx.__init__"]}
{"id": "C62", "title": "Transaction objects behave as values", "statement": "Building an Outpoint, TxIn, TxOut, witness item, witness or Tx from bytes, objects and lists (or tuples) of objects gives an object whose bytes and attributes are those of the record the constructor describes, or raises the exception it describes. The object stays that record whatever the program does afterwards: changing the lists it passed, assigning, += on it or its attributes, building other objects. += on byte-like values appends the bytes. Given a bytearray for stack script, TxIn stores a new bytearray as script_sig and changes nothing that existed.", "quantifier": "every heap, all byte strings, all lists of objects, every later sequence of operations", "why_tests_cant": "Aliasing: the quantifier is over heaps and over every later history of operations.", "anchors": ["riemann/tx/shared.py:ByteData", "riemann/tx/tx.py:Outpoint.__init__", "riemann/tx/tx.py:TxIn.__init__", "riemann/tx/tx.py:TxOut.__init__", "riemann/tx/tx.py:WitnessStackItem.__init__", "riemann/tx/tx.py:InputWitness.__init__", "riemann/tx/tx.py:Tx.__init__"]}
{"id": "C63", "title": "A truncated serialization is refused", "statement": "When at least one byte is missing at the end of the bytes of an Outpoint, TxIn, TxOut or Tx object, from_bytes raises an exception: a message that was cut short is never taken for a smaller object or another transaction.", "quantifier": "every object, every proper prefix of its bytes, every supported network", "why_tests_cant": "A test cuts a few serializations at a few places; the claim is about every cut of every object, including cuts inside a CompactSize or inside witness data.", "anchors": ["riemann/tx/tx.py:Outpoint.from_bytes", "riemann/tx/tx.py:TxIn.from_bytes", "riemann/tx/tx.py:TxOut.from_bytes", "riemann/tx/tx.py:WitnessStackItem.from_bytes", "riemann/tx/tx.py:InputWitness.from_bytes", "riemann/tx/tx.py:Tx.from_bytes", "riemann/tx/shared.py:VarInt.from_bytes"]}
{"id": "C64", "title": "Outputs are spent as their kind says", "statement": "Under Bitcoin's script rules (script limits, P2SH, CHECKLOCKTIMEVERIFY, witness programs), the scripts that tx_builder makes are spent exactly as intended. A P2PKH or P2WPKH output is spent if and only if the script sig (or the witness of two items) provides a key with the same hash and a valid signature under it. A P2SH or P2WSH output is spent if and only if a script with the same hash, of at most 520 or 10000 bytes, is provided and succeeds on the elements provided before it; make_script_sig and make_witness provide them in that form, also for witness programs inside a script hash. Witness outputs need a hash that is not zero. An OP_RETURN output is never spent.", "quantifier": "every key, script, signature, script sig and witness, every context of a spending transaction (signature verdicts, lock time, sequence), every supported network that hashes with SHA-256", "why_tests_cant": "Spending needs an interpreter that the repository does not have; the claim quantifies over every possible script sig and witness, which is what makes funds safe.", "anchors": ["riemann/tx/tx_builder.py:make_p2pkh_output_script", "riemann/tx/tx_builder.py:make_p2sh_output_script", "riemann/tx/tx_builder.py:make_p2wpkh_output_script", "riemann/tx/tx_builder.py:make_p2wsh_output_script", "riemann/tx/tx_builder.py:make_script_sig", "riemann/tx/tx_builder.py:make_witness", "riemann/tx/tx_builder.py:make_op_return_output", "riemann/script/serialization.py:serialize"]}
{"id": "C65", "title": "The script templates do what they say", "statement": "Each template of script/examples.py, filled in with what its comment asks for, serializes, and the script is spent as its name says: the two-of-two script with exactly the two signatures in order; the hash time lock by the first party with the secret, or by the second party from the lock time on, and in no other way; the P2PKH, P2SH and witness templates as the scripts of that kind.", "quantifier": "all keys, hashes, signatures, secrets and lock times, all stacks, every supported network that hashes with SHA-256", "why_tests_cant": "The tests compare the serialized template with a stored string; whether the script can be spent, and only in the intended way, is a statement about all stacks.", "anchors": ["riemann/script/examples.py:msig_two_two", "riemann/script/examples.py:msig_two_two_stack_script", "riemann/script/examples.py:p2pkh_script_sig", "riemann/script/examples.py:p2pkh_script_pubkey", "riemann/script/examples.py:p2sh_script_pubkey", "riemann/script/examples.py:p2w", "riemann/script/examples.py:htlc_redeem_script", "riemann/script/examples.py:htlc_stack_script_execute", "riemann/script/examples.py:htlc_stack_script_refund", "riemann/examples/sapling_htlc_example.py"]}
{"id": "C66", "title": "A transaction signed with the library's digests is accepted by the network", "statement": "Take a transaction made by the library, compute the digest of every input with sighash_all or sighash_single (with or without anyone-can-pay), sign the digests, append the hash type byte that tx.py documents, and put signatures and keys into script sigs or witnesses with the library's functions. Every input of the resulting transaction then spends the output it refers to, under the network's rules for scripts and signature hashes.", "quantifier": "every transaction object without Zcash or Decred fields, every signature scheme, key, value, hash type and input, P2PKH, P2WPKH (plain or inside P2SH), P2SH and P2WSH outputs, every network that hashes with SHA-256", "why_tests_cant": "The tests compare a few digests with stored ones. Acceptance is decided by the network's own digest of the signed transaction, which differs from the unsigned one, and by its script interpreter, which the repository does not have.", "anchors": ["riemann/tx/tx.py:sighash_all", "riemann/tx/tx.py:sighash_single", "riemann/tx/tx.py:segwit_sighash", "riemann/tx/tx.py:copy", "riemann/simple.py:unsigned_legacy_tx", "riemann/simple.py:unsigned_witness_tx", "riemann/tx/tx_builder.py:make_script_sig", "riemann/tx/tx_builder.py:make_witness"]}
{"id": "C67", "title": "What is paid to an address is spent by its owner, and by nobody else", "statement": "An output that simple.output makes for an address of make_pkh_address or make_sh_address carries the given value and can be spent exactly by presenting a key or script with the hash of the address, with signatures that are valid under it. If simple.outpoint and simple.unsigned_input refer to such outputs by transaction id and index, simple.unsigned_legacy_tx or simple.unsigned_witness_tx builds the transaction, and the signatures of its digests are copied in, then every input of the result refers to one of those outputs and is accepted by the network, and the result pays the requested outputs.", "quantifier": "all keys and scripts, all values below 2^64, any number of payments and new outputs, every network that hashes with SHA-256", "why_tests_cant": "The tests check each helper against stored bytes, with one or two inputs. That the whole sequence from address to accepted transaction fits together, for every number of inputs and every network, cannot be enumerated.", "anchors": ["riemann/simple.py:output", "riemann/simple.py:outpoint", "riemann/simple.py:unsigned_input", "riemann/simple.py:unsigned_legacy_tx", "riemann/simple.py:unsigned_witness_tx", "riemann/encoding/addresses.py:make_pkh_address", "riemann/encoding/addresses.py:make_sh_address", "riemann/encoding/addresses.py:to_output_script", "riemann/tx/tx.py:copy"]}
{"id": "C68", "title": "A Zcash transaction signed with the library's digests is accepted by the network", "statement": "For Sprout, Overwinter and Sapling transactions: if every transparent input that spends a P2PKH output gets, with copy, a script sig with a signature of the digest that the library computes from the unsigned transaction for a hash type, followed by the byte of that type and the key, then the network accepts every transparent input of the result, and the result has the same outputs, shielded parts and lock time. An input with the wrong key or an invalid signature is not accepted.", "quantifier": "all transactions of the three kinds with any number of inputs, outputs, JoinSplits, shielded spends and outputs; all keys, signatures and hash types; all Zcash networks", "why_tests_cant": "The tests compare digests with those of a few published transactions. That a digest stays the right one after the signatures are filled in, for every hash type, input and transaction, needs the network's rule and a proof over all of them.", "anchors": ["riemann/tx/overwinter.py:sighash", "riemann/tx/overwinter.py:sighash_all", "riemann/tx/overwinter.py:sighash_single", "riemann/tx/sapling.py:sighash", "riemann/tx/sapling.py:sighash_all", "riemann/tx/sapling.py:sighash_single", "riemann/tx/sprout.py:sighash_all", "riemann/tx/sprout.py:sighash_single", "riemann/tx/overwinter.py:copy", "riemann/tx/sapling.py:copy", "riemann/tx/sprout.py:copy"]}
{"id": "C69", "title": "What VarInt.from_bytes reads from every byte string, and what VarInt writes for every length", "statement": "VarInt.from_bytes reads the 1, 2, 4 or 8 bytes announced by the first byte, or those of them that are there if their number is 1, 2, 4 or 8, and raises ValueError otherwise. The number is their little-endian value. The bytes of the object are the canonical CompactSize, except for numbers up to 252 whose upper half is zero, which keep the number of content bytes as padding; on Overwinter and Sapling a zero upper half is a ValueError. VarInt(n, length) pads numbers up to 252 to the length, ignores it for larger numbers that fit, and otherwise puts the marker of the length before all bytes of the number.", "quantifier": "all byte strings, all networks, all numbers below 2^64, all length arguments", "why_tests_cant": "The tests read about ten encodings. The behaviour on strings that are cut short or padded depends on every first byte, content length and network.", "anchors": ["riemann/tx/shared.py:VarInt.__init__", "riemann/tx/shared.py:VarInt.from_bytes"]}
{"id": "C70", "title": "Which truncated serializations of Zcash transactions are accepted", "statement": "If bytes at the end of a serialized Sapling transaction are missing, from_bytes raises an exception. For Overwinter it does so too, except for exactly one cut: bytes that end right behind the expiry height are accepted, when there are transparent inputs, and read as the transaction without JoinSplits. For Sprout it does so except when exactly the 64-byte JoinSplit signature is missing: then the transaction of version 2 is accepted with an empty signature. In the accepted cases all other fields are those of the full transaction.", "quantifier": "all objects of the three classes that from_bytes can read back (with fewer than 253 outputs, or without shielded parts), all cuts, all networks", "why_tests_cant": "The tests cut no Zcash transaction. The cuts fall into every field of nested vectors of unbounded length, and a single accepted one would lose funds or JoinSplits silently.", "anchors": ["riemann/tx/sprout.py:SproutTx.from_bytes", "riemann/tx/overwinter.py:OverwinterTx.from_bytes", "riemann/tx/sapling.py:SaplingTx.from_bytes"]}
{"id": "C71", "title": "A Decred transaction signed with the library's digests is accepted by the network", "statement": "If every input of a Decred transaction spends a P2PKH output, and each witness gets, with copy, a script sig with a signature of the digest that the library computes from the unsigned transaction for a hash type, followed by the byte of that type and the key, then the network accepts every input of the result, and the transaction id does not change. An input with the wrong key, an invalid signature, or a witness that states another value, block height or index for the output spent is not accepted. P2PKH and P2SH scripts that the library makes for Decred are spent exactly by a key or script with the hash in them.", "quantifier": "all Decred transactions with any number of inputs and outputs; all keys, signatures and hash types; both Decred networks; all hash functions with digests of the right size", "why_tests_cant": "The tests compare digests of one transaction with values that the library computed itself. Whether the network accepts the signatures, for every hash type and number of inputs, needs the network's rule and a proof over all transactions.", "anchors": ["riemann/tx/decred.py:sighash_all", "riemann/tx/decred.py:sighash_single", "riemann/tx/decred.py:_sighash_prep", "riemann/tx/decred.py:_sighash_anyone_can_pay", "riemann/tx/decred.py:_sighash_final_hashing", "riemann/tx/decred.py:copy", "riemann/tx/tx_builder.py:make_p2pkh_output_script", "riemann/tx/tx_builder.py:make_p2sh_output_script", "riemann/utils.py:hash160"]}
{"id": "C72", "title": "A Decred transaction object stays the transaction it was made as", "statement": "Whatever a program does after it has made a DecredTx object, including to the lists that it passed to the constructor, the object stays the same transaction: its inputs, outputs and witnesses, its bytes, its id, prefix(), witness() and the copy that copy() makes all belong to one transaction.", "quantifier": "all Decred transactions and all sequences of operations of a program on its references", "why_tests_cant": "The tests never change a list after passing it to a constructor. Showing that no sequence of operations changes the object needs an invariant of the heap.", "anchors": ["riemann/tx/decred.py:DecredTx.__init__", "riemann/tx/shared.py:ByteData.__setattr__", "riemann/tx/shared.py:_make_immutable"]}
{"id": "C73", "title": "What Decred objects are in memory and what their methods read", "statement": "The constructors of the Decred classes make objects with exactly the attributes and bytes of the value model, or raise the same exception. Outpoints, inputs, outputs and witnesses never change. A DecredTx keeps its bytes, ids and scalar attributes for ever, and refers to the list objects that it was given; prefix, witness, witness_signing, calculate_fee and copy compute with what these lists contain when the method is called, while prefix_hash returns the id of the construction. Given a bytearray for stack script, DecredInputWitness stores a new bytearray as script_sig and changes nothing that existed.", "quantifier": "all arguments, all heaps, all later sequences of operations", "why_tests_cant": "The statement is about all heaps and about aliasing between the caller's lists and the object, of which the tests show nothing.", "anchors": ["riemann/tx/decred.py:DecredOutpoint.__init__", "riemann/tx/decred.py:DecredTxIn.__init__", "riemann/tx/decred.py:DecredTxOut.__init__", "riemann/tx/decred.py:DecredInputWitness.__init__", "riemann/tx/decred.py:DecredTx.__init__", "riemann/tx/decred.py:prefix", "riemann/tx/decred.py:prefix_hash", "riemann/tx/decred.py:witness", "riemann/tx/decred.py:witness_signing", "riemann/tx/decred.py:calculate_fee", "riemann/tx/decred.py:DecredTx.copy"]}
{"id": "C74", "title": "parse_hash returns the hash that the address pays to", "statement": "Whenever to_output_script(address) is the P2PKH, P2SH, P2WPKH or P2WSH script of a hash, parse_hash(address) returns that hash; for any other string it raises ValueError or returns what follows the version bytes of the address.", "quantifier": "every string, every supported network", "why_tests_cant": "The two functions take the payload apart independently; they disagree only on spellings that the tests do not contain (capitals, version bytes of one format in another format).", "anchors": ["riemann/encoding/addresses.py:parse_hash", "riemann/encoding/addresses.py:to_output_script", "riemann/encoding/addresses.py:parse"]}
{"id": "C75", "title": "A bech32 address of a later witness version is never turned into a payment of another kind", "statement": "to_output_script of a valid bech32 address with witness version 1 to 16 raises ValueError: the library has no template for these versions, and any other template would lose the money.", "quantifier": "every bech32 text of every witness program with version 1..16, every supported bech32 network", "why_tests_cant": "The failing programs have one particular version and one particular length per network; the tests have one bech32 address of a later version.", "anchors": ["riemann/encoding/addresses.py:to_output_script", "riemann/encoding/bech32.py:segwit_decode"]}
{"id": "C76", "title": "Zcash objects stay what they were when made", "statement": "Each constructor of the Zcash classes, given bytes and objects, returns an object with the fields, bytes, hsigs, primary inputs and ids of the value model or raises the same exception; no later sequence of operations, on the lists that were passed or on any object, changes the object; copy and calculate_fee then give what the value model gives.", "quantifier": "all arguments (bytes, None, lists and tuples of objects), every heap, every later sequence of operations, every network", "why_tests_cant": "A test sees one sequence of operations; sharing between the caller's lists and the object shows only after a mutation the test would have to choose.", "anchors": ["riemann/tx/zcash_shared.py:SproutZkproof", "riemann/tx/zcash_shared.py:SproutJoinsplit", "riemann/tx/sprout.py:SproutTx", "riemann/tx/overwinter.py:OverwinterTx", "riemann/tx/sapling.py:SaplingTx", "riemann/tx/shared.py:ByteData.__setattr__"]}
{"id": "C77", "title": "Objects of the transaction classes are records whatever types they were made of", "statement": "Every object of a transaction class that a program can make with the constructors, from arguments of any types (bytes, bytearray, ByteData objects, lists, tuples, strings, numbers, None, objects of the same or other classes), has the fields and bytes of a record of the value model; and each constructor, given byte-like values and sequences of objects of the right classes, returns the object of the record or raises the exception of the value model.", "quantifier": "all finite sequences of constructor calls, all argument values of all modelled types, every network, every hash function", "why_tests_cant": "The tests pass bytes and lists of the right objects; which mixtures of types get past the isinstance checks, and what the object then holds, is a question about all of them.", "anchors": ["riemann/tx/shared.py:ByteData.validate_bytes", "riemann/tx/tx.py:TxIn.__init__", "riemann/tx/tx.py:Tx.__init__", "riemann/tx/decred.py:DecredTx.__init__", "riemann/tx/sprout.py:SproutTx.__init__", "riemann/tx/overwinter.py:OverwinterTx.__init__", "riemann/tx/sapling.py:SaplingTx.__init__"]}
{"id": "C78", "title": "An argument of a wrong type is refused with ValueError", "statement": "A constructor of a transaction class that is given an argument of a type its annotations do not allow raises ValueError and nothing else.", "quantifier": "all arguments of all modelled types, every constructor, every network", "why_tests_cant": "The tests try a few wrong values per argument and look for ValueError; they cannot show that no type slips through or raises another exception.", "anchors": ["riemann/tx/shared.py:ByteData.validate_bytes", "riemann/tx/tx.py:TxIn.__init__", "riemann/tx/tx.py:InputWitness.__init__", "riemann/tx/tx.py:Tx.__init__", "riemann/tx/sapling.py:SaplingTx.__init__"]}
{"id": "C79", "title": "Which exceptions the constructors raise, and for which types", "statement": "A constructor raises ValueError, or else: TypeError if a script of TxIn or DecredInputWitness is a ByteData object, a list of inputs, outputs, witnesses, joinsplits, spends or outputs is None or a number, the version or lock time of a Tx with a flag is a ByteData object, vpub_old or vpub_new of a joinsplit is not byte-like, or a signature that is needed is None; AttributeError if the flag of a Tx is neither None nor byte-like. For TxIn's scripts, Tx's flag and InputWitness's stack the condition is also sufficient once the fields checked before are right. An outpoint counts only by its 36 (Decred: 37) bytes, whatever object they come from. Witnesses without a flag raise ValueError whatever the inputs and outputs are.", "quantifier": "all arguments of all modelled types, every constructor, every network, every hash function", "why_tests_cant": "That no other exception can escape is a statement about all arguments.", "anchors": ["riemann/tx/tx.py:TxIn.__init__", "riemann/tx/tx.py:InputWitness.__init__", "riemann/tx/tx.py:Tx.__init__", "riemann/tx/decred.py:DecredInputWitness.__init__", "riemann/tx/zcash_shared.py:SproutJoinsplit.__init__", "riemann/tx/sprout.py:SproutTx.__init__", "riemann/tx/overwinter.py:OverwinterTx.__init__", "riemann/tx/sapling.py:SaplingTx.__init__"]}
{"id": "C80", "title": "A digest is returned only for an index that names an input", "statement": "The signature digest methods return a digest for index i only if 0 <= i < number of inputs.", "quantifier": "all transactions of all classes, all integers as index, all other arguments, every network, every hash function", "why_tests_cant": "The tests ask for digests of inputs that exist; whether any other integer is refused is a question about all integers and all transactions.", "anchors": ["riemann/tx/tx.py:Tx.sighash_all", "riemann/tx/tx.py:Tx.sighash_single", "riemann/tx/decred.py:DecredTx.sighash_all", "riemann/tx/sprout.py:SproutTx.sighash_all", "riemann/tx/overwinter.py:OverwinterTx.sighash", "riemann/tx/sapling.py:SaplingTx.sighash"]}
{"id": "C81", "title": "What every index that the digest methods accept stands for", "statement": "An index i with -n <= i < 0 gives the digest for input n+i, n the number of inputs (Decred: of witnesses); with SINGLE the output that is signed is output m+i, m the number of outputs, so it is the digest for input n+i of a transaction that has this output in place n+i. Zcash joinsplit digests do not depend on the index, SINGLE excepted, which needs an output at the index; the digest of a Sprout transaction without inputs depends on neither index nor script.", "quantifier": "all transactions of all classes, all integers as index, all other arguments, every network, every hash function", "why_tests_cant": "It equates two families of digests over all transactions and negative indices, which no test uses.", "anchors": ["riemann/tx/tx.py:Tx.sighash_all", "riemann/tx/tx.py:Tx.sighash_single", "riemann/tx/decred.py:DecredTx.sighash_all", "riemann/tx/decred.py:DecredTx.sighash_single", "riemann/tx/sprout.py:SproutTx.sighash_all", "riemann/tx/overwinter.py:OverwinterTx.sighash", "riemann/tx/sapling.py:SaplingTx.sighash"]}
{"id": "C82", "title": "What standard.py says of every script and transaction", "statement": "Every script of bytes either cannot be written as text or reads as a sequence of opcodes and pushes (the last push possibly cut short). is_standard_output_type is True for every script that has an address; for any other readable script its answer or exception is determined by the non-empty words: none raises IndexError; any one word and OP_CHECKSIG raises ValueError; OP_CHECKMULTISIG alone raises IndexError; before OP_CHECKMULTISIG anything but OP_1 to OP_3 gives False, a first word without a final digit raises ValueError, a digit or number of words that does not match gives False, a word that is not a push of 33 or 65 bytes gives False or (opcode) raises ValueError, otherwise True; everything else is False. is_op_return is True exactly for value 0, first word OP_RETURN and fewer than 80 characters of text. check_is_standard_tx is True exactly for version byte 1 or 2, weight at most 400,000, readable scriptSigs, and one output that is standard in this sense, readable, and worth 550 or starting 00 14.", "quantifier": "every supported network, every script, every transaction", "why_tests_cant": "All scripts and transactions.", "anchors": ["riemann/networks/standard.py:is_standard_output_type", "riemann/networks/standard.py:is_op_return", "riemann/networks/standard.py:check_is_standard", "riemann/networks/standard.py:check_is_standard_tx"]}
{"id": "C83", "title": "What serialize, hex_serialize and hex_deserialize do with every text", "statement": "Every text is a sequence of words in exactly one way. serialize returns the concatenation of the bytes of the words exactly when each word is the name of an opcode (including aliases and the names of the push opcodes, which give the bare byte) or hexadecimal, of either case, of 1 to 1000 bytes, which is pushed with the smallest push. Otherwise the first wrong word decides: NotImplementedError for OP_CODESEPARATOR, OP_PUSHDATA4 and hexadecimal of more than 1000 bytes, ValueError for anything else. hex_serialize is the hexadecimal of this; hex_deserialize reads hexadecimal of either case with white space between bytes and raises ValueError on all other text. A text means the same script on all networks except Decred's.", "quantifier": "every text, every supported network", "why_tests_cant": "All texts, the unlimited number of malformed ones included.", "anchors": ["riemann/script/serialization.py:serialize", "riemann/script/serialization.py:hex_serialize", "riemann/script/serialization.py:hex_deserialize"]}
{"id": "C84", "title": "What i2le_script writes for every integer and what a script reads from it", "statement": "i2le_script gives '00' for 0, '' for -1, the two's complement of the fewest bytes (1 to 519) for every other n with -256^519 <= 2n < 256^519, and raises ValueError outside. A script reads n from it for n >= 0, 0 for -1, and -(n + 256^k/2), k the number of bytes, for n < -1; the text is the canonical script number of n exactly for n > 0 and for n = -64*256^(k-1).", "quantifier": "every integer", "why_tests_cant": "All integers; the exception needs numbers of 519 bytes.", "anchors": ["riemann/utils.py:i2le_script"]}
{"id": "C85", "title": "Zcash digests commit to exactly the data of the request", "statement": "Overwinter and Sapling return a digest exactly for requests that make sense: the input exists, the output exists for SINGLE, no ANYONECANPAY for the JoinSplit digest. Two requests, on any transactions and networks of one era, have the same digest exactly when they agree on the hash type, the outpoints (unless ANYONECANPAY), the sequence numbers (unless ANYONECANPAY or SINGLE), the outputs that the type covers, the JoinSplits and their key, the Spend descriptions without signatures, the Output descriptions, lock time, expiry height, value balance, and the outpoint, sequence number, script and value of the signed input, or BLAKE2b collides on two of the messages hashed or gives 32 zeros on a list. Script sigs and JoinSplit, Spend and binding signatures are never covered. Overwinter and Sapling digests are equal only by a collision, and no byte string is read by the parsers of two eras. Sprout digests bind version, outpoints, sequence numbers, outputs, lock time, JoinSplits, key, script and (if the script is not empty) the place.", "quantifier": "all transactions of the three classes on all their networks, all requests, every hash function", "why_tests_cant": "Pairs of transactions and requests without bound, and a reduction to collisions.", "anchors": ["riemann/tx/overwinter.py:OverwinterTx.sighash", "riemann/tx/sapling.py:SaplingTx.sighash", "riemann/tx/sprout.py:SproutTx.sighash_all", "riemann/tx/overwinter.py:OverwinterTx.from_bytes", "riemann/tx/sapling.py:SaplingTx.from_bytes", "riemann/tx/sprout.py:SproutTx.from_bytes"]}
{"id": "C86", "title": "Which truncated transactions are accepted, and what they are taken for", "statement": "Let a transaction be serialized by the library and cut anywhere before its end, its witness stacks and items being smaller than 2^32. Tx.from_bytes accepts what is left exactly when the transaction has witness data and either the cut is four bytes into that data, or the cut is inside the last item of the last witness, that item has at least 65536 bytes and fewer than 253 of them are left. In the first case the result is the transaction without witnesses, in the second the transaction whose last item has only the bytes that are left; in both the lock time is the last four bytes of what is left.", "quantifier": "all networks, all transactions that parse back, all proper prefixes of their serializations", "why_tests_cant": "There is one accepted cut among the thousands of a transaction, and the second kind needs items of 65536 bytes and more, which no test vector has.", "anchors": ["riemann/tx/tx.py:312-320", "riemann/tx/tx.py:357-369", "riemann/tx/tx.py:552-608", "riemann/tx/shared.py:200-236"]}
{"id": "C87", "title": "What was parsed is parsed again as itself", "statement": "Let any byte string at all be accepted by Tx.from_bytes. The result is a transaction that the constructor accepts from its own attributes, its bytes are the wire format of its attributes and no longer than the byte string, and Tx.from_bytes reads those bytes as the very same object, attribute by attribute, including the division of each script sig into stack script and redeem script. Bytes that follow are ignored unless the flag is set and the witnesses are missing. On the upgraded Zcash networks this holds if and only if no script sig and no witness item of the result has 253, 254 or 255 bytes; otherwise the result's own bytes raise ValueError, and there is such an accepted byte string.", "quantifier": "all networks, all byte strings", "why_tests_cant": "Tests start from well-formed transactions. Accepted byte strings include malformed ones: long forms of lengths, script sigs that are rewritten in a shorter form so that the parser goes on a few bytes too early, truncated items.", "anchors": ["riemann/tx/tx.py:163-238", "riemann/tx/tx.py:271-285", "riemann/tx/tx.py:312-320", "riemann/tx/tx.py:357-369", "riemann/tx/tx.py:552-608", "riemann/tx/shared.py:200-236"]}
{"id": "C88", "title": "What a Zcash parser accepted is parsed again as itself, or refused for a reason that is known", "statement": "Let any byte string at all be accepted by OverwinterTx.from_bytes, SaplingTx.from_bytes or SproutTx.from_bytes. The result is an object that the constructor accepts from its own attributes. SproutTx reads its bytes as the very same object. OverwinterTx and SaplingTx do so, whatever follows, exactly if no script sig of the result has 253, 254 or 255 bytes and there are fewer than 253 outputs or no JoinSplits (for Sapling: no JoinSplits, shielded spends or shielded outputs). In the other cases the object's own bytes raise ValueError; byte strings that are accepted and lead there exist, for both reasons.", "quantifier": "all networks, all byte strings, all hash functions", "why_tests_cant": "Tests parse well-formed transactions with a few outputs. The accepted strings include ones with junk between the count of JoinSplits and the first of them, ones without a count, with rewritten script sigs, and with counts in long form.", "anchors": ["riemann/tx/overwinter.py:199-265", "riemann/tx/sapling.py:503-600", "riemann/tx/sprout.py:156-210", "riemann/tx/tx.py:163-238"]}
{"id": "C89", "title": "The example programs do what their comments say", "statement": "The programs in riemann/examples run to their end: sapling_example.py prints a transaction with its two inputs signed that the network accepts; p2pkh_op_return.py prints a transaction whose input spends the sender's output; sapling_htlc_example.py makes an output to the contract and two inputs that take it, with the secret or after the timeout; sapling_tx_parsing.py copies a transaction with a new expiry height.", "quantifier": "all keys, amounts, identifiers, addresses, notes, timeouts, transactions and signers in place of the constants in the files; all hash functions", "why_tests_cant": "The examples are not part of the test suite, and a run with the constants in the files would show one failure at most: what the programs would do with the missing parts put in, and that the signature of p2pkh_op_return.py can never be valid, concerns every key and every helper.", "anchors": ["riemann/examples/sapling_example.py:1-61", "riemann/examples/p2pkh_op_return.py:13-73", "riemann/examples/sapling_htlc_example.py:9-77", "riemann/examples/sapling_tx_parsing.py:1-28"]}
{"id": "C90", "title": "Exactly which scriptSigs, inputs and transactions are read as themselves", "statement": "Let T be any well-formed transaction (fixed widths, counts and sizes below 2^64, one witness for each input if there are any). Tx.from_bytes reads the standard serialization of T, whatever follows it, as an object with the fields of T exactly if: every scriptSig has at most 1650 bytes and is either that of a coinbase input, or consists of opcodes and pushes of 1 to 1000 bytes in their smallest form, or is not split by the parser; every output script has less than 252 bytes; and no count or size has a CompactSize that the network's parser refuses. The parser splits a scriptSig exactly if it can be read, its last word is the data of a push that can itself be read as a script, and no push has more than 1000 bytes; then it is written again with every push in its smallest form, empty pushes dropped and a last incomplete push completed. For every well-formed input the object that is made of it, or that there is none, is determined.", "quantifier": "all networks, all byte strings as scriptSigs, all well-formed inputs and transactions, all bytes behind them, all hash functions", "why_tests_cant": "Tests parse transactions that happen to be read as themselves. Which ones are not depends on what is inside the last push of each scriptSig, on the form and length of all other pushes, and on bytes that are missing at the end.", "anchors": ["riemann/tx/tx.py:163-220", "riemann/tx/tx.py:271-285", "riemann/tx/tx.py:357-369", "riemann/tx/tx.py:552-608", "riemann/script/serialization.py:6-150"]}
{"id": "C91", "title": "Exactly which Zcash transactions are read as themselves", "statement": "Let t be any Sprout, Overwinter or Sapling transaction object that the library makes, whose scriptSigs consist of bytes. Its parser reads the serialization of t as a transaction with the bytes, the id and the fields of t exactly if every input is read as itself (C90), every output script has less than 252 bytes, the counts of inputs and outputs can be read by the network's parser, and: for Sprout, the version is 2, and nothing follows if the JoinSplit signature is empty; for Overwinter, there are fewer than 253 outputs or no JoinSplits; for Sapling, the count of shielded spends can be read, and there are fewer than 253 outputs or neither JoinSplits nor shielded parts.", "quantifier": "all transaction objects of the three formats, all Zcash networks, all hash functions; for Sprout all bytes behind the transaction, for Overwinter and Sapling the sufficient direction and the conditions on inputs, outputs and counts with all bytes behind it", "why_tests_cant": "The parsers of Overwinter and Sapling advance by the wrong count, which is only noticed with 253 outputs or more; everything else depends on the content of scriptSigs. A test that parses some transactions cannot say that these are all the conditions.", "anchors": ["riemann/tx/sprout.py:156-206", "riemann/tx/overwinter.py:199-264", "riemann/tx/sapling.py:503-600", "riemann/tx/tx.py:163-220"]}
{"id": "C92", "title": "Builder functions for inputs, Decred witnesses and Decred transactions", "statement": "make_legacy_input, make_witness_input and make_decred_input return the input of the outpoint with the given sequence (four bytes, little endian), of the network's class; an outpoint of the other family's class raises ValueError, a sequence outside 0..2^32-1 OverflowError, and make_decred_input works on Decred only. make_witness_input gives an empty script; on Decred make_legacy_input drops the scripts. make_decred_witness holds its five arguments or raises ValueError. make_tx on Decred with one witness object returns the transaction described, or ValueError when there is none; numbers out of range raise OverflowError, a missing expiry AttributeError. _make_output returns the output of the network's class; on Decred it takes a version of two bytes, elsewhere it ignores the version; other lengths raise ValueError.", "quantifier": "every network, every outpoint object of either class, all integers, all byte strings, all lists of Decred inputs and outputs", "why_tests_cant": "The tests call each function with one outpoint; that no outpoint of another class slips through on any network and that every number is either encoded or refused is a statement about all of them.", "anchors": ["riemann/tx/tx_builder.py:make_legacy_input", "riemann/tx/tx_builder.py:make_witness_input", "riemann/tx/tx_builder.py:make_decred_input", "riemann/tx/tx_builder.py:make_decred_witness", "riemann/tx/tx_builder.py:make_tx", "riemann/tx/tx_builder.py:_make_output"]}
{"id": "C93", "title": "Reading byte-like objects as bytes, text and hexadecimal", "statement": "Indexing, slicing, iterating, len and find of a ByteData give what they give for its bytes; hex() and the x and X formats give two digits a byte, and from_hex (of ByteData and Tx) reads exactly the texts of hexadecimal digit pairs with white space between, as the bytes they stand for, and refuses others with ValueError; other formats raise TypeError. repr is printable and tells apart objects with other bytes, other class names or other mutability. An object built with += from parts holds their concatenation and refuses further +=. is_p2sh says whether the redeem script is not empty.", "quantifier": "every ByteData object, all indexes, bounds and substrings, all texts", "why_tests_cant": "All byte strings, positions and texts.", "anchors": ["riemann/tx/shared.py:ByteData.__getitem__", "riemann/tx/shared.py:ByteData.find", "riemann/tx/shared.py:ByteData.hex", "riemann/tx/shared.py:ByteData.__format__", "riemann/tx/shared.py:ByteData.__repr__", "riemann/tx/shared.py:ByteData.from_hex", "riemann/tx/tx.py:Tx.from_hex", "riemann/tx/tx.py:TxIn.is_p2sh"]}
{"id": "C94", "title": "A copy of a VarInt is equal to it", "statement": "VarInt.copy returns a VarInt with the same number and the same bytes.", "quantifier": "every VarInt made by the constructor or by from_bytes, every network", "why_tests_cant": "All numbers in all of their encodings; the test copies one VarInt.", "anchors": ["riemann/tx/shared.py:VarInt.copy"]}
{"id": "C95", "title": "A transaction of one format is not read as a transaction of another", "statement": "The parsers of Tx, SproutTx, OverwinterTx and SaplingTx refuse the serialization of every transaction of another of these formats.", "quantifier": "for all networks, all byte strings and all transaction objects of the four formats, of any size", "why_tests_cant": "Which byte strings two parsers both accept is a question about all byte strings; the ones that are transactions of two formats at once have to be constructed (112 or 133 overlapping inputs).", "anchors": ["riemann/tx/tx.py:552-608", "riemann/tx/sprout.py:156-206", "riemann/tx/overwinter.py:199-265", "riemann/tx/sapling.py:503-600"]}
{"id": "C96", "title": "What the handling of transactions and signatures depends on the network for", "statement": "What Tx makes, reads and signs depends on the network only through Decred's hash function and opcodes, upgraded Zcash's rule for lengths, and the fork id: two networks that agree in these give the same result or the same exception for every call. The same holds for the Zcash classes on the networks of one era and for the Decred classes on Decred's networks. So a signature for one network cannot be kept from being valid on another that agrees with it; it is tied to the fork id where there is one.", "quantifier": "for all pairs of supported networks, all byte strings, all transaction objects, indices, scripts, values and hash types, whether the call succeeds or raises", "why_tests_cant": "It compares two networks on every input; a test can compare some pairs on some transactions, not show that no other attribute of the network is ever consulted.", "anchors": ["riemann/tx/tx.py:552-608", "riemann/tx/tx.py:715-943", "riemann/tx/shared.py:199-232", "riemann/utils.py:138-142", "riemann/tx/sprout.py:156-367", "riemann/tx/overwinter.py:199-316", "riemann/tx/sapling.py:503-655", "riemann/tx/decred.py:345-440"]}
{"id": "C97", "title": "What the digest methods return for every request", "statement": "For a transaction object of any class, every index (negative ones included), every script (its length prefix right, wrong, missing or padded), every value or none, and every hash type the method takes, the digest methods return exactly what a stated function of the request gives: either the hash of a stated preimage or a stated exception. In particular: which exception is raised when several apply; that segwit and fork-id digests hash the script and the value as passed, with no check beyond the fork-id check that the value has 8 bytes; that the original algorithm takes the script's length prefix off without comparing it with the script; and that SINGLE reads input, output and (Decred) witness by the same index each in its own list, which are different positions when the index is negative and the lists differ in length.", "quantifier": "for all transaction objects of the five classes, all supported networks, all integers as index, all byte strings as script, all optional values, all hash types, with and without ANYONECANPAY", "why_tests_cant": "A test checks single requests; which of several exceptions comes first, and the behaviour for negative indices, wrong length prefixes and unequal lists, are combinations over unbounded sets of arguments.", "anchors": ["riemann/tx/tx.py:667-1130", "riemann/tx/sprout.py:245-367", "riemann/tx/overwinter.py:207-316", "riemann/tx/sapling.py:503-655", "riemann/tx/decred.py:345-440"]}
{"id": "C98", "title": "Damage within one short stretch of an address is always noticed", "statement": "If a text is a valid bech32 address, then any other text of the same length that differs from it only within six consecutive characters after the separator is refused with TypeError. If a text is a valid cashaddr, then any other text that differs from it only within eight consecutive characters after the colon is refused with ValueError or TypeError, whatever the length of the payload. Seven characters are too many for bech32.", "quantifier": "every valid text of every supported network with such addresses, every stretch, every replacement of the same length", "why_tests_cant": "There are about 2^30 (2^40) replacements for each stretch of each address; the claim is about the remainder of polynomial division over GF(32) and holds only because the constant coefficient of the generator is invertible.", "anchors": ["riemann/encoding/bech32.py:bech32_polymod", "riemann/encoding/bech32.py:decode", "riemann/encoding/cashaddr.py:polymod", "riemann/encoding/cashaddr.py:decode"]}
{"id": "C99", "title": "A SegWit address or cashaddr that lost characters or had some added is refused", "statement": "If a text is an address that to_output_script accepts, and characters are inserted into it or removed from it, then the result is refused, or at the very least is not accepted as an address of somebody else.", "quantifier": "every address, every supported network with bech32 or cashaddr addresses, every number and place of the inserted or removed characters", "why_tests_cant": "The checksums are not designed to notice insertions; whether the length checks make up for it is a question about all lengths, and the accepted texts are so rare that random testing does not meet them.", "anchors": ["riemann/encoding/bech32.py:segwit_decode", "riemann/encoding/cashaddr.py:decode", "riemann/encoding/addresses.py:to_output_script"]}
{"id": "C100", "title": "How many texts an address can be spelled as", "statement": "Of the texts that decode to a given payload, there is exactly one with Base58Check, there are exactly two with bech32 (all small letters, all capitals), and with cashaddr, for each accepted prefix, exactly as many as there are ways to fill the payload with 1 to 8 bits up to a multiple of five bits: 132 for the 21 bytes of an address instead of the one that the specification allows.", "quantifier": "every payload (not empty for cashaddr), every accepted prefix, every supported network with such addresses, every text", "why_tests_cant": "The count is over all texts; that there are no further spellings is a statement about everything that is refused.", "anchors": ["riemann/encoding/cashaddr.py:decode", "riemann/encoding/cashaddr.py:convertbits", "riemann/encoding/bech32.py:bech32_decode", "riemann/encoding/base58.py:decode_with_checksum"]}
{"id": "C101", "title": "What an address becomes when it is read and written back", "statement": "If to_output_script reads a text, from_output_script of the result returns the network's own text for that payment: the CashAddr text where the network has CashAddr and it is asked for, otherwise the Base58Check text with the network's version, or the witness address in small letters. It is the same text exactly if the text was the network's own; a Base58Check address with the network's version comes back unless CashAddr was asked for, a bech32 address comes back in small letters. It raises ValueError exactly for witness payments on networks without witness addresses. The text written for any script, if it is read, is written again unchanged.", "quantifier": "every text, every script, every supported network, every hash function of the right output sizes, with and without CashAddr", "why_tests_cant": "Tests compare a few addresses in the network's own form; the other spellings and the texts that carry a payload meant for another format are too many to list.", "anchors": ["riemann/encoding/addresses.py:to_output_script", "riemann/encoding/addresses.py:from_output_script", "riemann/encoding/addresses.py:parse"]}
{"id": "C102", "title": "The size of a transaction is what its parts add up to", "statement": "The byte string of every transaction object has exactly the length that follows from the lengths of its scripts and stack items and the numbers of its parts: a Bitcoin input costs 40 bytes and its scriptSig with its length, an output 8 bytes and its script, a witness its items; a Decred input 41 bytes; a Sapling spend 384, a shielded output 948, a JoinSplit 1802 (Sprout and Overwinter) or 1698 (Sapling) bytes, with 96 bytes of key and signature. no_witness has the base size. Decred and Zcash transactions never exceed 100000 bytes, so the numbers of their parts are bounded; Tx has no such limit: there are transaction objects of every size up to 2^64.", "quantifier": "all transaction objects of all formats, all networks, all hash functions", "why_tests_cant": "fees are paid per byte, and the sizes of lists and scripts are unbounded; the size jumps where a length needs a longer CompactSize, and tests look at a few lengths only", "anchors": ["riemann/tx/tx.py:458-550", "riemann/tx/decred.py:203-273", "riemann/tx/overwinter.py:26-140", "riemann/tx/sapling.py:258-430", "riemann/tx/sprout.py:24-135", "riemann/tx/shared.py:162-210"]}
{"id": "C103", "title": "How the addresses of each network begin and how long they are", "statement": "Every address that the library writes for a network begins with the characters and has the length that a table lists for the network and the kind of payment, for example 1 and 25 to 34 characters for P2PKH on bitcoin_main, 3 and 34 for P2SH, m or n on bitcoin_test, t1 and t3 on Zcash, Ds and Dc on Decred, bc1q and 42 or 62 characters for witness addresses, bitcoincash:q and bitcoincash:p. A text that to_output_script reads, on networks without CashAddr, looks like this too, apart from capitals in bech32, Base58Check texts of witness programs (which begin with 19 or 12), and bech32 addresses of a witness version that is also a Base58Check version of the network. On networks with CashAddr it is a legacy address, a CashAddr text under a prefix that begins with the network's, or one of the texts with the version bytes of the other format: Base58Check texts that begin with 1 or 4, and CashAddr texts whose version byte is a legacy one.", "quantifier": "all networks, kinds of payment, keys, scripts and hashes, all hash functions of the right lengths", "why_tests_cant": "the first character of a Base58Check text depends on the whole number that the bytes stand for, and at the borders of a digit on the hash; tests look at a few of the 2^160 hashes", "anchors": ["riemann/encoding/addresses.py:6-214", "riemann/encoding/addresses.py:217-342", "riemann/encoding/base58.py:33-112", "riemann/networks/networks.py:1-842"]}
{"id": "C104", "title": "Nothing of a transaction object can be deleted", "statement": "On a constructed object del obj.attribute raises, as an assignment does, whatever the attribute is, so that no program removes an attribute or makes the object writable again.", "quantifier": "every transaction object, attribute and finite history of operations and deletions", "why_tests_cant": "it is about all histories, and about a way to change an object that the library does not mention", "anchors": ["riemann/tx/shared.py:14-29", "riemann/tx/shared.py:78-81", "riemann/tx/shared.py:112-117"]}
{"id": "C105", "title": "Objects that compare equal are the same", "statement": "If two objects that the constructors accept compare equal with ==, they are of the same class, all their attributes are equal, and every digest computed from them is the same.", "quantifier": "every two objects of the transaction classes, every network, every index, script, value and hash type", "why_tests_cant": "it is about all pairs of objects; == compares the bytes only, and tests compare an object with itself or with a copy", "anchors": ["riemann/tx/shared.py:51-70", "riemann/tx/tx.py:457-545", "riemann/tx/tx.py:626-628", "riemann/tx/tx.py:768-790"]}
{"id": "C106", "title": "Searching and reversing an object is searching and reversing its bytes", "statement": "x in obj gives what it gives for the bytes of obj, whatever x is; x in a sequence of objects says whether one of them has the bytes of x; reversed(obj) gives the bytes from the last to the first.", "quantifier": "every ByteData object, every sequence of them, every int, byte string, object or other value", "why_tests_cant": "all byte strings and values; the operators are not written in the class but derived by Python from its methods, and no test uses them", "anchors": ["riemann/tx/shared.py:14-33", "riemann/tx/shared.py:51-76", "riemann/tx/tx.py:524-530"]}
{"id": "C107", "title": "The attributes of an object are the values it was made of", "statement": "After obj = Class(..., k=v, ...) every attribute obj.k is the value v itself, of whatever type it is, except that Tx, InputWitness and the Zcash transactions keep their sequences as tuples of the same items, None instead of the JoinSplit key and signature or the binding signature where there is nothing to sign, and Tx without flag has wtx_id None and no wtx_id_le.", "quantifier": "every class, every network, arguments of every type", "why_tests_cant": "tests pass bytes and lists; the constructors accept bytes, bytearrays, objects and any sequence, and what is kept of them matters for C20 and C72", "anchors": ["riemann/tx/tx.py:30-42", "riemann/tx/tx.py:112-141", "riemann/tx/tx.py:459-545", "riemann/tx/decred.py:203-274", "riemann/tx/sprout.py:24-124", "riemann/tx/overwinter.py:26-129", "riemann/tx/sapling.py:258-415", "riemann/tx/zcash_shared.py:26-145"]}
