{
 "claims": [
  {
   "property": "C01",
   "status": "proved",
   "theorems": [
    "i2le_shortest_encoding",
    "i2be_shortest_encoding",
    "negative_ints_overflow",
    "i2le_padded_spec",
    "i2be_padded_spec",
    "padded_negative_length",
    "le2i_be2i_value",
    "pad_after_read",
    "change_endianness_swaps"
   ],
   "note": "A negative length argument raises ValueError (Python's to_bytes), stated separately."
  },
  {
   "property": "C02",
   "status": "partial",
   "theorems": [
    "i2le_script_positive_partial",
    "i2le_script_refuted",
    "i2le_script_negative_twos_complement",
    "i2le_script_limit"
   ],
   "note": "False as stated: positive numbers get the unique minimal Script number (proved); 0 becomes 00, -1 becomes the empty string, other negatives two's complement (refuted, with the exact set of negatives that still read back)."
  },
  {
   "property": "C03",
   "status": "proved",
   "theorems": [
    "VarInt_canonical",
    "VarInt_rejects"
   ],
   "note": ""
  },
  {
   "property": "C04",
   "status": "partial",
   "theorems": [
    "VarInt_roundtrip_partial",
    "VarInt_roundtrip_refuted"
   ],
   "note": "Holds except for 253..255 on the Overwinter and Sapling networks, where the canonical encoding is always refused (both directions proved)."
  },
  {
   "property": "C05",
   "status": "partial",
   "theorems": [
    "VarInt_reads_partial",
    "VarInt_reads_zcash",
    "VarInt_wire_length_refuted",
    "VarInt_short_input_partial",
    "VarInt_empty_input"
   ],
   "note": "False as stated: non-canonical fe/ff encodings of numbers above 252 report a shorter length, and truncated encodings with 1, 2 or 4 content bytes are accepted. The exact behaviour on every complete encoding is proved."
  },
  {
   "property": "C06",
   "status": "proved",
   "theorems": [
    "base58_encode_text",
    "base58_decode_text",
    "base58_decode_after_encode",
    "base58_encode_after_decode",
    "base58_decode_refuses",
    "base58_decode_no_other_error"
   ],
   "note": ""
  },
  {
   "property": "C07",
   "status": "proved",
   "theorems": [
    "base58check_text",
    "base58check_decode_after_encode",
    "base58check_exact",
    "base58check_no_other_error",
    "has_checksum_exact"
   ],
   "note": ""
  },
  {
   "property": "C08",
   "status": "proved",
   "theorems": [
    "bech32_encode_valid",
    "bech32_encode_exact",
    "bech32_encode_outcomes"
   ],
   "note": "The length byte of the witness script is not read (part of bech32_encode_exact)."
  },
  {
   "property": "C09",
   "status": "proved",
   "theorems": [
    "bech32_decode_exact",
    "bech32_decode_canonical",
    "bech32_decode_refuses",
    "bech32_without_prefix"
   ],
   "note": ""
  },
  {
   "property": "C10",
   "status": "proved",
   "theorems": [
    "bech32_detects_substitutions",
    "bech32_unnoticed"
   ],
   "note": "Up to four substitutions, any replacement characters. bech32_unnoticed: five can turn any accepted address with 28 characters or more after the separator into another accepted one."
  },
  {
   "property": "C100",
   "status": "proved",
   "theorems": [
    "base58_spelled_once",
    "bech32_spelled_twice",
    "cashaddr_spellings"
   ],
   "note": "cashaddr_spellings gives the list of all spellings without repetition and its length. The many spellings are a finding: two texts that differ are accepted as the same address (see also C12 and C99)."
  },
  {
   "property": "C101",
   "status": "proved",
   "theorems": [
    "address_written_back",
    "legacy_address_comes_back",
    "bech32_address_comes_back",
    "address_settles"
   ],
   "note": "own_text (SBack.v) is the network's own text for a payment, from the table of C58. A Base58Check text with a witness program is paid to on every network; where the network has no witness addresses it cannot be written back (example)."
  },
  {
   "property": "C102",
   "status": "proved",
   "theorems": [
    "tx_size",
    "tx_size_least",
    "tx_size_unlimited",
    "decred_tx_size",
    "overwinter_tx_size",
    "sapling_tx_size",
    "sprout_tx_size"
   ],
   "note": "Exact sizes in SSize.v; the number 2^64 in tx_size_unlimited is the range of a CompactSize count."
  },
  {
   "property": "C103",
   "status": "proved",
   "theorems": [
    "address_begins",
    "made_address_begins",
    "read_address_begins",
    "read_cashaddr_begins"
   ],
   "note": "The table is address_starts in SFirst.v. Two of its rows are not what one would expect: decred_simnet writes P2PKH addresses that begin with 2F and are 36 characters long (Decred documents Ss), and P2SH addresses that begin with Tc like the test network's (Decred documents Sc). On networks with CashAddr the version bytes of the two formats are not kept apart: bitcoin_cash_test reads the legacy P2PKH addresses of bitcoin_cash_main (1...), all three read Base58Check texts that begin with 4 as P2SH, and CashAddr texts that begin with q can be read as P2SH (version 5); see read_cashaddr_begins_ex."
  },
  {
   "property": "C104",
   "status": "partial",
   "theorems": [
    "deletion_refuted",
    "deletion_exact",
    "flag_deletion",
    "spared_forever_partial"
   ],
   "note": "False: ByteData guards assignments but not deletions. del obj.k works on every immutable object and attribute; after del obj._ByteData__immutable the object can be written to, so that two statements give a transaction any bytes while its tx_id stays (deletion_refuted). deletion_exact and flag_deletion say exactly what a deletion changes. Holds for programs that delete nothing from an object or from what it consists of (spared_forever_partial)."
  },
  {
   "property": "C105",
   "status": "partial",
   "theorems": [
    "equal_parts",
    "equal_transactions_partial",
    "equal_descriptions",
    "equal_decred_parts",
    "equal_fields_refuted",
    "equal_classes_refuted",
    "equal_digests_partial",
    "equal_digests_refuted"
   ],
   "note": "False: == compares bytes. Every division of a script sig into stack script and redeem script gives an equal input (equal_fields_refuted); an outpoint whose transaction id begins with 35 equals a witness item (equal_classes_refuted); every legacy transaction without witness list equals one with an empty list, whose digests are those of segwit (equal_digests_refuted). Within a class there is nothing else: equal objects agree on every other attribute (equal_parts, equal_descriptions, equal_decred_parts, equal_transactions_partial: exact in both directions), and on all digests if both or neither have a flag or witness list or the network has a fork id; Zcash and Decred transactions always (equal_digests_partial)."
  },
  {
   "property": "C106",
   "status": "partial",
   "theorems": [
    "member_exact_partial",
    "member_refuted",
    "member_of_list",
    "reversed_bytes"
   ],
   "note": "False: ByteData has __iter__ but no __contains__. Bytes are never found in an object, even those that find() finds; numbers above 255 and values of other types give False where bytes raise; member_exact_partial says exactly where the two agree. Sequences of objects and reversed behave as stated (member_of_list, reversed_bytes), where a value that is not byte-like raises TypeError as in C21."
  },
  {
   "property": "C107",
   "status": "proved",
   "theorems": [
    "attributes_of_parts",
    "attributes_of_tx",
    "attributes_of_decred",
    "attributes_of_descriptions",
    "attributes_of_zcash",
    "script_sig_type"
   ],
   "note": "For every class and every type of argument. Without flag the constructor of Tx sets an attribute wtx_le, so that wtx_id_le raises AttributeError. script_sig, which is computed, has the type of the stack script."
  },
  {
   "property": "C11",
   "status": "partial",
   "theorems": [
    "cashaddr_encode_text",
    "cashaddr_roundtrip_partial",
    "cashaddr_roundtrip_value",
    "cashaddr_roundtrip_refuted"
   ],
   "note": "False for payloads whose length is a positive multiple of five: decode drops the last byte. The exact value of decode(encode b) is proved for every b."
  },
  {
   "property": "C12",
   "status": "partial",
   "theorems": [
    "cashaddr_decode_exact",
    "cashaddr_decode_errors",
    "cashaddr_without_prefix",
    "cashaddr_prefix_partial",
    "cashaddr_foreign_prefix_refuted",
    "cashaddr_canonical_refuted",
    "cashaddr_detects_substitutions",
    "cashaddr_detects_five",
    "cashaddr_unnoticed"
   ],
   "note": "Corruption is detected: any single substitution, up to five in payloads of at most 112 characters (checked on all pairs of places), up to four in payloads of at most 1025 (Hartmann-Tzeng bound); cashaddr_unnoticed shows that in every accepted payload six changes can go unnoticed from 36 characters on, five from 224 on, two from 1026 on. The prefix part is false: a longer prefix that starts with the network's is accepted; exact acceptance condition proved."
  },
  {
   "property": "C13",
   "status": "partial",
   "theorems": [
    "script_address_script_partial",
    "script_address_script_refuted"
   ],
   "note": "Holds for every standard script, network and hash, except a bech32 address that is also, by accident of its double-SHA256 checksum, a valid Base58Check text: to_output_script then raises ValueError. Such an address exists (refuted with the real SHA-256)."
  },
  {
   "property": "C14",
   "status": "proved",
   "theorems": [
    "to_output_script_standard",
    "to_output_script_errors",
    "to_output_script_complete"
   ],
   "note": ""
  },
  {
   "property": "C15",
   "status": "partial",
   "theorems": [
    "from_output_script_exact",
    "from_output_script_pays_partial",
    "from_output_script_distinct_partial",
    "from_output_script_suffix_refuted",
    "from_output_script_no_witness",
    "from_output_script_shared_refuted"
   ],
   "note": "False as stated: the closing opcodes of P2PKH/P2SH scripts are not read, and bitcoin cash gives witness scripts the address of another script. True on the standard scripts of a network; the exact set of accepted scripts is proved."
  },
  {
   "property": "C16",
   "status": "partial",
   "theorems": [
    "make_pkh_address_hash",
    "make_sh_address_hash",
    "make_p2wpkh_address_partial",
    "make_p2wsh_address_partial",
    "make_sh_address_bad_script",
    "make_base58_p2wpkh_refuted"
   ],
   "note": "Full for P2PKH and P2SH. For witness addresses parse_hash is wrong on the networks whose witness addresses are Base58 (proved for every key)."
  },
  {
   "property": "C17",
   "status": "partial",
   "theorems": [
    "serialize_deserialize_partial",
    "smallest_push_fits",
    "smallest_push_minimal",
    "serialize_push_name_refuted"
   ],
   "note": "Holds for every sequence of opcode names (aliases included) and data of 1..1000 bytes, except the names of push opcodes (OP_PUSH_n, OP_PUSHDATA1/2 serialize to a bare byte that swallows what follows: refuted) and OP_CODESEPARATOR/OP_PUSHDATA4, which serialize refuses."
  },
  {
   "property": "C18",
   "status": "partial",
   "theorems": [
    "deserialize_serialize_partial",
    "deserialize_complete",
    "reserialize_normal",
    "deserialize_serialize_refuted"
   ],
   "note": "False as stated: non-minimal, empty, oversized or truncated pushes change or fail. The exact condition and the value given back for every complete script are proved."
  },
  {
   "property": "C19",
   "status": "partial",
   "theorems": [
    "deserialize_overrun_partial",
    "deserialize_overrun_exact",
    "deserialize_overrun_refuted",
    "deserialize_total"
   ],
   "note": "Direct pushes are checked; OP_PUSHDATA1 and OP_PUSHDATA2 are not (refuted, exact result proved)."
  },
  {
   "property": "C20",
   "status": "partial",
   "theorems": [
    "immutable_bindings",
    "immutable_bytes",
    "immutable_forever_partial",
    "immutable_writes_raise",
    "construct_immutable",
    "construct_immutable_bytes",
    "immutable_bytearray_refuted",
    "immutable_decred_refuted"
   ],
   "note": "For every history: the bytes and attribute bindings of an immutable object never change and every write raises. The contents of attributes never change if they are bytes, ints, None, tuples or immutable objects; false for attributes that are bytearrays or (Decred) lists: obj.attr += x raises but changes the attribute in place."
  },
  {
   "property": "C21",
   "status": "proved",
   "theorems": [
    "bytedata_eq_content",
    "bytedata_eq_other"
   ],
   "note": ""
  },
  {
   "property": "C22",
   "status": "partial",
   "theorems": [
    "outpoint_accepts",
    "input_accepts",
    "output_accepts",
    "outpoint_format",
    "input_format",
    "output_format",
    "witness_item_format",
    "witness_format",
    "outpoint_roundtrip",
    "output_roundtrip",
    "output_long_refused",
    "witness_item_roundtrip_partial",
    "witness_roundtrip_partial",
    "input_roundtrip_partial",
    "input_split",
    "input_roundtrip_zcash_refuted",
    "input_roundtrip_refuted"
   ],
   "note": "Formats and acceptance are exact. Parsing back is proved for all objects except: sizes 253..255 on upgraded Zcash (refused by VarInt, refuted), output scripts of 252 bytes and more (always refused, proved) and scriptSigs that change when written again (witness given)."
  },
  {
   "property": "C23",
   "status": "partial",
   "theorems": [
    "tx_accepts",
    "tx_format_partial",
    "tx_format_refuted"
   ],
   "note": "Acceptance is exact (counts below 2^64). The format is BIP144 or the original one except for a flag without witnesses, which is accepted: such bytes are not the serialization of any transaction (refuted)."
  },
  {
   "property": "C24",
   "status": "partial",
   "theorems": [
    "tx_roundtrip_partial",
    "tx_roundtrip_refuted"
   ],
   "note": "All fields, bytes and ids come back, whatever follows; but the witness list None of a transaction without flag comes back as an empty list (refuted). The condition excludes sizes 253..255 on upgraded Zcash and a flag without witnesses followed by further bytes."
  },
  {
   "property": "C25",
   "status": "partial",
   "theorems": [
    "parse_serialize_partial",
    "parse_serialize_refuted",
    "parse_long_count_refuted"
   ],
   "note": "False as stated: a scriptSig with a non-minimal push before a redeem script is rewritten and everything after it is read from shifted positions (concrete transaction). Proved for every transaction whose scriptSigs survive, with the exact condition for success."
  },
  {
   "property": "C26",
   "status": "partial",
   "theorems": [
    "ids_partial",
    "ids_hash",
    "tx_id_ignores_witnesses",
    "tx_id_binding",
    "wtx_id_binding",
    "wire_prefix_free",
    "wtx_id_legacy_refuted"
   ],
   "note": "tx_id is proved in full; wtx_id exists only for transactions with flag (refuted for the others)."
  },
  {
   "property": "C27",
   "status": "partial",
   "theorems": [
    "tx_sighash_none",
    "legacy_all_partial",
    "legacy_all_long_refuted",
    "legacy_all_size_ignored",
    "legacy_all_index",
    "digest_hash"
   ],
   "note": "Exact for every transaction object without flag and witness list, every index and script code: the digest is the hash of the original preimage for script codes up to 1650 bytes; longer ones raise ValueError (refuted, and exact in legacy_all_partial). Script codes are those whose size the library can read back (readable_size)."
  },
  {
   "property": "C28",
   "status": "partial",
   "theorems": [
    "legacy_single_partial",
    "legacy_single_exact",
    "legacy_single_refuted"
   ],
   "note": "The digest is right exactly for the last input (index+1 = number of inputs); for every other input it is wrong: legacy_single_refuted derives from it being right that the message hashed and the right one collide. legacy_single_exact says what is hashed instead."
  },
  {
   "property": "C29",
   "status": "proved",
   "theorems": [
    "bip143_digest",
    "bip143_value",
    "digest_hash"
   ],
   "note": "All transactions with flag or witness list, all indices, script codes, values and the four hash types."
  },
  {
   "property": "C30",
   "status": "proved",
   "theorems": [
    "forkid_digest",
    "forkid_value",
    "forkid_network",
    "replay_protection_segwit",
    "replay_protection_legacy",
    "replay_protection_forks"
   ],
   "note": "The call is refused with NotImplementedError first when SINGLE has no output at the index. Replay protection: a common digest gives a SHA-256d collision between the two signed messages named in the theorem."
  },
  {
   "property": "C31",
   "status": "partial",
   "theorems": [
    "bip143_binds",
    "forkid_binds",
    "legacy_binds",
    "bip143_ignores",
    "forkid_ignores",
    "legacy_ignores_partial",
    "legacy_single_anyone_refuted",
    "single_refused_partial",
    "single_negative_refuted"
   ],
   "note": "Commitment and non-interference proved in full for BIP143 and fork id digests, and for the original algorithm except SINGLE|ANYONECANPAY, where other inputs do change the digest (refuted for all transactions). SINGLE without output is refused for non-negative indices; a negative index is accepted (refuted)."
  },
  {
   "property": "C32",
   "status": "partial",
   "theorems": [
    "parsed_digest_partial",
    "parsed_digest_refuted"
   ],
   "note": "Holds for transactions with flag or witness list and on fork id networks; fails for every other parsable transaction (refuted with a universal statement)."
  },
  {
   "property": "C33",
   "status": "proved",
   "theorems": [
    "copy_outpoint",
    "copy_txin",
    "copy_txout",
    "copy_witness",
    "copy_tx",
    "copy_keeps_witness",
    "copy_overwinter",
    "copy_overwinter_drops",
    "copy_sapling",
    "copy_sprout",
    "copy_decred_outpoint",
    "copy_decred_txin",
    "copy_decred_txout",
    "copy_decred_witness",
    "copy_decred_tx"
   ],
   "note": "One theorem for each class with a copy method. Statement amended: None means keep, so a field cannot be cleared (copy_keeps_witness), and key and signature vanish with the JoinSplits (copy_overwinter_drops). Closed under the global context."
  },
  {
   "property": "C34",
   "status": "proved",
   "theorems": [
    "fee_bitcoin",
    "fee_overwinter",
    "fee_sapling",
    "fee_sprout",
    "fee_decred",
    "fee_new_output",
    "fee_at_most"
   ],
   "note": "For all transactions and value lists, every transaction class. Closed under the global context."
  },
  {
   "property": "C35",
   "status": "proved",
   "theorems": [
    "parse_varint_ends",
    "parse_outpoint_ends",
    "parse_txin_ends",
    "parse_txout_ends",
    "parse_witness_ends",
    "parse_tx_ends",
    "parse_zcash_parts_end",
    "parse_overwinter_ends",
    "parse_sapling_ends",
    "parse_sprout_ends",
    "parse_decred_ends"
   ],
   "note": "The model's loops carry fuel; these theorems show that it never runs out, list every exception a parser can raise, and bound the items read by the input length (41 bytes per input, 9 per output, and so on)."
  },
  {
   "property": "C36",
   "status": "proved",
   "theorems": [
    "networks_supported",
    "select_network_ok",
    "select_network_unknown",
    "selection_history",
    "network_names_distinct"
   ],
   "note": "Closed under the global context. The history theorem covers any sequence of select_network calls."
  },
  {
   "property": "C37",
   "status": "proved",
   "theorems": [
    "blake_split",
    "blake_final_twice"
   ],
   "note": "For all four digest sizes and without a bound on the length: above the specification's limit every way of cutting raises struct.error."
  },
  {
   "property": "C38",
   "status": "proved",
   "theorems": [
    "blake_hash_exact",
    "blake_digests",
    "blake_hexdigest_exact"
   ],
   "note": "Against a specification of BLAKE written from the paper (SBlake.v): constants from pi and square roots of primes, the 4 by 4 state, padding and counters. Also for BLAKE-224/384/512."
  },
  {
   "property": "C39",
   "status": "partial",
   "theorems": [
    "op_return_output_partial",
    "op_return_output_empty",
    "op_return_output_long",
    "op_return_output_decred_refuted"
   ],
   "note": "Holds on every network but Decred, where _make_output is called without a version and every call is a ValueError. Empty data reads back as OP_RETURN OP_0."
  },
  {
   "property": "C40",
   "status": "partial",
   "theorems": [
    "make_p2pkh_output_script_template",
    "make_p2wpkh_output_script_template",
    "make_p2sh_output_script_template",
    "make_p2wsh_output_script_template",
    "p2pkh_address_agrees",
    "p2sh_address_agrees",
    "p2wpkh_address_agrees_partial",
    "p2wsh_address_agrees_partial",
    "bitcoin_cash_witness_address_refuted",
    "make_pkh_output_exact",
    "make_sh_output_exact",
    "make_pkh_output_decred_refuted"
   ],
   "note": "Templates, errors and agreement are proved for legacy payments. For witness payments the agreement excludes bech32 addresses that are also valid Base58Check texts (see C13). On Bitcoin Cash the witness address functions return the address of a payment without witness although there is no witness output script; on Decred the output functions always fail."
  },
  {
   "property": "C41",
   "status": "partial",
   "theorems": [
    "simple_outpoint_fields",
    "simple_outpoint_errors",
    "simple_unsigned_input_fields",
    "simple_unsigned_input_decred_fields",
    "simple_output_fields_partial",
    "simple_output_by_script",
    "simple_unsigned_legacy_tx_fields_partial",
    "simple_unsigned_legacy_tx_overwinter_fields",
    "simple_unsigned_witness_tx_fields_partial",
    "simple_unsigned_legacy_tx_refuted",
    "simple_unsigned_witness_tx_refuted",
    "make_tx_fields",
    "make_tx_errors",
    "make_tx_overwinter_fields",
    "make_tx_sapling_fields",
    "make_tx_sapling_balance_refuted"
   ],
   "note": "Outpoints and inputs on every network. Transactions on every network outside Decred and Zcash, legacy ones on Overwinter and witness ones on Sprout. Refuted elsewhere: no arguments make unsigned_legacy_tx work on Decred, Sprout or Sapling, nor unsigned_witness_tx on Decred, Overwinter or Sapling; simple.output fails on Decred; a negative value balance cannot be given to make_tx."
  },
  {
   "property": "C42",
   "status": "partial",
   "theorems": [
    "overwinter_accepts",
    "overwinter_format_ok",
    "overwinter_roundtrip_partial",
    "overwinter_many_outputs",
    "overwinter_roundtrip_refuted",
    "overwinter_sighash_partial",
    "overwinter_joinsplit_sighash_partial",
    "zip_sighash_refused",
    "overwinter_none",
    "zip_single_refuted",
    "zcash_digests_refuted"
   ],
   "note": "Serialization and identifiers hold for every object. Parsing back holds for fewer than 253 outputs or without JoinSplits, and for inputs and outputs the parser can read (C24); beyond that the parser fails, as proved. The digest is that of ZIP 143 for ALL and SINGLE, and for NONE with ANYONECANPAY; NONE alone hashes the sequence numbers (refuted) and SINGLE beyond the outputs is an error (refuted)."
  },
  {
   "property": "C43",
   "status": "partial",
   "theorems": [
    "sapling_accepts",
    "sapling_format_ok",
    "sapling_roundtrip_partial",
    "sapling_many_outputs",
    "sapling_roundtrip_refuted",
    "sapling_sighash_partial",
    "sapling_joinsplit_sighash_partial",
    "zip_sighash_refused",
    "sapling_none",
    "zip_single_refuted"
   ],
   "note": "As C42, with ZIP 243 and shielded parts: fewer than 253 outputs, or neither JoinSplits nor shielded parts."
  },
  {
   "property": "C44",
   "status": "partial",
   "theorems": [
    "overwinter_anyone_refuted",
    "sapling_anyone_refuted",
    "zcash_digests_refuted"
   ],
   "note": "False: both methods drop the flag. Proved: they return the digest without ANYONECANPAY whatever the flag, which differs from the requested one unless two named messages collide."
  },
  {
   "property": "C45",
   "status": "proved",
   "theorems": [
    "sprout_proof_accepts",
    "sapling_proof_accepts",
    "sprout_joinsplit_accepts",
    "sapling_joinsplit_accepts",
    "spend_accepts",
    "shielded_output_accepts",
    "sprout_proof_roundtrip",
    "sapling_proof_roundtrip",
    "sprout_joinsplit_roundtrip",
    "sapling_joinsplit_roundtrip",
    "spend_roundtrip",
    "shielded_output_roundtrip",
    "sprout_proof_decodes",
    "sapling_proof_decodes",
    "sprout_joinsplit_decodes",
    "sapling_joinsplit_decodes",
    "spend_decodes",
    "shielded_output_decodes",
    "shielded_parts_errors"
   ],
   "note": "Constructors accept exactly the right widths; serializations are the fields in order and parse back to the same object; parsers accept only encodings."
  },
  {
   "property": "C46",
   "status": "partial",
   "theorems": [
    "sprout_accepts",
    "sprout_format_ok",
    "sprout_roundtrip_partial",
    "sprout_version1",
    "sprout_reads_version2",
    "sprout_roundtrip_refuted"
   ],
   "note": "Serialization holds for both versions, parsing back for version 2. Version 1 is false: from_bytes raises TypeError on every version 1 transaction."
  },
  {
   "property": "C47",
   "status": "partial",
   "theorems": [
    "decred_accepts",
    "decred_exists",
    "decred_elsewhere",
    "decred_format",
    "decred_format_injective",
    "decred_serializations",
    "decred_witness_hashes",
    "decred_id_binds",
    "decred_id_ignores",
    "decred_parse_refuted",
    "decred_parse_outpoint",
    "decred_parse_input",
    "decred_parse_input_short",
    "decred_parse_output_partial",
    "decred_digest_exact",
    "decred_none",
    "decred_digest_partial",
    "decred_digest_refuted",
    "decred_digest_binds",
    "decred_digest_ignores"
   ],
   "note": "Serialization and identifiers hold as stated. Parsing of transactions and witnesses is not implemented in the library (decred_parse_refuted). Digests are Decred's for ALL, and for SINGLE on the last input; with ANYONECANPAY and several inputs, or SINGLE on another input, they are provably different (decred_digest_refuted); decred_digest_exact says what they are. Closed under the global context."
  },
  {
   "property": "C48",
   "status": "partial",
   "theorems": [
    "is_push_only_partial",
    "is_push_only_exact",
    "is_push_only_refuted",
    "standard_template",
    "standard_multisig_output",
    "standard_pubkey_refuted",
    "standard_null_data_refuted",
    "standard_multisig_refuted",
    "standard_payment_partial",
    "not_standard",
    "dust_exact",
    "several_outputs_refuted",
    "check_tx_size_small_exact",
    "check_final_partial",
    "check_final_refuted",
    "check_final_cases"
   ],
   "note": "The property is false in several places: is_push_only answers True for every script it can read (exact theorem), transactions with two or more outputs are never standard, pay-to-pubkey raises ValueError, null data is never standard, OP_11 <key> OP_1 OP_CHECKMULTISIG is taken for standard, and check_final differs from IsFinalTx for equal lock times and for inputs that are all final. Proved: what is accepted (one template output, multisig up to 3 keys), what is rejected, the dust rule, and exactly when finality differs from Bitcoin (check_final_cases)."
  },
  {
   "property": "C49",
   "status": "partial",
   "theorems": [
    "make_script_sig_exact_partial",
    "make_script_sig_text_partial",
    "make_script_sig_empty_refuted",
    "script_sig_separated",
    "make_legacy_input_exact",
    "make_legacy_input_refuted"
   ],
   "note": "make_script_sig is exact for every pair of script strings; the pushes and the separation hold for redeem scripts of 1 to 1000 bytes. An empty redeem script is not pushed, and make_legacy_input appends the redeem script without a push."
  },
  {
   "property": "C50",
   "status": "proved",
   "theorems": [
    "opcode_names_serialize",
    "opcode_names_distinct",
    "opcode_names_table"
   ],
   "note": "A lone byte 77 deserializes to the empty string, which is no name."
  },
  {
   "property": "C51",
   "status": "proved",
   "theorems": [
    "hsigs_and_primary_inputs"
   ],
   "note": "For all three formats."
  },
  {
   "property": "C52",
   "status": "proved",
   "theorems": [
    "sprout_sighash",
    "sprout_sighash_no_inputs",
    "sprout_sighash_errors"
   ],
   "note": "The digest, the size limits, and that SINGLE and ANYONECANPAY always fail."
  },
  {
   "property": "C53",
   "status": "proved",
   "theorems": [
    "serialize_ends",
    "deserialize_ends",
    "parse_script_sig_total"
   ],
   "note": ""
  },
  {
   "property": "C54",
   "status": "proved",
   "theorems": [
    "make_witness_stack",
    "length_prepend_wire"
   ],
   "note": ""
  },
  {
   "property": "C55",
   "status": "partial",
   "theorems": [
    "blake_text_exact",
    "blake_text_partial",
    "blake_text_refuted",
    "text_is_utf8",
    "text_refused"
   ],
   "note": "False beyond ASCII: the length is taken before encoding, so only as many bytes are hashed as there are characters (exact theorem). Missing: nothing, the full statement is refuted."
  },
  {
   "property": "C56",
   "status": "partial",
   "theorems": [
    "blake_update_after_final_refuted"
   ],
   "note": "False: update after final is accepted and the next digest is neither refused nor that of the message. Missing: the full statement is refuted."
  },
  {
   "property": "C57",
   "status": "proved",
   "theorems": [
    "blake_sizes",
    "blake_other_sizes",
    "blake_digest_size",
    "blake_salted",
    "blake_salt_refused"
   ],
   "note": "blake_digest_size discharges, for the code's BLAKE-256, what hashes_ok assumes of h_blake256."
  },
  {
   "property": "C58",
   "status": "proved",
   "theorems": [
    "make_legacy_addresses",
    "make_addresses",
    "make_cash_addresses",
    "make_witness_addresses",
    "from_output_script_address",
    "network_parameters_unique"
   ],
   "note": "Against a separate table of network parameters (SParams.v). On Bitcoin Cash the witness functions return CashAddr text too, stated in make_cash_addresses."
  },
  {
   "property": "C59",
   "status": "partial",
   "theorems": [
    "two_networks_partial",
    "two_networks_refuted"
   ],
   "note": "False as stated: for the twelve pairs in confusable (for example monacoin_main and litecoin_main), every P2PKH address of the first is read as a P2SH address by the second. two_networks_partial proves that these are the only exceptions."
  },
  {
   "property": "C60",
   "status": "proved",
   "theorems": [
    "standard_output_exact"
   ],
   "note": "The exact behaviour, including the looseness that makes C48 false: only the last character of the first word is read as the number of signatures, so OP_0, OP_11 or data ending in a digit pass."
  },
  {
   "property": "C61",
   "status": "proved",
   "theorems": [
    "make_tx_parts",
    "make_tx_foreign"
   ],
   "note": "Sprout transactions with JoinSplits are never returned: make_tx gives SproutTx an int where it wants bytes (simple_unsigned_legacy_tx_refuted). Overwinter and Sapling ignore the version and the witnesses given."
  },
  {
   "property": "C62",
   "status": "proved",
   "theorems": [
    "iadd_appends",
    "outpoint_object",
    "txin_object",
    "txout_object",
    "witness_item_object",
    "witness_object",
    "tx_object",
    "tx_object_forever",
    "part_object_forever",
    "wtx_id_le_missing",
    "script_sig_new",
    "scripts_checked"
   ],
   "note": "Links the heap model (MHeap.v, MHeapTx.v) with the value model (MTx.v). Bytearray arguments and Decred transactions are where it fails: immutable_bytearray_refuted, immutable_decred_refuted (C20)."
  },
  {
   "property": "C63",
   "status": "partial",
   "theorems": [
    "outpoint_truncated",
    "txin_truncated",
    "txout_truncated",
    "txout_truncated_refuted",
    "tx_truncated_partial",
    "tx_truncated",
    "tx_truncated_result",
    "tx_truncated_refuted",
    "tx_truncated_long",
    "tx_truncated_long_result"
   ],
   "note": "False as stated. Proved: every cut of an outpoint, of an input and of a transaction without witness data is refused. Refuted: an output cut inside its script is accepted with a shorter script (exactly the prefixes of 9 bytes or more, txout_truncated); every transaction with witnesses that is cut four bytes into its witness data is accepted as a transaction without witnesses whose lock time is those four bytes (tx_truncated_refuted). tx_truncated shows that this is the only cut that is accepted when stacks and items are shorter than 65536. tx_truncated_long shows that below 2^32 the only others are those that leave fewer than 253 bytes of a last item of 65536 bytes or more, taken for a transaction with a shorter item (see C86)."
  },
  {
   "property": "C64",
   "status": "proved",
   "theorems": [
    "p2pkh_output_spent",
    "p2pkh_input_spends",
    "p2wpkh_output_spent",
    "p2wpkh_input_spends",
    "p2sh_output_spent",
    "p2sh_input_spends",
    "p2sh_large_script_unspendable",
    "p2wsh_output_spent",
    "p2wsh_input_spends",
    "p2sh_program_spends",
    "p2sh_p2wpkh_spends",
    "p2sh_p2wsh_spends",
    "op_return_output_unspendable"
   ],
   "note": "The interpreter is specified in SInterp.v after Bitcoin Core. Signature verdicts and the opcodes that no template uses are parameters. The library also builds P2SH outputs and script sigs for redeem scripts of 521 to 1000 bytes, which nobody can spend (p2sh_large_script_unspendable)."
  },
  {
   "property": "C65",
   "status": "partial",
   "theorems": [
    "msig_two_two_run",
    "msig_two_two_spends",
    "htlc_run",
    "htlc_output_spent",
    "htlc_execute_spends",
    "htlc_refund_spends",
    "htlc_refund_after",
    "htlc_stack_templates_refuted",
    "p2pkh_script_pubkey_partial",
    "p2pkh_templates_spend",
    "p2pkh_script_pubkey_refuted",
    "p2sh_script_pubkey_exact",
    "p2w_partial",
    "p2w_refuted"
   ],
   "note": "False as stated for four templates. Refuted: the stack templates of the hash time lock use OP_TRUE and OP_FALSE, which serialize refuses (sapling_htlc_example.py has OP_1 and OP_0, which work); p2pkh_script_pubkey filled in with a key, as its comment says, cannot be spent by anybody; p2w filled in with a length-prefixed script, as its comment says, can be spent by anybody. Proved: the two-of-two and hash time lock scripts on every stack, and the other templates when they are filled in with hashes."
  },
  {
   "property": "C66",
   "status": "partial",
   "theorems": [
    "digest_is_checked_partial",
    "witness_verdict",
    "forked_verdict",
    "legacy_verdict_partial",
    "p2pkh_signed_partial",
    "p2wpkh_signed",
    "p2sh_p2wpkh_signed",
    "p2wsh_signed",
    "msig_two_two_signed_partial",
    "p2pkh_transaction_accepted",
    "p2wpkh_transaction_accepted",
    "simple_tx_kinds",
    "documented_byte_refuted",
    "no_witness_refuted",
    "single_digest_refuted",
    "mixed_refuted"
   ],
   "note": "False as stated. Refuted: a P2PKH input in a transaction with witnesses gets the wrong kind of digest; SINGLE digests of inputs other than the last are wrong without a fork id; with a fork id the documented hash type bytes are refused (bit 6 is missing). Proved without a bound: transactions whose inputs all spend P2PKH outputs, or all P2WPKH outputs, are accepted, and for the other kinds of output the network's verdict is that of running the script with the library's digests. Original digests of scripts above 1650 bytes are outside (see C27)."
  },
  {
   "property": "C67",
   "status": "partial",
   "theorems": [
    "paid_to_key",
    "paid_to_script",
    "paid_to_witness_key_partial",
    "paid_to_witness_script_partial",
    "paid_to_witness_refuted",
    "pay_and_spend",
    "pay_and_spend_witness"
   ],
   "note": "Proved for P2PKH and P2SH addresses, and for the whole sequence from payment to accepted transaction. Missing for witness addresses: those that are also Base58Check texts by accident, to which simple.output refuses to pay (refuted with a real one, see C13)."
  },
  {
   "property": "C68",
   "status": "partial",
   "theorems": [
    "overwinter_digest_is_checked_partial",
    "sapling_digest_is_checked_partial",
    "sprout_digest_is_checked_partial",
    "overwinter_p2pkh_signed_partial",
    "sapling_p2pkh_signed_partial",
    "sprout_p2pkh_signed_partial",
    "overwinter_transaction_accepted",
    "sapling_transaction_accepted",
    "sprout_transaction_accepted",
    "overwinter_anyone_signed_refuted",
    "sapling_anyone_signed_refuted"
   ],
   "note": "False as stated. Refuted: sighash_all and sighash_single drop the ANYONECANPAY flag, so signatures with that flag are refused unless two digests coincide; NONE without ANYONECANPAY has the wrong digest (see C42, C43). Proved for the other hash types through sighash, for any number of inputs: the signed transaction is accepted, and an input exactly with the right key and a valid signature. For Sprout only ALL exists."
  },
  {
   "property": "C69",
   "status": "proved",
   "theorems": [
    "VarInt_reads_exactly",
    "VarInt_with_length",
    "VarInt_short_length"
   ],
   "note": "Together with VarInt_empty_input (C05) this is from_bytes on every byte string."
  },
  {
   "property": "C70",
   "status": "proved",
   "theorems": [
    "overwinter_truncated",
    "overwinter_truncated_result",
    "sapling_truncated",
    "sprout_truncated",
    "sprout_truncated_result",
    "zcash_truncated_refuted"
   ],
   "note": "Exact: accepted if and only if. Finding: OverwinterTx.from_bytes takes bytes that end behind the expiry height for a transaction without JoinSplits, and SproutTx.from_bytes accepts a missing signature (zcash_truncated_refuted: truncation is not always refused)."
  },
  {
   "property": "C71",
   "status": "partial",
   "theorems": [
    "decred_p2pkh_output_spent",
    "decred_p2sh_output_spent",
    "decred_digest_is_checked_partial",
    "decred_p2pkh_signed_partial",
    "decred_p2pkh_signed_refuted",
    "decred_transaction_accepted"
   ],
   "note": "False as stated. Refuted: with ANYONECANPAY and several inputs, and with SINGLE on an input that is not the last, the digest is wrong (C47) and the network rejects the signature, unless BLAKE-256 has a collision among six named messages. Proved for all other cases, for any number of inputs: the signed transaction is accepted and keeps its id, and an input exactly with the right key, a valid signature and the right value and place of the output spent. NONE is not implemented."
  },
  {
   "property": "C72",
   "status": "partial",
   "theorems": [
    "decred_tx_forever_partial",
    "decred_tx_tuples_forever",
    "decred_tx_forever_refuted"
   ],
   "note": "False in the code: DecredTx keeps the caller's list objects (decred.py:253-258; the other classes make tuples), so that an append to the list afterwards changes the inputs, prefix() and copy() but neither the bytes nor the id (refuted with a witness). True for tuples, and as long as the three lists are not changed. The exact behaviour is C73."
  },
  {
   "property": "C73",
   "status": "proved",
   "theorems": [
    "decred_outpoint_object",
    "decred_txin_object",
    "decred_txout_object",
    "decred_witness_object",
    "decred_part_forever",
    "decred_tx_object",
    "decred_tx_shell_forever",
    "decred_tx_methods",
    "decred_tx_copy",
    "dwitness_script_sig_new"
   ],
   "note": "For bytes arguments (for bytearrays see immutable_bytearray_refuted, C20). The sighash methods are in the value model only."
  },
  {
   "property": "C74",
   "status": "partial",
   "theorems": [
    "parse_hash_base58",
    "parse_hash_base58_cash",
    "parse_hash_cashaddr",
    "parse_hash_bech32_text",
    "parse_hash_total",
    "payment_hash_legacy",
    "payment_hash_witness",
    "payment_hash_partial",
    "payment_hash_refuted"
   ],
   "note": "Refuted: a bech32 address in capitals (BIP173 allows it) gives the length byte and the hash, or a ValueError where the P2PKH version is not 0; a Base58Check text with a cashaddr version is accepted by to_output_script and refused by parse_hash; witness payloads in Base58Check or cashaddr keep the length byte. The result is proved exactly for each kind of text, and payment_hash_legacy and payment_hash_witness say exactly when the two functions agree."
  },
  {
   "property": "C75",
   "status": "partial",
   "theorems": [
    "higher_witness_script",
    "higher_witness_refused_partial",
    "higher_witness_refuted"
   ],
   "note": "Refuted: on bitcoin_main and vertcoin_main a version 5 program of 19 bytes, and on feathercoin_main a version 14 program of 19 bytes, is taken for the script hash (key hash) 19 || program. higher_witness_script is exact for texts that are not Base58Check by accident."
  },
  {
   "property": "C76",
   "status": "proved",
   "theorems": [
    "sprout_zkproof_object",
    "sapling_zkproof_object",
    "sprout_joinsplit_object",
    "sapling_joinsplit_object",
    "shielded_spend_object",
    "shielded_output_object",
    "sprout_tx_object",
    "overwinter_tx_object",
    "sapling_tx_object",
    "zcash_tx_forever",
    "zcash_part_forever",
    "sprout_copy_object",
    "overwinter_copy_object",
    "sapling_copy_object",
    "zcash_fee_object"
   ],
   "note": "For bytes arguments (for bytearrays see immutable_bytearray_refuted, C20). The sighash methods are in the value model only."
  },
  {
   "property": "C77",
   "status": "proved",
   "theorems": [
    "outpoint_call",
    "txin_call",
    "txout_call",
    "item_call",
    "witness_call",
    "tx_call",
    "doutpoint_call",
    "dtxin_call",
    "dtxout_call",
    "dwitness_call",
    "dtx_call",
    "sprout_zkproof_call",
    "sapling_zkproof_call",
    "sprout_joinsplit_call",
    "sapling_joinsplit_call",
    "shielded_spend_call",
    "shielded_output_call",
    "sprout_tx_call",
    "overwinter_tx_call",
    "sapling_tx_call",
    "every_outpoint_is_a_record",
    "every_txin_is_a_record",
    "every_txout_is_a_record",
    "every_item_is_a_record",
    "every_witness_is_a_record",
    "every_tx_is_a_record",
    "every_doutpoint_is_a_record",
    "every_dtxin_is_a_record",
    "every_dtxout_is_a_record",
    "every_dwitness_is_a_record",
    "every_dtx_is_a_record",
    "every_sprout_zkproof_is_a_record",
    "every_sapling_zkproof_is_a_record",
    "every_sprout_joinsplit_is_a_record",
    "every_sapling_joinsplit_is_a_record",
    "every_shielded_spend_is_a_record",
    "every_shielded_output_is_a_record",
    "every_sprout_tx_is_a_record",
    "every_overwinter_tx_is_a_record",
    "every_sapling_tx_is_a_record",
    "script_sig_type"
   ],
   "note": "MClass.v models the constructors on values of any type; every object made by any nesting of calls is a record of the value model, so that the theorems about records hold for it. Objects are taken as they are at the time of the call; identity and mutation are C20, C62, C72, C73 and C76."
  },
  {
   "property": "C78",
   "status": "partial",
   "theorems": [
    "outpoint_exceptions_partial",
    "txout_exceptions_partial",
    "item_exceptions_partial",
    "doutpoint_exceptions_partial",
    "dtxin_exceptions_partial",
    "dtxout_exceptions_partial",
    "sprout_zkproof_exceptions_partial",
    "sapling_zkproof_exceptions_partial",
    "shielded_spend_exceptions_partial",
    "shielded_output_exceptions_partial",
    "outpoint_needs_bytes_partial",
    "txout_needs_bytes_partial",
    "outpoint_of_bytes_refuted",
    "decred_outpoint_of_bytes_refuted",
    "script_object_refuted",
    "flag_number_refuted",
    "list_none_refuted",
    "version_object_refuted",
    "binding_sig_none_refuted",
    "empty_bytes_for_a_list_refuted"
   ],
   "note": "False: TxIn and DecredTxIn take any 36 or 37 bytes for an outpoint; empty bytes or strings pass for empty lists; TypeError and AttributeError escape for several types (see C79). True of the ten constructors with fields of bytes or a proof only: they raise nothing but ValueError."
  },
  {
   "property": "C79",
   "status": "proved",
   "theorems": [
    "txin_outpoint_class",
    "le2i_of_items",
    "dtxin_outpoint_class",
    "txin_exceptions",
    "txin_script_object",
    "dwitness_exceptions",
    "witness_exceptions",
    "witness_other_exceptions",
    "tx_exceptions",
    "tx_flag_not_bytes",
    "dtx_exceptions",
    "sprout_joinsplit_exceptions",
    "sapling_joinsplit_exceptions",
    "sprout_tx_exceptions",
    "overwinter_tx_exceptions",
    "sapling_tx_exceptions",
    "witnesses_without_flag"
   ],
   "note": "Exact companion of C78."
  },
  {
   "property": "C80",
   "status": "partial",
   "theorems": [
    "digest_index_partial",
    "single_output_index_partial",
    "overwinter_index_partial",
    "sapling_index_partial",
    "sprout_index_partial",
    "decred_index_partial",
    "decred_single_index_partial",
    "digest_negative_refuted",
    "decred_witness_index_refuted",
    "single_negative_refuted"
   ],
   "note": "False: every class accepts negative indices, and Decred counts witnesses instead of inputs. Proved: indices below -n and from n on never give a digest. Exact companion: C81."
  },
  {
   "property": "C81",
   "status": "proved",
   "theorems": [
    "all_index",
    "single_index",
    "overwinter_index",
    "sapling_index",
    "overwinter_single_index",
    "sapling_single_index",
    "overwinter_joinsplit_index",
    "sapling_joinsplit_index",
    "zcash_single_needs_output",
    "sprout_index",
    "sprout_no_inputs_index",
    "decred_index",
    "decred_single_index"
   ],
   "note": "Exact companion of C80. Decred SINGLE: for as many outputs and witnesses as inputs."
  },
  {
   "property": "C82",
   "status": "proved",
   "theorems": [
    "standard_reading_total",
    "standard_output_total",
    "is_op_return_total",
    "check_is_standard_total",
    "check_is_standard_tx_total"
   ],
   "note": "Exact companion of C48 and C60."
  },
  {
   "property": "C83",
   "status": "proved",
   "theorems": [
    "words_total",
    "serialize_accepts",
    "serialize_raises",
    "hex_serialize_exact",
    "hex_deserialize_exact",
    "hex_spelling_once",
    "serialize_networks"
   ],
   "note": "Exact companion of C17."
  },
  {
   "property": "C84",
   "status": "proved",
   "theorems": [
    "i2le_script_total",
    "i2le_script_read"
   ],
   "note": "Exact companion of C02."
  },
  {
   "property": "C85",
   "status": "proved",
   "theorems": [
    "zcash_requests",
    "overwinter_binds",
    "sapling_binds",
    "overwinter_ignores",
    "sapling_ignores",
    "zcash_eras",
    "zcash_parsers_disjoint",
    "sprout_binds",
    "sprout_ignores"
   ],
   "note": "For NONE the code also covers the sequence numbers, which the ZIPs do not (C42, C43); the statement says what the code does."
  },
  {
   "property": "C86",
   "status": "proved",
   "theorems": [
    "tx_truncated_long",
    "tx_truncated_long_result",
    "tx_truncated_result"
   ],
   "note": "Both directions and the result of every accepted cut."
  },
  {
   "property": "C87",
   "status": "proved",
   "theorems": [
    "tx_parsed",
    "tx_reparse",
    "tx_reparse_readable",
    "tx_reparse_unreadable",
    "txin_reparse",
    "tx_reparse_refuted"
   ],
   "note": "Full equality of objects, for every accepted byte string. The last theorem is a case of the exception on upgraded Zcash networks that the statement names."
  },
  {
   "property": "C88",
   "status": "proved",
   "theorems": [
    "overwinter_reparse",
    "sapling_reparse",
    "sprout_reparse",
    "overwinter_reparse_refuted",
    "sapling_reparse_refuted"
   ],
   "note": "Full equality of objects for every accepted byte string, and the exact condition. The last two are accepted byte strings whose object has bytes that are refused, as the statement says."
  },
  {
   "property": "C89",
   "status": "partial",
   "theorems": [
    "sapling_example_refuted",
    "sapling_example_repaired_partial",
    "sapling_tx_parsing_refuted",
    "op_return_refuted",
    "op_return_digest_partial",
    "op_return_spend_refuted",
    "op_return_digest_refuted",
    "op_return_signed",
    "htlc_example_refuted",
    "htlc_example_repaired_partial",
    "htlc_example_timeout_refuted"
   ],
   "note": "False: none of the programs reaches its end, whatever its constants are. sapling_example.py stops with TypeError at simple.unsigned_legacy_tx; with empty lists for the shielded parts it prints a transaction that is accepted (sapling_example_repaired_partial). sapling_tx_parsing.py stops with IndexError or, if the transaction has shielded outputs and JoinSplits, with ValueError at copy. p2pkh_op_return.py stops with AttributeError (simple.p2pkh_input does not exist); the transaction and the digest up to there are proved exactly, no helper whatsoever would make the result spend the sender's segwit output, and the digest is not the one for the sender's P2PKH output either unless two named messages collide. sapling_htlc_example.py stops with AttributeError (simple.empty_outpoint, simple.p2sh_input); with these put together from tx_builder.py both inputs do what the comments say, but the file's timeout is a negative number, so its refund path can never be used. prep_tx_for_signing.py is not valid Python and is not modelled."
  },
  {
   "property": "C90",
   "status": "proved",
   "theorems": [
    "script_sig_read",
    "script_sig_total",
    "script_sig_survives",
    "input_read_exact",
    "input_read_itself",
    "transaction_read_itself",
    "parsable_exact"
   ],
   "note": "Both directions; the condition of C25 is shown to imply this exact one. Examples: a scriptSig that is shortened, one whose incomplete push is completed, one that survives because of a push of 1001 bytes, and a transaction with a witness that meets all hypotheses."
  },
  {
   "property": "C91",
   "status": "proved",
   "theorems": [
    "overwinter_read_itself",
    "sapling_read_itself",
    "sprout_read_itself",
    "overwinter_read_itself_rest",
    "sapling_read_itself_rest",
    "parsable_parts_exact"
   ],
   "note": "Both directions; the condition of C42, C43 and C46 is shown to imply this exact one. Examples: transactions of the three formats with JoinSplits or shielded parts that are read as themselves, and an Overwinter transaction with one output that is not, because of its scriptSig."
  },
  {
   "property": "C92",
   "status": "proved",
   "theorems": [
    "make_witness_input_exact",
    "make_legacy_input_foreign",
    "make_legacy_input_decred",
    "make_legacy_input_exact",
    "make_decred_input_exact",
    "make_decred_witness_exact",
    "make_tx_decred_exact",
    "make_tx_decred_numbers",
    "make_output_exact"
   ],
   "note": "The exact result for every argument. make_tx on Decred wraps its witness argument in a list, so only a transaction with one witness object can be made (make_tx_parts, make_tx_foreign under C61)."
  },
  {
   "property": "C93",
   "status": "proved",
   "theorems": [
    "bytedata_index",
    "bytedata_slice",
    "bytedata_find",
    "bytedata_find_object",
    "bytedata_hex",
    "bytedata_from_hex",
    "tx_from_hex",
    "hex_text_one",
    "hex_text_of_bytes",
    "bytedata_repr_literal",
    "bytedata_repr_printable",
    "bytedata_repr_injective",
    "bytedata_format_empty",
    "bytedata_build",
    "bytedata_build_refuses",
    "txin_is_p2sh"
   ],
   "note": "repr is modelled for bytes and bytearray contents as CPython prints them."
  },
  {
   "property": "C94",
   "status": "partial",
   "theorems": [
    "varint_copy_exact",
    "varint_copy_refuted"
   ],
   "note": "False as stated: the copy has the same number, but in the shortest form, so the copy of a VarInt that was read from a longer form has other bytes (refuted). varint_copy_exact gives the copy of every VarInt; it is equal exactly when the original is in the shortest form."
  },
  {
   "property": "C95",
   "status": "partial",
   "theorems": [
    "header_required",
    "zcash_formats_disjoint",
    "sprout_read_as_bitcoin",
    "sprout_refused_as_bitcoin",
    "bitcoin_not_sprout",
    "overwinter_read_as_bitcoin",
    "sapling_read_as_bitcoin",
    "sprout_object_as_bitcoin",
    "sprout_as_bitcoin_refuted",
    "overwinter_as_bitcoin_refuted",
    "sapling_as_bitcoin_refuted",
    "segwit_as_sprout_refuted"
   ],
   "note": "False as stated. True part: the three Zcash parsers insist on their own first bytes, so no byte string is accepted by two of them; a Bitcoin transaction in the original format is never read as Sprout. Refuted: Tx.from_bytes reads every Sprout transaction with inputs and outputs as a Bitcoin transaction and drops its JoinSplits (exactly what it reads is proved); there are byte strings that are an Overwinter (or Sapling) transaction of one input and at the same time a Bitcoin transaction of 112 (or 133) inputs, each read as itself by its own parser; all such strings have at least 4611 (5472) bytes. A segwit transaction may be read as a Sprout transaction without inputs."
  },
  {
   "property": "C96",
   "status": "proved",
   "theorems": [
    "tx_made_elsewhere",
    "tx_read_elsewhere",
    "tx_lengths_matter",
    "tx_digest_elsewhere",
    "no_replay_refuted",
    "zcash_elsewhere",
    "decred_elsewhere_same",
    "replay_protection_segwit",
    "replay_protection_legacy",
    "replay_protection_forks"
   ],
   "note": "tx_made_elsewhere, tx_read_elsewhere and tx_digest_elsewhere: two networks with the same hash function, rule for lengths and fork id give equal results, exceptions included; zcash_elsewhere: the networks of one Zcash era; decred_elsewhere_same: Decred's networks. What follows, against the expectation that test networks and other coins are kept apart (no_replay_refuted): every network that is neither Decred nor upgraded Zcash nor has a fork id reads every byte string as Bitcoin does and returns Bitcoin's digest for every request; there are 54 of them.  That the differences count: tx_lengths_matter gives bytes that upgraded Zcash refuses and every other network reads; by the replay_protection theorems of C30 equal digests on networks with different fork ids are a collision of named messages."
  },
  {
   "property": "C97",
   "status": "proved",
   "theorems": [
    "tx_digest_total",
    "overwinter_digest_total",
    "sapling_digest_total",
    "sprout_digest_total",
    "decred_digest_total"
   ],
   "note": "Equalities without side conditions on the request: the specifications exact_digest (SDigest.v), exact_zip143, exact_zip243, exact_sprout (SZDigest.v) and exact_ddigest (SDDigest.v) are stated over the fields of the transaction and use none of the model's digest functions. Scripts are byte strings (all_bytes) where their length prefix is read. The theorems of C21 to C31 compare these digests with the standards on the requests the standards define; C97 says what happens on all others."
  },
  {
   "property": "C98",
   "status": "proved",
   "theorems": [
    "bech32_detects_burst",
    "bech32_burst_sharp",
    "cashaddr_detects_burst"
   ],
   "note": "No bound on the length of the cashaddr payload. bech32_burst_sharp shows two accepted texts that differ within seven characters."
  },
  {
   "property": "C99",
   "status": "partial",
   "theorems": [
    "segwit_lengths",
    "segwit_added_or_lost_partial",
    "segwit_later_versions_refuted",
    "cashaddr_added_q",
    "cashaddr_lengths",
    "cashaddr_paid_lengths",
    "cashaddr_added_character_refuted",
    "cashaddr_added_two_refuted"
   ],
   "note": "True for witness version 0 (the only version that is paid to) while fewer than 20 characters are added or lost. False for later witness versions, where a q may be inserted before a last p. False for cashaddr: decode drops the checksum as six bytes of the regrouped text instead of eight symbols and checks neither padding nor length, so 42 and 43 characters both give 21 bytes. cashaddr_added_character_refuted shows a Bitcoin Cash address that with one more character pays to a different key hash, cashaddr_added_two_refuted one that with two more characters pays to a witness program on a network without segregated witness. cashaddr_lengths, cashaddr_paid_lengths and cashaddr_added_q give the exact lengths and the general form of the second finding."
  }
 ]
}