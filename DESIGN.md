# Formal model of riemann: design

Target: `/repo/riemann` (python, pinned commit). Model and proofs: Coq 8.16.1, in `rocq/theories`.

## 1. How the code is modelled

* **Shallow, executable Gallina**, one definition per Python function, same branch order, each with a
  comment citing file and lines.
* **Bytes** (`bytes`, `bytearray`, and the `_bytes` of a `ByteData`): `list Z`. Where it matters that every
  element is in 0..255 the theorem says so (`is_bytes`). **Strings**: `list Z` of Unicode code points.
* **Exceptions** are values: `res A := Ok a | Err e`, with the Python class that is raised
  (`ValueError`, `TypeError`, `IndexError`, `KeyError`, `OverflowError`, `NotImplementedError`,
  `AttributeError`). Messages are not modelled.
* **Python indexing and slicing** (negative indices, clamping) are defined once in `Py.v` and used everywhere.
* **Loops** over input are structural recursion or recursion on fuel. Fuel exhaustion is a separate
  error value `EFuel`; theorems show it is never returned (C35).
* **Objects**: immutable `ByteData` subclasses are records holding the attributes and the bytes set by
  the constructor. Constructors are functions into `res`. "t is an object of class X" is expressed as
  "the constructor of X applied to t's attributes returns t". Mutability itself (C20) is modelled as a small
  state machine for `ByteData` objects.
* **The selected network** (`riemann.network`) is an explicit argument `net`; `select_network` is a
  state machine over it (C36). All 72 networks are a table generated by hand from `networks.py`.
* **hashlib** (sha256, ripemd160, blake2b) is outside the repository: functions of the model take a
  record `H : hashes` of arbitrary functions; theorems hold for every record, needing at most the
  digest lengths (`hashes_ok`). Concrete SHA-256 / RIPEMD-160 / BLAKE2b instances written in Gallina
  are used to run the model on the repository's own test vectors and to show hypotheses satisfiable.
  `riemann/blake256.py` is repository code and is modelled concretely.
* "Commits to" statements never assume an injective hash: they conclude "fields equal, or here are two
  different strings with the same digest".

## 2. Layout of `rocq/theories`

* `Py.v` — Python values used by the model (integers, slices, string methods, exceptions).
* `M*.v` — the model, no proofs. One file per Python module:
  `MUtils` (utils.py), `MShared`, `MTx`, `MZcash`, `MDecred`, `MBuilder` (tx/*.py and simple.py), `MBase58`, `MBech32`,
  `MCashaddr`, `MAddr` (encoding/*.py), `MScript` (script/*.py), `MNet` (networks.py and `select_network`), `MStandard` (networks/standard.py),
  `MBlake` (blake256.py), `MExamples` (script/examples.py), `MMember` (the operators that Python derives from the methods of `ByteData`), `MPrograms` (the programs in riemann/examples, as functions of their constants; a function that simple.py does not have is `None`, and using it raises AttributeError). `MHeap`, `MHeapTx`, `MHeapDecred` and `MHeapZcash` model the same objects a second time, with identity and mutation (`MHeapDel`: and `del`); `MClass` a third time, with arguments of any type.
* `S*.v` — specifications, written from the documents they name (BIP141, 143, 144, 173; ZIP 143 and
  243; the cashaddr specification; Decred's serialization; the BLAKE submission; FIPS 180-4; Bitcoin Core's policy), not from the model.
* `L*.v` — lemmas.
* `P*.v` — the property theorems: theorem statements closed by lemmas, examples showing that the hypotheses are met,
  and `Print Assumptions` beneath each theorem.
* `T*.v` — the model run on the repository's own test data with concrete SHA-256, RIPEMD-160 and BLAKE2b (`SSha.v`). These are
  tests of the model, not proofs about the code; they are what shows that the reading of the Python source is right.

`MANIFEST.json` names the theorems per property. Suffixes: `_partial` for a theorem weaker than the property's statement (the comment
above it says what is missing); `_refuted` for a proof that the statement fails, with the witness or the class of inputs on which it does.
A property whose statement is false on some inputs stays "partial": its statement is the intent, the theorems say where it holds
and where it does not. Properties whose whole statement is a theorem are "proved".

## 3. Trusted base

* Coq 8.16.1's kernel (and the `vm_compute` machine, which the examples and the finite checks use).
* The reading of the Python source: the model is written by hand, and is neither extracted from the code nor run against it.
  The `T*.v` files compare the model with the expected values of the repository's tests.
* The specifications in `S*.v`.
* The axioms of section 6: none.

## 4. Plan per property

| id | what is modelled | how it is proved |
|----|------------------|------------------|
| C01 | `int.to_bytes/from_bytes` and the utils wrappers | induction on length, div/mod arithmetic |
| C02 | `i2le_script` loop over lengths with signed `to_bytes` | positive numbers: equality with a Script-number spec; negative numbers refuted |
| C03–C05 | `VarInt.__init__/from_bytes` | case analysis on widths; C04 on overwinter/sapling and C05 refuted with witnesses, the largest true parts proved |
| C06–C07 | base58 `to_long/from_long/encode/decode` | number-system uniqueness, leading zeros; checksum symbolic |
| C08–C10 | bech32 | polymod as a linear map; regrouping of bits as number-system conversion; finite checks for distance |
| C11–C12 | cashaddr | same machinery; four changes by the roots of the generator in the field with 2^20 elements (order 1025, Hartmann–Tzeng), not by search; five within 112 characters by comparing all scaled sums of two places; words of residue zero show where detection ends; the length-mod-5 defect refuted |
| C13–C16 | addresses | on top of C06–C12, finite check over the network table |
| C17–C19, C50 | script serialization, opcode tables | induction on tokens; finite check on opcode tables; refutations for non-minimal pushes and truncation |
| C20–C21 | ByteData state machine | invariant over histories |
| C22–C26 | Tx parts | serialization spec, prefix-decodability lemmas |
| C27–C32 | sighash | equality with separately written BIP specs; refutations |
| C33–C34 | copy, fee | direct |
| C35 | fuel | measure argument |
| C36 | network selection | invariant over histories plus finite check |
| C37–C38 | blake256 | streaming invariant relating buffer and counter to the message consumed so far |
| C39–C41, C49 | tx_builder, simple | direct, on top of script and tx lemmas |
| C42–C46 | zcash | serialization/parse and sighash specs; refutations |
| C47 | decred | same |
| C48, C60 | standard.py | refutations and the true part; the exact set of accepted scripts |
| C51–C57 | further exact behaviour of the parts above | see `properties.jsonl` |
| C58–C59 | address parameters of each network | table of published values, finite check over pairs of networks |
| C61 | `make_tx` and the classes of its arguments | case analysis over families |
| C62 | objects in a heap against the value model | simulation: each heap constructor builds an object that represents the record |
| C63 | every proper prefix of a serialization | what a successful parse needs from its input; loops that run off the end |
| C64 | output scripts, script sigs and witnesses under a Script interpreter (SInterp.v) | symbolic runs of the templates on an arbitrary stack |
| C65 | script/examples.py | same; refutations for the templates whose comments ask for the wrong thing |
| C66 | signing: digests, `copy`, script sigs and witnesses against the network's verdict (SSign.v) | the network's digest of the signed transaction equals the library's digest of the unsigned one; then C64 |
| C67 | `simple.output` for an address, `simple.outpoint`, `unsigned_input`, `unsigned_legacy_tx`, `unsigned_witness_tx` (SPay.v) | C13/C16 for the script of the address, C64 for who spends it, C66 for the signed transaction; the outpoint by C21 |
| C68 | `sighash` of Overwinter and Sapling, `sighash_all`/`sighash_single` of the three kinds, `copy` (SZSign.v: the interpreter of SInterp.v with the digests of ZIP 143, ZIP 243 and Sprout; proofs and JoinSplit signatures are not looked at) | C42/C43 for the digests, which do not depend on script sigs; C64 for the interpreter; induction over the inputs; a world in which only the library's digest is signed for the refutations |
| C69 | `VarInt`, `VarInt.from_bytes` on arbitrary strings (LVarRead.v) | case analysis over the first byte; the test for zero bytes at the end of a slice, for slices of every length |
| C70 | `from_bytes` of the three Zcash classes on every proper prefix of a serialization (LZTrunc.v) | a vector is read completely or at most one byte is left behind it; the widths checked by the constructors exclude the rest |
| C71 | `sighash_all`/`sighash_single` and `copy` of Decred transactions, P2PKH and P2SH scripts on Decred (SDSign.v: the interpreter of SInterp.v with BLAKE-256 in the place of SHA-256 and Decred's digests; the witness has to repeat the value and place of the output spent; tickets and the stake tree are not modelled) | C47 for the digests, which do not depend on witnesses; C64 for the interpreter; the refutation supposes that a signature is valid for one digest only |
| C72 | `DecredTx` objects in the heap, any later sequence of operations (MHeapDecred.v, SHeapDecred.v) | refuted for lists: the object refers to the caller's lists; true for tuples |
| C73 | constructors and methods of the Decred classes in the heap (MHeapDecred.v) | as C62; the attributes stay (`preserves`), the lists are read when a method is called |
| C74 | `parse_hash` and `to_output_script`, every string, every network (MAddr.v, SParseHash.v) | refuted (capitals, foreign version bytes); exact result by kind of text |
| C75 | `to_output_script` on bech32 texts of version 1–16 (MAddr.v, SParseHash.v) | refuted on three networks; exact result |
| C76 | the Zcash classes in the heap, any later sequence of operations (MHeapZcash.v, SHeapZcash.v) | as C62: each heap constructor builds an object that represents the record |
| C77 | the constructors of all transaction classes on values of any type (MClass.v: `isinstance`, `len`, iteration, `+`, `int.from_bytes`); the values a program can make (SClass.v: `made`) | induction over `made`: the checks leave only arguments that a record has |
| C78 | the same constructors | refuted (bytes for an outpoint, ByteData scripts, number as flag, None for lists); ten constructors raise ValueError only |
| C79 | the same constructors | every step of a constructor fails with ValueError or with the exception of an operation on a type |
| C80 | digest methods, any integer as index | false for negative indices and for Decred witnesses; outside -n..n-1 no digest |
| C81 | the same | negative indices rewritten to the ones they stand for, step by step through each method |
| C82 | standard.py on every script | a relation from the words of the script to the answer, shown total, single-valued and followed by the code |
| C83 | serialize, hex_serialize, hex_deserialize on every text | the words of a text are unique; each word by cases on the name table and the hexadecimal grammar, then induction on the words |
| C84 | i2le_script on every integer | range of two's complement of k bytes, least k by monotonicity of powers of 256 |
| C85 | Zcash digests: binding and non-interference | each message is cut at fixed widths, equal hashes give equal lists or a named collision; descriptions of fixed width are injective |
| C86 | every cut of every transaction below 2^32 sizes | a cut item or count leaves at most four bytes unread, and four only in one shape; the next object would eat one |
| C87 | every accepted byte string, well-formed or not | every accepted object is an object of the constructor; the words of a readable script are those of standard elements, whose wires are split the same way and are never longer |
| C88 | every byte string accepted by one of the three Zcash parsers | the parts that were read are objects; the parser on the bytes of an object is known from C43-C46 once the inputs are known to be read as themselves; the first unreadable script sig raises |
| C89 | the programs in riemann/examples | refutations by evaluation up to the first failing statement; what the repaired programs print follows from C41, C66, C68, C65 |
| C90 | every scriptSig; every well-formed input and transaction | all cases of the scriptSig parser in terms of `reads_as` and `shown` of C82; an object read from its own wire has its length, so the loops stay in step, and every condition is read off from the step at which it is needed |
| C91 | every object of the three Zcash formats | the loops over inputs and outputs as in C90; the rest from the round trips and refusals behind C42, C43 and C46, which are proved for any list of inputs that is read back; an empty Sprout signature takes the bytes behind it |
| C92 | make_legacy_input, make_witness_input, make_decred_input, make_decred_witness, make_tx on Decred | case analysis on the network and the class of the outpoint; the constructor rules behind C23 and C47 |
| C93 | ByteData read as bytes, text and hexadecimal (MByteData.v) | induction on byte strings and texts; repr by decoding it |
| C94 | VarInt.copy | refuted; exact result from the constructor rules behind C03 |
| C95 | every byte string given to the parsers of Tx, SproutTx, OverwinterTx and SaplingTx | headers by unfolding; Tx and SproutTx make the same steps up to the lock time; a byte of the group id is a count of inputs, each of 41 bytes or more; refutations by constructing transactions and C90, C91 for their parsing |
| C96 | pairs of networks, on every byte string and every request | every function that takes the network is shown to give equal results when the network's name answers the same questions (Decred? overwinter or sapling? era?) and the fork ids are equal; facts about the 72 networks by computation |
| C97 | the five classes' digest methods on every request | a total specification per class, with exceptions in the order the code raises them; indices are resolved to positions (`place`), the length prefix by what reading it takes off (`length_taken`); then the lemmas behind C21 to C31, generalised to separate positions in inputs, outputs and witnesses |
| C98 | changes within six (bech32) or eight (cashaddr) consecutive characters | a polynomial of degree below that of the generator, times a power of X, is divisible by the generator only if it is zero; the same step function as C10 and C12, no search |
| C99 | characters added or lost | lengths of the accepted texts follow from the spec of the decoders (C09, C12); X divides out of a code word that ends in 1, which gives the inserted zeros; partial: false for later witness versions and for cashaddr, with witnesses found by solving the linear equations outside Coq and checked by computation |
| C100 | the texts that decode to one payload | uniqueness of the check symbols (the code of C10, C12) and a bijection between the accepted values and the bits after the payload |
| C101 | addresses read and written back | each format has one text per payload (C58), and a text that is read fixes the payment (C14) |
| C102 | sizes of transactions | the wire formats are concatenations of parts of known widths, so lengths add up; the limit of 100000 is in the accepted arguments |
| C103 | first characters and lengths of addresses | the payload is between two numbers, which have the same number of Base58 digits and lead with listed ones (computed for each row of the table); leading zero bytes are counted apart |
| C104 | deleting attributes | MHeapDel adds `del` to the operations of MHeap; the cells that a value reaches stay the same in every program that deletes nothing from them |
| C105 | objects that compare equal | `equal` is the model's `==` on two objects with these bytes; the serializations of C23, C42, C43, C47 and C52 are injective, so equal bytes give equal fields, and the exact digests give equal digests; witnesses for the three ways in which equal objects differ |
| C106 | `in` and `reversed` on objects, `in` on sequences of objects | MMember models what Python derives from `__iter__`, `__eq__`, `__len__` and `__getitem__`; SMember says what `in` gives for bytes; induction over the bytes |
| C107 | the attributes of objects made of arguments of any type (MClass) | the steps of each call, then the attribute is looked up |

## 5. What is not modelled

* Exception messages, type annotations, timing, memory and recursion limits.
* Arguments of types that the annotations forbid, except where the code itself passes `None` or a list in the place of bytes, and except in
  `MHeap`/`MHeapTx`/`MHeapDecred`/`MShared` and `MClass`, where a value may be anything. In `MClass` "anything" is None, int, str, bytes,
  bytearray, list, tuple and the objects of `riemann.tx`; floats, dictionaries, generators, objects of foreign classes and subclasses are not.
* hashlib: any functions with the right digest lengths. `utils.blake2s` (utils.py:157-161), which only calls hashlib.
* `typing.overload` stubs (simple.py:21-64, tx_builder.py:470-530), the empty functions standard.py:184-201, and
  `riemann/examples/prep_tx_for_signing.py`, which is not valid Python (line 20) and uses names it does not define.
* The Script interpreter is a specification (SInterp.v), not code of the repository. It follows Bitcoin Core; signature verdicts and the opcodes
  that no template uses are parameters of a run.
* The network's verdict on a transaction (SSign.v) is a specification too. It covers Bitcoin and its forks and relatives; SZSign.v adds the
  transparent inputs of Sprout, Overwinter and Sapling transactions. SDSign.v has Decred's regular transactions. ECDSA and the digests of hash types that the library does not compute are arbitrary functions.
* Concurrency: `riemann.network` is one global, read at the time of each call. The theorems are about calls during which it does not change.
* In the value model (`MTx.v` and so on) an argument list is a value. `MHeap.v`/`MHeapTx.v`/`MHeapDecred.v`/`MHeapZcash.v` show which of this is justified (C62, C73, C76) and where it
  is not (C20: bytearray arguments; C72: Decred's lists).
* `del obj.attribute` is not guarded by `ByteData.__setattr__`, and `object.__setattr__` bypasses it. The operations of `MHeap.v` do not include these; `MHeapDel.v` adds `del` (C104). Calling `obj.__init__(...)` again is covered: every constructor begins with `super().__init__()`, which ends in the assignment `self._bytes = bytearray()` (shared.py:26-27), preceded at most by the network checks of `DecredByteData` and `ZcashByteData`; so on a constructed object it is the assignment operation of `MHeap.v`, which raises.

## 6. Assumptions

`Print Assumptions` beneath every theorem in the `P*.v` files prints "Closed under the global context": no theorem depends on an axiom,
of the standard library or otherwise.

The checker's list of axioms in the loaded libraries has seven entries, all of the standard library's `Coq.ssr.ssrunder`
(`Under_rel.Over_rel`, `Under_rel_from_rel`, `over_rel`, `over_rel_done`, `Under_rel`, `Under_relE`, `under_rel_done`). They are the
opaque interface of a tactic of ssreflect, which comes with `lia`'s library files. No theorem uses them.

There are no axioms, no section-less variables, no admitted proofs, no functors or module types, and no plugins in `rocq/theories`.

## 7. How the theorems were tested

`seeded/LOG.jsonl` has one line per deliberate fault: the definition of the model that was edited, the edit, the claim it should break, the
theorems that stopped compiling, and the theorems that were added or tightened when nothing failed. The faults are written by hand for each property and
generated (off-by-one constants, swapped comparisons, dropped checks, swapped operands) for the definitions of every `M*.v` file.
