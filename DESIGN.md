# Formal model of python-elementstx: design

The source modelled is `/repo` (Simplexum/python-elementstx at the pinned commit). It was only
read as text: nothing was executed. The model is Rocq/Coq 8.16.1, in `rocq/theories`, standard
library only.

## Trusted base

* Coq's kernel (and `vm_compute`, used for finite computations inside some proofs).
* `Print Assumptions` is run beside every theorem listed in `MANIFEST.json` (files
  `Prop*.v`). Expected answer everywhere: `Closed under the global context`. No axiom, no
  `Admitted`, no section-less `Variable`/`Hypothesis`, no functor, no module type.
* Faithfulness of the hand-written model to the Python text. Each definition cites file and lines.
* `bitcointx` (the base library) is not in the sandbox. Its behaviour, where elementstx relies on
  it, is modelled from its documented behaviour and listed in "Assumed behaviour of dependencies".
* Hash functions: parameters `H : bytes -> bytes` of the theorems, which hold for every `H`
  (with an explicit "these two hashed strings do not collide" premise where binding is claimed).
  A concrete SHA-256 in Gallina is used for test vectors only.
* libsecp256k1-zkp, hashing and key operations in blinding: a record of functions (`Crypto` in
  `BlindModel.v`), arbitrary in all theorems about control flow, framing, counts and checks. Laws about it
  are explicit premises of the theorems that need them (table below). `ToyCrypto.v` and `ToyUnblind.v`
  define a concrete toy instance that meets all of them, so the premises are consistent, and the toy is
  used for the examples beside the theorems.

| premise | file | content | used by |
|---|---|---|---|
| `SizesOk` | SpecBlind.v | documented sizes and prefixes of serialised objects | C42, C45, C48, C49, C53, C65-C68, C85-C87 |
| `RandOk` | SpecBlind.v | each random draw is 32 bytes and a valid private key | C42, C48, C85-C87 |
| `RangeProofsNonEmpty` | PropBlind.v | a signed range proof is not the empty string | C45 |
| `BlindSumLaw` | SpecBalance.v | contract of `secp256k1_pedersen_blind_generator_blind_sum` | C46, C66, C68, C77, C82, C84, C85-C87 |
| `Meaning`, `PointGroup` | SpecBalance.v | generators and commitments are linear combinations in a group | C46, C50, C66, C68, C77, C82, C84, C85-C87 |
| `CodecLaws`, `RewindLaw`, `RewindSound`, `KeyLaws`, `ZeroGen` | SpecUnblind.v | parse/serialise inverse; rewinding returns what was signed; a rewind gives an opening; Diffie-Hellman symmetric; 64 zero bytes are not a generator | C48-C50, C65, C67, C77, C82, C84, C85-C87, C68 and C76 (`CodecLaws`) |
| `SmallProofs` | BlindSer.v | proofs are below bitcointx's MAX_SIZE | C53, C65, C67, C86 |
| `VerifierLaws` | SpecNode.v | signed range proofs verify; surjection proofs survive serialisation; positive multiples of generators exist; the tally holds when the points balance | C68, C77, C82, C84, C85-C87 |
| `no_collision` | SpecSighash.v, PropIssuance.v | two given sets of hashed strings do not collide | C19, C24, C26, C41, C64 |
| `CurveLaws` | SpecCross.v | a group of odd order in which numbers not divisible by the order are invertible; a coordinate belongs to at most two points, opposite ones; bytes of points parse back | C88, C89 |
| `KnownPoint` | SpecCross.v | the coordinate r of half the generator is positive, below the order, its first byte below 128, and r + order is no coordinate; checked for secp256k1 by `C88_ex_secp` | C88, C89 |
| `FindsAddresses` | PropView.v | the payloads that bitcointx finds in scripts have the size of their kind; met by `std_find` (`std_finds`) | C90 |

## Modelling conventions

* bytes = `list Byte.byte`; Python ints = `Z`; Python str = `list Z` (code points).
* Exceptions are values: `res A := Ok a | Raise e`, one constructor of `exn` per exception class.
* Streams: a parser is `bytes -> res (A * bytes)`.
* Loops with a data-dependent count up to 2^64 recurse on binary positives: no fuel, no large nat.
* blind(): state + exception + early-return monad; the state (the mutable transaction and the index of
  the next random draw) survives exceptions and early returns as it does in Python.
* Specification side is separate (`Spec*.v`): inductive wire grammar, value-level relations, and does
  not mention the model's serializers.

## Plan per property

| id | modelled | proof idea |
|----|----------|-----------|
| C01-C04 | `CConfidentialCommitmentBase` and subclasses | big-endian arithmetic lemmas; case analysis on first byte and length |
| C05-C06, C10 | witness, issuance, output codecs | parser-combinator lemmas: each serializer emits a word of the grammar, each parser inverts it |
| C07-C09 | `CElementsTxIn` with flag bits | exact iff by case analysis on index ranges, `Z.land/lor/testbit` |
| C11-C12, C16, C17 | `CElementsTransaction` | induction over input/output/witness lists against the grammar |
| C13-C14 | deserializer | inversion lemmas of every parser: accepted value is well-formed up to normalisation |
| C15 | all parsers | generic "extension-stable and truncation-monotone" parser predicate closed under bind/repeat |
| C18-C22 | `RawElementsSignatureHash` | preimage spec as a list of fields; injectivity by length-framed concatenation |
| C23-C26, C61, C62 | `ElementsSignatureHashSchnorr`, `sighash_schnorr` | same; decision table; witnesses for the refuted claims |
| C27-C28 | `raw_iter`, `get_pegout_data`, `is_unspendable` | script grammar, case analysis |
| C64 | `RawBitcoinSignatureHash` on Elements transactions | instruction grammar for scripts; wire grammar with `for_sighash`; counter-example by shifting an issuance over the next input |
| C29-C35 | `liquid_addr.py` | convertbits against a bit-string spec; polymod = syndrome over GF(32) (linearity); BCH bound (Vandermonde over GF(1024)) for six errors; syndrome search by `vm_compute` for the version-switching case |
| C63 | `liquid_addr.py` | independent algebraic text specification (`SpecBlech32.v`): polynomial division over GF(32) |
| C36-C40 | `blech32.py`, `wallet.py` classes | class table as data; lemmas from C30/C31; size arithmetic |
| C70 | text of confidential addresses; first letters of every base58 class | base 58 and base 256 as positional numbers, uniqueness of digits; leading digits bounded by the prefix separate base58 from blech32 |
| C41 | issuance entropy/asset/token | injectivity of one 64-byte compression |
| C42-C47, C51-C54 | `blind_transaction` | invariants over the issuance and output loops in the monad |
| C48-C50 | `unblind_confidential_pair` composed with blind | `CodecLaws`, `RewindLaw`, `KeyLaws` for 48/49; C50_outcome lists every outcome as an inductive relation |
| C65 | blind, serialise, deserialise, unblind composed | C53 with C48/C49; equality up to null witnesses |
| C66 | several `blind_transaction` calls | induction over the list of calls; sums of known inputs |
| C67 | `derive_blinding_key` | byte-wise xor lemmas; injectivity of padding; C65 |
| C68 | `blind_transaction` against a node | per-input and per-output agreement of what blind() proved with what the node computes; C66 for the tally |
| C69 | the checks of `blind_transaction` | loops stop at the first item that returns; per-item agreement with `SpecFault.FaultAt` |
| C71 | library calls of blind() and unblind | two-run relation: libraries agreeing on lawful calls give equal runs (`SpecContract.v` is the calling contract) |
| C72 | integer arguments of blind() | two runs with related arguments; libraries that differ only for other parameters |
| C73 | bytearray arguments | runs that agree or stop at the first bytearray read; state-preserving prefix of blind() |
| C74 | texts of BlindingFailure | maximal digit runs of a text; decimal printing is injective; C69 |
| C75 | library memory during blind() | memory threaded through the monad; every piece restores it; simulation of the memory-free model |
| C76 | `CAsset.to_comm_secp256k1itment` | codec laws; C69 |
| C77 | `UnblindingSuccess.get_descriptor`, spending in a second transaction | composition of C48, C50, C68 |
| C78 | blind() composed with the three signature hashes, the transaction id and the node's amount check; Scope, Outside, Touched, OnlySigned in SpecSign.v | composition of C43, C45, C19-C26, C64, C16, SpecNode |
| C79 | from_instance/from_txin/... of the transaction classes, to_mutable, to_immutable, constructors, on a heap of objects (ObjModel.v); Part, Frozen, Owns, Spares in SpecObj.v | invariant of all programs: no dangling reference, immutable objects hold immutable objects; immutable cells never change |
| C80 | the assignments of blind_transaction through references (ObjModel.v) against BlindModel.v | simulation, step by step, under Owns; frame for every step of blind_transaction; counterexamples over the toy library |
| C81 | the `_repr_or_str`, `__repr__`, `__str__` methods (PrintModel.v) | every printed form can be cut off the front of a text; scripts, printed by the base library, are delimited from the right by the last comma or capital I; reading numbers and hex back (SpecPrint.v) |
| C82 | issuance functions composed with `blind_transaction` and unblinding | a reissuing input as its owner builds it (SpecReissue.v) meets the reissuance check of the node; composition with C77 |
| C83 | `DynModel.blind_dyn` | simulation: the run with type checks follows `blind_transaction` step by step or raises at a recorded place; locality of each step (one issuance field, one output) gives the state left behind |
| C84 | `BlindModel.blind_transaction` before and after appending (SpecGrow.v) | simulation of the two runs step by step (the target tables differ by null entries); induction over the parties; C77 for acceptance; counterexamples over the toy library |
| C85 | `ExampleModel.program` | inversion of the run into a record of facts (`Start`); C48, C68, C77, C78 applied to its one call of blind(); a lone output with no blinded input is skipped by the code, so the count of a strict call is wrong |
| C86 | `SwapModel.v` (`bob_offers`, `alice_signs`, `bob_signs`, `alice_broadcasts`, `find_utxo_for_fee`) | each turn inverted into facts (`AliceRun`, `bob_inv`); messages read back by C11; the run is an instance of C84 (two parties, inputs appended between); frames of blind() and of signing carry what was read to the final transaction |
| C87 | `ClaimModel.v` (`asset_amounts`, `claim_outputs`, `claim_funds_back`) | a dict never holds more entries than items set, and as many only if all keys differ; with the count of blinded outputs this gives the exact list; conservation by induction on the list; then C77 and C78 as for C86 |
| C88 | `CrossModel.v` (`make_elt_contract`, `make_btc_contract`, `reveal_script`, `recover`), `SpecCross.v` (`Accepts`, `Spends`, `Der`, `Verifies`) | parsing inverts building a script; the contracts are run symbolically, giving an exact condition on the stack; the equation of ECDSA in the group, with 2R = G and two points per coordinate, gives the exponent; strict DER and the length byte fix where R ends |
| C89 | `CrossTxModel.v` (`find_and_unblind_vout`, `create_elt_spend_tx`, `bob_claims`, `alice_reclaims`), `SpecCrossTx.v` (`Committed`, `SpendsContract`, `SignedHash`, `Checks`, `OldEnough`) | one inversion of the shared builder gives a record of all intermediate values; frame of blind() (C08), completeness and node acceptance (C68, C77), unblinding by the owner (C48), scriptSig-independence of the legacy hash (C64), then the contract's exact conditions and the recovery of C88 |
| C90 | `ViewModel.v` (`show_output`, `unblind_program`), `SpecView.v` (`Shown`, `Stops`, `Prints`) | the output of the loop as a relation that is a function; headings delimit the blocks; truth from C50, the receiver's view from C65 and the frame of blind() |
| C91 | `TxModel.v` (`deser_tx` and below), `SpecRead.v` (`body_room`, `wit_room`) | per parser: the set of its exceptions, a lower bound on the bytes read, and: a truncated text can be completed (so that the witness is not null) or is rejected after eight more bytes; all three pass through sequencing and repetition |
| C92 | `WaitModel.v` (`wait_confirm`, `wait_reveal`), `SpecWait.v` (`Grows`, `honest`, `faulty`, `FirstSpend`, `effort`) | invariant of the loop: blocks before the current one, and those up to the one last read, do not spend the contract; progress by one block for each iteration, counted in calls |
| C93 | `GameModel.v` (`play`, `play_b`), `SpecGame.v` (`First`, `NotBefore`, `HasAt`) | invariant: the positions reachable by Alice's program against any Bob as an inductive predicate of twelve cases, kept by each block; likewise for Bob's; the refutations give the other party's strategy |
| C94 | `SessionModel.v` (`participant`, the four programs), `SpecSession.v` (`Begun`, `Fulfilled`, `told`, `Fatal`) | induction on programs: what was sent and heard splits the text of the program at one place; the last wish as an invariant (set and not begun, or spent); for two processes, positions in dual lists of messages |
| C95 | `EqModel.v`, `SpecEq.v` (`SameIn`, `SameBody`, `SameWit`, `plain_body`) | injectivity of the serialisers by reading back (C05, C11, `deser_txin_W`), after a normal form of inputs that drops what is not written; induction on lists for the converse |
| C96 | `BtcModel.v` (`create_btc_spend_tx`, `alice_looks`, `alice_claims`, `bob_reclaims`), `SpecBtc.v` (`W_btx`, `BtcSigned`, `Unlocks`, `Mature`, `Valid`, `FirstLocked`, `Tells`, `SpendsAll`) | the contract is run symbolically (C88); serialisers are equivalent to wire relations; induction on the outputs and on the answers of the node; injectivity of what is hashed |
| C97 | `PrintModel.v`, `SpecEval.v` (`Calls`: constructors and the arguments they take; `Ev`, `Args`, `Arg`: the value of an expression) | derivations of `Ev` by recursion over the lists printed; for what has no value, inversion of `Ev` and the first character of each argument |
| C98 | `BlindModel.v`, `DrawProofs.v`, `BlindComplete.v` (`blind_success_draws`) | relation `loc` between the runs with two random functions (same result as long as they agree on what is drawn, and a bound on the draws), shown for each step and loop; the number of draws added to the invariant of C51; injectivity of the indices of the draws |
| C99 | `MemModel.v`, `SpecMem.v`, `MemProofs.v` | memory as a list of objects, `None` for undefined behaviour; each call yields the library's result and only appends objects (`yields`, `ext`); hence `SameInContract` holds between the library and the library seen through memory, and C71 lifts this to whole runs |
| C100 | `PropId.v` | composition of C95 (ids compare bodies), C53 (`blind_wf`), C43 (frame) and C45 (`blind_success`); a commitment is never the explicit value it replaces |
| C101 | `SpecVeil.v`, `PropVeil.v` | relation of two runs through the exact description of each (C43 frame, C45 `AllBlinded`); every field and witness of the result is determined by what the two runs share |
| C102 | `SpecExc.v`, `ExcProofs.v`, `PropExc.v` | weakest-precondition style triples with an exception postcondition, loop invariants for both phases; each refused library call is traced to the transaction |
| C103 | `SpecLive.v`, `LiveProofs.v`, `PropLive.v` | total correctness: C102's triples exclude every exception, a second kind of triple follows the counters through both loops and excludes every early return |
| C104 | `SpecDeliver.v`, `PropDeliver.v` | composition of C103 with C45, C48, C49 and C68 |
| C105 | `SpecReceiver.v`, `PropReceiver.v` | two runs: same targets, same tasks, same sum; then each blinded field is a function of the same arguments |
| C106 | `SpecSame.v`, `SameProofs.v`, `PropSame.v` | two runs in step: a relation between the states that every statement of blind() keeps |
| C107 | `SpecAsk.v`, `AskProofs.v`, `PropAsk.v` | the runs for two sets of arguments are the same function of the state, statement by statement |
| C55-C60 | small pieces | direct; histories as lists of events for C56, C58 |

Properties whose natural statement is false of the code keep the full claim in view as a
`..._refuted` theorem (with an explicit witness) next to the strongest true version.

## What is modelled

| source | model | notes |
|---|---|---|
| core/__init__.py 69-76, 221-305, 424-704, 748-887, 937-996, 1058-1143 | `TxModel.v` | every field codec, witnesses, inputs, outputs, transactions, null/explicit/commitment predicates |
| core/__init__.py 92-187; core/secp256k1.py 27-77, 201-211; elementstx/__init__.py 46-64 | `MiscModel.v` | result objects, packed arrays, library handle life cycle, aliasing of witness arguments |
| core/__init__.py 1184-1734 | `BlindModel.v` | `blind_transaction` branch by branch, with Python's partial effects on failure and exception |
| core/__init__.py 1737-1770 | `IssuanceModel.v` | entropy, asset and token ids |
| core/__init__.py 1005-1016, 1978-2117 | `UnblindModel.v` | unblinding with exact failure texts |
| core/__init__.py 572-594, 1265-1424, 1978-2117 with bytearray arguments; core/secp256k1.py 82-89, 130-145 | `ArrayModel.v` | `get_rangeproof_info`; auxiliary generators and range proof as bytes or bytearray |
| core/__init__.py 1206-1232, 1278-1283, 1586-1593, 1864-1874 | `DynModel.v` | blind() with arguments of wrong types |
| core/__init__.py 1247-1500 (texts) | `TextModel.v` | text of every BlindingFailure |
| core/__init__.py 1614-1734, 1910-1975 with the library's memory | `LifeModel.v` | allocation, use and destruction of surjection proof objects |
| core/__init__.py 313-324, 1317-1406, 1639-1680, 1780-1815, 1855-1892, 1931-1975, 2018-2110; core/secp256k1.py 78-199 | `MemModel.v` | buffers, arrays of pointers and the library's reads and writes; integers by reference are results; surjection proof objects are values (`LifeModel.v`) |
| core/__init__.py 441-459, 489-507, 550-555, 596-607, 647-664, 709-722, 821-832, 901-915, 952-971, 1023-1036 and the assignments of 1184-1734 | `ObjModel.v` | transactions as objects: references, mutable and immutable classes, copying, blind() through references, programs |
| core/__init__.py 292-309, 353-354, 382-396, 509-515, 609-615, 724-728, 790-800, 889-894, 999-1003 | `PrintModel.v` | printed forms of fields, witnesses, issuances, inputs, outputs |
| core/__init__.py 182-186 | `SpendModel.v` | `get_descriptor` |
| core/__init__.py 311-324 | `CommModel.v` | `to_comm_secp256k1itment` |
| core/script.py 46-101, 381-498 | `ScriptModel.v` | opcode table, `is_unspendable`, `get_pegout_data` |
| core/script.py 113-378 | `SighashModel.v` | segwit v0 and Schnorr signature hashes |
| core/script.py 137-143, 396-408 with bitcointx `RawBitcoinSignatureHash`, `FindAndDelete` | `LegacyModel.v` | pre-segwit signature hash; the bitcointx part from its consensus behaviour |
| core/__init__.py 2120-2135; core/script.py 383-385 | `KeyModel.v` | HMAC and key derivation |
| liquid_addr.py | `Blech32Model.v` | whole file |
| blech32.py; wallet.py 68-491 | `WalletModel.v` | class construction, parsing, conversion, sizes, prefixes (outcomes: `SpecWallet.v`) |
| bitcointx base58.py and `CCoinAddress.__new__` as used by wallet.py 189-190, 241-248, 295-351, 393-452 | `Base58Model.v` | text of base58 addresses; the confidential address class given a text |
| examples/spend-to-confidential-address.py 88-268 | `ExampleModel.v` | the program after parsing its arguments; signing and Hash160 arbitrary functions |
| examples/asset-atomic-swap.py 157-331, 350-371, 426-577, 826-911 | `SwapModel.v` | what the parties do between messages; node answers are arguments; signing, Hash160, legacy hash arbitrary functions; pipes, waiting for confirmations, VerifyScript left out |
| examples/asset-atomic-swap.py 917-983 | `ClaimModel.v` | claim_funds_back up to sendrawtransaction; the error handling of the node call left out |
| examples/confidential-cross-chain-atomic-swap.py 243-285, 435-479, 713-717, 722-771 | `CrossModel.v` | contracts, Bob's scriptSig, Alice's recovery of the key; the packages ecdsa and hashlib are a curve and an arbitrary hash; CKey and CPubKey are numbers and points |
| examples/confidential-cross-chain-atomic-swap.py 104-110, 381-415, 482-499, 554-590, 649-719 | `CrossTxModel.v` | finding and opening the contract's output, the transactions that Bob and Alice send on the side of Elements; RPC calls, waiting and the Bitcoin transactions (`BtcModel.v`) are left out |
| examples/confidential-cross-chain-atomic-swap.py 966-1030 | `WaitModel.v` | the two waiting functions; the answer of the node to a call is a function of the number of calls before; sleeping and messages have no effect |
| examples/confidential-cross-chain-atomic-swap.py 103-104, 124-301, 363-419, 423-430, 502-599 | `GameModel.v` | only when each party does what, in blocks; both chains grow in turn, all calls succeed, a party is quicker than a block; contents of messages and transactions are in `CrossModel.v` and `CrossTxModel.v` |
| examples/confidential-cross-chain-atomic-swap.py 123-420, 862-932; examples/asset-atomic-swap.py 93-594, 676-724 | `SessionModel.v` | only the flow of control: messages by type, steps that end as the environment decides, die, sys.exit, last wishes; contents of messages, errors of the pipe and signals are left out |
| core/__init__.py: inherited `__eq__` of the classes at 221, 424, 538, 635, 748, 806, 937, 1058 | `EqModel.v` | the rule itself (`self.serialize() == other.serialize()`) is bitcointx's and assumed; the check of the classes is left out |
| examples/confidential-cross-chain-atomic-swap.py 103, 176-215, 290-297, 502-551, 602-646 | `BtcModel.v` | the Bitcoin transactions of Alice and Bob; answers of the nodes are parameters, signing is a function of the hash, that the transactions are valid, which the program leaves unchecked (639-644), is proved |
| examples/unblind.py 46-108 | `ViewModel.v` | command line, files and the formatting of values are left out; `CCoinAddress.from_scriptPubKey` (bitcointx) and `rangeproof_info` are oracles |

## What is not modelled

* `repr`, `str` of whole transactions (bitcointx), type checks by `ensure_isinstance` except those of blind()
  (`DynModel.v`; elsewhere arguments have the documented types), `clone`. Mutable and immutable variants of a class are one record except in `ObjModel.v`.
* Bech32 text, and `CCoinAddress(text)` for the classes that also stand for unconfidential addresses (bitcointx).
* Error-message texts, except those of BlindingFailure / UnblindingFailure.
* `ctypes` itself: conversion of arguments is described where used (`MemModel.v`, `ArrayModel.v`), `secp256k1_rangeproof_info` is an oracle.
* `sighash()` builds `SIGHASH_Type(hashtype)` in bitcointx, which refuses values other than
  1, 2, 3, 0x81, 0x82, 0x83; the segwit v0 theorems hold for every integer.
* `examples/`, except the parts listed above (command lines, files, RPC and VerifyScript are left out).

## Assumed behaviour of dependencies (bitcointx)

* `ser_read(f,n)`: `n > 0x02000000` raises SerializationError; short data raises
  SerializationTruncationError.
* Compact size (`VarIntSerializer`): 1/3/5/9-byte little-endian forms; non-minimal forms accepted.
* `BytesSerializer`, `VectorSerializer`, `COutPoint`, `CTxIn` fields, `CScriptWitness` as in Bitcoin.
* `deserialize(buf)` raises on trailing data.

* Bitcoin transactions (`CMutableTransaction`, `CTxInWitness`): serialised with marker and flag iff some witness is
  present; `SignatureHash` of SIGVERSION_WITNESS_V0 is the hash of BIP 143; `CURRENT_VERSION` is a parameter (2 in bitcointx).
* `__eq__` compares serialisations; `GetHash` is the double SHA-256 of `serialize()`; `GetTxid` that
  of the serialisation without witness. The `CTransaction` constructor pads a null or absent witness
  to one null witness per input and output (parameter `dw` of `deser_tx`, any padding).
* `CScript.raw_iter` yields (opcode, data, index) and raises CScriptInvalidError lazily at a
  truncated push; the base class's `is_unspendable` tests for a leading OP_RETURN.
* `RawBitcoinSignatureHash` (SIGVERSION_BASE): an input index past the end, or SIGHASH_SINGLE without
  matching output, gives the number one and an error; otherwise the double hash of a copy with scriptSigs
  emptied, the script without OP_CODESEPARATOR on the signed input, inputs/outputs/sequences cut
  down by the hash type, `serialize(include_witness=False, for_sighash=True)`, and the hash type as "<i".
* Opcode numbers are compared with a reference table transcribed from Elements' script.h.
* Class dispatch: a generic class stands for the class of the currently selected network;
  `dispatcher_mapped_list` lists the classes a class dispatches to.
* scriptPubKey forms of the five address types; `from_bytes` of base58/bech32 address classes checks
  the length and raises TypeError.
* Base58: `encode`, `decode` (Base58Error for characters outside the alphabet), four bytes of double SHA-256 as
  checksum. `CConfidentialAddress(text)` tries the base58 and the blech32 class of its network in an order that the
  theorems leave open, and goes on to the next after CCoinAddressError, Base58Error or Blech32Error.
* Base58 payloads are matched by the first candidate class whose prefix they start with.
* `CSHA256().Write(a).Write(b).Midstate()` is the compression of the 64 bytes a+b.
* `b2x` prints two lower-case hexadecimal digits per byte, `b2lx` and `Uint256.to_hex` in reversed order; `bytes_repr(b)` is
  `x('..')`; `repr` of a null outpoint is `Class()`, otherwise `Class(lx('..'), n)`; of a script witness `CScriptWitness([x('..'),..])`.
* `MoneyRange`: 0 to 21000000 coins.
* `CKeyBase.secret_bytes` has 32 bytes; `CKey(b)` raises ValueError for an invalid secret.
* Validating node (C68): Elements Core's `VerifyAmounts` as recalled: generators and commitments of spent
  outputs and issuances, token id by whether the issued amount is confidential, range and surjection
  proofs, pedersen tally. Pegins, fees and scripts are outside it.

* ctypes converts a Python int to `c_int` modulo 2^32 and to `c_uint64` modulo 2^64, without overflow check; a
  parameter declared `c_char_p` takes bytes and c_char arrays, and a bytearray raises `ctypes.ArgumentError`.

(Details accompany the definitions in `Serialize.v`.)

* Calling contract of libsecp256k1-zkp (`SpecContract.v`, used by C71 only): buffer sizes 32/33/64, uint64
  amounts, as many factors as announced and at least one output in a blind sum, at most 256 surjection
  targets, objects handed in were made by the library. The library's source is not available here; the
  contract is from its public headers.

* For C79 and C80: immutable classes refuse attribute assignment with AttributeError and hold tuples;
  `cls._from_instance(x, ...)` returns `x` when both are immutable and otherwise calls `cls(...)`; the
  constructors of `CTxIn` and `CTransaction` build their parts with `from_outpoint`, `from_txin`, `from_txout`
  and `from_witness` in the matching (mutable or immutable) class; the lists of a transaction are its own
  (evidence: tests/test_elements_sidechain_transactions.py 113-117, 184-204, 672-742).

## Tests of the model against recorded data

These are tests, not proofs; they support faithfulness. `Sha256.v` is a concrete SHA-256 used only here and in Examples.

* `TestVectors.v` (written by `tools/mkvectors.py`): small transactions of `/repo/elementstx/tests/data/elements_txs.json`
  are parsed, compared field by field, re-serialised and hashed. With `--all`, all 48 transactions of that file passed.
* `tools/checksigs.py`: the model's pre-segwit signature hash on the signed transactions of
  `elements_txs_blinding.json`; all 25 recorded signatures verify (ECDSA in Python).
* `tools/checkkeys.py`: the model's HMAC on the outputs of the same file; the public key of the derived key is the
  recorded nonce for all 27 outputs that have one.
* `PropKey.v`: RFC 4231 test cases 1 and 2.
