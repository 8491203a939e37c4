{"id": "C01", "title": "Explicit amounts survive CConfidentialValue exactly", "statement": "CConfidentialValue(a) succeeds exactly for -2^63 <= a < 2^63 (struct.error otherwise); the object is then explicit, not null and not a commitment, its bytes are 0x01 followed by the 8-byte big-endian two's-complement of a, and to_amount() returns a.", "quantifier": "every Python int a", "why_tests_cant": "2^64 accepted values plus all rejected integers; tests sample a handful", "anchors": ["elementstx/core/__init__.py:CConfidentialValue.__init__", "elementstx/core/__init__.py:CConfidentialValue.to_amount"]}
{"id": "C02", "title": "Explicit assets survive CConfidentialAsset exactly", "statement": "CConfidentialAsset(CAsset(d)) succeeds for every 32-byte d, is explicit, and to_asset() returns the same 32 bytes; CAsset of any other length is rejected.", "quantifier": "every byte string d", "why_tests_cant": "2^256 assets", "anchors": ["elementstx/core/__init__.py:CConfidentialAsset", "elementstx/core/__init__.py:CAsset"]}
{"id": "C03", "title": "Confidential fields have exactly one form, and the typed getters obey it", "statement": "A confidential value/asset/nonce object can be constructed from bytes iff the length is 0, the explicit size or 33; at most one of is_null/is_explicit/is_commitment holds; is_valid is their disjunction; to_amount()/to_asset() raise TypeError exactly when the object is not explicit.", "quantifier": "every byte string and each of the three field classes", "why_tests_cant": "all prefixes and lengths", "anchors": ["elementstx/core/__init__.py:CConfidentialCommitmentBase"]}
{"id": "C04", "title": "Confidential field wire codec is exact in both directions", "statement": "For each class, deserialising serialize(c)+rest yields c and leaves rest, exactly when c is valid; and any bytes accepted by the deserialiser yield a valid object whose serialisation is exactly the bytes consumed. Objects the constructor accepts but that are not valid (e.g. 33 zero bytes) do not round-trip.", "quantifier": "every constructible object, every input byte string, every trailing data", "why_tests_cant": "infinite input space; the failing objects are constructible through the public constructor", "anchors": ["elementstx/core/__init__.py:CConfidentialCommitmentBase.stream_serialize", "elementstx/core/__init__.py:CConfidentialCommitmentBase.stream_deserialize"]}
{"id": "C05", "title": "Input and output witnesses round-trip", "statement": "CElementsTxInWitness and CElementsTxOutWitness with every string of at most MAX_SIZE bytes and fewer than 2^64 stack items deserialise from their own serialisation to the same object, consuming exactly those bytes; the serialisation is issuance proof, keys proof, script witness, peg-in witness (input) and surjection proof, range proof (output).", "quantifier": "every witness object, every trailing data", "why_tests_cant": "arbitrary proof sizes and stack depths", "anchors": ["elementstx/core/__init__.py:CElementsTxInWitness", "elementstx/core/__init__.py:CElementsTxOutWitness"]}
{"id": "C06", "title": "Asset issuance round-trips", "statement": "CAssetIssuance with 32-byte nonce/entropy and valid amounts deserialises from its own serialisation to the same object, consuming exactly those bytes; layout is nonce, entropy, amount, inflation keys.", "quantifier": "every issuance object", "why_tests_cant": "all field values", "anchors": ["elementstx/core/__init__.py:CAssetIssuance"]}
{"id": "C07", "title": "Transaction inputs round-trip exactly when representable", "statement": "A transaction input whose fields are in range deserialises from its own serialisation to the same input iff (a) the output index is 0xffffffff with no issuance and no peg-in, or at most 0x3fffffff; (b) a null issuance carries zero nonce/entropy; (c) it is not the index 0x3fffffff with both issuance and peg-in (which is written as the coinbase index 0xffffffff and read back without either).", "quantifier": "every input object, every trailing data", "why_tests_cant": "the failing combination is one index out of 2^30 with two flags", "anchors": ["elementstx/core/__init__.py:CElementsTxIn.stream_serialize", "elementstx/core/__init__.py:CElementsTxIn.stream_deserialize"]}
{"id": "C08", "title": "Serialising an input rejects indexes that collide with the flag bits", "statement": "For inputs with 32-byte hash, in-range sequence: serialize() raises TxInSerializationError iff prevout.n has a bit outside 0x3fffffff and is not 0xffffffff; otherwise it succeeds.", "quantifier": "every prevout.n, issuance and peg-in status", "why_tests_cant": "2^32 indexes x flags", "anchors": ["elementstx/core/__init__.py:CElementsTxIn.stream_serialize"]}
{"id": "C09", "title": "Deserialised inputs never carry flag bits in the index", "statement": "Any successfully deserialised input has prevout.n <= 0x3fffffff, or prevout.n = 0xffffffff with default issuance and is_pegin False; issuance and is_pegin are exactly bits 31 and 30 of the wire index in the first case.", "quantifier": "every input byte string", "why_tests_cant": "all wire indexes", "anchors": ["elementstx/core/__init__.py:CElementsTxIn.stream_deserialize"]}
{"id": "C10", "title": "Transaction outputs round-trip", "statement": "An output with valid confidential fields and a script of at most MAX_SIZE bytes deserialises from its own serialisation to the same output, consuming exactly those bytes; layout is asset, value, nonce, script.", "quantifier": "every output object, every trailing data", "why_tests_cant": "all field values and scripts", "anchors": ["elementstx/core/__init__.py:CElementsTxOut"]}
{"id": "C11", "title": "Transactions round-trip", "statement": "Every well-formed transaction (representable inputs, valid outputs, one witness per input and output, or a null witness) deserialises from its serialisation to the same transaction (a null witness reads back as a null witness), consuming exactly those bytes. Two well-formed transactions with equal serialisations have equal version, inputs, outputs, locktime and witness.", "quantifier": "every well-formed transaction of any size, every trailing data", "why_tests_cant": "unbounded number of inputs/outputs/witness sizes", "anchors": ["elementstx/core/__init__.py:CElementsTransaction.stream_serialize", "elementstx/core/__init__.py:CElementsTransaction.stream_deserialize"]}
{"id": "C12", "title": "Transaction wire layout", "statement": "The serialisation is: 4-byte little-endian version, flag byte (1 iff witness included and not null, else 0), compact-size count and inputs, compact-size count and outputs, 4-byte little-endian locktime, then (flag 1 only) all input witnesses then all output witnesses. With for_sighash the flag byte and the index flag bits are omitted but issuances are still written.", "quantifier": "every transaction and every include_witness/for_sighash combination", "why_tests_cant": "layout must hold for every shape; round-trip tests cannot see a consistent swap", "anchors": ["elementstx/core/__init__.py:CElementsTransaction.stream_serialize", "elementstx/core/__init__.py:CElementsTxIn.stream_serialize"]}
{"id": "C13", "title": "Superfluous witness records are rejected", "statement": "If the flag byte is 1 the deserialiser never returns a transaction whose witness is null, and never raises 'Superfluous witness record' otherwise; a transaction returned for any other flag byte has a null witness.", "quantifier": "every input byte string", "why_tests_cant": "all byte strings", "anchors": ["elementstx/core/__init__.py:CElementsTransaction.stream_deserialize"]}
{"id": "C14", "title": "Deserialise-then-serialise normalises", "statement": "If deserialize(b) returns tx then tx.serialize() succeeds and deserialising that again yields a transaction equal (in the library's sense: same serialisation) to tx. It need not equal b: flag bytes other than 0/1, an issuance flag on a null issuance, and non-minimal compact sizes are accepted and rewritten.", "quantifier": "every byte string accepted by the deserialiser", "why_tests_cant": "malleable encodings are adversarial inputs", "anchors": ["elementstx/core/__init__.py:CElementsTransaction.stream_deserialize"]}
{"id": "C15", "title": "Truncated transactions are always rejected as truncated", "statement": "Every strict prefix of the bytes consumed by a successful deserialisation fails to deserialise with the truncation error, and appending data never changes what was parsed.", "quantifier": "every accepted byte string and every cut point", "why_tests_cant": "every cut point of every transaction", "anchors": ["elementstx/core/__init__.py:CElementsTransaction.stream_deserialize"]}
{"id": "C16", "title": "Witness-free serialisation ignores the witness", "statement": "serialize(include_witness=False) depends only on version, inputs, outputs and locktime, and for well-formed transactions determines them (so the transaction id commits to them up to hash collisions, and adding signatures to the witness never changes it).", "quantifier": "every pair of transactions", "why_tests_cant": "all witness contents", "anchors": ["elementstx/core/__init__.py:CElementsTransaction.stream_serialize"]}
{"id": "C17", "title": "Transactions with incomplete witness lists", "statement": "serialize() of a transaction with a non-null witness succeeds only if each witness list is empty or complete; but an empty input-witness list beside a non-null output-witness list is written without any input witnesses and cannot be read back as the same transaction.", "quantifier": "every transaction whose witness lists differ in length from vin/vout", "why_tests_cant": "shape-dependent corner", "anchors": ["elementstx/core/__init__.py:CElementsTransaction.stream_serialize", "elementstx/core/__init__.py:CElementsTxWitness"]}
{"id": "C18", "title": "Segwit v0 signature hash preimage", "statement": "For SIGVERSION_WITNESS_V0 the signature hash is Hash of version, hashPrevouts, hashSequence, hashIssuance, outpoint, script with length, value commitment, sequence, own issuance if any, hashOutputs, locktime, hashtype, where each sub-hash is zero exactly as the hash type prescribes (ANYONECANPAY, NONE, SINGLE with and without a matching output). An input number beyond either end of the input list gives IndexError.", "quantifier": "every transaction, input index, script, amount and hash type", "why_tests_cant": "all hash types and shapes", "anchors": ["elementstx/core/script.py:RawElementsSignatureHash"]}
{"id": "C19", "title": "Segwit v0 ALL signatures bind the transaction", "statement": "If two computations with hash type ALL (no ANYONECANPAY) return the same signature hash and no two of the strings hashed collide, then version, locktime, every prevout, every sequence, every output, the script, the amount, the own input's issuance and the hash type agree, and the whole issuance list agrees whenever the same inputs carry issuances.", "quantifier": "every pair of transactions", "why_tests_cant": "a statement about pairs of arbitrary transactions", "anchors": ["elementstx/core/script.py:RawElementsSignatureHash"]}
{"id": "C20", "title": "Segwit v0 signatures do not cover what the hash type excludes", "statement": "The hash never depends on scriptSigs, witnesses or is_pegin; with ANYONECANPAY it does not depend on other inputs; with NONE not on outputs; with SINGLE not on other outputs; with NONE or SINGLE not on other inputs' sequences.", "quantifier": "every pair of transactions that differ only in excluded data", "why_tests_cant": "signing protocols rely on it for all later edits", "anchors": ["elementstx/core/script.py:RawElementsSignatureHash"]}
{"id": "C21", "title": "Segwit v0 hash does not bind which input issues (and ignores peg-in)", "statement": "The claim 'equal segwit v0 ALL hashes imply equal issuances and peg-in flags of all inputs' is false of the code: two transactions with different issuance placement have identical hash preimages.", "quantifier": "existence over pairs of transactions", "why_tests_cant": "needs adversarial construction", "anchors": ["elementstx/core/script.py:RawElementsSignatureHash"]}
{"id": "C22", "title": "Segwit v0 signature hash availability", "statement": "For a well-formed transaction, valid input index and non-None amount the hash is produced exactly when locktime < 2^31 and the hash type fits in a signed 32-bit integer; a locktime >= 2^31 (legal on the wire) makes it raise struct.error.", "quantifier": "every transaction", "why_tests_cant": "half of the 2^32 locktimes", "anchors": ["elementstx/core/script.py:RawElementsSignatureHash"]}
{"id": "C23", "title": "Schnorr signature hash: argument validation", "statement": "ElementsSignatureHashSchnorr raises ValueError exactly for a negative or too large input index, hashes not 32 bytes, unsupported sigversion, spent_outputs count mismatch, SINGLE with index beyond the outputs, and missing tapleaf hash for tapscript; SINGLE with inIdx == len(vout) raises IndexError, not ValueError; no hash is returned in any of these cases. A missing witness that the hash type covers gives IndexError; if none is missing, the key path always returns a hash.", "quantifier": "every argument combination", "why_tests_cant": "combinatorial argument space incl. off-by-one", "anchors": ["elementstx/core/script.py:ElementsSignatureHashSchnorr"]}
{"id": "C24", "title": "Schnorr signatures without ANYONECANPAY bind the transaction", "statement": "If two ALL/default computations return the same hash and no two hashed strings collide then genesis hash, hash type byte, version, locktime, every input's flags, prevout, sequence and issuance, every spent asset, value and script, issuance proofs, every output and output witness, spend type, input index, annex hash, tapleaf hash and code separator agree.", "quantifier": "every pair of transactions and arguments", "why_tests_cant": "pairs of arbitrary transactions", "anchors": ["elementstx/core/script.py:ElementsSignatureHashSchnorr"]}
{"id": "C25", "title": "Schnorr ANYONECANPAY does not bind issuance proofs or the spent script boundary", "statement": "The claim 'equal ANYONECANPAY Schnorr hashes imply equal issuance rangeproofs and equal spent scriptPubKey' is false of the code: proofs are concatenated without lengths and the script is written without a length.", "quantifier": "existence over pairs of transactions", "why_tests_cant": "adversarial construction", "anchors": ["elementstx/core/script.py:ElementsSignatureHashSchnorr"]}
{"id": "C26", "title": "Schnorr signatures do not cover what the hash type excludes", "statement": "With ANYONECANPAY the hash depends only on the signed input (and its witness proofs) and not on other inputs or spent outputs; with NONE not on outputs or output witnesses; with SINGLE only on the matching output; never on scriptSigs or script witnesses.", "quantifier": "every pair of transactions", "why_tests_cant": "all later edits", "anchors": ["elementstx/core/script.py:ElementsSignatureHashSchnorr"]}
{"id": "C27", "title": "Peg-out scripts are recognised exactly", "statement": "get_pegout_data() returns (g, s) iff the script parses as OP_RETURN, a 32-byte push g, a non-empty push s and anything after; it never raises; is_pegout() is True exactly then; s may be followed by arbitrary, even invalid, script.", "quantifier": "every script byte string", "why_tests_cant": "all push encodings, truncations and trailing data", "anchors": ["elementstx/core/script.py:CElementsScript.get_pegout_data"]}
{"id": "C28", "title": "Unspendable scripts", "statement": "is_unspendable() is True exactly for the empty script and scripts starting with OP_RETURN, and the minimum value passed to the range proof is 0 exactly for those and 1 otherwise.", "quantifier": "every script", "why_tests_cant": "all scripts", "anchors": ["elementstx/core/script.py:CElementsScript.is_unspendable", "elementstx/core/__init__.py:generate_rangeproof"]}
{"id": "C29", "title": "5/8-bit regrouping is lossless and strict", "statement": "convertbits(bytes,8,5) never fails, yields only 5-bit values, and convertbits(...,5,8,pad=False) of it returns the original bytes; conversely any 5-bit list accepted by the strict direction is exactly the padded regrouping of its result.", "quantifier": "every byte string and every 5-bit list", "why_tests_cant": "all lengths and contents", "anchors": ["elementstx/liquid_addr.py:convertbits"]}
{"id": "C30", "title": "Blech32 addresses encode then decode", "statement": "encode(hrp,witver,prog) returns a string exactly for the documented domain (non-empty lowercase printable hrp, witness version 0..16, program of 2..73 bytes, 53 or 65 for version 0, total length <= 1000) and decode(hrp, that string) returns (witver, prog).", "quantifier": "every hrp, version and program", "why_tests_cant": "unbounded strings", "anchors": ["elementstx/liquid_addr.py:encode", "elementstx/liquid_addr.py:decode"]}
{"id": "C31", "title": "Blech32 decoding is canonical", "statement": "If decode(hrp,s) returns (v,p) then encode(hrp,v,p) returns s in lower case; hence two strings decode to the same result only if they are equal up to letter case.", "quantifier": "every string", "why_tests_cant": "all strings of up to 1000 characters", "anchors": ["elementstx/liquid_addr.py:decode", "elementstx/liquid_addr.py:encode"]}
{"id": "C32", "title": "Blech32 decoding is total and its result is in range", "statement": "decode never raises for any string; if it returns a result the version is 0..16, the program 2..73 bytes, and 53 or 65 bytes for version 0.", "quantifier": "every hrp string and every string", "why_tests_cant": "all strings incl. empty, non-ASCII, short", "anchors": ["elementstx/liquid_addr.py:decode", "elementstx/liquid_addr.py:blech32_decode"]}
{"id": "C33", "title": "Blech32 detects character errors", "statement": "If decode(hrp,s) succeeds, then changing one to five characters anywhere in s (prefix, separator, data or checksum; other than by letter case) makes decode(hrp,.) return None; so does changing six, unless the change switches the version character between zero and non-zero. Seven changes can go undetected.", "quantifier": "every valid address string, every choice of error positions and characters", "why_tests_cant": "astronomically many error patterns", "anchors": ["elementstx/liquid_addr.py:blech32_polymod", "elementstx/liquid_addr.py:decode"]}
{"id": "C34", "title": "Letter case rules", "statement": "decode rejects mixed-case strings and treats an all-upper-case string exactly like its lower-case form (for a lower-case hrp).", "quantifier": "every string", "why_tests_cant": "all strings", "anchors": ["elementstx/liquid_addr.py:blech32_decode"]}
{"id": "C35", "title": "Witness version selects the checksum", "statement": "A version-0 payload with the bech32m constant and a version>0 payload with the bech32 constant are both rejected: the checksum that decode accepts is the one encode produces for that version.", "quantifier": "every string", "why_tests_cant": "all strings", "anchors": ["elementstx/liquid_addr.py:decode", "elementstx/liquid_addr.py:encode"]}
{"id": "C36", "title": "Confidential blech32 address objects survive their string form and never cross networks or types", "statement": "For both networks and P2WPKH/P2WSH/P2TR: parsing str(a) under the network's address class gives an object of the same class and bytes; parsing it with the other network's class raises; parsing as another address type raises. For any class without dispatched descendants the outcome of parsing is determined by the decoder: Blech32Error for text it rejects or another version or length, TypeError for an abstract dispatched class.", "quantifier": "every address payload", "why_tests_cant": "2^264+ payloads", "anchors": ["elementstx/blech32.py:CBlech32Data", "elementstx/wallet.py:CBlech32DataDispatched"]}
{"id": "C37", "title": "Blech32 object construction guards", "statement": "For the address classes, from_bytes accepts exactly the class's data length and (if given) its witness version, and an object that was constructed always has a string form. For plain CBlech32Data subclasses the length is not checked: an object has a string exactly when hrp, version and data are in the encoder's domain, otherwise str() hits its assertion (so 'every constructed object has a string' is false). Every outcome of from_bytes, for every class, data and version: ValueError for a version that is missing, out of 0..16 or not the class's; TypeError for an abstract class or a wrong length; otherwise the object.", "quantifier": "every payload, version and class", "why_tests_cant": "all payload lengths/versions", "anchors": ["elementstx/blech32.py:CBlech32Data.from_bytes", "elementstx/wallet.py:CBlech32DataDispatched.__init__"]}
{"id": "C38", "title": "Confidential/unconfidential address conversion is lossless", "statement": "from_unconfidential(u, pk) with a valid 33-byte pk yields an address whose to_unconfidential() is u, whose blinding_pubkey is pk, and whose scriptPubKey is that of u; it fails with ValueError for invalid keys, TypeError for the other network's addresses, for a leaf class of another type, for keys not of 33 bytes and already confidential addresses, CConfidentialAddressError when a base class has no matching type. Scripts are the standard templates, addresses with the same script have the same type and payload, and the text of a blech32 address spells the witness version and program of its script. This is for the network being the currently selected one; with another network selected, a leaf class still converts but the result is on the selected network (so 'the result is on the network of u' is false then).", "quantifier": "every address payload, key and requested class", "why_tests_cant": "payload and class combinations", "anchors": ["elementstx/wallet.py:CCoinConfidentialAddress.from_unconfidential", "elementstx/wallet.py:CCoinConfidentialAddress.to_unconfidential"]}
{"id": "C39", "title": "Predicted output sizes", "statement": "For confidential addresses get_output_size() equals the serialised size of every blinded output paying that address. For unconfidential addresses it equals the size of an output with explicit value but no asset, which is 32 bytes less than every real explicit-asset output.", "quantifier": "every output paying the address", "why_tests_cant": "all output contents", "anchors": ["elementstx/wallet.py:CCoinConfidentialAddress.get_output_size", "elementstx/wallet.py:CElementsAddressBase.get_output_size"]}
{"id": "C40", "title": "Base58 address types are unambiguous", "statement": "A base58 payload matches at most one address class across both networks and both confidentiality levels, and matches the class it was produced by; nor does it match a private key or extended key class. (Private keys of the two networks share their prefix.) The prefixes are those of the networks' chain parameters, a confidential one being the network's blinding byte followed by the plain one.", "quantifier": "every payload", "why_tests_cant": "all payloads", "anchors": ["elementstx/wallet.py:P2SHElementsAddress", "elementstx/wallet.py:P2PKHElementsConfidentialAddress"]}
{"id": "C41", "title": "Issued asset and token ids are bound to their entropy and kind", "statement": "With a collision-free compression function: equal asset ids imply equal entropy, equal token ids imply equal entropy and confidentiality, and asset, explicit token and confidential token ids of one entropy are pairwise different; equal entropies from generate_asset_entropy imply equal prevout and contract hash. Entropy of a length other than 32 is rejected.", "quantifier": "every entropy, prevout and contract hash", "why_tests_cant": "2^256 entropies", "anchors": ["elementstx/core/__init__.py:generate_asset_entropy", "elementstx/core/__init__.py:calculate_asset", "elementstx/core/__init__.py:calculate_reissuance_token"]}
{"id": "C42", "title": "blind(): argument validation", "statement": "blind() raises ValueError, leaving the transaction unchanged, exactly when there are more output pubkeys than outputs, more issuance keys than inputs, an input descriptor count different from the inputs, or auxiliary generators that are fewer than the inputs or not 33 bytes.", "quantifier": "every transaction and argument list", "why_tests_cant": "all count combinations", "anchors": ["elementstx/core/__init__.py:blind_transaction"]}
{"id": "C43", "title": "blind(): frame", "statement": "Whatever blind() does (success, failure or exception): version, locktime, number and order of inputs and outputs, prevouts, scriptSigs, sequences, peg-in flags, scriptPubKeys, script and peg-in witnesses are unchanged, issuance nonce/entropy are unchanged; outputs without a (non-empty) pubkey and issuances without a key keep value, asset, nonce and proofs.", "quantifier": "every transaction, arguments, random stream and library behaviour", "why_tests_cant": "every exit point of a 500-line function", "anchors": ["elementstx/core/__init__.py:blind_transaction"]}
{"id": "C44", "title": "blind(): a refusal before blinding leaves the transaction untouched", "statement": "If blind() returns a failure for a reason other than the final strict count, the transaction is unchanged. (A strict-count failure may leave it partly blinded: the claim 'any failure leaves it unchanged' is false.)", "quantifier": "every transaction and arguments", "why_tests_cant": "every early exit", "anchors": ["elementstx/core/__init__.py:blind_transaction"]}
{"id": "C45", "title": "blind(): success blinds exactly what was asked", "statement": "If blind() succeeds in strict mode then every output with a non-empty pubkey has commitment value and asset, the ephemeral nonce and non-empty proofs, every issuance amount with a key is a commitment with its proof (except the one output skipped because its final blinding factor is zero), the number reported equals the number requested, and there is at least one output witness per output.", "quantifier": "every transaction, arguments and random stream", "why_tests_cant": "all combinations of outputs and issuances", "anchors": ["elementstx/core/__init__.py:blind_transaction"]}
{"id": "C46", "title": "blind(): success balances the blinding factors", "statement": "If blind() succeeds in strict mode with at least one output blinded and every issuance key belongs to a non-null issuance amount, then modulo the group order the sum of v*abf+bf over blinded inputs and issuances equals that over the outputs it blinded, and hence the commitments of a transaction whose amounts balance per asset balance in the group (unless the final factor came out zero for a non-zero amount).", "quantifier": "every transaction, arguments, random stream, and every library satisfying the documented algebraic contract", "why_tests_cant": "cryptographic balance for arbitrary shapes", "anchors": ["elementstx/core/__init__.py:blind_transaction"]}
{"id": "C47", "title": "blind(): stray issuance keys break balance silently", "statement": "The claim 'a strict success is always balanced' is false of the code: an issuance key for an input without issuance makes blind() report success while the last blinding factor is never balanced.", "quantifier": "existence", "why_tests_cant": "needs unusual argument combination", "anchors": ["elementstx/core/__init__.py:blind_transaction"]}
{"id": "C48", "title": "Blinded outputs can be unblinded by the receiver", "statement": "After a successful blind(), unblinding an output it blinded with the private key of that output's pubkey and the produced range proof succeeds and returns the original asset and amount and exactly the blinding factors that blind() reported (for amounts within MoneyRange).", "quantifier": "every transaction, keys, random stream, and every library satisfying the contract", "why_tests_cant": "all amounts, assets, keys", "anchors": ["elementstx/core/__init__.py:blind_transaction", "elementstx/core/__init__.py:unblind_confidential_pair"]}
{"id": "C49", "title": "Blinded issuances can be unblinded by the issuer", "statement": "After a successful blind(), unblinding an issuance amount it blinded with its issuance key, an empty nonce and the explicit issued asset returns the original amount, that asset and a zero asset blinding factor.", "quantifier": "every transaction, keys, random stream", "why_tests_cant": "all amounts and assets", "anchors": ["elementstx/core/__init__.py:blind_transaction", "elementstx/core/__init__.py:unblind_confidential_pair"]}
{"id": "C50", "title": "Unblinding is sound", "statement": "If unblind_confidential_pair succeeds then the amount is in MoneyRange, the value was a commitment, the range proof was non-empty, and the returned asset and asset blinding factor regenerate exactly the presented asset commitment (or explicit asset's generator); it never succeeds for null or invalid asset fields unless the library accepts an all-zero generator. Every other outcome is fixed too: which failure text or RuntimeError, and under which conditions.", "quantifier": "every input and library behaviour", "why_tests_cant": "all adversarial inputs", "anchors": ["elementstx/core/__init__.py:unblind_confidential_pair"]}
{"id": "C51", "title": "Surjection targets stay aligned", "statement": "The asset tags, generators and blinders handed to the surjection proof have equal length and correspond index by index: each input, then its issued asset, then its token, in input order, then the extra auxiliary generators; at most three per input plus extras.", "quantifier": "every transaction and arguments", "why_tests_cant": "all issuance/auxiliary combinations", "anchors": ["elementstx/core/__init__.py:blind_transaction", "elementstx/core/__init__.py:generate_surjectionproof"]}
{"id": "C52", "title": "Reissuance with inflation keys", "statement": "For an input that reissues (non-zero blinding nonce) with a non-null inflation-keys amount, blind() either dies with UnboundLocalError or silently uses the token of an earlier input; the claim 'targets contain only this input's own asset and token' is false of the code.", "quantifier": "existence / every such input", "why_tests_cant": "depends on input order", "anchors": ["elementstx/core/__init__.py:blind_transaction"]}
{"id": "C53", "title": "blind() output can be serialised", "statement": "If the transaction had complete (or, without issuance keys, empty) witness lists before blind(), then after a success it serialises; otherwise it may not.", "quantifier": "every transaction", "why_tests_cant": "list-length corner cases", "anchors": ["elementstx/core/__init__.py:blind_transaction"]}
{"id": "C54", "title": "Randomness is consumed in order and never reused", "statement": "The k-th random draw is used for at most one blinding purpose: reported blinding factors of all but the last blinded output, and all asset blinding factors, are distinct draws.", "quantifier": "every random stream and arguments", "why_tests_cant": "all interleavings of outputs and issuances", "anchors": ["elementstx/core/__init__.py:blind_transaction"]}
{"id": "C55", "title": "Packed array passed to the library", "statement": "build_aligned_data_array returns a buffer whose i-th slot is the i-th element whenever all elements have the expected size, and fails whenever the total size is wrong; it accepts some lists with wrong element sizes of right total (then slots are shifted).", "quantifier": "every list of byte strings", "why_tests_cant": "all lists", "anchors": ["elementstx/core/secp256k1.py:build_aligned_data_array"]}
{"id": "C56", "title": "The library handle is loaded once", "statement": "Over any history of set_custom_secp256k1_path and get_secp256k1 calls, the library is loaded at most once, from the last path set before the first get; later sets have no effect on the handle, and every get returns the same handle.", "quantifier": "every sequence of calls", "why_tests_cant": "all histories", "anchors": ["elementstx/__init__.py:set_custom_secp256k1_path", "elementstx/core/secp256k1.py:get_secp256k1"]}
{"id": "C57", "title": "Result objects cannot lie", "statement": "A failure result always has a non-empty error and ok False; a success has empty error and ok True; using a result as a boolean raises.", "quantifier": "every result object", "why_tests_cant": "all messages", "anchors": ["elementstx/core/__init__.py:BlindingOrUnblindingResult"]}
{"id": "C58", "title": "Immutable witnesses are insulated from their constructor arguments", "statement": "After constructing an immutable input witness no later mutation of the caller's buffers changes its serialisation. For output witnesses this is false of the code: a bytearray argument is kept by reference.", "quantifier": "every history of caller mutations", "why_tests_cant": "aliasing over histories", "anchors": ["elementstx/core/__init__.py:CElementsTxInWitness.__init__", "elementstx/core/__init__.py:CElementsTxOutWitness.__init__"]}
{"id": "C59", "title": "Elements opcodes are distinct", "statement": "The exported Elements opcode constants occupy 0xc1..0xe4 without collision \u2014 false of the code: OP_DETERMINISTICRANDOM equals OP_CHECKSIGFROMSTACK; all the others are pairwise distinct.", "quantifier": "every pair of opcode constants", "why_tests_cant": "exhaustive over the table", "anchors": ["elementstx/core/script.py:OP_DETERMINISTICRANDOM"]}
{"id": "C60", "title": "Issuance counting and fee/null outputs", "statement": "num_issuances equals the number of non-null issuance amounts plus non-null inflation-key amounts over all inputs; an output is a fee iff its script is empty and value and asset are explicit; null iff all four fields are empty.", "quantifier": "every transaction/output", "why_tests_cant": "all shapes", "anchors": ["elementstx/core/__init__.py:CElementsTransaction.num_issuances", "elementstx/core/__init__.py:CElementsTxOut.is_fee"]}
{"id": "C61", "title": "Schnorr signature hash: exact message layout", "statement": "For every accepted argument combination, ElementsSignatureHashSchnorr returns the tagged hash of genesis hash twice, hash type byte (0 for default), version, locktime, then the input sub-hashes (unless ANYONECANPAY), the output sub-hashes (ALL/default), the spend type byte, the own-input data (ANYONECANPAY) or index, the annex hash if any, the SINGLE output hashes if any, and for tapscript the leaf hash, key version 0 and code separator position; and it returns a hash in no other case.", "quantifier": "every transaction, index, spent outputs, hash type, leaf, annex", "why_tests_cant": "all combinations of optional message parts", "anchors": ["elementstx/core/script.py:ElementsSignatureHashSchnorr"]}
{"id": "C62", "title": "Tapscript signatures bind the script", "statement": "CElementsScript.sighash_schnorr signs the leaf hash of leaf version 0xc4 and the length-prefixed script; two equal hashes (no collisions among the hashed strings) come from the same script, code separator position, annex, hash type and genesis hash.", "quantifier": "every pair of scripts and transactions", "why_tests_cant": "pairs of arbitrary scripts", "anchors": ["elementstx/core/script.py:CElementsScript.sighash_schnorr"]}
{"id": "C63", "title": "The text of a blech32 address", "statement": "encode(hrp,v,prog) = s exactly when the arguments are in the documented domain and s is hrp, '1', then the characters (of the bech32 alphabet) of the version, of the 5-bit groups of the program padded with zero bits, and of 12 checksum symbols such that the polynomial over GF(32) built from the expanded hrp and all symbols leaves the fixed residue (1 for version 0, 0x455972a3350f7a1 for later versions) modulo the fixed degree-12 generator; decode(hrp,s) returns (v,prog) exactly when s is not mixed-case and its lower-case form is that text.", "quantifier": "every hrp, version, program and string", "why_tests_cant": "the whole encoder and decoder against an independent algebraic definition", "anchors": ["elementstx/liquid_addr.py:encode", "elementstx/liquid_addr.py:decode", "elementstx/liquid_addr.py:blech32_polymod"]}
{"id": "C64", "title": "Pre-segwit signature hash", "statement": "sighash(..., SIGVERSION_BASE) returns Hash of version, inputs (outpoint without flags; script without OP_CODESEPARATORs on the signed input, empty on the others; sequence, zero on the others for NONE/SINGLE; issuance if any; only the signed input with ANYONECANPAY), outputs (none for NONE, empty ones then the matching one for SINGLE), lock time and hash type; a missing input or SINGLE without output gives ValueError (raw: the number one and an error). Equal hashes bind everything covered provided the same inputs carry issuances; without that proviso they do not even bind the spent outpoints (refuted). Excluded data never matters. A negative input number counts from the end for types covering all outputs, and gives IndexError before the first input.", "quantifier": "every transaction pair, script, index, hash type", "why_tests_cant": "pairs of arbitrary transactions and all hash types", "anchors": ["elementstx/core/script.py:RawElementsSignatureHash", "elementstx/core/script.py:CElementsScript.sighash", "elementstx/core/__init__.py:CElementsTxIn.stream_serialize"]}
{"id": "C65", "title": "From blind() over the wire to unblind()", "statement": "After a complete blind() of a transaction with complete witness lists, the transaction serialises, the bytes deserialise, and in the deserialised transaction the receiver's key unblinds its output, and the issuance key its issuance, to the asset and amount that were explicit before (unless the reported blinding factor is null).", "quantifier": "every transaction, arguments, random stream, output or input index", "why_tests_cant": "composition of blind, serialise, deserialise and unblind over all transactions", "anchors": ["elementstx/core/__init__.py:blind_transaction", "elementstx/core/__init__.py:CElementsTransaction.stream_serialize", "elementstx/core/__init__.py:unblind_confidential_pair"]}
{"id": "C66", "title": "Successive blinding by several parties", "statement": "If several parties blind the same transaction one after another, each strictly, with at least one output of its own and describing only its own inputs, and every confidential input is described by exactly one of them, then (no blinding factor being zero) the resulting commitments balance whenever the amounts did. Once an issuance is confidential every further blind() call fails or raises and changes nothing, so only the last party can blind issuances.", "quantifier": "every number of parties and sequence of calls", "why_tests_cant": "unbounded sequences of calls", "anchors": ["elementstx/core/__init__.py:blind_transaction"]}
{"id": "C67", "title": "Blinding keys derived from scripts", "statement": "derive_blinding_key returns the RFC 2104 HMAC-SHA256 of the script under the master secret; a non-Elements CScript or non-bytes script gives TypeError and an invalid digest ValueError. Different scripts or masters give different keys unless two strings with equal SHA-256 are exhibited. A wallet keeping only the master key reads, from the serialised transaction, every output blinded to the key derived from its script.", "quantifier": "every master key, script, transaction", "why_tests_cant": "all pairs of keys and scripts; composition with blinding", "anchors": ["elementstx/core/__init__.py:derive_blinding_key", "elementstx/core/script.py:CElementsScript.derive_blinding_key"]}
{"id": "C68", "title": "A node accepts what was blinded", "statement": "One party, or several in turn, blind (strictly, no zero factor) an unblinded transaction whose amounts balance per asset, truthfully describing the spent outputs. If the library's proofs verify, a node checking the amounts of the result accepts: balance of all commitments, every range proof with a positive minimum for spendable outputs, every surjection proof against the generators the node computes. Two conditions on the arguments are needed: token keys given, by every party, exactly for new issuances with tokens whose amount is blinded; and no auxiliary generators beyond the inputs. Without either, blind() reports success and the node rejects.", "quantifier": "every transaction, set of spent outputs, sequence of calls", "why_tests_cant": "needs a node and unbounded numbers of inputs, outputs and parties", "anchors": ["elementstx/core/__init__.py:blind_transaction"]}
{"id": "C69", "title": "blind() refuses for the first fault and overwrites nothing", "statement": "If any input descriptor, auxiliary generator, issuance or output to blind has a fault (unparseable generator, null asset without auxiliary generators, confidential issuance, negative amount with a factor, amount or asset not explicit, proof or output witness already in place, invalid public key, fee output), blind() raises or returns the failure naming the first fault in a fixed order (inputs, spare generators, issuances by input, outputs), with the transaction untouched and no random number drawn. Conversely every failure other than the final count names such a fault. So a call that succeeds or changes the transaction replaced no proof and blinded only explicit, non-fee outputs with valid keys.", "quantifier": "every transaction and arguments with any combination of faults", "why_tests_cant": "all combinations and positions of faults", "anchors": ["elementstx/core/__init__.py:blind_transaction"]}
{"id": "C70", "title": "The text of confidential addresses", "statement": "str() of every confidential address (base58 and blech32, both networks) is a text which the network's CConfidentialAddress class reads back to the same address, in whichever order it tries encodings and classes; no two addresses share a text; the other network's class refuses it with CCoinAddressError. A text is read only as the address that prints it (blech32 also in upper case). Any other text raises CCoinAddressError, except base58 text with a confidential prefix and a payload of the wrong size (TypeError). Base58 texts have 80 characters and, for compressed keys, start with CTE, Azp, VTp/VTq or VJL; unconfidential ones start with 2d, X, P/Q or G/H, private keys with c or 9, extended keys with tpub, tprv, xpub, xprv, at fixed lengths.", "quantifier": "every address, text, and order of encodings and classes", "why_tests_cant": "all pairs of addresses and arbitrary text; base58 against an arithmetic definition", "anchors": ["elementstx/wallet.py:CCoinConfidentialAddress", "elementstx/wallet.py:P2PKHElementsConfidentialAddress", "elementstx/wallet.py:P2PKHElementsLiquidV1ConfidentialAddress"]}
{"id": "C71", "title": "Library calls stay within the library's contract", "statement": "During blind() and unblind every call into libsecp256k1-zkp passes buffers of the documented sizes, 64-bit amounts, matching counts, keys that were validated, and generators, commitments and proofs that the library itself made; so results depend only on lawful calls. Needed: Uint256 descriptors, a 32-byte random function, at most 256 surjection targets, and for unblind an explicit or committed asset. The code itself does not check the number of targets (a library refusing more makes strict blinding with two outputs never succeed), the length of the surjection seed, or a missing asset in unblind (64 zero bytes are passed as a generator).", "quantifier": "every library, transaction, argument and random function", "why_tests_cant": "undefined behaviour of a C library leaves no trace in a passing test; quantifies over all pairs of libraries agreeing on lawful calls", "anchors": ["elementstx/core/__init__.py:blind_transaction", "elementstx/core/__init__.py:generate_surjectionproof", "elementstx/core/__init__.py:unblind_confidential_pair"]}
{"id": "C72", "title": "Integers given to blind() are cut to the library's integer types", "statement": "Amounts of input descriptors are seen modulo 2^64 and custom_ct_exponent/custom_ct_bits modulo 2^32 (as signed C ints): arguments that differ only so give the same result, the same transaction and the same random draws. Parameters that fit a C int (defaults 0 and 52) are the only ones with which range proofs are requested. Hence an amount of 2^64 or more, or parameters outside the C int range, are not refused.", "quantifier": "every library, random function, transaction and pair of arguments", "why_tests_cant": "needs all pairs of argument lists; a wrapped argument looks like a successful call", "anchors": ["elementstx/core/__init__.py:blind_transaction", "elementstx/core/__init__.py:generate_rangeproof", "elementstx/core/secp256k1.py:secp256k1_rangeproof_sign.argtypes"]}
{"id": "C73", "title": "Arguments documented as bytes or bytearray that work only as bytes", "statement": "blind() documents and type-checks auxiliary_generators as bytes or bytearray, unblind its rangeproof likewise. A bytearray among the generators makes no difference exactly when it is not read (it stands for an input whose asset is given). When one is read, blind() leaves the transaction alone, draws nothing, and raises ctypes.ArgumentError unless it stops earlier just as with bytes. A CElementsTxOutWitness keeps a bytearray as given: unblinding with its range proof can only fail and raises ArgumentError where the same bytes unblind, and get_rangeproof_info raises ArgumentError; with bytes get_rangeproof_info gives the library's answer.", "quantifier": "every library, heap, list of generators, transaction, output and witness object", "why_tests_cant": "all mixtures of types at all positions, and absence of partial effects in every one of them", "anchors": ["elementstx/core/__init__.py:blind_transaction", "elementstx/core/__init__.py:unblind_confidential_pair", "elementstx/core/__init__.py:CElementsTxOutWitness.__init__", "elementstx/core/__init__.py:CElementsTxOutWitness.get_rangeproof_info", "elementstx/core/secp256k1.py:secp256k1_generator_parse.argtypes"]}
{"id": "C74", "title": "What the error text of blind() tells", "statement": "blind() returns an object for every result: ok is True exactly for success, and a failure carries a non-empty text. The numbers in the text are exactly the position of the input, output or auxiliary generator at fault (for the final count: done and asked). Two calls, on any transactions and arguments, refused with the same text failed the same check, at that position if one is given. False of the code: that every text gives the position; for an issuance whose range proof is already in place the text has a literal %d, so calls refused because of different inputs give the same text.", "quantifier": "every failure, and every pair of calls", "why_tests_cant": "pairs of arbitrary calls; texts with numbers of any size", "anchors": ["elementstx/core/__init__.py:blind_transaction", "elementstx/core/__init__.py:BlindingOrUnblindingResult"]}
{"id": "C75", "title": "blind() neither leaks nor misuses library memory", "statement": "Over any call of blind(), whatever the library answers and however the call ends (success, failure, exception), every surjection proof object allocated by the library is destroyed exactly once, none is used after being destroyed, and the objects of others are untouched; with a library that tells the size of its proofs right, outcome and transaction are those of the memory-free description whatever addresses the allocator gives. False: that a proof which the library fails to write out would be noticed (the return value of the serialization is ignored).", "quantifier": "every library, allocator, memory, transaction, argument and random function", "why_tests_cant": "leaks and use after free leave no trace in results; all exception paths", "anchors": ["elementstx/core/__init__.py:generate_surjectionproof", "elementstx/core/__init__.py:blind_transaction", "elementstx/core/secp256k1.py:secp256k1_surjectionproof_destroy.argtypes"]}
{"id": "C76", "title": "The commitment of an asset stands for the asset", "statement": "CAsset.to_comm_secp256k1itment gives a valid confidential asset field (never explicit or null), ValueError when the library makes no generator of the asset, or RuntimeError when it cannot write the generator (which a lawful library never does). The result is the commitment with a zero blinding factor. Unblinding an output gives the same result with the explicit asset and with its commitment. Given as an auxiliary generator it is never refused, and satisfies what C68 asks of a party that does not describe an input with explicit asset.", "quantifier": "every asset, library, key, proof and call", "why_tests_cant": "all assets and unblinding arguments, composition with blinding by several parties", "anchors": ["elementstx/core/__init__.py:CAsset.to_comm_secp256k1itment", "elementstx/core/__init__.py:unblind_confidential_pair", "elementstx/core/__init__.py:blind_transaction"]}
{"id": "C77", "title": "Spending what was received", "statement": "What unblinding reports, turned into an input descriptor by get_descriptor, is the truth about the output whoever made it: the asset and value commitments open to the reported asset, amount and factors. The holder of the key to which an output was blinded gets a descriptor with the asset and amount the output had before blinding. A transaction whose inputs are described so (or read off explicit outputs; parties not owning an input give the asset's commitment instead), whose amounts balance and which is blinded strictly by one or several parties is accepted by a validating node.", "quantifier": "every output, key and proof; every sequence of blinding parties", "why_tests_cant": "composition of two transactions and arbitrarily many parties, needs a node", "anchors": ["elementstx/core/__init__.py:UnblindingSuccess.get_descriptor", "elementstx/core/__init__.py:CElementsTxOut.unblind_txout", "elementstx/core/__init__.py:blind_transaction"]}
{"id": "C78", "title": "Blinding before and after signing", "statement": "Whatever blind() does (succeed, fail or raise), the signature hash of an input keeps its value when the hash type covers nothing that the arguments ask to blind: no issuance of a covered input, no covered output. After a strict success the hash is another one (unless a hash collision is found) as soon as the hash type covers an output or issuance that was blinded, so earlier signatures are void; the transaction id changes too. Filling in scriptSigs and script witnesses afterwards changes no signature hash of any input and not the verdict of the node's amount check, so the parties can sign a blinded transaction in any order. All this for legacy, segwit v0 and Schnorr hashes.", "quantifier": "every library, transaction, argument, hash function, hash type, input and script", "why_tests_cant": "relates two transactions for every hash type; the converse direction needs injectivity up to collisions", "anchors": ["elementstx/core/__init__.py:blind_transaction", "elementstx/core/script.py:CElementsScript.sighash", "elementstx/core/script.py:CElementsScript.sighash_schnorr"]}
{"id": "C79", "title": "Snapshots and copies of transactions", "statement": "tx.to_immutable() reads the same as tx, and reads the same for ever: no assignment, list operation, copy or blind() on any other object changes it, because every part of it is immutable (exception, proved: an output witness holding a bytearray keeps the bytearray, so changing the bytearray changes the snapshot). tx.to_mutable() reads the same as tx and shares no object with anything that existed before (but bytearrays); blinding it leaves tx and all other transactions as they were. CElementsMutableTransaction(vin, vout, ...) copies what it is given, even when one object is given several times. In general a transaction reads the same after every program that assigns no attribute of one of its parts.", "quantifier": "every program that creates, copies, assigns and blinds; every heap such a program produces", "why_tests_cant": "aliasing: the property is about all later programs, and a test that shares no objects cannot see it", "anchors": ["elementstx/core/__init__.py:CElementsTxIn.from_instance", "elementstx/core/__init__.py:CElementsTxOut.from_instance", "elementstx/core/__init__.py:CElementsTxWitness.__init__", "elementstx/core/__init__.py:CElementsTxOutWitness.__init__"]}
{"id": "C80", "title": "blind() on objects that may be shared", "statement": "If the parts of a mutable transaction are different mutable objects (always so after to_mutable() or construction), blind() on the object returns or raises exactly what the value-level description (C42-C76) says and leaves exactly that transaction, whatever else the program holds. Objects that are not parts of it keep all attributes however blind() ends; an immutable transaction gives ValueError and nothing changes. Without the condition the claims fail, and this is shown: one output object placed twice in tx.vout is blinded at both places although success reports one; [CElementsMutableTxOutWitness()] * n gives success with the proofs of the last output at every output; an immutable output raises AttributeError half-way; naming a doubly placed output twice raises TypeError half-way.", "quantifier": "every library, random function, argument, heap and transaction object", "why_tests_cant": "depends on identity of objects, for every shape of sharing and every way the call can end", "anchors": ["elementstx/core/__init__.py:blind_transaction"]}
{"id": "C81", "title": "What printed forms tell", "statement": "repr() and str() of confidential fields, issuances, inputs and outputs never raise. repr() of a confidential field identifies class and bytes, and evaluating it rebuilds the field, except for explicit assets. repr() of a witness identifies everything in it. repr() of an output identifies amount, asset and nonce and what repr() of the script tells; repr() of an input likewise, but of the issuance only the non-zero fields, without their names: an input issuing five units of an asset prints like one issuing five reissuance tokens, and an entropy prints like a blinding nonce. str() of a field that is not explicit tells its class only, so str() of a blinded output tells only the script; it says CONFIDENTIAL of empty fields too.", "quantifier": "every object and every printer of the types of the base library", "why_tests_cant": "injectivity of a text format over all byte strings and lists", "anchors": ["elementstx/core/__init__.py:CConfidentialCommitmentBase.__repr__", "elementstx/core/__init__.py:CAssetIssuance._repr_or_str", "elementstx/core/__init__.py:CElementsTxIn._repr_or_str", "elementstx/core/__init__.py:CElementsTxOut._repr_or_str"]}
{"id": "C82", "title": "Issuing an asset and later issuing more of it", "statement": "The holder of the key to which reissuance tokens were blinded can reissue with what the API tells: unblinding the token output gives a descriptor whose asset is calculate_reissuance_token(entropy, confidential) and whose asset blinding factor, used as assetBlindingNonce together with the entropy of generate_asset_entropy, passes the check nodes make of a reissuance, and the asset issued is the one of the first issuance. A transaction whose issuing inputs are first issuances or built in this way, with balanced amounts and blinded by its parties, is accepted by a node. Tokens in an unblinded output can never be used. The kind matters: with the tokens of a confidential issuance and the reissued amount left unblinded, blind() succeeds and a node rejects the transaction.", "quantifier": "every library, transaction, entropy, token output, key and sequence of blinding parties", "why_tests_cant": "composition of two transactions and several calls of the API; needs a node", "anchors": ["elementstx/core/__init__.py:generate_asset_entropy", "elementstx/core/__init__.py:calculate_asset", "elementstx/core/__init__.py:calculate_reissuance_token", "elementstx/core/__init__.py:blind_transaction", "elementstx/core/__init__.py:UnblindingSuccess.get_descriptor"]}
{"id": "C83", "title": "Which wrong argument types blind() notices before it changes anything", "statement": "An output pubkey, a truthy issuance key, a part of an input descriptor or an auxiliary generator of the wrong type (or a wrong count or length) makes blind() raise before the transaction is touched or randomness drawn: TypeError for a type, ValueError for a count or length, AttributeError for an object that is no descriptor. With arguments of the documented types the checks change nothing. Two kinds are not looked for at the start: custom_ct_exponent and custom_ct_bits that are no integers, and falsy objects given as issuance keys. Such a call either goes exactly as with right arguments in their place, or raises TypeError (AttributeError for keys) leaving an issuance or an output with commitments and without proof. If it returns, nothing is blinded (wrong parameter) or the issuance of that key is not blinded (falsy key). False, therefore: that a TypeError leaves the transaction as it was.", "quantifier": "every library, random function, transaction and combination of arguments of right and wrong types", "why_tests_cant": "all combinations of wrong arguments with all transactions; the state after an exception", "anchors": ["elementstx/core/__init__.py:blind_transaction", "elementstx/core/__init__.py:generate_rangeproof"]}
{"id": "C84", "title": "A transaction may be blinded in part and completed later", "statement": "Parties may take turns: one blinds its outputs of an unfinished transaction, then inputs and outputs are appended (with their witnesses) and the next party blinds its own. Blinding (with arguments whose counts and lengths are right) and then appending inputs that issue nothing gives exactly the same result and transaction - in every outcome: success, reported error or exception - as appending first and blinding the whole with null descriptions for the appended inputs, provided that auxiliary_generators already covered them (none are needed if only outputs are appended). So if the finished transaction balances, each owner describes its inputs once and the generators are those of the inputs, a validating node accepts it. Without the generators of the inputs to come blind() succeeds as well, but the node refuses the completed transaction; and generators do not allow a party to blind an output of an asset it does not describe.", "quantifier": "every library, random function, arguments (also failing calls), transaction and appended inputs and outputs; any number of parties", "why_tests_cant": "all splittings of all transactions; acceptance by a node", "anchors": ["elementstx/core/__init__.py:blind_transaction", "examples/asset-atomic-swap.py"]}
{"id": "C85", "title": "The example program that spends to a confidential address", "statement": "Whatever the input transaction, keys and destination, if examples/spend-to-confidential-address.py prints a transaction, it spends the first output that pays to the given key, pays the read amount less the fee to the destination, has the fee output, at most one more output that nobody can spend, and the hex printed is its serialisation; its scriptSig and witness unlock the output spent (P2SH of P2WPKH, the signature being of the hash of the transaction printed). The assertions after blind() never fail. The holder of the destination's blinding key unblinds it to the asset spent and the amount less the fee. A validating node accepts it if the fee of the input transaction was paid in the asset spent. Two natural expectations are false: a fee in another asset gives a transaction no node accepts, printed without complaint; and an unblinded output can never be sent to a confidential address (blind() refuses to blind a lone output when no input is blinded).", "quantifier": "every library, input transaction, key, destination, random function", "why_tests_cant": "composition of scanning, unblinding, building, blinding, signing and a node for every transaction", "anchors": ["examples/spend-to-confidential-address.py", "elementstx/core/__init__.py:blind_transaction", "elementstx/core/__init__.py:CElementsTxOut.unblind_txout"]}
{"id": "C86", "title": "The example program that swaps assets", "statement": "examples/asset-atomic-swap.py. Whatever Bob sends, what Alice signs spends one foreign output and her own three, pays what she offered to the addresses she was given, her change (fee output less 10000) to her address and 10000 as fee, has no other outputs than these four and the one offered, and she reads in that output the asset and amount offered; the holders of the addresses read theirs. Whatever Alice sends, Bob adds only his script and witness to it, reads the assets promised in outputs 1 and 2 and sees the last output is a fee. The scripts and witnesses filled in hold signatures of the hash of the very transaction sent, and Bob's turn keeps Alice's good. When both follow the program on true data and all three turns succeed, a validating node accepts the transaction, both read in it what they were promised, and Alice's last check passes. Alice's last check passes exactly for transactions whose inputs are a prefix of hers. The fee output chosen is the first of the smallest of at least 20000; if it is not blinded, the program stops with AttributeError. False, with runs that nodes accept: that what a party is promised goes to the address it gave (only the blinding key is compared, not the script), for both parties; that what Alice sends is what she signed.", "quantifier": "every library, random function, outputs, offers, addresses and messages of the other party", "why_tests_cant": "the other party's messages are arbitrary; acceptance by a node; all amounts and assets", "anchors": ["examples/asset-atomic-swap.py", "elementstx/core/__init__.py:blind_transaction", "elementstx/core/__init__.py:CElementsTxOut.unblind_txout"]}
{"id": "C87", "title": "Taking funds back in the example program that swaps assets", "statement": "examples/asset-atomic-swap.py, claim_funds_back. When it sends a transaction, this spends exactly the given outputs in their order, no two of one asset; output n goes to the n-th new address of the node and the last output is the explicit fee of 10000; an output of the fee's asset held at least 20000. Each input carries the signature, by the key of the output spent, of the very transaction sent. The holder of the new address' blinding key reads in output n the asset and amount of the n-th output spent, less 10000 for the fee's asset. If what the node told of the outputs is true and one is of the fee's asset, a validating node accepts the transaction. False: that outputs of one asset are sent together to one address, as the comment of the function says (the amount is overwritten, and the program fails with AssertionError); that what is sent is valid (if no output is of the fee's asset it is not).", "quantifier": "every library, random function, list of outputs of any length, new addresses and fee asset", "why_tests_cant": "all lists of outputs; acceptance by a node; a dictionary that loses entries", "anchors": ["examples/asset-atomic-swap.py:claim_funds_back", "elementstx/core/__init__.py:blind_transaction"]}
{"id": "C88", "title": "Contracts and recovered key of the cross-chain swap example", "statement": "examples/confidential-cross-chain-atomic-swap.py. The Elements contract is spent either with a signature by the key to reveal, on the byte 1 and with the bytes of the known coordinate r in its middle, together with Bob's signature of the transaction, or after ten blocks with Alice's; the Bitcoin contract by the combined key or after fifteen blocks by Bob's. The scriptSig that Bob's program makes spends the contract, and from it Alice's program computes the secret key of the combined public key. Against any Bob: if the contract is spent before the time by five pushes, the third of which gives the length of r as the length of R, Alice's program finds that key (unless Bob's s is the one value for which the first trial gives the key zero); a key that it finds is always the right one. False: that every spend before the time lets Alice recover the key. The contract does not fix the length of R, so that Bob can use a point whose coordinate begins with the bytes of r and a key to reveal whose secret nobody knows; a push in front of the scriptSig makes Alice read the wrong bytes; and for one key of Bob's, computable by anyone, Alice's program ends with ValueError.", "quantifier": "every curve with the group laws, hash of the message, keys, scriptSig, position of the input, choice of s or n - s", "why_tests_cant": "all scripts and keys against an adversary; validity in the script interpreter of a node; algebra over the whole group", "anchors": ["examples/confidential-cross-chain-atomic-swap.py:make_elt_cntract", "examples/confidential-cross-chain-atomic-swap.py:make_btc_contract", "examples/confidential-cross-chain-atomic-swap.py:prepare_elt_spend_reveal_branch", "examples/confidential-cross-chain-atomic-swap.py:alice"]}
{"id": "C89", "title": "Spending the Elements contract in the cross-chain swap example", "statement": "examples/confidential-cross-chain-atomic-swap.py, Bob's claim and Alice's reclaim after the timeout. Bob sends a transaction only if the first output of the offered transaction with the contract's P2SH script is blinded, opens with the shared blinding key to the Bitcoin asset and exactly the agreed amount with the fee. What is sent spends that output and nothing else, pays the party's confidential address 1 coin, burns 0 in an OP_RETURN output, and states a fee of 0.01; its sequence number is final for Bob and 10 for Alice. The holder of the key of the address unblinds 1 coin of the Bitcoin asset. The amounts balance in a node if the output held the agreed amount. The scriptSig satisfies the contract with a signature of the transaction as sent, Bob's by the revealing branch, from which Alice's program then computes the secret of the combined key; Alice's by the timeout branch, for which the sequence number is sufficient (BIP 112). False: that Alice's transaction is valid whatever the contract's output holds; her program does not compare the amount.", "quantifier": "every offered transaction, contract, keys, addresses, random numbers, signer, hash of messages", "why_tests_cant": "all transactions of the other party; acceptance by a node; unblinding by the owner; the script interpreter; the transaction signed is the one sent", "anchors": ["examples/confidential-cross-chain-atomic-swap.py:bob", "examples/confidential-cross-chain-atomic-swap.py:alice", "examples/confidential-cross-chain-atomic-swap.py:find_and_unblind_vout", "examples/confidential-cross-chain-atomic-swap.py:create_elt_spend_tx"]}
{"id": "C90", "title": "What the unblinding example prints", "statement": "examples/unblind.py, given a transaction and a blinding key, prints for each output in turn exactly: for a fee its amount and asset; for an explicit output its address, amount and asset; for an output that does not open with the key the reason, the address and what the range proof reveals; for one that opens the confidential and unconfidential address, amount, asset and both blinding factors. It stops with an exception at the first output whose script is no address, whose explicit amount is above 21 million coins, whose value is explicit but asset blinded, or for which unblinding raises; otherwise it shows every output. What is printed for an opened output is true: amount and asset with the factors open the commitments in the transaction, the addresses are those of the script, and the blinding key in the confidential one is the key given. If a transaction was blinded completely, serialized and given to the program with the key of a receiver, the receiver's output is shown with the amount and asset sent and the factors that blind() returned, unless the program stopped at an earlier output. False: that every output of a valid transaction is shown; a transaction made by the cross-chain swap example has an unspendable output at which the program fails, so that the fee after it is not shown.", "quantifier": "every transaction, key, chain, every conversion of scripts to addresses with payloads of the right size", "why_tests_cant": "composition of parsing, unblinding and addresses over all transactions; truth of the values against the commitments; where the program stops", "anchors": ["examples/unblind.py", "elementstx.core.CElementsTxOut.unblind_confidential_pair", "elementstx.wallet.CCoinConfidentialAddress.from_unconfidential"]}
{"id": "C91", "title": "What reading a transaction from untrusted bytes can end in", "statement": "CElementsTransaction.deserialize(b) of any bytes returns a transaction or raises one of the truncation error, the serialisation error (a length above the limit), the witness serialisation error (an unknown first byte of a confidential field), ValueError (a witness flag with an all-null witness) and the error for left-over bytes: never struct.error, IndexError, AssertionError or TypeError. Left-over bytes are reported exactly when a shorter beginning is a transaction. Every rejection but truncation is final: no bytes that follow change it. Truncation is reported for every proper beginning of a transaction, and for nothing else except texts that any eight further bytes make fail for good; such exceptions exist (a nine-byte length whose first bytes are already above the limit; a witness flag with no inputs and no outputs). The contents of what is returned take no more room than the bytes read: at least 41 per input and 4 per output, plus scripts, proofs and stack items, so counts stated in the text cannot run away.", "quantifier": "every byte string, and every continuation of it", "why_tests_cant": "all byte strings up to any length, with every continuation; no finite set of files shows that no other exception exists or that a truncation error can be cured", "anchors": ["elementstx/core/__init__.py:CElementsTransaction.stream_deserialize", "elementstx/core/__init__.py:CElementsTxIn.stream_deserialize", "elementstx/core/__init__.py:CElementsTxOut.stream_deserialize", "elementstx/core/__init__.py:CElementsTxWitness.stream_deserialize", "elementstx/core/__init__.py:CConfidentialCommitmentBase.stream_deserialize"]}
{"id": "C92", "title": "The waiting functions of the cross-chain swap example", "statement": "examples/confidential-cross-chain-atomic-swap.py. wait_confirm returns at the first of at most sixty answers with the confirmations asked for; an RPC error of whatever code counts as 'not yet' and any other exception passes through. wait_spend_reveal_transaction, with a node that tells its growing chain and some of whose calls may fail: what is returned is the first transaction of the chain that spends an output of the contract's transaction, and it is in one of the ten blocks that begin with that transaction's; it gives up only when the contract has more than ten confirmations; it fails only if the last call failed; it ends if the chain grows; it waits as long as nothing happens. A spending transaction in the eleventh block or later is never returned, however quickly the node is asked; one that is in the chain is returned if the node can be asked about the blocks up to it twice before the contract has more than ten confirmations. False: that the transaction returned spends the contract (any other output of that transaction, such as the change, will do, and hides a later one that spends the contract); that getblock is tried again when it fails with an error other than -5 (the first time this ends in UnboundLocalError).", "quantifier": "every chain, its growth at every call, failing calls, number of polls", "why_tests_cant": "the node is an arbitrary function of time; all interleavings of the growth of the chain with the calls", "anchors": ["examples/confidential-cross-chain-atomic-swap.py:wait_confirm", "examples/confidential-cross-chain-atomic-swap.py:wait_spend_reveal_transaction"]}
{"id": "C93", "title": "The timing of the cross-chain swap: who ends with what", "statement": "examples/confidential-cross-chain-atomic-swap.py as a game of one party's program against everything the other may do, in blocks. Alice's program (lines 123-306), her contract being mined in block e: exactly three ends, by whether Bob's transaction that takes the asset is mined before block e+10, in it or later; if he takes the asset in time and leaves the bitcoin, each has what was agreed; if he does not take it, she has it back in block e+11; she sends her contract only on a message at six confirmations; she never has both; with a bitcoin timeout after her last chance she never has neither, unless Bob's transaction comes in the one or two blocks at which she gives up. Bob's program (lines 363-420): if Alice tells him of her contract while its timeout is more than one block away, he has the asset in the next block and leaves the bitcoin to her; if she does not tell him in time, or too early, or when the asset is gone, he has his bitcoin back and the key was never shown; she has the bitcoin only in a block after one at which he was told of a contract with two confirmations. False: that Alice's shorter timeout protects her (lines 91-96): her ten blocks begin at least six blocks after Bob's fifteen, so for every moment at which her check passes Bob can take back the bitcoin and then the asset, with no race; that any timeouts would (she does not look at the block with which she gives up); that she finds out that the bitcoin is gone before she sends the asset; that Bob cannot lose both (told late, and if Alice's transactions are mined first, he does).", "quantifier": "every strategy of the other party, every block at which the contracts are mined and told, all timeouts, every number of blocks", "why_tests_cant": "the other party chooses freely at every block; the claim is about the end of every such game", "anchors": ["examples/confidential-cross-chain-atomic-swap.py:alice", "examples/confidential-cross-chain-atomic-swap.py:bob", "examples/confidential-cross-chain-atomic-swap.py:try_reclaim_elt", "examples/confidential-cross-chain-atomic-swap.py:try_reclaim_btc", "examples/confidential-cross-chain-atomic-swap.py:miner"]}
{"id": "C94", "title": "The harness of the swap examples: messages, failures and last wishes", "statement": "participant() of the two swap examples, running any program of messages and steps, where every step may end normally, with an exception or by die(), and every message may come, not come or be of another type. What a process sends is a beginning of the messages in the text of its program, then perhaps 'bye!', which is last. For each of the two pairs of programs: whatever fails on either side, neither ever receives a message of a type that it does not expect; they never wait for each other, and a process waits for a message that will not come only if the other has ended without 'bye!'. A last wish is carried out at most once, after it was set, exactly if the process ends before the end of its program. For each cause of the end and each end of the last wish: whether the other side is told, and whether the process ends with a traceback. In the cross-chain swap a side whose sendtoaddress has returned tries to reclaim if its process ends early, and only then. In the asset swap, once Alice has sent her signatures, her process ends only after the swap was broadcast, after she began to claim her funds back, or after 'bye!', and never claims back what was broadcast. False: that an error after the money is sent always leads to reclaiming (the answer of sendtoaddress may be an error); that a failing participant says 'bye!'; that Alice claims her funds back on any problem (comment at lines 361-365): if Bob, holding the transaction signed by her, says 'bye!', she exits and he keeps the option that the comment says he does not have.", "quantifier": "every program of the described shape, every end of every step, every sequence of messages and timeouts, both processes", "why_tests_cant": "all combinations of failures in two processes; which of them tests provoke is arbitrary", "anchors": ["examples/confidential-cross-chain-atomic-swap.py:participant", "examples/asset-atomic-swap.py:participant", "examples/confidential-cross-chain-atomic-swap.py:alice", "examples/confidential-cross-chain-atomic-swap.py:bob", "examples/asset-atomic-swap.py:alice", "examples/asset-atomic-swap.py:bob"]}
{"id": "C95", "title": "What == means for fields, inputs, outputs, witnesses and transactions", "statement": "Objects are compared by their serialisations. Two CConfidentialValue, CConfidentialAsset or CConfidentialNonce objects that the constructor accepts, valid or not, are equal exactly if they hold the same bytes; those made of two amounts or two assets exactly if these are the same. Issuances, outputs and witnesses with valid fields are equal exactly if all fields are. Comparing two inputs raises exactly if one has an index between 2^30 and 2^32-2; otherwise they are equal exactly if prevout, scriptSig, nSequence, peg-in flag and issuance agree, where an issuance without amount and keys does not count and for the coinbase index neither issuance nor peg-in flag does. Transactions are equal exactly if version, lock time, inputs (in that sense), outputs and witnesses agree, where null witnesses are the same whatever their length; the transaction id depends on exactly everything but the witness. What does not hold, with examples: fields of invalid contents that the constructors accept make different outputs and different issuances equal; and an input with index 2^30-1, issuance and peg-in makes a transaction without outputs equal to one with another input and an output, with the same id.", "quantifier": "every pair of objects, of any sizes", "why_tests_cant": "equality of all pairs of values; injectivity of the serialisation", "anchors": ["elementstx/core/__init__.py:CConfidentialCommitmentBase.stream_serialize", "elementstx/core/__init__.py:CAssetIssuance.stream_serialize", "elementstx/core/__init__.py:CElementsTxIn.stream_serialize", "elementstx/core/__init__.py:CElementsTxOut.stream_serialize", "elementstx/core/__init__.py:CElementsTransaction.stream_serialize", "elementstx/core/__init__.py:CElementsTxWitness.stream_serialize"]}
{"id": "C96", "title": "The Bitcoin side of the cross-chain swap: who gets the coins of the contract", "statement": "examples/confidential-cross-chain-atomic-swap.py on the Bitcoin chain. create_btc_spend_tx makes a transaction that spends the output named and nothing else, pays 1 coin of the 1.01 agreed to the destination, is signed (BIP 143, hash type ALL) for the agreed amount, and carries signature, choice and contract as witness; it raises ValueError exactly if the output has no name. The contract's output is unlocked exactly by a signature of the combined key with a true choice, or after fifteen blocks by Bob's with a false one. Alice sends only if Bob's transaction has six confirmations, contains an output with the contract's script, and the first such output holds exactly the agreed amount; the transaction she sends is then valid at any age of the output, and the key she recovers from the spend of the other chain, whatever its script, makes one. Bob sends nothing before an answer with fifteen confirmations; what he sends then is valid in the next block. He sends it exactly if each output before that of the contract has an address: an output that holds data in front makes his program stop with KeyError. A signature for one amount is not one for another, unless two strings have the same hash.", "quantifier": "every hash function, signature scheme, contract, destination, transaction of Bob, sequence of answers of the node", "why_tests_cant": "validity of transactions in the consensus rules of a node, for all transactions and answers", "anchors": ["examples/confidential-cross-chain-atomic-swap.py:create_btc_spend_tx", "examples/confidential-cross-chain-atomic-swap.py:try_reclaim_btc", "examples/confidential-cross-chain-atomic-swap.py:alice", "examples/confidential-cross-chain-atomic-swap.py:make_btc_contract"]}
{"id": "C97", "title": "repr() as Python source: which objects eval(repr(obj)) gives back", "statement": "The text that repr() prints is an expression with the printed object as its value, mutable or not: for every witness of a transaction, of an input and of an output; for every outpoint; for every confidential field that the constructors make other than an explicit asset; for every input without issuance and every output whose asset is not explicit, if the texts of the scripts have the scripts as values. Not so for the rest: the text of an explicit CConfidentialAsset has no value, since CAsset() is not called with bytes in it; the text of a CAssetIssuance has a value exactly if it is CAssetIssuance(), as the arguments printed are bytes or amounts where a Uint256 is required.", "quantifier": "every witness, outpoint, field, issuance, input, output, of any size, mutable or not", "why_tests_cant": "eval(repr(obj)) == obj for all objects; tests compare a few texts", "anchors": ["elementstx/core/__init__.py:CElementsTxInWitness._repr_or_str", "elementstx/core/__init__.py:CElementsTxWitness._repr_or_str", "elementstx/core/__init__.py:CAssetIssuance._repr_or_str", "elementstx/core/__init__.py:CElementsTxIn._repr_or_str", "elementstx/core/__init__.py:CElementsTxOut._repr_or_str", "elementstx/core/__init__.py:CConfidentialAsset.__repr__"]}
{"id": "C98", "title": "The random source of blind(): how often it is called and what each draw is used for", "statement": "However blind() ends, _rand_func has been called at most once for each issuance key given and four times for each output to blind; not at all if the call is refused for a fault of the arguments. A strict success without keys for missing issuances calls it exactly that often, or two times less if the balancing factor of the last output is zero (that output is then unchanged). The outcome and the transaction depend on nothing else the source would have returned: a source that gives the same first draws, as many as were made, gives the same outcome and transaction. No draw is used twice: if those draws are distinct, then the blinding factors of the issuances, the reported value factors (but the computed one of the last output), the reported asset factors, the ephemeral keys and the seeds of the surjection proofs are all distinct, and each is one of the draws.", "quantifier": "every library, random function, arguments, transaction; any number of inputs, issuances and outputs", "why_tests_cant": "reuse of randomness between purposes shows in no single output; tests use os.urandom and cannot tell one draw from another", "anchors": ["elementstx/core/__init__.py:blind_transaction", "elementstx/core/__init__.py:generate_output_rangeproof_nonce", "elementstx/core/__init__.py:generate_surjectionproof"]}
{"id": "C99", "title": "Memory handed to the library: nothing is read or written out of bounds and no bytes object changes", "statement": "The calls of libsecp256k1-zkp in blind(), unblind_confidential_pair() and CAsset.to_comm_secp256k1itment() read only inside the objects handed over and write only into buffers made for the call, which are large enough: no bytes object is changed, in particular none of the blinding factors given to secp256k1_pedersen_blind_generator_blind_sum, which overwrites one of them, even where several factors are the same object. So the outcome and the transaction are the same as if the functions were computed from the values, whatever is in memory, whatever the library leaves in a buffer when it fails, and whatever would follow from a violation.", "quantifier": "every library with outputs of the documented sizes, memory, sharing of objects, random function with draws of 32 bytes, arguments and transaction with at most 256 surjection targets", "why_tests_cant": "memory corruption need not show; bytes objects that change are shared with the caller, and only for some values", "anchors": ["elementstx/core/__init__.py:blind_transaction", "elementstx/core/__init__.py:unblind_confidential_pair", "elementstx/core/__init__.py:generate_rangeproof", "elementstx/core/__init__.py:blinded_asset", "elementstx/core/secp256k1.py:_set_zkp_func_types"]}
{"id": "C100", "title": "The transaction id before and after blind()", "statement": "However blind() ends, GetTxid() gives the same id as before exactly if no input and no output changed: proofs and other witness data never matter. After a strict success without stray issuance keys the id is another one, except in two cases: nothing was to be blinded, or the only thing to be blinded was one output and it was left as it was because its balancing factor came out zero. Blinding the same transaction a second time with an ephemeral key of another public key, for an output that is blinded both times, gives yet another id: an id noted from one blinding does not belong to another.", "quantifier": "every library with outputs of the documented sizes, random function, arguments and well-formed transaction, hash without collisions", "why_tests_cant": "the exception of the zero balancing factor is hit by no test with random keys; ids are compared for the few transactions tested only", "anchors": ["elementstx/core/__init__.py:CElementsTransaction.blind", "elementstx/core/__init__.py:blind_transaction", "elementstx/core/__init__.py:CElementsTransaction.stream_serialize"]}
{"id": "C101", "title": "Nothing outside commitments and proofs tells what blind() hides", "statement": "Whoever sees the blinded transaction learns about the hidden amounts and assets only what the results of the library tell. If these results do not depend on the secrets they are computed from, then blinding two transactions that differ in amounts and assets of the outputs to be blinded and in issued amounts to be blinded, with any amounts, assets and blinding factors of the inputs, the same keys and the same random numbers, gives the same transaction, with all witnesses and their number. This holds for strict successes without stray issuance keys, provided no output is left as it was: an output whose balancing factor comes out zero stays explicit and tells its amount.", "quantifier": "every library whose results tell nothing, random function, pair of transactions and of arguments", "why_tests_cant": "a leak is a relation between two runs with different secrets, of which a test sees one; it may be one bit in a parameter of a proof", "anchors": ["elementstx/core/__init__.py:blind_transaction", "elementstx/core/__init__.py:generate_rangeproof", "elementstx/core/__init__.py:generate_surjectionproof", "elementstx/core/__init__.py:generate_output_rangeproof_nonce"]}
{"id": "C102", "title": "Which exceptions can leave blind()", "statement": "With arguments of the documented types, no issuance key for an input that issues nothing and no token key for a reissuance, an exception that leaves blind() is one of three. ValueError: the lists do not fit the transaction, and nothing was changed or drawn. UnboundLocalError: a reissuance says that it makes tokens and no new issuance comes before it, and nothing was changed or drawn. RuntimeError: the library refused a call that blind() had to make, for inputs, issuances or outputs of this transaction with factors that were drawn or balanced. No assertion of the code fails, no index is out of range, and no operation meets a value of the wrong kind. RuntimeError can come after the transaction was changed; a stray key or a token key for a reissuance can make an assertion fail, again after changes.", "quantifier": "every library with results of the documented sizes, random function, arguments and transaction", "why_tests_cant": "that an assertion never fails is a claim about every path through nested loops and every answer of the library", "anchors": ["elementstx/core/__init__.py:blind_transaction", "elementstx/core/__init__.py:generate_rangeproof", "elementstx/core/__init__.py:generate_surjectionproof", "elementstx/core/__init__.py:generate_output_rangeproof_nonce", "elementstx/core/__init__.py:blinded_asset", "elementstx/core/__init__.py:create_value_commitment"]}
{"id": "C103", "title": "blind() succeeds and blinds what was asked when nothing stands in the way", "statement": "Suppose the lists fit the transaction, nothing in it is at fault (C69), the library refuses none of the calls blind() has to make with the numbers it draws and can begin a surjection proof for each output to be blinded, keys are given only for issuances that can be blinded, and at least one output is to be blinded that is not alone (another output or issuance is blinded, or an input is). Then blind() ends with success, and the number it reports is the number of issuances and outputs it was asked to blind, strict or not. All of them are confidential then, except the last output when its balancing factor came out zero. The last condition is needed: if only issuances are to be blinded, or a lone output with no blinded input, a strict blind() never succeeds. An output whose asset is not among the targets is left explicit after others were blinded: a strict blind() fails, one that is not strict reports success.", "quantifier": "every library with results of the documented sizes, random function, arguments and transaction of any size", "why_tests_cant": "a test shows success for the transactions tried; that no combination of issuances, outputs and keys is passed over needs all of them", "anchors": ["elementstx/core/__init__.py:blind_transaction", "elementstx/core/__init__.py:generate_surjectionproof", "elementstx/core/__init__.py:generate_rangeproof"]}
{"id": "C104", "title": "A payment that is planned well is made, accepted and read", "statement": "Take an explicit transaction whose spent outputs are described truthfully, whose amounts agree for every asset and whose token keys are given where amounts are blinded, and suppose nothing stands in the way of blind() (C103) and no drawn number is zero. Then a strict blind() succeeds, and, unless the balancing factor of the last output came out zero, a node accepts the result, the holder of the key of each blinded output unblinds exactly the amount and asset that were to be sent, with the factors reported for it, and the holder of each issuance key those of the issuance.", "quantifier": "every library that keeps its contract, verifier, random function, arguments and transaction of any size", "why_tests_cant": "it joins blinding, balancing, verification and unblinding for all transactions at once; a test joins them for one", "anchors": ["elementstx/core/__init__.py:blind_transaction", "elementstx/core/__init__.py:unblind_confidential_pair", "elementstx/core/__init__.py:CElementsMutableTransaction.blind"]}
{"id": "C105", "title": "Who may read a blinded transaction shows only in the range proofs", "statement": "Blind the same transaction twice with the same random numbers, descriptions and generators, asking for the same outputs and issuances but with other receivers' public keys, other issuance keys or other range proof parameters, and suppose both calls blind all that was asked for. Then both report the same count and factors and leave the same inputs and outputs (commitments and nonces included), the same script and peg-in witnesses and the same surjection proofs; hence the transaction id and the hashes signed before taproot are the same. With equal range proof parameters, only the range proofs of the outputs and issuances whose own key was changed can differ.", "quantifier": "every library, random function, pair of requests and transaction of any size", "why_tests_cant": "it compares two executions on all inputs; a test compares two runs on one, and randomness hides the comparison", "anchors": ["elementstx/core/__init__.py:blind_transaction", "elementstx/core/__init__.py:CElementsMutableTransaction.blind"]}
{"id": "C106", "title": "blind() looks only at what it is to blind and at what is spent and issued", "statement": "Take two transactions with as many inputs, where the second may have further outputs without keys at the end, that spend the same outpoints with the same issuances and issuance proofs, and whose outputs with a blinding key and their witnesses are equal; they may differ in script signatures, sequence numbers, peg-in flags, script and peg-in witnesses, the other outputs, version and lock time. With the same arguments and random numbers blind() ends in the same way on both, with the same count and factors (zero factors for the further outputs), the same refusal or the same exception, and leaves the same blinded outputs, issuances and proofs; everything else is as it was in each. If there are further outputs, there must be no more keys than the first transaction has outputs. So it does not matter whether inputs are signed before; and success does not tell that the amounts agree.", "quantifier": "every library, random function, arguments and pair of transactions of any size", "why_tests_cant": "it compares the executions on all pairs of inputs, also those that end with an error", "anchors": ["elementstx/core/__init__.py:blind_transaction", "elementstx/core/__init__.py:CElementsMutableTransaction.blind"]}
{"id": "C107", "title": "Arguments of blind() that are written differently but ask for the same", "statement": "Empty entries at the end of output_pubkeys, blind_issuance_asset_keys and blind_issuance_token_keys mean the same as no entries, as long as the lists are not longer than the outputs and the inputs; and the amount in the descriptor of an input counts only if one of its blinding factors is not zero. Two calls whose arguments differ only in this, with the same random numbers, end in the same way, with the same result, the same transaction and as many random draws, also if they fail. So every call that is not refused for the length of a list equals one with an entry for each output and each input. blind() therefore does not notice a wrong amount of an input that is not blinded, not even a negative one; and it refuses lists that are too long even if what is too much is empty.", "quantifier": "every library, random function, transaction of any size and pair of arguments", "why_tests_cant": "it compares the executions for all pairs of arguments, also those that end with an error", "anchors": ["elementstx/core/__init__.py:blind_transaction", "elementstx/core/__init__.py:BlindingInputDescriptor"]}
