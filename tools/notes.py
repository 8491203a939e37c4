NOTES.update({
"C04":("proved","exact iff; the unrestricted claim (every constructible object round-trips) is refuted with a witness"),
"C07":("proved","exact iff; the unrestricted claim is refuted by the index 0x3fffffff with issuance and peg-in"),
"C14":("proved","normalisation proved; byte-for-byte canonicity refuted with three witnesses"),
"C17":("proved","shape requirement and impossibility of reading back; round-trip of every serializable transaction refuted"),
"C30":("proved","exact domain; IndexError exactly for versions outside -32..31"),
"C33":("proved","five changes always detected, six within one checksum class; detection of seven refuted with a witness"),
"C18":("proved","exact iff with the field-by-field preimage; the legacy SIGVERSION_BASE computation is a parameter here (modelled for C64)"),
"C19":("proved","binding under an explicit no-collision premise over exactly the strings hashed; also every scoped hash type"),
"C20":("proved","congruence: equal covered data gives equal results, exceptions included"),
"C21":("proved","the claim is refuted with a concrete pair for every hash function; C19 states what is bound"),
"C22":("proved","exact iff, and struct.error for locktime >= 2^31"),
"C23":("proved","complete decision table; IndexError instead of ValueError at inIdx == len(vout) with SINGLE is part of it"),
"C25":("proved","what ANYONECANPAY binds, and two refutations of the stronger claim with concrete pairs for every hash function"),
})
NOTES.update({
"C27":("proved","Script iteration of bitcointx (raw_iter) is modelled from its documented behaviour."),
"C28":("proved","C28_min_value is about the value passed to the range proof; the other theorems about is_unspendable()."),
"C42":("proved","The converse direction assumes the documented object sizes of the library (SizesOk), random strings that are valid keys, 32-byte issuance keys and entropies; without them other calls inside blind() can raise ValueError."),
"C43":("proved","Holds for every library behaviour and every outcome, exceptions included."),
"C44":("proved","The stronger claim that any failure leaves the transaction unchanged is refuted by an example."),
"C45":("proved","Assumes documented sizes and non-empty range proofs. The exception (last balancing factor zero) is a disjunct."),
"C46":("proved","Assumes the documented contract of pedersen_blind_generator_blind_sum (BlindSumLaw) and, for points, that generators and commitments are the documented linear combinations (Meaning). Both are met by the toy library."),
"C47":("proved","Refutations by example: the claim that every strict success balances is false of the code."),
"C51":("proved",""),
"C52":("proved","Refutations by example plus the general statement that the token comes from an earlier input."),
"C54":("proved","Distinctness assumes the random strings actually drawn are pairwise distinct."),
})
NOTES.update({
"C36":("proved","Any order of the base class's dispatch candidates. Which classes are dispatched to is an assumption about bitcointx."),
"C37":("proved","Exact for the address classes; the claim for arbitrary CBlech32Data subclasses is refuted and replaced by an exact condition."),
"C38":("proved","Exact iff when the class's network is selected; C38_any_current_chain covers the other case and the network claim is refuted there. C38_outcome fixes every outcome (a fully valid key is assumed non-empty)."),
"C39":("proved","ConfidentialOutput is the predicate that C45 establishes for outputs blinded by blind(). The size for unconfidential addresses is 32 too small for every output; refuted as a prediction."),
"C40":("proved","Base58 decoding itself and the dispatch loop of bitcointx are assumptions; C40_prefixes compares the code's prefixes with a table of chain parameters (SpecWallet.v); the library uses 239 for private keys of both networks."),
"C41":("proved","Collision freedom is an explicit premise on exactly the 64-byte blocks compressed."),
"C48":("proved","Assumes the documented contract of the library (CodecLaws, RewindLaw, KeyLaws), met by the toy library. Without MoneyRange the claim is refuted."),
"C49":("proved","Same assumptions as C48."),
"C50":("proved","C50_opening and C50_points use RewindSound; the other theorems hold for every library behaviour (C50_outcome: one that fills the 32-byte factor buffer)."),
"C53":("proved","Both halves of the unrestricted claim are refuted: AssertionError in serialize, and bytes that do not parse back."),
})
NOTES.update({
"C65":("proved","Assumptions of C48/C49/C53 about the library and proof sizes, met by the toy library in the Example."),
"C66":("proved","Uses BlindSumLaw, Meaning and PointGroup as C46. The natural claim that parties may blind in any order fails for issuances: C66_issuance_blinded_refused, C66_issuer_last."),
"C67":("proved","HMAC modelled over an arbitrary hash; CKey validity is the parameter sk_valid. Keys are 32 bytes (CKeyBase.secret_bytes)."),
"C68":("proved","The node is SpecNode.node_check, written from the rules of Elements Core's VerifyAmounts. The unconditional claim is false: C68_without_token_key_refuted (issued amount blinded, tokens not), C68_party_before_issuer_refuted (a party blinds before the issuer blinds amount and tokens), C68_spare_generator_refuted. Transactions that nobody blinds are covered too, provided they issue nothing."),
"C69":("proved","Holds for every library and every random stream. Exceptions (bad arguments, C42; library errors) can come before a fault is reported, never after a change."),
"C70":("proved","For every checksum hash of at least 4 bytes; the Examples use double SHA-256 and the address of the project's own test. bitcointx's base58.py and CCoinAddress.__new__ are modelled as described in DESIGN.md. Upper-case blech32 text that is also base58 text with a confidential prefix and wrong size may give TypeError (C70_parse_complete)."),
"C71":("proved","Stated as: two libraries that agree on lawful calls (SameInContract) give the same run. The contract is written from the C headers as known (the library's source is not in the repository): sizes, uint64 amounts, n_total > n_inputs, at most 256 targets. Three checks the code does not make are refuted (_refuted theorems)."),
"C72":("proved","ctypes' conversion of a Python int to c_int / c_uint64 (no overflow check) is part of the model. Two natural claims (too large amounts are refused; parameters reach the library as given) are refuted."),
"C73":("proved","That ctypes refuses a bytearray for a c_char_p parameter is behaviour of CPython, part of the model (ArrayModel.v). The natural claim that every documented type is accepted is refuted."),
"C74":("proved","Texts are transcribed in TextModel.v. The claim that every text names the position at fault is refuted."),
"C75":("proved","The library's memory is a list of live objects by address; using a dead address is undefined behaviour (None). Asynchronous exceptions (KeyboardInterrupt) between allocation and try are not modelled. The same-outcome part needs SizeOk (serialized_size is right)."),
"C76":("proved","C76_exact holds for every library, the others under the codec laws of SpecUnblind (parse inverts serialize, zero factor changes nothing)."),
"C77":("proved","Uses the premises of C68 and RewindSound, ZeroGen (C50). One side condition in Described: when an output has a hidden amount but a plain asset, the asset reported must be that asset, unblinded (the rewind law only says the factors open the generator). A plain transaction that nobody blinds is the case of no call."),
"C78":("proved","Composition of blind() (C43, C45) with the signature hashes (C19, C20, C24-C26, C64) and the node (C68). C78_blind_breaks assumes a strict success without stray keys and excludes an output whose reported factor is zero (the exception of C45); for legacy hashes also that no input has index 2^32-1 (its issuance is not serialised); for Schnorr that the witnesses are complete before and after. OnlySigned asks for the same number of input witnesses before and after signing."),
"C79":("proved","Full for the object model of ObjModel.v. The behaviour of bitcointx's from_instance, to_mutable/to_immutable and transaction constructors is assumed as documented there (elementstx only calls them). C79_bytearray_refuted is the exception for bytearrays."),
"C80":("proved","C80_refines removes the assumption of BlindModel.v that the parts of the transaction are different objects. The four _refuted theorems are the cases outside it."),
"C81":("proved","repr(CScript) and the str() of base-library types are arbitrary functions. C81_issuance_refuted and C81_entropy_refuted: repr() of an issuance does not identify it. The model gives the texts expected by the unit tests (C81_ex1, C81_ex2)."),
"C82":("proved","Removes the premise ub_reissue (the node's check of reissuances) from C68 and C77: it follows from how the input is built. The node's check (reissue_ok) is part of the specification (SpecNode.v), written from the consensus rule. C82_from_issuance leaves open that a drawn asset blinding factor is zero. C82_kind_refuted: success of blind() does not imply acceptance when the kind of token does not fit."),
"C83":("proved","Removes the assumption that arguments have the documented types (DynModel.v). C83_documented: on documented types the model with checks is the one all other theorems are about. C83_late compares with the call in which a key w stands in place of falsy objects and the default in place of the wrong parameter; C83_stops: with a call that blinds two things or more, a wrong parameter always stops half-way. C83_type_error_leaves_transaction_refuted: exceptions after the first change."),
"C84":("proved","C84_exchange holds for every library, without assumptions about it; C84_accepted has the premises of C77. Aligned: one witness per input and output, as serialisation demands. Appended inputs with issuances are outside (their ids depend on keys not yet given). C84_unforeseen_refuted: without the generators of later inputs blind() succeeds and the node refuses. C84_asked_asset_refuted: generators do not replace descriptions."),
"C85":("proved","The program from reading the transaction (line 88) to printing (line 268); parsing of the command line, of WIF keys and address text, and VerifyScript are bitcointx's and left out; signatures and Hash160 are arbitrary functions. C85_lone_output is about blind() in general: with no blinded input and no issuance a strict call never blinds exactly one output. C85_unlocks: a signature over any hash by the key verifies, Hash160 gives 20 bytes. C85_accepted: n = 0 or a reported blinding factor is not zero (as in C68). C85_fee_asset_refuted: the fee asset is not compared with the asset spent."),
"C86":("proved","Turns of the two parties between messages (lines 163-331, 426-577, 350-371, 826-911); the node's answers (listunspent, dumpprivkey) and messages are arguments, the pipe and VerifyScript are left out, claiming funds back is C87; signatures, Hash160 and the legacy hash are arbitrary functions. C86_alice, C86_bob: no assumption about the other party or the library. C86_swap: premises are the laws, true data about the four outputs, all blinded, sizes of keys and signatures, nonzero random draws, and the change was blinded (output 3 is not explicit). ToyFit.v: the toy library with bounded proofs, over which all premises are met (C86_ex)."),
"C87":("proved","Lines 917-983 and the signing of C86; the answers of the node are arguments. Line 970 (to_immutable, to_mutable) is read as giving the default witness. C87_accepted: laws, true data about blinded outputs, nonzero random draws, and the last of the outputs to be blinded was (is not explicit). C87_same_asset_refuted: two outputs of one asset, everything else in order, AssertionError."),
"C88":("proved","Lines 243-287, 435-481, 706-766. The curve is any group with the laws CurveLaws (prime order, two points per coordinate), and the facts KnownPoint about the coordinate of G/2; C88_ex_secp checks the latter for the numbers of secp256k1, and that a coordinate for C88_attack exists there. The interpreter in SpecCross.v has the opcodes of the contracts only; signature checks of the transaction and ages of inputs are arbitrary predicates; P2SH is read as running the contract itself. C88_recovers keeps one premise that an adversary controls: the length byte in the third push; C88_length_refuted and C88_attack show that it cannot be dropped. Extra pushes (C88_push_refuted) are valid by consensus; the policy of clean stacks is not modelled."),
"C89":("proved","Lines 376-414, 484-502, 557-600, 649-712. Up to the call of sendrawtransaction: what the nodes answer is the argument of the model. The key of the contract is any signer; a signature is checked against the legacy signature hash of the transaction as sent. C89_accepted assumes that both the spent output and the OP_RETURN output are blinded in their asset (blind() may leave the latter explicit when it cannot be blinded). C89_amount_refuted: Alice's program always describes the output as holding 1.01, so her transaction is refused by a node if the output holds another amount."),
"C90":("proved","Lines 46-108 of examples/unblind.py. Reading the files, the command line and the formatting of the values are left out; CCoinAddress.from_scriptPubKey of bitcointx and rangeproof_info of the library are arguments of the model. C90_ends gives exactly when the program comes to its end, for transactions on which unblinding raises no exception (C50_no_exception). C90_burn_refuted: the program fails with CCoinAddressError at the OP_RETURN output of a transaction that a node accepts."),
"C91":("proved","The deserialiser of C11-C15, of the elements classes and of the bitcointx readers they call. C91_truncated gives the exact alternative with its two kinds of exception, both of which occur (C91_truncated_refuted, C91_flagged_empty_refuted). When there is no witness in the text the witness of the transaction is the default of the class, which costs no bytes (second part of C91_bounded)."),
"C92":("proved","Lines 966-1030. time.sleep and the messages have no effect in the model; time is the number of calls made. The chain of a node only grows in C92_found and the rest: reorganisations, after which getblock answers -5, are covered only as failing calls. That a transaction is in one block of a chain only (Unique) is a premise."),
"C93":("proved","Time is counted in blocks; one block in each chain in turn as the miner of the example makes them (lines 423-432), a party is quicker than a block, calls of its own node do not fail. Alice's recv gives up after 60 seconds (about 30 blocks); in the game she waits as long as needed, so the theorems are about every block at which the message may come. What the scripts allow and that the key becomes public is as proved for C88-C90. C93_timeouts_refuted, C93_any_timeouts_refuted, C93_spent_already_refuted and C93_bob_robbed_refuted are about lines 91-104, 971, 182-185 and 378."),
"C94":("proved","Flow of control only: cross 123-420, 862-932, asset 93-594, 676-724. A step (any code between messages) ends as the environment decides; the contents of messages, exceptions of the pipe itself (EOFError, BrokenPipeError), signals and the miner process are left out. The asset example's harness is the same without last wish and its die() takes no 'peacefully' (Impolite). C94_messages, C94_wish and C94_told are about every program of the shape, C94_no_confusion and C94_waiting about the four programs. The refutations C94_sending_fails_refuted, C94_bye_refuted and C94_claims_back_refuted give runs of the four programs; in the last one nothing is lost or delayed."),
"C95":("proved","None of the classes defines __eq__ or __hash__: they inherit bitcointx's Serializable, which compares (and hashes) serialize() if one class is a subclass of the other; that rule is assumed. Valid fields as in C11 (null, explicit or a commitment with its prefix). C95_constructible_eq_refuted and C95_full_index_refuted show why the theorems about outputs, issuances and transactions need valid fields and exclude one index; C95_txin_fields_refuted that equal inputs may differ in an issuance that is not written."),
"C96":("proved","Consensus rules (BIP 68, 112, 141, 143) are the specification in SpecBtc.v, for inputs that spend P2WSH outputs, signatures of hash type ALL and lock times in blocks. The bitcointx parts (Bitcoin transactions, their serialisation, BIP 143 hash, CURRENT_VERSION) are modelled from their consensus behaviour; the version is a parameter, and Bob's transaction needs 2 or more, which bitcointx's CURRENT_VERSION is. The program does not check the transactions before it sends them (VerifyScript is commented out, lines 639-644): C96_alice and C96_bob prove that they are valid. C96_bob_sends_refuted: an output without address before that of the contract stops Bob's reclaim with KeyError (line 527 reads 'addresses' of every output)."),
"C97":("proved","Evaluation of expressions is the relation Ev of SpecEval.v: calls of the constructors with the arguments they accept, lists, literals; texts of scripts are printed by bitcointx and their values are a parameter. C97_asset_refuted, C97_issuance_refuted: eval(repr(obj)) raises for explicit assets (so for most outputs) and for issuances."),
"C98":("proved","Extends C54 (factors) to ephemeral keys and seeds. C98_ex3: a stream for which the balancing factor is zero (two draws fewer)."),
"C99":("proved","Composes with C71 (calls lie in the contract). Surjection proof objects are values here; their memory is C75. OutputsFit: sizes of what the library writes (33, 64, 5134, 4096 bytes) assumed from its headers."),
"C100":("proved","Ids are compared as the bytes that are hashed (as in C95); wf_fields t: a transaction that survives the wire, but for the number of witnesses."),
"C101":("proved","Non-interference. Veils: generators, commitments and proofs may depend on the random numbers, scripts, keys and parameters, not on amounts, assets, messages and sums of factors. How much the real library's results tell is a matter of its cryptography. C101_left_refuted: the condition that no output is left as it was is needed."),
"C102":("proved","Assumes result sizes of the library (SizesOk), an index below the number of targets from sp_init (IndexOk), valid draws (RandOk), and that no token id is 32 zero bytes (in WellTyped; the code asserts it). C102_unchanged_refuted: a spendable output of value 0 raises RuntimeError after earlier outputs were blinded. C102_stray_refuted and C102_retoken_refuted: the two conditions on keys are needed."),
"C103":("proved","C103_blinds_all and C103_confidential, strict or not; C103_needs_output: the condition on outputs is necessary for a strict success when there is anything to blind. That sp_init succeeds is a hypothesis (Provable): the code asks the library for a proof over at most 3 of the targets within 100 rounds, and whether that can fail for an asset among the targets is up to the library, which is not modelled. C103_foreign_asset_refuted: an output whose asset is no target stays explicit."),
"C104":("proved","No hypothesis says that the call succeeds: that follows (C103). The contract of the library is SizesOk, IndexOk, CodecLaws, RewindLaw, KeyLaws, BlindSumLaw and VerifierLaws. C104_ex: the toy library, a payment with two inputs, an issuance with tokens and four blinded outputs meets all hypotheses."),
"C105":("proved","A statement about two runs. C105_readdressed needs nothing of the library; C105_same_id, about the id, needs the documented sizes. The output left alone because its balancing factor came out zero is excluded from the claim about output witnesses only. C105_range_refuted: the key does show in its own range proof; C105_schnorr_refuted: taproot signatures cover it. C105_ex: toy library, one output and the tokens readdressed."),
"C106":("proved","The two runs are shown to go in step (SameProofs.v), so no outcome is excluded. C106_result gives the whole second result in terms of the first and of the second transaction; C106_signed is the case of signatures. C106_balance_refuted: blind() succeeds with the same factors on two transactions with the same inputs whose outputs have different sums. C106_same_outcome is the case of as many outputs, C106_key_list_refuted shows that the condition on the number of keys is needed when outputs are added (empty keys beyond the last output are refused). C106_longer_ex adds a fee output. C106_ex: the toy transaction with everything changed that may be."),
"C107":("proved","C107_same_ask is an equality of whole runs, so no outcome is excluded. C107_fill and C107_full are the forms for filled-up key lists; C107_determined joins it with C98_replay and C106_same_work. C107_amount_refuted: strict success with a negative amount in the descriptor of an input without blinding factors. C107_too_long_refuted: empty entries beyond the last output are refused. C107_ex: the toy transaction with an empty key for the fee output and a negative amount."),
})
