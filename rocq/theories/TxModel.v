(** Model of the serialisable structures of elementstx/core/__init__.py.

    Simplifications common to the whole file: Python attribute types are
    enforced by Coq types instead of [ensure_isinstance]; mutable and immutable
    variants of a class are the same record (see ObjModel.v and MiscModel.v for where
    the difference is observable); [repr]/[str] are in PrintModel.v. *)
From Verif Require Import Base Serialize.
Local Open Scope Z_scope.

(** core/__init__.py:69-76 *)
Definition OUTPOINT_ISSUANCE_FLAG : Z := 2 ^ 31.
Definition OUTPOINT_PEGIN_FLAG : Z := 2 ^ 30.
Definition OUTPOINT_INDEX_MASK : Z := 0x3fffffff.

(** * Confidential fields: core/__init__.py:221-305

    An object is its [commitment] byte string; the class only matters through
    the three class constants. *)
Inductive cclass := CConfAsset | CConfValue | CConfNonce.

(** core/__init__.py:327-330, 357-360, 386-389 *)
Definition explicitSize (c : cclass) : Z :=
  match c with CConfAsset => 33 | CConfValue => 9 | CConfNonce => 33 end.
Definition prefixA (c : cclass) : Z :=
  match c with CConfAsset => 10 | CConfValue => 8 | CConfNonce => 2 end.
Definition prefixB (c : cclass) : Z :=
  match c with CConfAsset => 11 | CConfValue => 9 | CConfNonce => 3 end.
(** core/__init__.py:229 *)
Definition committedSize : Z := 33.

(** core/__init__.py:233-241 [CConfidentialCommitmentBase.__init__] *)
Definition conf_new (c : cclass) (commitment : bytes) : res bytes :=
  let n := blen commitment in
  if (n =? 0) || (n =? explicitSize c) || (n =? committedSize)
  then Ok commitment else Raise EValue.

(** core/__init__.py:243-264 [stream_deserialize] *)
Definition deser_conf (c : cclass) : parser bytes :=
  do! vb := ser_read 1 in
  let version := le_val vb in
  do! read_size :=
    (if version =? 0 then pret 0
     else if version =? 1 then pret (explicitSize c)
     else if (version =? prefixA c) || (version =? prefixB c) then pret committedSize
     else pfail EWitnessSerialization) in
  do! commitment :=
    (if 0 <? read_size
     then do! t := ser_read (read_size - 1) in pret ([zb version] ++ t)
     else pret []) in
  fun s => match conf_new c commitment with Ok x => Ok (x, s) | Raise e => Raise e end.

(** core/__init__.py:265-269 [stream_serialize] *)
Definition ser_conf (commitment : bytes) : bytes :=
  match commitment with [] => [x00] | _ => commitment end.

(** core/__init__.py:271-287 [is_null], [is_explicit], [is_commitment], [is_valid] *)
Definition conf_is_null (x : bytes) : bool := blen x =? 0.
Definition conf_is_explicit (c : cclass) (x : bytes) : bool :=
  (blen x =? explicitSize c) && match x with b :: _ => bz b =? 1 | [] => false end.
Definition conf_is_commitment (c : cclass) (x : bytes) : bool :=
  (blen x =? committedSize)
  && match x with b :: _ => (bz b =? prefixA c) || (bz b =? prefixB c) | [] => false end.
Definition conf_is_valid (c : cclass) (x : bytes) : bool :=
  conf_is_null x || conf_is_explicit c x || conf_is_commitment c x.

(** [Uint256(data)] of bitcointx, used by CAsset (core/__init__.py:307): 32 bytes. *)
Definition uint256_new (data : bytes) : res bytes :=
  if blen data =? 32 then Ok data else Raise EValue.

(** core/__init__.py:332-341 [CConfidentialAsset(CAsset)]; 348-351 [to_asset] *)
Definition conf_asset_of_asset (asset : bytes) : res bytes := conf_new CConfAsset (x01 :: asset).
Definition to_asset (x : bytes) : res bytes :=
  if conf_is_explicit CConfAsset x then uint256_new (tl x) else Raise EType.

(** core/__init__.py:362-370 [CConfidentialValue(int)]; 377-380 [to_amount] *)
Definition conf_value_of_amount (a : Z) : res bytes :=
  let! b := pack_be_signed 8 a in conf_new CConfValue (x01 :: b).
Definition to_amount (x : bytes) : res Z :=
  if conf_is_explicit CConfValue x then Ok (to_signed 8 (be_val (tl x))) else Raise EType.

(** * Outpoints: bitcointx COutPoint, subclassed at core/__init__.py:399-417 *)
Record outpoint := mkOutPoint { op_hash : bytes; op_n : Z }.

(** COutPoint.__init__ checks *)
Definition outpoint_new (h : bytes) (n : Z) : res outpoint :=
  if negb (blen h =? 32) then Raise EValue
  else if (0 <=? n) && (n <=? 0xffffffff) then Ok (mkOutPoint h n) else Raise EValue.

(** COutPoint.stream_serialize: [assert len(hash) == 32], then "<I" *)
Definition ser_outpoint (o : outpoint) : res bytes :=
  if negb (blen (op_hash o) =? 32) then Raise EAssert
  else let! n := pack_le 4 (op_n o) in Ok (op_hash o ++ n).
Definition deser_outpoint : parser outpoint :=
  do! h := ser_read 32 in
  do! n := read_le 4 in
  fun s => match outpoint_new h n with Ok o => Ok (o, s) | Raise e => Raise e end.

(** * Witnesses *)
(** core/__init__.py:424-466 [CElementsTxInWitness] *)
Record inwit := mkInWit {
  iw_script : list bytes;     (* scriptWitness.stack *)
  iw_issproof : bytes;        (* issuanceAmountRangeproof *)
  iw_keysproof : bytes;       (* inflationKeysRangeproof *)
  iw_pegin : list bytes       (* pegin_witness.stack *)
}.
Definition inwit_null : inwit := mkInWit [] [] [] [].

(** [CScriptWitness.is_null]: empty stack *)
Definition stack_is_null (st : list bytes) : bool := match st with [] => true | _ => false end.

(** core/__init__.py:461-466 [is_null] *)
Definition inwit_is_null (w : inwit) : bool :=
  (blen (iw_issproof w) =? 0) && (blen (iw_keysproof w) =? 0)
  && stack_is_null (iw_script w) && stack_is_null (iw_pegin w).

(** core/__init__.py:468-476 [stream_deserialize] *)
Definition deser_inwit : parser inwit :=
  do! ia := deser_bytes in
  do! ik := deser_bytes in
  do! sw := deser_scriptwitness in
  do! pw := deser_scriptwitness in
  pret (mkInWit sw ia ik pw).

(** core/__init__.py:478-482 [stream_serialize] *)
Definition ser_inwit (w : inwit) : res bytes :=
  let! a := ser_bytes (iw_issproof w) in
  let! b := ser_bytes (iw_keysproof w) in
  let! c := ser_scriptwitness (iw_script w) in
  let! d := ser_scriptwitness (iw_pegin w) in
  Ok (a ++ b ++ c ++ d).

(** core/__init__.py:538-559 [CElementsTxOutWitness] *)
Record outwit := mkOutWit { ow_surj : bytes; ow_range : bytes }.
Definition outwit_null : outwit := mkOutWit [] [].

(** core/__init__.py:557-559 *)
Definition outwit_is_null (w : outwit) : bool := (blen (ow_surj w) =? 0) && (blen (ow_range w) =? 0).

(** core/__init__.py:561-566 *)
Definition deser_outwit : parser outwit :=
  do! s := deser_bytes in
  do! r := deser_bytes in
  pret (mkOutWit s r).

(** core/__init__.py:568-570 *)
Definition ser_outwit (w : outwit) : res bytes :=
  let! a := ser_bytes (ow_surj w) in
  let! b := ser_bytes (ow_range w) in
  Ok (a ++ b).

(** core/__init__.py:635-664 [CElementsTxWitness] *)
Record txwit := mkTxWit { vtxinwit : list inwit; vtxoutwit : list outwit }.

(** core/__init__.py:665-673 *)
Definition txwit_is_null (w : txwit) : bool :=
  forallb inwit_is_null (vtxinwit w) && forallb outwit_is_null (vtxoutwit w).

(** core/__init__.py:675-696; the negative-count checks cannot fire from the
    only caller, which passes list lengths. *)
Definition deser_txwit (num_inputs num_outputs : nat) : parser txwit :=
  do! wi := prep_nat deser_inwit num_inputs in
  do! wo := prep_nat deser_outwit num_outputs in
  pret (mkTxWit wi wo).

(** core/__init__.py:698-702 *)
Definition ser_txwit (w : txwit) : res bytes :=
  let! a := ser_list ser_inwit (vtxinwit w) in
  let! b := ser_list ser_outwit (vtxoutwit w) in
  Ok (a ++ b).

(** * Asset issuance: core/__init__.py:748-800 *)
Record issuance := mkIssuance {
  is_nonce : bytes;      (* assetBlindingNonce.data *)
  is_entropy : bytes;    (* assetEntropy.data *)
  is_amount : bytes;     (* nAmount *)
  is_keys : bytes        (* nInflationKeys *)
}.
(** CAssetIssuance() with its default arguments, core/__init__.py:757-760 *)
Definition issuance_default : issuance := mkIssuance (zeros 32) (zeros 32) [] [].

(** core/__init__.py:771-773 *)
Definition issuance_is_null (i : issuance) : bool :=
  conf_is_null (is_amount i) && conf_is_null (is_keys i).

(** core/__init__.py:775-782 *)
Definition deser_issuance : parser issuance :=
  do! n := deser_uint256 in
  do! e := deser_uint256 in
  do! a := deser_conf CConfValue in
  do! k := deser_conf CConfValue in
  pret (mkIssuance n e a k).

(** core/__init__.py:784-788 *)
Definition ser_issuance (i : issuance) : bytes :=
  is_nonce i ++ is_entropy i ++ ser_conf (is_amount i) ++ ser_conf (is_keys i).

(** * Inputs: core/__init__.py:806-887 *)
Record txin := mkTxIn {
  prevout : outpoint;
  scriptSig : bytes;
  nSequence : Z;
  assetIssuance : issuance;
  is_pegin : bool
}.

(** core/__init__.py:834-862 [CElementsTxIn.stream_deserialize]; the
    superclass part is bitcointx CTxIn: outpoint, script bytes, "<I". *)
Definition deser_txin : parser txin :=
  do! bprev := deser_outpoint in
  do! bsig := deser_bytes in
  do! bseq := read_le 4 in
  do! hpp :=
    (if op_n bprev =? 0xffffffff then pret (false, false, bprev)
     else
       let hai := negb (Z.land (op_n bprev) OUTPOINT_ISSUANCE_FLAG =? 0) in
       let peg := negb (Z.land (op_n bprev) OUTPOINT_PEGIN_FLAG =? 0) in
       fun s => match outpoint_new (op_hash bprev) (Z.land (op_n bprev) OUTPOINT_INDEX_MASK) with
                | Ok o => Ok ((hai, peg, o), s) | Raise e => Raise e end) in
  let '(has_asset_issuance, peg, po) := hpp in
  do! iss := (if has_asset_issuance then deser_issuance else pret issuance_default) in
  pret (mkTxIn po bsig bseq iss peg).

(** core/__init__.py:864-887 [CElementsTxIn.stream_serialize] *)
Definition ser_txin (for_sighash : bool) (i : txin) : res bytes :=
  let! ho :=
    (if op_n (prevout i) =? 0xffffffff then Ok (false, prevout i)
     else if negb (Z.land (op_n (prevout i)) (Z.lnot OUTPOINT_INDEX_MASK) =? 0)
     then Raise ETxInSerialization
     else
       let hai := negb (issuance_is_null (assetIssuance i)) in
       let n := Z.land (op_n (prevout i)) OUTPOINT_INDEX_MASK in
       let n := if negb for_sighash && hai then Z.lor n OUTPOINT_ISSUANCE_FLAG else n in
       let n := if negb for_sighash && is_pegin i then Z.lor n OUTPOINT_PEGIN_FLAG else n in
       let! o := outpoint_new (op_hash (prevout i)) n in
       Ok (hai, o)) in
  let '(has_asset_issuance, o) := ho in
  let! a := ser_outpoint o in
  let! b := ser_bytes (scriptSig i) in
  let! c := pack_le 4 (nSequence i) in
  Ok (a ++ b ++ c ++ (if has_asset_issuance then ser_issuance (assetIssuance i) else [])).

(** * Outputs: core/__init__.py:937-997 *)
Record txout := mkTxOut {
  nValue : bytes;
  scriptPubKey : bytes;
  nAsset : bytes;
  nNonce : bytes
}.

(** core/__init__.py:973-980 *)
Definition deser_txout : parser txout :=
  do! a := deser_conf CConfAsset in
  do! v := deser_conf CConfValue in
  do! n := deser_conf CConfNonce in
  do! s := deser_bytes in
  pret (mkTxOut v s a n).

(** core/__init__.py:982-986 *)
Definition ser_txout (o : txout) : res bytes :=
  let! s := ser_bytes (scriptPubKey o) in
  Ok (ser_conf (nAsset o) ++ ser_conf (nValue o) ++ ser_conf (nNonce o) ++ s).

(** core/__init__.py:988-991 *)
Definition txout_is_null (o : txout) : bool :=
  conf_is_null (nAsset o) && conf_is_null (nValue o) && conf_is_null (nNonce o)
  && (blen (scriptPubKey o) =? 0).

(** core/__init__.py:993-997 *)
Definition txout_is_fee (o : txout) : bool :=
  (blen (scriptPubKey o) =? 0) && conf_is_explicit CConfValue (nValue o)
  && conf_is_explicit CConfAsset (nAsset o).

(** * Transactions: core/__init__.py:1058-1143 *)
Record tx := mkTx {
  vin : list txin;
  vout : list txout;
  nLockTime : Z;
  nVersion : Z;
  wit : txwit
}.

(** [CTransaction(vin, vout, nLockTime, nVersion)] without a witness builds a
    default witness.  bitcointx is not in /repo; whether the default witness is
    empty or holds one null entry per input and output is left open: the
    deserializer takes it as a parameter [dw], and theorems assume only that
    it is null.  [nulls_wit] is the choice made for examples. *)
Definition nulls_wit (i : list txin) (o : list txout) : txwit :=
  mkTxWit (map (fun _ => inwit_null) i) (map (fun _ => outwit_null) o).
Definition default_wit := list txin -> list txout -> txwit.

(** core/__init__.py:1070-1108 [CElementsTransaction.stream_deserialize] *)
Definition deser_tx (dw : default_wit) : parser tx :=
  do! ver := read_le 4 in
  let ver := to_signed 4 ver in
  do! flagbyte := read_le 1 in
  if flagbyte =? 1 then
    do! vi := deser_vector deser_txin in
    do! vo := deser_vector deser_txout in
    do! lt := read_le 4 in
    do! w := deser_txwit (length vi) (length vo) in
    if txwit_is_null w then pfail EValue
    else pret (mkTx vi vo lt ver w)
  else
    do! vi := deser_vector deser_txin in
    do! vo := deser_vector deser_txout in
    do! lt := read_le 4 in
    pret (mkTx vi vo lt ver (dw vi vo)).

(** core/__init__.py:1110-1131 [CElementsTransaction.stream_serialize] *)
Definition ser_tx (include_witness for_sighash : bool) (t : tx) : res bytes :=
  let! ver := pack_le_signed 4 (nVersion t) in
  if include_witness && negb (txwit_is_null (wit t)) then
    let nwi := length (vtxinwit (wit t)) in
    let nwo := length (vtxoutwit (wit t)) in
    let! _ := rassert ((nwi =? 0)%nat || (nwi =? length (vin t))%nat) EAssert in
    let! _ := rassert ((nwo =? 0)%nat || (nwo =? length (vout t))%nat) EAssert in
    let! a := ser_vector (ser_txin false) (vin t) in
    let! b := ser_vector ser_txout (vout t) in
    let! c := pack_le 4 (nLockTime t) in
    let! d := ser_txwit (wit t) in
    Ok (ver ++ [x01] ++ a ++ b ++ c ++ d)
  else
    let! a := ser_vector (ser_txin for_sighash) (vin t) in
    let! b := ser_vector ser_txout (vout t) in
    let! c := pack_le 4 (nLockTime t) in
    Ok (ver ++ (if for_sighash then [] else [x00]) ++ a ++ b ++ c).

(** [tx.serialize()] and [CElementsTransaction.deserialize(b)] *)
Definition tx_serialize (t : tx) : res bytes := ser_tx true false t.
Definition tx_deserialize (dw : default_wit) (b : bytes) : res tx := deserialize_all (deser_tx dw) b.

(** core/__init__.py:1133-1143 [num_issuances] *)
Definition num_issuances (t : tx) : Z :=
  fold_left (fun acc i =>
    let iss := assetIssuance i in
    if negb (issuance_is_null iss) then
      let acc := if negb (conf_is_null (is_amount iss)) then acc + 1 else acc in
      if negb (conf_is_null (is_keys iss)) then acc + 1 else acc
    else acc) (vin t) 0.
