(** The program examples/spend-to-confidential-address.py: spends the first output of a transaction that it holds the keys of. *)
From Verif Require Import Base Serialize TxModel MiscModel IssuanceModel BlindModel UnblindModel SpendModel WalletModel SighashModel ScriptModel.
Local Open Scope Z_scope.

(** How the program ends. *)
Inductive stop :=
| NotFound             (* lines 109-111 *)
| NoFeeOutput          (* lines 115-117 *)
| CannotUnblind        (* lines 135-138 *)
| TooSmall             (* lines 151-155 *)
| CannotBlind (f : failure).   (* lines 223-225 *)
Inductive ending :=
| Stopped (why : stop)                                  (* sys.exit(-1) *)
| Crashed (e : exn)                                     (* an exception *)
| AssertFailed (line : nat)                             (* one of the program's own assertions, the one at line 103 is [Crashed EAssert] *)
| Printed (t : tx) (hex : bytes) (n : nat) (bfs : list bytes).   (* line 268; what was blinded, the factors reported *)
Definition bindE {A} (r : res A) (k : A -> ending) : ending := match r with Ok a => k a | Raise e => Crashed e end.
Notation "'try!' x := r 'in' k" := (bindE r (fun x => k)) (at level 200, x pattern, r at level 100, k at level 200, right associativity).
Definition assertE (line : nat) (b : bool) (k : ending) : ending := if b then k else AssertFailed line.

(** examples/spend-to-confidential-address.py:94-107: the loop over the outputs. [utxo], [utxo_n]: the first output with the script; [fee]: asset and amount of the last
    fee output, with the assertion that all have the same asset. *)
Definition scan_step (src : bytes) (st : option (nat * txout) * option (bytes * Z)) (no : nat * txout) : res (option (nat * txout) * option (bytes * Z)) :=
  let '(utxo, fee) := st in
  let '(in_n, in_vout) := no in
  let utxo := match utxo with None => if bytes_eqb (scriptPubKey in_vout) src then Some (in_n, in_vout) else None | Some _ => utxo end in
  if txout_is_fee in_vout then
    let! _ := rassert (match fee with None => true | Some (a, _) => bytes_eqb a (nAsset in_vout) end) EAssert in
    let! v := to_amount (nValue in_vout) in
    Ok (utxo, Some (nAsset in_vout, v))
  else Ok (utxo, fee).
Fixpoint rfold {A B} (f : A -> B -> res A) (l : list B) (a : A) : res A :=
  match l with [] => Ok a | x :: r => let! a := f a x in rfold f r a end.
Definition scan (src : bytes) (t : tx) : res (option (nat * txout) * option (bytes * Z)) :=
  rfold (scan_step src) (combine (seq 0 (length (vout t))) (vout t)) (None, None).

Section Program.
Variable z : Crypto.
Variable rand : nat -> bytes.
Variable dw : default_wit.           (* the witness of a transaction made without one, see TxModel.v *)
Variable ver : Z.                    (* CTransaction.CURRENT_VERSION of bitcointx *)
Variable legacy : bytes -> tx -> Z -> Z -> res (bytes * bool).   (* the legacy hash, not used for witness version 0 *)
Variable Hash160 : bytes -> bytes.
Variable sign : bytes -> bytes.      (* key.sign of bitcointx *)

(** lines 123-144: the description of the input, or the end *)
Definition describe (input_tx : tx) (n : nat) (utxo : txout) (bkey : bytes) (k : input_desc -> ending) : ending :=
  if conf_is_explicit CConfValue (nValue utxo) then
    try! amount_to_spend := to_amount (nValue utxo) in
    assertE 126 (conf_is_explicit CConfAsset (nAsset utxo)) (
    try! asset_to_spend := to_asset (nAsset utxo) in
    k (mkDesc asset_to_spend amount_to_spend (zeros 32) (zeros 32)))
  else
    try! w := nth_res (vtxoutwit (wit input_tx)) n in
    try! r := txout_unblind z utxo bkey (ow_range w) in
    match get_descriptor r with Some d => k d | None => Stopped CannotUnblind end.

(** lines 173-187: the unblinded transaction and the public keys. bitcointx's CTxIn without further arguments has
    sequence number 0xffffffff, an empty script, no issuance (core/__init__.py:818-829). *)
Definition plain_input (o : outpoint) : txin := mkTxIn o [] 0xffffffff issuance_default false.
Definition spend_tx (prev : outpoint) (d : input_desc) (dst_script : bytes) (fee : bytes * Z) : res tx :=
  let! v := conf_value_of_amount (d_amount d - snd fee) in
  let! a := conf_asset_of_asset (d_asset d) in
  let! fv := conf_value_of_amount (snd fee) in
  let ins := [plain_input prev] in
  let outs := [mkTxOut v dst_script a []; mkTxOut fv [] (fst fee) []] in
  Ok (mkTx ins outs 0 ver (dw ins outs)).
(** lines 189-202: nothing blinded otherwise, so one more output *)
Definition dummy_output (d : input_desc) : res txout :=
  let! v := conf_value_of_amount 0 in
  let! a := conf_asset_of_asset (d_asset d) in
  Ok (mkTxOut v [x6a] a []).
Definition add_out (o : txout) (t : tx) : tx := mkTx (vin t) (vout t ++ [o]) (nLockTime t) (nVersion t) (wit t).

(** lines 239-263: the signature. VerifyScript is bitcointx's, it changes nothing. *)
Definition set_script (t : tx) (scriptsig : bytes) (stack : list bytes) : res tx :=
  match vin t, vtxinwit (wit t) with
  | i :: ins, _ :: ws => Ok (mkTx (mkTxIn (prevout i) scriptsig (nSequence i) (assetIssuance i) (is_pegin i) :: ins) (vout t) (nLockTime t) (nVersion t)
                                  (mkTxWit (mkInWit stack [] [] [] :: ws) (vtxoutwit (wit t))))
  | _, _ => Raise EIndex
  end.
Definition sign_tx (t : tx) (pub : bytes) (amount : bytes) : res tx :=
  let h := Hash160 pub in
  let! hash := sighash legacy (c_hash z) ([x76; xa9; x14] ++ h ++ [x88; xac]) t 0 SIGHASH_ALL (Some amount) SIGVERSION_WITNESS_V0 in
  set_script t ([x16; x00; x14] ++ h) [sign hash ++ [zb SIGHASH_ALL]; pub].

(** lines 204-268: blind, sign, print *)
Definition complete (d : input_desc) (output_pubkeys : list bytes) (utxo : txout) (pub : bytes) (t : tx) : ending :=
  try! unblinded_serialized := tx_serialize t in
  match blind_transaction z rand (mkArgs [d] output_pubkeys [] [] [] None None true) t with
  | (Exc e, _) => Crashed e
  | (Val _, _) => Crashed EAssert   (* not an outcome of blind_transaction *)
  | (Ret (BFailure f), _) => Stopped (CannotBlind f)
  | (Ret (BSuccess n bfs abfs), s) =>
    assertE 228 (n =? length (filter is_nonempty output_pubkeys))%nat (
    try! same := (if (n =? 0)%nat then let! b := tx_serialize (s_tx s) in Ok (bytes_eqb unblinded_serialized b) else Ok true) in
    assertE 234 same (
    try! signed := sign_tx (s_tx s) pub (nValue utxo) in
    try! hex := tx_serialize signed in
    Printed signed hex n bfs))
  end.

(** lines 88-202. [src]: the script of the key's address; [bkey]: the unblinding key; [dst]: the destination address;
    [dummy_key]: os.urandom(32). *)
Definition program (input_tx : tx) (pub bkey : bytes) (dst : addr) (dummy_key : bytes) : ending :=
  let src := [xa9; x14] ++ Hash160 ([x00; x14] ++ Hash160 pub) ++ [x87] in
  try! uf := scan src input_tx in
  match uf with
  | (None, _) => Stopped NotFound
  | (Some _, None) => Stopped NoFeeOutput
  | (Some (utxo_n, utxo), Some (fee_asset, fee_value)) =>
    describe input_tx utxo_n utxo bkey (fun d =>
    if d_amount d <? fee_value * 2 then Stopped TooSmall
    else
    try! dst_script := to_scriptPubKey dst in
    try! body := ser_tx false false input_tx in
    try! prev := outpoint_new (c_hash z body) (Z.of_nat utxo_n) in
    try! t := spend_tx prev d dst_script (fee_asset, fee_value) in
    let output_pubkeys := [if ad_conf dst then blinding_pubkey dst else []; []] in
    try! tp := (if negb (conf_is_explicit CConfValue (nValue utxo)) && negb (ad_conf dst) then
                  if sk_valid z dummy_key then
                    let! o := dummy_output d in Ok (add_out o t, output_pubkeys ++ [sk_pub z dummy_key])
                  else Raise EValue
                else Ok (t, output_pubkeys)) in
    let '(t, output_pubkeys) := tp in
    complete d output_pubkeys utxo pub t)
  end.
End Program.
