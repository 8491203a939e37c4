(** The program examples/confidential-cross-chain-atomic-swap.py: the transactions that spend the contract on the side of Elements. *)
From Verif Require Import Base Serialize TxModel MiscModel IssuanceModel BlindModel UnblindModel SpendModel WalletModel SighashModel ScriptModel ExampleModel SwapModel CrossModel.
Local Open Scope Z_scope.

(** lines 107, 110: coins_to_satoshi of 1.01 and 0.01 *)
Definition agreed : Z := 101000000.
Definition fixed_fee : Z := 1000000.
(** line 104 *)
Definition elements_timeout : Z := 10.

(** How a party's attempt to spend the contract ends. *)
Inductive refusal :=
| NoContract                    (* lines 496-497 *)
| NotUnblinded                  (* lines 488-490 *)
| OtherAsset                    (* lines 491-494 *)
| OtherAmount                   (* lines 386-390 *)
| NotBlinded (f : failure).     (* lines 691-692 *)
Inductive attempt :=
| Sent (t : tx) (b : bytes)     (* sendrawtransaction *)
| Refused (why : refusal)       (* die() *)
| Broken (e : exn).             (* another exception *)
Definition bindA {A} (r : res A) (k : A -> attempt) : attempt := match r with Ok a => k a | Raise e => Broken e end.
Notation "'can!' x := r 'in' k" := (bindA r (fun x => k)) (at level 200, x pattern, r at level 100, k at level 200, right associativity).

Section CrossTx.
Variable z : Crypto.
Variable dw : default_wit.           (* the witness of a transaction made without one, see TxModel.v *)
Variable ver : Z.                    (* CTransaction.CURRENT_VERSION of bitcointx *)
Variable legacy : bytes -> tx -> Z -> Z -> res (bytes * bool).   (* the legacy hash *)
Variable Hash160 : bytes -> bytes.
Variable E : Curve.
Variable sha : bytes -> bytes.
Variable bitcoin_asset : bytes.

(** P2SHCoinAddress.from_redeemScript(contract).to_scriptPubKey(), lines 369 and 562 *)
Definition contract_script (contract : bytes) : bytes := [xa9; x14] ++ Hash160 contract ++ [x87].
(** lines 482-499 [find_and_unblind_vout] *)
Fixpoint find_vout (script : bytes) (n : nat) (outs : list txout) : option (nat * txout) :=
  match outs with [] => None | o :: outs => if bytes_eqb (scriptPubKey o) script then Some (n, o) else find_vout script (S n) outs end.
Definition find_and_unblind_vout (t : tx) (contract bkey : bytes) (k : nat -> Z -> bytes -> bytes -> attempt) : attempt :=
  match find_vout (contract_script contract) 0 (vout t) with
  | None => Refused NoContract
  | Some (n, o) =>
    can! w := nth_res (vtxoutwit (wit t)) n in
    can! r := txout_unblind z o bkey (ow_range w) in
    match r with
    | UnblindingSuccess asset amount bf abf => if negb (bytes_eqb asset bitcoin_asset) then Refused OtherAsset else k n amount bf abf
    | _ => Refused NotUnblinded
    end
  end.

(** CKey.from_secret_bytes and its .pub *)
Definition key_pub (secret : bytes) : res bytes := if sk_valid z secret then Ok (sk_pub z secret) else Raise EValue.
(** lines 654-674: the transaction before blinding and the two public keys *)
Definition output_with (amount : Z) (script nonce : res bytes) : res txout :=
  let! v := conf_value_of_amount amount in
  let! a := conf_asset_of_asset bitcoin_asset in
  let! script := script in
  let! nonce := nonce in
  let! nonce := conf_new CConfNonce nonce in
  Ok (mkTxOut v script a nonce).
Definition unblinded_tx (dst : addr) (dummy txid : bytes) (n : nat) : res (tx * list bytes) :=
  let! dummy_pub := key_pub dummy in
  let! prev := outpoint_new txid (Z.of_nat n) in
  let! o := output_with (agreed - fixed_fee) (to_scriptPubKey dst) (pubkey_of dst) in
  let! d := output_with 0 (Ok [x6a]) (Ok dummy_pub) in
  let! f := output_with fixed_fee (Ok []) (Ok []) in
  let! dst_pub := pubkey_of dst in
  let ins := [plain_input prev] in
  let outs := [o; d; f] in
  Ok (mkTx ins outs 0 ver (dw ins outs), [dst_pub; dummy_pub]).
(** line 697 *)
Definition set_sequence (t : tx) (seq : Z) : res tx :=
  match vin t with
  | i :: ins => Ok (mkTx (mkTxIn (prevout i) (scriptSig i) seq (assetIssuance i) (is_pegin i) :: ins) (vout t) (nLockTime t) (nVersion t) (wit t))
  | [] => Raise EIndex
  end.
(** lines 649-719 [create_elt_spend_tx]. [reclaim]: branch_condition is False; [sign]: spend_key.sign; [finish]: the script from the
    signature. *)
Definition create_elt_spend_tx (rand : nat -> bytes) (dst : addr) (dummy txid : bytes) (n : nat) (contract bf abf : bytes) (reclaim : bool)
    (sign : bytes -> bytes) (finish : bytes -> res bytes) (k : tx -> attempt) : attempt :=
  can! tp := unblinded_tx dst dummy txid n in
  match blind_transaction z rand (mkArgs [mkDesc bitcoin_asset agreed bf abf] (snd tp) [] [] [] None None true) (fst tp) with
  | (Exc e, _) => Broken e
  | (Val _, _) => Broken EAssert   (* not an outcome of blind_transaction *)
  | (Ret (BFailure f), _) => Refused (NotBlinded f)
  | (Ret (BSuccess _ _ _), s) =>
    can! t := (if reclaim then set_sequence (s_tx s) elements_timeout else Ok (s_tx s)) in
    can! amount := conf_value_of_amount agreed in
    can! hash := sighash legacy (c_hash z) contract t 0 SIGHASH_ALL (Some amount) SIGVERSION_BASE in
    can! script := finish (sign hash ++ [zb SIGHASH_ALL]) in
    can! t := set_input t 0 script None in
    k t
  end.

(** lines 381-415: Bob, from the bytes of Alice's transaction *)
Definition bob_claims (rand : nat -> bytes) (commit txid contract bkey : bytes) (contract_key : Z) (flip : Z -> bool) (dst : addr) (dummy : bytes) (sign : bytes -> bytes) : attempt :=
  can! from := tx_deserialize dw commit in
  find_and_unblind_vout from contract bkey (fun n amount bf abf =>
  if negb (amount =? agreed) then Refused OtherAmount
  else
    can! _ := rassert (ad_conf dst) EAssert in
    create_elt_spend_tx rand dst dummy txid n contract bf abf false sign (fun sig => reveal_script E sha flip contract sig contract_key (be_val bkey)) (fun t =>
    can! b := tx_serialize t in
    Sent t b)).
(** lines 574-590: Alice takes her asset back *)
Definition alice_reclaims (rand : nat -> bytes) (commit txid contract bkey : bytes) (dst : addr) (dummy : bytes) (sign : bytes -> bytes) : attempt :=
  can! from := tx_deserialize dw commit in
  find_and_unblind_vout from contract bkey (fun n _ bf abf =>
  create_elt_spend_tx rand dst dummy txid n contract bf abf true sign (fun sig => reclaim_script contract sig) (fun t =>
  can! b := tx_serialize t in
  Sent t b)).
End CrossTx.
