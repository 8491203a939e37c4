(** Specification: transactions that spend the contract on the side of Elements (examples/confidential-cross-chain-atomic-swap.py). *)
From Verif Require Import Base TxModel MiscModel BlindModel UnblindModel SpendModel WalletModel SighashModel LegacyModel SpecBlind SpecExample.
Local Open Scope Z_scope.

(** [commit] is the serialisation of a transaction whose first output with the hash of the contract is output [n], [o]; with the key it
    is opened as [amount] of [asset]. *)
Definition Committed (z : Crypto) (dw : default_wit) (Hash160 : bytes -> bytes) (commit contract key : bytes) (n : nat) (o : txout) (asset : bytes) (amount : Z) : Prop :=
  exists from w bf abf, tx_deserialize dw commit = Ok from
  /\ FirstWith (vout from) ([xa9; x14] ++ Hash160 contract ++ [x87]) n o /\ nth_error (vtxoutwit (wit from)) n = Some w
  /\ txout_unblind z o key (ow_range w) = Ok (UnblindingSuccess asset amount bf abf).
(** [t] spends this output alone, with the sequence number, to [dst] except for the fee of 0.01; one output holds nothing. *)
Record SpendsContract (txid : bytes) (n : nat) (sequence : Z) (dst : addr) (asset : bytes) (t : tx) : Prop := {
  sc_in : exists i, vin t = [i] /\ prevout i = mkOutPoint txid (Z.of_nat n) /\ nSequence i = sequence /\ is_pegin i = false
    /\ issuance_is_null (assetIssuance i) = true;
  sc_locktime : nLockTime t = 0;
  sc_out : exists o d f, vout t = [o; d; f] /\ to_scriptPubKey dst = Ok (scriptPubKey o) /\ scriptPubKey d = [x6a]
    /\ scriptPubKey f = [] /\ to_asset (nAsset f) = Ok asset /\ to_amount (nValue f) = Ok 1000000
}.
(** What is signed for input 0 of [t]. *)
Definition SignedHash (z : Crypto) (contract : bytes) (t : tx) (hash : bytes) : Prop :=
  exists amount, sighash (legacy_sighash (c_hash z)) (c_hash z) contract t 0 1 amount SIGVERSION_BASE = Ok hash.
(** OP_CHECKSIG in the contract, for signatures with hash type ALL; [verify]: key, hash, signature. *)
Definition Checks (z : Crypto) (verify : bytes -> bytes -> bytes -> Prop) (contract : bytes) (t : tx) (sig key : bytes) : Prop :=
  exists s hash, sig = s ++ [x01] /\ SignedHash z contract t hash /\ verify key hash s.
(** OP_CHECKSEQUENCEVERIFY (BIP 112) in the script of input 0 *)
Definition OldEnough (t : tx) (n : Z) : Prop :=
  exists i, nth_error (vin t) 0 = Some i /\ 2 <= nVersion t /\ Z.testbit (nSequence i) 31 = false
  /\ Z.testbit n 22 = Z.testbit (nSequence i) 22 /\ Z.land n 0xffff <= Z.land (nSequence i) 0xffff.
