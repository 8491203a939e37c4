(** Specification: what the parties of an asset swap sign and get (examples/asset-atomic-swap.py). *)
From Verif Require Import Base TxModel MiscModel BlindModel WalletModel SpecWire SpecBlind SpecNode SpecSpend SpecExample SighashModel LegacyModel ScriptModel SwapModel.
Local Open Scope Z_scope.

(** The holder of [key] reads output [j] of [t] as [amount] of [asset]. *)
Definition Gets (z : Crypto) (t : tx) (j : nat) (key asset : bytes) (amount : Z) : Prop :=
  exists o d, nth_error (vout t) j = Some o /\ Opens z t j o key d /\ d_asset d = asset /\ d_amount d = amount.
(** Output [j] goes to address [a]. *)
Definition PaysTo (t : tx) (j : nat) (a : addr) : Prop := exists o, nth_error (vout t) j = Some o /\ to_scriptPubKey a = Ok (scriptPubKey o).
Definition outpoint_of (u : utxo) : outpoint := mkOutPoint (u_txid u) (u_vout u).

(** [t] spends one more output and those of [mine], in this order; it has five outputs: one, two for Bob, the change and the fee. *)
Record AliceSigns (mine : list utxo) (b1 b2 change : addr) (fee_asset : bytes) (fee : Z) (t : tx) : Prop := {
  al_in : exists p, map prevout (vin t) = p :: map outpoint_of mine;
  al_out : length (vout t) = 5%nat;
  al_bob1 : PaysTo t 1 b1;
  al_bob2 : PaysTo t 2 b2;
  al_change : PaysTo t 3 change;
  al_fee : exists o, nth_error (vout t) 4 = Some o /\ scriptPubKey o = [] /\ to_asset (nAsset o) = Ok fee_asset /\ to_amount (nValue o) = Ok fee
}.
(** Nothing but the script and the witness of input [i] was changed. *)
Record OnlyInput (i : nat) (t t' : tx) : Prop := {
  oi_version : nVersion t' = nVersion t;
  oi_locktime : nLockTime t' = nLockTime t;
  oi_out : vout t' = vout t;
  oi_outwit : vtxoutwit (wit t') = vtxoutwit (wit t);
  oi_in : exists a x b ss, vin t = a ++ x :: b /\ length a = i /\ vin t' = a ++ mkTxIn (prevout x) ss (nSequence x) (assetIssuance x) (is_pegin x) :: b;
  oi_inwit : forall k, k <> i -> nth_error (vtxinwit (wit t')) k = nth_error (vtxinwit (wit t)) k
}.

(** What a node tells of the output [o] is true; [o] is blinded. *)
Record Truth (z : Crypto) (u : utxo) (o : txout) : Prop := {
  tr_described : Described z o (descriptor u);
  tr_blinded : hd x00 (nAsset o) <> x01;
  tr_commitment : u_commitment u = Some (nAsset o);
  tr_asset : u_asset u <> zeros 32 /\ gen_generate z (u_asset u) <> None;
  tr_amount : 0 < u_amount u;
  tr_index : 0 <= u_vout u < 2 ^ 30
}.
(** Transactions are made with one empty witness for each input and output. *)
Definition FullNull (dw : default_wit) : Prop :=
  forall ins outs, NullWit (dw ins outs) /\ length (vtxinwit (dw ins outs)) = length ins /\ length (vtxoutwit (dw ins outs)) = length outs.
(** Sizes of public keys, their hashes and signatures. *)
Definition SmallKeys (Hash160 : bytes -> bytes) (sign : bytes -> bytes -> bytes) (us : list utxo) : Prop :=
  (forall x, blen (Hash160 x) = 20) /\ (forall k h, blen (sign k h) <= 100) /\ Forall (fun u => blen (u_pub u) <= 100) us.
(** [u] is the first of the least ones among those of [l] that are big enough for the fee (twice 10000). *)
Definition Least (l : list utxo) (u : utxo) : Prop := exists p q, l = p ++ u :: q /\ 20000 <= u_amount u
  /\ (forall v, In v p -> 20000 <= u_amount v -> u_amount u < u_amount v) /\ (forall v, In v q -> 20000 <= u_amount v -> u_amount u <= u_amount v).
(** Input [i] of [t] carries the signature, by the key of [u], of the hash of [t] itself with hash type ALL, placed as [u]'s kind of
    address demands. *)
Definition Signature (z : Crypto) (Hash160 : bytes -> bytes) (sign : bytes -> bytes -> bytes) (t : tx) (i : nat) (u : utxo) : Prop :=
  let pub := u_pub u in
  let kind := ad_kind (u_addr u) in
  exists x value hash sig, nth_error (vin t) i = Some x
  /\ match u_value u with Some b => value = b | None => to_amount value = Ok (u_amount u) end
  /\ sighash (legacy_sighash (c_hash z)) (c_hash z) ([x76; xa9; x14] ++ Hash160 pub ++ [x88; xac]) t (Z.of_nat i) 1 (Some value)
       (if kind_eqb kind P2PKH then SIGVERSION_BASE else SIGVERSION_WITNESS_V0) = Ok hash
  /\ sig = sign pub hash ++ [x01]
  /\ match kind with
     | P2PKH => exists a b, encode_op_pushdata sig = Ok a /\ encode_op_pushdata pub = Ok b /\ scriptSig x = a ++ b
     | P2WPKH => scriptSig x = [] /\ exists w, nth_error (vtxinwit (wit t)) i = Some w /\ iw_script w = [sig; pub]
     | P2SH => encode_op_pushdata ([x00; x14] ++ Hash160 pub) = Ok (scriptSig x) /\ exists w, nth_error (vtxinwit (wit t)) i = Some w /\ iw_script w = [sig; pub]
     | _ => False
     end.
