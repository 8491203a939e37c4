(** Specification: what a program that spends one output of a transaction found, read and made (examples/). *)
From Verif Require Import Base TxModel MiscModel BlindModel UnblindModel SpendModel SighashModel SpecBlind SpecSpend.
Local Open Scope Z_scope.

(** P2SH script of the P2WPKH script of a public key *)
Definition p2sh_p2wpkh (Hash160 : bytes -> bytes) (pub : bytes) : bytes :=
  [xa9; x14] ++ Hash160 ([x00; x14] ++ Hash160 pub) ++ [x87].
(** Output [k] is the first that pays to [script]. *)
Definition FirstWith (outs : list txout) (script : bytes) (k : nat) (u : txout) : Prop :=
  nth_error outs k = Some u /\ scriptPubKey u = script
  /\ forall m o, (m < k)%nat -> nth_error outs m = Some o -> scriptPubKey o <> script.
(** All fee outputs have the asset field [asset]; the last of them has amount [v]. *)
Definition FeeOf (outs : list txout) (asset : bytes) (v : Z) : Prop :=
  (forall o, In o outs -> txout_is_fee o = true -> nAsset o = asset)
  /\ exists pre o post, outs = pre ++ o :: post /\ txout_is_fee o = true /\ nAsset o = asset /\ to_amount (nValue o) = Ok v
     /\ forall o', In o' post -> txout_is_fee o' = false.
(** The holder of [key] reads output [k] of [t]: amount and asset in plain sight, or unblinded with the range proof in [t]. *)
Definition Opens (z : Crypto) (t : tx) (k : nat) (u : txout) (key : bytes) (d : input_desc) : Prop :=
  (exists a v, to_asset (nAsset u) = Ok a /\ to_amount (nValue u) = Ok v /\ d = mkDesc a v (zeros 32) (zeros 32))
  \/ (conf_is_explicit CConfValue (nValue u) = false
      /\ exists w r, nth_error (vtxoutwit (wit t)) k = Some w /\ txout_unblind z u key (ow_range w) = Ok r /\ get_descriptor r = Some d).
(** [t] spends output [k] of [from], described by [d], to [script] and a fee of [fee] in asset field [asset]; an output in plain
    sight if [plain]. *)
Record Pays (z : Crypto) (from : tx) (k : nat) (d : input_desc) (script asset : bytes) (fee : Z) (plain : bool) (t : tx) : Prop := {
  py_enough : 2 * fee <= d_amount d;
  py_in : exists body i, ser_tx false false from = Ok body /\ vin t = [i] /\ prevout i = mkOutPoint (c_hash z body) (Z.of_nat k)
     /\ nSequence i = 0xffffffff /\ is_pegin i = false /\ issuance_is_null (assetIssuance i) = true;
  py_out : exists o f rest, vout t = o :: f :: rest /\ scriptPubKey o = script
     /\ (plain = true -> to_amount (nValue o) = Ok (d_amount d - fee) /\ to_asset (nAsset o) = Ok (d_asset d))
     /\ txout_is_fee f = true /\ nAsset f = asset /\ to_amount (nValue f) = Ok fee
     (* at most one output more, which nobody can spend *)
     /\ (length rest <= 1)%nat /\ Forall (fun x => scriptPubKey x = [x6a]) rest
}.
(** An output that exists on the chain: possible asset and amount, and the asset is not in plain sight unless the amount is. *)
Definition OnChain (z : Crypto) (u : txout) : Prop :=
  Existing z u /\ forall a, ExplicitAsset (nAsset u) a -> exists v, ExplicitValue (nValue u) v.

(** Input 0 of [t] may take an output with a P2SH script of a P2WPKH script (BIP 16, 141, 143): its script only pushes the redeem
    script, whose hash is in the output; the witness is a signature with hash type ALL and a key, whose hash is in the redeem
    script; the signature is one of the hash of [t] with the output's value. [verify]: key, hash, signature. *)
Definition Unlocks (z : Crypto) (Hash160 : bytes -> bytes) (verify : bytes -> bytes -> bytes -> Prop) (u : txout) (t : tx) : Prop :=
  exists i w redeem h sig key hash, nth_error (vin t) 0 = Some i /\ nth_error (vtxinwit (wit t)) 0 = Some w
  /\ scriptPubKey u = [xa9; x14] ++ Hash160 redeem ++ [x87] /\ scriptSig i = zb (blen redeem) :: redeem
  /\ redeem = [x00; x14] ++ h /\ blen h = 20
  /\ iw_script w = [sig ++ [x01]; key] /\ h = Hash160 key
  /\ (forall legacy, sighash legacy (c_hash z) ([x76; xa9; x14] ++ h ++ [x88; xac]) t 0 1 (Some (nValue u)) SIGVERSION_WITNESS_V0 = Ok hash)
  /\ verify key hash sig.
