(** The program examples/unblind.py: from a raw transaction and a blinding key, what it prints. *)
From Coq Require Import Strings.String.
From Verif Require Import Base Serialize TxModel MiscModel BlindModel UnblindModel WalletModel CrossTxModel.
Local Open Scope Z_scope.

(** One line of text each; how the values are formatted is not modelled. *)
Inductive heading := HFee | HExplicit | HCannot (e : string) | HUnblinded.
Inductive line :=
| LBlank
| LVout (n : nat) (h : heading)     (* "vout {}: .." *)
| LAddress (a : addr)               (* "  destination address:" and the address *)
| LDestination                      (* "  destination address:" alone *)
| LConfidential (a : addr)
| LUnconfidential (a : addr)
| LAmount (v : Z)                   (* in satoshi *)
| LFactor (b : bytes)
| LAsset (b : bytes)
| LAssetFactor (b : bytes)
| LExponent (e : Z) | LBits (m : Z) | LMinimum (v : Z) | LMaximum (v : Z).
(** What was printed, and the exception that ends the program, if one does. *)
Definition printed : Type := list line * option exn.
Definition say (l : line) (k : printed) : printed := (l :: fst k, snd k).
Definition bindP {A} (r : res A) (k : A -> printed) : printed := match r with Ok a => k a | Raise e => ([], Some e) end.
Notation "'try!' x := r 'in' k" := (bindP r (fun x => k)) (at level 200, x pattern, r at level 100, k at level 200, right associativity).

Section View.
Variable z : Crypto.
Variable dw : default_wit.           (* the witness of a transaction made without one, see TxModel.v *)
Variable cur : chain.                (* the chain selected in lines 37-44 *)
Variable find : bytes -> option (kind * bytes).   (* bitcointx: CCoinAddress.from_scriptPubKey; None: CCoinAddressError *)
Variable rp_info : bytes -> option (Z * Z * Z * Z).   (* secp256k1_rangeproof_info, core/__init__.py:572-594 *)

Definition address_of (script : bytes) : res addr := match find script with Some (k, d) => Ok (mkAddr cur k false d) | None => Raise EAddress end.
(** bitcointx satoshi_to_coins with check_range *)
Definition in_coins (v : Z) : res Z := if MoneyRange v then Ok v else Raise EValue.

(** lines 84-92 *)
Definition show_info (w : txwit) (n : nat) (k : printed) : printed :=
  if negb (txwit_is_null w) then
    try! ow := nth_res (vtxoutwit w) n in
    match rp_info (ow_range ow) with
    | Some (exp, mantissa, value_min, value_max) => say (LExponent exp) (say (LBits mantissa) (say (LMinimum value_min) (say (LMaximum value_max) k)))
    | None => k
    end
  else k.
(** lines 60-108: the body of the loop, then the rest *)
Definition show_output (t : tx) (bkey pub : bytes) (n : nat) (o : txout) (rest : printed) : printed :=
  let done := say LBlank rest in
  if conf_is_explicit CConfValue (nValue o) then
    try! _ := rassert (conf_is_explicit CConfAsset (nAsset o)) EAssert in
    let amounts :=
      try! v := to_amount (nValue o) in
      try! v := in_coins v in
      say (LAmount v) (try! a := to_asset (nAsset o) in say (LAsset a) done) in
    if txout_is_fee o then say (LVout n HFee) amounts
    else say (LVout n HExplicit) (try! a := address_of (scriptPubKey o) in say (LAddress a) amounts)
  else
    try! w := nth_res (vtxoutwit (wit t)) n in
    try! r := txout_unblind z o bkey (ow_range w) in
    match r with
    | Failure e => say (LVout n (HCannot e)) (try! a := address_of (scriptPubKey o) in say (LAddress a) (show_info (wit t) n done))
    | UnblindingSuccess asset amount bf abf =>
      say (LVout n HUnblinded) (
      try! a := address_of (scriptPubKey o) in
      try! c := from_unconfidential (pk_fullyvalid z) cur cur CAny a pub in
      say LDestination (say (LConfidential c) (say (LUnconfidential a) (
      try! v := in_coins amount in
      say (LAmount v) (say (LFactor bf) (say (LAsset asset) (say (LAssetFactor abf) done)))))))
    | BlindingSuccess _ _ _ => ([], Some EAssert)   (* line 94 *)
    end.
Fixpoint show_outputs (t : tx) (bkey pub : bytes) (n : nat) (outs : list txout) : printed :=
  match outs with [] => ([], None) | o :: outs => show_output t bkey pub n o (show_outputs t bkey pub (S n) outs) end.
(** lines 46-108, from the bytes that the two files hold *)
Definition unblind_program (raw bkey : bytes) : printed :=
  try! t := tx_deserialize dw raw in
  try! pub := key_pub z bkey in
  say LBlank (show_outputs t bkey pub 0 (vout t)).
End View.
