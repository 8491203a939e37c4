(** Specification: the transaction by which Alice takes her funds back (examples/asset-atomic-swap.py). *)
From Verif Require Import Base TxModel MiscModel BlindModel WalletModel SwapModel SpecSwap.
Local Open Scope Z_scope.

(** what is left of an output: the fee is taken from the one of the fee's asset *)
Definition net (fee_asset : bytes) (u : utxo) : Z := if bytes_eqb (u_asset u) fee_asset then u_amount u - 10000 else u_amount u.
(** [t] spends the outputs [us], one of each asset, to one new address each, and pays the fee. *)
Record Claims (fee_asset : bytes) (new_addr : nat -> addr) (us : list utxo) (t : tx) : Prop := {
  cl_assets : NoDup (map u_asset us);
  cl_in : map prevout (vin t) = map outpoint_of us;
  cl_out : length (vout t) = (length us + 1)%nat;
  cl_pays : forall n u, nth_error us n = Some u -> PaysTo t n (new_addr n);
  cl_fee : exists o, nth_error (vout t) (length us) = Some o /\ scriptPubKey o = [] /\ to_asset (nAsset o) = Ok fee_asset /\ to_amount (nValue o) = Ok 10000;
  cl_enough : forall u, In u us -> u_asset u = fee_asset -> 20000 <= u_amount u
}.
