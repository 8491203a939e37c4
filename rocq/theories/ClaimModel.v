(** claim_funds_back of the program examples/asset-atomic-swap.py. *)
From Verif Require Import Base Serialize TxModel MiscModel IssuanceModel BlindModel UnblindModel SpendModel WalletModel SighashModel ScriptModel ExampleModel SwapModel.
Local Open Scope Z_scope.

(** [d[k] = v] for a dict: a key that is present keeps its place *)
Fixpoint dict_set (k : bytes) (v : Z) (d : list (bytes * Z)) : list (bytes * Z) :=
  match d with [] => [(k, v)] | (k', v') :: r => if bytes_eqb k' k then (k, v) :: r else (k', v') :: dict_set k v r end.

Section Claim.
Variable z : Crypto.
Variable dw : default_wit.           (* the witness of a transaction made without one, see TxModel.v *)
Variable ver : Z.                    (* CTransaction.CURRENT_VERSION of bitcointx *)
Variable legacy : bytes -> tx -> Z -> Z -> res (bytes * bool).
Variable Hash160 : bytes -> bytes.
Variable sign : bytes -> bytes -> bytes.
Variable fee_asset : bytes.          (* line 70 *)

(** lines 943-952 *)
Fixpoint asset_amounts (us : list utxo) (d : list (bytes * Z)) : res (list (bytes * Z)) :=
  match us with
  | [] => Ok d
  | u :: us =>
    let! amount := (if bytes_eqb (u_asset u) fee_asset
                    then let amount := u_amount u - FIXED_FEE_SATOSHI in
                         let! _ := rassert (FIXED_FEE_SATOSHI <=? amount) EAssert in Ok amount
                    else Ok (u_amount u)) in
    asset_amounts us (dict_set (u_asset u) amount d)
  end.
(** lines 954-960; [new_addr n]: the n-th address that the node makes (get_dst_addr, lines 797-823) *)
Fixpoint claim_outputs (new_addr : nat -> addr) (n : nat) (d : list (bytes * Z)) : res (list (txout * bytes)) :=
  match d with
  | [] => Ok []
  | (asset, amount) :: d =>
    let! o := output_of amount asset (to_scriptPubKey (new_addr n)) in
    let! k := pubkey_of (new_addr n) in
    let! l := claim_outputs new_addr (S n) d in
    Ok ((o, k) :: l)
  end.
(** lines 917-983, up to the message for sendrawtransaction. Line 970 (to_immutable, to_mutable) gives the transaction the
    default witness of its inputs and outputs, as bitcointx does for a witness that is null. *)
Definition claim_funds_back (rand : nat -> bytes) (new_addr : nat -> addr) (us : list utxo) : turn :=
  get! ins := rmap input_of us in
  get! d := asset_amounts us [] in
  get! outs := claim_outputs new_addr 0 d in
  get! f := output_of FIXED_FEE_SATOSHI fee_asset (Ok []) in
  let vo := map fst outs ++ [f] in
  let t := mkTx ins vo 0 ver (dw ins vo) in
  match blind_transaction z rand (mkArgs (map descriptor us) (map snd outs ++ [[]]) [] [] [] None None true) t with
  | (Exc e, _) => Crashes e
  | (Val _, _) => Crashes EAssert              (* not an outcome of blind_transaction *)
  | (Ret (BFailure _), _) => Crashes EAssert   (* lines 976-977 *)
  | (Ret (BSuccess n _ _), s) =>
    if (n =? length us)%nat then
      get! t := sign_all z legacy Hash160 sign (s_tx s) 0 us in
      get! b := tx_serialize t in
      Sends t b
    else Crashes EAssert
  end.
End Claim.
