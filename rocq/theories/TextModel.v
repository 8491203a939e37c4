(** The texts of BlindingFailure, core/__init__.py:1247-1498, and the result object that blind() returns. *)
From Coq Require Import Strings.String Numbers.DecimalString Numbers.DecimalNat.
From Verif Require Import Base MiscModel BlindModel.
Local Open Scope string_scope.

(** [str(n)] and ['%d' % n] for a non-negative int *)
Definition dec (n : nat) : string := NilEmpty.string_of_uint (Nat.to_uint n).

(** The two texts at 1462-1464 and 1475-1477 lack [% nIn]: they contain the two characters "%d". *)
Definition failure_text (f : failure) : string :=
  match f with
  | F_aux_invalid i => "auxiliary generator " ++ dec i ++ " is not valid"                                               (* 1322-1323, 1403-1404 *)
  | F_asset_empty i => "input asset " ++ dec i ++ " is empty, but auxiliary_generators was not supplied"                 (* 1325-1327 *)
  | F_amount_commitment => "issuance is not empty, but nAmount is a commitment"                                         (* 1348-1349 *)
  | F_keys_commitment => "issuance is not empty, but nInflationKeys is a commitment"                                    (* 1351-1352 *)
  | F_negative_amount i => "input blinding factors (or asset blinding factors) for input " ++ dec i ++
      " is not empty, but amount specified for this input is negative"                                                  (* 1439-1442 *)
  | F_amount_not_explicit i => "blind_issuance_asset_keys is specified for input " ++ dec i ++
      ", but issuance.nAmount is not explicit"                                                                          (* 1454-1456 *)
  | F_amount_proof_in_place _ => "blind_issuance_asset_keys is specified for input %d, but issuanceAmountRangeproof is already in place"
                                                                                                                        (* 1462-1464 *)
  | F_keys_not_explicit i => "blind_issuance_token_keys is specified for input " ++ dec i ++
      ", but issuance.nInflationKeys is not explicit"                                                                   (* 1468-1470 *)
  | F_keys_proof_in_place _ => "blind_issuance_token_keys is specified for input %d, but inflationKeysRangeproof is already in place"
                                                                                                                        (* 1475-1477 *)
  | F_pubkey_invalid i => "blinding pubkey for output " ++ dec i ++ " is not valid"                                     (* 1483-1484 *)
  | F_value_not_explicit i => "valid blinding pubkey specified for output " ++ dec i ++
      ", but nValue for this output is not explicit"                                                                    (* 1486-1488 *)
  | F_asset_not_explicit i => "valid blinding pubkey specified for output " ++ dec i ++
      ", but nAsset for this output is not explicit"                                                                    (* 1490-1492 *)
  | F_witness_in_place i => "valid blinding pubkey specified for output " ++ dec i ++
      ", but txout witness for this output is already in place"                                                         (* 1494-1496 *)
  | F_fee_output i => "valid blinding pubkey specified for output " ++ dec i ++ ", but this output is a fee output"     (* 1498-1500 *)
  | F_count a b => "blinded " ++ dec a ++ " outputs/issuances, but should have blinded " ++ dec b ++
      " (this check can be turned off with is_blind_success_strict=False)"                                              (* 1247-1250 *)
  end.

(** The object returned by blind(); [Failure] and [BlindingSuccess] of MiscModel *)
Definition blind_object (r : blind_ret) : res result :=
  match r with
  | BFailure f => new_failure (failure_text f)
  | BSuccess n bfs abfs => new_blinding_success (Z.of_nat n) bfs abfs
  end.
(** [tx.blind(...)]: the object, or the exception *)
Definition blind_call (z : Crypto) (rand : nat -> bytes) (args : blind_args) (t : TxModel.tx) : res result :=
  match blind_transaction z rand args t with
  | (Ret r, _) => blind_object r
  | (Exc e, _) => Raise e
  | (Val r, _) => blind_object r   (* does not occur *)
  end.
