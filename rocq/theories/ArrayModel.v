(** blind_transaction, unblind_confidential_pair and get_rangeproof_info with arguments that may be [bytes] or [bytearray],
    as documented and as checked by ensure_isinstance (core/__init__.py:1164, 1189, 1279, 1006, 1983, 1995, 550-555).
    A [bytearray] is a reference into the heap; [len] and iteration work as for bytes. An argument declared
    [ctypes.c_char_p] (core/secp256k1.py:82-87, 89, 130-145) takes None, bytes and c_char arrays: a bytearray raises
    ctypes.ArgumentError before the library is called. *)
From Coq Require Import List ZArith Strings.String.
From Verif Require Import Base Serialize TxModel IssuanceModel MiscModel BlindModel UnblindModel.
Import ListNotations.
Local Open Scope Z_scope.
Local Open Scope blind_scope.

(** conversion of an argument to [c_char_p] *)
Definition char_p (x : pybuf) : res bytes := match x with PBytes b => Ok b | PByteArray _ => Raise EArgument end.

Definition set_aux (args : blind_args) (aux : list bytes) : blind_args :=
  mkArgs (a_descs args) (a_pubkeys args) (a_asset_keys args) (a_token_keys args) aux (a_ct_exponent args) (a_ct_bits args) (a_strict args).

Section Blind.
Variables (z : Crypto) (rand : nat -> bytes) (h : heap).
(** [a_aux args0] is not read: the auxiliary generators are [aux] *)
Variables (aux : list pybuf) (args0 : blind_args).
Let args := set_aux args0 (map (deref h) aux).

(** core/__init__.py:1311-1391, one iteration; the generator is parsed at 1318-1319 *)
Definition targets_input_buf (i : nat) (T : Targets) : M Targets :=
  desc <- lift (nth_res (a_descs args) i) ;;
  asset_generator <-
    (if uint256_is_null (d_asset desc) then
       match aux with
       | [] => mreturn (BFailure (F_asset_empty i))
       | _ => x <- lift (nth_res aux i) ;;
              ag <- lift (char_p x) ;;
              match gen_parse z ag with
              | Some g => mret g
              | None => mreturn (BFailure (F_aux_invalid i))
              end
       end
     else lib_call (gen_generate_blinded z (d_asset desc) (d_abf desc))) ;;
  T <- add_target T (d_asset desc) asset_generator (d_abf desc) ;;
  t <- get_tx ;;
  inp <- lift (nth_res (vin t) i) ;;
  let iss := assetIssuance inp in
  if issuance_is_null iss then mret T
  else if conf_is_commitment CConfValue (is_amount iss) then mreturn (BFailure F_amount_commitment)
  else if conf_is_commitment CConfValue (is_keys iss) then mreturn (BFailure F_keys_commitment)
  else
    at_ <- (if uint256_is_null (is_nonce iss) then
             let blind_issuance := match key_at (a_token_keys args) i with Some _ => true | None => false end in
             entropy <- lift (generate_asset_entropy (c_hash z) (c_mid z) (prevout inp) (is_entropy iss)) ;;
             asset <- lift (calculate_asset (c_mid z) entropy) ;;
             token <- lift (calculate_reissuance_token (c_mid z) entropy blind_issuance) ;;
             mret (asset, set_token T token)
           else
             asset <- lift (calculate_asset (c_mid z) (is_entropy iss)) ;;
             mret (asset, T)) ;;
    let '(asset, T) := at_ in
    T <- (if conf_is_null (is_amount iss) then mret T
          else gen <- lib_call (gen_generate z asset) ;;
               add_target T asset gen (zeros 32)) ;;
    if conf_is_null (is_keys iss) then mret T
    else match t_token T with
         | None => mraise EUnboundLocal
         | Some token =>
             _ <- lift (rassert (negb (uint256_is_null token)) EAssert) ;;
             gen <- lib_call (gen_generate z token) ;;
             add_target T token gen (zeros 32)
         end.

(** core/__init__.py:1393-1409, one iteration *)
Definition targets_aux_buf (nx : nat * pybuf) (T : Targets) : M Targets :=
  let '(n, x) := nx in
  ag <- lift (char_p x) ;;
  match gen_parse z ag with
  | None => mreturn (BFailure (F_aux_invalid n))
  | Some gen => add_target T (zeros 32) gen (zeros 32)
  end.

(** core/__init__.py:1265-1424 *)
Definition surjection_targets_buf : M (list bytes * list bytes * list bytes) :=
  t <- get_tx ;;
  let n := length (vin t) in
  let num_targets := (n * 3 + (match aux with [] => 0 | _ => length aux - n end))%nat in
  T <- for_in (seq 0 n) targets_input_buf (mkT (repeat None num_targets) (repeat None num_targets) [] 0 None) ;;
  T <- (match aux with
        | [] => mret T
        | _ => for_in (combine (seq n (length aux - n)) (skipn n aux)) targets_aux_buf T
        end) ;;
  _ <- lift (rassert (t_total T =? length (t_blinders T))%nat EAssert) ;;
  _ <- lift (rassert (forallb is_none_b (skipn (t_total T) (t_tags T))) EAssert) ;;
  _ <- lift (rassert (forallb is_none_b (skipn (t_total T) (t_gens T))) EAssert) ;;
  tags <- lift (all_some (firstn (t_total T) (t_tags T))) ;;
  gens <- lift (all_some (firstn (t_total T) (t_gens T))) ;;
  mret (tags, gens, t_blinders T).

(** core/__init__.py:1184-1734; after 1424 [auxiliary_generators] is not used *)
Definition blind_body_buf : M blind_ret :=
  _ <- check_arguments args ;;
  tgb <- surjection_targets_buf ;;
  let '(tags, gens, blinders) := tgb in
  t <- get_tx ;;
  let nin := length (vin t) in
  let L := mkL 0 0 0 0 0 [] [] [] (repeat None (length (vout t))) (repeat None (length (vout t))) in
  L <- for_in (seq 0 nin) (count_input args) L ;;
  let pubs := combine (seq 0 (length (a_pubkeys args))) (a_pubkeys args) in
  L <- for_in pubs (count_output z) L ;;
  L <- for_in (seq 0 nin) (blind_input z rand args) L ;;
  t <- get_tx ;;
  _ <- put_tx (set_outwits t (pad_to (length (vout t)) outwit_null (vtxoutwit (wit t)))) ;;
  L <- for_in pubs (blind_output z rand args tags gens blinders) L ;;
  mret (blinding_result args L).
Definition blind_transaction_buf (t : tx) : outcome blind_ret * St :=
  match blind_body_buf (mkSt t 0) with
  | (Val r, s) => (Ret r, s)
  | x => x
  end.
End Blind.

Section Unblind.
Variables (z : Crypto) (h : heap).
(** core/__init__.py:1978-2117: the range proof is handed over at 2059-2068 *)
Definition unblind_confidential_pair_buf (blinding_key confValue confAsset confNonce committedScript : bytes) (rangeproof : pybuf) : res result :=
  if blen (deref h rangeproof) =? 0 then new_failure "rangeproof is empty"
  else
    let! x := unblind_nonce z blinding_key confNonce committedScript in
    match x with
    | inl f => Ok f
    | inr (nonce, script) =>
      if negb (conf_is_commitment CConfValue confValue) then new_failure "value is not a commitment"
      else
        let! y := unblind_generator z confAsset in
        match y with
        | inl f => Ok f
        | inr observed_gen =>
          match ped_parse z confValue with
          | None => new_failure "cannot parse value commitment as Pedersen commitment"
          | Some commit => let! p := char_p rangeproof in unblind_rewind z nonce script observed_gen commit p
          end
        end
    end.
(** core/__init__.py:1005-1016 with the range proof of a CElementsTxOutWitness *)
Definition witness_unblind (o : txout) (blinding_key : bytes) (w : out_obj) : res result :=
  unblind_confidential_pair_buf blinding_key (nValue o) (nAsset o) (nNonce o) (scriptPubKey o) (oo_range w).

(** secp256k1_rangeproof_info: exponent, mantissa, least and greatest value; None: it returns 0 *)
Variable rp_info : bytes -> option (Z * Z * Z * Z).
(** core/__init__.py:572-594 [get_rangeproof_info]; [None]: Python's None *)
Definition get_rangeproof_info (w : out_obj) : res (option (Z * Z * Z * Z)) := let! p := char_p (oo_range w) in Ok (rp_info p).
End Unblind.
