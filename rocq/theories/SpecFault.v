(** Specification: the reasons for which blind() refuses, in the order in which it looks for them. *)
From Verif Require Import Base TxModel BlindModel SpecBlind.
Local Open Scope Z_scope.

(** A confidential amount. *)
Definition Committed (x : bytes) : Prop := exists b d, x = b :: d /\ (b = x08 \/ b = x09) /\ length d = 32%nat.
Definition Fee (o : txout) : Prop := scriptPubKey o = [] /\ (exists u, ExplicitValue (nValue o) u) /\ (exists a, ExplicitAsset (nAsset o) a).
Definition issues (inp : txin) : Prop := is_amount (assetIssuance inp) <> [] \/ is_keys (assetIssuance inp) <> [].

Section Fault.
Variables (z : Crypto) (args : blind_args) (t : tx).
(** [FaultAt phase i k f]: in phase [phase], item [i], check [k] finds fault [f]. Phase 0: descriptors and issuances of the
    inputs; 1: auxiliary generators beyond the inputs; 2: factors and issuance keys; 3: outputs. *)
Inductive FaultAt : nat -> nat -> nat -> failure -> Prop :=
| FA_asset_empty i d : (i < length (vin t))%nat -> nth_error (a_descs args) i = Some d -> d_asset d = zeros 32 -> a_aux args = [] ->
    FaultAt 0 i 0 (F_asset_empty i)
| FA_aux i d ag : (i < length (vin t))%nat -> nth_error (a_descs args) i = Some d -> d_asset d = zeros 32 -> nth_error (a_aux args) i = Some ag -> gen_parse z ag = None ->
    FaultAt 0 i 0 (F_aux_invalid i)
| FA_amount_confidential i inp : nth_error (vin t) i = Some inp -> Committed (is_amount (assetIssuance inp)) -> FaultAt 0 i 1 F_amount_commitment
| FA_keys_confidential i inp : nth_error (vin t) i = Some inp -> Committed (is_keys (assetIssuance inp)) -> FaultAt 0 i 2 F_keys_commitment
| FA_spare i ag : (length (vin t) <= i)%nat -> nth_error (a_aux args) i = Some ag -> gen_parse z ag = None -> FaultAt 1 i 0 (F_aux_invalid i)
| FA_negative i d : (i < length (vin t))%nat -> nth_error (a_descs args) i = Some d -> d_bf d <> zeros 32 \/ d_abf d <> zeros 32 -> d_amount d < 0 ->
    FaultAt 2 i 0 (F_negative_amount i)
| FA_amount i inp key : nth_error (vin t) i = Some inp -> issues inp -> nth i (a_asset_keys args) None = Some key ->
    ~ (exists u, ExplicitValue (is_amount (assetIssuance inp)) u) -> FaultAt 2 i 1 (F_amount_not_explicit i)
| FA_amount_proof i inp key w : nth_error (vin t) i = Some inp -> issues inp -> nth i (a_asset_keys args) None = Some key ->
    nth_error (vtxinwit (wit t)) i = Some w -> iw_issproof w <> [] -> FaultAt 2 i 2 (F_amount_proof_in_place i)
| FA_keys i inp key : nth_error (vin t) i = Some inp -> issues inp -> nth i (a_token_keys args) None = Some key ->
    ~ (exists u, ExplicitValue (is_keys (assetIssuance inp)) u) -> FaultAt 2 i 3 (F_keys_not_explicit i)
| FA_keys_proof i inp key w : nth_error (vin t) i = Some inp -> issues inp -> nth i (a_token_keys args) None = Some key ->
    nth_error (vtxinwit (wit t)) i = Some w -> iw_keysproof w <> [] -> FaultAt 2 i 4 (F_keys_proof_in_place i)
| FA_pubkey j pub : nth_error (a_pubkeys args) j = Some pub -> pub <> [] -> pk_fullyvalid z pub = false -> FaultAt 3 j 0 (F_pubkey_invalid j)
| FA_value j pub o : nth_error (a_pubkeys args) j = Some pub -> pub <> [] -> nth_error (vout t) j = Some o -> ~ (exists u, ExplicitValue (nValue o) u) ->
    FaultAt 3 j 1 (F_value_not_explicit j)
| FA_asset j pub o : nth_error (a_pubkeys args) j = Some pub -> pub <> [] -> nth_error (vout t) j = Some o -> ~ (exists a, ExplicitAsset (nAsset o) a) ->
    FaultAt 3 j 2 (F_asset_not_explicit j)
| FA_witness j pub w : nth_error (a_pubkeys args) j = Some pub -> pub <> [] -> nth_error (vtxoutwit (wit t)) j = Some w -> ow_surj w <> [] \/ ow_range w <> [] ->
    FaultAt 3 j 3 (F_witness_in_place j)
| FA_fee j pub o : nth_error (a_pubkeys args) j = Some pub -> pub <> [] -> nth_error (vout t) j = Some o -> Fee o -> FaultAt 3 j 4 (F_fee_output j).

(** [f] is a fault, and no fault comes before it. *)
Definition FirstFault (f : failure) : Prop := exists p i k, FaultAt p i k f /\
  forall p' i' k' f', FaultAt p' i' k' f' -> (p < p')%nat \/ (p = p' /\ ((i < i')%nat \/ (i = i' /\ (k <= k')%nat))).
Definition Faulty : Prop := exists p i k f, FaultAt p i k f.
End Fault.
