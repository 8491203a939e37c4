(** Specification: a reissuing input as its owner builds it, and a transaction containing such inputs. *)
From Verif Require Import Base TxModel BlindModel IssuanceModel SpecBlind SpecMulti SpecNode SpecSpend.
Local Open Scope Z_scope.

Section Reissue.
Variable z : Crypto.

(** The input spends an output described by [d]: the blinding nonce is the asset blinding factor found by unblinding, the
    entropy is that of the first issuance, and the asset of the output is the token computed from the entropy, of the kind
    that goes with the reissued amount being blinded or not. No tokens are issued. *)
Definition Reissues (confidential : bool) (inp : txin) (d : input_desc) : Prop :=
  is_nonce (assetIssuance inp) = d_abf d /\ d_abf d <> zeros 32
  /\ is_keys (assetIssuance inp) = []
  /\ calculate_reissuance_token (c_mid z) (is_entropy (assetIssuance inp)) confidential = Ok (d_asset d).
Definition Issues (inp : txin) : Prop := is_amount (assetIssuance inp) <> [] \/ is_keys (assetIssuance inp) <> [].
(** Everything explicit; no proofs yet. *)
Record Plain (t : tx) : Prop := {
  pl_out : forall o, In o (vout t) -> exists a g, ExplicitAsset (nAsset o) a /\ gen_generate z a = Some g
    /\ (Amount (nValue o) \/ (nValue o = x01 :: zeros 8 /\ unspendable (scriptPubKey o) = true));
  pl_outwit : forall j, outwit_at t j = mkOutWit [] [];
  pl_iss : forall inp ps, In inp (vin t) -> iss_field ps inp = [] \/ Amount (iss_field ps inp);
  pl_inwit : forall i ps, iss_proof ps (inwit_at t i) = [];
  pl_ninwit : forall i inp, nth_error (vin t) i = Some inp -> Issues inp -> (i < length (vtxinwit (wit t)))%nat
}.
(** The parties in turn turned [t] into [t']; each input that issues is a first issuance or reissues. *)
Record Reissuing (calls : list blind_args) (us : list txout) (descs : list input_desc) (t t' : tx) : Prop := {
  ri_calls : calls <> [];
  ri_blindings : Blindings z calls t t';
  ri_plain : Plain t;
  ri_issues : forall i inp d, nth_error (vin t) i = Some inp -> nth_error descs i = Some d -> Issues inp ->
    is_nonce (assetIssuance inp) = zeros 32 \/ Reissues (amount_blinded calls i inp) inp d;
  ri_inputs : length us = length (vin t);
  ri_existing : Forall (Existing z) us;
  ri_described : Forall2 (Described z) us descs;
  ri_gives : forall args i u d, In args calls -> nth_error us i = Some u -> nth_error descs i = Some d -> Gives z args i u d;
  ri_once : described_once calls descs;
  ri_conserves : Conserves z calls descs t
}.
End Reissue.
