(** Unblinding, core/__init__.py:1005-1016 and 1978-2117.
    The library's answers are those of [Crypto]; a call that returns 0 is None. A rewind returns the
    blinding factor buffer, the amount (a c_uint64) and the message, whose length is [msg_size.value].
    Not modelled: ensure_isinstance checks (arguments have the documented types), min_value and max_value
    (written by the library, never read). *)
From Coq Require Import Strings.String.
From Verif Require Import Base Serialize TxModel MiscModel BlindModel.
Local Open Scope Z_scope.

Section Unblind.
Variable z : Crypto.

(** 2005-2015: the rangeproof nonce and the committed script; [inl]: failure result *)
Definition unblind_nonce (blinding_key confNonce committedScript : bytes) : res (result + bytes * bytes) :=
  if 0 <? blen confNonce then
    if negb (is_fullyvalid z confNonce) then let! f := new_failure "nNonce.commitment is not a valid pubkey" in Ok (inl f)
    else match ecdh z blinding_key confNonce with
         | None => Raise ERuntime
         | Some shared => Ok (inr (c_sha z shared, committedScript))
         end
  else Ok (inr (blinding_key, [])).

(** 2027-2042: [observed_gen] starts as 64 zero bytes; nothing is done for a null or invalid asset *)
Definition unblind_generator (confAsset : bytes) : res (result + bytes) :=
  if conf_is_commitment CConfAsset confAsset then
    match gen_parse z confAsset with
    | Some g => Ok (inr g)
    | None => let! f := new_failure "cannot parse asset commitment as a generator" in Ok (inl f)
    end
  else if conf_is_explicit CConfAsset confAsset then
    let! a := to_asset confAsset in
    match gen_generate z a with
    | Some g => Ok (inr g)
    | None => let! f := new_failure "unable to create a generator out of asset explicit data" in Ok (inl f)
    end
  else Ok (inr (zeros 64)).

(** 2059-2117: rewind and check *)
Definition unblind_rewind (nonce script observed_gen commit rangeproof : bytes) : res result :=
  match rp_rewind z nonce commit rangeproof script observed_gen with
  | None => new_failure "unable to rewind rangeproof"
  | Some (blinding_factor, amount, msg) =>
    if negb (MoneyRange amount) then new_failure "resulting amount after rangeproof rewind is outside MoneyRange"
    else if negb (blen msg =? 64) then new_failure "resulting message after rangeproof rewind is not 64 bytes in size"
    else
      let asset_type := firstn 32 msg in
      let asset_blinder := firstn 32 (skipn 32 msg) in
      match gen_generate_blinded z asset_type asset_blinder with
      | None => new_failure "unable to recalculate a generator from asset type and asset blinder resulted from rangeproof rewind"
      | Some recalculated_gen =>
        match gen_serialize z observed_gen with
        | None => Raise ERuntime
        | Some observed_generator =>
          match gen_serialize z recalculated_gen with
          | None => Raise ERuntime
          | Some derived_generator =>
            if negb (bytes_eqb observed_generator derived_generator)
            then new_failure "generator recalculated after rangeproof rewind does not match generator presented in asset commitment"
            else
              let! bf := uint256_new blinding_factor in
              let! a := uint256_new asset_type in
              let! abf := uint256_new asset_blinder in
              new_unblinding_success a amount bf abf
          end
        end
      end
  end.

(** 1978-2117 [unblind_confidential_pair] *)
Definition unblind_confidential_pair (blinding_key confValue confAsset confNonce committedScript rangeproof : bytes) : res result :=
  if blen rangeproof =? 0 then new_failure "rangeproof is empty"
  else
    let! x := unblind_nonce blinding_key confNonce committedScript in
    match x with
    | inl f => Ok f
    | inr (nonce, script) =>
      if negb (conf_is_commitment CConfValue confValue) then new_failure "value is not a commitment"
      else
        let! y := unblind_generator confAsset in
        match y with
        | inl f => Ok f
        | inr observed_gen =>
          match ped_parse z confValue with
          | None => new_failure "cannot parse value commitment as Pedersen commitment"
          | Some commit => unblind_rewind nonce script observed_gen commit rangeproof
          end
        end
    end.

(** 1005-1016: method of CTxOut *)
Definition txout_unblind (o : txout) (blinding_key rangeproof : bytes) : res result :=
  unblind_confidential_pair blinding_key (nValue o) (nAsset o) (nNonce o) (scriptPubKey o) rangeproof.
End Unblind.
