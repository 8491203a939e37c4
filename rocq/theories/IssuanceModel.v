(** Model of the asset and token id derivation, elementstx/core/__init__.py:1737-1770.

    [Hash] is bitcointx double SHA-256; [mid] is [CSHA256().Write(a).Write(b).Midstate()]
    as a function of the 64 bytes [a ++ b]. Argument types (bytes, bytearray, Uint256) are all
    byte strings here. *)
From Verif Require Import Base Serialize TxModel.
Local Open Scope Z_scope.

(** bitcointx [Uint256.from_int]: little-endian. *)
Definition uint256_from_int (n : Z) : bytes := le_bytes 32 n.
(** [Uint256.is_null], [CAsset.is_null]: all bytes zero. *)
Definition uint256_is_null (u : bytes) : bool := bytes_eqb u (zeros 32).

(** core/__init__.py:1737-1746 [generate_asset_entropy]. *)
Definition generate_asset_entropy (Hash mid : bytes -> bytes) (prev : outpoint) (contracthash : bytes) : res bytes :=
  let! _ := rassert (blen contracthash =? 32) EAssert in
  let! p := ser_outpoint prev in
  uint256_new (mid (Hash p ++ contracthash)).

(** core/__init__.py:1749-1755 [calculate_asset] *)
Definition calculate_asset (mid : bytes -> bytes) (entropy : bytes) : res bytes :=
  if negb (blen entropy =? 32) then Raise EValue
  else uint256_new (mid (entropy ++ uint256_from_int 0)).

(** core/__init__.py:1758-1770 [calculate_reissuance_token] *)
Definition calculate_reissuance_token (mid : bytes -> bytes) (entropy : bytes) (is_confidential : bool) : res bytes :=
  if negb (blen entropy =? 32) then Raise EValue
  else
    let k := if is_confidential then uint256_from_int 2 else uint256_from_int 1 in
    uint256_new (mid (entropy ++ k)).
