(** Specification for C107: arguments that ask blind() for the same. *)
From Verif Require Import Base TxModel BlindModel.
Local Open Scope Z_scope.

(** Descriptors of an input: the amount counts only where a blinding factor is given. *)
Definition SameDesc (d d' : input_desc) : Prop :=
  d_asset d' = d_asset d /\ d_bf d' = d_bf d /\ d_abf d' = d_abf d
  /\ ((d_bf d = zeros 32 /\ d_abf d = zeros 32) \/ d_amount d' = d_amount d).
(** Key lists that say the same when the end is filled up with empty entries, and of which both or neither is too long for the transaction. *)
Definition SameKeys {A} (none : A) (room : nat) (l l' : list A) : Prop :=
  (forall i, nth i l' none = nth i l none) /\ ((length l' <= room)%nat <-> (length l <= room)%nat).
Record SameAsk (t : tx) (args args' : blind_args) : Prop := {
  sa_descs : Forall2 SameDesc (a_descs args) (a_descs args');
  sa_pubkeys : SameKeys [] (length (vout t)) (a_pubkeys args) (a_pubkeys args');
  sa_asset_keys : SameKeys None (length (vin t)) (a_asset_keys args) (a_asset_keys args');
  sa_token_keys : SameKeys None (length (vin t)) (a_token_keys args) (a_token_keys args');
  sa_aux : a_aux args' = a_aux args;
  sa_exponent : a_ct_exponent args' = a_ct_exponent args;
  sa_bits : a_ct_bits args' = a_ct_bits args;
  sa_strict : a_strict args' = a_strict args
}.
