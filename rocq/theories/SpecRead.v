(** Specification for C91, separate from the model of the deserialiser: how much
    room the contents of a transaction take at the least. *)
From Verif Require Import Base TxModel.
Local Open Scope Z_scope.

Fixpoint total {A} (f : A -> Z) (l : list A) : Z :=
  match l with [] => 0 | x :: r => f x + total f r end.

(** 32 bytes of hash, 4 of index, 4 of sequence, one at least for the length of the script;
    the amounts of an issuance when there is one *)
Definition in_room (i : txin) : Z :=
  41 + blen (scriptSig i) + blen (is_amount (assetIssuance i)) + blen (is_keys (assetIssuance i)).
(** every field takes at least one byte *)
Definition out_room (o : txout) : Z :=
  Z.max 1 (blen (nAsset o)) + Z.max 1 (blen (nValue o)) + Z.max 1 (blen (nNonce o)) + 1 + blen (scriptPubKey o).
Definition item_room (b : bytes) : Z := 1 + blen b.
Definition inwit_room (w : inwit) : Z :=
  4 + blen (iw_issproof w) + blen (iw_keysproof w) + total item_room (iw_script w) + total item_room (iw_pegin w).
Definition outwit_room (w : outwit) : Z := 2 + blen (ow_surj w) + blen (ow_range w).
(** version, flag, the two counts, lock time *)
Definition body_room (t : tx) : Z := 11 + total in_room (vin t) + total out_room (vout t).
Definition wit_room (t : tx) : Z := total inwit_room (vtxinwit (wit t)) + total outwit_room (vtxoutwit (wit t)).
