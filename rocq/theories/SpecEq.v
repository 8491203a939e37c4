(** Specification for C95: which objects are to be taken as the same. *)
From Verif Require Import Base TxModel SpecWire.
Local Open Scope Z_scope.

(** Lengths that the constructors of the three field classes accept. *)
Definition constructible (c : cclass) (x : bytes) : Prop := x = [] \/ blen x = 33 \/ (c = CConfValue /\ blen x = 9).
Definition constructible_out (o : txout) : Prop :=
  constructible CConfAsset (nAsset o) /\ constructible CConfValue (nValue o) /\ constructible CConfNonce (nNonce o) /\ small (scriptPubKey o).
Definition constructible_iss (i : issuance) : Prop :=
  blen (is_nonce i) = 32 /\ blen (is_entropy i) = 32 /\ constructible CConfValue (is_amount i) /\ constructible CConfValue (is_keys i).

(** an index that the flag bits leave room for, or that of a coinbase input *)
Definition good_index (i : txin) : Prop := op_n (prevout i) < 2 ^ 30 \/ op_n (prevout i) = 2 ^ 32 - 1.
(** The same input: an issuance without amount and keys does not count, nor do issuance and peg-in of a coinbase input. *)
Definition SameIn (i j : txin) : Prop :=
  prevout i = prevout j /\ scriptSig i = scriptSig j /\ nSequence i = nSequence j
  /\ (op_n (prevout i) = 2 ^ 32 - 1
      \/ is_pegin i = is_pegin j /\ (assetIssuance i = assetIssuance j \/ has_issuance i = false /\ has_issuance j = false)).
(** the one index whose flags make it that of a coinbase input *)
Definition full_index (i : txin) : Prop := op_n (prevout i) = 2 ^ 30 - 1 /\ has_issuance i = true /\ is_pegin i = true.
Definition plain_in (i : txin) : Prop := txin_in_range i /\ good_index i /\ ~ full_index i.
Definition plain_body (t : tx) : Prop :=
  - 2 ^ 31 <= nVersion t < 2 ^ 31 /\ 0 <= nLockTime t < 2 ^ 32
  /\ Z.of_nat (length (vin t)) < 2 ^ 64 /\ Z.of_nat (length (vout t)) < 2 ^ 64 /\ Forall plain_in (vin t) /\ Forall wf_txout (vout t).
Definition SameBody (t u : tx) : Prop :=
  nVersion t = nVersion u /\ nLockTime t = nLockTime u /\ Forall2 SameIn (vin t) (vin u) /\ vout t = vout u.
(** witnesses that hold nothing are the same whatever their length *)
Definition SameWit (a b : txwit) : Prop := a = b \/ NullWit a /\ NullWit b.
