(** Specification of the Elements transaction wire format, as relations
    between a value and the bytes that encode it.  Independent of the
    serializers of [TxModel.v]: only the record types are shared. *)
From Verif Require Import Base TxModel.
Local Open Scope Z_scope.

(** [b] is [n] bytes long and its little-endian value is [z]. *)
Definition le_int (n : nat) (z : Z) (b : bytes) : Prop := length b = n /\ le_val b = z.

(** 32-bit two's complement, little endian. *)
Definition le_sint32 (z : Z) (b : bytes) : Prop :=
  - 2 ^ 31 <= z < 2 ^ 31 /\ le_int 4 (if z <? 0 then z + 2 ^ 32 else z) b.

(** Shortest-form compact size. *)
Inductive W_varint (z : Z) : bytes -> Prop :=
| Wv1 b : 0 <= z < 253 -> le_int 1 z b -> W_varint z b
| Wv2 b : 253 <= z < 2 ^ 16 -> le_int 2 z b -> W_varint z (xfd :: b)
| Wv4 b : 2 ^ 16 <= z < 2 ^ 32 -> le_int 4 z b -> W_varint z (xfe :: b)
| Wv8 b : 2 ^ 32 <= z < 2 ^ 64 -> le_int 8 z b -> W_varint z (xff :: b).

(** Length-prefixed string. *)
Definition W_bytes (d b : bytes) : Prop := exists n, W_varint (blen d) n /\ b = n ++ d.

(** Concatenation of encodings, and counted vector. *)
Inductive W_seq {A} (W : A -> bytes -> Prop) : list A -> bytes -> Prop :=
| Wnil : W_seq W [] []
| Wcons x l b bs : W x b -> W_seq W l bs -> W_seq W (x :: l) (b ++ bs).
Definition W_vec {A} (W : A -> bytes -> Prop) (l : list A) (b : bytes) : Prop :=
  exists n s, W_varint (Z.of_nat (length l)) n /\ W_seq W l s /\ b = n ++ s.

(** Confidential field: one zero byte when null, the commitment itself otherwise. *)
Definition W_conf (x b : bytes) : Prop := (x = [] /\ b = [x00]) \/ (x <> [] /\ b = x).

(** The three legal shapes of a confidential field. *)
Inductive ConfForm (c : cclass) : bytes -> Prop :=
| CF_null : ConfForm c []
| CF_explicit d : 1 + blen d = (match c with CConfValue => 9 | _ => 33 end) -> ConfForm c (x01 :: d)
| CF_commit p d : In p (match c with CConfAsset => [x0a; x0b] | CConfValue => [x08; x09]
                                    | CConfNonce => [x02; x03] end) ->
    blen d = 32 -> ConfForm c (p :: d).

Definition W_inwit (w : inwit) (b : bytes) : Prop :=
  exists a k s p, W_bytes (iw_issproof w) a /\ W_bytes (iw_keysproof w) k
    /\ W_vec W_bytes (iw_script w) s /\ W_vec W_bytes (iw_pegin w) p
    /\ b = a ++ k ++ s ++ p.

Definition W_outwit (w : outwit) (b : bytes) : Prop :=
  exists s r, W_bytes (ow_surj w) s /\ W_bytes (ow_range w) r /\ b = s ++ r.

Definition W_issuance (i : issuance) (b : bytes) : Prop :=
  exists a k, W_conf (is_amount i) a /\ W_conf (is_keys i) k
    /\ b = is_nonce i ++ is_entropy i ++ a ++ k.

(** An input has an issuance record iff its amount or its keys is non-null. *)
Definition has_issuance (i : txin) : bool :=
  match is_amount (assetIssuance i), is_keys (assetIssuance i) with [], [] => false | _, _ => true end.

(** Index as written: coinbase verbatim, otherwise 30-bit index plus 2^31 for
    an issuance plus 2^30 for a peg-in (no flags when written for a legacy signature). *)
Definition wire_index (sighash : bool) (i : txin) (w : Z) : Prop :=
  (op_n (prevout i) = 2 ^ 32 - 1 /\ w = 2 ^ 32 - 1) \/
  (0 <= op_n (prevout i) < 2 ^ 30 /\
   w = op_n (prevout i) + (if negb sighash && has_issuance i then 2 ^ 31 else 0)
       + (if negb sighash && is_pegin i then 2 ^ 30 else 0)).

Definition writes_issuance (i : txin) : bool :=
  negb (op_n (prevout i) =? 2 ^ 32 - 1) && has_issuance i.

Definition W_txin (sighash : bool) (i : txin) (b : bytes) : Prop :=
  exists w n s q iss,
    wire_index sighash i w /\ blen (op_hash (prevout i)) = 32
    /\ le_int 4 w n /\ W_bytes (scriptSig i) s /\ le_int 4 (nSequence i) q
    /\ (if writes_issuance i then W_issuance (assetIssuance i) iss else iss = [])
    /\ b = op_hash (prevout i) ++ n ++ s ++ q ++ iss.

Definition W_txout (o : txout) (b : bytes) : Prop :=
  exists a v n s, W_conf (nAsset o) a /\ W_conf (nValue o) v /\ W_conf (nNonce o) n
    /\ W_bytes (scriptPubKey o) s /\ b = a ++ v ++ n ++ s.

(** A witness is null when it contains no data at all. *)
Definition NullIn (w : inwit) : Prop := w = mkInWit [] [] [] [].
Definition NullOut (w : outwit) : Prop := w = mkOutWit [] [].
Definition NullWit (w : txwit) : Prop := Forall NullIn (vtxinwit w) /\ Forall NullOut (vtxoutwit w).

(** Whole transaction.  [iw] = include_witness, [sh] = for_sighash. *)
Inductive W_tx (iw sh : bool) (t : tx) : bytes -> Prop :=
| W_tx_nowit v i o l :
    (iw = false \/ NullWit (wit t)) ->
    le_sint32 (nVersion t) v -> W_vec (W_txin sh) (vin t) i -> W_vec W_txout (vout t) o ->
    le_int 4 (nLockTime t) l ->
    W_tx iw sh t (v ++ (if sh then [] else [x00]) ++ i ++ o ++ l)
| W_tx_wit v i o l wi wo :
    iw = true -> ~ NullWit (wit t) ->
    le_sint32 (nVersion t) v -> W_vec (W_txin false) (vin t) i -> W_vec W_txout (vout t) o ->
    le_int 4 (nLockTime t) l ->
    W_seq W_inwit (vtxinwit (wit t)) wi -> W_seq W_outwit (vtxoutwit (wit t)) wo ->
    (vtxinwit (wit t) = [] \/ length (vtxinwit (wit t)) = length (vin t)) ->
    (vtxoutwit (wit t) = [] \/ length (vtxoutwit (wit t)) = length (vout t)) ->
    W_tx iw sh t (v ++ [x01] ++ i ++ o ++ l ++ wi ++ wo).

(** * Well-formedness (what can be represented on the wire) *)
Definition small (d : bytes) : Prop := blen d <= 0x02000000.   (* bitcointx MAX_SIZE *)
Definition small_stack (st : list bytes) : Prop := Z.of_nat (length st) < 2 ^ 64 /\ Forall small st.

Definition wf_inwit (w : inwit) : Prop :=
  small (iw_issproof w) /\ small (iw_keysproof w) /\ small_stack (iw_script w) /\ small_stack (iw_pegin w).
Definition wf_outwit (w : outwit) : Prop := small (ow_surj w) /\ small (ow_range w).
Definition wf_issuance (i : issuance) : Prop :=
  blen (is_nonce i) = 32 /\ blen (is_entropy i) = 32
  /\ ConfForm CConfValue (is_amount i) /\ ConfForm CConfValue (is_keys i).

(** Fields of an input in the ranges enforced by the constructors. *)
Definition txin_in_range (i : txin) : Prop :=
  blen (op_hash (prevout i)) = 32 /\ 0 <= op_n (prevout i) < 2 ^ 32 /\ small (scriptSig i)
  /\ 0 <= nSequence i < 2 ^ 32 /\ wf_issuance (assetIssuance i).

(** Representable inputs: exactly those that survive a round trip. *)
Definition txin_representable (i : txin) : Prop :=
  (op_n (prevout i) = 2 ^ 32 - 1 /\ assetIssuance i = issuance_default /\ is_pegin i = false)
  \/ (0 <= op_n (prevout i) < 2 ^ 30
      /\ (has_issuance i = false -> assetIssuance i = issuance_default)
      /\ ~ (op_n (prevout i) = 2 ^ 30 - 1 /\ has_issuance i = true /\ is_pegin i = true)).

Definition wf_txin (i : txin) : Prop := txin_in_range i /\ txin_representable i.

Definition wf_txout (o : txout) : Prop :=
  ConfForm CConfAsset (nAsset o) /\ ConfForm CConfValue (nValue o)
  /\ ConfForm CConfNonce (nNonce o) /\ small (scriptPubKey o).

Definition wf_body (t : tx) : Prop :=
  - 2 ^ 31 <= nVersion t < 2 ^ 31 /\ 0 <= nLockTime t < 2 ^ 32
  /\ Z.of_nat (length (vin t)) < 2 ^ 64 /\ Z.of_nat (length (vout t)) < 2 ^ 64
  /\ Forall wf_txin (vin t) /\ Forall wf_txout (vout t).

Definition wf_wit (t : tx) : Prop :=
  NullWit (wit t) \/
  (length (vtxinwit (wit t)) = length (vin t) /\ length (vtxoutwit (wit t)) = length (vout t)
   /\ Forall wf_inwit (vtxinwit (wit t)) /\ Forall wf_outwit (vtxoutwit (wit t))).

Definition wf_tx (t : tx) : Prop := wf_body t /\ wf_wit t.

(** Two transactions carry the same data: same fields, and the same witness
    unless both witnesses are null. *)
Definition same_tx (a b : tx) : Prop :=
  vin a = vin b /\ vout a = vout b /\ nLockTime a = nLockTime b /\ nVersion a = nVersion b
  /\ (wit a = wit b \/ (NullWit (wit a) /\ NullWit (wit b))).
