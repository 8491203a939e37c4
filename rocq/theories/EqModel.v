(** Comparison of objects with ==.
    None of the classes of /repo/elementstx/core/__init__.py defines __eq__ or __hash__: CConfidentialCommitmentBase (221), CElementsTxInWitness (424),
    CElementsTxOutWitness (538), CElementsTxWitness (635), CAssetIssuance (748), CElementsTxIn (806), CElementsTxOut (937) and
    CElementsTransaction (1058) inherit from bitcointx's Serializable
      __eq__(self, other): return self.serialize() == other.serialize()      (after a check that one's class is a subclass of the other's)
      __hash__(self): return hash(self.serialize())
    so that what == means is decided by the methods stream_serialize of this library.  GetTxid hashes serialize(include_witness=False). *)
From Verif Require Import Base TxModel.

Definition same (a b : res bytes) : res bool := let! x := a in let! y := b in Ok (if list_eq_dec Byte.byte_eq_dec x y then true else false).
(** stream_serialize: 265-269 *)
Definition conf_eq (x y : bytes) : res bool := same (Ok (ser_conf x)) (Ok (ser_conf y)).
(** 478-482, 568-570 *)
Definition inwit_eq (x y : inwit) : res bool := same (ser_inwit x) (ser_inwit y).
Definition outwit_eq (x y : outwit) : res bool := same (ser_outwit x) (ser_outwit y).
(** 784-788 *)
Definition issuance_eq (x y : issuance) : res bool := same (Ok (ser_issuance x)) (Ok (ser_issuance y)).
(** 864-887 *)
Definition txin_eq (x y : txin) : res bool := same (ser_txin false x) (ser_txin false y).
(** 982-986 *)
Definition txout_eq (x y : txout) : res bool := same (ser_txout x) (ser_txout y).
(** 1110-1131 *)
Definition tx_eq (x y : tx) : res bool := same (tx_serialize x) (tx_serialize y).
(** x.GetTxid() == y.GetTxid(), without collisions of the hash *)
Definition txid_eq (x y : tx) : res bool := same (ser_tx false false x) (ser_tx false false y).
