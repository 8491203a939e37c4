(** What is meant by sharing, freezing and owning, for the objects of ObjModel.v. *)
From Verif Require Import Base TxModel BlindModel ObjModel.

(** An object. *)
Inductive ref := ROp (a : nat) | RIn (a : nat) | ROut (a : nat) | RIw (a : nat) | ROw (a : nat) | RWit (a : nat) | RTx (a : nat) | RArr (a : nat).

Definition is_array (x : ref) : Prop := match x with RArr _ => True | _ => False end.
Definition exists_in (h : heap) (x : ref) : Prop :=
  match x with
  | ROp a => (a < length (h_ops h))%nat | RIn a => (a < length (h_ins h))%nat | ROut a => (a < length (h_outs h))%nat
  | RIw a => (a < length (h_iws h))%nat | ROw a => (a < length (h_ows h))%nat | RWit a => (a < length (h_wits h))%nat
  | RTx a => (a < length (h_txs h))%nat | RArr a => (a < length (h_arrs h))%nat
  end.
Definition cell_is {A} (l : list (cell A)) (m : bool) (a : nat) : Prop := exists v, nth_error l a = Some (mkCell m v).
Definition of_class (h : heap) (m : bool) (x : ref) : Prop :=
  match x with
  | ROp a => cell_is (h_ops h) m a | RIn a => cell_is (h_ins h) m a | ROut a => cell_is (h_outs h) m a
  | RIw a => cell_is (h_iws h) m a | ROw a => cell_is (h_ows h) m a | RWit a => cell_is (h_wits h) m a
  | RTx a => cell_is (h_txs h) m a | RArr a => m = true
  end.
(** The object has the same attributes in both heaps. *)
Definition same (h h' : heap) (x : ref) : Prop :=
  match x with
  | ROp a => nth_error (h_ops h') a = nth_error (h_ops h) a | RIn a => nth_error (h_ins h') a = nth_error (h_ins h) a
  | ROut a => nth_error (h_outs h') a = nth_error (h_outs h) a | RIw a => nth_error (h_iws h') a = nth_error (h_iws h) a
  | ROw a => nth_error (h_ows h') a = nth_error (h_ows h) a | RWit a => nth_error (h_wits h') a = nth_error (h_wits h) a
  | RTx a => nth_error (h_txs h') a = nth_error (h_txs h) a | RArr a => nth_error (h_arrs h') a = nth_error (h_arrs h) a
  end.

(** The objects that make up transaction [a]. *)
Inductive Part (h : heap) (a : nat) : ref -> Prop :=
| PTx : Part h a (RTx a)
| PIn m t i : nth_error (h_txs h) a = Some (mkCell m t) -> In i (to_vin t) -> Part h a (RIn i)
| POp m i c : Part h a (RIn i) -> nth_error (h_ins h) i = Some (mkCell m c) -> Part h a (ROp (io_prevout c))
| POut m t i : nth_error (h_txs h) a = Some (mkCell m t) -> In i (to_vout t) -> Part h a (ROut i)
| PWit m t : nth_error (h_txs h) a = Some (mkCell m t) -> Part h a (RWit (to_wit t))
| PIw m w c i : Part h a (RWit w) -> nth_error (h_wits h) w = Some (mkCell m c) -> In i (wo_in c) -> Part h a (RIw i)
| POw m w c i : Part h a (RWit w) -> nth_error (h_wits h) w = Some (mkCell m c) -> In i (wo_out c) -> Part h a (ROw i)
| PSurj m i c b : Part h a (ROw i) -> nth_error (h_ows h) i = Some (mkCell m c) -> oo_surj c = BArray b -> Part h a (RArr b)
| PRange m i c b : Part h a (ROw i) -> nth_error (h_ows h) i = Some (mkCell m c) -> oo_range c = BArray b -> Part h a (RArr b).

(** No output proof of the transaction is a bytearray. *)
Definition Plain (h : heap) (a : nat) : Prop := forall b, ~ Part h a (RArr b).
(** Every part is of an immutable class. *)
Definition Frozen (h : heap) (a : nat) : Prop := forall x, Part h a x -> of_class h false x.
(** A mutable transaction whose parts are mutable and all different objects: no object stands at two places of it. *)
Definition Owns (h : heap) (a : nat) : Prop := exists t w,
  nth_error (h_txs h) a = Some (mkCell true t) /\ nth_error (h_wits h) (to_wit t) = Some (mkCell true w)
  /\ NoDup (to_vin t) /\ NoDup (to_vout t) /\ NoDup (wo_in w) /\ NoDup (wo_out w)
  /\ forall x, Part h a x -> of_class h true x.

(** The objects whose attributes an operation may assign. blind() assigns attributes of the parts of its transaction, and changes
    no bytearray. *)
Definition Assigns (h : heap) (o : op) (x : ref) : Prop :=
  match o with
  | OSetOutPoint a _ => x = ROp a | OSetTxIn a _ => x = RIn a | OSetTxOut a _ => x = ROut a
  | OSetInWit a _ => x = RIw a | OSetOutWit a _ => x = ROw a | OSetWit a _ => x = RWit a | OSetTx a _ => x = RTx a
  | OSetArray a _ => x = RArr a
  | OBlind a _ _ => Part h a x /\ ~ is_array x
  | _ => False
  end.
(** A heap that some program can produce. *)
Definition Reachable (z : Crypto) (rand : nat -> bytes) (h : heap) : Prop := exists p, h = run z rand empty_heap p.
(** No step of the program assigns an attribute of a part of transaction [c]. *)
Fixpoint Spares (z : Crypto) (rand : nat -> bytes) (h : heap) (p : list op) (c : nat) : Prop :=
  match p with
  | [] => True
  | o :: p' => (forall x, Assigns h o x -> ~ Part h c x) /\ Spares z rand (exec z rand h o) p' c
  end.
