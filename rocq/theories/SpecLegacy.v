(** What a pre-segwit signature signs, independent of the model. *)
From Verif Require Import Base TxModel SpecWire SpecScript SpecSighash.
Local Open Scope Z_scope.

(** One instruction of a script: a push, or a one-byte opcode. *)
Inductive Instruction : bytes -> Prop :=
| I_push d p : Push d p -> Instruction p
| I_op o : 78 < bz o -> Instruction [o].

(** [Stripped s s']: [s] is a sequence of instructions and [s'] the same
    sequence without the OP_CODESEPARATORs (0xab). *)
Inductive Stripped : bytes -> bytes -> Prop :=
| St_nil : Stripped [] []
| St_separator s s' : Stripped s s' -> Stripped (xab :: s) s'
| St_keep i s s' : Instruction i -> i <> [xab] -> Stripped s s' -> Stripped (i ++ s) (i ++ s').

(** How input number [j] enters the signed transaction when input [i] is signed. *)
Definition signed_input (sc : bytes) (ht : Z) (i j : nat) (x : txin) : txin :=
  if (j =? i)%nat then mkTxIn (prevout x) sc (nSequence x) (assetIssuance x) (is_pegin x)
  else mkTxIn (prevout x) [] (if sig_none ht || sig_single ht then 0 else nSequence x) (assetIssuance x) (is_pegin x).

Definition SignedInputs (t : tx) (i : nat) (ht : Z) (sc : bytes) (ins : list txin) : Prop :=
  if acp ht then exists x, nth_error (vin t) i = Some x /\ ins = [signed_input sc ht i i x]
  else length ins = length (vin t)
       /\ forall j x, nth_error (vin t) j = Some x -> nth_error ins j = Some (signed_input sc ht i j x).

Definition SignedOutputs (t : tx) (i : nat) (ht : Z) (outs : list txout) : Prop :=
  if sig_none ht then outs = []
  else if sig_single ht then
    exists o, nth_error (vout t) i = Some o /\ outs = repeat (mkTxOut [] [] [] []) i ++ [o]
  else outs = vout t.

(** The signed string: version, inputs (outpoint without flags, script, sequence, issuance if any),
    outputs, lock time, hash type. *)
Definition LegacyPreimage (script : bytes) (t : tx) (i : nat) (ht : Z) (b : bytes) : Prop :=
  exists sc ins outs ver vi vo lt hty,
    (i < length (vin t))%nat
    /\ Stripped script sc
    /\ SignedInputs t i ht sc ins
    /\ SignedOutputs t i ht outs
    /\ le_sint32 (nVersion t) ver
    /\ W_vec (W_txin true) ins vi
    /\ W_vec W_txout outs vo
    /\ le_int 4 (nLockTime t) lt
    /\ le_sint32 ht hty
    /\ b = ver ++ vi ++ vo ++ lt ++ hty.

(** The issuance of an input that takes part in serialisation (a coinbase input's never does). *)
Definition written_issuance (x : txin) : option issuance :=
  if writes_issuance x then Some (assetIssuance x) else None.

(** The hash of the two failing cases: the number one. *)
Definition IsHashOne (h : bytes) : Prop := le_int 32 1 h.
