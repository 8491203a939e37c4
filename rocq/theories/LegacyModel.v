(** Model of the pre-segwit signature hash.

    elementstx/core/script.py:132-137 hands SIGVERSION_BASE to bitcointx
    [RawBitcoinSignatureHash] and [FindAndDelete], which are not in /repo and are modelled
    here from their documented (consensus) behaviour; what is of /repo is the
    transaction serialisation with [for_sighash=True] (core/__init__.py:864-887, 1110-1131),
    the class of null outputs (core/__init__.py:937-971) and the caller script.py:396-408. *)
From Verif Require Import Base Serialize TxModel ScriptModel SighashModel.
Local Open Scope Z_scope.

Definition OP_CODESEPARATOR : byte := xab.
(** bitcointx HASH_ONE, the result of the failing cases. *)
Definition HASH_ONE : bytes := x01 :: zeros 31.

(** bitcointx [FindAndDelete(script, sig)]: the loop over [raw_iter()].  [last] and [s]
    are the script from [last_sop_idx] and from [sop_idx] on; [fuel] is never exhausted (every
    instruction takes at least a byte). *)
Fixpoint fad_loop (fuel sig r last s : bytes) (skip : bool) : res bytes :=
  match raw_next s with
  | NextStop => Ok (if skip then r else r ++ last)
  | NextErr e => Raise e
  | NextOp _ _ rest =>
      let r := if skip then r else r ++ firstn (length last - length s) last in
      let skip := bytes_eqb (firstn (length sig) s) sig in
      match fuel with
      | [] => Raise ERuntime
      | _ :: fuel => fad_loop fuel sig r s rest skip
      end
  end.
Definition find_and_delete (script sig : bytes) : res bytes := fad_loop script sig [] script script true.

(** Assignments to fields of the mutable copy. *)
Definition with_script (s : bytes) (i : txin) : txin :=
  mkTxIn (prevout i) s (nSequence i) (assetIssuance i) (is_pegin i).
Definition with_sequence (q : Z) (i : txin) : txin :=
  mkTxIn (prevout i) (scriptSig i) q (assetIssuance i) (is_pegin i).

(** [l[i] = f(l[i])] with Python indexing. *)
Fixpoint update_nth {A} (n : nat) (f : A -> A) (l : list A) : list A :=
  match n, l with
  | _, [] => []
  | O, x :: l => f x :: l
  | S n, x :: l => x :: update_nth n f l
  end.
Definition py_update {A} (l : list A) (i : Z) (f : A -> A) : res (list A) :=
  let! _ := py_nth l i in
  Ok (update_nth (Z.to_nat (if i <? 0 then i + Z.of_nat (length l) else i)) f l).

(** [for i in range(len(vin)): if i != inIdx: vin[i].nSequence = 0] *)
Fixpoint zero_others (k : Z) (inIdx : Z) (l : list txin) : list txin :=
  match l with
  | [] => []
  | x :: l => (if k =? inIdx then x else with_sequence 0 x) :: zero_others (k + 1) inIdx l
  end.

(** [CMutableTxOut()], core/__init__.py:952-971: all four fields empty. *)
Definition txout_null : txout := mkTxOut [] [] [] [].

(** bitcointx [RawBitcoinSignatureHash] with SIGVERSION_BASE: hash and "an error was reported". *)
Definition legacy_sighash (Hash : bytes -> bytes) (script : bytes) (t : tx) (inIdx hashtype : Z) : res (bytes * bool) :=
  if Z.of_nat (length (vin t)) <=? inIdx then Ok (HASH_ONE, true) else
  let ins := map (with_script []) (vin t) in
  let! sc := find_and_delete script [OP_CODESEPARATOR] in
  let! ins := py_update ins inIdx (with_script sc) in
  let finish (ins : list txin) (outs : list txout) :=
    let! ins := (if is_acp hashtype then let! own := py_nth ins inIdx in Ok [own] else Ok ins) in
    let! s := ser_tx false true (mkTx ins outs (nLockTime t) (nVersion t) (mkTxWit [] [])) in
    let! h := pack_le_signed 4 hashtype in
    Ok (Hash (s ++ h), false) in
  if is_none hashtype then finish (zero_others 0 inIdx ins) []
  else if is_single hashtype then
    if Z.of_nat (length (vout t)) <=? inIdx then Ok (HASH_ONE, true) else
    let! tmp := py_nth (vout t) inIdx in
    finish (zero_others 0 inIdx ins) (repeat txout_null (Z.to_nat inIdx) ++ [tmp])
  else finish ins (vout t).
