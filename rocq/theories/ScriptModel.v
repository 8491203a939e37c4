(** Model of the script-inspection part of elementstx/core/script.py
    (CElementsScript) and of the Elements opcode table. A script is its bytes. *)
From Coq Require Import Strings.String.
From Verif Require Import Base Serialize.
Local Open Scope Z_scope.

(** bitcointx opcodes used here. *)
Definition OP_PUSHDATA1 : Z := 0x4c.
Definition OP_PUSHDATA2 : Z := 0x4d.
Definition OP_PUSHDATA4 : Z := 0x4e.
Definition OP_RETURN : Z := 0x6a.

(** One [next()] on bitcointx [CScript.raw_iter()]: StopIteration at the end of the
    script, CScriptInvalidError ([EScript]) on a truncated push, otherwise the
    opcode, its data (None above OP_PUSHDATA4) and the remaining script. *)
Inductive next_result :=
| NextStop
| NextErr (e : exn)
| NextOp (op : Z) (data : option bytes) (rest : bytes).

Definition take_data (op : Z) (datasize : Z) (s : bytes) : next_result :=
  if blen s <? datasize then NextErr EScript
  else NextOp op (Some (firstn (Z.to_nat datasize) s)) (skipn (Z.to_nat datasize) s).

Definition raw_next (s : bytes) : next_result :=
  match s with
  | [] => NextStop
  | o :: s' =>
    let opcode := bz o in
    if opcode >? OP_PUSHDATA4 then NextOp opcode None s'
    else if opcode <? OP_PUSHDATA1 then take_data opcode opcode s'
    else if opcode =? OP_PUSHDATA1 then
      match s' with
      | a :: s'' => take_data opcode (bz a) s''
      | _ => NextErr EScript
      end
    else if opcode =? OP_PUSHDATA2 then
      match s' with
      | a :: b :: s'' => take_data opcode (bz a + Z.shiftl (bz b) 8) s''
      | _ => NextErr EScript
      end
    else
      match s' with
      | a :: b :: c :: d :: s'' =>
          take_data opcode (bz a + Z.shiftl (bz b) 8 + Z.shiftl (bz c) 16 + Z.shiftl (bz d) 24) s''
      | _ => NextErr EScript
      end
  end.

(** script.py:459-494 [get_pegout_data]. The two except clauses turn StopIteration and
    CScriptInvalidError into None; any other exception would propagate. *)
Definition next_op {A} (s : bytes) (k : Z -> option bytes -> bytes -> res (option A)) : res (option A) :=
  match raw_next s with
  | NextStop => Ok None
  | NextErr EScript => Ok None
  | NextErr e => Raise e
  | NextOp op d rest => k op d rest
  end.

Definition get_pegout_data (script : bytes) : res (option (bytes * bytes)) :=
  next_op script (fun op _ rest =>
    if negb (op =? OP_RETURN) then Ok None else
    next_op rest (fun _ op_data rest =>
      match op_data with
      | None => Ok None
      | Some genesis_hash =>
        if negb (blen genesis_hash =? 32) then Ok None else
        next_op rest (fun _ op_data _ =>
          match op_data with
          | None => Ok None
          | Some pegout_script =>
            if blen pegout_script =? 0 then Ok None else Ok (Some (genesis_hash, pegout_script))
          end)
      end)).

(** script.py:496-498 [is_pegout] *)
Definition is_pegout (script : bytes) : res bool :=
  let! d := get_pegout_data script in
  Ok (match d with None => false | Some _ => true end).

(** script.py:387-391 [is_unspendable] over bitcointx
    [CScript.is_unspendable]: [len(self) > 0 and self[0] == OP_RETURN]. *)
Definition base_is_unspendable (script : bytes) : bool :=
  match script with [] => false | o :: _ => bz o =? OP_RETURN end.
Definition is_unspendable (script : bytes) : bool :=
  if blen script =? 0 then true else base_is_unspendable script.

(** bitcointx [CScriptOp.encode_op_pushdata], used by [CScript([OP_RETURN, g, s])]
    ([CScript.__coerce_instance]): the encoder for data elements of scripts. *)
Definition encode_op_pushdata (d : bytes) : res bytes :=
  if blen d <? 0x4c then Ok (zb (blen d) :: d)
  else if blen d <=? 0xff then Ok (zb OP_PUSHDATA1 :: zb (blen d) :: d)
  else if blen d <=? 0xffff then let! l := pack_le 2 (blen d) in Ok (zb OP_PUSHDATA2 :: l ++ d)
  else if blen d <=? 0xffffffff then let! l := pack_le 4 (blen d) in Ok (zb OP_PUSHDATA4 :: l ++ d)
  else Raise EValue.

(** The script [CScript([OP_RETURN, g, s])] + anything. *)
Definition build_pegout (g s : bytes) (extra : bytes) : res bytes :=
  let! a := encode_op_pushdata g in
  let! b := encode_op_pushdata s in
  Ok (zb OP_RETURN :: a ++ b ++ extra).

(** script.py:46-101: the exported opcode constants, in source order. *)
Local Open Scope string_scope.
Definition elements_opcodes : list (string * Z) := [
  ("OP_DETERMINISTICRANDOM", 0xc1);
  ("OP_CHECKSIGFROMSTACK", 0xc1);
  ("OP_CHECKSIGFROMSTACKVERIFY", 0xc2);
  ("OP_SUBSTR_LAZY", 0xc3);
  ("OP_SHA256INITIALIZE", 0xc4);
  ("OP_SHA256UPDATE", 0xc5);
  ("OP_SHA256FINALIZE", 0xc6);
  ("OP_INSPECTINPUTOUTPOINT", 0xc7);
  ("OP_INSPECTINPUTASSET", 0xc8);
  ("OP_INSPECTINPUTVALUE", 0xc9);
  ("OP_INSPECTINPUTSCRIPTPUBKEY", 0xca);
  ("OP_INSPECTINPUTSEQUENCE", 0xcb);
  ("OP_INSPECTINPUTISSUANCE", 0xcc);
  ("OP_PUSHCURRENTINPUTINDEX", 0xcd);
  ("OP_INSPECTOUTPUTASSET", 0xce);
  ("OP_INSPECTOUTPUTVALUE", 0xcf);
  ("OP_INSPECTOUTPUTNONCE", 0xd0);
  ("OP_INSPECTOUTPUTSCRIPTPUBKEY", 0xd1);
  ("OP_INSPECTVERSION", 0xd2);
  ("OP_INSPECTLOCKTIME", 0xd3);
  ("OP_INSPECTNUMINPUTS", 0xd4);
  ("OP_INSPECTNUMOUTPUTS", 0xd5);
  ("OP_TXWEIGHT", 0xd6);
  ("OP_ADD64", 0xd7);
  ("OP_SUB64", 0xd8);
  ("OP_MUL64", 0xd9);
  ("OP_DIV64", 0xda);
  ("OP_NEG64", 0xdb);
  ("OP_LESSTHAN64", 0xdc);
  ("OP_LESSTHANOREQUAL64", 0xdd);
  ("OP_GREATERTHAN64", 0xde);
  ("OP_GREATERTHANOREQUAL64", 0xdf);
  ("OP_SCRIPTNUMTOLE64", 0xe0);
  ("OP_LE64TOSCRIPTNUM", 0xe1);
  ("OP_LE32TOLE64", 0xe2);
  ("OP_ECMULSCALARVERIFY", 0xe3);
  ("OP_TWEAKVERIFY", 0xe4) ].
