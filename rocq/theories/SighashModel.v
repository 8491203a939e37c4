(** Model of the signature hashes of elementstx/core/script.py.

    The hash functions (double SHA-256 [Hash] of bitcointx, SHA-256, and the
    two tagged hashers of core/__init__.py:203-206) are arguments. *)
From Verif Require Import Base Serialize TxModel.
Local Open Scope Z_scope.

(** bitcointx constants SIGHASH_ALL, SIGHASH_NONE, SIGHASH_SINGLE, SIGHASH_ANYONECANPAY *)
Definition SIGHASH_ALL : Z := 1.
Definition SIGHASH_NONE : Z := 2.
Definition SIGHASH_SINGLE : Z := 3.
Definition SIGHASH_ANYONECANPAY : Z := 0x80.

(** bitcointx SIGVERSION_* (any other value is [SIGVERSION_OTHER]) *)
Inductive sigversion :=
| SIGVERSION_BASE | SIGVERSION_WITNESS_V0 | SIGVERSION_TAPROOT | SIGVERSION_TAPSCRIPT | SIGVERSION_OTHER.

(** Python [l[i]]: negative indices count from the end, IndexError outside. *)
Definition py_nth {A} (l : list A) (i : Z) : res A :=
  let n := Z.of_nat (length l) in
  let j := if i <? 0 then i + n else i in
  if (0 <=? j) && (j <? n)
  then match nth_error l (Z.to_nat j) with Some x => Ok x | None => Raise EIndex end
  else Raise EIndex.

(** script.py:152-155 and 293-296, 343-346: a null issuance is written as one zero byte. *)
Definition iss_or_zero (i : txin) : bytes :=
  if issuance_is_null (assetIssuance i) then [x00] else ser_issuance (assetIssuance i).

(** script.py:148-155: [serialize_prevouts], [serialize_issuance] *)
Definition v0_prevouts (t : tx) : res bytes := ser_list (fun i => ser_outpoint (prevout i)) (vin t).
Definition v0_issuances (t : tx) : bytes := concat (map iss_or_zero (vin t)).
(** script.py:160-162: [serialize_sequence] *)
Definition v0_sequences (t : tx) : res bytes := ser_list (fun i => pack_le 4 (nSequence i)) (vin t).
(** script.py:166-168: [serialize_outputs] *)
Definition v0_outputs (t : tx) : res bytes := ser_list ser_txout (vout t).

Definition is_acp (hashtype : Z) : bool := negb (Z.land hashtype SIGHASH_ANYONECANPAY =? 0).
Definition is_none (hashtype : Z) : bool := Z.land hashtype 0x1f =? SIGHASH_NONE.
Definition is_single (hashtype : Z) : bool := Z.land hashtype 0x1f =? SIGHASH_SINGLE.

(** script.py:139-191, [RawElementsSignatureHash] for SIGVERSION_WITNESS_V0.
    [amount] is the commitment of a CConfidentialValue; None (or another type)
    makes [ensure_isinstance] raise TypeError. *)
Definition sighash_v0 (Hash : bytes -> bytes)
    (script : bytes) (t : tx) (inIdx : Z) (hashtype : Z) (amount : option bytes) : res bytes :=
  let! amount := match amount with Some a => Ok a | None => Raise EType end in
  let! hpi :=
    (if negb (is_acp hashtype)
     then let! p := v0_prevouts t in Ok (Hash p, Hash (v0_issuances t))
     else Ok (zeros 32, zeros 32)) in
  let '(hashPrevouts, hashIssuance) := hpi in
  let! hashSequence :=
    (if negb (is_acp hashtype) && negb (is_single hashtype) && negb (is_none hashtype)
     then let! s := v0_sequences t in Ok (Hash s)
     else Ok (zeros 32)) in
  let! hashOutputs :=
    (if negb (is_single hashtype) && negb (is_none hashtype)
     then let! s := v0_outputs t in Ok (Hash s)
     else if is_single hashtype && (inIdx <? Z.of_nat (length (vout t)))
     then let! o := py_nth (vout t) inIdx in
          let! s := ser_txout o in Ok (Hash s)
     else Ok (zeros 32)) in
  let! f1 := pack_le_signed 4 (nVersion t) in
  let! inp := py_nth (vin t) inIdx in
  let! f2 := ser_outpoint (prevout inp) in
  let! f3 := ser_bytes script in
  let! f4 := pack_le 4 (nSequence inp) in
  let f5 := if negb (issuance_is_null (assetIssuance inp)) then ser_issuance (assetIssuance inp) else [] in
  let! f6 := pack_le_signed 4 (nLockTime t) in
  let! f7 := pack_le_signed 4 hashtype in
  Ok (Hash (f1 ++ hashPrevouts ++ hashSequence ++ hashIssuance ++ f2 ++ f3 ++ amount ++ f4 ++ f5
            ++ hashOutputs ++ f6 ++ f7)).

(** script.py:113-191 [RawElementsSignatureHash].  [legacy] is
    bitcointx RawBitcoinSignatureHash (hash and error flag), kept as a parameter here. *)
Definition raw_sighash (legacy : bytes -> tx -> Z -> Z -> res (bytes * bool)) (Hash : bytes -> bytes)
    (script : bytes) (t : tx) (inIdx hashtype : Z) (amount : option bytes) (sv : sigversion)
  : res (bytes * bool) :=
  match sv with
  | SIGVERSION_BASE => legacy script t inIdx hashtype
  | SIGVERSION_WITNESS_V0 => let! h := sighash_v0 Hash script t inIdx hashtype amount in Ok (h, false)
  | _ => Raise EValue
  end.

(** script.py:396-408 [CElementsScript.sighash]: an error result becomes ValueError. *)
Definition sighash legacy Hash script t inIdx hashtype amount sv : res bytes :=
  let! r := raw_sighash legacy Hash script t inIdx hashtype amount sv in
  let '(h, err) := r in
  if (err : bool) then Raise EValue else Ok h.

(** * Schnorr *)

(** script.py:264-273 [get_outpoint_flag] *)
Definition outpoint_flag (i : txin) : bytes :=
  let opf := 0 in
  let opf := if negb (issuance_is_null (assetIssuance i)) then Z.lor opf OUTPOINT_ISSUANCE_FLAG else opf in
  let opf := if is_pegin i then Z.lor opf OUTPOINT_PEGIN_FLAG else opf in
  [zb (Z.shiftr opf 24)].

(** script.py:289-302: the loop over [enumerate(txTo.vin)], where [vtxinwit[inp_i]]
    raises IndexError when the witness list is shorter. Returns the seven strings
    that are fed to hash objects, in script.py:276-282 order without the spent outputs. *)
Definition rangeproofs_ser (w : inwit) : res bytes :=
  let! a := ser_bytes (iw_issproof w) in
  let! b := ser_bytes (iw_keysproof w) in Ok (a ++ b).
Fixpoint schnorr_inputs (vi : list txin) (wi : list inwit) : res (bytes * bytes * bytes * bytes * bytes) :=
  match vi with
  | [] => Ok ([], [], [], [], [])
  | i :: vi' =>
      let! p := ser_outpoint (prevout i) in
      let! q := pack_le 4 (nSequence i) in
      match wi with
      | [] => Raise EIndex
      | w :: wi' =>
          let! r := rangeproofs_ser w in
          let! rest := schnorr_inputs vi' wi' in
          let '(fl, ps, qs, is, rs) := rest in
          Ok (outpoint_flag i ++ fl, p ++ ps, q ++ qs, iss_or_zero i ++ is, r ++ rs)
      end
  end.

(** script.py:284-287: the loop over [spent_outputs]. *)
Definition spent_amounts (sp : list txout) : bytes :=
  concat (map (fun o => ser_conf (nAsset o) ++ ser_conf (nValue o)) sp).
Definition spent_scripts (sp : list txout) : res bytes := ser_list (fun o => ser_bytes (scriptPubKey o)) sp.

(** script.py:321-324: the loop over [enumerate(txTo.vout)]. *)
Fixpoint schnorr_outputs (vo : list txout) (wo : list outwit) : res (bytes * bytes) :=
  match vo with
  | [] => Ok ([], [])
  | o :: vo' =>
      let! s := ser_txout o in
      match wo with
      | [] => Raise EIndex
      | w :: wo' =>
          let! x := ser_outwit w in
          let! rest := schnorr_outputs vo' wo' in
          let '(ss, xs) := rest in Ok (s ++ ss, x ++ xs)
      end
  end.

(** [if h is not None: if len(h) != 32: raise ValueError] *)
Definition check32 (h : option bytes) : res unit :=
  match h with Some b => rassert (blen b =? 32) EValue | None => Ok tt end.

(** [bytes([hashtype])]: ValueError outside 0..255. *)
Definition byte_of (z : Z) : res bytes := if (0 <=? z) && (z <? 256) then Ok [zb z] else Raise EValue.

(** bitcointx SIGHASH_Type.input_type / output_type: the ANYONECANPAY bit and the rest. *)
Definition input_acp (hashtype : Z) : bool := negb (Z.land hashtype SIGHASH_ANYONECANPAY =? 0).
Definition output_type (hashtype : Z) : Z := Z.land hashtype (Z.lnot SIGHASH_ANYONECANPAY).

(** script.py:194-378 [ElementsSignatureHashSchnorr].  [hashtype = None] is the
    default hash type.  [codesep = None] is a caller passing None. *)
Definition sighash_schnorr_raw (sha256 tap_sighash : bytes -> bytes)
    (t : tx) (inIdx : Z) (spent : list txout) (hashtype : option Z) (sv : sigversion)
    (tapleaf_hash : option bytes) (codesep : option Z) (annex_hash : option bytes)
    (genesis : bytes) : res bytes :=
  let! _ := rassert (0 <=? inIdx) EValue in
  let! _ := rassert (inIdx <? Z.of_nat (length (vin t))) EValue in
  let! _ := check32 tapleaf_hash in
  let! _ := check32 annex_hash in
  let! _ := rassert (blen genesis =? 32) EValue in
  let! ext_flag := match sv with
                   | SIGVERSION_TAPROOT => Ok 0 | SIGVERSION_TAPSCRIPT => Ok 1
                   | _ => Raise EValue end in
  let! _ := rassert (Nat.eqb (length spent) (length (vin t))) EValue in
  let! hb := match hashtype with None => Ok [x00] | Some h => byte_of h end in
  let hashtype := match hashtype with None => SIGHASH_ALL | Some h => h end in
  let acp := input_acp hashtype in
  let! f1 := pack_le_signed 4 (nVersion t) in
  let! f2 := pack_le 4 (nLockTime t) in
  let! f3 :=
    (if negb acp then
       let! scripts := spent_scripts spent in
       let! r := schnorr_inputs (vin t) (vtxinwit (wit t)) in
       let '(fl, ps, qs, is, rs) := r in
       Ok (sha256 fl ++ sha256 ps ++ sha256 (spent_amounts spent) ++ sha256 scripts
           ++ sha256 qs ++ sha256 is ++ sha256 rs)
     else Ok []) in
  let! f4 :=
    (if output_type hashtype =? SIGHASH_ALL then
       let! r := schnorr_outputs (vout t) (vtxoutwit (wit t)) in
       let '(os, ws) := r in Ok (sha256 os ++ sha256 ws)
     else Ok []) in
  let spend_type := Z.shiftl ext_flag 1 + (match annex_hash with Some _ => 1 | None => 0 end) in
  let! f5 :=
    (if acp then
       let! inp := py_nth (vin t) inIdx in
       let! p := ser_outpoint (prevout inp) in
       let! sp := py_nth spent inIdx in
       let! q := pack_le 4 (nSequence inp) in
       let! tail :=
         (if issuance_is_null (assetIssuance inp) then Ok [x00]
          else let! w := py_nth (vtxinwit (wit t)) inIdx in
               Ok (ser_issuance (assetIssuance inp) ++ sha256 (iw_issproof w ++ iw_keysproof w))) in
       Ok (outpoint_flag inp ++ p ++ ser_conf (nAsset sp) ++ ser_conf (nValue sp) ++ scriptPubKey sp
           ++ q ++ tail)
     else pack_le 4 inIdx) in
  let! f6 := match annex_hash with Some a => ser_bytes a | None => Ok [] end in
  let! f7 :=
    (if output_type hashtype =? SIGHASH_SINGLE then
       let! _ := rassert (negb (Z.of_nat (length (vout t)) <? inIdx)) EValue in
       let! o := py_nth (vout t) inIdx in
       let! s := ser_txout o in
       let! w := py_nth (vtxoutwit (wit t)) inIdx in
       let! x := ser_outwit w in
       Ok (sha256 s ++ sha256 x)
     else Ok []) in
  let! f8 :=
    match sv with
    | SIGVERSION_TAPSCRIPT =>
        let! tl := match tapleaf_hash with Some h => Ok h | None => Raise EValue end in
        let! cs := match codesep with Some c => Ok c | None => Raise EValue end in
        let! c := pack_le_signed 4 cs in
        Ok (tl ++ [zb 0] ++ c)
    | _ => Ok []
    end in
  Ok (tap_sighash ((genesis ++ genesis) ++ hb ++ f1 ++ f2 ++ f3 ++ f4 ++ [zb spend_type] ++ f5 ++ f6 ++ f7 ++ f8)).

(** core/__init__.py:202 *)
Definition TAPROOT_LEAF_TAPSCRIPT : Z := 0xc4.

(** script.py:433-457 [CElementsScript.sighash_schnorr] *)
Definition sighash_tapscript (sha256 tapleaf tap_sighash : bytes -> bytes)
    (script : bytes) (t : tx) (inIdx : Z) (spent : list txout) (hashtype : option Z)
    (codesep : option Z) (annex_hash : option bytes) (genesis : bytes) : res bytes :=
  let! s := ser_bytes script in
  let tl := tapleaf ([zb TAPROOT_LEAF_TAPSCRIPT] ++ s) in
  sighash_schnorr_raw sha256 tap_sighash t inIdx spent hashtype SIGVERSION_TAPSCRIPT (Some tl)
    codesep annex_hash genesis.
