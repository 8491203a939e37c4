(** The program examples/confidential-cross-chain-atomic-swap.py: the contracts and the key that one of them makes public. *)
From Verif Require Import Base Serialize BlindModel ScriptModel.
Local Open Scope Z_scope.

(** The elliptic curve of the packages ecdsa and bitcointx. Points of public keys; [ec_inv] is ecdsa.numbertheory.inverse_mod with the
    order, [ec_len] is ecdsa.util.orderlen of the order, [ec_ser] and [ec_parse] are the bytes of a CPubKey. *)
Record Curve := mkCurve {
  point : Type;
  ec_order : Z;
  ec_zero : point;
  ec_is_zero : point -> bool;
  ec_add : point -> point -> point;
  ec_mul : Z -> point -> point;
  ec_gen : point;
  ec_x : point -> Z;
  ec_inv : Z -> Z;
  ec_len : nat;
  ec_ser : point -> bytes;
  ec_parse : bytes -> option point
}.

(** ** Building a script from a list: bitcointx CScript([...]) with bytes, small numbers and opcodes *)
Inductive item := Data (b : bytes) | Op (code : byte).
Definition small_int (n : Z) : item := Op (zb (0x50 + n)).        (* numbers from 1 to 16, CScriptOp.encode_op_n *)
Definition item_bytes (i : item) : res bytes := match i with Data b => encode_op_pushdata b | Op c => Ok [c] end.
Fixpoint script_of (l : list item) : res bytes :=
  match l with [] => Ok [] | i :: r => let! a := item_bytes i in let! b := script_of r in Ok (a ++ b) end.

(** ** Script iteration, bitcointx CScript.__iter__ *)
Inductive elem := EBytes (b : bytes) | EInt (n : Z) | EOp (code : Z).
Inductive iter_result := IStop | IErr (e : exn) | INext (x : elem) (rest : bytes).
Definition script_next (s : bytes) : iter_result :=
  match raw_next s with
  | NextStop => IStop
  | NextErr e => IErr e
  | NextOp op d rest =>
    INext (if op =? 0 then EInt 0 else match d with Some b => EBytes b | None => if (0x51 <=? op) && (op <=? 0x60) then EInt (op - 0x50) else EOp op end) rest
  end.

Section Cross.
Variable E : Curve.
Variable sha : bytes -> bytes.       (* hashlib.sha256 *)

(** lines 763-771 [get_known_k_r] *)
Definition known_k : Z := (ec_order E + 1) / 2.
Definition known_r : Z := ec_x E (ec_mul E known_k (ec_gen E)).
Fixpoint lstrip (s : bytes) : bytes := match s with x00 :: s' => lstrip s' | _ => s end.
(** [number_to_string(r, order).lstrip(b'\x00')], lines 438, 731 *)
Definition r_bytes : bytes := lstrip (be_bytes (ec_len E) known_r).

(** lines 435-467 [make_elt_cntract]; elements_contract_timeout is 10 *)
Definition make_elt_contract (reveal buyer seller : bytes) : res bytes := script_of [
  Op x63 (* OP_IF *);
    Data r_bytes; Op x7e (* OP_CAT *); Op x7c (* OP_SWAP *); Op x7e; small_int 1; Data reveal; Op xc2 (* OP_CHECKSIGFROMSTACKVERIFY *); Data buyer;
  Op x67 (* OP_ELSE *);
    small_int 10; Op xb2 (* OP_CHECKSEQUENCEVERIFY *); Op x75 (* OP_DROP *); Data seller;
  Op x68 (* OP_ENDIF *);
  Op xac (* OP_CHECKSIG *)].
(** lines 470-479 [make_btc_contract]; bitcoin_contract_timeout is 15 *)
Definition make_btc_contract (buyer seller : bytes) : res bytes := script_of [
  Op x63; Data buyer; Op x67; small_int 15; Op xb2; Op x75; Data seller; Op x68; Op xac].

(** bitcointx: public key of a secret number, addition of keys (CKey.add, CKey.sub, CPubKey.add). A sum of zero is refused. *)
Definition pub (d : Z) : bytes := ec_ser E (ec_mul E d (ec_gen E)).
Definition key_new (d : Z) : res Z := if (0 <? d) && (d <? ec_order E) then Ok d else Raise EValue.
Definition key_add (a b : Z) : res Z := key_new ((a + b) mod ec_order E).
Definition key_sub (a b : Z) : res Z := key_new ((a - b) mod ec_order E).
Definition pub_add (a b : bytes) : res bytes :=
  match ec_parse E a, ec_parse E b with Some p, Some q => if ec_is_zero E (ec_add E p q) then Raise EValue else Ok (ec_ser E (ec_add E p q)) | _, _ => Raise EValue end.

(** ** Bob reveals, lines 722-760 *)
(** ecdsa.der.encode_integer, encode_sequence; ecdsa.util.sigencode_der *)
Definition der_int (n : Z) : bytes :=
  let b := match lstrip (be_bytes (S (ec_len E)) n) with [] => [x00] | c :: r => if bz c <? 128 then c :: r else x00 :: c :: r end in
  x02 :: zb (blen b) :: b.
Definition der_sig (r s : Z) : bytes := let body := der_int r ++ der_int s in x30 :: zb (blen body) :: body.
(** SigningKey.sign_digest with the known k; [flip]: whether the encoding takes the other of the two values of s *)
Definition mhash : Z := be_val (sha [x01]).
Definition reveal_s (d : Z) : Z := (ec_inv E known_k * (mhash + d * (known_r mod ec_order E))) mod ec_order E.
Definition reveal_sig (flip : Z -> bool) (d : Z) : bytes :=
  let s := reveal_s d in der_sig (known_r mod ec_order E) (if flip s then ec_order E - s else s).
(** [prepare_elt_spend_reveal_branch]: the scriptSig *)
Definition reveal_script (flip : Z -> bool) (contract spend_sig : bytes) (contract_key blinding_key : Z) : res bytes :=
  let! d := key_add contract_key blinding_key in
  let! _ := rassert (negb (reveal_s d =? 0)) ERuntime in             (* ecdsa refuses s = 0 *)
  let sig := reveal_sig flip d in
  let n := length r_bytes in
  let! l := nth_res sig 3 in
  let! _ := rassert (bz l =? Z.of_nat n) EAssert in
  let! _ := rassert (bytes_eqb (firstn n (skipn 4 sig)) r_bytes) EAssert in
  script_of [Data spend_sig; Data (skipn (4 + n) sig); Data (firstn 4 sig); Op x51; Data contract].
(** the other branch, lines 713-717 *)
Definition reclaim_script (contract spend_sig : bytes) : res bytes := script_of [Data spend_sig; Op x00; Data contract].

(** ** Alice recovers the key, lines 243-285 *)
Inductive recovery :=
| Key (d : Z)                 (* the key that opens the Bitcoin side *)
| NoInput                     (* lines 252-254 *)
| NoFirst                     (* StopIteration, line 256 *)
| InvalidScript               (* lines 261-262 *)
| NotRecovered                (* lines 277-280 *)
| RecoveryCrash (e : exn).
(** [vin.scriptSig[-(len(elt_contract)):] == elt_contract] *)
Definition ends_with (s contract : bytes) : bool :=
  bytes_eqb (if blen contract =? 0 then s else skipn (length s - length contract) s) contract.
Definition recover_exponent (s : Z) : Z := (((s * known_k - mhash) mod ec_order E) * ec_inv E known_r) mod ec_order E.
Fixpoint try_keys (target : bytes) (l : list Z) : res (option Z) :=
  match l with
  | [] => Ok None
  | s :: l => let! d := key_new (recover_exponent s) in if bytes_eqb (pub d) target then Ok (Some d) else try_keys target l
  end.
Definition recover_from (target : bytes) (blinding_key alice_btc_key : Z) (scriptsig : bytes) : recovery :=
  match script_next scriptsig with
  | IStop => NoFirst
  | IErr e => RecoveryCrash e
  | INext _ rest =>
    match script_next rest with
    | IStop => InvalidScript
    | IErr e => RecoveryCrash e
    | INext (EInt _) _ | INext (EOp _) _ => RecoveryCrash EType         (* an int has no slices *)
    | INext (EBytes b) _ =>
      match skipn 2 b with
      | [] => InvalidScript                                            (* int('', 16) *)
      | c => let sig_s := be_val c in
        match try_keys target [- sig_s; sig_s] with
        | Raise e => RecoveryCrash e
        | Ok None => NotRecovered
        | Ok (Some d) =>
          match (let! k := key_sub d blinding_key in key_add k alice_btc_key) with Ok k => Key k | Raise e => RecoveryCrash e end
        end
      end
    end
  end.
(** the inputs of the transaction: hash of the output spent, scriptSig *)
Fixpoint recover (txid contract target : bytes) (blinding_key alice_btc_key : Z) (vin : list (bytes * bytes)) : recovery :=
  match vin with
  | [] => NoInput
  | (h, s) :: vin => if bytes_eqb h txid && ends_with s contract then recover_from target blinding_key alice_btc_key s
                     else recover txid contract target blinding_key alice_btc_key vin
  end.
End Cross.
