(** The printed forms [repr(x)] and [str(x)] of the structures of core/__init__.py. *)
From Coq Require Import Strings.String Strings.Ascii Numbers.DecimalString Numbers.HexadecimalString ZArith.
From Verif Require Import Base TxModel.
Import ListNotations.
Local Open Scope string_scope.

(** [strfn] of the [_repr_or_str] methods (bitcointx ReprOrStrMixin): [repr] or [str]. *)
Inductive how := Repr | Str.

(** What bitcointx prints and elementstx only passes on: [repr(CScript)], [str(CAsset)], [str(COutPoint)],
    [str(CScriptWitness)]. *)
Record Printer := mkPrinter {
  p_script : bytes -> string;
  p_asset : bytes -> string;
  p_outpoint : outpoint -> string;
  p_stack : list bytes -> string
}.

(** bitcointx [b2x]: two lower-case hexadecimal digits per byte *)
Definition nibble (n : Z) : ascii :=
  nth (Z.to_nat n) ["0"; "1"; "2"; "3"; "4"; "5"; "6"; "7"; "8"; "9"; "a"; "b"; "c"; "d"; "e"; "f"]%char "?"%char.
Fixpoint b2x (b : bytes) : string :=
  match b with
  | [] => ""
  | c :: r => String (nibble (bz c / 16)) (String (nibble (bz c mod 16)) (b2x r))
  end.
(** bitcointx [b2lx]: the bytes in reversed order *)
Definition b2lx (b : bytes) : string := b2x (rev b).
(** bitcointx [bytes_repr] *)
Definition bytes_repr (b : bytes) : string := "x('" ++ b2x b ++ "')".
(** ['%d' % z] and [str(z)] of an int *)
Definition decz (z : Z) : string := DecimalString.NilZero.string_of_int (Z.to_int z).
(** ['0x%x' % z] of a non-negative int *)
Definition hexz (z : Z) : string := "0x" ++ HexadecimalString.NilZero.string_of_uint (N.to_hex_uint (Z.to_N z)).
(** [sep.join(l)] *)
Fixpoint join (sep : string) (l : list string) : string :=
  match l with
  | [] => ""
  | [s] => s
  | s :: r => s ++ sep ++ join sep r
  end.

(** core/__init__.py:308-309 [CAsset.__repr__] *)
Definition asset_repr (a : bytes) : string := "CAsset('" ++ b2lx a ++ "')".

(** [self.__class__.__name__] of the confidential fields *)
Definition conf_name (c : cclass) : string :=
  match c with CConfAsset => "CConfidentialAsset" | CConfValue => "CConfidentialValue" | CConfNonce => "CConfidentialNonce" end.

(** core/__init__.py:353-354, 382-383, 391-392 [_get_explicit], printed by [str] or [repr]; the nonce is printed by [str] only *)
Definition explicit_text (p : Printer) (h : how) (c : cclass) (x : bytes) : res string :=
  match c with
  | CConfAsset => let! a := to_asset x in Ok (match h with Repr => asset_repr a | Str => p_asset p a end)
  | CConfValue => let! v := to_amount x in Ok (decz v)
  | CConfNonce => Ok "CONFIDENTIAL"
  end.
(** core/__init__.py:292-304 [__str__], [__repr__]; 394-396 [CConfidentialNonce.__repr__] *)
Definition conf_text (p : Printer) (h : how) (c : cclass) (x : bytes) : res string :=
  let! v :=
    (match h, c with
     | Repr, CConfNonce => Ok ("x('" ++ b2x x ++ "')")
     | _, _ =>
         if conf_is_explicit c x then explicit_text p h c x
         else Ok (match h with Repr => bytes_repr x | Str => "CONFIDENTIAL" end)
     end) in
  Ok (conf_name c ++ "(" ++ v ++ ")").

(** core/__init__.py:609-615 [CElementsTxOutWitness.__repr__]; [m]: the mutable class *)
Definition outwit_name (m : bool) : string := if m then "CElementsMutableTxOutWitness" else "CElementsTxOutWitness".
Definition outwit_text (m : bool) (w : outwit) : string :=
  if outwit_is_null w then outwit_name m ++ "()"
  else outwit_name m ++ "(" ++ bytes_repr (ow_surj w) ++ ", " ++ bytes_repr (ow_range w) ++ ")".

(** bitcointx [CScriptWitness.__repr__] *)
Definition stack_repr (st : list bytes) : string := "CScriptWitness([" ++ join "," (map bytes_repr st) ++ "])".
Definition stack_text (p : Printer) (h : how) (st : list bytes) : string :=
  match h with Repr => stack_repr st | Str => p_stack p st end.
(** core/__init__.py:509-515 [CElementsTxInWitness._repr_or_str] *)
Definition inwit_name (m : bool) : string := if m then "CElementsMutableTxInWitness" else "CElementsTxInWitness".
Definition inwit_text (p : Printer) (h : how) (m : bool) (w : inwit) : string :=
  if inwit_is_null w then inwit_name m ++ "()"
  else inwit_name m ++ "(" ++ stack_text p h (iw_script w) ++ ", " ++ bytes_repr (iw_issproof w) ++ ", "
       ++ bytes_repr (iw_keysproof w) ++ ", " ++ stack_text p h (iw_pegin w) ++ ")".

(** core/__init__.py:724-728 [CElementsTxWitness._repr_or_str] *)
Definition txwit_name (m : bool) : string := if m then "CElementsMutableTxWitness" else "CElementsTxWitness".
Definition txwit_text (p : Printer) (h : how) (m : bool) (w : txwit) : string :=
  txwit_name m ++ "([" ++ join "," (map (inwit_text p h m) (vtxinwit w)) ++ "], ["
  ++ join "," (map (outwit_text m) (vtxoutwit w)) ++ "])".

(** [Uint256.to_int()] as a truth value *)
Definition uint256_true (d : bytes) : bool := negb (forallb (fun b => bz b =? 0)%Z d).
(** core/__init__.py:790-800 [CAssetIssuance._repr_or_str] *)
Definition issuance_text (p : Printer) (h : how) (i : issuance) : res string :=
  let r := if uint256_true (is_nonce i) then [bytes_repr (is_nonce i)] else [] in
  let r := if uint256_true (is_entropy i) then (r ++ [bytes_repr (is_entropy i)])%list else r in
  let! r := (if negb (conf_is_null (is_amount i)) then let! t := conf_text p h CConfValue (is_amount i) in Ok (r ++ [t])%list else Ok r) in
  let! r := (if negb (conf_is_null (is_keys i)) then let! t := conf_text p h CConfValue (is_keys i) in Ok (r ++ [t])%list else Ok r) in
  Ok ("CAssetIssuance(" ++ join ", " r ++ ")").

(** bitcointx [COutPoint.is_null] and [COutPoint.__repr__] *)
Definition outpoint_is_null (o : outpoint) : bool :=
  negb (uint256_true (op_hash o)) && (op_n o =? 0xffffffff)%Z.
Definition outpoint_name (m : bool) : string := if m then "CElementsMutableOutPoint" else "CElementsOutPoint".
Definition outpoint_repr (m : bool) (o : outpoint) : string :=
  if outpoint_is_null o then outpoint_name m ++ "()"
  else outpoint_name m ++ "(lx('" ++ b2lx (op_hash o) ++ "'), " ++ decz (op_n o) ++ ")".
Definition outpoint_text (p : Printer) (h : how) (m : bool) (o : outpoint) : string :=
  match h with Repr => outpoint_repr m o | Str => p_outpoint p o end.

(** ['%r' % b] of a bool *)
Definition bool_repr (b : bool) : string := if b then "True" else "False".
(** core/__init__.py:889-894 [CElementsTxIn._repr_or_str] *)
Definition txin_name (m : bool) : string := if m then "CElementsMutableTxIn" else "CElementsTxIn".
Definition txin_text (p : Printer) (h : how) (m : bool) (i : txin) : res string :=
  let! iss := issuance_text p h (assetIssuance i) in
  Ok (txin_name m ++ "(" ++ outpoint_text p h m (prevout i) ++ ", " ++ p_script p (scriptSig i) ++ ", "
      ++ hexz (nSequence i) ++ ", " ++ iss ++ ", is_pegin=" ++ bool_repr (is_pegin i) ++ ")").

(** core/__init__.py:999-1003 [CElementsTxOut._repr_or_str] *)
Definition txout_name (m : bool) : string := if m then "CElementsMutableTxOut" else "CElementsTxOut".
Definition txout_text (p : Printer) (h : how) (m : bool) (o : txout) : res string :=
  let! v := conf_text p h CConfValue (nValue o) in
  let! a := conf_text p h CConfAsset (nAsset o) in
  let! n := conf_text p h CConfNonce (nNonce o) in
  Ok (txout_name m ++ "(" ++ v ++ ", " ++ p_script p (scriptPubKey o) ++ ", " ++ a ++ ", " ++ n ++ ")").
