(** Addresses: blech32.py:40-152 (CBlech32Data) and wallet.py:68-491.

    Assumed of bitcointx: a class without dispatched descendants has an empty [dispatcher_mapped_list]; that of
    a chain's blech32 base class lists the chain's three leaf classes (in some order); that of a generic leaf class
    (P2PKHCoinConfidentialAddress, ...) lists the one class of the current chain; [from_bytes] of a generic leaf
    class is that of the class of the current chain; the base58 and bech32 leaf classes take data of exactly
    [_data_length] bytes (TypeError otherwise); scriptPubKey templates as below.
    Not modelled: base58 and bech32 text, CCoinAddress(text) trying every class, type checks of arguments. *)
From Coq Require Import Strings.String.
From Coq Require Import ZArith List Bool.
From Verif Require Import Base Serialize TxModel PyStr Blech32Model.
Import ListNotations.
Local Open Scope Z_scope.

(** * CBlech32Data and its subclasses *)
(** A class: attributes, whether it derives from CBlech32DataDispatched (wallet.py:208), and the classes it is
    dispatched to. [b_wv] is -1 when not set (blech32.py:46). *)
Record binfo := mkB { b_name : nat; b_hrp : pystr; b_wv : Z; b_len : Z; b_dispatched : bool }.
Inductive bclass := BClass (info : binfo) (mapped : list bclass).
Definition info (c : bclass) : binfo := match c with BClass i _ => i end.

(** An instance: its class, its [blech32_witness_version] (own or of the class), its bytes. *)
Record bobj := mkObj { o_cls : binfo; o_wv : Z; o_data : bytes }.

(** blech32.py:61-67 and wallet.py:210-216 [__init__] *)
Definition blech32_init (c : binfo) (data : bytes) : res unit :=
  if b_dispatched c then
    if b_wv c <? 0 then Raise EType
    else if negb (blen data =? b_len c) then Raise EType
    else Ok tt
  else Ok tt.

(** blech32.py:107-135 [from_bytes] *)
Definition from_bytes (c : binfo) (witprog : bytes) (witver : option Z) : res bobj :=
  let! v := (match witver with
             | None => if b_wv c <? 0 then Raise EValue else Ok (b_wv c)
             | Some v => if v <? 0 then Raise EValue
                         else if (0 <=? b_wv c) && negb (v =? b_wv c) then Raise EValue
                         else Ok v
             end) in
  if negb ((0 <=? v) && (v <=? 16)) then Raise EValue
  else
    let! _ := blech32_init c witprog in
    Ok (mkObj c (if b_wv c <? 0 then v else b_wv c) witprog).

(** blech32.py:69-74, wallet.py:218-230 [blech32_get_match_candidates]; [inl]: the class itself is the
    only candidate, [inr]: the listed ones *)
Definition match_candidates (c : bclass) : res (unit + list bclass) :=
  match c with
  | BClass i mapped =>
    if b_dispatched i then
      match mapped with
      | [] => if b_wv i <? 0 then Raise EType else Ok (inl tt)
      | _ => Ok (inr mapped)
      end
    else if 0 <=? b_wv i then Ok (inl tt) else Ok (inr [])
  end.

(** blech32.py:76-105 [blech32_match_progam_and_version]; None: UnexpectedBlech32LenghOrVersion *)
Section Candidates.
Variable rec : bclass -> res (option bobj).   (* the recursive call, 90-91 *)
(** 86-95: the loop *)
Fixpoint try_candidates (l : list bclass) (data : bytes) (witver : Z) : res (option bobj) :=
  match l with
  | [] => Ok None
  | d :: l' =>
    if b_wv (info d) <? 0 then
      let! r := rec d in
      match r with Some o => Ok (Some o) | None => try_candidates l' data witver end
    else if (blen data =? b_len (info d)) && (witver =? b_wv (info d))
    then let! o := from_bytes (info d) data (Some witver) in Ok (Some o)
    else try_candidates l' data witver
  end.
End Candidates.
Fixpoint match_program (c : bclass) (data : bytes) (witver : Z) {struct c} : res (option bobj) :=
  match c with
  | BClass i mapped =>
    match match_candidates c with
    | Raise e => Raise e
    | Ok (inl _) =>
      if (blen data =? b_len i) && (witver =? b_wv i)
      then let! o := from_bytes i data (Some witver) in Ok (Some o)
      else Ok None
    | Ok (inr []) => let! o := from_bytes i data (Some witver) in Ok (Some o)
    | Ok (inr _) => try_candidates (fun d => match_program d data witver) mapped data witver
    end
  end.

(** blech32.py:49-59 [__new__], then [__init__] on the instance *)
Definition blech32_new (c : bclass) (s : pystr) : res bobj :=
  let! r := decode (b_hrp (info c)) s in
  match r with
  | None => Raise EBlech32
  | Some (witver, data) =>
    let! m := match_program c data witver in
    match m with
    | None => Raise EBlech32
    | Some o => let! _ := blech32_init (o_cls o) (o_data o) in Ok o
    end
  end.

(** blech32.py:145-152 [__str__] *)
Definition blech32_str (o : bobj) : res pystr :=
  let! r := encode (b_hrp (o_cls o)) (o_wv o) (o_data o) in
  match r with None => Raise EAssert | Some s => Ok s end.

(** * The address classes, wallet.py:241-491 *)
Inductive chain := Elements | LiquidV1.
Inductive kind := P2PKH | P2SH | P2WPKH | P2WSH | P2TR.
Definition chain_eqb (a b : chain) : bool := match a, b with Elements, Elements | LiquidV1, LiquidV1 => true | _, _ => false end.
Definition kind_eqb (a b : kind) : bool :=
  match a, b with P2PKH, P2PKH | P2SH, P2SH | P2WPKH, P2WPKH | P2WSH, P2WSH | P2TR, P2TR => true | _, _ => false end.
Definition is_segwit (k : kind) : bool := match k with P2PKH | P2SH => false | _ => true end.

(** payload sizes: bitcointx for the unconfidential classes, 241-269 for the confidential ones *)
Definition payload_length (k : kind) : Z := match k with P2PKH | P2SH | P2WPKH => 20 | P2WSH | P2TR => 32 end.
Definition data_length (k : kind) (conf : bool) : Z := payload_length k + (if conf then 33 else 0).
(** 251-269 [blech32_witness_version] *)
Definition witness_version (k : kind) : Z := match k with P2TR => 1 | P2WPKH | P2WSH => 0 | _ => -1 end.
(** 315, 417 [blech32_hrp] *)
Definition blech32_hrp (c : chain) : pystr := match c with Elements => str "el" | LiquidV1 => str "lq" end.
(** 319, 323, 341, 350, 421, 425, 442, 451 [base58_prefix] *)
Definition base58_prefix (c : chain) (k : kind) (conf : bool) : option (list Z) :=
  match c, k, conf with
  | Elements, P2SH, false => Some [75]
  | Elements, P2PKH, false => Some [235]
  | Elements, P2PKH, true => Some [4; 235]
  | Elements, P2SH, true => Some [4; 75]
  | LiquidV1, P2SH, false => Some [39]
  | LiquidV1, P2PKH, false => Some [57]
  | LiquidV1, P2PKH, true => Some [12; 57]
  | LiquidV1, P2SH, true => Some [12; 39]
  | _, _, _ => None
  end.

(** The blech32 leaf class of a kind, and a chain's blech32 base class (313-315, 415-417) dispatched to [leaves]. *)
Definition kind_number (k : kind) : nat := match k with P2PKH => 1 | P2SH => 2 | P2WPKH => 3 | P2WSH => 4 | P2TR => 5 end.
Definition leaf_info (c : chain) (k : kind) : binfo :=
  mkB (kind_number k) (blech32_hrp c) (witness_version k) (data_length k true) true.
Definition blech32_leaf (c : chain) (k : kind) : bclass := BClass (leaf_info c k) [].
Definition blech32_base (c : chain) (leaves : list kind) : bclass :=
  BClass (mkB 0 (blech32_hrp c) (-1) 0 true) (map (blech32_leaf c) leaves).

(** * Base58 payload dispatch *)
(** The classes with a base58 prefix: addresses, keys (381-390, 482-491) and extended keys. *)
Inductive base58_class := B58Address (c : chain) (k : kind) (conf : bool) | B58Key (c : chain) | B58ExtPub (c : chain) | B58ExtPriv (c : chain).
Definition prefix_of (b : base58_class) : option (list Z) :=
  match b with
  | B58Address c k conf => base58_prefix c k conf
  | B58Key _ => Some [239]
  | B58ExtPub Elements => Some [4; 53; 135; 207]
  | B58ExtPriv Elements => Some [4; 53; 131; 148]
  | B58ExtPub LiquidV1 => Some [4; 136; 178; 30]
  | B58ExtPriv LiquidV1 => Some [4; 136; 173; 228]
  end.
(** bitcointx base58.py: the first candidate whose prefix starts the decoded data takes the rest of it *)
Fixpoint starts_with (p : list Z) (d : bytes) : option bytes :=
  match p, d with
  | [], _ => Some d
  | z :: p', b :: d' => if bz b =? z then starts_with p' d' else None
  | _ :: _, [] => None
  end.
Fixpoint base58_match (candidates : list base58_class) (d : bytes) : option (base58_class * bytes) :=
  match candidates with
  | [] => None
  | b :: l =>
    match prefix_of b with
    | None => base58_match l d
    | Some p => match starts_with p d with Some r => Some (b, r) | None => base58_match l d end
    end
  end.

(** An address object of a leaf class. *)
Record addr := mkAddr { ad_chain : chain; ad_kind : kind; ad_conf : bool; ad_data : bytes }.
Definition addr_from_bytes (c : chain) (k : kind) (conf : bool) (data : bytes) : res addr :=
  if is_segwit k && conf then
    let! o := from_bytes (leaf_info c k) data None in Ok (mkAddr c k conf (o_data o))
  else if blen data =? data_length k conf then Ok (mkAddr c k conf data) else Raise EType.

(** * CCoinConfidentialAddress, wallet.py:68-185 *)
(** The confidential classes of a chain on which from_unconfidential may be called. *)
Inductive conf_class := CLeaf (k : kind) | CAny | CBase58 | CBlech32.
(** [issubclass(cls, conf_cls)] and [issubclass(cls, chain_specific_conf_cls)] for a leaf kind [k]: only leaf
    classes derive from the generic leaf class; [cur] is the current chain *)
Definition below_generic (cls : conf_class) (k : kind) : bool := match cls with CLeaf k' => kind_eqb k' k | _ => false end.
(** [issubclass(chain_specific_conf_cls, cls)], [cls] being of chain [c] *)
Definition above_leaf (cur c : chain) (cls : conf_class) (k : kind) : bool :=
  chain_eqb cur c && match cls with CLeaf k' => kind_eqb k' k | CAny => true | CBase58 => negb (is_segwit k) | CBlech32 => is_segwit k end.

Section Wallet.
Variable pk_fullyvalid : bytes -> bool.   (* CPubKey.is_fullyvalid *)

(** wallet.py:72-130 [from_unconfidential]. [isinstance(adr, P2..CoinAddress)] holds for the confidential
    addresses of the kind too: they are registered (345-378, 446-479) as virtual subclasses. *)
Definition clsmap : list kind := [P2PKH; P2WPKH; P2SH; P2WSH; P2TR].
Fixpoint try_classes (cur c : chain) (cls : conf_class) (adr : addr) (pk : bytes) (l : list kind) : res addr :=
  match l with
  | [] => Raise EAddress
  | k :: l' =>
    if kind_eqb (ad_kind adr) k && (below_generic cls k || above_leaf cur c cls k)
    then addr_from_bytes cur k true (pk ++ ad_data adr)
    else if below_generic cls k then Raise EType
    else try_classes cur c cls adr pk l'
  end.
Definition from_unconfidential (cur c : chain) (cls : conf_class) (adr : addr) (pk : bytes) : res addr :=
  if negb (pk_fullyvalid pk) then Raise EValue
  else if negb (chain_eqb c (ad_chain adr)) then Raise EType
  else try_classes cur c cls adr pk clsmap.
End Wallet.

(** wallet.py:132-141 [to_unconfidential]; 143-147 [blinding_pubkey] *)
Definition to_unconfidential (a : addr) : res addr := addr_from_bytes (ad_chain a) (ad_kind a) false (skipn 33 (ad_data a)).
Definition blinding_pubkey (a : addr) : bytes := firstn 33 (ad_data a).

(** bitcointx [to_scriptPubKey] of the unconfidential classes *)
Definition unconf_script (k : kind) (d : bytes) : bytes :=
  match k with
  | P2PKH => [x76; xa9; x14] ++ d ++ [x88; xac]
  | P2SH => [xa9; x14] ++ d ++ [x87]
  | P2WPKH => [x00; x14] ++ d
  | P2WSH => [x00; x20] ++ d
  | P2TR => [x51; x20] ++ d
  end.
(** wallet.py:157-158 *)
Definition to_scriptPubKey (a : addr) : res bytes :=
  if ad_conf a then let! u := to_unconfidential a in Ok (unconf_script (ad_kind u) (ad_data u))
  else Ok (unconf_script (ad_kind a) (ad_data a)).

(** wallet.py:167-185 and 273-288 [get_output_size]: a classmethod, so always called with a class *)
Definition get_output_size (c : chain) (k : kind) (conf : bool) : res Z :=
  let! inst := addr_from_bytes c k conf (zeros (Z.to_nat (data_length k conf))) in
  let! script := to_scriptPubKey inst in
  let dummy := zeros 33 in
  let txo := if conf then mkTxOut dummy script dummy dummy
             else mkTxOut (x01 :: be_bytes 8 0) script [] [] in
  let! b := ser_txout txo in
  Ok (blen b).
