(** Base58Check text of addresses, and CCoinConfidentialAddress(text).

    wallet.py:189-190, 241-248 and 299-351, 393-452 derive the base58 address classes from bitcointx's
    CBase58CoinAddress; the functions modelled here are bitcointx's base58.py (encode, decode, CBase58Data) and
    wallet.py (CCoinAddress.__new__), as assumed in DESIGN.md. *)
From Coq Require Import Strings.String.
From Coq Require Import ZArith List Bool.
From Verif Require Import Base PyStr Blech32Model WalletModel.
Import ListNotations.
Local Open Scope Z_scope.

(** bitcointx base58.py B58_DIGITS *)
Definition b58_digits : pystr := str "123456789ABCDEFGHJKLMNPQRSTUVWXYZabcdefghijkmnopqrstuvwxyz".
Definition b58_char (d : Z) : Z := nth (Z.to_nat d) b58_digits 0.
(** [B58_DIGITS.index(c)], None when [c not in B58_DIGITS] *)
Fixpoint index_of (c : Z) (l : pystr) : option Z :=
  match l with
  | [] => None
  | x :: l' => if x =? c then Some 0 else match index_of c l' with Some i => Some (i + 1) | None => None end
  end.

(** [while n > 0: n, r = divmod(n, base); temp.append(r)], reversed; the fuel is the length of the input, doubled
    for base 58, never exhausted *)
Fixpoint digits_of (base : Z) (fuel : nat) (n : Z) (acc : list Z) : list Z :=
  match fuel with
  | O => acc
  | S f => if n <=? 0 then acc else digits_of base f (n / base) (n mod base :: acc)
  end.
(** [for c in l: if c == x: pad += 1 else: break] *)
Fixpoint count_leading (x : Z) (l : list Z) : nat :=
  match l with c :: l' => if c =? x then S (count_leading x l') else 0%nat | [] => 0%nat end.

(** base58.py encode *)
Definition b58_encode (b : bytes) : pystr :=
  repeat (b58_char 0) (count_leading 0 (map bz b)) ++ map b58_char (digits_of 58 (2 * length b) (be_val b) []).

(** base58.py decode: the number *)
Fixpoint b58_number (s : pystr) (n : Z) : res Z :=
  match s with
  | [] => Ok n
  | c :: s' => match index_of c b58_digits with None => Raise EBase58 | Some d => b58_number s' (n * 58 + d) end
  end.
(** [h = '%x' % n; if len(h) % 2: h = '0' + h; unhexlify(h)] *)
Definition int_bytes (fuel : nat) (n : Z) : bytes := if n =? 0 then [x00] else map zb (digits_of 256 fuel n []).
Definition b58_decode (s : pystr) : res bytes :=
  match s with
  | [] => Ok []
  | _ => let! n := b58_number s 0 in Ok (zeros (count_leading (b58_char 0) (removelast s)) ++ int_bytes (length s) n)
  end.

Section Text.
Variable H : bytes -> bytes.   (* bitcointx.core.Hash, double SHA-256 *)

(** CBase58Data.__new__: decode, last four bytes are the checksum *)
Definition b58check_decode (s : pystr) : res bytes :=
  let! k := b58_decode s in
  if blen k <? 4 then Raise EBase58
  else
    let data := firstn (length k - 4) k in
    if bytes_eqb (skipn (length k - 4) k) (firstn 4 (H data)) then Ok data else Raise EBase58.
Definition b58check_encode (data : bytes) : pystr := b58_encode (data ++ firstn 4 (H data)).

(** An address class given text: the first candidate class with a matching prefix; its [__init__] checks the length. *)
Definition base58_new (candidates : list base58_class) (s : pystr) : res addr :=
  let! data := b58check_decode s in
  match base58_match candidates data with
  | Some (B58Address c k conf, d) => addr_from_bytes c k conf d
  | _ => Raise EBase58
  end.
(** [str()] of the data of any base58 class *)
Definition class_text (b : base58_class) (data : bytes) : option pystr :=
  match prefix_of b with Some p => Some (b58check_encode (map zb p ++ data)) | None => None end.
(** [str(address)] of a base58 address *)
Definition base58_str (a : addr) : option pystr :=
  match base58_prefix (ad_chain a) (ad_kind a) (ad_conf a) with
  | Some p => Some (b58check_encode (map zb p ++ ad_data a))
  | None => None
  end.

(** [str(address)] of a confidential address: base58, or blech32.py:145-152 *)
Definition conf_str (a : addr) : res pystr :=
  match base58_str a with
  | Some s => Ok s
  | None => blech32_str (mkObj (leaf_info (ad_chain a) (ad_kind a)) (witness_version (ad_kind a)) (ad_data a))
  end.

(** bitcointx wallet.py CCoinAddress.__new__ for the confidential address class of chain [c] (wallet.py:295-296,
    397-398): its encodings in any order; CCoinAddressError and AddressDataEncodingError (Base58Error, Blech32Error)
    mean "try the next". *)
Inductive encoding := EncBase58 (candidates : list base58_class) | EncBlech32 (leaves : list kind).
Definition caught (e : exn) : bool := match e with EAddress | EBase58 | EBlech32 => true | _ => false end.
Definition enc_new (c : chain) (e : encoding) (s : pystr) : res addr :=
  match e with
  | EncBase58 candidates => base58_new candidates s
  | EncBlech32 leaves =>
    let! o := blech32_new (blech32_base c leaves) s in
    match find (fun k => Nat.eqb (kind_number k) (b_name (o_cls o))) leaves with
    | Some k => Ok (mkAddr c k true (o_data o))
    | None => Raise EType
    end
  end.
Fixpoint conf_new (c : chain) (encs : list encoding) (s : pystr) : res addr :=
  match encs with
  | [] => Raise EAddress
  | e :: l => match enc_new c e s with
              | Ok a => Ok a
              | Raise x => if caught x then conf_new c l s else Raise x
              end
  end.
End Text.
