(** Specification: outcomes of address construction and conversion, output scripts, network parameters. *)
From Coq Require Import Strings.String.
From Coq Require Import ZArith List Bool.
From Verif Require Import Base PyStr WalletModel SpecScript.
Import ListNotations.
Local Open Scope Z_scope.

(** * What from_bytes of a blech32 class does *)
(** The version the object will have: the one asked for, which must be the class's if that has one, else the class's. *)
Inductive VersionFor (own : Z) : option Z -> Z -> Prop :=
| vf_own : 0 <= own <= 16 -> VersionFor own None own
| vf_asked v : 0 <= v <= 16 -> own < 0 \/ own = v -> VersionFor own (Some v) v.
Inductive FromBytes (i : binfo) (d : bytes) (w : option Z) : res bobj -> Prop :=
| fb_version : (forall v, ~ VersionFor (b_wv i) w v) -> FromBytes i d w (Raise EValue)
| fb_abstract v : VersionFor (b_wv i) w v -> b_dispatched i = true -> b_wv i < 0 -> FromBytes i d w (Raise EType)
| fb_length v : VersionFor (b_wv i) w v -> b_dispatched i = true -> 0 <= b_wv i -> blen d <> b_len i -> FromBytes i d w (Raise EType)
| fb_ok v : VersionFor (b_wv i) w v -> (b_dispatched i = true -> 0 <= b_wv i /\ blen d = b_len i) -> FromBytes i d w (Ok (mkObj i v d)).

(** * What from_unconfidential does *)
Definition kinds_of (cls : conf_class) : list kind :=
  match cls with CLeaf k => [k] | CAny => [P2PKH; P2SH; P2WPKH; P2WSH; P2TR] | CBase58 => [P2PKH; P2SH] | CBlech32 => [P2WPKH; P2WSH; P2TR] end.
Definition leaf_class (cls : conf_class) : Prop := exists k, cls = CLeaf k.
Section Conversion.
Variable valid_key : bytes -> bool.
(** [cur]: the current chain; [c]: the chain of the class *)
Inductive Conversion (cur c : chain) (cls : conf_class) (adr : addr) (pk : bytes) : res addr -> Prop :=
| cv_key : valid_key pk = false -> Conversion cur c cls adr pk (Raise EValue)
| cv_chain : valid_key pk = true -> ad_chain adr <> c -> Conversion cur c cls adr pk (Raise EType)
| cv_leaf : valid_key pk = true -> ad_chain adr = c -> leaf_class cls -> ~ In (ad_kind adr) (kinds_of cls) -> Conversion cur c cls adr pk (Raise EType)
| cv_base : valid_key pk = true -> ad_chain adr = c -> ~ leaf_class cls -> ~ In (ad_kind adr) (kinds_of cls) \/ cur <> c ->
    Conversion cur c cls adr pk (Raise EAddress)
| cv_size : valid_key pk = true -> ad_chain adr = c -> In (ad_kind adr) (kinds_of cls) -> leaf_class cls \/ cur = c ->
    ad_conf adr = true \/ blen pk <> 33 -> Conversion cur c cls adr pk (Raise EType)
| cv_ok : valid_key pk = true -> ad_chain adr = c -> In (ad_kind adr) (kinds_of cls) -> leaf_class cls \/ cur = c ->
    ad_conf adr = false -> blen pk = 33 -> Conversion cur c cls adr pk (Ok (mkAddr cur (ad_kind adr) true (pk ++ ad_data adr))).
End Conversion.

(** * Output scripts *)
Definition OP_DUP : byte := x76.
Definition OP_HASH160 : byte := xa9.
Definition OP_EQUAL : byte := x87.
Definition OP_EQUALVERIFY : byte := x88.
Definition OP_CHECKSIG : byte := xac.
(** OP_0, or OP_1 .. OP_16 *)
Definition small_int (v : Z) : byte := if v =? 0 then x00 else zb (80 + v).
Definition WitnessScript (v : Z) (program script : bytes) : Prop := exists p, Push program p /\ blen p = blen program + 1 /\ script = small_int v :: p.
Definition PaysTo (k : kind) (payload script : bytes) : Prop :=
  match k with
  | P2PKH => exists p, Push payload p /\ blen p = 21 /\ script = [OP_DUP; OP_HASH160] ++ p ++ [OP_EQUALVERIFY; OP_CHECKSIG]
  | P2SH => exists p, Push payload p /\ blen p = 21 /\ script = [OP_HASH160] ++ p ++ [OP_EQUAL]
  | P2WPKH | P2WSH => WitnessScript 0 payload script
  | P2TR => WitnessScript 1 payload script
  end.

(** * The networks: chain parameters of the Elements node (chainparams.cpp: elementsregtest and liquidv1). The library
    gives private keys of both networks the prefix 239. *)
Record params := mkParams { pubkey_address : Z; script_address : Z; blinded_address : Z; secret_key : Z; ext_public : list Z; ext_secret : list Z; blech32 : string }.
Definition network (c : chain) : params :=
  match c with
  | Elements => mkParams 235 75 4 239 [0x04; 0x35; 0x87; 0xcf] [0x04; 0x35; 0x83; 0x94] "el"
  | LiquidV1 => mkParams 57 39 12 239 [0x04; 0x88; 0xb2; 0x1e] [0x04; 0x88; 0xad; 0xe4] "lq"
  end.
(** A confidential address is the network's byte for blinded addresses before the plain one. *)
Definition plain_prefix (c : chain) (k : kind) : option Z :=
  match k with P2PKH => Some (pubkey_address (network c)) | P2SH => Some (script_address (network c)) | _ => None end.
Definition expected_prefix (b : base58_class) : option (list Z) :=
  match b with
  | B58Address c k conf => match plain_prefix c k with Some z => Some (if conf then [blinded_address (network c); z] else [z]) | None => None end
  | B58Key c => Some [secret_key (network c)]
  | B58ExtPub c => Some (ext_public (network c))
  | B58ExtPriv c => Some (ext_secret (network c))
  end.

(** How texts start, and how long they are, by the number of bytes carried: addresses carry 20 bytes, private keys 32 or
    (for compressed public keys) 33, extended keys 74. *)
Inductive Look : base58_class -> Z -> list string -> nat -> Prop :=
| look_e_pkh : Look (B58Address Elements P2PKH false) 20 ["2d"%string] 35
| look_e_sh : Look (B58Address Elements P2SH false) 20 ["X"%string] 34
| look_l_pkh : Look (B58Address LiquidV1 P2PKH false) 20 ["P"%string; "Q"%string] 34
| look_l_sh : Look (B58Address LiquidV1 P2SH false) 20 ["G"%string; "H"%string] 34
| look_key c : Look (B58Key c) 33 ["c"%string] 52
| look_key_uncompressed c : Look (B58Key c) 32 ["9"%string] 51
| look_e_pub : Look (B58ExtPub Elements) 74 ["tpub"%string] 111
| look_e_priv : Look (B58ExtPriv Elements) 74 ["tprv"%string] 111
| look_l_pub : Look (B58ExtPub LiquidV1) 74 ["xpub"%string] 111
| look_l_priv : Look (B58ExtPriv LiquidV1) 74 ["xprv"%string] 111.
