(** Specification: arguments of wrong types, and transactions left half blinded. *)
From Verif Require Import Base TxModel BlindModel SpecBlind DynModel.
Local Open Scope Z_scope.

(** Arguments of the documented types. *)
Definition key_obj (k : option bytes) : pykey := match k with Some s => KKey s | None => KNone end.
Definition int_obj (x : option Z) : pyint := match x with Some n => IInt n | None => INone end.
Definition desc_obj (d : input_desc) : pydesc := Desc (Good (d_asset d)) (Good (d_amount d)) (Good (d_bf d)) (Good (d_abf d)).
Definition dyn_of (a : blind_args) : dyn_args :=
  mkDyn (map desc_obj (a_descs a)) (map Good (a_pubkeys a)) (map key_obj (a_asset_keys a)) (map key_obj (a_token_keys a))
    (map Good (a_aux a)) (int_obj (a_ct_exponent a)) (int_obj (a_ct_bits a)) (a_strict a).

Definition Sound (d : pydesc) : Prop := exists asset amount bf abf, d = Desc (Good asset) (Good amount) (Good bf) (Good abf).
(** Wrong types that are looked for at the start. *)
Definition WrongType (y : dyn_args) : Prop :=
  In Bad (y_pubkeys y) \/ In KOther (y_asset_keys y) \/ In KOther (y_token_keys y)
  \/ (exists d, In d (y_descs y) /\ ~ Sound d) \/ In Bad (y_aux y).
(** Wrong counts or lengths. *)
Definition WrongCount (y : dyn_args) (t : tx) : Prop :=
  (length (y_pubkeys y) > length (vout t))%nat
  \/ (length (y_asset_keys y) > length (vin t))%nat
  \/ (length (y_token_keys y) > length (vin t))%nat
  \/ length (y_descs y) <> length (vin t)
  \/ (y_aux y <> [] /\ ((length (y_aux y) < length (vin t))%nat \/ exists g, In (Good g) (y_aux y) /\ blen g <> 33)).

(** Wrong types that are not looked for at the start. *)
Definition WrongParameter (y : dyn_args) : Prop := y_ct_exponent y = IOther \/ y_ct_bits y = IOther.
Definition falsy_key (y : dyn_args) (x : nat * bool) : Prop := nth (fst x) (if snd x then y_token_keys y else y_asset_keys y) KNone = KFalsy.

(** A commitment, by its bytes. *)
Definition Committed (x : bytes) : Prop := length x = 33%nat /\ hd x00 x <> x01.
(** One issuance, or one output, that was explicit has been replaced by a commitment, and no proof has been added. *)
Definition HalfIssuance (t t' : tx) : Prop := exists i ps inp inp' v,
  nth_error (vin t) i = Some inp /\ nth_error (vin t') i = Some inp'
  /\ ExplicitValue (iss_field ps inp) v /\ Committed (iss_field ps inp')
  /\ iss_proof ps (inwit_at t' i) = iss_proof ps (inwit_at t i).
Definition HalfOutput (t t' : tx) : Prop := exists j o o' v a,
  nth_error (vout t) j = Some o /\ nth_error (vout t') j = Some o'
  /\ ExplicitValue (nValue o) v /\ ExplicitAsset (nAsset o) a /\ Committed (nValue o') /\ Committed (nAsset o')
  /\ outwit_at t' j = outwit_at t j.

(** The issuance amount (or, with [ps], the token amount) of input [i] and its proof are as before. *)
Definition SameIn (t t' : tx) (i : nat) (ps : bool) : Prop :=
  option_map (iss_field ps) (nth_error (vin t') i) = option_map (iss_field ps) (nth_error (vin t) i)
  /\ iss_proof ps (inwit_at t' i) = iss_proof ps (inwit_at t i).

(** Nothing changed, except that empty output witnesses may have been appended. *)
Definition Still (t t' : tx) : Prop := vin t' = vin t /\ vout t' = vout t /\ vtxinwit (wit t') = vtxinwit (wit t) /\ (forall j, outwit_at t' j = outwit_at t j)
  /\ nVersion t' = nVersion t /\ nLockTime t' = nLockTime t.
