(** Specification: arguments of blind() that differ only by multiples of 2^32 (range proof parameters) or 2^64 (amounts). *)
From Coq Require Import ZArith List.
From Verif Require Import Base BlindModel.
Import ListNotations.
Local Open Scope Z_scope.

Definition same_mod (m a b : Z) : Prop := exists k, a = b + k * m.
(** a range proof parameter that was given (or not) *)
Definition SameParameter (o o' : option Z) : Prop :=
  match o, o' with None, None => True | Some a, Some b => same_mod (2 ^ 32) a b | _, _ => False end.
(** an input of which the amount is not negative *)
Definition SameInput (d d' : input_desc) : Prop :=
  d_asset d = d_asset d' /\ d_bf d = d_bf d' /\ d_abf d = d_abf d' /\ 0 <= d_amount d /\ 0 <= d_amount d' /\ same_mod (2 ^ 64) (d_amount d) (d_amount d').
Record SameButWrapped (args args' : blind_args) : Prop := {
  sw_descs : Forall2 SameInput (a_descs args) (a_descs args');
  sw_pubkeys : a_pubkeys args = a_pubkeys args';
  sw_asset_keys : a_asset_keys args = a_asset_keys args';
  sw_token_keys : a_token_keys args = a_token_keys args';
  sw_aux : a_aux args = a_aux args';
  sw_exponent : SameParameter (a_ct_exponent args) (a_ct_exponent args');
  sw_bits : SameParameter (a_ct_bits args) (a_ct_bits args');
  sw_strict : a_strict args = a_strict args'
}.

(** what is given to blind() for the two parameters, or the documented default *)
Definition given_exponent (args : blind_args) : Z := match a_ct_exponent args with Some e => e | None => 0 end.
Definition given_bits (args : blind_args) : Z := match a_ct_bits args with Some b => b | None => 52 end.
(** two libraries that differ only in the range proofs they make for other parameters than [e] and [b] *)
Definition SameForParameters (e b : Z) (z z' : Crypto) : Prop := exists sign,
  (forall minv c bl nonce v msg extra g, sign minv c bl nonce e b v msg extra g = rp_sign z minv c bl nonce e b v msg extra g)
  /\ z' = mkCrypto (c_hash z) (c_sha z) (c_mid z) (gen_parse z) (gen_generate z) (gen_generate_blinded z) (gen_serialize z) (ped_commit z) (ped_serialize z) (ped_parse z) (blind_sum z)
       sign (rp_rewind z) (sp_init z) (sp_generate z) (sp_verify z) (sp_serialize z) (pk_fullyvalid z) (sk_valid z) (sk_pub z) (ecdh z).
