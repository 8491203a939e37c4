(** Specification: which auxiliary generators blind() reads. *)
From Coq Require Import List ZArith Arith.
From Verif Require Import Base TxModel BlindModel MiscModel.
Import ListNotations.

(** generator [i] is read: it lies beyond the inputs, or the asset of input [i] is not given *)
Definition Read (args : blind_args) (t : tx) (i : nat) : Prop :=
  length (vin t) <= i \/ exists d, nth_error (a_descs args) i = Some d /\ d_asset d = zeros 32.
(** some generator that is read is a bytearray *)
Definition ReadsArray (args : blind_args) (aux : list pybuf) (t : tx) : Prop :=
  exists i a, nth_error aux i = Some (PByteArray a) /\ Read args t i.
(** the refusals that can come while the generators are read *)
Definition EarlyFailure (f : failure) : Prop :=
  match f with F_asset_empty _ | F_aux_invalid _ | F_amount_commitment | F_keys_commitment => True | _ => False end.
(** the same bytes as immutable objects *)
Definition frozen (h : heap) (aux : list pybuf) : list bytes := map (deref h) aux.

(** the library, except that it rewinds no range proof *)
Definition without_rewind (z : Crypto) : Crypto := mkCrypto (c_hash z) (c_sha z) (c_mid z) (gen_parse z) (gen_generate z) (gen_generate_blinded z) (gen_serialize z) (ped_commit z) (ped_serialize z) (ped_parse z) (blind_sum z)
  (rp_sign z) (fun _ _ _ _ _ => None) (sp_init z) (sp_generate z) (sp_verify z) (sp_serialize z) (pk_fullyvalid z) (sk_valid z) (sk_pub z) (ecdh z).
