(** Specification: what has to hold for blind() to blind everything it was asked to. *)
From Verif Require Import Base TxModel BlindModel SpecBlind SpecFault SpecExc.
Local Open Scope Z_scope.

(** The library finds the asset of each output to be blinded among the targets, whichever number is the seed, and its proofs
    are not empty. *)
Record Provable (z : Crypto) (rand : nat -> bytes) (args : blind_args) (t : tx) : Prop := {
  pv_init : forall targets j pub o a seed, SurjectionTargets z args t targets -> nth_error (a_pubkeys args) j = Some pub -> pub <> [] ->
    nth_error (vout t) j = Some o -> ExplicitAsset (nAsset o) a -> Drawn rand args t seed ->
    exists p i, sp_init z (concat (map tg_tag targets)) (length targets) (Nat.min 3 (length targets)) a 100 seed = Some (p, i);
  pv_bytes : forall p gens n g i ib ob p', sp_generate z p gens n g i ib ob = Some p' -> sp_serialize z p' <> []
}.
(** Nothing stands in the way: the lists fit, there is no fault, the library refuses nothing, keys are given only
    for issuances that can be blinded, ... *)
Record Clear (z : Crypto) (rand : nat -> bytes) (args : blind_args) (t : tx) : Prop := {
  cl_lists : ~ bad_arguments args t;
  cl_faults : ~ Faulty z args t;
  cl_token : ~ TokenUnknown t;
  cl_lib : ~ Refused z rand args t;
  cl_stray : ~ stray_key args t;
  cl_retoken : ~ token_key_for_reissuance args t;
  cl_provable : Provable z rand args t;
  (** ... some output is to be blinded, and it is not alone: another output or issuance is blinded, or an input is *)
  cl_output : output_tasks args <> [];
  cl_alone : length (output_tasks args) <> 1%nat \/ issuance_tasks args t <> [] \/ blinded_inputs args <> []
}.
