(** Specification: the library's own account of the size of a serialized surjection proof is right. *)
From Verif Require Import Base BlindModel.
Definition SizeOk (z : Crypto) (size : bytes -> nat) : Prop := forall p, size p = length (sp_serialize z p).
