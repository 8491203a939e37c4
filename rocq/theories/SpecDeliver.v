(** Specification: a payment that is planned well. *)
From Verif Require Import Base TxModel BlindModel SpecBlind SpecMulti SpecNode.
Local Open Scope Z_scope.

(** Everything explicit so far, [us] are the outputs spent and [real] their true amounts and factors, the arguments
    describe them, amounts in and out agree for every asset, and token keys are given where amounts are blinded. *)
Record Planned (z : Crypto) (args : blind_args) (us : list txout) (real : list input_desc) (t : tx) : Prop := {
  pl_unblinded : Unblinded z [args] us t;
  pl_inputs : length us = length (vin t);
  pl_spent : Forall2 (SpentAs z) us real;
  pl_knows : forall i u, nth_error us i = Some u -> Knows z args i u;
  pl_once : described_once [args] real;
  pl_conserves : Conserves z [args] real t;
  pl_tokens : TokenKeys [args] t;
  pl_spare : NoSpareGenerators [args] t
}.
