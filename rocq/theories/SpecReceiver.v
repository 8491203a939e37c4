(** Specification for C105: two requests that differ in who may read the blinded amounts. *)
From Verif Require Import Base TxModel BlindModel SpecBlind.
Local Open Scope Z_scope.

(** The same outputs and issuances are to be blinded, for other receivers: other public keys of the outputs, other keys of the issuances, and
    perhaps other parameters of the range proofs. *)
Record Readdressed (args args' : blind_args) : Prop := {
  rd_descs : a_descs args' = a_descs args;
  rd_aux : a_aux args' = a_aux args;
  rd_npubs : length (a_pubkeys args') = length (a_pubkeys args);
  rd_pubs : forall j, nth j (a_pubkeys args') [] = [] <-> nth j (a_pubkeys args) [] = [];
  rd_keys : forall i (ps : bool), nth i (if ps then a_token_keys args' else a_asset_keys args') None = None
    <-> nth i (if ps then a_token_keys args else a_asset_keys args) None = None
}.
(** Range proofs are made with the same parameters. *)
Definition SameRange (args args' : blind_args) : Prop := ct_exp args' = ct_exp args /\ ct_bits args' = ct_bits args.
(** Everything that was asked for was counted. *)
Definition CountedAll (args : blind_args) (t : tx) (n : nat) : Prop := n = (length (issuance_tasks args t) + length (output_tasks args))%nat.
