(** Specification for C106: transactions that give blind() the same work. *)
From Verif Require Import Base TxModel BlindModel SpecBlind.
Local Open Scope Z_scope.

(** As many inputs; [more] outputs more, at the end; inputs that spend and issue the same; equal outputs and output witnesses where a blinding key is given; equal
    issuance proofs. Scripts and sequence numbers of inputs, peg-in flags, script and peg-in witnesses, the other outputs and their witnesses,
    version, lock time and the lengths of the witness lists may differ. *)
Record SameWork (args : blind_args) (more : nat) (t t' : tx) : Prop := {
  sw_nin : length (vin t') = length (vin t);
  sw_nout : length (vout t') = (length (vout t) + more)%nat;
  sw_in : forall i a a', nth_error (vin t) i = Some a -> nth_error (vin t') i = Some a' -> prevout a' = prevout a /\ assetIssuance a' = assetIssuance a;
  sw_out : forall j, wants_output args j -> nth_error (vout t') j = nth_error (vout t) j;
  sw_inwit : forall i, iw_issproof (inwit_at t' i) = iw_issproof (inwit_at t i) /\ iw_keysproof (inwit_at t' i) = iw_keysproof (inwit_at t i);
  sw_outwit : forall j, wants_output args j -> outwit_at t' j = outwit_at t j
}.

(** The same outcome, with zero factors reported for [more] outputs more. *)
Definition MoreFactors (more : nat) (o : outcome blind_ret) : outcome blind_ret :=
  match o with
  | Ret (BSuccess n bfs abfs) => Ret (BSuccess n (bfs ++ repeat (zeros 32) more) (abfs ++ repeat (zeros 32) more))
  | _ => o
  end.
