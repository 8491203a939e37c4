(** Specification: signing a transaction that is blinded, in terms of what changes. *)
From Verif Require Import Base TxModel BlindModel SpecBlind.
Local Open Scope Z_scope.

(** ** Which parts of a transaction a signature of input [i] covers *)
(** [any]: ANYONECANPAY; [none], [single]: no output, the output at the input's position. *)
Record Scope := mkScope { any : bool; none : bool; single : bool }.

(** Nothing that blind() with these arguments may change is covered by a signature of input [i]. *)
Definition Outside (sc : Scope) (args : blind_args) (t : tx) (i : nat) : Prop :=
  (forall k, (any sc = false \/ k = i) -> ~ amount_target args t k /\ ~ keys_target args t k)
  /\ (forall j, (j < length (vout t))%nat -> none sc = false -> (single sc = true -> j = i) -> ~ wants_output args j).
(** Something that blind() was asked to blind and did blind (the factor reported is not zero) is covered. *)
Definition Touched (sc : Scope) (args : blind_args) (t : tx) (bfs : list bytes) (i : nat) : Prop :=
  (exists k ps, In (k, ps) (issuance_tasks args t) /\ (any sc = true -> k = i))
  \/ (exists j, wants_output args j /\ nth_error bfs j <> Some (zeros 32) /\ none sc = false /\ (single sc = true -> j = i)).

(** ** Signing *)
(** Only scripts of inputs and their script witnesses were filled in. *)
Record OnlySigned (t t' : tx) : Prop := {
  si_version : nVersion t' = nVersion t;
  si_locktime : nLockTime t' = nLockTime t;
  si_out : vout t' = vout t;
  si_outwit : vtxoutwit (wit t') = vtxoutwit (wit t);
  si_nin : length (vin t') = length (vin t);
  si_in : forall i x x', nth_error (vin t) i = Some x -> nth_error (vin t') i = Some x' ->
    prevout x' = prevout x /\ nSequence x' = nSequence x /\ assetIssuance x' = assetIssuance x /\ is_pegin x' = is_pegin x;
  si_ninwit : length (vtxinwit (wit t')) = length (vtxinwit (wit t));
  si_inwit : forall i, iw_issproof (inwit_at t' i) = iw_issproof (inwit_at t i)
    /\ iw_keysproof (inwit_at t' i) = iw_keysproof (inwit_at t i)
    /\ iw_pegin (inwit_at t' i) = iw_pegin (inwit_at t i)
}.
