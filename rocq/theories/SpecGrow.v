(** Specification: adding inputs and outputs to a transaction, some of whose outputs may be blinded already. *)
From Verif Require Import Base TxModel BlindModel SpecBlind SpecMulti SpecNode SpecSpend.
Local Open Scope Z_scope.

(** What is added: inputs and outputs, each with its witness. *)
Record more := mkMore { m_in : list (txin * inwit); m_out : list (txout * outwit) }.
Definition extend (x : more) (t : tx) : tx :=
  mkTx (vin t ++ map fst (m_in x)) (vout t ++ map fst (m_out x)) (nLockTime t) (nVersion t)
       (mkTxWit (vtxinwit (wit t) ++ map snd (m_in x)) (vtxoutwit (wit t) ++ map snd (m_out x))).
(** One witness for each input and output. *)
Definition Aligned (t : tx) : Prop := length (vtxinwit (wit t)) = length (vin t) /\ length (vtxoutwit (wit t)) = length (vout t).
(** The inputs to be added issue nothing. *)
Definition IssuesNothing (x : more) : Prop := forall i w, In (i, w) (m_in x) -> is_amount (assetIssuance i) = [] /\ is_keys (assetIssuance i) = [].
(** The generators given cover the inputs that are to be added. *)
Definition Foresees (args : blind_args) (t : tx) (x : more) : Prop := m_in x = [] \/ (length (vin t) + length (m_in x) <= length (a_aux args))%nat.

(** The same call for the whole transaction: nothing is known of the added inputs, the added outputs are left alone. *)
Definition unknown_input : input_desc := mkDesc (zeros 32) (-1) (zeros 32) (zeros 32).
Definition widen (x : more) (args : blind_args) : blind_args :=
  mkArgs (a_descs args ++ repeat unknown_input (length (m_in x))) (a_pubkeys args) (a_asset_keys args) (a_token_keys args) (a_aux args)
         (a_ct_exponent args) (a_ct_bits args) (a_strict args).
(** The same result, with zero factors for the added outputs. *)
Definition widen_ret (x : more) (r : blind_ret) : blind_ret :=
  let z0 := repeat (zeros 32) (length (m_out x)) in
  match r with
  | BSuccess n bfs abfs => BSuccess n (bfs ++ z0) (abfs ++ z0)
  | BFailure f => BFailure f
  end.
Definition widen_outcome {A} (x : more) (o : outcome A) : outcome A :=
  match o with Val a => Val a | Ret r => Ret (widen_ret x r) | Exc e => Exc e end.

(** Parties take turns: each blinds its outputs of what is there so far, then inputs and outputs are added. [plan] is what each
    knows of all that is still to be added. *)
Definition plus (x y : more) : more := mkMore (m_in x ++ m_in y) (m_out x ++ m_out y).
Fixpoint additions (steps : list (blind_args * more)) : more :=
  match steps with [] => mkMore [] [] | (_, x) :: rest => plus x (additions rest) end.
Inductive Building (plan : blind_args -> tx -> more -> Prop) (z : Crypto) : list (blind_args * more) -> tx -> tx -> Prop :=
| BG_nil t : Building plan z [] t t
| BG_cons args x rest rand n bfs abfs s t t' :
    blind_transaction z rand args t = (Ret (BSuccess n bfs abfs), s) ->
    a_strict args = true -> ~ stray_key args t -> output_tasks args <> [] ->
    (forall j, In j (output_tasks args) -> nth_error bfs j <> Some (zeros 32)) ->
    plan args t (additions ((args, x) :: rest)) ->
    Building plan z rest (extend x (s_tx s)) t' -> Building plan z ((args, x) :: rest) t t'.
(** Each call as a call for the whole transaction. *)
Fixpoint whole (steps : list (blind_args * more)) : list blind_args :=
  match steps with [] => [] | (args, x) :: rest => widen (additions ((args, x) :: rest)) args :: whole rest end.
(** The parties so turned [t] into [t'], starting from a balanced whole whose inputs they describe. *)
Record Assembling (z : Crypto) (steps : list (blind_args * more)) (us : list txout) (descs : list input_desc) (t t' : tx) : Prop := {
  as_steps : steps <> [];
  as_building : Building Foresees z steps t t';
  as_aligned : Aligned t;
  as_issues : IssuesNothing (additions steps);
  as_unblinded : Unblinded z (whole steps) us (extend (additions steps) t);
  as_inputs : length us = length (vin (extend (additions steps) t));
  as_existing : Forall (Existing z) us;
  as_described : Forall2 (Described z) us descs;
  as_gives : forall args i u d, In args (whole steps) -> nth_error us i = Some u -> nth_error descs i = Some d -> Gives z args i u d;
  as_once : described_once (whole steps) descs;
  as_conserves : Conserves z (whole steps) descs (extend (additions steps) t)
}.
