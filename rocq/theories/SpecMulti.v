(** Specification vocabulary for blinding by several parties in turn. *)
From Verif Require Import Base TxModel BlindModel SpecBlind SpecBalance.
From Coq Require Import Permutation.
Local Open Scope Z_scope.

(** Each party calls blind() on the transaction left by the one before, strictly, with at least one output of its
    own, no issuance key for an input that issues nothing, and finds no zero among its outputs' factors. *)
Inductive Blindings (z : Crypto) : list blind_args -> tx -> tx -> Prop :=
| BL_nil t : Blindings z [] t t
| BL_cons args rest rand n bfs abfs s t t' :
    blind_transaction z rand args t = (Ret (BSuccess n bfs abfs), s) ->
    a_strict args = true -> ~ stray_key args t -> output_tasks args <> [] ->
    (forall j, In j (output_tasks args) -> nth_error bfs j <> Some (zeros 32)) ->
    Blindings z rest (s_tx s) t' -> Blindings z (args :: rest) t t'.

(** The issuances blinded by all of them. *)
Definition all_issuances (calls : list blind_args) (t : tx) : list (nat * bool) := flat_map (fun args => issuance_tasks args t) calls.
(** Every confidential input of the list [real] is described, with its factors, in exactly one of the calls. *)
Definition described_once (calls : list blind_args) (real : list input_desc) : Prop :=
  Permutation (filter (fun d => negb (bytes_eqb (d_bf d) (zeros 32) && bytes_eqb (d_abf d) (zeros 32))) real) (flat_map blinded_inputs calls).
(** For every asset: spent + blinded issuances + explicit issuances = sent. *)
Definition AllAmountsBalance (calls : list blind_args) (real : list input_desc) (t : tx) (ids : list bytes) (extra : list (bytes * Z)) : Prop :=
  forall a, amount_of a (map (fun d => (d_asset d, d_amount d mod 2 ^ 64)) real
                          ++ combine ids (map (issued_amount t) (all_issuances calls t)) ++ extra)
          = amount_of a (map (fun o => (tl (nAsset o), be_val (tl (nValue o)))) (vout t)).
