(** The refusals of blind(): property C69. *)
From Verif Require Import Base BaseFacts TxModel BlindModel SpecBlind SpecFault FaultProofs ToyCrypto ToyTx PropBlind.
From Coq Require Import Lia.
Local Open Scope Z_scope.

(** C69. With any fault, blind() raises or returns the failure that names the first one; the transaction is untouched and no
    random number has been drawn. *)
Theorem C69_fault_refused : forall z rand args t o s, Faulty z args t -> blind_transaction z rand args t = (o, s) ->
  s = mkSt t 0 /\ ((exists e, o = Exc e) \/ (exists f, o = Ret (BFailure f) /\ FirstFault z args t f)).
Proof.
  intros z rand args t o s F E. apply faults in E. destruct E as [[-> E]|[NF _]]; [|contradiction]. split; [reflexivity|].
  destruct o as [v|r|e]; [destruct E| |eauto]. destruct E as (f & -> & FF). eauto.
Qed.
(** Every failure other than the final count names the first fault. *)
Theorem C69_failure_names_first : forall z rand args t f s, blind_transaction z rand args t = (Ret (BFailure f), s) ->
  FirstFault z args t f \/ (~ Faulty z args t /\ a_strict args = true /\ exists a b, f = F_count a b /\ a <> b).
Proof.
  intros z rand args t f s E. apply faults in E. destruct E as [[_ (f' & E & FF)]|[NF E]].
  - left. injection E as <-. exact FF.
  - right. split; [exact NF|]. destruct (E _ eq_refl) as [L Q]. unfold blinding_result in Q. destruct (a_strict args); cbn [andb] in Q; [|discriminate]. split; [reflexivity|].
    destruct (Nat.eqb_spec (l_success L) (l_toblind L)); [discriminate|]. injection Q as ->. eauto.
Qed.
(** The first fault is unique. *)
Theorem C69_first_unique : forall z args t f f', FirstFault z args t f -> FirstFault z args t f' -> f = f'.
Proof.
  intros z args t f f' (p & i & k & F & M) (p' & i' & k' & F' & M'). assert (X := M _ _ _ _ F'). assert (X' := M' _ _ _ _ F).
  assert (p' = p) by lia. subst p'. assert (i' = i) by lia. subst i'. assert (k' = k) by lia. subst k'. clear X X' M M'.
  inversion F; subst; inversion F'; subst; try reflexivity; exfalso;
    match goal with A : a_aux args = [], B : nth_error (a_aux args) ?i = Some _ |- _ => rewrite A in B; destruct i; discriminate B end.
Qed.
(** So a call that reported success, or changed anything, had only explicit things to blind, and replaced no proof. *)
Theorem C69_never_overwrites : forall z rand args t o s, blind_transaction z rand args t = (o, s) ->
  (exists n bfs abfs, o = Ret (BSuccess n bfs abfs)) \/ s_tx s <> t ->
  (forall j pub out, nth_error (a_pubkeys args) j = Some pub -> pub <> [] -> nth_error (vout t) j = Some out ->
     pk_fullyvalid z pub = true /\ (exists u, ExplicitValue (nValue out) u) /\ (exists a, ExplicitAsset (nAsset out) a) /\ scriptPubKey out <> []
     /\ forall w, nth_error (vtxoutwit (wit t)) j = Some w -> w = outwit_null)
  /\ (forall i (ps : bool) inp key, nth_error (vin t) i = Some inp -> nth i (if ps then a_token_keys args else a_asset_keys args) None = Some key ->
     iss_field ps inp <> [] -> (exists u, ExplicitValue (iss_field ps inp) u) /\ forall w, nth_error (vtxinwit (wit t)) i = Some w -> iss_proof ps w = []).
Proof.
  intros z rand args t o s E H. apply faults in E. destruct E as [[-> E]|[NF _]].
  { exfalso. destruct H as [(n & bfs & abfs & ->)|H]; [|apply H; reflexivity]. destruct E as (f & E & _). discriminate E. }
  assert (N : forall p i k f, ~ FaultAt z args t p i k f) by (intros p i k f F; apply NF; red; eauto).
  split.
  - intros j pub out EP NP EO.
    assert (V : pk_fullyvalid z pub = true) by (destruct (pk_fullyvalid z pub) eqn:V; [reflexivity|exfalso; eapply N, FA_pubkey; eauto]).
    assert (X1 : exists u, ExplicitValue (nValue out) u).
    { destruct (conf_is_explicit CConfValue (nValue out)) eqn:X; [apply expl_value; exact X|]. apply (not_true _ _ (expl_value _)) in X. exfalso. eapply N, FA_value; eauto. }
    assert (X2 : exists a, ExplicitAsset (nAsset out) a).
    { destruct (conf_is_explicit CConfAsset (nAsset out)) eqn:X; [apply expl_asset; exact X|]. apply (not_true _ _ (expl_asset _)) in X. exfalso. eapply N, FA_asset; eauto. }
    repeat (split; [assumption|]). split.
    + intros S. eapply N, FA_fee; eauto. split; auto.
    + intros w EW. destruct w as [a b]. destruct a; [destruct b; [reflexivity|]|]; exfalso; eapply N, FA_witness; eauto; cbn; [right|left]; discriminate.
  - intros i ps inp key EI EK NE.
    assert (IS : issues inp) by (red; destruct ps; cbn in NE; auto). destruct ps; cbn [iss_field iss_proof] in *.
    + split.
      * destruct (conf_is_explicit CConfValue (is_keys (assetIssuance inp))) eqn:X; [apply expl_value; exact X|]. apply (not_true _ _ (expl_value _)) in X. exfalso. eapply N, FA_keys; eauto.
      * intros w EW. destruct (iw_keysproof w) eqn:P; [reflexivity|]. exfalso. eapply N, FA_keys_proof; eauto. congruence.
    + split.
      * destruct (conf_is_explicit CConfValue (is_amount (assetIssuance inp))) eqn:X; [apply expl_value; exact X|]. apply (not_true _ _ (expl_value _)) in X. exfalso. eapply N, FA_amount; eauto.
      * intros w EW. destruct (iw_issproof w) eqn:P; [reflexivity|]. exfalso. eapply N, FA_amount_proof; eauto. congruence.
Qed.

(** A witness on output 1, and a fee output at 2: two faults, the first is named. *)
Definition two_faults : tx := mkTx [toy_in0] [toy_out 700 asset_A [x51]; toy_out 100 asset_A [x51]; toy_out 200 asset_A []] 0 2 (mkTxWit [] [outwit_null; mkOutWit [x01] []]).
Definition two_args : blind_args := mkArgs [mkDesc asset_A 1000 (b32 12345) (b32 67890)] [toy_pub 901; toy_pub 902; toy_pub 903] [] [] [] None None true.
Example C69_ex : FaultAt toy two_args two_faults 3 1 3 (F_witness_in_place 1) /\ FaultAt toy two_args two_faults 3 2 4 (F_fee_output 2)
  /\ FirstFault toy two_args two_faults (F_witness_in_place 1)
  /\ blind_transaction toy toy_rand two_args two_faults = (Ret (BFailure (F_witness_in_place 1)), mkSt two_faults 0).
Proof.
  assert (R : blind_transaction toy toy_rand two_args two_faults = (Ret (BFailure (F_witness_in_place 1)), mkSt two_faults 0)) by (vm_compute; reflexivity).
  assert (NP : forall k, toy_pub k <> []) by (intros k X; apply (f_equal (@length byte)) in X; discriminate X).
  split; [eapply FA_witness; [reflexivity|apply NP|reflexivity|left; discriminate]|].
  split; [eapply FA_fee; [reflexivity|apply NP|reflexivity|]|].
  { split; [reflexivity|]. split; [exists 200, (be_bytes 8 200)|exists asset_A]; repeat split; reflexivity. }
  split; [|exact R]. destruct (C69_failure_names_first _ _ _ _ _ _ R) as [F|(_ & _ & a & b & X & _)]; [exact F|discriminate X].
Qed.
(** The example of C45 succeeds: it has things to blind and no fault. *)
Example C69_ex2 : exists bfs abfs s, blind_transaction toy toy_rand toy_args toy_tx = (Ret (BSuccess 6 bfs abfs), s) /\ ~ Faulty toy toy_args toy_tx.
Proof.
  assert (H : ret_is (fun r => match r with BSuccess n _ _ => (n =? 6)%nat | _ => false end) (blind_transaction toy toy_rand toy_args toy_tx) = true) by (vm_compute; reflexivity).
  apply ret_is_success in H. destruct H as (bfs & abfs & H). exists bfs, abfs, (snd (blind_transaction toy toy_rand toy_args toy_tx)). split; [exact H|].
  intros F. destruct (C69_fault_refused _ _ _ _ _ _ F H) as [_ [[e X]|[f [X _]]]]; discriminate X.
Qed.

Print Assumptions C69_fault_refused.
Print Assumptions C69_failure_names_first.
Print Assumptions C69_first_unique.
Print Assumptions C69_never_overwrites.
