(** From a planned payment to its receivers: property C104. *)
From Verif Require Import Base BaseFacts TxModel MiscModel BlindModel SpecBlind SpecBalance SpecMulti SpecNode BlindComplete BlindTargets BlindProps SpecFault UnblindModel SpecUnblind SpecExc ExcProofs SpecLive LiveProofs SpecDeliver ToyCrypto ToyTx ToyCrypto ToyNode  PropBlind PropFault PropUnblind PropNode PropExc PropLive.
From Coq Require Import Lia.
Local Open Scope Z_scope.

(** C104. A planned payment that nothing stands in the way of: a strict blind() succeeds. Unless the balancing factor
    came out zero, a node accepts the transaction, the holder of the key of each blinded output reads its amount and
    asset, and the holder of each issuance key those of the issuance. *)
Theorem C104_delivered : forall z V order (G : PointGroup order) (M : Meaning z G) rand args us real t,
  SizesOk z -> RandOk z rand -> IndexOk z -> CodecLaws z -> RewindLaw z -> KeyLaws z -> BlindSumLaw z order -> VerifierLaws z V M ->
  WellTyped z args t -> Clear z rand args t -> (forall x, Drawn rand args t x -> x <> zeros 32) -> a_strict args = true -> Planned z args us real t ->
  exists n bfs abfs s, blind_transaction z rand args t = (Ret (BSuccess n bfs abfs), s)
  /\ ((exists pre j, output_tasks args = pre ++ [j] /\ FinalSum z rand args t pre j bfs abfs (zeros 32))
      \/ (node_check z V us (s_tx s) = true
          /\ (forall j key o u a, sk_valid z key = true -> nth_error (a_pubkeys args) j = Some (sk_pub z key) ->
                nth_error (vout t) j = Some o -> ExplicitValue (nValue o) u -> ExplicitAsset (nAsset o) a ->
                exists o' bf abf, nth_error (vout (s_tx s)) j = Some o' /\ nth_error bfs j = Some bf /\ nth_error abfs j = Some abf
                  /\ txout_unblind z o' key (ow_range (outwit_at (s_tx s) j)) = Ok (UnblindingSuccess a u bf abf))
          /\ (forall i (ps : bool) key inp u e script, nth i (if ps then a_token_keys args else a_asset_keys args) None = Some key ->
                nth_error (vin t) i = Some inp -> ExplicitValue (iss_field ps inp) u -> EntropyOf z inp e ->
                let asset := c_mid z (e ++ tag32 (if ps then x02 else x00)) in
                exists inp' bf, nth_error (vin (s_tx s)) i = Some inp'
                  /\ unblind_confidential_pair z key (iss_field ps inp') (x01 :: asset) [] script (iss_proof ps (inwit_at (s_tx s) i)) = Ok (UnblindingSuccess asset u bf (zeros 32))))).
Proof.
  intros z V order G M rand args us real t SZ RO IO CO RW KL BS VL WT CL NZ ST PL.
  destruct (blind_live z rand args t SZ RO IO WT CL) as (bfs & abfs & s & H). eexists. exists bfs, abfs, s. split; [exact H|].
  destruct (blind_success z rand args t _ _ _ _ H) as (_ & _ & B). destruct (B eq_refl) as (targets & TG & [C|(pre & j & E & _ & F)]); [|left; eauto]. right.
  destruct C as (AB & _ & LAST).
  assert (DL : forall k, (k < length (output_tasks args))%nat -> Drawn rand args t (rand (length (issuance_tasks args t) + 4 * k)%nat)) by (intros k L; exists (length (issuance_tasks args t) + 4 * k)%nat; split; [unfold draws; lia|reflexivity]).
  assert (NF : forall j, In j (output_tasks args) -> nth_error bfs j <> Some (zeros 32)).
  { intros j I Z. apply In_nth_error in I. destruct I as [k Hk]. assert (LK : (k < length (output_tasks args))%nat) by (apply nth_error_Some; congruence).
    destruct (ab_out _ _ _ _ _ _ _ _ _ AB _ _ Hk) as (bf & abf & o & o' & E1 & _ & _ & _ & _ & Q & _). rewrite Z in E1. injection E1 as <-.
    destruct (Nat.eq_dec (S k) (length (output_tasks args))) as [Y|Y]; [|exact (NZ _ (DL k LK) (eq_sym (Q Y)))].
    destruct (nth_error_split _ _ Hk) as (l1 & l2 & E & EL). assert (l2 = []) by (rewrite E, app_length in Y; cbn in Y; destruct l2; [reflexivity|cbn in Y; lia]). subst l2.
    destruct (LAST _ _ E) as (bf & E1 & N & _). congruence. }
  assert (RD : Ready z [args] us real t (s_tx s)).
  { destruct PL as [P1 P2 P3 P4 P5 P6 _ _]. constructor; try assumption; [left; discriminate| |intros a i u [<-|[]]; apply P4].
    apply (BL_cons z args [] rand _ bfs abfs s t _ H ST (cl_stray _ _ _ _ CL) (cl_output _ _ _ _ CL) NF). apply BL_nil. }
  assert (SM : forall j o u, nth_error (vout t) j = Some o -> ExplicitValue (nValue o) u -> u <= max_money).
  { intros j o u EO (d & E1 & L1 & E2). apply nth_error_In in EO. destruct (ub_out _ _ _ _ (pl_unblinded _ _ _ _ _ PL) o EO) as (a & g & _ & _ & [(v & (d' & E1' & _ & E2') & R)|(E1' & _)]).
    - assert (d = d') by congruence. subst d'. change max_money with money. lia.
    - assert (d = zeros 8) by congruence. subst d u. vm_compute. discriminate. }
  split; [|split].
  - destruct PL as [_ _ _ _ _ _ P7 P8]. exact (C68_node_accepts z V order G M [args] us real t (s_tx s) SZ BS CO VL RD P7 P8).
  - intros j key o u a SK EP EO EV EA.
    destruct (C48_receiver_unblinds z rand args t _ bfs abfs s j key o u a SZ RO CO RW KL H eq_refl SK EP EO EV EA) as [(o' & bf & abf & E1 & E2 & E3 & U & _)|(pre & E & _ & Z & _)].
    + exists o', bf, abf. split; [exact E1|]. split; [exact E2|]. split; [exact E3|]. apply U. exact (SM _ _ _ EO EV).
    + exfalso. apply (NF j); [rewrite E; apply in_or_app; right; left; reflexivity|exact Z].
  - intros i ps key inp u e script EK EI EV EN.
    assert (LK : blen key = 32) by (apply (wt_keys _ _ _ WT i); destruct ps; auto).
    assert (LU : u <= max_money).
    { destruct EV as (d & E1 & _ & E2). destruct (ub_iss _ _ _ _ (pl_unblinded _ _ _ _ _ PL) inp ps (nth_error_In _ _ EI)) as [X|(v & (d' & E1' & _ & E2') & R)]; [rewrite X in E1; discriminate E1|].
      assert (d = d') by congruence. subst d'. change max_money with money. lia. }
    destruct (C49_issuer_unblinds z rand args t _ bfs abfs s i ps key inp u e script SZ RO CO RW H eq_refl EK LK EI EV EN) as (inp' & k & E1 & _ & U & _). exists inp', (rand k). split; [exact E1|exact (U LU)].
Qed.

(** ** The hypotheses can be met *)
Section Same.
Variables (z : Crypto) (rand : nat -> bytes) (args : blind_args) (i : list txin) (o : list txout) (l v l' v' : Z) (w w' : txwit).
Notation t := (mkTx i o l v w). Notation t' := (mkTx i o l' v' w').
Lemma Secret_same u a b : Secret z rand args t u a b -> Secret z rand args t' u a b.
Proof. intros [j pub out u' a' ab H1 H2 H3 H4 H5 H6|n ps inp u' a' H1 H2 H3 H4]; [eapply Secret_output; eassumption|eapply Secret_issuance; eassumption]. Qed.
Lemma Term_same x : Term z rand args t x -> Term z rand args t' x.
Proof. intros [d H|u a ab b H1 H2]; [apply Term_input; exact H|eapply Term_secret; [apply Secret_same; exact H1|exact H2]]. Qed.
Lemma Factor_same b : Factor z rand args t b -> Factor z rand args t' b.
Proof. intros [H|(q & n & H1 & H2 & H3)]; [left; exact H|right]. exists q, n. split; [|auto]. eapply Forall_impl; [|exact H1]. exact Term_same. Qed.
Lemma Refused_same : Refused z rand args t -> Refused z rand args t'.
Proof.
  intros R. destruct R as [| | | | | | | | |j pub out minv u a ab g b c k shared| |];
    repeat match goal with H : Secret z rand args t _ _ _ |- _ => apply Secret_same in H | H : Factor z rand args t _ |- _ => apply Factor_same in H
      | H : Forall (Term z rand args t) _ |- _ => apply (Forall_impl _ Term_same) in H end.
  - eapply R_descriptor; eassumption.
  - eapply R_issued; eassumption.
  - eapply R_generator; eassumption.
  - eapply R_generator_bytes; eassumption.
  - eapply R_commitment; eassumption.
  - eapply R_commitment_bytes; eassumption.
  - eapply R_balance; eassumption.
  - eapply R_ecdh; eassumption.
  - eapply R_range_issuance; eassumption.
  - apply (R_range_output z rand args t' j pub out minv u a ab g b c k shared); assumption.
  - eapply R_surjection; eassumption.
  - eapply R_surjection_wrong; eassumption.
Qed.
End Same.
Lemma node_clear : Clear toy toy_rand toy_args node_tx.
Proof.
  assert (NS : ~ stray_key toy_args node_tx) by (apply not_stray; intros l IN; each_in IN; reflexivity).
  destruct toy_clear as [C1 C2 C3 C4 C5 C6 C7 C8 C9]. constructor; [exact C1| |exact C3| |exact NS|exact C6| |exact C8|exact C9].
  - assert (R : match fst (blind_transaction toy toy_rand toy_args node_tx) with Ret (BSuccess _ _ _) => true | _ => false end = true) by (vm_compute; reflexivity).
    intros F. destruct (blind_transaction toy toy_rand toy_args node_tx) as [o s] eqn:E. cbn [fst] in R. destruct (C69_fault_refused _ _ _ _ _ _ F E) as (_ & Q).
    destruct Q as [(e & ->)|(f & -> & _)]; discriminate R.
  - intros R. apply C4. exact (Refused_same toy toy_rand toy_args _ _ _ _ _ _ _ _ R).
  - constructor; [exact (pv_init _ _ _ _ C7)|exact (pv_bytes _ _ _ _ C7)].
Qed.
Lemma node_planned : Planned toy toy_args node_us toy_descs node_tx.
Proof.
  destruct C68_ex as (_ & _ & _ & _ & RD & TK & SP & _). destruct RD as [_ _ R1 R2 R3 R4 R5 R6]. constructor; try assumption. intros i u. apply R4. left. reflexivity.
Qed.
Example C104_ex : SizesOk toy /\ RandOk toy toy_rand /\ IndexOk toy /\ CodecLaws toy /\ RewindLaw toy /\ KeyLaws toy /\ BlindSumLaw toy toy_order /\ VerifierLaws toy toy_verifier toy_meaning
  /\ WellTyped toy toy_args node_tx /\ Clear toy toy_rand toy_args node_tx /\ (forall x, Drawn toy_rand toy_args node_tx x -> x <> zeros 32) /\ a_strict toy_args = true
  /\ Planned toy toy_args node_us toy_descs node_tx /\ length (output_tasks toy_args) = 4%nat /\ length (issuance_tasks toy_args node_tx) = 2%nat.
Proof.
  destruct C48_ex as (H1 & H2 & H3 & H4 & H5 & _).
  split; [exact H1|]. split; [exact H2|]. split; [exact toy_index|]. split; [exact H3|]. split; [exact H4|]. split; [exact H5|]. split; [exact toy_blind_sum|]. split; [exact toy_verifies|].
  split; [apply well_typed; vm_compute; reflexivity|]. split; [exact node_clear|]. split.
  { intros x DR. apply toy_draws in DR. assert (C : forallb (fun x => negb (null_b x)) toy_drawn = true) by (vm_compute; reflexivity). rewrite forallb_forall in C. specialize (C x DR).
    intros ->. discriminate C. }
  split; [reflexivity|]. split; [exact node_planned|]. split; reflexivity.
Qed.
Print Assumptions C104_delivered.
