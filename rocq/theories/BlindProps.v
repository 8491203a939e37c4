(** Consequences of the main theorems about blind(), in the form used by PropBlind.v. *)
From Verif Require Import Base BaseFacts TxModel BlindModel SpecBlind SpecBalance BlindFacts BlindFrame BlindFails BlindSteps BlindTargets BlindCount BlindMain BlindOuts BlindComplete BlindBalance.
From Coq Require Import Lia.
Local Open Scope Z_scope.

Section P.
Variables (z : Crypto) (rand : nat -> bytes) (args : blind_args).

Lemma wants_output_task j : wants_output args j <-> In j (output_tasks args).
Proof.
  clear rand. unfold wants_output, output_tasks. rewrite filter_In, in_seq. split.
  - intros H. destruct (nth j (a_pubkeys args) []) as [|b p] eqn:E; [congruence|]. split; [|reflexivity].
    destruct (Nat.lt_ge_cases j (length (a_pubkeys args))); [lia|]. rewrite nth_overflow in E by lia. discriminate.
  - intros [_ H]. destruct (nth j (a_pubkeys args) (@nil byte)); [discriminate|congruence].
Qed.
Lemma issuance_task (t : tx) i (ps : bool) key : (i < length (vin t))%nat -> nth i (if ps then a_token_keys args else a_asset_keys args) None = Some key ->
  In (i, ps) (issuance_tasks args t).
Proof.
  intros L K. unfold issuance_tasks. apply filter_In. split; [apply slots_In; exact L|]. unfold wants_issuance. cbn [fst snd].
  rewrite K. reflexivity.
Qed.

(** The token of an input that reissues comes from an earlier input. *)
Lemma input_token i tok inp l tok' : InputTargets z args i tok inp l tok' -> forall token, tok' = Some token ->
  tok = Some token \/ (is_nonce (assetIssuance inp) = zeros 32 /\ (is_amount (assetIssuance inp) <> [] \/ is_keys (assetIssuance inp) <> [])
    /\ exists e b, EntropyOf z inp e /\ (b = x01 \/ b = x02) /\ token = c_mid z (e ++ tag32 b)).
Proof.
  intros (d & g & l1 & l2 & _ & _ & _ & _ & HI) token ->. destruct HI as [(_ & _ & _ & _ & HI)|(e & NN & EN & H1 & H2 & _)]; [left; congruence|].
  destruct (bytes_eqb (is_nonce (assetIssuance inp)) (zeros 32)) eqn:B.
  - apply bytes_eqb_eq in B. right. specialize (H2 B). split; [exact B|]. split; [exact NN|].
    assert (X : token = c_mid z (e ++ tag32 (match nth i (a_token_keys args) None with Some _ => x02 | None => x01 end))) by congruence.
    eexists e, _. split; [exact EN|]. split; [|exact X]. destruct (nth i (a_token_keys args) None); auto.
  - left. symmetry. apply H1. intros C. apply bytes_eqb_eq in C. congruence.
Qed.
Lemma reissuance_token i tok p l tok' : TargetsFrom z args i tok p l tok' -> forall k inp, nth_error p k = Some inp ->
  is_nonce (assetIssuance inp) <> zeros 32 -> is_keys (assetIssuance inp) <> [] ->
  exists token gt, In (mkTarget token gt (zeros 32)) l /\ gen_generate z token = Some gt
    /\ (tok = Some token \/ exists k' inp' e b, (k' < k)%nat /\ nth_error p k' = Some inp' /\ is_nonce (assetIssuance inp') = zeros 32
         /\ (is_amount (assetIssuance inp') <> [] \/ is_keys (assetIssuance inp') <> [])
         /\ EntropyOf z inp' e /\ (b = x01 \/ b = x02) /\ token = c_mid z (e ++ tag32 b)).
Proof.
  clear rand. intros H. induction H as [|i tok a rest l tok1 ls tok3 HI HT IH]; intros k inp Hk NN NK; [destruct k; discriminate|].
  destruct k as [|k].
  - injection Hk as ->. assert (HI' := HI). destruct HI as (d & g & l1 & l2 & _ & _ & _ & EL & HI). destruct HI as [(_ & X & _)|(e & _ & EN & H1 & _ & _ & HK)]; [congruence|].
    destruct HK as [[X _]|(_ & token & gt & T1 & T2 & T3)]; [congruence|].
    exists token, gt. split; [rewrite EL, T3; apply in_or_app; left; right; apply in_or_app; right; left; reflexivity|]. split; [exact T2|].
    left. rewrite <- (H1 NN). exact T1.
  - destruct (IH k inp Hk NN NK) as (token & gt & I1 & I2 & I3). exists token, gt. split; [apply in_or_app; auto|]. split; [exact I2|].
    destruct I3 as [I3|(k' & inp' & e & b & L' & E' & X)].
    + destruct (input_token _ _ _ _ _ HI _ I3) as [Q|(Q1 & Q2 & e & b & Q3)]; [left; exact Q|right].
      exists 0%nat, a, e, b. split; [lia|]. split; [reflexivity|]. split; [exact Q1|]. split; [exact Q2|]. exact Q3.
    + right. exists (S k'), inp', e, b. split; [lia|]. auto.
Qed.

(** The surjection targets of any success. *)
Theorem success_targets t n bfs abfs s : blind_transaction z rand args t = (Ret (BSuccess n bfs abfs), s) ->
  exists targets, SurjectionTargets z args t targets.
Proof.
  unfold blind_transaction. rewrite body_split. destruct (blind_looks z args (blind_acts z rand args) (mkSt t 0)) as [o s1] eqn:E. intros H.
  apply looks_Counted in E. destruct E as [(targets & L & E & ST & _)|[_ E]]; [eauto|].
  exfalso. destruct o as [r|r|e]; [exact E| |discriminate]. destruct E as [f ->]. discriminate.
Qed.

Theorem good_of_success t n bfs abfs s : blind_transaction z rand args t = (Ret (BSuccess n bfs abfs), s) -> ~ bad_arguments args t.
Proof. intros H B. rewrite (bad_arguments_refused z rand args t B) in H. discriminate. Qed.

(** Targets are determined by the arguments and the transaction. *)
Lemma EntropyOf_fun inp e e' : EntropyOf z inp e -> EntropyOf z inp e' -> e = e'.
Proof.
  intros [(N & n & L & V & ->)|[N ->]] [(N' & n' & L' & V' & ->)|[N' ->]]; try congruence.
  assert (n = n') by (apply le_val_inj; congruence). subst. reflexivity.
Qed.
Lemma InputTargets_fun i tok inp l tok' l2 tok2 : InputTargets z args i tok inp l tok' -> InputTargets z args i tok inp l2 tok2 -> l = l2 /\ tok' = tok2.
Proof.
  intros (d & g & a1 & a2 & D & G1 & G2 & EL & H) (d' & g' & a1' & a2' & D' & G1' & G2' & EL' & H').
  assert (d' = d) by congruence. subst d'.
  assert (g' = g).
  { destruct (bytes_eqb (d_asset d) (zeros 32)) eqn:B.
    - apply bytes_eqb_eq in B. destruct (G2 B) as (x & X1 & X2), (G2' B) as (y & Y1 & Y2). congruence.
    - assert (N : d_asset d <> zeros 32) by (intros C; apply bytes_eqb_eq in C; congruence). specialize (G1 N). specialize (G1' N). congruence. }
  subst g'.
  destruct H as [(N1 & N2 & -> & -> & ->)|(e & NN & EN & T1 & T2 & A1 & A2)], H' as [(N1' & N2' & -> & -> & ->)|(e' & NN' & EN' & T1' & T2' & A1' & A2')].
  - split; congruence.
  - exfalso. destruct NN'; congruence.
  - exfalso. destruct NN; congruence.
  - assert (e' = e) by (eapply EntropyOf_fun; eassumption). subst e'.
    assert (TT : tok' = tok2).
    { destruct (bytes_eqb (is_nonce (assetIssuance inp)) (zeros 32)) eqn:B.
      - apply bytes_eqb_eq in B. rewrite (T2 B), (T2' B). reflexivity.
      - assert (N : is_nonce (assetIssuance inp) <> zeros 32) by (intros C; apply bytes_eqb_eq in C; congruence). rewrite (T1 N), (T1' N). reflexivity. }
    subst tok2. split; [|reflexivity].
    assert (a1 = a1').
    { destruct A1 as [[X1 ->]|(X1 & gi & X2 & ->)], A1' as [[Y1 ->]|(Y1 & gi' & Y2 & ->)]; try congruence. }
    assert (a2 = a2').
    { destruct A2 as [[X1 ->]|(X1 & tk & gi & X2 & X3 & ->)], A2' as [[Y1 ->]|(Y1 & tk' & gi' & Y2 & Y3 & ->)]; try congruence. }
    congruence.
Qed.
Lemma TargetsFrom_fun i tok p l tok' : TargetsFrom z args i tok p l tok' -> forall l2 tok2, TargetsFrom z args i tok p l2 tok2 -> l = l2 /\ tok' = tok2.
Proof.
  intros H. induction H as [|i tok a rest l tok1 ls tok3 HI HT IH]; intros l2 tok2 H2; inversion H2; subst; [auto|].
  destruct (InputTargets_fun _ _ _ _ _ _ _ HI ltac:(eassumption)) as [-> ->]. edestruct IH as [-> ->]; [eassumption|auto].
Qed.
Theorem targets_determined t l l2 : SurjectionTargets z args t l -> SurjectionTargets z args t l2 -> l = l2.
Proof.
  intros (a & b & tok & A & B & ->) (a' & b' & tok' & A' & B' & ->). destruct (TargetsFrom_fun _ _ _ _ _ A _ _ A') as [-> _]. f_equal.
  clear -B B'. revert b' B'. induction B as [|x y xs ys (g & G & ->) _ IH]; intros b' B'; inversion B' as [|? y' ? ys' (g' & G' & ->) B2]; subst; [reflexivity|].
  f_equal; [congruence|auto].
Qed.
Theorem targets_count t l : SurjectionTargets z args t l ->
  (length (vin t) + length (skipn (length (vin t)) (a_aux args)) <= length l <= 3 * length (vin t) + length (skipn (length (vin t)) (a_aux args)))%nat.
Proof.
  intros (a & b & tok & A & B & ->). apply TF_bound in A. rewrite app_length.
  assert (length b = length (skipn (length (vin t)) (a_aux args))) by (induction B; cbn; congruence). lia.
Qed.

(** * Distinct draws *)
Lemma output_tasks_NoDup : NoDup (output_tasks args).
Proof. unfold output_tasks. apply NoDup_filter, seq_NoDup. Qed.
End P.
