(** What others see of a blinded transaction: property C101. *)
From Verif Require Import Base BaseFacts TxModel BlindModel SpecBlind BlindProps BlindComplete BlindFrame SpecVeil ToyCrypto ToyTx PropBlind.
From Coq Require Import Lia.
Local Open Scope Z_scope.

Lemma nth_error_same {A} (l l' : list A) : (forall i, nth_error l i = nth_error l' i) -> l = l'.
Proof.
  revert l'. induction l as [|x l IH]; intros [|y l'] H; [reflexivity|discriminate (H 0%nat)|discriminate (H 0%nat)|].
  assert (E := H 0%nat). injection E as ->. f_equal. apply IH. intros i. exact (H (S i)).
Qed.
Lemma nth_same {A} (d : A) (l l' : list A) : length l = length l' -> (forall i, nth i l d = nth i l' d) -> l = l'.
Proof.
  revert l'. induction l as [|x l IH]; intros [|y l'] L H; try discriminate; [reflexivity|]. injection L as L. f_equal; [exact (H 0%nat)|].
  apply IH; [exact L|]. intros i. exact (H (S i)).
Qed.

(** One run: every issuance and every output is blinded. *)
Lemma run_full z rand args t n bfs abfs s : blind_transaction z rand args t = (Ret (BSuccess n bfs abfs), s) -> a_strict args = true -> ~ stray_key args t ->
  AllHidden args t (s_tx s) -> exists targets, SurjectionTargets z args t targets /\ AllBlinded z rand args t targets (output_tasks args) (s_tx s) bfs abfs.
Proof.
  intros H ST NS AH. assert (NB := good_of_success _ _ _ _ _ _ _ _ H). destruct (blind_success z rand args t _ _ _ _ H) as (_ & A & B). specialize (A ST NS).
  destruct (B A) as (targets & TG & C). exists targets. split; [exact TG|]. destruct C as [(X & _)|(pre & j & E & X & _)]; [exact X|exfalso].
  assert (I : In j (output_tasks args)) by (rewrite E; apply in_or_app; right; left; reflexivity). apply (AH j I).
  assert (ND := output_tasks_NoDup args). rewrite E in ND. apply NoDup_remove_2 in ND. rewrite app_nil_r in ND.
  unfold output_tasks in I. apply filter_In in I. destruct I as [I _]. apply in_seq in I.
  assert (length (a_pubkeys args) <= length (vout t))%nat by (apply Nat.nlt_ge; intros Q; apply NB; left; lia).
  apply (ab_rest _ _ _ _ _ _ _ _ _ X j); [lia|exact ND].
Qed.

(** How many surjection targets there are. *)
Definition is_some (x : bytes) : nat := match x with [] => 0 | _ => 1 end.
Definition ntargets (i : txin) : nat := 1 + is_some (is_amount (assetIssuance i)) + is_some (is_keys (assetIssuance i)).
Lemma targets_count z args i tok ins l tok' : TargetsFrom z args i tok ins l tok' -> length l = list_sum (map ntargets ins).
Proof.
  induction 1 as [|i tok inp rest l tok' ls tok'' I T IH]; [reflexivity|]. rewrite app_length, IH. cbn [map list_sum fold_right]. f_equal.
  destruct I as (d & g & l1 & l2 & _ & _ & _ & -> & Q). cbn [length]. rewrite app_length. unfold ntargets.
  destruct Q as [(-> & -> & -> & -> & _)|(e & _ & _ & _ & _ & Q1 & Q2)]; [reflexivity|]. cbn [Nat.add]. f_equal. f_equal.
  - destruct Q1 as [(-> & ->)|(Q & gi & _ & ->)]; [reflexivity|]. destruct (is_amount _); [congruence|reflexivity].
  - destruct Q2 as [(-> & ->)|(Q & tk & gi & _ & _ & ->)]; [reflexivity|]. destruct (is_keys _); [congruence|reflexivity].
Qed.

Section Veil.
Variable z : Crypto.
Hypothesis VE : Veils z.

Lemma entropy_eq i i' e e' : EntropyOf z i e -> EntropyOf z i' e' -> prevout i' = prevout i -> is_nonce (assetIssuance i') = is_nonce (assetIssuance i) ->
  is_entropy (assetIssuance i') = is_entropy (assetIssuance i) -> e = e'.
Proof.
  intros [(A & n & L & N & E)|(A & E)] [(A' & n' & L' & N' & E')|(A' & E')] P Q R; try congruence.
  assert (n = n') by (rewrite <- (le_bytes_le_val n), <- (le_bytes_le_val n'), L, L', N, N', P; reflexivity). subst. congruence.
Qed.
Lemma issuance_eq args args' ps key bf i i' i1 i1' w w' : ct_exp args' = ct_exp args -> ct_bits args' = ct_bits args ->
  BlindedIssuance z args ps key bf i i1 w -> BlindedIssuance z args' ps key bf i' i1' w' -> prevout i' = prevout i ->
  is_nonce (assetIssuance i') = is_nonce (assetIssuance i) -> is_entropy (assetIssuance i') = is_entropy (assetIssuance i) ->
  iss_field ps i1' = iss_field ps i1 /\ iss_proof ps w' = iss_proof ps w.
Proof.
  intros CE CB (u & e & asset & gen & commit & _ & EN & _ & EA & EG & EC & ES & ER) (u' & e' & asset' & gen' & commit' & _ & EN' & _ & EA' & EG' & EC' & ES' & ER') P Q R.
  assert (E := entropy_eq _ _ _ _ EN EN' P Q R). subst e' asset asset'. assert (gen' = gen) by congruence. subst gen'.
  assert (E := ve_commit _ VE _ _ _ _ _ _ _ EC EC'). subst commit'. split; [congruence|]. rewrite CE, CB in ER'. symmetry. exact (ve_range _ VE _ _ _ _ _ _ _ _ _ _ _ _ _ _ _ ER ER').
Qed.
Lemma output_eq args args' targets targets' pub bf bf' abf eph seed o o' o1 o1' w w' : ct_exp args' = ct_exp args -> ct_bits args' = ct_bits args ->
  length targets' = length targets ->
  BlindedOutput z args targets pub bf abf eph seed o o1 w -> BlindedOutput z args' targets' pub bf' abf eph seed o' o1' w' -> scriptPubKey o' = scriptPubKey o ->
  o1' = o1 /\ w' = w.
Proof.
  intros CE CB LT (u & asset & gen & commit & shared & minv & _ & _ & EG & GS & EC & CS & _ & EN & EE & SC & M0 & M1 & ER & p0 & idx & tg & p & I0 & _ & SG & _ & SS & _)
    (u' & asset' & gen' & commit' & shared' & minv' & _ & _ & EG' & GS' & EC' & CS' & _ & EN' & EE' & SC' & M0' & M1' & ER' & p0' & idx' & tg' & p' & I0' & _ & SG' & _ & SS' & _) P.
  assert (E := ve_gen _ VE _ _ _ _ _ EG EG'). subst gen'. assert (E := ve_commit _ VE _ _ _ _ _ _ _ EC EC'). subst commit'.
  assert (shared' = shared) by congruence. subst shared'. rewrite P in *.
  assert (minv' = minv).
  { assert (D : Unspendable (scriptPubKey o) \/ ~ Unspendable (scriptPubKey o)).
    { unfold Unspendable. destruct (scriptPubKey o) as [|b r]; [left; left; reflexivity|]. destruct (Byte.byte_eq_dec b x6a) as [->|N]; [left; right; eauto|]. right.
      intros [Q|[r' Q]]; [discriminate|]. injection Q as Q _. exact (N Q). }
    destruct D as [D|D]; [rewrite (M0 D), (M0' D)|rewrite (M1 D), (M1' D)]; reflexivity. }
  subst minv'. rewrite CE, CB in ER'. assert (E1 := ve_range _ VE _ _ _ _ _ _ _ _ _ _ _ _ _ _ _ ER ER'). rewrite LT in *.
  assert (E2 := ve_surj _ VE _ _ _ _ _ _ _ _ _ _ _ _ _ _ _ _ _ _ _ _ I0 I0' SG SG').
  destruct o1, o1', w, w'. cbn in *. split; congruence.
Qed.
End Veil.

Lemma output_tasks_pub args j : nth j (a_pubkeys args) [] = [] \/ In j (output_tasks args).
Proof.
  destruct (nth j (a_pubkeys args) []) as [|b r] eqn:E; [left; reflexivity|right]. unfold output_tasks. apply filter_In. split; [|rewrite E; reflexivity].
  apply in_seq. split; [lia|]. destruct (Nat.lt_ge_cases j (length (a_pubkeys args))) as [L|L]; [lia|]. rewrite nth_overflow in E by exact L. discriminate.
Qed.
Lemma tasks_from args t i (ps : bool) : In (i, ps) (issuance_tasks args t) -> exists key, nth i (if ps then a_token_keys args else a_asset_keys args) None = Some key.
Proof. intros H. unfold issuance_tasks in H. apply filter_In in H. destruct H as [_ H]. unfold wants_issuance in H. cbn [fst snd] in H. destruct (nth i _ None); [eauto|discriminate]. Qed.

(** The issued amounts of the two transactions are null alike. *)
Lemma null_alike z rand args t targets d t1 b1 c1 i (ps : bool) inp : AllBlinded z rand args t targets d t1 b1 c1 -> nth_error (vin t) i = Some inp ->
  nth i (if ps then a_token_keys args else a_asset_keys args) None <> None -> is_some (iss_field ps inp) = 1%nat.
Proof.
  intros AB E N. destruct (nth i _ None) as [key|] eqn:K; [clear N|congruence]. assert (L : (i < length (vin t))%nat) by (apply nth_error_Some; congruence).
  destruct (AllBlinded_issuances z rand args t targets d t1 b1 c1 i ps key AB L K) as (k & inp0 & inp' & _ & E0 & _ & (u & _ & _ & _ & _ & (d0 & X & _) & _)).
  assert (inp0 = inp) by congruence. subst inp0. rewrite X. reflexivity.
Qed.
(** There is no more witness than the last blinded issuance needs. *)
Lemma wit_needed z rand args t targets d t1 b1 c1 n : RangeProofsNonEmpty z -> Frame args t t1 -> AllBlinded z rand args t targets d t1 b1 c1 ->
  (length (vtxinwit (wit t)) <= n)%nat -> (forall i ps, In (i, ps) (issuance_tasks args t) -> (i < n)%nat) -> (length (vtxinwit (wit t1)) <= n)%nat.
Proof.
  intros RN FR AB L T. assert (Q := fr_lastinwit _ _ _ _ _ FR n). 
  assert (forall i, (n <= i)%nat -> ~ amount_target args t i /\ ~ keys_target args t i).
  { intros i I. assert (X : forall ps : bool, nth i (if ps then a_token_keys args else a_asset_keys args) None <> None -> (exists inp, nth_error (vin t) i = Some inp) -> False).
    { intros ps N [inp E]. destruct (nth i _ None) as [key|] eqn:K; [|congruence]. assert (LI : (i < length (vin t))%nat) by (apply nth_error_Some; congruence).
      assert (Z := T i ps (issuance_task args t i ps key LI K)). lia. }
    split.
    - intros (N & inp & E & _). exact (X false N (ex_intro _ inp E)).
    - intros (N & inp & E & _). exact (X true N (ex_intro _ inp E)). }
  specialize (Q H). lia.
Qed.
Lemma wit_reached z rand args t targets d t1 b1 c1 i ps : RangeProofsNonEmpty z -> AllBlinded z rand args t targets d t1 b1 c1 ->
  In (i, ps) (issuance_tasks args t) -> (i < length (vtxinwit (wit t1)))%nat.
Proof.
  intros RN AB I. apply In_nth_error in I. destruct I as [k I]. destruct (ab_iss _ _ _ _ _ _ _ _ _ AB _ _ _ I) as (key & inp & inp' & _ & _ & _ & BI).
  destruct BI as (u & e & asset & gen & commit & _ & _ & _ & _ & _ & _ & _ & R). apply RN in R.
  destruct (Nat.lt_ge_cases i (length (vtxinwit (wit t1)))) as [L|L]; [exact L|exfalso]. apply R. unfold inwit_at. rewrite nth_overflow by exact L. destruct ps; reflexivity.
Qed.
Lemma tasks_bounded (l : list (nat * bool)) n : (forall i ps, In (i, ps) l -> (i < n)%nat) \/ exists i ps, In (i, ps) l /\ (n <= i)%nat.
Proof.
  induction l as [|[i ps] l [IH|(i' & ps' & I & L)]]; [left; intros i ps []| |right; exists i', ps'; split; [right; exact I|exact L]].
  destruct (Nat.lt_ge_cases i n) as [L|L]; [left|right; exists i, ps; split; [left; reflexivity|exact L]].
  intros i' ps' [E|I]; [injection E as <- <-; exact L|exact (IH i' ps' I)].
Qed.

(** With a library whose results tell nothing, what is seen of a blinded transaction tells nothing: blinding two transactions that differ in what
    is to be hidden gives the same transaction, whatever amounts, assets and factors of the inputs are given. *)
Theorem C101_same_seen : forall z rand args args' t t' n n' bfs bfs' abfs abfs' s s', Veils z -> RangeProofsNonEmpty z ->
  SameRequest args args' -> SameSeen args t t' ->
  blind_transaction z rand args t = (Ret (BSuccess n bfs abfs), s) -> blind_transaction z rand args' t' = (Ret (BSuccess n' bfs' abfs'), s') ->
  a_strict args = true -> ~ stray_key args t -> ~ stray_key args' t' ->
  AllHidden args t (s_tx s) -> AllHidden args' t' (s_tx s') ->
  s_tx s' = s_tx s.
Proof.
  intros z rand args args' t t' n n' bfs bfs' abfs abfs' s s' VE RN SR SS H H' ST NS NS' AH AH'.
  assert (FR := blind_transaction_frame z rand args t). rewrite H in FR. cbn [snd] in FR.
  assert (FR' := blind_transaction_frame z rand args' t'). rewrite H' in FR'. cbn [snd] in FR'.
  destruct SR as (PK & AK & TK & LA & CE & CB & CS).
  destruct (run_full _ _ _ _ _ _ _ _ H ST NS AH) as (targets & TG & AB).
  destruct (run_full _ _ _ _ _ _ _ _ H' ltac:(congruence) NS' AH') as (targets' & TG' & AB').
  clear H H' NS NS' AH AH'. set (u := s_tx s) in *. set (u' := s_tx s') in *. clearbody u u'.
  assert (CE' : ct_exp args' = ct_exp args) by (unfold ct_exp; rewrite CE; reflexivity).
  assert (CB' : ct_bits args' = ct_bits args) by (unfold ct_bits; rewrite CB; reflexivity).
  assert (OT : output_tasks args' = output_tasks args) by (unfold output_tasks; rewrite PK; reflexivity).
  assert (KE : forall i (ps : bool), nth i (if ps then a_token_keys args' else a_asset_keys args') None = nth i (if ps then a_token_keys args else a_asset_keys args) None) by (intros i [|]; congruence).
  assert (IT : issuance_tasks args' t' = issuance_tasks args t).
  { unfold issuance_tasks. rewrite (ss_nin _ _ _ SS). apply filter_ext. intros x. unfold wants_issuance. rewrite KE. reflexivity. }
  assert (NI := fr_nin _ _ _ _ _ FR). assert (NI' := fr_nin _ _ _ _ _ FR'). assert (NO := fr_nout _ _ _ _ _ FR). assert (NO' := fr_nout _ _ _ _ _ FR').
  assert (SN := ss_nin _ _ _ SS). assert (SO := ss_nout _ _ _ SS).
  assert (GI : forall i, (exists a a' b b', nth_error (vin t) i = Some a /\ nth_error (vin t') i = Some a' /\ nth_error (vin u) i = Some b /\ nth_error (vin u') i = Some b')
    \/ nth_error (vin u) i = None /\ nth_error (vin u') i = None).
  { intros i. destruct (nth_error (vin t) i) as [a|] eqn:E1, (nth_error (vin t') i) as [a'|] eqn:E2, (nth_error (vin u) i) as [b|] eqn:E3, (nth_error (vin u') i) as [b'|] eqn:E4; 
      try (left; exists a, a', b, b'; repeat split; reflexivity); try (right; split; reflexivity); exfalso;
      repeat match goal with X : nth_error ?l i = Some _ |- _ => assert (i < length l)%nat by (apply nth_error_Some; congruence); clear X
             | X : nth_error ?l i = None |- _ => apply nth_error_None in X end; lia. }
  assert (GO : forall i, (exists a a' b b', nth_error (vout t) i = Some a /\ nth_error (vout t') i = Some a' /\ nth_error (vout u) i = Some b /\ nth_error (vout u') i = Some b')
    \/ nth_error (vout u) i = None /\ nth_error (vout u') i = None).
  { intros i. destruct (nth_error (vout t) i) as [a|] eqn:E1, (nth_error (vout t') i) as [a'|] eqn:E2, (nth_error (vout u) i) as [b|] eqn:E3, (nth_error (vout u') i) as [b'|] eqn:E4; 
      try (left; exists a, a', b, b'; repeat split; reflexivity); try (right; split; reflexivity); exfalso;
      repeat match goal with X : nth_error ?l i = Some _ |- _ => assert (i < length l)%nat by (apply nth_error_Some; congruence); clear X
             | X : nth_error ?l i = None |- _ => apply nth_error_None in X end; lia. }
  (* issuances *)
  assert (IS : forall i (ps : bool) a a' b b', nth_error (vin t) i = Some a -> nth_error (vin t') i = Some a' -> nth_error (vin u) i = Some b -> nth_error (vin u') i = Some b' ->
    iss_field ps b' = iss_field ps b /\ iss_proof ps (inwit_at u' i) = iss_proof ps (inwit_at u i)).
  { intros i ps a a' b b' E1 E2 E3 E4. assert (SI := ss_in _ _ _ SS i a a' E1 E2).
    destruct (fr_in _ _ _ _ _ FR i a b E1 E3) as (_ & _ & _ & _ & _ & _ & F7 & F8).
    destruct (fr_in _ _ _ _ _ FR' i a' b' E2 E4) as (_ & _ & _ & _ & _ & _ & F7' & F8').
    destruct (fr_inwit _ _ _ _ _ FR i) as (_ & _ & W7 & W8). destruct (fr_inwit _ _ _ _ _ FR' i) as (_ & _ & W7' & W8').
    destruct (nth i (if ps then a_token_keys args else a_asset_keys args) None) as [key|] eqn:K.
    - assert (LI : (i < length (vin t))%nat) by (apply nth_error_Some; congruence).
      destruct (In_nth_error _ _ (issuance_task args t i ps key LI K)) as [k IK].
      destruct (ab_iss _ _ _ _ _ _ _ _ _ AB _ _ _ IK) as (key1 & x & x' & K1 & X1 & X2 & BI).
      assert (IK' := IK). rewrite <- IT in IK'. destruct (ab_iss _ _ _ _ _ _ _ _ _ AB' _ _ _ IK') as (key2 & y & y' & K2 & Y1 & Y2 & BI').
      rewrite KE in K2. assert (key1 = key) by congruence. assert (key2 = key) by congruence. subst key1 key2.
      assert (x = a) by congruence. assert (x' = b) by congruence. assert (y = a') by congruence. assert (y' = b') by congruence. subst x x' y y'.
      exact (issuance_eq z VE args args' ps key (rand k) a a' b b' _ _ CE' CB' BI BI' (si_prevout _ _ _ _ SI) (si_nonce _ _ _ _ SI) (si_entropy _ _ _ _ SI)).
    - assert (K' := KE i ps). rewrite K in K'.
      assert (WE : inwit_at t' i = inwit_at t i) by (unfold inwit_at; rewrite (ss_wit _ _ _ SS); reflexivity).
      destruct ps; cbn [iss_field iss_proof].
      + rewrite (F8 ltac:(intros [N _]; exact (N K))), (F8' ltac:(intros [N _]; exact (N K'))), (W8 ltac:(intros [N _]; exact (N K))), (W8' ltac:(intros [N _]; exact (N K'))), WE.
        split; [exact (si_keys _ _ _ _ SI K)|reflexivity].
      + rewrite (F7 ltac:(intros [N _]; exact (N K))), (F7' ltac:(intros [N _]; exact (N K'))), (W7 ltac:(intros [N _]; exact (N K))), (W7' ltac:(intros [N _]; exact (N K'))), WE.
        split; [exact (si_amount _ _ _ _ SI K)|reflexivity]. }
  (* targets *)
  assert (LT : length targets' = length targets).
  { destruct TG as (l1 & l2 & tok & T1 & T2 & ->). destruct TG' as (l1' & l2' & tok' & T1' & T2' & ->). rewrite !app_length.
    rewrite (targets_count _ _ _ _ _ _ _ T1), (targets_count _ _ _ _ _ _ _ T1'). f_equal.
    - f_equal. apply nth_error_same. intros i. rewrite !nth_error_map. destruct (GI i) as [(a & a' & b & b' & E1 & E2 & E3 & E4)|[E3 E4]].
      + rewrite E1, E2. cbn [option_map]. f_equal. unfold ntargets. assert (SI := ss_in _ _ _ SS i a a' E1 E2).
        assert (X : forall ps : bool, is_some (iss_field ps a') = is_some (iss_field ps a)).
        { intros ps. destruct (nth i (if ps then a_token_keys args else a_asset_keys args) None) as [key|] eqn:K.
          - rewrite (null_alike _ _ _ _ _ _ _ _ _ i ps a AB E1) by congruence. assert (K' := KE i ps). rewrite K in K'.
            apply (null_alike _ _ _ _ _ _ _ _ _ i ps a' AB' E2). congruence.
          - f_equal. destruct ps; [exact (si_keys _ _ _ _ SI K)|exact (si_amount _ _ _ _ SI K)]. }
        assert (X0 := X false). assert (X1 := X true). cbn [iss_field] in X0, X1. rewrite X0, X1. reflexivity.
      + apply nth_error_None in E3. apply nth_error_None in E4. rewrite (proj2 (nth_error_None (vin t) i)) by lia. rewrite (proj2 (nth_error_None (vin t') i)) by lia. reflexivity.
    - assert (Q : forall l m, Forall2 (AuxTarget z) l m -> length l = length m) by (intros l m F; induction F; cbn [length]; congruence).
      rewrite <- (Q _ _ T2), <- (Q _ _ T2'), !skipn_length. lia. }
  (* outputs *)
  assert (OE : forall j a a' b b', nth_error (vout t) j = Some a -> nth_error (vout t') j = Some a' -> nth_error (vout u) j = Some b -> nth_error (vout u') j = Some b' ->
    b' = b /\ outwit_at u' j = outwit_at u j).
  { intros j a a' b b' E1 E2 E3 E4. destruct (ss_out _ _ _ SS j a a' E1 E2) as [SC NP].
    destruct (output_tasks_pub args j) as [P|I].
    - assert (NW : ~ wants_output args j) by (intros W; apply wants_output_task in W; unfold output_tasks in W; apply filter_In in W; destruct W as [_ W]; rewrite P in W; discriminate).
      assert (NW' : ~ wants_output args' j) by (intros W; apply wants_output_task in W; unfold output_tasks in W; apply filter_In in W; destruct W as [_ W]; rewrite PK, P in W; discriminate).
      rewrite (proj2 (fr_out _ _ _ _ _ FR j a b E1 E3) NW), (proj2 (fr_out _ _ _ _ _ FR' j a' b' E2 E4) NW'), (fr_outwit _ _ _ _ _ FR j NW), (fr_outwit _ _ _ _ _ FR' j NW').
      split; [exact (NP P)|]. unfold outwit_at. rewrite (ss_wit _ _ _ SS). reflexivity.
    - apply In_nth_error in I. destruct I as [k I]. destruct (ab_out _ _ _ _ _ _ _ _ _ AB k j I) as (bf & abf & x & x' & _ & _ & X1 & X2 & XA & _ & BO).
      rewrite <- OT in I. destruct (ab_out _ _ _ _ _ _ _ _ _ AB' k j I) as (bf' & abf' & y & y' & _ & _ & Y1 & Y2 & YA & _ & BO').
      rewrite IT in *. rewrite PK in BO'. subst abf abf'.
      assert (x = a) by congruence. assert (x' = b) by congruence. assert (y = a') by congruence. assert (y' = b') by congruence. subst x x' y y'.
      exact (output_eq z VE args args' targets targets' _ bf bf' _ _ _ a a' b b' _ _ CE' CB' LT BO BO' SC). }
  (* witnesses *)
  assert (LI : length (vtxinwit (wit u')) = length (vtxinwit (wit u))).
  { assert (X := fr_ninwit _ _ _ _ _ FR). assert (X' := fr_ninwit _ _ _ _ _ FR'). rewrite (ss_wit _ _ _ SS) in X'.
    apply Nat.le_antisymm.
    - eapply (wit_needed z rand args' t'); [exact RN|exact FR'|exact AB'|rewrite (ss_wit _ _ _ SS); lia|].
      intros i ps I. rewrite IT in I. exact (wit_reached _ _ _ _ _ _ _ _ _ i ps RN AB I).
    - eapply (wit_needed z rand args t); [exact RN|exact FR|exact AB|lia|].
      intros i ps I. rewrite <- IT in I. exact (wit_reached _ _ _ _ _ _ _ _ _ i ps RN AB' I). }
  assert (LO : length (vtxoutwit (wit u')) = length (vtxoutwit (wit u))).
  { assert (X := fr_noutwit _ _ _ _ _ FR). assert (X' := fr_noutwit _ _ _ _ _ FR'). rewrite (ss_wit _ _ _ SS) in X'.
    assert (Y := ab_nwit _ _ _ _ _ _ _ _ _ AB). assert (Y' := ab_nwit _ _ _ _ _ _ _ _ _ AB'). lia. }
  assert (EI : vin u' = vin u).
  { apply nth_error_same. intros i. destruct (GI i) as [(a & a' & b & b' & E1 & E2 & E3 & E4)|[E3 E4]]; [|congruence]. rewrite E3, E4. f_equal.
    assert (SI := ss_in _ _ _ SS i a a' E1 E2). destruct (IS i false a a' b b' E1 E2 E3 E4) as [I0 _]. destruct (IS i true a a' b b' E1 E2 E3 E4) as [I1 _].
    destruct (fr_in _ _ _ _ _ FR i a b E1 E3) as (F1 & F2 & F3 & F4 & F5 & F6 & _ & _).
    destruct (fr_in _ _ _ _ _ FR' i a' b' E2 E4) as (F1' & F2' & F3' & F4' & F5' & F6' & _ & _). destruct SI as [S1 S2 S3 S4 S5 S6 _ _].
    destruct b as [p c q [x y v w] e], b' as [p' c' q' [x' y' v' w'] e']. cbn [iss_field prevout scriptSig nSequence assetIssuance is_pegin is_nonce is_entropy is_amount is_keys] in *. congruence. }
  assert (EO : vout u' = vout u).
  { apply nth_error_same. intros i. destruct (GO i) as [(a & a' & b & b' & E1 & E2 & E3 & E4)|[E3 E4]]; [|congruence]. rewrite E3, E4. f_equal.
    exact (proj1 (OE i a a' b b' E1 E2 E3 E4)). }
  assert (WI : vtxinwit (wit u') = vtxinwit (wit u)).
  { apply (nth_same (mkInWit [] [] [] [])); [exact LI|]. intros i. fold (inwit_at u' i) (inwit_at u i).
    destruct (fr_inwit _ _ _ _ _ FR i) as (F1 & F2 & F3 & F4). destruct (fr_inwit _ _ _ _ _ FR' i) as (F1' & F2' & F3' & F4').
    assert (WE : inwit_at t' i = inwit_at t i) by (unfold inwit_at; rewrite (ss_wit _ _ _ SS); reflexivity). rewrite WE in *.
    assert (Q : iw_issproof (inwit_at u' i) = iw_issproof (inwit_at u i) /\ iw_keysproof (inwit_at u' i) = iw_keysproof (inwit_at u i)).
    { destruct (GI i) as [(a & a' & b & b' & E1 & E2 & E3 & E4)|[E3 E4]].
      - split; [exact (proj2 (IS i false a a' b b' E1 E2 E3 E4))|exact (proj2 (IS i true a a' b b' E1 E2 E3 E4))].
      - apply nth_error_None in E3. assert (N : nth_error (vin t) i = None) by (apply nth_error_None; lia). assert (N' : nth_error (vin t') i = None) by (apply nth_error_None; lia).
        rewrite F3, F4, F3', F4'; [split; reflexivity|..]; intros (_ & inp & E & _); congruence. }
    destruct Q as [Q1 Q2]. destruct (inwit_at u' i) as [x1 x2 x3 x4], (inwit_at u i) as [y1 y2 y3 y4]. cbn [iw_script iw_issproof iw_keysproof iw_pegin] in *. congruence. }
  assert (WO : vtxoutwit (wit u') = vtxoutwit (wit u)).
  { apply (nth_same (mkOutWit [] [])); [exact LO|]. intros j. fold (outwit_at u' j) (outwit_at u j).
    destruct (GO j) as [(a & a' & b & b' & E1 & E2 & E3 & E4)|[E3 E4]]; [exact (proj2 (OE j a a' b b' E1 E2 E3 E4))|]. apply nth_error_None in E3.
    assert (NW : forall x, wants_output x j -> ((length (a_pubkeys x)) <= j)%nat -> False).
    { intros x W L. apply wants_output_task in W. unfold output_tasks in W. apply filter_In in W. destruct W as [W _]. apply in_seq in W. lia. }
    assert (PL : In j (output_tasks args) -> False).
    { intros I. apply In_nth_error in I. destruct I as [k I]. destruct (ab_out _ _ _ _ _ _ _ _ _ AB k j I) as (bf & abf & x & x' & _ & _ & X1 & _).
      assert (j < length (vout t))%nat by (apply nth_error_Some; congruence). lia. }
    rewrite (fr_outwit _ _ _ _ _ FR j), (fr_outwit _ _ _ _ _ FR' j).
    - unfold outwit_at. rewrite (ss_wit _ _ _ SS). reflexivity.
    - intros W. apply wants_output_task in W. rewrite OT in W. exact (PL W).
    - intros W. apply wants_output_task in W. exact (PL W). }
  assert (V1 := fr_version _ _ _ _ _ FR). assert (V2 := fr_version _ _ _ _ _ FR'). assert (V3 := ss_version _ _ _ SS).
  assert (L1 := fr_locktime _ _ _ _ _ FR). assert (L2 := fr_locktime _ _ _ _ _ FR'). assert (L3 := ss_locktime _ _ _ SS).
  clear - EI EO WI WO V1 V2 V3 L1 L2 L3. destruct u as [a b c d [e f]], u' as [a' b' c' d' [e' f']]. cbn [vin vout nLockTime nVersion wit vtxinwit vtxoutwit] in *. congruence.
Qed.

(** A library that tells nothing: the toy library with the secret arguments left out. *)
Definition veiled : Crypto := mkCrypto (c_hash toy) (c_sha toy) (c_mid toy) (gen_parse toy) (gen_generate toy) (fun _ b => gen_generate_blinded toy asset_A b)
  (gen_serialize toy) (fun _ _ g => ped_commit toy (b32 1) 1 g) (ped_serialize toy) (ped_parse toy) (blind_sum toy)
  (fun m c _ n e bits _ _ x g => Some (n ++ c ++ b32 (m * 256 + e + bits) ++ x)) (rp_rewind toy)
  (fun tags n k tag it seed => match find_chunk tags tag n 0 with Some i => Some (seed, i) | None => None end)
  (fun p _ n g _ _ _ => Some (x01 :: p ++ g)) (fun _ _ _ _ => true) (sp_serialize toy) (pk_fullyvalid toy) (sk_valid toy) (sk_pub toy) (ecdh toy).
Lemma veiled_veils : Veils veiled.
Proof.
  constructor; unfold veiled; cbn [gen_generate_blinded ped_commit rp_sign sp_init sp_generate sp_serialize]; intros; try congruence.
  repeat match goal with H : match ?x with _ => _ end = _ |- _ => destruct x; try discriminate end. congruence.
Qed.
Lemma veiled_range : RangeProofsNonEmpty veiled.
Proof.
  intros m c b n e bits v msg x g p H. unfold veiled in H. cbn [rp_sign] in H. assert (E : p = n ++ c ++ b32 (m * 256 + e + bits) ++ x) by congruence. rewrite E. intros Q.
  apply (f_equal (@length byte)) in Q. rewrite !app_length in Q. unfold b32 in Q. rewrite be_bytes_length in Q. cbn in Q. lia.
Qed.

(** Other amounts and assets of the outputs, another issued amount, other amounts of the inputs. *)
Definition other_args : blind_args := mkArgs [mkDesc asset_I 5 (b32 99) (b32 98); mkDesc asset_A 7 (b32 4) (b32 3)] (a_pubkeys toy_args) (a_asset_keys toy_args) (a_token_keys toy_args)
  (a_aux toy_args) (a_ct_exponent toy_args) (a_ct_bits toy_args) (a_strict toy_args).
Definition other_in : txin := mkTxIn (prevout toy_in1) (scriptSig toy_in1) (nSequence toy_in1)
  (mkIssuance (is_nonce (assetIssuance toy_in1)) (is_entropy (assetIssuance toy_in1)) (expl 12) (expl 13)) (is_pegin toy_in1).
Definition other_tx : tx := mkTx [toy_in0; other_in] [toy_out 1 asset_I [x51]; toy_out 2 asset_A [x51; x51]; toy_out 500 asset_A [x51]; toy_out 4 asset_I [x51]; toy_out 10 asset_A []]
  (nLockTime toy_tx) (nVersion toy_tx) (wit toy_tx).
Example C101_ex : SameRequest toy_args other_args /\ SameSeen toy_args toy_tx other_tx /\ toy_tx <> other_tx
  /\ a_strict toy_args = true /\ ~ stray_key toy_args toy_tx /\ ~ stray_key other_args other_tx
  /\ (let r := blind_transaction veiled toy_rand toy_args toy_tx in let r' := blind_transaction veiled toy_rand other_args other_tx in
      ret_is (fun r => match r with BSuccess n _ _ => (n =? 6)%nat | _ => false end) r = true
      /\ ret_is (fun r => match r with BSuccess n _ _ => (n =? 6)%nat | _ => false end) r' = true
      /\ AllHidden toy_args toy_tx (s_tx (snd r)) /\ AllHidden other_args other_tx (s_tx (snd r')) /\ s_tx (snd r') = s_tx (snd r)).
Proof.
  split; [repeat split|]. split.
  { constructor; try reflexivity.
    - intros [|[|[|i]]] a a' E E'; cbn in E, E'; try discriminate; injection E as <-; injection E' as <-; constructor; intros; try reflexivity; discriminate.
    - intros [|[|[|[|[|[|j]]]]]] o o' E E'; cbn in E, E'; try discriminate; injection E as <-; injection E' as <-; split; try reflexivity; intros; try reflexivity; discriminate. }
  split; [intros E; apply (f_equal vout) in E; discriminate|]. split; [reflexivity|]. split; [exact toy_no_stray|]. split.
  { intros (i & ps & inp & H & E & A & B). cbv in H. destruct H as [H|[H|[]]]; injection H as <- <-; injection E as <-; discriminate. }
  cbv zeta. split; [vm_compute; reflexivity|]. split; [vm_compute; reflexivity|]. 
  split; [intros j I; cbv in I; destruct I as [<-|[<-|[<-|[<-|[]]]]]; vm_compute; discriminate|].
  split; [intros j I; cbv in I; destruct I as [<-|[<-|[<-|[<-|[]]]]]; vm_compute; discriminate|]. vm_compute. reflexivity.
Qed.

(** Without the last condition: an output whose balancing factor comes out zero is left as it was and tells its amount. *)
Definition null_args : blind_args := mkArgs [mkDesc asset_A 700 (zeros 32) (toy_rand 1); mkDesc asset_A 200 (zeros 32) (zeros 32)] [toy_pub 901] [] [] [] None None true.
Definition seen_tx (v : Z) : tx := mkTx [toy_in0; toy_in1] [toy_out v asset_A [x51]; toy_out 10 asset_A []] 0 2 (mkTxWit [] []).
Theorem C101_left_refuted : exists z rand args t t' n n' bfs bfs' abfs abfs' s s', Veils z /\ RangeProofsNonEmpty z /\ SameSeen args t t'
  /\ blind_transaction z rand args t = (Ret (BSuccess n bfs abfs), s) /\ blind_transaction z rand args t' = (Ret (BSuccess n' bfs' abfs'), s')
  /\ a_strict args = true /\ ~ stray_key args t /\ ~ stray_key args t' /\ s_tx s' <> s_tx s.
Proof.
  exists veiled, toy_rand, null_args, (seen_tx 700), (seen_tx 701), 1%nat, 1%nat.
  assert (H : forall v, v = 700 \/ v = 701 -> ret_is (fun r => match r with BSuccess n _ _ => (n =? 1)%nat | _ => false end) (blind_transaction veiled toy_rand null_args (seen_tx v)) = true)
    by (intros v [-> | ->]; vm_compute; reflexivity).
  assert (N : forall v, ~ stray_key null_args (seen_tx v)) by (intros v (i & ps & inp & I & _); cbv in I; destruct I).
  assert (A := H 700 (or_introl eq_refl)). assert (B := H 701 (or_intror eq_refl)). apply ret_is_success in A. apply ret_is_success in B.
  destruct A as (bfs & abfs & A). destruct B as (bfs' & abfs' & B). exists bfs, bfs', abfs, abfs', (snd (blind_transaction veiled toy_rand null_args (seen_tx 700))), (snd (blind_transaction veiled toy_rand null_args (seen_tx 701))).
  split; [exact veiled_veils|]. split; [exact veiled_range|]. split.
  { constructor; try reflexivity.
    - intros i a a' E E'. change (vin (seen_tx 701)) with (vin (seen_tx 700)) in E'. rewrite E in E'. injection E' as <-. constructor; intros; reflexivity.
    - intros [|j] o o' E E'.
      + change (Some (toy_out 700 asset_A [x51]) = Some o) in E. change (Some (toy_out 701 asset_A [x51]) = Some o') in E'. injection E as <-. injection E' as <-. split; [reflexivity|]. intros Q. apply (f_equal (@length byte)) in Q. discriminate.
      + change (nth_error [toy_out 10 asset_A []] j = Some o) in E. change (nth_error [toy_out 10 asset_A []] j = Some o') in E'. rewrite E in E'. injection E' as <-. split; reflexivity. }
  split; [exact A|]. split; [exact B|]. split; [reflexivity|]. split; [apply N|]. split; [apply N|]. clear. intros E. apply (f_equal (fun t => map nValue (vout t))) in E. vm_compute in E. discriminate.
Qed.

Print Assumptions C101_same_seen.
Print Assumptions C101_left_refuted.
