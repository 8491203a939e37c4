(** Who may read a blinded transaction shows only in the range proofs: property C105. *)
From Verif Require Import Base BaseFacts TxModel SpecWire BlindModel SpecBlind BlindProps BlindComplete BlindFrame BlindSer EqModel SighashModel LegacyModel SpecReceiver ToyCrypto ToyTx PropBlind PropBlindSer PropUnblind PropVeil PropId.
From Coq Require Import Lia.
Local Open Scope Z_scope.

Section R.
Variables (z : Crypto) (args args' : blind_args).
Hypothesis RD : Readdressed args args'.

Lemma rd_outs : output_tasks args' = output_tasks args.
Proof.
  unfold output_tasks. rewrite (rd_npubs _ _ RD). apply filter_ext. intros j. assert (P := rd_pubs _ _ RD j).
  destruct (nth j (a_pubkeys args') []), (nth j (a_pubkeys args) []); try reflexivity; exfalso; [assert (X := proj1 P eq_refl)|assert (X := proj2 P eq_refl)]; discriminate X.
Qed.
Lemma rd_iss t : issuance_tasks args' t = issuance_tasks args t.
Proof.
  unfold issuance_tasks. apply filter_ext. intros [i ps]. unfold wants_issuance. cbn [fst snd]. assert (P := rd_keys _ _ RD i ps).
  destruct (nth i (if ps then a_token_keys args' else a_asset_keys args') None), (nth i (if ps then a_token_keys args else a_asset_keys args) None); try reflexivity;
    exfalso; [assert (X := proj2 P eq_refl)|assert (X := proj1 P eq_refl)]; discriminate X.
Qed.
Lemma rd_token i : match nth i (a_token_keys args') None with Some _ => x02 | None => x01 end = match nth i (a_token_keys args) None with Some _ => x02 | None => x01 end.
Proof.
  assert (P := rd_keys _ _ RD i true). cbn in P.
  destruct (nth i (a_token_keys args') None), (nth i (a_token_keys args) None); try reflexivity; exfalso; [assert (X := proj2 P eq_refl)|assert (X := proj1 P eq_refl)]; discriminate X.
Qed.
Lemma rd_from i tok ins l tok' : TargetsFrom z args' i tok ins l tok' -> TargetsFrom z args i tok ins l tok'.
Proof.
  induction 1 as [|i tok inp rest l tok' ls tok'' I T IH]; econstructor; [|exact IH].
  destruct I as (d & g & l1 & l2 & A & B & C & D & Q). exists d, g, l1, l2. rewrite <- (rd_descs _ _ RD), <- (rd_aux _ _ RD).
  split; [exact A|]. split; [exact B|]. split; [exact C|]. split; [exact D|]. rewrite <- rd_token. exact Q.
Qed.
Lemma rd_targets t l : SurjectionTargets z args' t l -> SurjectionTargets z args t l.
Proof. intros (l1 & l2 & tok & A & B & C). exists l1, l2, tok. rewrite <- (rd_aux _ _ RD). split; [apply rd_from; exact A|]. split; assumption. Qed.
End R.

Lemma unspendable_dec s : Unspendable s \/ ~ Unspendable s.
Proof.
  unfold Unspendable. destruct s as [|b r]; [left; left; reflexivity|]. destruct (Byte.byte_eq_dec b x6a) as [->|N]; [left; right; eauto|]. right.
  intros [Q|[r' Q]]; [discriminate|]. injection Q as Q _. exact (N Q).
Qed.
Lemma issuance_same z args args' ps key key' bf i i1 i1' w w' : BlindedIssuance z args ps key bf i i1 w -> BlindedIssuance z args' ps key' bf i i1' w' ->
  iss_field ps i1' = iss_field ps i1 /\ (SameRange args args' -> key' = key -> iss_proof ps w' = iss_proof ps w).
Proof.
  intros (u & e & asset & gen & commit & EV & EN & _ & EA & EG & EC & ES & ER) (u' & e' & asset' & gen' & commit' & EV' & EN' & _ & EA' & EG' & EC' & ES' & ER').
  assert (E := entropy_eq _ _ _ _ _ EN EN' eq_refl eq_refl eq_refl). assert (V := ExplicitValue_fun _ _ _ EV EV'). subst e' u' asset asset'.
  assert (gen' = gen) by congruence. subst gen'. assert (commit' = commit) by congruence. subst commit'. split; [congruence|].
  intros [CE CB] ->. rewrite CE, CB in ER'. congruence.
Qed.
Lemma output_same z args args' targets pub pub' bf abf eph seed o o1 o1' w w' : BlindedOutput z args targets pub bf abf eph seed o o1 w ->
  BlindedOutput z args' targets pub' bf abf eph seed o o1' w' ->
  o1' = o1 /\ ow_surj w' = ow_surj w /\ (SameRange args args' -> pub' = pub -> w' = w).
Proof.
  intros (u & asset & gen & commit & shared & minv & EV & EA & EG & GS & EC & CS & _ & EN & EE & SC & M0 & M1 & ER & p0 & idx & tg & p & I0 & I1 & SG & _ & SS & _)
    (u' & asset' & gen' & commit' & shared' & minv' & EV' & EA' & EG' & GS' & EC' & CS' & _ & EN' & EE' & SC' & M0' & M1' & ER' & p0' & idx' & tg' & p' & I0' & I1' & SG' & _ & SS' & _).
  assert (V := ExplicitValue_fun _ _ _ EV EV'). assert (A := ExplicitAsset_fun _ _ _ EA EA'). subst u' asset'.
  assert (gen' = gen) by congruence. subst gen'. assert (commit' = commit) by congruence. subst commit'.
  assert (p0' = p0 /\ idx' = idx) as [-> ->] by (split; congruence). assert (tg' = tg) by congruence. subst tg'. assert (p' = p) by congruence. subst p'.
  assert (S : ow_surj w' = ow_surj w) by congruence.
  assert (minv' = minv) by (destruct (unspendable_dec (scriptPubKey o)) as [D|D]; [rewrite (M0 D), (M0' D)|rewrite (M1 D), (M1' D)]; reflexivity). subst minv'.
  split; [destruct o1, o1'; cbn in *; congruence|]. split; [exact S|]. intros [CE CB] ->. assert (shared' = shared) by congruence. subst shared'.
  rewrite CE, CB in ER'. destruct w, w'; cbn in *; congruence.
Qed.

(** The outputs that were blinded, and their factors, are the same in both runs. *)
Lemma same_done z rand args args' t targets u u' bfs bfs' abfs abfs' : Readdressed args args' ->
  Complete z rand args t targets u bfs abfs \/ NullFinal z rand args t targets u bfs abfs ->
  Complete z rand args' t targets u' bfs' abfs' \/ NullFinal z rand args' t targets u' bfs' abfs' ->
  exists done, AllBlinded z rand args t targets done u bfs abfs /\ AllBlinded z rand args' t targets done u' bfs' abfs'
    /\ (forall j, In j done -> In j (output_tasks args)) /\ bfs' = bfs /\ abfs' = abfs.
Proof.
  intros RD C C'. assert (OT := rd_outs _ _ RD). assert (IT := rd_iss _ _ RD t).
  assert (GEN : forall done, AllBlinded z rand args t targets done u bfs abfs -> AllBlinded z rand args' t targets done u' bfs' abfs' ->
    (forall k j, nth_error done k = Some j -> S k = length (output_tasks args) -> nth_error bfs' j = nth_error bfs j) -> bfs' = bfs /\ abfs' = abfs).
  { intros done X Y L. split; apply nth_error_same; intros j; (destruct (Nat.lt_ge_cases j (length (vout t))) as [LJ|LJ];
      [|rewrite (proj2 (nth_error_None _ j)), (proj2 (nth_error_None _ j)); [reflexivity|..];
        rewrite ?(ab_bfs _ _ _ _ _ _ _ _ _ X), ?(ab_bfs _ _ _ _ _ _ _ _ _ Y), ?(ab_abfs _ _ _ _ _ _ _ _ _ X), ?(ab_abfs _ _ _ _ _ _ _ _ _ Y); exact LJ]);
      (destruct (in_dec Nat.eq_dec j done) as [I|NI];
       [|destruct (ab_rest _ _ _ _ _ _ _ _ _ X j LJ NI) as (X1 & X2 & _); destruct (ab_rest _ _ _ _ _ _ _ _ _ Y j LJ NI) as (Y1 & Y2 & _); congruence]);
      apply In_nth_error in I; destruct I as [k I];
      destruct (ab_out _ _ _ _ _ _ _ _ _ X k j I) as (bf & abf & o & o' & X1 & X2 & _ & _ & X3 & X4 & _);
      destruct (ab_out _ _ _ _ _ _ _ _ _ Y k j I) as (bf' & abf' & o2 & o2' & Y1 & Y2 & _ & _ & Y3 & Y4 & _); rewrite IT in Y3, Y4; rewrite OT in Y4.
    - destruct (Nat.eq_dec (S k) (length (output_tasks args))) as [E|N]; [exact (L k j I E)|]. rewrite X1, Y1, (X4 N), (Y4 N). reflexivity.
    - congruence. }
  assert (PRE : forall pre j done done', output_tasks args = pre ++ [j] -> (exists r, done = pre ++ r) -> (exists r, done' = pre ++ r) ->
    AllBlinded z rand args t targets done u bfs abfs -> AllBlinded z rand args' t targets done' u' bfs' abfs' ->
    map (fun i => nth i bfs' []) pre = map (fun i => nth i bfs []) pre /\ map (fun i => nth i abfs' []) pre = map (fun i => nth i abfs []) pre).
  { intros pre j done done' E [r ED] [r' ED'] X Y. split; apply map_ext_in; intros i I; apply In_nth_error in I; destruct I as [k I];
      (assert (KL : (k < length pre)%nat) by (apply nth_error_Some; congruence));
      (assert (I1 : nth_error done k = Some i) by (rewrite ED, nth_error_app1 by exact KL; exact I));
      (assert (I2 : nth_error done' k = Some i) by (rewrite ED', nth_error_app1 by exact KL; exact I));
      destruct (ab_out _ _ _ _ _ _ _ _ _ X k i I1) as (bf & abf & o & o' & X1 & X2 & _ & _ & X3 & X4 & _);
      destruct (ab_out _ _ _ _ _ _ _ _ _ Y k i I2) as (bf' & abf' & o2 & o2' & Y1 & Y2 & _ & _ & Y3 & Y4 & _); rewrite IT in Y3, Y4; rewrite OT in Y4.
    - assert (N : S k <> length (output_tasks args)) by (rewrite E, app_length; cbn [length]; lia).
      rewrite (nth_error_nth _ _ _ X1), (nth_error_nth _ _ _ Y1), (X4 N), (Y4 N). reflexivity.
    - rewrite (nth_error_nth _ _ _ X2), (nth_error_nth _ _ _ Y2). congruence. }
  assert (SUM : forall pre j r r', FinalSum z rand args t pre j bfs abfs r -> FinalSum z rand args' t pre j bfs' abfs' r' ->
    map (fun i => nth i bfs' []) pre = map (fun i => nth i bfs []) pre /\ map (fun i => nth i abfs' []) pre = map (fun i => nth i abfs []) pre -> r' = r).
  { intros pre j r r' S1 S2 [M1 M2]. unfold FinalSum in S1, S2. cbv zeta in S1, S2. unfold blinded_inputs in *. rewrite (rd_descs _ _ RD), IT, M1, M2 in S2. congruence. }
  destruct C as [(X & _ & F)|(pre & j & E & X & F)], C' as [(Y & _ & F')|(pre' & j' & E' & Y & F')]; rewrite OT in *.
  - exists (output_tasks args). split; [exact X|]. split; [exact Y|]. split; [auto|]. apply (GEN _ X Y). intros k j I SK.
    destruct (exists_last (l := output_tasks args)) as (pre & j0 & E); [intros Q; rewrite Q in SK; discriminate|].
    assert (j0 = j). { rewrite E in I, SK. rewrite app_length in SK. cbn [length] in SK. rewrite nth_error_app2 in I by lia. replace (k - length pre)%nat with 0%nat in I by lia. cbn in I. congruence. }
    subst j0. destruct (F pre j E) as (bf & B1 & _ & B2). destruct (F' pre j E) as (bf' & B1' & _ & B2'). rewrite B1, B1'. f_equal.
    apply (SUM pre j _ _ B2 B2'). apply (PRE pre j _ _ E (ex_intro _ [j] E) (ex_intro _ [j] E) X Y).
  - exfalso. destruct (F pre' j' E') as (bf & _ & NZ & B2). apply NZ. symmetry. apply (SUM pre' j' _ _ B2 F').
    apply (PRE pre' j' _ _ E' (ex_intro _ [j'] E') (ex_intro _ [] (eq_sym (app_nil_r _))) X Y).
  - exfalso. destruct (F' pre j E) as (bf & _ & NZ & B2). apply NZ. apply (SUM pre j _ _ F B2).
    apply (PRE pre j _ _ E (ex_intro _ [] (eq_sym (app_nil_r _))) (ex_intro _ [j] E) X Y).
  - assert (pre' = pre) by (rewrite E in E'; apply app_inj_tail in E'; destruct E'; congruence). subst pre'.
    exists pre. split; [exact X|]. split; [exact Y|]. split; [intros i I; rewrite E; apply in_or_app; left; exact I|]. apply (GEN _ X Y).
    intros k i I SK. exfalso. assert (k < length pre)%nat by (apply nth_error_Some; congruence). rewrite E, app_length in SK. cbn [length] in SK. lia.
Qed.

(** C105. Two calls with the same random numbers that ask for the same outputs and issuances to be blinded, for other receivers, and that count all
    of them: they report the same count and factors, and leave the same inputs and outputs (commitments and nonces included), the same script and
    peg-in witnesses and the same surjection proofs. Only range proofs differ, and only those whose own key differs or all if other parameters
    were asked for. *)
Theorem C105_readdressed : forall z rand args args' t n n' bfs bfs' abfs abfs' s s', Readdressed args args' ->
  blind_transaction z rand args t = (Ret (BSuccess n bfs abfs), s) -> blind_transaction z rand args' t = (Ret (BSuccess n' bfs' abfs'), s') ->
  CountedAll args t n -> CountedAll args' t n' ->
  n' = n /\ bfs' = bfs /\ abfs' = abfs
  /\ vin (s_tx s') = vin (s_tx s) /\ vout (s_tx s') = vout (s_tx s) /\ nVersion (s_tx s') = nVersion (s_tx s) /\ nLockTime (s_tx s') = nLockTime (s_tx s)
  /\ (forall i, iw_script (inwit_at (s_tx s') i) = iw_script (inwit_at (s_tx s) i) /\ iw_pegin (inwit_at (s_tx s') i) = iw_pegin (inwit_at (s_tx s) i))
  /\ (forall i (ps : bool), SameRange args args' ->
        nth i (if ps then a_token_keys args' else a_asset_keys args') None = nth i (if ps then a_token_keys args else a_asset_keys args) None ->
        iss_proof ps (inwit_at (s_tx s') i) = iss_proof ps (inwit_at (s_tx s) i))
  /\ (forall j, nth_error (vout (s_tx s)) j <> nth_error (vout t) j \/ nth j (a_pubkeys args) [] = [] ->
        ow_surj (outwit_at (s_tx s') j) = ow_surj (outwit_at (s_tx s) j)
        /\ (SameRange args args' -> nth j (a_pubkeys args') [] = nth j (a_pubkeys args) [] -> outwit_at (s_tx s') j = outwit_at (s_tx s) j)).
Proof.
  intros z rand args args' t n n' bfs bfs' abfs abfs' s s' RD H H' CA CA'. assert (OT := rd_outs _ _ RD). assert (IT := rd_iss _ _ RD t).
  assert (FR := blind_transaction_frame z rand args t). rewrite H in FR. cbn [snd] in FR.
  assert (FR' := blind_transaction_frame z rand args' t). rewrite H' in FR'. cbn [snd] in FR'.
  destruct (blind_success z rand args t _ _ _ _ H) as (_ & _ & B). destruct (B CA) as (targets & TG & C). clear B.
  destruct (blind_success z rand args' t _ _ _ _ H') as (_ & _ & B). destruct (B CA') as (targets' & TG' & C'). clear B.
  assert (targets' = targets) by (apply (targets_determined z args t); [apply (rd_targets z args args' RD); exact TG'|exact TG]). subst targets'.
  clear H H'. set (u := s_tx s) in *. set (u' := s_tx s') in *. clearbody u u'.
  destruct (same_done z rand args args' t targets u u' bfs bfs' abfs abfs' RD C C') as (done & AB & AB' & DT & -> & ->). clear C C'.
  split; [unfold CountedAll in *; rewrite OT, IT in CA'; congruence|]. split; [reflexivity|]. split; [reflexivity|].
  assert (NI := fr_nin _ _ _ _ _ FR). assert (NI' := fr_nin _ _ _ _ _ FR'). assert (NO := fr_nout _ _ _ _ _ FR). assert (NO' := fr_nout _ _ _ _ _ FR').
  assert (IS : forall i (ps : bool) a b b', nth_error (vin t) i = Some a -> nth_error (vin u) i = Some b -> nth_error (vin u') i = Some b' ->
    iss_field ps b' = iss_field ps b
    /\ (SameRange args args' -> nth i (if ps then a_token_keys args' else a_asset_keys args') None = nth i (if ps then a_token_keys args else a_asset_keys args) None ->
        iss_proof ps (inwit_at u' i) = iss_proof ps (inwit_at u i))).
  { intros i ps a b b' E1 E3 E4.
    destruct (fr_in _ _ _ _ _ FR i a b E1 E3) as (_ & _ & _ & _ & _ & _ & F7 & F8).
    destruct (fr_in _ _ _ _ _ FR' i a b' E1 E4) as (_ & _ & _ & _ & _ & _ & F7' & F8').
    destruct (fr_inwit _ _ _ _ _ FR i) as (_ & _ & W7 & W8). destruct (fr_inwit _ _ _ _ _ FR' i) as (_ & _ & W7' & W8').
    destruct (nth i (if ps then a_token_keys args else a_asset_keys args) None) as [key|] eqn:K.
    - assert (LI : (i < length (vin t))%nat) by (apply nth_error_Some; congruence).
      destruct (In_nth_error _ _ (issuance_task args t i ps key LI K)) as [k IK].
      destruct (ab_iss _ _ _ _ _ _ _ _ _ AB _ _ _ IK) as (key1 & x & x' & K1 & X1 & X2 & BI).
      assert (IK' := IK). rewrite <- IT in IK'. destruct (ab_iss _ _ _ _ _ _ _ _ _ AB' _ _ _ IK') as (key2 & y & y' & K2 & Y1 & Y2 & BI').
      assert (x = a) by congruence. assert (x' = b) by congruence. assert (y = a) by congruence. assert (y' = b') by congruence. subst x x' y y'.
      destruct (issuance_same _ _ _ _ _ _ _ _ _ _ _ _ BI BI') as [Q1 Q2]. split; [exact Q1|]. intros SR EK. apply (Q2 SR). congruence.
    - assert (K' := proj2 (rd_keys _ _ RD i ps) K). destruct ps; cbn [iss_field iss_proof].
      + rewrite (F8 ltac:(intros [N _]; exact (N K))), (F8' ltac:(intros [N _]; exact (N K'))), (W8 ltac:(intros [N _]; exact (N K))), (W8' ltac:(intros [N _]; exact (N K'))).
        split; reflexivity.
      + rewrite (F7 ltac:(intros [N _]; exact (N K))), (F7' ltac:(intros [N _]; exact (N K'))), (W7 ltac:(intros [N _]; exact (N K))), (W7' ltac:(intros [N _]; exact (N K'))).
        split; reflexivity. }
  assert (OE : forall j, In j done -> nth_error (vout u') j = nth_error (vout u) j /\ ow_surj (outwit_at u' j) = ow_surj (outwit_at u j)
    /\ (SameRange args args' -> nth j (a_pubkeys args') [] = nth j (a_pubkeys args) [] -> outwit_at u' j = outwit_at u j)).
  { intros j I. apply In_nth_error in I. destruct I as [k I].
    destruct (ab_out _ _ _ _ _ _ _ _ _ AB k j I) as (bf & abf & x & x' & XB & XA & X1 & X2 & _ & _ & BO).
    destruct (ab_out _ _ _ _ _ _ _ _ _ AB' k j I) as (bf' & abf' & y & y' & YB & YA & Y1 & Y2 & _ & _ & BO'). rewrite IT in BO'.
    assert (bf' = bf) by congruence. assert (abf' = abf) by congruence. assert (y = x) by congruence. subst bf' abf' y.
    destruct (output_same _ _ _ _ _ _ _ _ _ _ _ _ _ _ _ BO BO') as (Q1 & Q2 & Q3). split; [congruence|]. split; [exact Q2|exact Q3]. }
  assert (OJ : forall j, (length (vout t) <= j)%nat -> nth_error (vout u) j = None /\ nth_error (vout u') j = None /\ nth_error (vout t) j = None) by (intros j L; rewrite !nth_error_None; lia).
  split.
  { apply nth_error_same. intros i. destruct (nth_error (vin t) i) as [a|] eqn:E1.
    - assert (L : (i < length (vin t))%nat) by (apply nth_error_Some; congruence).
      destruct (nth_error (vin u) i) as [b|] eqn:E3; [|apply nth_error_None in E3; lia]. destruct (nth_error (vin u') i) as [b'|] eqn:E4; [|apply nth_error_None in E4; lia]. f_equal.
      destruct (IS i false a b b' E1 E3 E4) as [I0 _]. destruct (IS i true a b b' E1 E3 E4) as [I1 _].
      destruct (fr_in _ _ _ _ _ FR i a b E1 E3) as (F1 & F2 & F3 & F4 & F5 & F6 & _ & _).
      destruct (fr_in _ _ _ _ _ FR' i a b' E1 E4) as (F1' & F2' & F3' & F4' & F5' & F6' & _ & _).
      destruct b as [p c q [x y v w] e], b' as [p' c' q' [x' y' v' w'] e']. cbn [iss_field prevout scriptSig nSequence assetIssuance is_pegin is_nonce is_entropy is_amount is_keys] in *. congruence.
    - apply nth_error_None in E1. rewrite (proj2 (nth_error_None (vin u') i)), (proj2 (nth_error_None (vin u) i)) by lia. reflexivity. }
  split.
  { apply nth_error_same. intros j. destruct (in_dec Nat.eq_dec j done) as [I|ND]; [exact (proj1 (OE j I))|].
    destruct (Nat.lt_ge_cases j (length (vout t))) as [LJ|LJ]; [|destruct (OJ j LJ) as (-> & -> & _); reflexivity].
    destruct (ab_rest _ _ _ _ _ _ _ _ _ AB j LJ ND) as (_ & _ & ->). destruct (ab_rest _ _ _ _ _ _ _ _ _ AB' j LJ ND) as (_ & _ & ->). reflexivity. }
  split; [rewrite (fr_version _ _ _ _ _ FR), (fr_version _ _ _ _ _ FR'); reflexivity|].
  split; [rewrite (fr_locktime _ _ _ _ _ FR), (fr_locktime _ _ _ _ _ FR'); reflexivity|].
  split.
  { intros i. destruct (fr_inwit _ _ _ _ _ FR i) as (W1 & W2 & _). destruct (fr_inwit _ _ _ _ _ FR' i) as (W1' & W2' & _). split; congruence. }
  split.
  { intros i ps SR EK. destruct (nth_error (vin t) i) as [a|] eqn:E1.
    - assert (L : (i < length (vin t))%nat) by (apply nth_error_Some; congruence).
      destruct (nth_error (vin u) i) as [b|] eqn:E3; [|apply nth_error_None in E3; lia]. destruct (nth_error (vin u') i) as [b'|] eqn:E4; [|apply nth_error_None in E4; lia].
      exact (proj2 (IS i ps a b b' E1 E3 E4) SR EK).
    - destruct (fr_inwit _ _ _ _ _ FR i) as (_ & _ & W7 & W8). destruct (fr_inwit _ _ _ _ _ FR' i) as (_ & _ & W7' & W8').
      destruct ps; cbn [iss_proof]; [rewrite W8, W8'|rewrite W7, W7']; try reflexivity; intros (_ & inp & E & _); congruence. }
  intros j D. destruct (in_dec Nat.eq_dec j done) as [I|ND]; [exact (proj2 (OE j I))|].
  assert (P : nth j (a_pubkeys args) [] = []).
  { destruct D as [D|D]; [exfalso|exact D]. apply D. destruct (Nat.lt_ge_cases j (length (vout t))) as [LJ|LJ]; [|destruct (OJ j LJ) as (-> & _ & ->); reflexivity].
    apply (ab_rest _ _ _ _ _ _ _ _ _ AB j LJ ND). }
  assert (P' := proj2 (rd_pubs _ _ RD j) P).
  rewrite (fr_outwit _ _ _ _ _ FR j ltac:(intros W; exact (W P))), (fr_outwit _ _ _ _ _ FR' j ltac:(intros W; exact (W P'))). split; [reflexivity|]. intros _ _. reflexivity.
Qed.
(** The transaction id is the same, then. *)
Theorem C105_same_id : forall z rand args args' t n n' bfs bfs' abfs abfs' s s', SizesOk z -> SmallProofs z -> wf_fields t -> Readdressed args args' ->
  blind_transaction z rand args t = (Ret (BSuccess n bfs abfs), s) -> blind_transaction z rand args' t = (Ret (BSuccess n' bfs' abfs'), s') ->
  CountedAll args t n -> CountedAll args' t n' -> txid_eq (s_tx s) (s_tx s') = Ok true.
Proof.
  intros z rand args args' t n n' bfs bfs' abfs abfs' s s' SZ SP W RD H H' CA CA'.
  assert (W1 := blind_wf z rand args SZ SP t W). rewrite H in W1. cbn [snd] in W1. assert (W2 := blind_wf z rand args' SZ SP t W). rewrite H' in W2. cbn [snd] in W2.
  destruct (C105_readdressed z rand args args' t n n' bfs bfs' abfs abfs' s s' RD H H' CA CA') as (_ & _ & _ & A & B & C & D & _).
  apply (id_eq (s_tx s) (s_tx s') (proj1 W1) (proj1 W2)). auto.
Qed.

(** So are the hashes that signatures are made of, before taproot: whoever signed one transaction has signed the other. *)
Theorem C105_same_sighash : forall z rand args args' t n n' bfs bfs' abfs abfs' s s' H script i ht amount sv, Readdressed args args' ->
  blind_transaction z rand args t = (Ret (BSuccess n bfs abfs), s) -> blind_transaction z rand args' t = (Ret (BSuccess n' bfs' abfs'), s') ->
  CountedAll args t n -> CountedAll args' t n' ->
  sighash (legacy_sighash H) H script (s_tx s') i ht amount sv = sighash (legacy_sighash H) H script (s_tx s) i ht amount sv.
Proof.
  intros z rand args args' t n n' bfs bfs' abfs abfs' s s' Hf script i ht amount sv RD H H' CA CA'.
  destruct (C105_readdressed z rand args args' t n n' bfs bfs' abfs abfs' s s' RD H H' CA CA') as (_ & _ & _ & A & B & C & D & _). clear H H'.
  unfold sighash, raw_sighash, legacy_sighash, sighash_v0, v0_prevouts, v0_issuances, v0_sequences, v0_outputs. rewrite A, B, C, D. reflexivity.
Qed.

(** One output and one issuance for other receivers. *)
Definition other_pub_args : blind_args := mkArgs toy_descs [toy_pub 901; toy_pub 777; toy_pub 903; toy_pub 904] [None; Some (b32 5001)] [None; Some (b32 778)] [] None None true.
Lemma other_readdressed : Readdressed toy_args other_pub_args.
Proof.
  constructor; try reflexivity.
  - intros [|[|[|[|j]]]]; cbn [nth a_pubkeys toy_args other_pub_args]; try tauto. split; intros E; apply (f_equal (@length byte)) in E; vm_compute in E; discriminate E.
  - intros [|[|i]] [|]; cbn [nth a_token_keys a_asset_keys toy_args other_pub_args]; try tauto; split; intros E; discriminate E.
Qed.
Example C105_ex : Readdressed toy_args other_pub_args /\ SameRange toy_args other_pub_args
  /\ (let r := blind_transaction toy toy_rand toy_args toy_tx in let r' := blind_transaction toy toy_rand other_pub_args toy_tx in
      ret_is (fun r => match r with BSuccess n _ _ => (n =? 6)%nat | _ => false end) r = true
      /\ ret_is (fun r => match r with BSuccess n _ _ => (n =? 6)%nat | _ => false end) r' = true
      /\ CountedAll toy_args toy_tx 6 /\ CountedAll other_pub_args toy_tx 6
      (* the range proofs of output 1 and of the tokens differ, the others do not *)
      /\ map (fun j => bytes_eqb (ow_range (outwit_at (s_tx (snd r')) j)) (ow_range (outwit_at (s_tx (snd r)) j))) (seq 0 5) = [true; false; true; true; true]
      /\ map (fun ps => bytes_eqb (iss_proof ps (inwit_at (s_tx (snd r')) 1)) (iss_proof ps (inwit_at (s_tx (snd r)) 1))) [false; true] = [true; false]).
Proof.
  split; [exact other_readdressed|]. split; [split; reflexivity|]. cbv zeta. split; [vm_compute; reflexivity|]. split; [vm_compute; reflexivity|].
  split; [reflexivity|]. split; [reflexivity|]. split; vm_compute; reflexivity.
Qed.
(** Without the same range proofs: a receiver's key does show in a range proof. *)
Theorem C105_range_refuted : exists z rand args args' t n n' bfs bfs' abfs abfs' s s' j, Readdressed args args' /\ SameRange args args'
  /\ blind_transaction z rand args t = (Ret (BSuccess n bfs abfs), s) /\ blind_transaction z rand args' t = (Ret (BSuccess n' bfs' abfs'), s')
  /\ CountedAll args t n /\ CountedAll args' t n' /\ ow_range (outwit_at (s_tx s') j) <> ow_range (outwit_at (s_tx s) j).
Proof.
  destruct C105_ex as (A & B & C). cbv zeta in C. destruct C as (R & R' & C1 & C2 & D & _). apply ret_is_success in R. apply ret_is_success in R'.
  destruct R as (bfs & abfs & R). destruct R' as (bfs' & abfs' & R').
  exists toy, toy_rand, toy_args, other_pub_args, toy_tx, 6%nat, 6%nat, bfs, bfs', abfs, abfs', (snd (blind_transaction toy toy_rand toy_args toy_tx)), (snd (blind_transaction toy toy_rand other_pub_args toy_tx)), 1%nat.
  split; [exact A|]. split; [exact B|]. split; [exact R|]. split; [exact R'|]. split; [exact C1|]. split; [exact C2|].
  clear R R'. intros E. apply (f_equal (fun l => nth 1 l false)) in D. cbn [seq map nth] in D. rewrite E, bytes_eqb_refl in D. discriminate D.
Qed.

(** Taproot signatures cover the range proofs. *)
Definition toy_spent : list txout := [toy_out 1000 asset_A [x51]; toy_out 500 asset_A [x51]].
Definition nohash (b : bytes) : bytes := b.
Local Notation toy_schnorr t := (sighash_schnorr_raw nohash nohash t 0 toy_spent None SIGVERSION_TAPROOT None None None (zeros 32)).
Definition differ (a b : res bytes) : bool := match a, b with Ok x, Ok y => negb (bytes_eqb x y) | _, _ => false end.
Lemma differ_spec a b : differ a b = true -> exists h h', a = Ok h /\ b = Ok h' /\ h' <> h.
Proof. unfold differ. destruct a as [x|], b as [y|]; try discriminate. intros E. exists x, y. split; [reflexivity|]. split; [reflexivity|]. intros ->. rewrite bytes_eqb_refl in E. discriminate E. Qed.
Lemma toy_schnorr_differ : differ (toy_schnorr (s_tx (snd (blind_transaction toy toy_rand toy_args toy_tx)))) (toy_schnorr (s_tx (snd (blind_transaction toy toy_rand other_pub_args toy_tx)))) = true.
Proof. vm_compute. reflexivity. Qed.
Theorem C105_schnorr_refuted : exists z rand args args' t n n' bfs bfs' abfs abfs' s s' sha tap spent genesis h h', Readdressed args args' /\ SameRange args args'
  /\ blind_transaction z rand args t = (Ret (BSuccess n bfs abfs), s) /\ blind_transaction z rand args' t = (Ret (BSuccess n' bfs' abfs'), s')
  /\ CountedAll args t n /\ CountedAll args' t n'
  /\ sighash_schnorr_raw sha tap (s_tx s) 0 spent None SIGVERSION_TAPROOT None None None genesis = Ok h
  /\ sighash_schnorr_raw sha tap (s_tx s') 0 spent None SIGVERSION_TAPROOT None None None genesis = Ok h' /\ h' <> h.
Proof.
  destruct C105_ex as (A & B & C). cbv zeta in C. destruct C as (R & R' & C1 & C2 & _). apply ret_is_success in R. apply ret_is_success in R'.
  destruct R as (bfs & abfs & R). destruct R' as (bfs' & abfs' & R'). destruct (differ_spec _ _ toy_schnorr_differ) as (h & h' & E & E' & D).
  exists toy, toy_rand, toy_args, other_pub_args, toy_tx, 6%nat, 6%nat, bfs, bfs', abfs, abfs', (snd (blind_transaction toy toy_rand toy_args toy_tx)), (snd (blind_transaction toy toy_rand other_pub_args toy_tx)),
    nohash, nohash, toy_spent, (zeros 32), h, h'.
  split; [exact A|]. split; [exact B|]. split; [exact R|]. split; [exact R'|]. split; [exact C1|]. split; [exact C2|]. split; [exact E|]. split; [exact E'|].
  exact D.
Qed.

Print Assumptions C105_readdressed.
Print Assumptions C105_same_id.
Print Assumptions C105_same_sighash.
Print Assumptions C105_schnorr_refuted.
Print Assumptions C105_range_refuted.
