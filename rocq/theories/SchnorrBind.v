(** What equal Schnorr signature hashes imply. *)
From Verif Require Import Base BaseFacts Serialize ParserFacts TxModel SpecWire TxProofs TxProofs2
  SighashModel SpecSighash SighashProofs FramingFacts SchnorrProofs.
Local Open Scope Z_scope.

Lemma pf_conf k : prefix_free (ConfForm k) W_conf.
Proof. apply (prefix_free_parser _ _ (deser_conf k)). intros. apply deser_conf_W; assumption. Qed.

Lemma first_wits_firstn {A} n (l ws : list A) : first_wits n l ws -> ws = firstn n l.
Proof. intros [HL [r ->]]. subst n. rewrite firstn_app, firstn_all, Nat.sub_diag. cbn. symmetry. apply app_nil_r. Qed.

Lemma flags_inj l1 : forall l2 s, W_seq W_flag l1 s -> W_seq W_flag l2 s ->
  map (fun i => (has_issuance i, is_pegin i)) l1 = map (fun i => (has_issuance i, is_pegin i)) l2.
Proof.
  induction l1 as [|x l1 IH]; intros [|y l2] s H1 H2.
  - reflexivity.
  - exfalso. inversion H1; subst. inversion H2; subst. destruct b; [|discriminate].
    match goal with H : W_flag _ [] |- _ => destruct H; discriminate end.
  - exfalso. inversion H2; subst. inversion H1; subst. destruct b; [|discriminate].
    match goal with H : W_flag _ [] |- _ => destruct H; discriminate end.
  - inversion H1; subst. inversion H2 as [|? ? c cs]; subst.
    match goal with E : c ++ cs = b ++ bs |- _ => symmetry in E; rename E into EE end.
    match goal with A : W_flag x b, B : W_flag y c |- _ =>
      destruct (pf_le_int 1 ltac:(lia) _ _ _ _ _ _ I I A B EE) as (EV & -> & ->) end.
    cbn [map]. f_equal; [|eapply IH; eassumption].
    destruct (has_issuance x), (is_pegin x), (has_issuance y), (is_pegin y); try reflexivity; exfalso; lia.
Qed.

Lemma flag_inj x y b : W_flag x b -> W_flag y b -> has_issuance x = has_issuance y /\ is_pegin x = is_pegin y.
Proof.
  intros H1 H2. pose proof (flags_inj [x] [y] b) as F. rewrite !W_seq_1 in F.
  specialize (F H1 H2). cbn [map] in F. split; congruence.
Qed.

Lemma amounts_inj l1 l2 s : Forall wf_txout l1 -> Forall wf_txout l2 ->
  W_seq W_spent_amount l1 s -> W_seq W_spent_amount l2 s ->
  map (fun o => (nAsset o, nValue o)) l1 = map (fun o => (nAsset o, nValue o)) l2.
Proof.
  intros F1 F2 H1 H2.
  set (W := fun (x : bytes * bytes) b => exists b1 b2, W_conf (fst x) b1 /\ W_conf (snd x) b2 /\ b = b1 ++ b2).
  change (W_seq (fun o => W (nAsset o, nValue o)) l1 s) in H1. change (W_seq (fun o => W (nAsset o, nValue o)) l2 s) in H2.
  apply (W_seq_map (fun o => (nAsset o, nValue o)) W) in H1. apply (W_seq_map (fun o => (nAsset o, nValue o)) W) in H2.
  eapply (W_seq_inj _ _ _ _ _ (prefix_free_pair _ _ _ _ (pf_conf CConfAsset) (pf_conf CConfValue))); try eassumption.
  - intros x b _ (b1 & b2 & E1 & _ & ->) E. apply app_eq_nil in E. destruct E as [-> _].
    apply W_conf_ser in E1. symmetry in E1. exact (ser_conf_nonempty _ E1).
  - apply Forall_map_iff. eapply Forall_impl; [|exact F1]. intros o Ho. cbn [fst snd]. split; apply Ho.
  - apply Forall_map_iff. eapply Forall_impl; [|exact F2]. intros o Ho. cbn [fst snd]. split; apply Ho.
Qed.

Lemma issproofs_inj l1 l2 s : W_seq W_issproofs l1 s -> W_seq W_issproofs l2 s ->
  map (fun w => (iw_issproof w, iw_keysproof w)) l1 = map (fun w => (iw_issproof w, iw_keysproof w)) l2.
Proof.
  intros H1 H2. set (g := fun w => (iw_issproof w, iw_keysproof w)).
  set (W := fun (x : bytes * bytes) b => exists b1 b2, W_bytes (fst x) b1 /\ W_bytes (snd x) b2 /\ b = b1 ++ b2).
  change (W_seq (fun w => W (g w)) l1 s) in H1. change (W_seq (fun w => W (g w)) l2 s) in H2.
  apply (W_seq_map g W) in H1. apply (W_seq_map g W) in H2.
  eapply (W_seq_inj _ _ _ _ _ (prefix_free_pair _ _ _ _ pf_bytes pf_bytes)); try eassumption.
  - intros x b _ (b1 & b2 & E1 & _ & ->) E. apply app_eq_nil in E. destruct E as [-> _].
    exact (bytes_nonempty _ _ E1 eq_refl).
  - apply Forall_forall. auto.
  - apply Forall_forall. auto.
Qed.

Lemma scripts_inj l1 l2 s : W_seq (fun o => W_bytes (scriptPubKey o)) l1 s -> W_seq (fun o => W_bytes (scriptPubKey o)) l2 s ->
  map scriptPubKey l1 = map scriptPubKey l2.
Proof.
  intros H1 H2. apply (W_seq_map scriptPubKey W_bytes) in H1. apply (W_seq_map scriptPubKey W_bytes) in H2.
  eapply (W_seq_inj _ _ _ _ _ pf_bytes); try eassumption.
  - intros x b _. apply bytes_nonempty.
  - apply Forall_forall; auto.
  - apply Forall_forall; auto.
Qed.

Lemma outwit_nonempty w b : W_outwit w b -> b <> [].
Proof.
  intros (a & c & Ha & _ & ->) E. apply app_eq_nil in E. destruct E as [-> _]. exact (bytes_nonempty _ _ Ha eq_refl).
Qed.

Lemma map_fst_eq {A B C} (f : A -> B) (g : A -> C) l1 : forall l2,
  map (fun x => (f x, g x)) l1 = map (fun x => (f x, g x)) l2 -> map f l1 = map f l2 /\ map g l1 = map g l2.
Proof.
  induction l1 as [|x l1 IH]; intros [|y l2] H; try discriminate; [auto|].
  cbn [map] in *. injection H as E1 E2 H. destruct (IH _ H). split; congruence.
Qed.

Section Bind.
  Variable sha : bytes -> bytes.
  Hypothesis HL : forall x, length (sha x) = 32%nat.

  Lemma tapinputs_len t sp b : TapInputs sha t sp b -> length b = 224%nat.
  Proof.
    intros (ws & fl & ps & sa & ss & sq & si & rp & _ & (s1 & _ & ->) & (s2 & _ & ->) & (s3 & _ & ->) & (s4 & _ & ->)
      & (s5 & _ & ->) & (s6 & _ & ->) & (s7 & _ & ->) & ->).
    rewrite !app_length, !HL. reflexivity.
  Qed.
  Lemma tapoutputs_len t b : TapOutputs sha t b -> length b = 64%nat.
  Proof. intros (ws & os & pf & _ & (s1 & _ & ->) & (s2 & _ & ->) & ->). rewrite app_length, !HL. reflexivity. Qed.
  Lemma tapsingle_len t i b : TapSingle sha t i b -> length b = 64%nat.
  Proof. intros (o & w & s & x & _ & _ & _ & _ & ->). rewrite app_length, !HL. reflexivity. Qed.

  (** All inputs. *)
  Lemma tapinputs_bind t1 t2 sp1 sp2 i1 i2 ht b :
    signable t1 -> signable t2 -> Forall wf_txout sp1 -> Forall wf_txout sp2 ->
    tap_acp ht = false ->
    no_collision sha (TapHashed t1 i1 sp1 ht) (TapHashed t2 i2 sp2 ht) ->
    TapInputs sha t1 sp1 b -> TapInputs sha t2 sp2 b ->
    map is_pegin (vin t1) = map is_pegin (vin t2) /\ map prevout (vin t1) = map prevout (vin t2)
    /\ map nSequence (vin t1) = map nSequence (vin t2) /\ map issuance_of (vin t1) = map issuance_of (vin t2)
    /\ map (fun o => (nAsset o, nValue o)) sp1 = map (fun o => (nAsset o, nValue o)) sp2
    /\ map scriptPubKey sp1 = map scriptPubKey sp2
    /\ map (fun w => (iw_issproof w, iw_keysproof w)) (firstn (length (vin t1)) (vtxinwit (wit t1)))
       = map (fun w => (iw_issproof w, iw_keysproof w)) (firstn (length (vin t2)) (vtxinwit (wit t2))).
  Proof.
    intros [S1 _] [S2 _] F1 F2 Ha NC
      (ws & fl & ps & sa & ss & sq & si & rp & Fw & (s1 & W1 & ->) & (s2 & W2 & ->) & (s3 & W3 & ->) & (s4 & W4 & ->)
        & (s5 & W5 & ->) & (s6 & W6 & ->) & (s7 & W7 & ->) & ->)
      (ws' & fl' & ps' & sa' & ss' & sq' & si' & rp' & Fw' & (s1' & W1' & ->) & (s2' & W2' & ->) & (s3' & W3' & ->) & (s4' & W4' & ->)
        & (s5' & W5' & ->) & (s6' & W6' & ->) & (s7' & W7' & ->) & E).
    apply app_inj_len in E; [|rewrite !HL; reflexivity]. destruct E as [E1 E].
    apply app_inj_len in E; [|rewrite !HL; reflexivity]. destruct E as [E2 E].
    apply app_inj_len in E; [|rewrite !HL; reflexivity]. destruct E as [E3 E].
    apply app_inj_len in E; [|rewrite !HL; reflexivity]. destruct E as [E4 E].
    apply app_inj_len in E; [|rewrite !HL; reflexivity]. destruct E as [E5 E].
    apply app_inj_len in E; [|rewrite !HL; reflexivity]. destruct E as [E6 E7].
    apply NC in E1; [|apply TH_flags; assumption|apply TH_flags; assumption]. subst s1'.
    apply NC in E2; [|apply TH_prevouts; assumption|apply TH_prevouts; assumption]. subst s2'.
    apply NC in E3; [|apply TH_amounts; assumption|apply TH_amounts; assumption]. subst s3'.
    apply NC in E4; [|apply TH_scripts; assumption|apply TH_scripts; assumption]. subst s4'.
    apply NC in E5; [|apply TH_sequences; assumption|apply TH_sequences; assumption]. subst s5'.
    apply NC in E6; [|apply TH_issuances; assumption|apply TH_issuances; assumption]. subst s6'.
    apply NC in E7; [|eapply TH_issproofs; eassumption|eapply TH_issproofs; eassumption]. subst s7'.
    pose proof (flags_inj _ _ _ W1 W1') as M. apply map_fst_eq in M. destruct M as [M1 M2].
    split; [exact M2|]. split.
    { apply (W_seq_map prevout W_outpoint) in W2. apply (W_seq_map prevout W_outpoint) in W2'.
      eapply (W_seq_inj _ _ _ _ _ pf_outpoint); try eassumption.
      - intros ? ? _. apply outpoint_nonempty.
      - apply Forall_forall; auto.
      - apply Forall_forall; auto. }
    split.
    { apply (W_seq_map nSequence (le_int 4)) in W5. apply (W_seq_map nSequence (le_int 4)) in W5'.
      eapply (W_seq_inj _ _ _ _ _ (pf_le_int 4 ltac:(lia))); try eassumption.
      - intros ? ? _ [A _] ->. discriminate A.
      - apply Forall_forall; auto.
      - apply Forall_forall; auto. }
    split.
    { eapply issuances_inj; try eassumption.
      - eapply Forall_impl; [|exact S1]. intros ? Hr. apply Hr.
      - eapply Forall_impl; [|exact S2]. intros ? Hr. apply Hr. }
    split; [eapply amounts_inj; eassumption|]. split; [eapply scripts_inj; eassumption|].
    rewrite <- (first_wits_firstn _ _ _ Fw), <- (first_wits_firstn _ _ _ Fw'). eapply issproofs_inj; eassumption.
  Qed.

  Lemma tapoutputs_bind t1 t2 sp1 sp2 i1 i2 ht b :
    signable t1 -> signable t2 -> tap_all ht = true ->
    no_collision sha (TapHashed t1 i1 sp1 ht) (TapHashed t2 i2 sp2 ht) ->
    TapOutputs sha t1 b -> TapOutputs sha t2 b ->
    vout t1 = vout t2
    /\ firstn (length (vout t1)) (vtxoutwit (wit t1)) = firstn (length (vout t2)) (vtxoutwit (wit t2)).
  Proof.
    intros [_ S1] [_ S2] Ha NC (ws & os & pf & Fw & (s1 & W1 & ->) & (s2 & W2 & ->) & ->)
      (ws' & os' & pf' & Fw' & (s1' & W1' & ->) & (s2' & W2' & ->) & E).
    apply app_inj_len in E; [|rewrite !HL; reflexivity]. destruct E as [E1 E2].
    apply NC in E1; [|eapply TH_outputs; eassumption|eapply TH_outputs; eassumption]. subst s1'.
    apply NC in E2; [|eapply TH_outwits; eassumption|eapply TH_outwits; eassumption]. subst s2'.
    split.
    - eapply (W_seq_inj _ _ _ _ _ pf_txout); try eassumption. intros ? ? _. apply txout_nonempty.
    - rewrite <- (first_wits_firstn _ _ _ Fw), <- (first_wits_firstn _ _ _ Fw').
      eapply (W_seq_inj _ _ _ _ _ pf_outwit); try eassumption.
      + intros ? ? _. apply outwit_nonempty.
      + apply Forall_forall; auto.
      + apply Forall_forall; auto.
  Qed.

  Lemma tapsingle_bind t1 t2 sp1 sp2 i1 i2 ht b :
    signable t1 -> signable t2 -> tap_single ht = true ->
    no_collision sha (TapHashed t1 i1 sp1 ht) (TapHashed t2 i2 sp2 ht) ->
    TapSingle sha t1 i1 b -> TapSingle sha t2 i2 b ->
    (exists o w, nth_error (vout t1) i1 = Some o /\ nth_error (vout t2) i2 = Some o
      /\ nth_error (vtxoutwit (wit t1)) i1 = Some w /\ nth_error (vtxoutwit (wit t2)) i2 = Some w).
  Proof.
    intros [_ S1] [_ S2] Ha NC (o & w & s & x & N1 & N2 & W1 & W2 & ->) (o' & w' & s' & x' & N1' & N2' & W1' & W2' & E).
    apply app_inj_len in E; [|rewrite !HL; reflexivity]. destruct E as [E1 E2].
    apply NC in E1; [|eapply TH_output; eassumption|eapply TH_output; eassumption]. subst s'.
    apply NC in E2; [|eapply TH_outwit; eassumption|eapply TH_outwit; eassumption]. subst x'.
    assert (o = o').
    { eapply (prefix_free_inj _ _ _ _ _ pf_txout); try eassumption.
      - apply nth_error_In in N1. rewrite Forall_forall in S1. auto.
      - apply nth_error_In in N1'. rewrite Forall_forall in S2. auto. }
    assert (w = w') by (eapply (prefix_free_inj _ _ _ _ _ pf_outwit); try eassumption; exact I).
    subst. exists o', w'. auto.
  Qed.

  (** The signed input, ANYONECANPAY.  [inp]'s script boundary is only fixed when its
      length is known or when no issuance follows. *)
  Lemma tapown_bind t1 t2 sp1 sp2 i1 i2 ht x y p q b :
    wf_issuance (assetIssuance x) -> wf_issuance (assetIssuance y) -> wf_txout p -> wf_txout q ->
    tap_acp ht = true ->
    no_collision sha (TapHashed t1 i1 sp1 ht) (TapHashed t2 i2 sp2 ht) ->
    TapOwn sha t1 i1 x p b -> TapOwn sha t2 i2 y q b ->
    is_pegin x = is_pegin y /\ has_issuance x = has_issuance y /\ prevout x = prevout y
    /\ nAsset p = nAsset q /\ nValue p = nValue q
    /\ (has_issuance x = false \/ length (scriptPubKey p) = length (scriptPubKey q) ->
        scriptPubKey p = scriptPubKey q /\ nSequence x = nSequence y /\ issuance_of x = issuance_of y
        /\ (has_issuance x = true -> exists w1 w2,
              nth_error (vtxinwit (wit t1)) i1 = Some w1 /\ nth_error (vtxinwit (wit t2)) i2 = Some w2
              /\ iw_issproof w1 ++ iw_keysproof w1 = iw_issproof w2 ++ iw_keysproof w2)).
  Proof.
    intros Wx Wy Wp Wq Ha NC (fl & op & a & v & s & tl & F & O & A & V & Q & T & ->)
      (fl' & op' & a' & v' & s' & tl' & F' & O' & A' & V' & Q' & T' & E).
    apply app_inj_len in E; [|destruct F as [-> _], F' as [-> _]; reflexivity]. destruct E as [<- E].
    destruct (flag_inj _ _ _ F F') as [Eh Ep].
    destruct (pf_outpoint _ _ _ _ _ _ I I O O' E) as (Eo & <- & E2). clear E.
    destruct (pf_conf CConfAsset _ _ _ _ _ _ (proj1 Wp) (proj1 Wq) A A' E2) as (Ea & <- & E3). clear E2.
    destruct (pf_conf CConfValue _ _ _ _ _ _ (proj1 (proj2 Wp)) (proj1 (proj2 Wq)) V V' E3) as (Ev & <- & E4). clear E3.
    split; [assumption|]. split; [assumption|]. split; [assumption|]. split; [assumption|]. split; [assumption|].
    intros Hc.
    assert (Ls : length (scriptPubKey p) = length (scriptPubKey q)).
    { destruct Hc as [Hf|Hf]; [|assumption]. rewrite Hf in T. rewrite <- Eh, Hf in T'. subst tl tl'.
      apply (f_equal (@length _)) in E4. rewrite !app_length in E4. destruct Q as [Q _], Q' as [Q' _]. cbn in E4. lia. }
    apply app_inj_len in E4; [|assumption]. destruct E4 as [Es E5].
    apply app_inj_len in E5; [|destruct Q as [Q _], Q' as [Q' _]; congruence]. destruct E5 as [<- <-].
    split; [assumption|]. split; [destruct Q as [_ Q], Q' as [_ Q']; congruence|].
    unfold issuance_of. rewrite <- Eh in *. destruct (has_issuance x).
    - destruct T as (w1 & s1 & N1 & I1 & ->), T' as (w2 & s2 & N2 & I2 & E6).
      destruct (pf_issuance _ _ _ _ _ _ Wx Wy I1 I2 E6) as (EI & _ & E7).
      apply NC in E7; [|eapply TH_own; eassumption|eapply TH_own; eassumption].
      split; [congruence|]. intros _. exists w1, w2. auto.
    - split; [reflexivity|]. intros; discriminate.
  Qed.

  Theorem tap_bind t1 t2 i1 i2 sp1 sp2 ht1 ht2 leaf1 leaf2 an1 an2 b :
    signable t1 -> signable t2 -> Forall wf_txout sp1 -> Forall wf_txout sp2 ->
    valid_tap_ht ht1 -> valid_tap_ht ht2 ->
    no_collision sha (TapHashed t1 i1 sp1 ht1) (TapHashed t2 i2 sp2 ht2) ->
    TapMessage sha t1 i1 sp1 ht1 leaf1 an1 b -> TapMessage sha t2 i2 sp2 ht2 leaf2 an2 b ->
    ht1 = ht2 /\ nVersion t1 = nVersion t2 /\ nLockTime t1 = nLockTime t2 /\ leaf1 = leaf2 /\ an1 = an2
    /\ (tap_acp ht1 = false ->
         i1 = i2 /\ map is_pegin (vin t1) = map is_pegin (vin t2) /\ map prevout (vin t1) = map prevout (vin t2)
         /\ map nSequence (vin t1) = map nSequence (vin t2) /\ map issuance_of (vin t1) = map issuance_of (vin t2)
         /\ map (fun o => (nAsset o, nValue o)) sp1 = map (fun o => (nAsset o, nValue o)) sp2
         /\ map scriptPubKey sp1 = map scriptPubKey sp2
         /\ map (fun w => (iw_issproof w, iw_keysproof w)) (firstn (length (vin t1)) (vtxinwit (wit t1)))
            = map (fun w => (iw_issproof w, iw_keysproof w)) (firstn (length (vin t2)) (vtxinwit (wit t2))))
    /\ (tap_all ht1 = true -> vout t1 = vout t2
         /\ firstn (length (vout t1)) (vtxoutwit (wit t1)) = firstn (length (vout t2)) (vtxoutwit (wit t2)))
    /\ (tap_single ht1 = true ->
         exists o w, nth_error (vout t1) i1 = Some o /\ nth_error (vout t2) i2 = Some o
           /\ nth_error (vtxoutwit (wit t1)) i1 = Some w /\ nth_error (vtxoutwit (wit t2)) i2 = Some w)
    /\ (tap_acp ht1 = true -> exists x y p q,
         nth_error (vin t1) i1 = Some x /\ nth_error (vin t2) i2 = Some y
         /\ nth_error sp1 i1 = Some p /\ nth_error sp2 i2 = Some q
         /\ is_pegin x = is_pegin y /\ has_issuance x = has_issuance y /\ prevout x = prevout y
         /\ nAsset p = nAsset q /\ nValue p = nValue q
         /\ (has_issuance x = false \/ length (scriptPubKey p) = length (scriptPubKey q) ->
             scriptPubKey p = scriptPubKey q /\ nSequence x = nSequence y /\ issuance_of x = issuance_of y
             /\ (has_issuance x = true -> exists w1 w2,
                  nth_error (vtxinwit (wit t1)) i1 = Some w1 /\ nth_error (vtxinwit (wit t2)) i2 = Some w2
                  /\ iw_issproof w1 ++ iw_keysproof w1 = iw_issproof w2 ++ iw_keysproof w2))).
  Proof.
    intros S1 S2 F1 F2 Hv1 Hv2 NC
      (x & p & hb & f1 & f2 & f3 & f4 & st & f5 & f6 & f7 & f8 & N1 & N2 & HLn & B8 & B9 & B10 & B11 & B12 & BS & B13 & B14 & B15 & B16 & ->)
      (y & q & hb' & f1' & f2' & f3' & f4' & st' & f5' & f6' & f7' & f8' & N1' & N2' & HLn' & C8 & C9 & C10 & C11 & C12 & CS & C13 & C14 & C15 & C16 & E).
    apply app_inj_len in E; [|destruct B8 as [-> _], C8 as [-> _]; reflexivity]. destruct E as [<- E].
    assert (EH : ht1 = ht2).
    { assert (EE : match ht1 with None => 0 | Some h => h end = match ht2 with None => 0 | Some h => h end)
        by (destruct B8 as [_ <-], C8 as [_ <-]; reflexivity).
      destruct ht1, ht2; cbn [valid_tap_ht In] in Hv1, Hv2; try reflexivity; [congruence| |]; exfalso; lia. }
    subst ht2.
    apply app_inj_len in E; [|rewrite (le_sint32_len _ _ B9), (le_sint32_len _ _ C9); reflexivity]. destruct E as [<- E].
    apply app_inj_len in E; [|destruct B10 as [-> _], C10 as [-> _]; reflexivity]. destruct E as [<- E].
    apply app_inj_len in E.
    2: { destruct (tap_acp ht1); [congruence|]. rewrite (tapinputs_len _ _ _ B11), (tapinputs_len _ _ _ C11). reflexivity. }
    destruct E as [<- E].
    apply app_inj_len in E.
    2: { destruct (tap_all ht1); [|congruence]. rewrite (tapoutputs_len _ _ B12), (tapoutputs_len _ _ C12). reflexivity. }
    destruct E as [<- E].
    apply app_inj_len in E; [|destruct BS as [-> _], CS as [-> _]; reflexivity]. destruct E as [<- E].
    assert (EST : ((if leaf1 then 2 else 0) + (if an1 then 1 else 0)) = ((if leaf2 then 2 else 0) + (if an2 then 1 else 0)))
      by (destruct BS as [_ <-], CS as [_ <-]; reflexivity).
    assert (L6 : length f6 = length f6').
    { assert (LA : forall a s, blen a = 32 -> W_bytes a s -> length s = 33%nat).
      { intros a s Ha (m & Hm & ->). rewrite Ha in Hm. rewrite app_length. unfold blen in Ha.
        inversion Hm; try lia. match goal with H : le_int 1 _ _ |- _ => destruct H as [-> _] end. lia. }
      destruct an1 as [a1|], an2 as [a2|]; try (exfalso; destruct leaf1, leaf2; lia).
      - rewrite (LA _ _ (proj1 B14) (proj2 B14)), (LA _ _ (proj1 C14) (proj2 C14)). reflexivity.
      - congruence. }
    assert (L7 : length f7 = length f7').
    { destruct (tap_single ht1); [|congruence]. rewrite (tapsingle_len _ _ _ B15), (tapsingle_len _ _ _ C15). reflexivity. }
    assert (L8 : length f8 = length f8').
    { destruct leaf1 as [[h1 c1]|], leaf2 as [[h2 c2]|]; try (exfalso; destruct an1, an2; lia); [|congruence].
      destruct B16 as (z1 & G1 & K1 & ->), C16 as (z2 & G2 & K2 & ->).
      rewrite !app_length, (le_sint32_len _ _ K1), (le_sint32_len _ _ K2). unfold blen in *. cbn. lia. }
    apply app_inj_len in E.
    2: { apply (f_equal (@length _)) in E. rewrite !app_length in E. lia. }
    destruct E as [<- E]. apply app_inj_len in E; [|assumption]. destruct E as [<- E].
    apply app_inj_len in E; [|assumption]. destruct E as [<- <-].
    split; [reflexivity|]. split; [eapply le_sint32_inj; eassumption|].
    split; [destruct B10 as [_ <-], C10 as [_ <-]; reflexivity|].
    split.
    { destruct leaf1 as [[h1 c1]|], leaf2 as [[h2 c2]|]; try (exfalso; destruct an1, an2; lia); [|reflexivity].
      destruct B16 as (z1 & G1 & K1 & ->), C16 as (z2 & G2 & K2 & EE).
      apply app_inj_len in EE; [|unfold blen in *; lia]. destruct EE as [-> EE].
      apply app_inj_len in EE; [|reflexivity]. destruct EE as [_ ->].
      rewrite (le_sint32_inj _ _ _ K1 K2). reflexivity. }
    split.
    { destruct an1 as [a1|], an2 as [a2|]; try (exfalso; destruct leaf1, leaf2; lia); [|reflexivity].
      f_equal. eapply (prefix_free_inj _ _ _ _ _ pf_bytes); try exact I; [apply B14|apply C14]. }
    split.
    { intros Ea. rewrite Ea in *. split.
      - destruct B13 as [_ B13], C13 as [_ C13]. lia.
      - eapply tapinputs_bind; eassumption. }
    split. { intros Ea. rewrite Ea in *. eapply tapoutputs_bind; eassumption. }
    split. { intros Ea. rewrite Ea in *. eapply tapsingle_bind; eassumption. }
    intros Ea. rewrite Ea in *. exists x, y, p, q.
    split; [assumption|]. split; [assumption|]. split; [assumption|]. split; [assumption|].
    rewrite Forall_forall in F1, F2. destruct S1 as [S1 _], S2 as [S2 _]. rewrite Forall_forall in S1, S2.
    eapply tapown_bind; try eassumption.
    - apply (S1 x). eapply nth_error_In; eassumption.
    - apply (S2 y). eapply nth_error_In; eassumption.
    - apply F1. eapply nth_error_In; eassumption.
    - apply F2. eapply nth_error_In; eassumption.
  Qed.
End Bind.
