(** What equal segwit v0 signature hashes imply. *)
From Verif Require Import Base BaseFacts Serialize ParserFacts TxModel SpecWire TxProofs TxProofs2
  SighashModel SpecSighash SighashProofs FramingFacts.
Local Open Scope Z_scope.

(** Reading "amount, sequence, optional issuance" from the right-delimited tail. *)
Lemma amount_tail a1 a2 q1 q2 (s1 s2 : bytes) i1 i2 r1 r2 :
  ConfForm CConfValue a1 -> ConfForm CConfValue a2 -> length q1 = 4%nat -> length q2 = 4%nat ->
  wf_issuance (assetIssuance i1) -> wf_issuance (assetIssuance i2) ->
  (if has_issuance i1 then W_issuance (assetIssuance i1) s1 else s1 = []) ->
  (if has_issuance i2 then W_issuance (assetIssuance i2) s2 else s2 = []) ->
  length r1 = length r2 ->
  a1 ++ q1 ++ s1 ++ r1 = a2 ++ q2 ++ s2 ++ r2 ->
  a1 = a2 /\ q1 = q2 /\ issuance_of i1 = issuance_of i2 /\ s1 = s2 /\ r1 = r2.
Proof.
  intros Ha1 Ha2 Hq1 Hq2 Hi1 Hi2 Hs1 Hs2 Hr E.
  assert (L1 : blen s1 = 0 /\ has_issuance i1 = false \/ In (blen s1) [74; 82; 98; 106; 130] /\ has_issuance i1 = true).
  { destruct (has_issuance i1) eqn:Eh; [|subst; left; auto]. right. split; [|reflexivity].
    apply W_issuance_ser in Hs1. subst. apply issuance_lengths; assumption. }
  assert (L2 : blen s2 = 0 /\ has_issuance i2 = false \/ In (blen s2) [74; 82; 98; 106; 130] /\ has_issuance i2 = true).
  { destruct (has_issuance i2) eqn:Eh; [|subst; left; auto]. right. split; [|reflexivity].
    apply W_issuance_ser in Hs2. subst. apply issuance_lengths; assumption. }
  assert (HA : forall a, ConfForm CConfValue a -> a = [] \/ (exists d, a = x01 :: d /\ blen a = 9)
              \/ exists p d, (p = x08 \/ p = x09) /\ a = p :: d /\ blen a = 33).
  { intros a H. inversion H; subst; [left; reflexivity| |].
    - right; left. exists d. rewrite blen_cons. split; [reflexivity|lia].
    - right; right. exists p, d. cbn [In] in *. rewrite blen_cons. split; [intuition congruence|]. split; [reflexivity|lia]. }
  pose proof (f_equal blen E) as EL. rewrite !blen_app in EL.
  assert (Q1 : blen q1 = 4) by (unfold blen; lia). assert (Q2 : blen q2 = 4) by (unfold blen; lia).
  assert (R : blen r1 = blen r2) by (unfold blen; lia).
  assert (LA : blen a1 = blen a2).
  { destruct (HA _ Ha1) as [->|[(d & -> & A1)|(p & d & Hp & -> & A1)]];
    destruct (HA _ Ha2) as [->|[(d' & -> & A2)|(p' & d' & Hp' & -> & A2)]];
      rewrite ?A1, ?A2; try reflexivity; exfalso;
      try (change (blen (@nil byte)) with 0 in *; cbn [In] in L1, L2; lia);
      injection E as E0 _; intuition congruence. }
  apply app_inj_len in E; [|unfold blen in LA; lia]. destruct E as [-> E]. split; [reflexivity|].
  apply app_inj_len in E; [|congruence]. destruct E as [-> E]. split; [reflexivity|].
  assert (LS : blen s1 = blen s2) by lia.
  apply app_inj_len in E; [|unfold blen in LS; lia]. destruct E as [-> ->].
  split; [|split; reflexivity]. unfold issuance_of.
  destruct (has_issuance i1) eqn:E1; destruct (has_issuance i2) eqn:E2;
    try (exfalso; destruct L1 as [[? ?]|[? ?]], L2 as [[? ?]|[? ?]]; try discriminate; cbn [In] in *; lia).
  - f_equal. eapply (prefix_free_inj _ _ _ _ _ pf_issuance); eassumption.
  - reflexivity.
Qed.

Lemma hash32 (H : bytes -> bytes) {A} (W : A -> bytes -> Prop) l h (c : bool) :
  (forall x, length (H x) = 32%nat) -> (if c then h = zeros 32 else HashOf H W l h) -> length h = 32%nat.
Proof. intros HL. destruct c; [intros ->; apply zeros_length|]. intros (s & _ & ->). apply HL. Qed.

(** Everything the hash binds, for an arbitrary hash type. *)
Theorem v0_bind (H : bytes -> bytes) script1 script2 t1 t2 i1 i2 ht1 ht2 a1 a2 b1 b2 :
  (forall x, length (H x) = 32%nat) ->
  signable t1 -> signable t2 -> ConfForm CConfValue a1 -> ConfForm CConfValue a2 ->
  V0Preimage H script1 t1 i1 ht1 a1 b1 -> V0Preimage H script2 t2 i2 ht2 a2 b2 ->
  H b1 = H b2 ->
  no_collision H (V0Hashed H script1 t1 i1 ht1 a1) (V0Hashed H script2 t2 i2 ht2 a2) ->
  ht1 = ht2 /\ script1 = script2 /\ a1 = a2 /\ nVersion t1 = nVersion t2 /\ nLockTime t1 = nLockTime t2
  /\ (exists x y, nth_error (vin t1) i1 = Some x /\ nth_error (vin t2) i2 = Some y
        /\ prevout x = prevout y /\ nSequence x = nSequence y /\ issuance_of x = issuance_of y)
  /\ (acp ht1 = false -> map prevout (vin t1) = map prevout (vin t2))
  /\ (acp ht1 = false -> map has_issuance (vin t1) = map has_issuance (vin t2) ->
        map issuance_of (vin t1) = map issuance_of (vin t2))
  /\ (acp ht1 || sig_none ht1 || sig_single ht1 = false -> map nSequence (vin t1) = map nSequence (vin t2))
  /\ (sig_none ht1 || sig_single ht1 = false -> vout t1 = vout t2)
  /\ (sig_single ht1 = true -> forall o1 o2, nth_error (vout t1) i1 = Some o1 -> nth_error (vout t2) i2 = Some o2 -> o1 = o2).
Proof.
  intros HL [S1 T1] [S2 T2] Ha1 Ha2 P1 P2 EH NC.
  assert (Eb : b1 = b2) by (apply NC; [apply VH_final, P1|apply VH_final, P2|exact EH]). subst b2.
  destruct P1 as (x & ver1 & hp1 & hs1 & hi1 & op1 & sc1 & sq1 & is1 & ho1 & lt1 & hty1 & X1 & V1 & HP1 & HS1 & HI1 & O1 & C1 & Q1 & I1 & U1 & K1 & Y1 & E1).
  destruct P2 as (y & ver2 & hp2 & hs2 & hi2 & op2 & sc2 & sq2 & is2 & ho2 & lt2 & hty2 & X2 & V2 & HP2 & HS2 & HI2 & O2 & C2 & Q2 & I2 & U2 & K2 & Y2 & E2).
  rewrite E1 in E2. clear E1 EH.
  assert (LU : forall t i ht ho, (if sig_single ht then match nth_error (vout t) i with
             | Some o => HashOf H W_txout [o] ho | None => ho = zeros 32 end
             else if sig_none ht then ho = zeros 32 else HashOf H W_txout (vout t) ho) -> length ho = 32%nat).
  { intros t i ht ho. destruct (sig_single ht).
    - destruct (nth_error (vout t) i); [intros (s & _ & ->); apply HL|intros ->; apply zeros_length].
    - apply hash32. assumption. }
  apply app_inj_len in E2; [|rewrite (le_sint32_len _ _ V1), (le_sint32_len _ _ V2); reflexivity]. destruct E2 as [<- E2].
  apply app_inj_len in E2; [|rewrite (hash32 H _ _ _ _ HL HP1), (hash32 H _ _ _ _ HL HP2); reflexivity]. destruct E2 as [<- E2].
  apply app_inj_len in E2; [|rewrite (hash32 H _ _ _ _ HL HS1), (hash32 H _ _ _ _ HL HS2); reflexivity]. destruct E2 as [<- E2].
  apply app_inj_len in E2; [|rewrite (hash32 H _ _ _ _ HL HI1), (hash32 H _ _ _ _ HL HI2); reflexivity]. destruct E2 as [<- E2].
  destruct (pf_outpoint _ _ _ _ _ _ I I O1 O2 E2) as (EO & <- & E3). clear E2.
  destruct (pf_bytes _ _ _ _ _ _ I I C1 C2 E3) as (ES & <- & E4). clear E3.
  assert (Wx : wf_issuance (assetIssuance x)).
  { apply nth_error_In in X1. rewrite Forall_forall in S1. apply (S1 _ X1). }
  assert (Wy : wf_issuance (assetIssuance y)).
  { apply nth_error_In in X2. rewrite Forall_forall in S2. apply (S2 _ X2). }
  apply (amount_tail _ _ _ _ _ _ x y) in E4; try assumption;
    [|apply Q1|apply Q2|rewrite !app_length, (LU _ _ _ _ U1), (LU _ _ _ _ U2), (le_sint32_len _ _ K1), (le_sint32_len _ _ K2), (le_sint32_len _ _ Y1), (le_sint32_len _ _ Y2); reflexivity].
  destruct E4 as (EA & <- & EI & <- & E5).
  apply app_inj_len in E5; [|rewrite (LU _ _ _ _ U1), (LU _ _ _ _ U2); reflexivity]. destruct E5 as [<- E5].
  apply app_inj_len in E5; [|rewrite (le_sint32_len _ _ K1), (le_sint32_len _ _ K2); reflexivity]. destruct E5 as [<- <-].
  assert (ET : ht1 = ht2) by (eapply le_sint32_inj; eassumption). subst ht2 script2 a2.
  split; [reflexivity|]. split; [reflexivity|]. split; [reflexivity|].
  split; [eapply le_sint32_inj; eassumption|]. split; [eapply le_sint32_inj; eassumption|].
  split. { exists x, y. repeat split; auto. destruct Q1 as [_ Q1], Q2 as [_ Q2]. congruence. }
  split.
  { intros Eacp. rewrite Eacp in HP1, HP2. destruct HP1 as (s1 & W1 & ->), HP2 as (s2 & W2 & EE).
    assert (s1 = s2) by (apply NC; [apply VH_prevouts; assumption|apply VH_prevouts; assumption|exact EE]). subst s2.
    apply (W_seq_map prevout W_outpoint) in W1. apply (W_seq_map prevout W_outpoint) in W2.
    eapply (W_seq_inj _ _ _ _ _ pf_outpoint); try eassumption.
    - intros ? ? _. apply outpoint_nonempty.
    - apply Forall_forall; auto.
    - apply Forall_forall; auto. }
  split.
  { intros Eacp EM. rewrite Eacp in HI1, HI2. destruct HI1 as (s1 & W1 & ->), HI2 as (s2 & W2 & EE).
    assert (s1 = s2) by (apply NC; [apply VH_issuances; assumption|apply VH_issuances; assumption|exact EE]). subst s2.
    eapply issuances_inj; try eassumption.
    - eapply Forall_impl; [|exact S1]. intros ? Hr. apply Hr.
    - eapply Forall_impl; [|exact S2]. intros ? Hr. apply Hr. }
  split.
  { intros Ec. rewrite Ec in HS1, HS2. destruct HS1 as (s1 & W1 & ->), HS2 as (s2 & W2 & EE).
    assert (s1 = s2) by (apply NC; [apply VH_sequences; assumption|apply VH_sequences; assumption|exact EE]). subst s2.
    apply (W_seq_map nSequence (le_int 4)) in W1. apply (W_seq_map nSequence (le_int 4)) in W2.
    eapply (W_seq_inj _ _ _ _ _ (pf_le_int 4 ltac:(lia))); try eassumption.
    - intros ? ? _ [A _] ->. discriminate A.
    - apply Forall_forall; auto.
    - apply Forall_forall; auto. }
  split.
  { intros Ec. apply orb_false_iff in Ec. destruct Ec as [Ec1 Ec2]. rewrite Ec1, Ec2 in U1, U2.
    destruct U1 as (s1 & W1 & ->), U2 as (s2 & W2 & EE).
    assert (s1 = s2).
    { apply NC; [apply VH_outputs; [rewrite Ec1, Ec2; reflexivity|assumption]..|exact EE]. } subst s2.
    eapply (W_seq_inj _ _ _ _ _ pf_txout); try eassumption. intros ? ? _. apply txout_nonempty. }
  intros Ec o1 o2 N1 N2. rewrite Ec, N1 in U1. rewrite Ec, N2 in U2.
  destruct U1 as (s1 & W1 & ->), U2 as (s2 & W2 & EE). rewrite W_seq_1 in W1, W2.
  assert (s1 = s2) by (apply NC; [eapply VH_output; eassumption|eapply VH_output; eassumption|exact EE]). subst s2.
  eapply (prefix_free_inj _ _ _ _ _ pf_txout); try eassumption.
  - apply nth_error_In in N1. rewrite Forall_forall in T1. auto.
  - apply nth_error_In in N2. rewrite Forall_forall in T2. auto.
Qed.
