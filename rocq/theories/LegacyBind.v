(** What equal pre-segwit signature hashes imply, and what they ignore. *)
From Verif Require Import Base BaseFacts Serialize ParserFacts TxModel SpecWire TxProofs TxProofs2
  ScriptModel SpecScript ScriptProofs SighashModel SpecSighash SighashProofs FramingFacts LegacyModel SpecLegacy LegacyProofs.
Local Open Scope Z_scope.

(** The part of an input that is written. *)
Definition lview (x : txin) : outpoint * bytes * Z * option issuance :=
  (prevout x, scriptSig x, nSequence x, written_issuance x).

Lemma wire_index_sh x w : wire_index true x w -> w = op_n (prevout x).
Proof. intros [[E ->]|[_ ->]]; [auto|]. cbn [negb andb]. lia. Qed.

Lemma lview_pf x y b c r r' :
  wf_issuance (assetIssuance x) -> wf_issuance (assetIssuance y) -> writes_issuance x = writes_issuance y ->
  W_txin true x b -> W_txin true y c -> b ++ r = c ++ r' -> lview x = lview y /\ b = c /\ r = r'.
Proof.
  intros Ix Iy Ew (w & n & s & q & iss & HW & HL & Hn & Hs & Hq & HI & ->)
    (w' & n' & s' & q' & iss' & HW' & HL' & Hn' & Hs' & Hq' & HI' & ->) E.
  apply wire_index_sh in HW. apply wire_index_sh in HW'. subst w w'.
  rewrite <- !app_assoc in E.
  apply app_inj_len in E; [|unfold blen in *; lia]. destruct E as [Eh E].
  destruct (pf_le_int 4 ltac:(lia) _ _ _ _ _ _ I I Hn Hn' E) as (En & <- & E1).
  destruct (pf_bytes _ _ _ _ _ _ I I Hs Hs' E1) as (Es & <- & E2).
  destruct (pf_le_int 4 ltac:(lia) _ _ _ _ _ _ I I Hq Hq' E2) as (Eq & <- & E3).
  assert (EO : prevout x = prevout y).
  { rewrite <- (outpoint_eta (prevout x)), <- (outpoint_eta (prevout y)). congruence. }
  unfold lview, written_issuance. rewrite <- Ew in HI' |- *.
  destruct (writes_issuance x).
  - destruct (pf_issuance _ _ _ _ _ _ Ix Iy HI HI' E3) as (Ei & <- & ->). rewrite EO, Es, Eq, Ei. auto.
  - subst iss iss'. cbn [app] in E3. subst r'. rewrite EO, Es, Eq. auto.
Qed.

Lemma lview_seq l1 : forall l2 s1 s2 r1 r2,
  Forall (fun x => wf_issuance (assetIssuance x)) l1 -> Forall (fun x => wf_issuance (assetIssuance x)) l2 ->
  map writes_issuance l1 = map writes_issuance l2 ->
  W_seq (W_txin true) l1 s1 -> W_seq (W_txin true) l2 s2 -> s1 ++ r1 = s2 ++ r2 ->
  map lview l1 = map lview l2 /\ s1 = s2 /\ r1 = r2.
Proof.
  induction l1 as [|x l1 IH]; intros [|y l2] s1 s2 r1 r2 F1 F2 EM H1 H2 E; try discriminate.
  - inversion H1; subst. inversion H2; subst. auto.
  - cbn [map] in EM. injection EM as E0 EM. inversion F1; subst. inversion F2; subst.
    inversion H1; subst. inversion H2; subst. rewrite <- !app_assoc in E.
    destruct (lview_pf x y b b0 (bs ++ r1) (bs0 ++ r2)) as (Ev & <- & E'); try assumption.
    destruct (IH l2 bs bs0 r1 r2) as (EV & <- & <-); try assumption. cbn [map]. rewrite Ev, EV. auto.
Qed.
Lemma lview_vec l1 l2 s1 s2 r1 r2 :
  Forall (fun x => wf_issuance (assetIssuance x)) l1 -> Forall (fun x => wf_issuance (assetIssuance x)) l2 ->
  map writes_issuance l1 = map writes_issuance l2 ->
  W_vec (W_txin true) l1 s1 -> W_vec (W_txin true) l2 s2 -> s1 ++ r1 = s2 ++ r2 ->
  map lview l1 = map lview l2 /\ r1 = r2.
Proof.
  intros F1 F2 EM (n1 & c1 & N1 & C1 & ->) (n2 & c2 & N2 & C2 & ->) E. rewrite <- !app_assoc in E.
  destruct (pf_varint _ _ _ _ _ _ I I N1 N2 E) as (_ & <- & E').
  destruct (lview_seq l1 l2 c1 c2 r1 r2) as (A & _ & B); auto.
Qed.

(** Same number of outputs and same outputs. *)
Lemma txout_seq l1 : forall l2 s1 s2 r1 r2, length l1 = length l2 -> Forall wf_txout l1 -> Forall wf_txout l2 ->
  W_seq W_txout l1 s1 -> W_seq W_txout l2 s2 -> s1 ++ r1 = s2 ++ r2 -> l1 = l2 /\ r1 = r2.
Proof.
  induction l1 as [|x l1 IH]; intros [|y l2] s1 s2 r1 r2 L F1 F2 H1 H2 E; try discriminate.
  - inversion H1; subst. inversion H2; subst. auto.
  - inversion F1; subst. inversion F2; subst. inversion H1; subst. inversion H2; subst. rewrite <- !app_assoc in E.
    destruct (pf_txout x y b b0 (bs ++ r1) (bs0 ++ r2)) as (-> & <- & E'); try assumption.
    destruct (IH l2 bs bs0 r1 r2) as (-> & <-); try assumption; [cbn in L; lia|]. auto.
Qed.
Lemma txout_vec l1 l2 s1 s2 r1 r2 : Forall wf_txout l1 -> Forall wf_txout l2 ->
  W_vec W_txout l1 s1 -> W_vec W_txout l2 s2 -> s1 ++ r1 = s2 ++ r2 -> l1 = l2 /\ r1 = r2.
Proof.
  intros F1 F2 (n1 & c1 & N1 & C1 & ->) (n2 & c2 & N2 & C2 & ->) E. rewrite <- !app_assoc in E.
  destruct (pf_varint _ _ _ _ _ _ I I N1 N2 E) as (L & <- & E').
  eapply txout_seq; try eassumption. lia.
Qed.

Lemma wf_null_out : wf_txout (mkTxOut [] [] [] []).
Proof. repeat split; try constructor. unfold small. cbn. lia. Qed.
Lemma signed_outputs_wf t i ht outs : Forall wf_txout (vout t) -> SignedOutputs t i ht outs -> Forall wf_txout outs.
Proof.
  intros F. unfold SignedOutputs. destruct (sig_none ht); [intros ->; constructor|].
  destruct (sig_single ht); [|intros ->; exact F]. intros (o & E & ->). apply Forall_app. split.
  - apply Forall_forall. intros x Hx. apply repeat_spec in Hx. subst x. apply wf_null_out.
  - constructor; [|constructor]. rewrite Forall_forall in F. apply F. eapply nth_error_In. eassumption.
Qed.
Lemma signed_nth t i ht sc ins j y : acp ht = false -> SignedInputs t i ht sc ins -> nth_error ins j = Some y ->
  exists x, nth_error (vin t) j = Some x /\ y = signed_input sc ht i j x.
Proof.
  unfold SignedInputs. intros -> [L H] E. destruct (nth_error (vin t) j) as [x|] eqn:Ex.
  - rewrite (H j x Ex) in E. injection E as <-. eauto.
  - apply nth_error_None in Ex. assert (j < length ins)%nat by (apply nth_error_Some; congruence). lia.
Qed.
Lemma signed_wf t i ht sc ins : Forall txin_in_range (vin t) -> SignedInputs t i ht sc ins ->
  Forall (fun x => wf_issuance (assetIssuance x)) ins.
Proof.
  intros F S. rewrite Forall_forall in F. unfold SignedInputs in S. destruct (acp ht) eqn:Ea.
  - destruct S as (x & E & ->). constructor; [|constructor]. unfold signed_input. rewrite Nat.eqb_refl.
    cbn [assetIssuance]. apply F. eapply nth_error_In. eassumption.
  - apply Forall_forall. intros y Hy. apply In_nth_error in Hy. destruct Hy as [j Hy].
    destruct (signed_nth t i ht sc ins j y Ea) as (x & E & ->); [unfold SignedInputs; rewrite Ea; exact S|exact Hy|].
    unfold signed_input. destruct (j =? i)%nat; cbn [assetIssuance]; apply F; eapply nth_error_In; eassumption.
Qed.
Lemma signed_input_facts sc ht i j x :
  prevout (signed_input sc ht i j x) = prevout x /\ written_issuance (signed_input sc ht i j x) = written_issuance x
  /\ writes_issuance (signed_input sc ht i j x) = writes_issuance x
  /\ scriptSig (signed_input sc ht i j x) = (if (j =? i)%nat then sc else [])
  /\ nSequence (signed_input sc ht i j x) = (if negb (j =? i)%nat && (sig_none ht || sig_single ht) then 0 else nSequence x).
Proof.
  unfold signed_input. destruct (j =? i)%nat; cbn [negb andb]; repeat split; auto.
Qed.

Lemma map_ext_nth {A B} (f g : A -> B) (l l' : list A) : length l = length l' ->
  (forall j x y, nth_error l j = Some x -> nth_error l' j = Some y -> f x = g y) -> map f l = map g l'.
Proof.
  revert l'. induction l as [|x l IH]; intros [|y l'] L H; try discriminate; [reflexivity|]. cbn [map]. f_equal.
  - exact (H 0%nat x y eq_refl eq_refl).
  - apply IH; [cbn in L; lia|]. intros j. exact (H (S j)).
Qed.
Lemma map_nth_eq {A B} (f : A -> B) (l l' : list A) j x y : map f l = map f l' ->
  nth_error l j = Some x -> nth_error l' j = Some y -> f x = f y.
Proof.
  intros E H1 H2. apply (map_nth_error f) in H1. apply (map_nth_error f) in H2. rewrite E in H1. congruence.
Qed.

Theorem legacy_bind script1 script2 t1 t2 (i1 i2 : nat) ht1 ht2 b :
  signable t1 -> signable t2 ->
  LegacyPreimage script1 t1 i1 ht1 b -> LegacyPreimage script2 t2 i2 ht2 b ->
  (if acp ht1 then option_map writes_issuance (nth_error (vin t1) i1) = option_map writes_issuance (nth_error (vin t2) i2)
   else map writes_issuance (vin t1) = map writes_issuance (vin t2)) ->
  ht1 = ht2 /\ nVersion t1 = nVersion t2 /\ nLockTime t1 = nLockTime t2
  /\ (exists sc, Stripped script1 sc /\ Stripped script2 sc
        /\ (acp ht1 = false -> sc <> [] -> i1 = i2))
  /\ (acp ht1 = false -> map prevout (vin t1) = map prevout (vin t2)
        /\ map written_issuance (vin t1) = map written_issuance (vin t2))
  /\ (acp ht1 || sig_none ht1 || sig_single ht1 = false -> map nSequence (vin t1) = map nSequence (vin t2))
  /\ (acp ht1 = true \/ i1 = i2 ->
        exists x y, nth_error (vin t1) i1 = Some x /\ nth_error (vin t2) i2 = Some y
          /\ prevout x = prevout y /\ nSequence x = nSequence y /\ written_issuance x = written_issuance y)
  /\ (sig_none ht1 || sig_single ht1 = false -> vout t1 = vout t2)
  /\ (sig_single ht1 = true -> i1 = i2 /\ nth_error (vout t1) i1 = nth_error (vout t2) i2).
Proof.
  intros [S1 T1] [S2 T2]
    (sc1 & ins1 & outs1 & ver1 & vi1 & vo1 & lt1 & hty1 & L1 & F1 & SI1 & SO1 & V1 & I1 & O1 & K1 & Y1 & ->)
    (sc2 & ins2 & outs2 & ver2 & vi2 & vo2 & lt2 & hty2 & L2 & F2 & SI2 & SO2 & V2 & I2 & O2 & K2 & Y2 & E) EP.
  (* hash type from the end *)
  assert (EH : ht1 = ht2).
  { apply (f_equal (@rev byte)) in E. rewrite !rev_app_distr in E. rewrite <- !app_assoc in E.
    apply app_inj_len in E; [|rewrite !rev_length, (le_sint32_len _ _ Y1), (le_sint32_len _ _ Y2); reflexivity].
    destruct E as [E _]. apply (f_equal (@rev byte)) in E. rewrite !rev_involutive in E. subst hty2.
    eapply le_sint32_inj; eassumption. }
  subst ht2. split; [reflexivity|].
  apply app_inj_len in E; [|rewrite (le_sint32_len _ _ V1), (le_sint32_len _ _ V2); reflexivity]. destruct E as [<- E].
  split; [eapply le_sint32_inj; eassumption|].
  assert (EW : map writes_issuance ins1 = map writes_issuance ins2).
  { unfold SignedInputs in SI1, SI2. destruct (acp ht1) eqn:Ea.
    - destruct SI1 as (x & X1 & ->), SI2 as (y & X2 & ->). rewrite X1, X2 in EP. cbn [option_map] in EP. injection EP as EP.
      cbn [map]. f_equal.
      destruct (signed_input_facts sc1 ht1 i1 i1 x) as (_ & _ & -> & _).
      destruct (signed_input_facts sc2 ht1 i2 i2 y) as (_ & _ & -> & _). exact EP.
    - destruct SI1 as [N1 H1], SI2 as [N2 H2].
      assert (forall t i sc ins, length ins = length (vin t) ->
         (forall j x, nth_error (vin t) j = Some x -> nth_error ins j = Some (signed_input sc ht1 i j x)) ->
         map writes_issuance ins = map writes_issuance (vin t)) as G.
      { intros t i sc ins N H. apply map_ext_nth; [exact N|]. intros j x y Hx Hy. rewrite (H j y Hy) in Hx. injection Hx as <-.
        apply signed_input_facts. }
      rewrite (G _ _ _ _ N1 H1), (G _ _ _ _ N2 H2). exact EP. }
  destruct (lview_vec ins1 ins2 vi1 vi2 (vo1 ++ lt1 ++ hty1) (vo2 ++ lt2 ++ hty2)) as (EV & E3); try assumption;
    [exact (signed_wf _ _ _ _ _ S1 SI1)|exact (signed_wf _ _ _ _ _ S2 SI2)|]. clear E.
  destruct (txout_vec outs1 outs2 vo1 vo2 (lt1 ++ hty1) (lt2 ++ hty2)) as (EO & E4); try assumption;
    [exact (signed_outputs_wf _ _ _ _ T1 SO1)|exact (signed_outputs_wf _ _ _ _ T2 SO2)|]. clear E3.
  destruct (pf_le_int 4 ltac:(lia) _ _ _ _ _ _ I I K1 K2 E4) as (EK & _ & _). clear E4.
  split; [exact EK|].
  destruct (nth_error (vin t1) i1) as [x1|] eqn:X1; [|apply nth_error_None in X1; lia].
  destruct (nth_error (vin t2) i2) as [x2|] eqn:X2; [|apply nth_error_None in X2; lia].
  (* outputs *)
  assert (EOUT : (sig_none ht1 || sig_single ht1 = false -> vout t1 = vout t2)
     /\ (sig_single ht1 = true -> i1 = i2 /\ nth_error (vout t1) i1 = nth_error (vout t2) i2)).
  { unfold SignedOutputs in SO1, SO2. split.
    - intros Ec. apply orb_false_iff in Ec. destruct Ec as [Ec1 Ec2]. rewrite Ec1, Ec2 in SO1, SO2. congruence.
    - intros Ec. destruct (sig_none ht1) eqn:En; [exfalso; eapply none_single; eassumption|]. rewrite Ec in SO1, SO2.
      destruct SO1 as (o1 & Q1 & R1), SO2 as (o2 & Q2 & R2). rewrite R1, R2 in EO. apply app_inj_tail in EO. destruct EO as [ER ->].
      apply (f_equal (@length txout)) in ER. rewrite !repeat_length in ER. split; [exact ER|congruence]. }
  destruct (acp ht1) eqn:Ea.
  - unfold SignedInputs in SI1, SI2. rewrite Ea in SI1, SI2. destruct SI1 as (y1 & Z1 & ->), SI2 as (y2 & Z2 & ->).
    rewrite X1 in Z1. injection Z1 as <-. rewrite X2 in Z2. injection Z2 as <-.
    apply (fun e => map_nth_eq lview [_] [_] 0%nat _ _ e eq_refl eq_refl) in EV. unfold lview in EV.
    destruct (signed_input_facts sc1 ht1 i1 i1 x1) as (A1 & A2 & _ & A3 & A4).
    destruct (signed_input_facts sc2 ht1 i2 i2 x2) as (B1 & B2 & _ & B3 & B4).
    rewrite A1, A2, A3, A4, B1, B2, B3, B4 in EV. rewrite !Nat.eqb_refl in EV. cbn [negb andb] in EV.
    split. { exists sc1. split; [exact F1|]. split; [|discriminate]. replace sc1 with sc2 by congruence. exact F2. }
    split; [discriminate|]. split; [discriminate|]. split; [|exact EOUT].
    intros _. exists x1, x2. split; [reflexivity|]. split; [reflexivity|].
    repeat split; congruence.
  - assert (NL : length (vin t1) = length (vin t2)) by (apply (f_equal (@length bool)) in EP; rewrite !map_length in EP; exact EP).
    assert (P : forall j x y, nth_error (vin t1) j = Some x -> nth_error (vin t2) j = Some y ->
      lview (signed_input sc1 ht1 i1 j x) = lview (signed_input sc2 ht1 i2 j y)).
    { intros j x y Hx Hy. unfold SignedInputs in SI1, SI2. rewrite Ea in SI1, SI2. destruct SI1 as [_ H1], SI2 as [_ H2].
      eapply map_nth_eq; [exact EV|apply H1; exact Hx|apply H2; exact Hy]. }
    assert (P' : forall j x y, nth_error (vin t1) j = Some x -> nth_error (vin t2) j = Some y ->
      prevout x = prevout y /\ written_issuance x = written_issuance y
      /\ (if (j =? i1)%nat then sc1 else []) = (if (j =? i2)%nat then sc2 else [])
      /\ (if negb (j =? i1)%nat && (sig_none ht1 || sig_single ht1) then 0 else nSequence x)
         = (if negb (j =? i2)%nat && (sig_none ht1 || sig_single ht1) then 0 else nSequence y)).
    { intros j x y Hx Hy. pose proof (P j x y Hx Hy) as Q. unfold lview in Q.
      destruct (signed_input_facts sc1 ht1 i1 j x) as (A1 & A2 & _ & A3 & A4).
      destruct (signed_input_facts sc2 ht1 i2 j y) as (B1 & B2 & _ & B3 & B4).
      rewrite A1, A2, A3, A4, B1, B2, B3, B4 in Q. repeat split; congruence. }
    clear P.
    assert (ES : sc1 = sc2 /\ (sc1 <> [] -> i1 = i2)).
    { destruct (nth_error (vin t2) i1) as [y1|] eqn:Y1'; [|apply nth_error_None in Y1'; lia].
      destruct (nth_error (vin t1) i2) as [y2|] eqn:Y2'; [|apply nth_error_None in Y2'; lia].
      destruct (P' i1 _ _ X1 Y1') as (_ & _ & Q1 & _). destruct (P' i2 _ _ Y2' X2) as (_ & _ & Q2 & _).
      rewrite Nat.eqb_refl in Q1, Q2.
      destruct (Nat.eqb_spec i1 i2) as [D|D], (Nat.eqb_spec i2 i1) as [D'|D']; try congruence;
        split; try congruence; auto. }
    destruct ES as [<- ES].
    split. { exists sc1. split; [exact F1|]. split; [exact F2|]. intros _. exact ES. }
    split. { intros _. split; apply map_ext_nth; auto; intros j x y Hx Hy; apply (P' j x y Hx Hy). }
    split. { intros Ec. cbn [orb] in Ec. apply map_ext_nth; auto. intros j x y Hx Hy. destruct (P' j x y Hx Hy) as (_ & _ & _ & Q).
      rewrite Ec, !andb_false_r in Q. exact Q. }
    split; [|exact EOUT].
    intros [D|D]; [discriminate|]. subst i2. exists x1, x2. destruct (P' i1 x1 x2 X1 X2) as (Q1 & Q2 & _ & Q3).
    rewrite Nat.eqb_refl in Q3. cbn [negb andb] in Q3. auto 10.
Qed.

(** * What the hash depends on *)
Lemma lview_W x y b : lview x = lview y -> W_txin true x b -> W_txin true y b.
Proof.
  unfold lview. intros E (w & n & s & q & iss & HW & HL & Hn & Hs & Hq & HI & ->).
  injection E as E1 E2 E3 E4. unfold written_issuance in E4.
  exists w, n, s, q, iss. rewrite <- E1, <- E2, <- E3.
  split. { unfold wire_index in *. rewrite <- E1. cbn [negb andb] in *. exact HW. }
  do 4 (split; [assumption|]). split; [|reflexivity].
  destruct (writes_issuance x), (writes_issuance y); try discriminate; [injection E4 as <-|]; exact HI.
Qed.
Lemma lview_W_vec l1 l2 b : map lview l1 = map lview l2 -> W_vec (W_txin true) l1 b -> W_vec (W_txin true) l2 b.
Proof.
  intros E (n & s & Hn & Hs & ->). exists n, s.
  assert (L : length l1 = length l2) by (apply (f_equal (@length _)) in E; rewrite !map_length in E; exact E).
  rewrite <- L. split; [exact Hn|]. split; [|reflexivity]. clear Hn L.
  revert l2 E. induction Hs as [|x l c cs Hx Hs IH]; intros [|y l2] E; try discriminate; [constructor|].
  cbn [map] in E. assert (lview x = lview y) by congruence. constructor; [eapply lview_W; eassumption|apply IH; congruence].
Qed.

Lemma signed_inputs_ex t i ht sc : (i < length (vin t))%nat -> exists ins, SignedInputs t i ht sc ins.
Proof.
  intros L. destruct (is_acp ht) eqn:E.
  - destruct (nth_error (model_ins t i ht sc) i) as [o|] eqn:En.
    + exists [o]. apply signed_inputs_iff; [exact L|]. rewrite E. exists o. split; [|reflexivity].
      apply py_nth_ok; [lia|]. rewrite Nat2Z.id. exact En.
    + apply nth_error_None in En. rewrite model_ins_length in En. lia.
  - exists (model_ins t i ht sc). apply signed_inputs_iff; [exact L|]. rewrite E. reflexivity.
Qed.

Theorem legacy_depends script t1 t2 (i1 i2 : nat) ht b x y :
  nVersion t1 = nVersion t2 -> nLockTime t1 = nLockTime t2 ->
  nth_error (vin t1) i1 = Some x -> nth_error (vin t2) i2 = Some y ->
  prevout x = prevout y -> nSequence x = nSequence y -> written_issuance x = written_issuance y ->
  (acp ht = false -> i1 = i2 /\ map prevout (vin t1) = map prevout (vin t2)
                     /\ map written_issuance (vin t1) = map written_issuance (vin t2)) ->
  (acp ht || sig_none ht || sig_single ht = false -> map nSequence (vin t1) = map nSequence (vin t2)) ->
  (sig_none ht || sig_single ht = false -> vout t1 = vout t2) ->
  (sig_single ht = true -> i1 = i2 /\ nth_error (vout t1) i1 = nth_error (vout t2) i2) ->
  LegacyPreimage script t1 i1 ht b -> LegacyPreimage script t2 i2 ht b.
Proof.
  intros EV EL N1 N2 EP ES EI Ha Hs Ho Hsi
    (sc & ins & outs & ver & vi & vo & lt & hty & L1 & F & SI & SO & V1 & W1 & O1 & K1 & Y1 & ->).
  assert (L2 : (i2 < length (vin t2))%nat) by (apply nth_error_Some; congruence).
  destruct (signed_inputs_ex t2 i2 ht sc L2) as [ins2 SI2].
  exists sc, ins2, outs, ver, vi, vo, lt, hty.
  split; [exact L2|]. split; [exact F|]. split; [exact SI2|]. split.
  { unfold SignedOutputs in *. destruct (sig_none ht) eqn:En; [exact SO|]. destruct (sig_single ht) eqn:Es.
    - destruct SO as (o & E & ->). destruct (Hsi eq_refl) as [<- E']. exists o. split; [congruence|reflexivity].
    - rewrite <- Ho by reflexivity. exact SO. }
  rewrite <- EV, <- EL. split; [exact V1|]. split; [|auto].
  eapply lview_W_vec; [|exact W1].
  unfold SignedInputs in SI, SI2. destruct (acp ht) eqn:Ea.
  - destruct SI as (x' & E1 & ->), SI2 as (y' & E2 & ->). rewrite N1 in E1. injection E1 as <-. rewrite N2 in E2. injection E2 as <-.
    cbn [map]. f_equal. unfold lview.
    destruct (signed_input_facts sc ht i1 i1 x) as (A1 & A2 & _ & A3 & A4).
    destruct (signed_input_facts sc ht i2 i2 y) as (B1 & B2 & _ & B3 & B4).
    rewrite A1, A2, A3, A4, B1, B2, B3, B4, !Nat.eqb_refl. cbn [negb andb]. rewrite EP, ES, EI. reflexivity.
  - destruct (Ha eq_refl) as (<- & M1 & M2). destruct SI as [Q1 H1], SI2 as [Q2 H2].
    assert (L : length (vin t1) = length (vin t2)) by (apply (f_equal (@length _)) in M1; rewrite !map_length in M1; exact M1).
    apply map_ext_nth; [congruence|]. intros j u v Hu Hv.
    destruct (nth_error (vin t1) j) as [xj|] eqn:Xj.
    2:{ apply nth_error_None in Xj. assert (j < length ins)%nat by (apply nth_error_Some; congruence). lia. }
    destruct (nth_error (vin t2) j) as [yj|] eqn:Yj; [|apply nth_error_None in Yj; assert (j < length (vin t1))%nat by (apply nth_error_Some; congruence); lia].
    rewrite (H1 j xj Xj) in Hu. rewrite (H2 j yj Yj) in Hv. injection Hu as <-. injection Hv as <-. unfold lview.
    destruct (signed_input_facts sc ht i1 j xj) as (A1 & A2 & _ & A3 & A4).
    destruct (signed_input_facts sc ht i1 j yj) as (B1 & B2 & _ & B3 & B4).
    rewrite A1, A2, A3, A4, B1, B2, B3, B4.
    rewrite (map_nth_eq prevout _ _ j _ _ M1 Xj Yj), (map_nth_eq written_issuance _ _ j _ _ M2 Xj Yj).
    f_equal. f_equal.
    destruct (Nat.eqb_spec j i1) as [->|D]; cbn [negb andb].
    + congruence.
    + destruct (sig_none ht || sig_single ht) eqn:Ec; [reflexivity|].
      eapply map_nth_eq; [apply Hs; cbn [orb]; exact Ec|exact Xj|exact Yj].
Qed.

(** * Availability *)
Definition legacy_index_ok (x : txin) : Prop := op_n (prevout x) = 2 ^ 32 - 1 \/ 0 <= op_n (prevout x) < 2 ^ 30.

Lemma W_txin_sh_ex x : txin_in_range x -> legacy_index_ok x -> exists b, W_txin true x b.
Proof.
  intros (HL & HN & HS & HQ & HI) HP.
  destruct (W_bytes_ex _ HS) as [s Hs]. destruct (le_int_ex 4 (nSequence x)) as [q Hq]; [exact HQ|].
  destruct (le_int_ex 4 (op_n (prevout x))) as [n Hn]; [exact HN|].
  exists (op_hash (prevout x) ++ n ++ s ++ q ++ (if writes_issuance x then ser_issuance (assetIssuance x) else [])).
  exists (op_n (prevout x)), n, s, q. eexists.
  split. { destruct HP as [E|E]; [left; auto|right]. split; [exact E|]. cbn [negb andb]. lia. }
  do 4 (split; [eassumption|]). split; [apply issuance_ser_if; reflexivity|reflexivity].
Qed.

Lemma stripped_len s s' : Stripped s s' -> blen s' <= blen s.
Proof. induction 1; rewrite ?blen_app, ?blen_cons in *; lia. Qed.

(** When the inputs written are representable a signature hash exists. *)
Theorem legacy_available script t (i : nat) ht sc : signable t -> small script -> Stripped script sc ->
  - 2 ^ 31 <= nVersion t < 2 ^ 31 -> 0 <= nLockTime t < 2 ^ 32 -> - 2 ^ 31 <= ht < 2 ^ 31 ->
  Z.of_nat (length (vin t)) < 2 ^ 64 -> Z.of_nat (length (vout t)) < 2 ^ 64 ->
  (i < length (vin t))%nat -> (sig_single ht = true -> (i < length (vout t))%nat) ->
  Forall legacy_index_ok (vin t) ->
  exists b, LegacyPreimage script t i ht b.
Proof.
  intros [S T] Hsc F HV HK HY HLi HLo Li Lo FI.
  destruct (signed_inputs_ex t i ht sc Li) as [ins SI].
  assert (Hs2 : small sc) by (unfold small in *; pose proof (stripped_len _ _ F); lia).
  assert (GI : forall j x, nth_error (vin t) j = Some x -> txin_in_range (signed_input sc ht i j x) /\ legacy_index_ok (signed_input sc ht i j x)).
  { intros j x E. apply nth_error_In in E. rewrite Forall_forall in S, FI. pose proof (S x E) as (A1 & A2 & A3 & A4 & A5). pose proof (FI x E) as B.
    unfold signed_input. destruct (j =? i)%nat; (split; [|exact B]); unfold txin_in_range; cbn [prevout scriptSig nSequence assetIssuance is_pegin].
    - auto.
    - repeat (split; [assumption|]). split; [|split; [|assumption]].
      + unfold small. cbn. lia.
      + destruct (_ || _); lia. }
  assert (FW : Forall (fun x => txin_in_range x /\ legacy_index_ok x) ins /\ Z.of_nat (length ins) < 2 ^ 64).
  { unfold SignedInputs in SI. destruct (acp ht) eqn:Ea.
    - destruct SI as (x & E & ->). split; [|cbn; lia]. constructor; [|constructor]. apply GI. exact E.
    - split; [|destruct SI as [-> _]; exact HLi]. apply Forall_forall. intros u Hu. apply In_nth_error in Hu. destruct Hu as [j Hu].
      destruct (signed_nth t i ht sc ins j u Ea) as (x & E & ->); [unfold SignedInputs; rewrite Ea; exact SI|exact Hu|]. apply GI. exact E. }
  destruct FW as [FW LW].
  destruct (W_vec_ex (W_txin true) _ ins (fun x H => W_txin_sh_ex x (proj1 H) (proj2 H)) FW LW) as [vi Hvi].
  assert (SOx : exists outs, SignedOutputs t i ht outs /\ Z.of_nat (length outs) < 2 ^ 64).
  { unfold SignedOutputs. destruct (sig_none ht); [exists []; split; [reflexivity|cbn; lia]|]. destruct (sig_single ht).
    - specialize (Lo eq_refl). destruct (nth_error (vout t) i) as [o|] eqn:E; [|apply nth_error_None in E; lia].
      eexists. split; [eauto|]. rewrite app_length, repeat_length. cbn [length]. lia.
    - eauto. }
  destruct SOx as (outs & SO & LO).
  destruct (W_vec_ex W_txout wf_txout outs W_txout_ex (signed_outputs_wf _ _ _ _ T SO) LO) as [vo Hvo].
  destruct (le_sint32_ex _ HV) as [ver Hver]. destruct (le_sint32_ex _ HY) as [hty Hhty].
  destruct (le_int_ex 4 (nLockTime t)) as [lt Hlt]; [exact HK|].
  eexists. exists sc, ins, outs, ver, vi, vo, lt, hty. repeat (split; [eassumption|]). reflexivity.
Qed.
