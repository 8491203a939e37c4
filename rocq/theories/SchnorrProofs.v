(** Proofs about the Schnorr signature hash. *)
From Verif Require Import Base BaseFacts Serialize ParserFacts TxModel SpecWire TxProofs TxProofs2
  SighashModel SpecSighash SighashProofs FramingFacts.
Local Open Scope Z_scope.

Lemma input_acp_spec h : input_acp h = acp h.
Proof. apply (land_pow2_testbit h 7). lia. Qed.

Lemma output_type_spec h : 0 <= h < 256 -> output_type h = h mod 128.
Proof.
  intros Hh. unfold output_type, SIGHASH_ANYONECANPAY.
  change (Z.lnot 128) with (Z.lnot (2 ^ 7)).
  apply Z.bits_inj'. intros n Hn. rewrite Z.land_spec, Z.lnot_spec by assumption.
  change 128 with (2 ^ 7). rewrite Z.pow2_bits_eqb by lia.
  destruct (Z.eqb_spec 7 n) as [<-|Hne]; cbn [negb].
  - rewrite andb_false_r. symmetry. apply Z.mod_pow2_bits_high. lia.
  - rewrite andb_true_r. destruct (Z.ltb_spec n 7).
    + rewrite Z.mod_pow2_bits_low by lia. reflexivity.
    + rewrite Z.mod_pow2_bits_high by lia. replace h with (h mod 2 ^ 8) by (apply Z.mod_small; lia).
      apply Z.mod_pow2_bits_high. lia.
Qed.

Lemma flag_iff i b : b = outpoint_flag i <-> W_flag i b.
Proof.
  unfold outpoint_flag, W_flag. rewrite issuance_is_null_has, negb_involutive. cbv zeta.
  rewrite le_int_1.
  assert (E : zb (Z.shiftr (if is_pegin i then Z.lor (if has_issuance i then Z.lor 0 OUTPOINT_ISSUANCE_FLAG else 0) OUTPOINT_PEGIN_FLAG
                            else if has_issuance i then Z.lor 0 OUTPOINT_ISSUANCE_FLAG else 0) 24)
              = zb ((if has_issuance i then 128 else 0) + (if is_pegin i then 64 else 0))).
  { destruct (has_issuance i), (is_pegin i); reflexivity. }
  rewrite E. split; [intros ->; split; [|reflexivity]|intros [_ ->]; reflexivity].
  destruct (has_issuance i), (is_pegin i); lia.
Qed.

Lemma concat_map_iff {A} (f : A -> bytes) (W : A -> bytes -> Prop) l :
  (forall x b, b = f x <-> W x b) -> forall s, s = concat (map f l) <-> W_seq W l s.
Proof.
  intros Hf. induction l as [|x l IH]; intros s; cbn [map concat].
  - split; [intros ->; constructor|]. intros H; inversion H; reflexivity.
  - split.
    + intros ->. constructor; [apply Hf; reflexivity|apply IH; reflexivity].
    + intros H; inversion H; subst. f_equal; [apply Hf; assumption|apply IH; assumption].
Qed.

Lemma spent_amounts_iff sp s : s = spent_amounts sp <-> W_seq W_spent_amount sp s.
Proof.
  apply concat_map_iff. intros o b. unfold W_spent_amount. split.
  - intros ->. exists (ser_conf (nAsset o)), (ser_conf (nValue o)). rewrite !W_conf_ser. auto.
  - intros (a & v & Ha & Hv & ->). apply W_conf_ser in Ha. apply W_conf_ser in Hv. congruence.
Qed.

Lemma spent_scripts_iff sp s : spent_scripts sp = Ok s <-> W_seq (fun o => W_bytes (scriptPubKey o)) sp s.
Proof. apply ser_list_iff. intros. apply ser_bytes_iff. Qed.

Lemma rangeproofs_iff w b : rangeproofs_ser w = Ok b <-> W_issproofs w b.
Proof.
  unfold rangeproofs_ser, W_issproofs. rewrite rbind_Ok. split.
  - intros (p & H1 & H2). apply rbind_Ok in H2. destruct H2 as (k & H2 & H3). apply Ok_inj in H3.
    apply ser_bytes_iff in H1. apply ser_bytes_iff in H2. exists p, k. auto.
  - intros (p & k & H1 & H2 & ->). apply ser_bytes_iff in H1. apply ser_bytes_iff in H2.
    exists p. split; [assumption|]. rewrite H2. reflexivity.
Qed.

Lemma pair5_inj {A B C D E} (a a' : A) (b b' : B) (c c' : C) (d d' : D) (e e' : E) :
  (a, b, c, d, e) = (a', b', c', d', e') -> a = a' /\ b = b' /\ c = c' /\ d = d' /\ e = e'.
Proof. intros H; inversion H; auto. Qed.

Lemma schnorr_inputs_iff vi : forall wi fl ps qs is rs,
  schnorr_inputs vi wi = Ok (fl, ps, qs, is, rs) <->
  exists ws, first_wits (length vi) wi ws /\ W_seq W_flag vi fl /\ W_seq (fun x => W_outpoint (prevout x)) vi ps
    /\ W_seq (fun x => le_int 4 (nSequence x)) vi qs /\ W_seq W_issuance0 vi is /\ W_seq W_issproofs ws rs.
Proof.
  induction vi as [|i vi IH]; intros wi fl ps qs is rs; cbn [schnorr_inputs].
  - split.
    + intros H. apply Ok_inj in H. inversion H; subst. exists []. repeat split; try constructor.
      exists wi; reflexivity.
    + intros (ws & [HL _] & H1 & H2 & H3 & H4 & H5). destruct ws; [|discriminate].
      inversion H1; inversion H2; inversion H3; inversion H4; inversion H5; subst. reflexivity.
  - split.
    + intros H. apply rbind_Ok in H. destruct H as (p & E1 & H). apply rbind_Ok in H. destruct H as (q & E2 & H).
      destruct wi as [|w wi]; [discriminate|].
      apply rbind_Ok in H. destruct H as (r & E3 & H).
      apply rbind_Ok in H. destruct H as ([[[[fl' ps'] qs'] is'] rs'] & E4 & H).
      apply IH in E4. destruct E4 as (ws & [HL [rest HW]] & H1 & H2 & H3 & H4 & H5).
      apply Ok_inj in H. apply pair5_inj in H. destruct H as (<- & <- & <- & <- & <-). subst wi. exists (w :: ws).
      split; [split; [cbn; congruence|exists rest; reflexivity]|].
      split; [constructor; [apply flag_iff; reflexivity|assumption]|].
      split; [constructor; [apply W_outpoint_iff; assumption|assumption]|].
      split; [constructor; [apply pack_le_iff; assumption|assumption]|].
      split; [constructor; [apply iss_or_zero_iff; reflexivity|assumption]|].
      constructor; [apply rangeproofs_iff; assumption|assumption].
    + intros (ws & [HL [rest HW]] & H1 & H2 & H3 & H4 & H5). destruct ws as [|w ws]; [discriminate|].
      inversion H1; inversion H2; inversion H3; inversion H4; inversion H5; subst.
      repeat match goal with
      | H : W_outpoint _ _ |- _ => apply W_outpoint_iff in H; rewrite H; clear H; cbn [rbind]
      | H : le_int 4 _ _ |- _ => apply pack_le_iff in H; rewrite H; clear H; cbn [rbind]
      end. cbn [app].
      match goal with H : W_issproofs _ _ |- _ => apply rangeproofs_iff in H; rewrite H; clear H; cbn [rbind] end.
      rewrite (proj2 (IH (ws ++ rest) bs bs0 bs1 bs2 bs3)).
      2: { exists ws. split; [split; [cbn in HL; congruence|exists rest; reflexivity]|]. auto. }
      cbn [rbind].
      match goal with H : W_flag i _ |- _ => apply flag_iff in H; subst end.
      match goal with H : W_issuance0 i _ |- _ => apply iss_or_zero_iff in H; subst end. reflexivity.
Qed.

Lemma schnorr_outputs_iff vo : forall wo os xs,
  schnorr_outputs vo wo = Ok (os, xs) <->
  exists ws, first_wits (length vo) wo ws /\ W_seq W_txout vo os /\ W_seq W_outwit ws xs.
Proof.
  induction vo as [|o vo IH]; intros wo os xs; cbn [schnorr_outputs].
  - split.
    + intros H. apply Ok_pair_inj in H. destruct H as [<- <-]. exists []. repeat split; try constructor.
      exists wo; reflexivity.
    + intros (ws & [HL _] & H1 & H2). destruct ws; [|discriminate]. inversion H1; inversion H2; subst. reflexivity.
  - split.
    + intros H. apply rbind_Ok in H. destruct H as (s & E1 & H).
      destruct wo as [|w wo]; [discriminate|].
      apply rbind_Ok in H. destruct H as (x & E2 & H).
      apply rbind_Ok in H. destruct H as ([ss xs'] & E3 & H).
      apply IH in E3. destruct E3 as (ws & [HL [rest HW]] & H1 & H2).
      apply Ok_pair_inj in H. destruct H as [<- <-]. subst wo. exists (w :: ws).
      split; [split; [cbn; congruence|exists rest; reflexivity]|].
      split; constructor; auto; [apply ser_txout_iff|apply ser_outwit_iff]; assumption.
    + intros (ws & [HL [rest HW]] & H1 & H2). destruct ws as [|w ws]; [discriminate|].
      inversion H1; inversion H2; subst.
      match goal with H : W_txout _ _ |- _ => apply ser_txout_iff in H; rewrite H; clear H; cbn [rbind] end.
      cbn [app].
      match goal with H : W_outwit _ _ |- _ => apply ser_outwit_iff in H; rewrite H; clear H; cbn [rbind] end.
      rewrite (proj2 (IH (ws ++ rest) bs bs0)); [reflexivity|].
      exists ws. split; [split; [cbn in HL; congruence|exists rest; reflexivity]|]. auto.
Qed.

(** * The message *)
Inductive LeafArgs : sigversion -> option bytes -> option Z -> option (bytes * Z) -> Prop :=
| LA_key tl cs : (forall h, tl = Some h -> blen h = 32) -> LeafArgs SIGVERSION_TAPROOT tl cs None
| LA_script h c : blen h = 32 -> LeafArgs SIGVERSION_TAPSCRIPT (Some h) (Some c) (Some (h, c)).

Lemma byte_of_iff h b : byte_of h = Ok b <-> le_int 1 h b.
Proof.
  unfold byte_of. rewrite le_int_1.
  destruct (Z.leb_spec 0 h), (Z.ltb_spec h 256); cbn [andb]; split; try discriminate; try lia.
  - intros E. apply Ok_inj in E. auto.
  - intros [_ ->]. reflexivity.
Qed.

Lemma check32_iff o : check32 o = Ok tt <-> forall h, o = Some h -> blen h = 32.
Proof.
  unfold check32. destruct o as [h|]; [|split; [intros _ ? ?; discriminate|reflexivity]].
  unfold rassert. destruct (Z.eqb_spec (blen h) 32); split; try discriminate; try reflexivity.
  - intros _ ? [= <-]. assumption.
  - intros HH. specialize (HH h eq_refl). contradiction.
Qed.

Lemma tap_f3_iff (H : bytes -> bytes) t spent ac b :
  (if negb ac then
     let! scripts := spent_scripts spent in
     let! r := schnorr_inputs (vin t) (vtxinwit (wit t)) in
     let '(fl, ps, qs, is, rs) := r in
     Ok (H fl ++ H ps ++ H (spent_amounts spent) ++ H scripts ++ H qs ++ H is ++ H rs)
   else Ok []) = Ok b <-> if ac then b = [] else TapInputs H t spent b.
Proof.
  destruct ac; cbn [negb]; [split; congruence|]. split.
  - intros E. apply rbind_Ok in E. destruct E as (sc & E1 & E). apply rbind_Ok in E.
    destruct E as ([[[[fl ps] qs] is] rs] & E2 & E). apply Ok_inj in E. symmetry in E.
    apply spent_scripts_iff in E1. apply schnorr_inputs_iff in E2.
    destruct E2 as (ws & F & W1 & W2 & W3 & W4 & W5).
    exists ws, (H fl), (H ps), (H (spent_amounts spent)), (H sc), (H qs), (H is), (H rs).
    split; [assumption|]. split; [exists fl; auto|]. split; [exists ps; auto|].
    split; [exists (spent_amounts spent); split; [apply spent_amounts_iff|]; reflexivity|].
    split; [exists sc; auto|]. split; [exists qs; auto|]. split; [exists is; auto|]. split; [exists rs; auto|assumption].
  - intros (ws & fl & ps & sa & ss & sq & si & rp & F & (s1 & W1 & ->) & (s2 & W2 & ->) & (s3 & W3 & ->) & (s4 & W4 & ->)
      & (s5 & W5 & ->) & (s6 & W6 & ->) & (s7 & W7 & ->) & ->).
    apply spent_scripts_iff in W4. rewrite W4. cbn [rbind].
    rewrite (proj2 (schnorr_inputs_iff (vin t) (vtxinwit (wit t)) s1 s2 s5 s6 s7)) by (exists ws; auto 10).
    cbn [rbind]. apply spent_amounts_iff in W3. subst s3. reflexivity.
Qed.

Lemma tap_f4_iff (H : bytes -> bytes) t al b :
  (if al : bool then
     let! r := schnorr_outputs (vout t) (vtxoutwit (wit t)) in
     let '(os, ws) := r in Ok (H os ++ H ws)
   else Ok []) = Ok b <-> if al then TapOutputs H t b else b = [].
Proof.
  destruct al; [|split; congruence]. split.
  - intros E. apply rbind_Ok in E. destruct E as ([os xs] & E1 & E). apply Ok_inj in E. symmetry in E.
    apply schnorr_outputs_iff in E1. destruct E1 as (ws & F & W1 & W2).
    exists ws, (H os), (H xs). split; [assumption|]. split; [exists os; auto|]. split; [exists xs; auto|assumption].
  - intros (ws & os & pf & F & (s1 & W1 & ->) & (s2 & W2 & ->) & ->).
    rewrite (proj2 (schnorr_outputs_iff (vout t) (vtxoutwit (wit t)) s1 s2)) by (exists ws; auto). reflexivity.
Qed.

Lemma tap_f5_iff (H : bytes -> bytes) t inIdx spent ac b inp sp : 0 <= inIdx ->
  nth_error (vin t) (Z.to_nat inIdx) = Some inp -> nth_error spent (Z.to_nat inIdx) = Some sp ->
  (if ac : bool then
     let! inp := py_nth (vin t) inIdx in
     let! p := ser_outpoint (prevout inp) in
     let! sp := py_nth spent inIdx in
     let! q := pack_le 4 (nSequence inp) in
     let! tail :=
       (if issuance_is_null (assetIssuance inp) then Ok [x00]
        else let! w := py_nth (vtxinwit (wit t)) inIdx in
             Ok (ser_issuance (assetIssuance inp) ++ H (iw_issproof w ++ iw_keysproof w))) in
     Ok (outpoint_flag inp ++ p ++ ser_conf (nAsset sp) ++ ser_conf (nValue sp) ++ scriptPubKey sp ++ q ++ tail)
   else pack_le 4 inIdx) = Ok b <->
  if ac then TapOwn H t (Z.to_nat inIdx) inp sp b else le_int 4 (Z.of_nat (Z.to_nat inIdx)) b.
Proof.
  intros Hi N1 N2. destruct ac; [|rewrite Z2Nat.id by assumption; apply pack_le_iff].
  rewrite (proj2 (py_nth_ok (vin t) _ _ Hi) N1). cbn [rbind].
  assert (T : forall tail, (if issuance_is_null (assetIssuance inp) then Ok [x00]
        else let! w := py_nth (vtxinwit (wit t)) inIdx in
             Ok (ser_issuance (assetIssuance inp) ++ H (iw_issproof w ++ iw_keysproof w))) = Ok tail <->
      (if has_issuance inp then
          exists w iss, nth_error (vtxinwit (wit t)) (Z.to_nat inIdx) = Some w /\ W_issuance (assetIssuance inp) iss
            /\ tail = iss ++ H (iw_issproof w ++ iw_keysproof w)
        else tail = [x00])).
  { intros tail. rewrite issuance_is_null_has. destruct (has_issuance inp); cbn [negb]; [|split; congruence].
    split.
    - intros E. apply rbind_Ok in E. destruct E as (w & E1 & E). apply Ok_inj in E. symmetry in E.
      apply py_nth_ok in E1; [|assumption]. exists w, (ser_issuance (assetIssuance inp)).
      split; [assumption|]. split; [apply W_issuance_ser; reflexivity|assumption].
    - intros (w & iss & E1 & E2 & ->). apply py_nth_ok in E1; [|assumption]. rewrite E1. cbn [rbind].
      apply W_issuance_ser in E2. subst. reflexivity. }
  split.
  - intros E. apply rbind_Ok in E. destruct E as (p & E1 & E).
    rewrite (proj2 (py_nth_ok spent _ _ Hi) N2) in E. cbn [rbind] in E.
    apply rbind_Ok in E. destruct E as (q & E2 & E). apply rbind_Ok in E. destruct E as (tl & E3 & E).
    apply Ok_inj in E. symmetry in E. apply W_outpoint_iff in E1. apply pack_le_iff in E2. apply T in E3.
    exists (outpoint_flag inp), p, (ser_conf (nAsset sp)), (ser_conf (nValue sp)), q, tl.
    split; [apply flag_iff; reflexivity|]. split; [assumption|]. split; [apply W_conf_ser; reflexivity|].
    split; [apply W_conf_ser; reflexivity|]. auto.
  - intros (fl & op & a & v & q & tl & F & E1 & A & V & E2 & E3 & ->).
    apply W_outpoint_iff in E1. rewrite E1. cbn [rbind].
    rewrite (proj2 (py_nth_ok spent _ _ Hi) N2). cbn [rbind].
    apply pack_le_iff in E2. rewrite E2. cbn [rbind]. apply T in E3. rewrite E3. cbn [rbind].
    apply W_conf_ser in A. apply W_conf_ser in V. apply flag_iff in F. subst. reflexivity.
Qed.

Lemma tap_f7_iff (H : bytes -> bytes) t inIdx sg b : 0 <= inIdx ->
  (if sg : bool then
     let! _ := rassert (negb (Z.of_nat (length (vout t)) <? inIdx)) EValue in
     let! o := py_nth (vout t) inIdx in
     let! s := ser_txout o in
     let! w := py_nth (vtxoutwit (wit t)) inIdx in
     let! x := ser_outwit w in
     Ok (H s ++ H x)
   else Ok []) = Ok b <-> if sg then TapSingle H t (Z.to_nat inIdx) b else b = [].
Proof.
  intros Hi. destruct sg; [|split; congruence]. split.
  - intros E. apply rbind_Ok in E. destruct E as (_ & _ & E). apply rbind_Ok in E. destruct E as (o & E1 & E).
    apply rbind_Ok in E. destruct E as (s & E2 & E). apply rbind_Ok in E. destruct E as (w & E3 & E).
    apply rbind_Ok in E. destruct E as (x & E4 & E). apply Ok_inj in E. symmetry in E.
    apply py_nth_ok in E1; [|assumption]. apply py_nth_ok in E3; [|assumption].
    apply ser_txout_iff in E2. apply ser_outwit_iff in E4. exists o, w, s, x. auto.
  - intros (o & w & s & x & E1 & E3 & E2 & E4 & ->).
    assert (Hl : (Z.to_nat inIdx < length (vout t))%nat) by (apply nth_error_Some; congruence).
    destruct (Z.ltb_spec (Z.of_nat (length (vout t))) inIdx); [lia|]. cbn [negb rassert rbind].
    apply py_nth_ok in E1; [|assumption]. rewrite E1. cbn [rbind].
    apply ser_txout_iff in E2. rewrite E2. cbn [rbind].
    apply py_nth_ok in E3; [|assumption]. rewrite E3. cbn [rbind].
    apply ser_outwit_iff in E4. rewrite E4. reflexivity.
Qed.

Lemma tap_f8_iff sv tl cs leaf b : LeafArgs sv tl cs leaf ->
  match sv with
  | SIGVERSION_TAPSCRIPT =>
      let! tl := match tl with Some h => Ok h | None => Raise EValue end in
      let! cs := match cs with Some c => Ok c | None => Raise EValue end in
      let! c := pack_le_signed 4 cs in
      Ok (tl ++ [zb 0] ++ c)
  | _ => Ok []
  end = Ok b <->
  match leaf with
  | Some (h, cs) => exists c, blen h = 32 /\ le_sint32 cs c /\ b = h ++ [x00] ++ c
  | None => b = []
  end.
Proof.
  intros [tl' cs' _|h c Hh]; [split; congruence|]. cbn [rbind]. split.
  - intros E. apply rbind_Ok in E. destruct E as (x & E1 & E). apply Ok_inj in E. symmetry in E.
    apply pack_sint32_iff in E1. exists x. auto.
  - intros (x & _ & E & ->). apply pack_sint32_iff in E. rewrite E. reflexivity.
Qed.

Theorem tap_message_iff sha tap t inIdx spent ht sv tl cs ann gen h : 0 <= inIdx ->
  valid_tap_ht ht ->
  sighash_schnorr_raw sha tap t inIdx spent ht sv tl cs ann gen = Ok h <->
  exists leaf b, LeafArgs sv tl cs leaf /\ blen gen = 32
    /\ TapMessage sha t (Z.to_nat inIdx) spent ht leaf ann b /\ h = tap ((gen ++ gen) ++ b).
Proof.
  intros Hi Hht.
  assert (Hr : 0 <= match ht with None => SIGHASH_ALL | Some h => h end < 256).
  { destruct ht; cbn [valid_tap_ht In] in Hht; unfold SIGHASH_ALL; lia. }
  assert (EA : (output_type match ht with None => SIGHASH_ALL | Some h => h end =? SIGHASH_ALL) = tap_all ht)
    by (rewrite output_type_spec by assumption; reflexivity).
  assert (ES : (output_type match ht with None => SIGHASH_ALL | Some h => h end =? SIGHASH_SINGLE) = tap_single ht)
    by (rewrite output_type_spec by assumption; reflexivity).
  assert (EP : input_acp match ht with None => SIGHASH_ALL | Some h => h end = tap_acp ht)
    by (rewrite input_acp_spec; reflexivity).
  assert (HB : forall hb, match ht with None => Ok [x00] | Some h => byte_of h end = Ok hb <->
                 le_int 1 (match ht with None => 0 | Some h => h end) hb).
  { intros hb. destruct ht; [apply byte_of_iff|]. rewrite le_int_1. split; [intros E; apply Ok_inj in E; subst; split; [lia|reflexivity]|].
    intros [_ ->]. reflexivity. }
  unfold sighash_schnorr_raw. cbv zeta. rewrite EA, ES, EP. split.
  - intros E. apply rbind_Ok in E. destruct E as (_ & _ & E).
    apply rbind_Ok in E. destruct E as ([] & B2 & E). apply rassert_Ok in B2.
    apply rbind_Ok in E. destruct E as ([] & B3 & E). apply rbind_Ok in E. destruct E as ([] & B4 & E).
    apply rbind_Ok in E. destruct E as ([] & B5 & E). apply rassert_Ok in B5.
    apply rbind_Ok in E. destruct E as (ef & B6 & E).
    apply rbind_Ok in E. destruct E as ([] & B7 & E). apply rassert_Ok in B7. apply Nat.eqb_eq in B7.
    apply rbind_Ok in E. destruct E as (hb & B8 & E). apply HB in B8.
    apply rbind_Ok in E. destruct E as (f1 & B9 & E). apply pack_sint32_iff in B9.
    apply rbind_Ok in E. destruct E as (f2 & B10 & E). apply pack_le_iff in B10.
    apply rbind_Ok in E. destruct E as (f3 & B11 & E). apply tap_f3_iff in B11.
    apply rbind_Ok in E. destruct E as (f4 & B12 & E). apply tap_f4_iff in B12.
    apply rbind_Ok in E. destruct E as (f5 & B13 & E).
    apply rbind_Ok in E. destruct E as (f6 & B14 & E).
    apply rbind_Ok in E. destruct E as (f7 & B15 & E). apply tap_f7_iff in B15; [|assumption].
    apply rbind_Ok in E. destruct E as (f8 & B16 & E). apply Ok_inj in E. symmetry in E.
    assert (Hl : (Z.to_nat inIdx < length (vin t))%nat) by lia.
    destruct (nth_error (vin t) (Z.to_nat inIdx)) as [inp|] eqn:N1; [|apply nth_error_None in N1; lia].
    destruct (nth_error spent (Z.to_nat inIdx)) as [sp|] eqn:N2; [|apply nth_error_None in N2; lia].
    apply (tap_f5_iff sha t inIdx spent (tap_acp ht) f5 inp sp Hi N1 N2) in B13.
    pose proof (proj1 (check32_iff _) B3) as C3. pose proof (proj1 (check32_iff _) B4) as C4.
    assert (HLf : exists leaf, LeafArgs sv tl cs leaf).
    { destruct sv; try discriminate B6; [exists None; constructor; assumption|].
      apply rbind_Ok in B16. destruct B16 as (h' & T1 & B16). destruct tl as [tl'|]; [|discriminate].
      apply rbind_Ok in B16. destruct B16 as (c' & T2 & B16). destruct cs as [cs'|]; [|discriminate].
      exists (Some (tl', cs')). constructor. apply C3. reflexivity. }
    destruct HLf as [leaf HLf]. apply (tap_f8_iff _ _ _ _ f8 HLf) in B16.
    exists leaf, (hb ++ f1 ++ f2 ++ f3 ++ f4 ++ [zb (Z.shiftl ef 1 + match ann with Some _ => 1 | None => 0 end)] ++ f5 ++ f6 ++ f7 ++ f8).
    split; [assumption|]. split; [lia|]. split; [|rewrite E; reflexivity].
    exists inp, sp, hb, f1, f2, f3, f4, [zb (Z.shiftl ef 1 + match ann with Some _ => 1 | None => 0 end)], f5, f6, f7, f8.
    split; [assumption|]. split; [assumption|]. split; [assumption|]. split; [assumption|].
    split; [assumption|]. split; [assumption|]. split; [assumption|]. split; [assumption|].
    split. { rewrite le_int_1. destruct HLf; apply Ok_inj in B6; subst ef; destruct ann; cbn; split; try lia; reflexivity. }
    split; [assumption|].
    split. { destruct ann as [a|]; [|apply Ok_inj in B14; congruence]. apply ser_bytes_iff in B14. split; [apply C4; reflexivity|assumption]. }
    split; [assumption|]. split; [assumption|reflexivity].
  - intros (leaf & b & HLf & HG & (inp & sp & hb & f1 & f2 & f3 & f4 & st & f5 & f6 & f7 & f8 & N1 & N2 & HL & B8 & B9 & B10 & B11 & B12 & BS & B13 & B14 & B15 & B16 & ->) & ->).
    assert (Hl : (Z.to_nat inIdx < length (vin t))%nat) by (apply nth_error_Some; congruence).
    destruct (Z.leb_spec 0 inIdx); [|lia]. destruct (Z.ltb_spec inIdx (Z.of_nat (length (vin t)))); [|lia].
    cbn [rassert rbind].
    assert (C3 : check32 tl = Ok tt).
    { apply check32_iff. destruct HLf as [tl cs Hk|hh c Hh]; [exact Hk|]. intros ? [= <-]. exact Hh. }
    assert (C4 : check32 ann = Ok tt).
    { apply check32_iff. intros a ->. apply B14. }
    rewrite C3, C4, HG, Z.eqb_refl. cbn [rbind rassert].
    rewrite (proj2 (Nat.eqb_eq _ _) HL).
    apply HB in B8. apply pack_sint32_iff in B9. apply pack_le_iff in B10.
    apply tap_f3_iff in B11. apply tap_f4_iff in B12.
    apply (tap_f5_iff sha t inIdx spent (tap_acp ht) f5 inp sp Hi N1 N2) in B13.
    apply tap_f7_iff in B15; [|assumption]. apply (tap_f8_iff _ _ _ _ f8 HLf) in B16.
    assert (B14' : match ann with Some a => ser_bytes a | None => Ok [] end = Ok f6).
    { destruct ann as [a|]; [apply ser_bytes_iff, B14|rewrite B14; reflexivity]. }
    rewrite le_int_1 in BS. destruct BS as [_ ->].
    assert (exists ef, match sv with SIGVERSION_TAPROOT => Ok 0 | SIGVERSION_TAPSCRIPT => Ok 1 | _ => Raise EValue end = Ok ef
            /\ zb (Z.shiftl ef 1 + match ann with Some _ => 1 | None => 0 end) = zb ((if leaf then 2 else 0) + (if ann then 1 else 0))) as (ef & E1 & E2).
    { destruct HLf; [exists 0|exists 1]; split; try reflexivity; destruct ann; reflexivity. }
    rewrite E1. cbn [rbind rassert]. rewrite B8. cbn [rbind]. rewrite B9. cbn [rbind]. rewrite B10. cbn [rbind].
    rewrite B11. cbn [rbind]. rewrite B12. cbn [rbind]. rewrite B13. cbn [rbind]. rewrite B14'. cbn [rbind].
    rewrite B15. cbn [rbind]. rewrite B16. cbn [rbind]. rewrite E2. reflexivity.
Qed.
