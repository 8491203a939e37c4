(** The Schnorr signature hash: which arguments are accepted, and what it does not read. *)
From Verif Require Import Base BaseFacts Serialize ParserFacts TxModel SpecWire TxProofs TxProofs2
  SighashModel SpecSighash SighashProofs FramingFacts SchnorrProofs.
Local Open Scope Z_scope.

(** * Non-coverage *)
Definition proofs_of (w : inwit) : bytes * bytes := (iw_issproof w, iw_keysproof w).

Lemma outpoint_flag_of x y : is_pegin x = is_pegin y -> issuance_of x = issuance_of y -> outpoint_flag x = outpoint_flag y.
Proof.
  unfold issuance_of, outpoint_flag. rewrite !issuance_is_null_has. intros ->.
  destruct (has_issuance x), (has_issuance y); intros; try discriminate; reflexivity.
Qed.

Lemma rangeproofs_of w w' : proofs_of w = proofs_of w' -> rangeproofs_ser w = rangeproofs_ser w'.
Proof. unfold proofs_of, rangeproofs_ser. intros E. injection E as -> ->. reflexivity. Qed.

Lemma schnorr_inputs_depends v1 : forall v2 w1 w2,
  map is_pegin v1 = map is_pegin v2 -> map prevout v1 = map prevout v2 ->
  map nSequence v1 = map nSequence v2 -> map issuance_of v1 = map issuance_of v2 ->
  map proofs_of w1 = map proofs_of w2 -> schnorr_inputs v1 w1 = schnorr_inputs v2 w2.
Proof.
  induction v1 as [|x v1 IH]; intros [|y v2] w1 w2 E1 E2 E3 E4 E5; try discriminate; [reflexivity|].
  cbn [map] in *. injection E1 as E1 F1. injection E2 as E2 F2. injection E3 as E3 F3. injection E4 as E4 F4.
  cbn [schnorr_inputs]. rewrite E2, E3, (outpoint_flag_of x y E1 E4), (iss_or_zero_of _ _ E4).
  destruct w1 as [|u w1], w2 as [|v w2]; try discriminate; [reflexivity|].
  cbn [map] in E5. assert (E6 : proofs_of u = proofs_of v) by congruence. assert (E7 : map proofs_of w1 = map proofs_of w2) by congruence.
  rewrite (rangeproofs_of _ _ E6), (IH v2 w1 w2 F1 F2 F3 F4 E7). reflexivity.
Qed.

Lemma spent_depends s1 : forall s2,
  map (fun o => (nAsset o, nValue o, scriptPubKey o)) s1 = map (fun o => (nAsset o, nValue o, scriptPubKey o)) s2 ->
  spent_amounts s1 = spent_amounts s2 /\ spent_scripts s1 = spent_scripts s2.
Proof.
  unfold spent_amounts, spent_scripts.
  induction s1 as [|o s1 IH]; intros [|o' s2] E; try discriminate; [auto|].
  cbn [map concat ser_list] in *. injection E as -> -> -> E. destruct (IH _ E) as [-> ->]. auto.
Qed.

Theorem tap_depends sha tap t1 t2 i1 i2 sp1 sp2 ht sv tl cs an gen x y p q :
  valid_tap_ht ht -> 0 <= i1 -> 0 <= i2 ->
  nVersion t1 = nVersion t2 -> nLockTime t1 = nLockTime t2 ->
  length sp1 = length (vin t1) -> length sp2 = length (vin t2) ->
  nth_error (vin t1) (Z.to_nat i1) = Some x -> nth_error (vin t2) (Z.to_nat i2) = Some y ->
  nth_error sp1 (Z.to_nat i1) = Some p -> nth_error sp2 (Z.to_nat i2) = Some q ->
  (tap_acp ht = false ->
     i1 = i2 /\ map is_pegin (vin t1) = map is_pegin (vin t2) /\ map prevout (vin t1) = map prevout (vin t2)
     /\ map nSequence (vin t1) = map nSequence (vin t2) /\ map issuance_of (vin t1) = map issuance_of (vin t2)
     /\ map (fun o => (nAsset o, nValue o, scriptPubKey o)) sp1 = map (fun o => (nAsset o, nValue o, scriptPubKey o)) sp2
     /\ map proofs_of (vtxinwit (wit t1)) = map proofs_of (vtxinwit (wit t2))) ->
  (tap_acp ht = true ->
     is_pegin x = is_pegin y /\ prevout x = prevout y /\ nSequence x = nSequence y /\ issuance_of x = issuance_of y
     /\ nAsset p = nAsset q /\ nValue p = nValue q /\ scriptPubKey p = scriptPubKey q
     /\ (has_issuance x = true -> option_map proofs_of (nth_error (vtxinwit (wit t1)) (Z.to_nat i1))
                                = option_map proofs_of (nth_error (vtxinwit (wit t2)) (Z.to_nat i2)))) ->
  (tap_all ht = true -> vout t1 = vout t2 /\ vtxoutwit (wit t1) = vtxoutwit (wit t2)) ->
  (tap_single ht = true ->
     (exists o, nth_error (vout t1) (Z.to_nat i1) = Some o /\ nth_error (vout t2) (Z.to_nat i2) = Some o)
     /\ nth_error (vtxoutwit (wit t1)) (Z.to_nat i1) = nth_error (vtxoutwit (wit t2)) (Z.to_nat i2)) ->
  sighash_schnorr_raw sha tap t1 i1 sp1 ht sv tl cs an gen = sighash_schnorr_raw sha tap t2 i2 sp2 ht sv tl cs an gen.
Proof.
  intros Hht Hi1 Hi2 EV ELk L1 L2 N1 N2 M1 M2 HA HB HC HD.
  assert (Hr : 0 <= match ht with None => SIGHASH_ALL | Some h => h end < 256).
  { destruct ht; cbn [valid_tap_ht In] in Hht; unfold SIGHASH_ALL; lia. }
  assert (EA : (output_type match ht with None => SIGHASH_ALL | Some h => h end =? SIGHASH_ALL) = tap_all ht)
    by (rewrite output_type_spec by assumption; reflexivity).
  assert (ES : (output_type match ht with None => SIGHASH_ALL | Some h => h end =? SIGHASH_SINGLE) = tap_single ht)
    by (rewrite output_type_spec by assumption; reflexivity).
  assert (EP : input_acp match ht with None => SIGHASH_ALL | Some h => h end = tap_acp ht)
    by (rewrite input_acp_spec; reflexivity).
  unfold sighash_schnorr_raw. cbv zeta. rewrite EA, ES, EP.
  assert (K1 : (Z.to_nat i1 < length (vin t1))%nat) by (apply nth_error_Some; congruence).
  assert (K2 : (Z.to_nat i2 < length (vin t2))%nat) by (apply nth_error_Some; congruence).
  destruct (Z.leb_spec 0 i1); [|lia]. destruct (Z.leb_spec 0 i2); [|lia].
  destruct (Z.ltb_spec i1 (Z.of_nat (length (vin t1)))); [|lia]. destruct (Z.ltb_spec i2 (Z.of_nat (length (vin t2)))); [|lia].
  rewrite L1, L2, !Nat.eqb_refl, EV, ELk. cbn [rassert rbind].
  assert (B3 : (if negb (tap_acp ht) then
       let! scripts := spent_scripts sp1 in
       let! r := schnorr_inputs (vin t1) (vtxinwit (wit t1)) in
       let '(fl, ps, qs, is, rs) := r in
       Ok (sha fl ++ sha ps ++ sha (spent_amounts sp1) ++ sha scripts ++ sha qs ++ sha is ++ sha rs)
     else Ok []) = (if negb (tap_acp ht) then
       let! scripts := spent_scripts sp2 in
       let! r := schnorr_inputs (vin t2) (vtxinwit (wit t2)) in
       let '(fl, ps, qs, is, rs) := r in
       Ok (sha fl ++ sha ps ++ sha (spent_amounts sp2) ++ sha scripts ++ sha qs ++ sha is ++ sha rs)
     else Ok [])).
  { destruct (tap_acp ht); [reflexivity|]. cbn [negb]. destruct (HA eq_refl) as (_ & A1 & A2 & A3 & A4 & A5 & A6).
    destruct (spent_depends _ _ A5) as [-> ->]. rewrite (schnorr_inputs_depends _ _ _ _ A1 A2 A3 A4 A6). reflexivity. }
  rewrite B3. clear B3.
  assert (B4 : (if tap_all ht then
       let! r := schnorr_outputs (vout t1) (vtxoutwit (wit t1)) in let '(os, ws) := r in Ok (sha os ++ sha ws) else Ok [])
     = (if tap_all ht then
       let! r := schnorr_outputs (vout t2) (vtxoutwit (wit t2)) in let '(os, ws) := r in Ok (sha os ++ sha ws) else Ok [])).
  { destruct (tap_all ht); [|reflexivity]. destruct (HC eq_refl) as [-> ->]. reflexivity. }
  rewrite B4. clear B4.
  rewrite !py_nth_nonneg by assumption. rewrite N1, N2, M1, M2. cbn [rbind].
  match goal with |- context [if tap_acp ht then ?A else pack_le 4 i1] =>
    match goal with |- context [if tap_acp ht then ?B else pack_le 4 i2] =>
      assert (B5 : (if tap_acp ht then A else pack_le 4 i1) = (if tap_acp ht then B else pack_le 4 i2)) end end.
  { destruct (tap_acp ht).
    - destruct (HB eq_refl) as (A1 & A2 & A3 & A4 & A5 & A6 & A7 & A8).
      rewrite A2, A3, A5, A6, A7, (outpoint_flag_of _ _ A1 A4).
      assert (T : (if issuance_is_null (assetIssuance x) then Ok [x00]
         else let! w := match nth_error (vtxinwit (wit t1)) (Z.to_nat i1) with Some x0 => Ok x0 | None => Raise EIndex end in
              Ok (ser_issuance (assetIssuance x) ++ sha (iw_issproof w ++ iw_keysproof w)))
        = (if issuance_is_null (assetIssuance y) then Ok [x00]
         else let! w := match nth_error (vtxinwit (wit t2)) (Z.to_nat i2) with Some x0 => Ok x0 | None => Raise EIndex end in
              Ok (ser_issuance (assetIssuance y) ++ sha (iw_issproof w ++ iw_keysproof w)))).
      { unfold issuance_of in A4. rewrite !issuance_is_null_has.
        destruct (has_issuance x), (has_issuance y); try discriminate; cbn [negb]; [|reflexivity].
        assert (A4' : assetIssuance x = assetIssuance y) by congruence. rewrite A4'.
        specialize (A8 eq_refl).
        destruct (nth_error (vtxinwit (wit t1)) (Z.to_nat i1)) as [w|], (nth_error (vtxinwit (wit t2)) (Z.to_nat i2)) as [w'|];
          cbn [option_map] in A8; try discriminate; [|reflexivity].
        unfold proofs_of in A8. injection A8 as A8 A9. cbn [rbind]. rewrite A8, A9. reflexivity. }
      rewrite T. reflexivity.
    - destruct (HA eq_refl) as (-> & _). reflexivity. }
  rewrite B5. clear B5.
  match goal with |- context [if tap_single ht then ?A else Ok []] =>
    set (S1 := A) end.
  match goal with |- context [if tap_single ht then ?A else Ok []] =>
    lazymatch A with S1 => fail | _ => set (S2 := A) end end.
  assert (B7 : (if tap_single ht then S1 else Ok []) = (if tap_single ht then S2 else Ok [])).
  { destruct (tap_single ht); [|reflexivity]. destruct (HD eq_refl) as ((o & D1 & D2) & D3). subst S1 S2.
    rewrite D1, D2, D3.
    assert (J1 : (Z.to_nat i1 < length (vout t1))%nat) by (apply nth_error_Some; congruence).
    assert (J2 : (Z.to_nat i2 < length (vout t2))%nat) by (apply nth_error_Some; congruence).
    destruct (Z.ltb_spec (Z.of_nat (length (vout t1))) i1); [lia|]. destruct (Z.ltb_spec (Z.of_nat (length (vout t2))) i2); [lia|].
    reflexivity. }
  rewrite B7. reflexivity.
Qed.

(** * Argument validation *)
Lemma tapinputs_ex sha t spent : tap_signable t -> Forall wf_txout spent -> exists b, TapInputs sha t spent b.
Proof.
  intros ([S _] & _ & _ & _ & HL & _ & HW & _) F.
  destruct (W_seq_ex W_flag (fun _ => True) (vin t)) as [b1 H1].
  { intros i _. exists (outpoint_flag i). apply flag_iff. reflexivity. } { apply Forall_forall; auto. }
  destruct (W_seq_ex (fun x => W_outpoint (prevout x)) txin_in_range (vin t)) as [b2 H2]; [apply W_outpoint_ex|assumption|].
  destruct (W_seq_ex (fun o => W_bytes (scriptPubKey o)) wf_txout spent) as [b4 H4]; [|assumption|].
  { intros o Ho. apply W_bytes_ex, Ho. }
  destruct (W_seq_ex (fun x => le_int 4 (nSequence x)) txin_in_range (vin t)) as [b5 H5]; [|assumption|].
  { intros i Hi. apply le_int_ex. apply Hi. }
  destruct (W_seq_ex W_issproofs wf_inwit (vtxinwit (wit t))) as [b7 H7]; [|assumption|].
  { intros w (P1 & P2 & _). destruct (W_bytes_ex _ P1) as [c1 C1], (W_bytes_ex _ P2) as [c2 C2]. exists (c1 ++ c2), c1, c2. auto. }
  exists (sha b1 ++ sha b2 ++ sha (spent_amounts spent) ++ sha b4 ++ sha b5 ++ sha (v0_issuances t) ++ sha b7).
  exists (vtxinwit (wit t)). do 7 eexists.
  split. { split; [assumption|]. exists []. symmetry. apply app_nil_r. }
  split; [exists b1; split; [assumption|reflexivity]|]. split; [exists b2; split; [assumption|reflexivity]|].
  split; [exists (spent_amounts spent); split; [apply spent_amounts_iff; reflexivity|reflexivity]|].
  split; [exists b4; split; [assumption|reflexivity]|]. split; [exists b5; split; [assumption|reflexivity]|].
  split; [exists (v0_issuances t); split; [apply issuances_iff; reflexivity|reflexivity]|].
  split; [exists b7; split; [assumption|reflexivity]|reflexivity].
Qed.

Lemma tapoutputs_ex sha t : tap_signable t -> exists b, TapOutputs sha t b.
Proof.
  intros ([_ S] & _ & _ & _ & _ & HL & _ & HW).
  destruct (W_seq_ex W_txout wf_txout (vout t)) as [b1 H1]; [apply W_txout_ex|assumption|].
  destruct (W_seq_ex W_outwit wf_outwit (vtxoutwit (wit t))) as [b2 H2]; [apply W_outwit_ex|assumption|].
  exists (sha b1 ++ sha b2), (vtxoutwit (wit t)), (sha b1), (sha b2).
  split; [split; [assumption|exists []; symmetry; apply app_nil_r]|].
  split; [exists b1; auto|]. split; [exists b2; auto|reflexivity].
Qed.

Lemma tapown_ex sha t i x p : tap_signable t -> nth_error (vin t) i = Some x -> exists b, TapOwn sha t i x p b.
Proof.
  intros ([S _] & _ & _ & _ & HL & _ & HW & _) N.
  assert (Hx : txin_in_range x) by (rewrite Forall_forall in S; apply S; eapply nth_error_In; eassumption).
  destruct (W_outpoint_ex _ Hx) as [op O]. destruct (le_int_ex 4 (nSequence x)) as [q Q]; [apply Hx|].
  assert (Hi : (i < length (vtxinwit (wit t)))%nat) by (rewrite HL; apply nth_error_Some; congruence).
  destruct (nth_error (vtxinwit (wit t)) i) as [w|] eqn:Nw; [|apply nth_error_None in Nw; lia].
  exists (outpoint_flag x ++ op ++ ser_conf (nAsset p) ++ ser_conf (nValue p) ++ scriptPubKey p ++ q
     ++ (if has_issuance x then ser_issuance (assetIssuance x) ++ sha (iw_issproof w ++ iw_keysproof w) else [x00])).
  do 6 eexists. split; [apply flag_iff; reflexivity|]. split; [exact O|]. split; [apply W_conf_ser; reflexivity|].
  split; [apply W_conf_ser; reflexivity|]. split; [exact Q|]. split; [|reflexivity].
  destruct (has_issuance x); [|reflexivity]. exists w, (ser_issuance (assetIssuance x)).
  split; [assumption|]. split; [apply W_issuance_ser; reflexivity|reflexivity].
Qed.

Section Table.
  Variables (sha tap : bytes -> bytes) (t : tx) (inIdx : Z) (spent : list txout) (ht : option Z) (sv : sigversion)
    (tl : option bytes) (cs : option Z) (an : option bytes) (gen : bytes).
  Let run := sighash_schnorr_raw sha tap t inIdx spent ht sv tl cs an gen.

  Definition tap_bad_arguments : Prop :=
    inIdx < 0 \/ Z.of_nat (length (vin t)) <= inIdx
    \/ (exists h, tl = Some h /\ blen h <> 32) \/ (exists h, an = Some h /\ blen h <> 32) \/ blen gen <> 32
    \/ (sv <> SIGVERSION_TAPROOT /\ sv <> SIGVERSION_TAPSCRIPT)
    \/ length spent <> length (vin t).

  Lemma check32_raise o : (exists h, o = Some h /\ blen h <> 32) <-> check32 o = Raise EValue.
  Proof.
    unfold check32. destruct o as [h|]; [|split; [intros (? & ? & _); discriminate|discriminate]].
    unfold rassert. destruct (Z.eqb_spec (blen h) 32); split; try discriminate; try reflexivity.
    - intros (? & [= <-] & ?). contradiction.
    - intros _. exists h. auto.
  Qed.
  Lemma check32_cases o : check32 o = Ok tt \/ check32 o = Raise EValue.
  Proof. unfold check32, rassert. destruct o; [destruct (_ =? _)|]; auto. Qed.

  Lemma tap_bad : tap_bad_arguments -> run = Raise EValue.
  Proof.
    unfold tap_bad_arguments, run, sighash_schnorr_raw, rassert. intros HB.
    destruct (Z.leb_spec 0 inIdx); [|reflexivity]. cbn [rbind].
    destruct (Z.ltb_spec inIdx (Z.of_nat (length (vin t)))); [|reflexivity]. cbn [rbind].
    destruct (check32_cases tl) as [E1|E1]; rewrite E1; [|reflexivity]. cbn [rbind].
    destruct (check32_cases an) as [E2|E2]; rewrite E2; [|reflexivity]. cbn [rbind].
    destruct (Z.eqb_spec (blen gen) 32); [|reflexivity]. cbn [rbind].
    destruct (Nat.eqb_spec (length spent) (length (vin t))); [|destruct sv; reflexivity].
    rewrite !check32_raise, E1, E2 in HB.
    destruct sv; try reflexivity; exfalso; intuition (try lia; try congruence).
  Qed.

  (** Past the argument checks everything before the SINGLE block succeeds. *)
  Hypothesis HS : tap_signable t.
  Hypothesis HF : Forall wf_txout spent.
  Hypothesis Hht : valid_tap_ht ht.

  Let single_and_leaf : res unit :=
    let! _ := (if tap_single ht then
       let! _ := rassert (negb (Z.of_nat (length (vout t)) <? inIdx)) EValue in
       let! _ := py_nth (vout t) inIdx in Ok tt
     else Ok tt) in
    match sv with
    | SIGVERSION_TAPSCRIPT =>
        let! _ := match tl with Some h => Ok h | None => Raise EValue end in
        let! c := match cs with Some c => Ok c | None => Raise EValue end in
        let! _ := pack_le_signed 4 c in Ok tt
    | _ => Ok tt
    end.

  Lemma tap_good : ~ tap_bad_arguments ->
    match single_and_leaf with Ok _ => exists h, run = Ok h | Raise e => run = Raise e end.
  Proof.
    intros HB. unfold tap_bad_arguments in HB.
    assert (Hi : 0 <= inIdx < Z.of_nat (length (vin t))) by lia.
    assert (HLs : length spent = length (vin t)) by (destruct (Nat.eq_dec (length spent) (length (vin t))); [assumption|tauto]).
    assert (C1 : check32 tl = Ok tt).
    { destruct (check32_cases tl) as [E|E]; [assumption|]. apply check32_raise in E. tauto. }
    assert (C2 : check32 an = Ok tt).
    { destruct (check32_cases an) as [E|E]; [assumption|]. apply check32_raise in E. tauto. }
    assert (HG : blen gen = 32) by lia.
    assert (Hr : 0 <= match ht with None => SIGHASH_ALL | Some h => h end < 256).
    { destruct ht; cbn [valid_tap_ht In] in Hht; unfold SIGHASH_ALL; lia. }
    assert (EA : (output_type match ht with None => SIGHASH_ALL | Some h => h end =? SIGHASH_ALL) = tap_all ht)
      by (rewrite output_type_spec by assumption; reflexivity).
    assert (ES : (output_type match ht with None => SIGHASH_ALL | Some h => h end =? SIGHASH_SINGLE) = tap_single ht)
      by (rewrite output_type_spec by assumption; reflexivity).
    assert (EP : input_acp match ht with None => SIGHASH_ALL | Some h => h end = tap_acp ht)
      by (rewrite input_acp_spec; reflexivity).
    assert (EB : exists hb, match ht with None => Ok [x00] | Some h => byte_of h end = Ok hb).
    { destruct ht as [h|]; [|eexists; reflexivity]. unfold byte_of.
      destruct (Z.leb_spec 0 h), (Z.ltb_spec h 256); cbn [andb]; try lia. eexists; reflexivity. }
    destruct EB as [hb EB].
    assert (ESV : exists ef, match sv with SIGVERSION_TAPROOT => Ok 0 | SIGVERSION_TAPSCRIPT => Ok 1 | _ => Raise EValue end = Ok ef).
    { destruct sv; try (exfalso; intuition congruence); eexists; reflexivity. }
    destruct ESV as [ef ESV].
    pose proof HS as ([S1 S2] & HV & HK & HN & HL & HL' & HW & HW').
    destruct (le_sint32_ex _ HV) as [f1 F1]. apply pack_sint32_iff in F1.
    destruct (le_int_ex 4 (nLockTime t)) as [f2 F2]; [exact HK|]. apply pack_le_iff in F2.
    destruct (tapinputs_ex sha t spent HS HF) as [f3 F3].
    assert (F3' : exists f, (if tap_acp ht then f = [] else TapInputs sha t spent f)) by (destruct (tap_acp ht); eauto).
    destruct F3' as [f3' F3']. apply tap_f3_iff in F3'.
    assert (F4 : exists f, (if tap_all ht then TapOutputs sha t f else f = [])).
    { destruct (tap_all ht); [apply tapoutputs_ex; assumption|eauto]. }
    destruct F4 as [f4 F4]. apply tap_f4_iff in F4.
    destruct (nth_error (vin t) (Z.to_nat inIdx)) as [x|] eqn:N1; [|apply nth_error_None in N1; lia].
    destruct (nth_error spent (Z.to_nat inIdx)) as [p|] eqn:N2; [|apply nth_error_None in N2; lia].
    assert (F5 : exists f, if tap_acp ht then TapOwn sha t (Z.to_nat inIdx) x p f else le_int 4 (Z.of_nat (Z.to_nat inIdx)) f).
    { destruct (tap_acp ht); [apply tapown_ex; assumption|]. apply le_int_ex. change (256 ^ Z.of_nat 4) with (2 ^ 32). lia. }
    destruct F5 as [f5 F5]. apply (tap_f5_iff sha t inIdx spent (tap_acp ht) f5 x p (proj1 Hi) N1 N2) in F5.
    assert (F6 : exists f, match an with Some a => ser_bytes a | None => Ok [] end = Ok f).
    { destruct an as [a|]; [|eauto]. pose proof (proj1 (check32_iff _) C2 a eq_refl) as Ha.
      destruct (W_bytes_ex a) as [s Hs]; [unfold small; lia|]. exists s. apply ser_bytes_iff. assumption. }
    destruct F6 as [f6 F6].
    unfold run, sighash_schnorr_raw. cbv zeta. rewrite EA, ES, EP.
    destruct (Z.leb_spec 0 inIdx); [|lia]. destruct (Z.ltb_spec inIdx (Z.of_nat (length (vin t)))); [|lia].
    cbn [rassert rbind]. rewrite C1, C2, HG, Z.eqb_refl. cbn [rassert rbind].
    rewrite ESV. cbn [rbind]. rewrite HLs, Nat.eqb_refl. cbn [rassert rbind].
    rewrite EB. cbn [rbind]. rewrite F1. cbn [rbind]. rewrite F2. cbn [rbind]. rewrite F3'. cbn [rbind].
    rewrite F4. cbn [rbind]. rewrite F5. cbn [rbind]. rewrite F6. cbn [rbind].
    unfold single_and_leaf.
    assert (HT : forall f7 : bytes,
      match (match sv with
        | SIGVERSION_TAPSCRIPT =>
            let! _ := match tl with Some h => Ok h | None => Raise EValue end in
            let! c := match cs with Some c => Ok c | None => Raise EValue end in
            let! _ := pack_le_signed 4 c in Ok tt
        | _ => Ok tt
        end) with
      | Ok _ => exists h, (let! f8 := match sv with
            | SIGVERSION_TAPSCRIPT =>
                let! tl0 := match tl with Some h => Ok h | None => Raise EValue end in
                let! cs0 := match cs with Some c => Ok c | None => Raise EValue end in
                let! c := pack_le_signed 4 cs0 in Ok (tl0 ++ [zb 0] ++ c)
            | _ => Ok [] end in
         Ok (tap ((gen ++ gen) ++ hb ++ f1 ++ f2 ++ f3' ++ f4 ++ [zb (Z.shiftl ef 1 + match an with Some _ => 1 | None => 0 end)]
                  ++ f5 ++ f6 ++ f7 ++ f8))) = Ok h
      | Raise e => (let! f8 := match sv with
            | SIGVERSION_TAPSCRIPT =>
                let! tl0 := match tl with Some h => Ok h | None => Raise EValue end in
                let! cs0 := match cs with Some c => Ok c | None => Raise EValue end in
                let! c := pack_le_signed 4 cs0 in Ok (tl0 ++ [zb 0] ++ c)
            | _ => Ok [] end in
         Ok (tap ((gen ++ gen) ++ hb ++ f1 ++ f2 ++ f3' ++ f4 ++ [zb (Z.shiftl ef 1 + match an with Some _ => 1 | None => 0 end)]
                  ++ f5 ++ f6 ++ f7 ++ f8))) = Raise e
      end).
    { intros f7. destruct sv; cbn [rbind]; try (eexists; reflexivity).
      destruct tl as [h|]; cbn [rbind]; [|reflexivity]. destruct cs as [c|]; cbn [rbind]; [|reflexivity].
      destruct (pack_le_signed 4 c); cbn [rbind]; [eexists; reflexivity|reflexivity]. }
    destruct (tap_single ht); [|cbn [rbind]; apply HT].
    destruct (Z.ltb_spec (Z.of_nat (length (vout t))) inIdx); cbn [negb rassert rbind]; [reflexivity|].
    destruct (py_nth (vout t) inIdx) as [o|e] eqn:Eo; cbn [rbind]; [|reflexivity].
    apply py_nth_ok in Eo; [|lia].
    assert (Ho : wf_txout o) by (rewrite Forall_forall in S2; apply S2; eapply nth_error_In; eassumption).
    destruct (W_txout_ex o Ho) as [s Hs]. apply ser_txout_iff in Hs. rewrite Hs. cbn [rbind].
    assert (Hlt : (Z.to_nat inIdx < length (vout t))%nat) by (apply nth_error_Some; congruence).
    destruct (nth_error (vtxoutwit (wit t)) (Z.to_nat inIdx)) as [w|] eqn:Nw; [|apply nth_error_None in Nw; lia].
    rewrite (proj2 (py_nth_ok (vtxoutwit (wit t)) _ _ (proj1 Hi)) Nw). cbn [rbind].
    assert (Hw : wf_outwit w) by (rewrite Forall_forall in HW'; apply HW'; eapply nth_error_In; eassumption).
    destruct (W_outwit_ex w Hw) as [x' Hx']. apply ser_outwit_iff in Hx'. rewrite Hx'. cbn [rbind]. apply HT.
  Qed.

  Theorem tap_table :
    (tap_bad_arguments -> run = Raise EValue)
    /\ (~ tap_bad_arguments ->
        (tap_single ht = true -> Z.of_nat (length (vout t)) < inIdx -> run = Raise EValue)
        /\ (tap_single ht = true -> Z.of_nat (length (vout t)) = inIdx -> run = Raise EIndex)
        /\ ((tap_single ht = false \/ inIdx < Z.of_nat (length (vout t))) ->
            (sv = SIGVERSION_TAPROOT -> exists h, run = Ok h)
            /\ (sv = SIGVERSION_TAPSCRIPT -> tl = None \/ cs = None -> run = Raise EValue)
            /\ (sv = SIGVERSION_TAPSCRIPT -> tl <> None -> forall c, cs = Some c ->
                 (- 2 ^ 31 <= c < 2 ^ 31 -> exists h, run = Ok h)
                 /\ (~ - 2 ^ 31 <= c < 2 ^ 31 -> run = Raise EStruct)))).
  Proof.
    split; [apply tap_bad|]. intros HB. pose proof (tap_good HB) as HG. unfold single_and_leaf in HG.
    assert (Hi : 0 <= inIdx) by (unfold tap_bad_arguments in HB; lia).
    split.
    { intros Es Hl. rewrite Es in HG. destruct (Z.ltb_spec (Z.of_nat (length (vout t))) inIdx); [|lia]. exact HG. }
    split.
    { intros Es Hl. rewrite Es in HG. destruct (Z.ltb_spec (Z.of_nat (length (vout t))) inIdx); [lia|].
      cbn [negb rassert rbind] in HG. rewrite py_nth_nonneg in HG by assumption.
      rewrite (proj2 (nth_error_None (vout t) (Z.to_nat inIdx))) in HG by lia. exact HG. }
    intros Hc.
    assert (E1 : (if tap_single ht then
       let! _ := rassert (negb (Z.of_nat (length (vout t)) <? inIdx)) EValue in
       let! _ := py_nth (vout t) inIdx in Ok tt
     else Ok tt) = Ok tt).
    { destruct (tap_single ht); [|reflexivity]. destruct Hc as [Hc|Hc]; [discriminate|].
      destruct (Z.ltb_spec (Z.of_nat (length (vout t))) inIdx); [lia|]. cbn [negb rassert rbind].
      rewrite py_nth_nonneg by assumption.
      destruct (nth_error (vout t) (Z.to_nat inIdx)) eqn:N; [reflexivity|]. apply nth_error_None in N. lia. }
    rewrite E1 in HG. cbn [rbind] in HG.
    split; [intros Ev; rewrite Ev in HG; exact HG|]. split.
    - intros Ev Hn. rewrite Ev in HG. destruct tl as [h|]; cbn [rbind] in HG; [|exact HG].
      destruct cs as [c|]; cbn [rbind] in HG; [|exact HG]. destruct Hn; discriminate.
    - intros Ev Ht c Ec. rewrite Ev, Ec in HG. destruct tl as [h|]; [|contradiction]. cbn [rbind] in HG.
      split; intros Hr.
      + destruct (le_sint32_ex _ Hr) as [s Hs]. apply pack_sint32_iff in Hs. rewrite Hs in HG. exact HG.
      + destruct (pack_le_signed 4 c) as [s|e] eqn:E.
        * exfalso. apply pack_sint32_iff in E. apply Hr. apply E.
        * rewrite (pack_le_signed_raise _ _ _ E) in HG. exact HG.
  Qed.
End Table.
