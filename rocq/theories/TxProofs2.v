(** Inputs, outputs and whole transactions: reading back. *)
From Verif Require Import Base BaseFacts Serialize ParserFacts TxModel SpecWire TxProofs.
Local Open Scope Z_scope.

(** An input whose index plus flags would be read back as the coinbase index. *)
Definition txin_special (i : txin) : Prop :=
  op_n (prevout i) = 2 ^ 30 - 1 /\ has_issuance i = true /\ is_pegin i = true.

(** What is read back for an input that is not [txin_special]. *)
Definition norm_txin (i : txin) : txin :=
  if op_n (prevout i) =? 2 ^ 32 - 1
  then mkTxIn (prevout i) (scriptSig i) (nSequence i) issuance_default false
  else if has_issuance i then i
  else mkTxIn (prevout i) (scriptSig i) (nSequence i) issuance_default (is_pegin i).

Lemma norm_txin_has i : has_issuance i = false -> has_issuance (norm_txin i) = false.
Proof.
  intros H. unfold norm_txin. destruct (_ =? _); [reflexivity|]. rewrite H. reflexivity.
Qed.

Lemma outpoint_eta o : mkOutPoint (op_hash o) (op_n o) = o.
Proof. destruct o; reflexivity. Qed.

Lemma idx_flags_max n a b : 0 <= n < 2 ^ 30 -> idx_flags n a b = 2 ^ 32 - 1 <-> n = 2 ^ 30 - 1 /\ a = true /\ b = true.
Proof. intros Hn. unfold idx_flags. destruct a, b; split; intros H; try lia; destruct H as (? & ? & ?); discriminate || lia. Qed.

Lemma deser_txin_W i b r :
  txin_in_range i -> ~ txin_special i -> W_txin false i b -> deser_txin (b ++ r) = Ok (norm_txin i, r).
Proof.
  intros (HL & HN & HS & HQ & HI) HSp (w & n & s & q & iss & HW & _ & Hn & Hs & Hq & HIs & ->).
  unfold deser_txin. rewrite <- !app_assoc. unfold pbind at 1.
  rewrite (deser_outpoint_app _ _ w _ HL Hn). unfold pbind at 1. rewrite (deser_bytes_W _ _ _ HS Hs).
  unfold pbind at 1. rewrite (read_le_W 4 _ _ _ ltac:(lia) Hq).
  cbn [op_n op_hash]. change 0xffffffff with (2 ^ 32 - 1).
  unfold norm_txin, writes_issuance in *.
  destruct HW as [[E1 ->]|[E1 ->]].
  - rewrite E1 in *. rewrite Z.eqb_refl in *. cbn [negb andb] in HIs. subst iss.
    unfold pbind, pret. cbn [app]. rewrite <- E1, outpoint_eta. reflexivity.
  - cbn [negb andb] in *.
    change (op_n (prevout i) + (if has_issuance i then 2 ^ 31 else 0) + (if is_pegin i then 2 ^ 30 else 0))
      with (idx_flags (op_n (prevout i)) (has_issuance i) (is_pegin i)).
    destruct (Z.eqb_spec (op_n (prevout i)) (2 ^ 32 - 1)) as [E2|_]; [lia|].
    destruct (Z.eqb_spec (idx_flags (op_n (prevout i)) (has_issuance i) (is_pegin i)) (2 ^ 32 - 1)) as [E2|_].
    { exfalso. apply HSp. apply idx_flags_max in E2; [|lia]. exact E2. }
    destruct (get_flags (op_n (prevout i)) (has_issuance i) (is_pegin i) E1) as (-> & -> & ->).
    rewrite outpoint_new_ok by assumption. unfold pbind at 1. rewrite outpoint_eta.
    cbn [negb andb] in HIs.
    destruct (has_issuance i).
    + unfold pbind. rewrite (deser_issuance_W _ _ _ HI HIs). unfold pret. destruct i; reflexivity.
    + subst iss. reflexivity.
Qed.

(** The special combination is read back as a coinbase input, leaving the
    issuance bytes unread. *)
Lemma deser_txin_special i b r :
  txin_in_range i -> txin_special i -> W_txin false i b ->
  deser_txin (b ++ r) =
    Ok (mkTxIn (mkOutPoint (op_hash (prevout i)) (2 ^ 32 - 1)) (scriptSig i) (nSequence i) issuance_default false,
        ser_issuance (assetIssuance i) ++ r).
Proof.
  intros (HL & HN & HS & HQ & HI) (E1 & E2 & E3) (w & n & s & q & iss & HW & _ & Hn & Hs & Hq & HIs & ->).
  destruct HW as [[E _]|[_ ->]]; [lia|].
  rewrite E1, E2, E3 in Hn. cbn [negb andb] in Hn.
  unfold writes_issuance in HIs. rewrite E1, E2 in HIs.
  replace (2 ^ 30 - 1 =? 2 ^ 32 - 1) with false in HIs by reflexivity. cbn [negb andb] in HIs.
  apply W_issuance_ser in HIs. subst iss.
  unfold deser_txin. rewrite <- !app_assoc. unfold pbind at 1.
  rewrite (deser_outpoint_app _ _ _ _ HL Hn). unfold pbind at 1. rewrite (deser_bytes_W _ _ _ HS Hs).
  unfold pbind at 1. rewrite (read_le_W 4 _ _ _ ltac:(lia) Hq).
  cbn [op_n op_hash]. reflexivity.
Qed.

Lemma norm_txin_representable i : txin_in_range i -> txin_representable i -> norm_txin i = i.
Proof.
  intros HR HP. unfold norm_txin. destruct HP as [(E & HI & HP)|(E & HI & HP)].
  - rewrite E, Z.eqb_refl. destruct i; cbn in *; subst; reflexivity.
  - replace (op_n (prevout i) =? 2 ^ 32 - 1) with false by lia.
    destruct (has_issuance i) eqn:EI; [reflexivity|]. specialize (HI eq_refl). destruct i; cbn in *; subst; reflexivity.
Qed.

Lemma representable_not_special i : txin_representable i -> ~ txin_special i.
Proof.
  intros [(E & _)|(E & _ & H)] (E1 & E2 & E3); [lia|]. apply H. auto.
Qed.

Lemma deser_txin_wf i b r : wf_txin i -> W_txin false i b -> deser_txin (b ++ r) = Ok (i, r).
Proof.
  intros [HR HP] HW. rewrite (deser_txin_W i b r HR (representable_not_special i HP) HW).
  rewrite norm_txin_representable by assumption. reflexivity.
Qed.

Lemma local_deser_txin : local deser_txin.
Proof.
  apply local_pbind; [apply local_deser_outpoint|]. intros o.
  apply local_pbind; [apply local_deser_bytes|]. intros s.
  apply local_pbind; [apply local_read_le|]. intros q.
  apply local_pbind.
  - destruct (op_n o =? 0xffffffff); [apply local_pret|]. cbv zeta.
    destruct (outpoint_new _ _); [apply local_pret|apply local_pfail].
  - intros [[h p] o']. apply local_pbind; [destruct h; [apply local_deser_issuance|apply local_pret]|].
    intros; apply local_pret.
Qed.

(** What the deserializer can return. *)
Definition txin_readable (i : txin) : Prop :=
  txin_in_range i /\
  ((op_n (prevout i) = 2 ^ 32 - 1 /\ assetIssuance i = issuance_default /\ is_pegin i = false)
   \/ (0 <= op_n (prevout i) < 2 ^ 30 /\ ~ txin_special i)).

Lemma deser_txin_inv s i r : deser_txin s = Ok (i, r) ->
  txin_readable i /\
  exists w n sg q, s = op_hash (prevout i) ++ n ++ sg ++ q ++ skipn (length (op_hash (prevout i) ++ n ++ sg ++ q)) s
    /\ le_int 4 w n /\ le_int 4 (nSequence i) q
    /\ ((w = 2 ^ 32 - 1 /\ op_n (prevout i) = 2 ^ 32 - 1 /\ assetIssuance i = issuance_default /\ is_pegin i = false)
        \/ (w <> 2 ^ 32 - 1 /\ op_n (prevout i) = w mod 2 ^ 30 /\ is_pegin i = Z.testbit w 30
            /\ (Z.testbit w 31 = false -> assetIssuance i = issuance_default))).
Proof.
  unfold deser_txin. intros H.
  unfold pbind at 1 in H. destruct (deser_outpoint s) as [[o r1]|] eqn:E1; [|discriminate].
  unfold pbind at 1 in H. destruct (deser_bytes r1) as [[sg r2]|] eqn:E2; [|discriminate].
  unfold pbind at 1 in H. destruct (read_le 4 r2) as [[q r3]|] eqn:E3; [|discriminate].
  apply deser_outpoint_inv in E1. destruct E1 as (HL & HN & n & Hn & ->).
  destruct (local_ok _ local_deser_bytes _ _ _ E2) as (sgb & -> & _).
  pose proof (deser_bytes_inv _ _ _ E2) as HS.
  pose proof (read_le_range _ _ _ _ E3) as HQ. change (256 ^ Z.of_nat 4) with (2 ^ 32) in HQ.
  apply read_le_inv in E3. destruct E3 as (qb & -> & HqL & HqV).
  assert (Hsk : forall h, op_hash o ++ n ++ sgb ++ qb ++ h
     = op_hash o ++ n ++ sgb ++ qb ++ skipn (length (op_hash o ++ n ++ sgb ++ qb)) (op_hash o ++ n ++ sgb ++ qb ++ h)).
  { intros h. replace (op_hash o ++ n ++ sgb ++ qb ++ h) with ((op_hash o ++ n ++ sgb ++ qb) ++ h) at 2
      by (rewrite <- !app_assoc; reflexivity). rewrite skipn_len_app. reflexivity. }
  destruct (Z.eqb_spec (op_n o) 0xffffffff) as [E4|E4].
  - change 0xffffffff with (2 ^ 32 - 1) in *. unfold pbind, pret in H. apply Ok_pair_inj in H. destruct H as [<- <-].
    split.
    + split; [|left; cbn; auto]. split; [assumption|]. cbn. repeat split; try assumption; try lia; constructor.
    + exists (2 ^ 32 - 1), n, sgb, qb. cbn. rewrite E4 in Hn. split; [apply Hsk|]. split; [assumption|]. split; [split; auto|].
      left. auto.
  - change 0xffffffff with (2 ^ 32 - 1) in *. cbv zeta in H.
    destruct (split_flags _ HN) as (m & a & b & Hm & Ew).
    rewrite Ew in H. destruct (get_flags m a b Hm) as (F1 & F2 & F3). rewrite F1, F2, F3 in H.
    rewrite outpoint_new_ok in H by (assumption || lia). unfold pbind at 1 in H.
    assert (HT31 : Z.testbit (op_n o) 31 = a).
    { rewrite <- F1, Ew. symmetry. apply land_pow2_testbit. lia. }
    assert (HT30 : Z.testbit (op_n o) 30 = b).
    { rewrite <- F2, Ew. symmetry. apply land_pow2_testbit. lia. }
    assert (HM : m = op_n o mod 2 ^ 30).
    { rewrite <- F3, Ew. apply land_mask. }
    destruct a.
    + unfold pbind in H. destruct (deser_issuance r3) as [[iss r4]|] eqn:E5; [|discriminate].
      unfold pret in H. apply Ok_pair_inj in H. destruct H as [<- <-].
      apply deser_issuance_inv in E5. destruct E5 as (HI & ->).
      split.
      * split; [repeat split; cbn; try assumption; try lia; apply HI|].
        right. cbn. split; [assumption|]. intros (S1 & S2 & S3). cbn in *.
        apply E4. rewrite Ew. apply idx_flags_max; [assumption|]. auto.
      * exists (op_n o), n, sgb, qb. cbn [prevout op_hash op_n nSequence assetIssuance is_pegin]. split; [apply Hsk|]. split; [assumption|]. split; [split; auto|].
        right. repeat split; auto. rewrite HT31. discriminate.
    + unfold pbind, pret in H. apply Ok_pair_inj in H. destruct H as [<- <-].
      split.
      * split; [repeat split; cbn; try assumption; try lia; constructor|].
        right. cbn. split; [assumption|]. intros (S1 & S2 & S3). cbn in *. discriminate.
      * exists (op_n o), n, sgb, qb. cbn [prevout op_hash op_n nSequence assetIssuance is_pegin]. split; [apply Hsk|]. split; [assumption|]. split; [split; auto|].
        right. repeat split; auto.
Qed.

Lemma W_txin_ex i : txin_readable i -> exists b, W_txin false i b.
Proof.
  intros [(HL & HN & HS & HQ & HI) HP].
  destruct (W_bytes_ex _ HS) as [s Hs].
  destruct (le_int_ex 4 (nSequence i)) as [q Hq]; [exact HQ|].
  assert (exists w, wire_index false i w /\ 0 <= w < 2 ^ 32) as (w & Hw & Rw).
  { destruct HP as [(E & _)|(E & _)].
    - exists (2 ^ 32 - 1). split; [left; auto|lia].
    - eexists. split; [right; split; [assumption|reflexivity]|].
      destruct (negb false && has_issuance i), (negb false && is_pegin i); lia. }
  destruct (le_int_ex 4 w) as [n Hn]; [exact Rw|].
  exists (op_hash (prevout i) ++ n ++ s ++ q ++ (if writes_issuance i then ser_issuance (assetIssuance i) else [])).
  exists w, n, s, q. eexists. do 5 (split; [eassumption|]). split; [apply issuance_ser_if; reflexivity|reflexivity].
Qed.

Lemma wf_txin_readable i : wf_txin i -> txin_readable i.
Proof.
  intros [HR HP]. split; [assumption|]. destruct HP as [H|(H1 & H2 & H3)]; [left; assumption|].
  right. split; [assumption|]. exact H3.
Qed.

Lemma norm_txin_wf i : txin_readable i -> wf_txin (norm_txin i).
Proof.
  intros [HR HP]. pose proof HR as (HL & HN & HS & HQ & HI). destruct HP as [(E & HD & HG)|(E & HSp)].
  - split.
    + unfold norm_txin. rewrite E, Z.eqb_refl. repeat split; cbn; try assumption; try lia; constructor.
    + left. unfold norm_txin. rewrite E, Z.eqb_refl. cbn. auto.
  - unfold norm_txin. replace (op_n (prevout i) =? 2 ^ 32 - 1) with false by lia.
    destruct (has_issuance i) eqn:EI.
    + split; [assumption|]. right. split; [assumption|]. split; [congruence|]. exact HSp.
    + split; [repeat split; cbn; try assumption; try lia; constructor|].
      right. cbn. split; [assumption|]. split; [reflexivity|]. intros (_ & H & _). discriminate.
Qed.

Lemma norm_txin_W sh i b : W_txin sh i b -> txin_readable i -> W_txin sh (norm_txin i) b.
Proof.
  intros (w & n & s & q & iss & HW & HL & Hn & Hs & Hq & HIs & ->) [HR HP].
  exists w, n, s, q, iss. unfold norm_txin, wire_index, writes_issuance in *.
  destruct (Z.eqb_spec (op_n (prevout i)) (2 ^ 32 - 1)) as [E|E].
  - cbn. destruct HW as [HW|[? _]]; [|lia]. split; [left; assumption|].
    do 4 (split; [assumption|]). rewrite E, Z.eqb_refl. cbn [negb andb] in *. split; [assumption|reflexivity].
  - destruct HW as [[? _]|HW]; [lia|]. destruct (has_issuance i) eqn:EI.
    + split; [right; rewrite EI; assumption|]. do 4 (split; [assumption|]).
      rewrite EI. destruct (Z.eqb_spec (op_n (prevout i)) (2 ^ 32 - 1)); [lia|]. split; [assumption|reflexivity].
    + cbn. split; [right; exact HW|]. do 4 (split; [assumption|]).
      rewrite andb_false_r. cbn [negb andb] in HIs. split; [assumption|reflexivity].
Qed.

(** * Outputs *)
Lemma ser_txout_iff o b : ser_txout o = Ok b <-> W_txout o b.
Proof.
  unfold ser_txout, W_txout. split.
  - intros H. rinv H. apply ser_bytes_iff in E. do 4 eexists.
    do 3 (split; [apply ser_conf_W|]). split; [eassumption|]. reflexivity.
  - intros (a & v & n & s & Ha & Hv & Hn & Hs & ->). apply W_conf_ser in Ha, Hv, Hn. subst.
    apply ser_bytes_iff in Hs. rewrite Hs. reflexivity.
Qed.

Lemma deser_txout_W o b r : wf_txout o -> W_txout o b -> deser_txout (b ++ r) = Ok (o, r).
Proof.
  intros (H1 & H2 & H3 & H4) (a & v & n & s & Ha & Hv & Hn & Hs & ->).
  unfold deser_txout, pbind. rewrite <- !app_assoc.
  rewrite (deser_conf_W _ _ _ _ H1 Ha), (deser_conf_W _ _ _ _ H2 Hv), (deser_conf_W _ _ _ _ H3 Hn),
    (deser_bytes_W _ _ _ H4 Hs). destruct o; reflexivity.
Qed.

Lemma local_deser_txout : local deser_txout.
Proof.
  repeat (apply local_pbind; [first [apply local_deser_conf | apply local_deser_bytes] | intros]).
  apply local_pret.
Qed.

Lemma deser_txout_inv s o r : deser_txout s = Ok (o, r) -> wf_txout o.
Proof.
  unfold deser_txout. intros H. pinv H.
  apply deser_conf_inv in E, E0, E1. apply deser_bytes_inv in E2.
  repeat split; cbn; tauto.
Qed.

Lemma W_txout_ex o : wf_txout o -> exists b, W_txout o b.
Proof.
  intros (_ & _ & _ & H4). destruct (W_bytes_ex _ H4) as [s Hs].
  eexists. do 4 eexists. do 3 (split; [apply ser_conf_W|]). split; [eassumption|reflexivity].
Qed.

(** * Whole transactions *)
Lemma local_deser_txwit a b : local (deser_txwit a b).
Proof.
  apply local_pbind; [apply local_prep_nat, local_deser_inwit|]. intros.
  apply local_pbind; [apply local_prep_nat, local_deser_outwit|]. intros. apply local_pret.
Qed.

Lemma local_deser_tx dw : local (deser_tx dw).
Proof.
  apply local_pbind; [apply local_read_le|]. intros v. cbv zeta.
  apply local_pbind; [apply local_read_le|]. intros fl.
  destruct (fl =? 1);
    (apply local_pbind; [apply local_deser_vector, local_deser_txin|]; intros vi;
     apply local_pbind; [apply local_deser_vector, local_deser_txout|]; intros vo;
     apply local_pbind; [apply local_read_le|]; intros lt).
  - apply local_pbind; [apply local_deser_txwit|]. intros w. destruct (txwit_is_null w); [apply local_pfail|apply local_pret].
  - apply local_pret.
Qed.

Lemma ser_tx_iff iw sh t b : ser_tx iw sh t = Ok b <-> W_tx iw sh t b.
Proof.
  unfold ser_tx. split.
  - intros H. apply rbind_Ok in H. destruct H as (v & Hv & H). apply pack_sint32_iff in Hv.
    destruct (iw && negb (txwit_is_null (wit t))) eqn:EW.
    + apply andb_true_iff in EW. destruct EW as [-> EN]. apply negb_true_iff, txwit_not_null_iff in EN.
      rinv H. apply (ser_vector_iff _ _ _ _ (ser_txin_iff false)) in E1.
      apply (ser_vector_iff _ _ _ _ ser_txout_iff) in E2. apply pack_le_iff in E3.
      unfold ser_txwit in E4. rinv E4.
      apply (ser_list_iff _ _ _ _ ser_inwit_iff) in E5. apply (ser_list_iff _ _ _ _ ser_outwit_iff) in E6.
      apply W_tx_wit; auto.
      * apply rassert_Ok, orb_true_iff in E. destruct E as [E|E].
        -- left. apply Nat.eqb_eq in E. destruct (vtxinwit (wit t)); [reflexivity|discriminate].
        -- right. apply Nat.eqb_eq, E.
      * apply rassert_Ok, orb_true_iff in E0. destruct E0 as [E0|E0].
        -- left. apply Nat.eqb_eq in E0. destruct (vtxoutwit (wit t)); [reflexivity|discriminate].
        -- right. apply Nat.eqb_eq, E0.
    + rinv H. apply (ser_vector_iff _ _ _ _ (ser_txin_iff sh)) in E.
      apply (ser_vector_iff _ _ _ _ ser_txout_iff) in E0. apply pack_le_iff in E1.
      apply W_tx_nowit; auto. apply andb_false_iff in EW. destruct EW as [->|EW]; [auto|].
      right. apply txwit_is_null_iff. apply negb_false_iff, EW.
  - intros H. destruct H as [v i o l Hc Hv Hi Ho Hl|v i o l wi wo -> HN Hv Hi Ho Hl Hwi Hwo HLi HLo].
    + apply pack_sint32_iff in Hv. rewrite Hv. cbn [rbind].
      replace (iw && negb (txwit_is_null (wit t))) with false.
      2:{ destruct Hc as [->|Hc]; [reflexivity|]. apply txwit_is_null_iff in Hc. rewrite Hc, andb_false_r. reflexivity. }
      apply (ser_vector_iff _ _ _ _ (ser_txin_iff sh)) in Hi. apply (ser_vector_iff _ _ _ _ ser_txout_iff) in Ho.
      apply pack_le_iff in Hl. rewrite Hi; cbn [rbind]; rewrite Ho; cbn [rbind]; rewrite Hl; cbn [rbind]. reflexivity.
    + apply pack_sint32_iff in Hv. rewrite Hv. cbn [rbind].
      apply txwit_not_null_iff in HN. rewrite HN. cbn [andb negb].
      apply (ser_vector_iff _ _ _ _ (ser_txin_iff false)) in Hi. apply (ser_vector_iff _ _ _ _ ser_txout_iff) in Ho.
      apply pack_le_iff in Hl.
      apply (ser_list_iff _ _ _ _ ser_inwit_iff) in Hwi. apply (ser_list_iff _ _ _ _ ser_outwit_iff) in Hwo.
      replace ((length (vtxinwit (wit t)) =? 0)%nat || (length (vtxinwit (wit t)) =? length (vin t))%nat) with true.
      2:{ destruct HLi as [->| ->]; [reflexivity|]. rewrite Nat.eqb_refl, orb_true_r. reflexivity. }
      replace ((length (vtxoutwit (wit t)) =? 0)%nat || (length (vtxoutwit (wit t)) =? length (vout t))%nat) with true.
      2:{ destruct HLo as [->| ->]; [reflexivity|]. rewrite Nat.eqb_refl, orb_true_r. reflexivity. }
      cbn [rassert rbind]. rewrite Hi; cbn [rbind]; rewrite Ho; cbn [rbind]; rewrite Hl; cbn [rbind].
      unfold ser_txwit. rewrite Hwi; cbn [rbind]; rewrite Hwo; cbn [rbind]. reflexivity.
Qed.

(** Body of a transaction as the deserializer can return it. *)
Definition readable_body (t : tx) : Prop :=
  - 2 ^ 31 <= nVersion t < 2 ^ 31 /\ 0 <= nLockTime t < 2 ^ 32
  /\ Z.of_nat (length (vin t)) < 2 ^ 64 /\ Z.of_nat (length (vout t)) < 2 ^ 64
  /\ Forall txin_readable (vin t) /\ Forall wf_txout (vout t).

Lemma wf_body_readable t : wf_body t -> readable_body t.
Proof.
  intros (H1 & H2 & H3 & H4 & H5 & H6). repeat split; try lia; [|assumption].
  eapply Forall_impl; [|exact H5]. apply wf_txin_readable.
Qed.

Lemma map_id_Forall {A} (f : A -> A) (P : A -> Prop) l :
  (forall x, P x -> f x = x) -> Forall P l -> map f l = l.
Proof. intros H HF. induction HF; cbn; [reflexivity|]. rewrite H, IHHF by assumption. reflexivity. Qed.

Lemma wf_norm_id t : Forall wf_txin (vin t) -> map norm_txin (vin t) = vin t.
Proof. apply map_id_Forall. intros x [H1 H2]. apply norm_txin_representable; assumption. Qed.

Lemma norm_txin_vec_W sh l b : Forall txin_readable l -> W_vec (W_txin sh) l b ->
  W_vec (W_txin sh) (map norm_txin l) b.
Proof.
  intros HF (n & s & Hn & Hs & ->). exists n, s. rewrite map_length. split; [assumption|]. split; [|reflexivity].
  clear Hn. revert s Hs. induction HF as [|x l Hx HF IH]; intros s Hs; inversion Hs; subst; cbn; constructor.
  - apply norm_txin_W; assumption.
  - apply IH; assumption.
Qed.

Definition norm_tx (dw : default_wit) (t : tx) : tx :=
  let vi := map norm_txin (vin t) in
  mkTx vi (vout t) (nLockTime t) (nVersion t)
    (if txwit_is_null (wit t) then dw vi (vout t) else wit t).

Lemma readable_txin_parse i b r : txin_readable i -> W_txin false i b -> deser_txin (b ++ r) = Ok (norm_txin i, r).
Proof.
  intros [HR HP] HW. apply deser_txin_W; [assumption| |assumption].
  destruct HP as [(E & _)|(_ & H)]; [|assumption]. intros (E1 & _). lia.
Qed.

Lemma deser_tx_W dw t b r :
  readable_body t -> wf_wit t -> W_tx true false t b ->
  deser_tx dw (b ++ r) = Ok (norm_tx dw t, r).
Proof.
  intros (HV & HT & HLi & HLo & HFi & HFo) HWit HW. unfold norm_tx.
  assert (PI : forall b r, W_vec (W_txin false) (vin t) b -> deser_vector deser_txin (b ++ r) = Ok (map norm_txin (vin t), r)).
  { intros b' r' HH. apply (deser_vector_Wf deser_txin (W_txin false) norm_txin); [|assumption].
    eapply Forall_impl; [|exact HFi]. intros x Hx b0 r0 Hb. apply readable_txin_parse; assumption. }
  assert (PO : forall b r, W_vec W_txout (vout t) b -> deser_vector deser_txout (b ++ r) = Ok (vout t, r)).
  { intros b' r' HH. apply (deser_vector_W deser_txout W_txout wf_txout); [|assumption|assumption].
    intros; apply deser_txout_W; assumption. }
  unfold deser_tx.
  destruct HW as [v i o l Hc Hv Hi Ho Hl|v i o l wi wo _ HN Hv Hi Ho Hl Hwi Hwo HLwi HLwo].
  - destruct Hc as [Hc|Hc]; [discriminate|]. apply txwit_is_null_iff in Hc. rewrite Hc.
    rewrite <- !app_assoc. destruct (read_sint32_W _ _ (([x00] ++ i ++ o ++ l) ++ r) Hv) as (u & Hu & Hs).
    rewrite <- !app_assoc in Hu. unfold pbind at 1. rewrite Hu. cbv zeta. rewrite Hs.
    unfold pbind at 1. rewrite (read_le_W 1 0 [x00]); [|lia|split; reflexivity].
    cbn [Z.eqb]. unfold pbind. rewrite (PI _ _ Hi), (PO _ _ Ho). rewrite (read_le_W 4 _ _ _ ltac:(lia) Hl). reflexivity.
  - pose proof HN as HN'. apply txwit_not_null_iff in HN'. rewrite HN'.
    destruct HWit as [HWit|(L1 & L2 & F1 & F2)]; [contradiction|].
    rewrite <- !app_assoc. destruct (read_sint32_W _ _ (([x01] ++ i ++ o ++ l ++ wi ++ wo) ++ r) Hv) as (u & Hu & Hs).
    rewrite <- !app_assoc in Hu. unfold pbind at 1. rewrite Hu. cbv zeta. rewrite Hs.
    unfold pbind at 1. rewrite (read_le_W 1 1 [x01]); [|lia|split; reflexivity].
    change (1 =? 1) with true. cbv iota. unfold pbind. rewrite (PI _ _ Hi), (PO _ _ Ho), (read_le_W 4 _ _ _ ltac:(lia) Hl).
    rewrite map_length. unfold deser_txwit, pbind. rewrite <- L1, <- L2.
    rewrite (prep_nat_W deser_inwit W_inwit (fun x => x) _ wi _); [| |assumption].
    2:{ eapply Forall_impl; [|exact F1]. intros; apply deser_inwit_W; assumption. }
    rewrite (prep_nat_W deser_outwit W_outwit (fun x => x) _ wo _); [| |assumption].
    2:{ eapply Forall_impl; [|exact F2]. intros; apply deser_outwit_W; assumption. }
    rewrite !map_id. unfold pret at 1 2. replace (mkTxWit (vtxinwit (wit t)) (vtxoutwit (wit t))) with (wit t) by (destruct (wit t); reflexivity).
    rewrite HN'. reflexivity.
Qed.

(** Witness as the deserializer can return it. *)
Definition dw_null (dw : default_wit) : Prop := forall i o, NullWit (dw i o).

Lemma deser_tx_inv dw s t r : deser_tx dw s = Ok (t, r) ->
  readable_body t /\
  ((wit t = dw (vin t) (vout t)) \/
   (~ NullWit (wit t) /\ length (vtxinwit (wit t)) = length (vin t)
    /\ length (vtxoutwit (wit t)) = length (vout t)
    /\ Forall wf_inwit (vtxinwit (wit t)) /\ Forall wf_outwit (vtxoutwit (wit t)))).
Proof.
  unfold deser_tx. intros H.
  unfold pbind at 1 in H. destruct (read_le 4 s) as [[v r1]|] eqn:E1; [|discriminate]. cbv zeta in H.
  apply read_le_range in E1. destruct (to_signed_range 3 v E1) as [HV _].
  change (256 ^ Z.of_nat 4 / 2) with (2 ^ 31) in HV.
  unfold pbind at 1 in H. destruct (read_le 1 r1) as [[fl r2]|] eqn:E2; [|discriminate].
  destruct (fl =? 1) eqn:EF; pinv H.
  - destruct (txwit_is_null v3) eqn:EN; [discriminate|].
    unfold pret in H. apply Ok_pair_inj in H. destruct H as [<- <-].
    apply (deser_vector_inv _ txin_readable) in E; [|intros ? ? ? HH; apply deser_txin_inv in HH; tauto].
    apply (deser_vector_inv _ wf_txout) in E0; [|intros ? ? ? HH; apply deser_txout_inv in HH; tauto].
    apply read_le_range in E3. change (256 ^ Z.of_nat 4) with (2 ^ 32) in E3.
    split; [repeat split; cbn; try tauto; try apply HV|]. right. cbn.
    apply txwit_not_null_iff in EN. split; [assumption|].
    unfold deser_txwit in E4. pinv E4. cbn.
    destruct (prep_nat_inv _ wf_inwit _ _ _ _ deser_inwit_inv E5) as [L1 F1].
    destruct (prep_nat_inv _ wf_outwit _ _ _ _ deser_outwit_inv E6) as [L2 F2]. auto.
  - apply (deser_vector_inv _ txin_readable) in E; [|intros ? ? ? HH; apply deser_txin_inv in HH; tauto].
    apply (deser_vector_inv _ wf_txout) in E0; [|intros ? ? ? HH; apply deser_txout_inv in HH; tauto].
    apply read_le_range in E3. change (256 ^ Z.of_nat 4) with (2 ^ 32) in E3.
    split; [repeat split; cbn; try tauto; try apply HV|]. left. reflexivity.
Qed.

Lemma W_tx_ex t : readable_body t -> wf_wit t -> exists b, W_tx true false t b.
Proof.
  intros (HV & HT & HLi & HLo & HFi & HFo) HWit.
  destruct (le_sint32_ex _ HV) as [v Hv]. destruct (le_int_ex 4 (nLockTime t)) as [l Hl]; [exact HT|].
  destruct (W_vec_ex (W_txin false) txin_readable (vin t) W_txin_ex HFi HLi) as [i Hi].
  destruct (W_vec_ex W_txout wf_txout (vout t) W_txout_ex HFo HLo) as [o Ho].
  destruct (txwit_is_null (wit t)) eqn:EN.
  - apply txwit_is_null_iff in EN. eexists. apply (W_tx_nowit true false); eauto.
  - apply txwit_not_null_iff in EN. destruct HWit as [HWit|(L1 & L2 & F1 & F2)]; [contradiction|].
    destruct (W_seq_ex W_inwit wf_inwit _ W_inwit_ex F1) as [wi Hwi].
    destruct (W_seq_ex W_outwit wf_outwit _ W_outwit_ex F2) as [wo Hwo].
    eexists. apply (W_tx_wit true false); eauto.
Qed.
