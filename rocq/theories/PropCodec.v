(** Properties C01-C17 and C60: serialisation of the Elements data structures. *)
From Verif Require Import Base BaseFacts Serialize ParserFacts TxModel SpecWire TxProofs TxProofs2 CodecFacts.
Local Open Scope Z_scope.

(** ** C01 *)
(** [d] is the 8-byte big-endian two's complement of [a]. *)
Definition be_twos64 (a : Z) (d : bytes) : Prop :=
  length d = 8%nat /\ le_val (rev d) = (if a <? 0 then a + 2 ^ 64 else a).

Theorem C01_amount_roundtrip : forall a,
  (- 2 ^ 63 <= a < 2 ^ 63 ->
     exists d, conf_value_of_amount a = Ok (x01 :: d) /\ be_twos64 a d
       /\ conf_is_explicit CConfValue (x01 :: d) = true /\ conf_is_null (x01 :: d) = false
       /\ conf_is_commitment CConfValue (x01 :: d) = false /\ to_amount (x01 :: d) = Ok a)
  /\ (~ - 2 ^ 63 <= a < 2 ^ 63 -> conf_value_of_amount a = Raise EStruct).
Proof.
  intros a. unfold conf_value_of_amount, pack_be_signed.
  change (256 ^ Z.of_nat 8 / 2) with (2 ^ 63). split.
  - intros Ha. replace ((- 2 ^ 63 <=? a) && (a <? 2 ^ 63)) with true by lia.
    exists (be_bytes 8 a).
    pose proof (be_bytes_length 8 a) as HL.
    assert (HB : blen (x01 :: be_bytes 8 a) = 9) by (rewrite blen_cons; unfold blen; rewrite HL; reflexivity).
    assert (HE : conf_is_explicit CConfValue (x01 :: be_bytes 8 a) = true).
    { unfold conf_is_explicit. rewrite HB. reflexivity. }
    split; [|split; [|split; [|split; [|split]]]].
    + unfold rbind, conf_new. rewrite HB. reflexivity.
    + split; [assumption|]. rewrite <- be_val_eq, be_val_be_bytes.
      change (256 ^ Z.of_nat 8) with (2 ^ 64). destruct (Z.ltb_spec a 0).
      * rewrite <- (Z.mod_add a 1) by lia. rewrite Z.mod_small; lia.
      * apply Z.mod_small; lia.
    + assumption.
    + unfold conf_is_null. rewrite HB. reflexivity.
    + unfold conf_is_commitment. rewrite HB. reflexivity.
    + unfold to_amount. rewrite HE. cbn [tl]. rewrite be_val_be_bytes. f_equal.
      apply (to_signed_mod 7). change (256 ^ Z.of_nat 8 / 2) with (2 ^ 63). lia.
  - intros Ha. replace ((- 2 ^ 63 <=? a) && (a <? 2 ^ 63)) with false by lia. reflexivity.
Qed.

(** Every explicit value object comes from exactly one amount. *)
Theorem C01_amount_unique : forall x a, to_amount x = Ok a -> conf_value_of_amount a = Ok x.
Proof.
  intros x a. unfold to_amount. destruct (conf_is_explicit CConfValue x) eqn:E; [|discriminate].
  intros H; apply Ok_inj in H. unfold conf_is_explicit in E. apply andb_true_iff in E. destruct E as [EL EB].
  destruct x as [|b d]; [discriminate|]. apply (bz_eq_byte b 1) in EB; [|lia]. change (zb 1) with x01 in EB. subst b.
  cbn [tl] in H. rewrite blen_cons in EL. cbn [explicitSize] in EL.
  assert (HL : length d = 8%nat) by (unfold blen in EL; lia).
  pose proof (be_val_range d) as HR. unfold blen in HR. rewrite HL in HR.
  destruct (to_signed_range 7 (be_val d) HR) as [H1 H2]. rewrite H in *.
  unfold conf_value_of_amount, pack_be_signed.
  replace ((- (256 ^ Z.of_nat 8 / 2) <=? a) && (a <? 256 ^ Z.of_nat 8 / 2)) with true by lia.
  cbn [rbind]. unfold be_bytes. rewrite <- le_bytes_mod, H2.
  fold (be_bytes 8 (be_val d)). rewrite <- HL, be_bytes_be_val.
  unfold conf_new. rewrite blen_cons. unfold blen. rewrite HL. reflexivity.
Qed.

Example C01_ex : conf_value_of_amount 100000000 = Ok [x01; x00; x00; x00; x00; x05; xf5; xe1; x00].
Proof. reflexivity. Qed.
Example C01_ex_neg : to_amount [x01; xff; xff; xff; xff; xff; xff; xff; xff] = Ok (-1).
Proof. reflexivity. Qed.

(** ** C02 *)
Theorem C02_asset_roundtrip : forall d,
  (blen d = 32 -> uint256_new d = Ok d /\ exists x, conf_asset_of_asset d = Ok x
     /\ conf_is_explicit CConfAsset x = true /\ conf_is_commitment CConfAsset x = false
     /\ to_asset x = Ok d)
  /\ (blen d <> 32 -> uint256_new d = Raise EValue).
Proof.
  intros d. split; intros HL.
  - split; [unfold uint256_new; rewrite HL; reflexivity|]. exists (x01 :: d).
    assert (HB : blen (x01 :: d) = 33) by (rewrite blen_cons, HL; reflexivity).
    assert (HE : conf_is_explicit CConfAsset (x01 :: d) = true) by (unfold conf_is_explicit; rewrite HB; reflexivity).
    split; [unfold conf_asset_of_asset, conf_new; rewrite HB; reflexivity|].
    split; [assumption|]. split; [unfold conf_is_commitment; rewrite HB; reflexivity|].
    unfold to_asset. rewrite HE. cbn [tl]. unfold uint256_new. rewrite HL. reflexivity.
  - unfold uint256_new. replace (blen d =? 32) with false by lia. reflexivity.
Qed.
Theorem C02_asset_unique : forall x d, to_asset x = Ok d -> conf_asset_of_asset d = Ok x.
Proof.
  intros x d. unfold to_asset. destruct (conf_is_explicit CConfAsset x) eqn:E; [|discriminate].
  unfold conf_is_explicit in E. apply andb_true_iff in E. destruct E as [EL EB].
  destruct x as [|b t]; [discriminate|]. apply (bz_eq_byte b 1) in EB; [|lia]. change (zb 1) with x01 in EB. subst b.
  cbn [tl]. unfold uint256_new. destruct (blen t =? 32) eqn:E2; [|discriminate]. intros H; apply Ok_inj in H; subst.
  unfold conf_asset_of_asset, conf_new. rewrite blen_cons. replace (1 + blen d) with 33 by lia. reflexivity.
Qed.
Example C02_ex : to_asset (x01 :: zeros 32) = Ok (zeros 32).
Proof. reflexivity. Qed.

(** ** C03 *)
Definition class_size (c : cclass) : Z := match c with CConfValue => 9 | _ => 33 end.

Theorem C03_forms : forall c x,
  (conf_new c x = Ok x <-> (blen x = 0 \/ blen x = class_size c \/ blen x = 33))
  /\ (conf_new c x = Ok x \/ conf_new c x = Raise EValue)
  /\ (conf_is_valid c x = true <-> ConfForm c x)
  /\ (conf_is_null x = true <-> x = [])
  /\ (conf_is_explicit c x = true <-> blen x = class_size c /\ exists d, x = x01 :: d)
  /\ ~ (conf_is_null x = true /\ conf_is_explicit c x = true)
  /\ ~ (conf_is_null x = true /\ conf_is_commitment c x = true)
  /\ ~ (conf_is_explicit c x = true /\ conf_is_commitment c x = true).
Proof.
  intros c x. pose proof (blen_nonneg x).
  assert (Hsz : explicitSize c = class_size c) by (destruct c; reflexivity).
  assert (HN : conf_is_null x = true <-> x = []).
  { unfold conf_is_null. destruct x; [split; reflexivity|]. rewrite blen_cons. pose proof (blen_nonneg x). split; [intros; exfalso; lia|discriminate]. }
  assert (HE : conf_is_explicit c x = true <-> blen x = class_size c /\ exists d, x = x01 :: d).
  { unfold conf_is_explicit. rewrite Hsz, andb_true_iff, Z.eqb_eq. destruct x as [|b d].
    - split; [intros [? ?]; discriminate|intros [_ [d H1]]; discriminate].
    - rewrite (bz_eq_byte b 1) by lia. change (zb 1) with x01. split.
      + intros [HL ->]; eauto.
      + intros [HL [d' H1]]; inversion H1; subst; auto. }
  assert (HX : conf_new c x = Ok x \/ conf_new c x = Raise EValue)
    by (unfold conf_new; destruct (_ || _); auto).
  split; [|split; [exact HX|split; [apply conf_is_valid_iff|split; [exact HN|split; [exact HE|split; [|split]]]]]].
  - unfold conf_new, committedSize. rewrite Hsz.
    destruct ((blen x =? 0) || (blen x =? class_size c) || (blen x =? 33)) eqn:E.
    + split; [intros _; lia|reflexivity].
    + split; [discriminate|intros; lia].
  - rewrite HN, HE. intros [-> [_ [d H1]]]. discriminate.
  - rewrite HN. intros [-> H1]. discriminate.
  - rewrite HE. intros [[_ [d ->]] H1]. unfold conf_is_commitment in H1. apply andb_true_iff in H1.
    destruct H1 as [_ H1]. destruct c; discriminate.
Qed.

Theorem C03_getters : forall x,
  (to_amount x = Raise EType <-> conf_is_explicit CConfValue x = false)
  /\ (to_asset x = Raise EType <-> conf_is_explicit CConfAsset x = false)
  /\ (conf_is_explicit CConfValue x = true -> exists a, to_amount x = Ok a)
  /\ (conf_is_explicit CConfAsset x = true -> exists d, to_asset x = Ok d).
Proof.
  intros x. assert (HA : conf_is_explicit CConfAsset x = true -> exists d, to_asset x = Ok d).
  { intros E. unfold to_asset. rewrite E. unfold conf_is_explicit in E. apply andb_true_iff in E. destruct E as [E _].
    destruct x as [|b d]; [discriminate|]. rewrite blen_cons in E. cbn [explicitSize] in E.
    exists d. cbn [tl]. unfold uint256_new. replace (blen d =? 32) with true by lia. reflexivity. }
  split; [|split; [|split; [|exact HA]]].
  - unfold to_amount. destruct (conf_is_explicit CConfValue x); split; (discriminate || reflexivity).
  - destruct (conf_is_explicit CConfAsset x) eqn:E.
    + destruct (HA eq_refl) as [d ->]. split; discriminate.
    + unfold to_asset. rewrite E. split; reflexivity.
  - unfold to_amount. intros ->. eauto.
Qed.
Example C03_ex : conf_new CConfValue (zeros 33) = Ok (zeros 33) /\ conf_is_valid CConfValue (zeros 33) = false.
Proof. split; reflexivity. Qed.

(** ** C04 *)
Theorem C04_conf_roundtrip_iff_valid : forall c x r,
  deser_conf c (ser_conf x ++ r) = Ok (x, r) <-> ConfForm c x.
Proof.
  intros. split; [apply conf_valid_of_roundtrip|]. intros H. apply deser_conf_W; [assumption|apply ser_conf_W].
Qed.
Theorem C04_conf_accepts_only_valid : forall c s x r,
  deser_conf c s = Ok (x, r) -> ConfForm c x /\ s = ser_conf x ++ r.
Proof. exact deser_conf_inv. Qed.
(** The claim "every constructible field object round-trips" is false. *)
Theorem C04_all_constructible_roundtrip_refuted :
  exists c x, conf_new c x = Ok x /\ forall r, deser_conf c (ser_conf x ++ r) <> Ok (x, r).
Proof.
  exists CConfValue, (zeros 33). split; [reflexivity|]. intros r H. apply conf_valid_of_roundtrip in H.
  apply conf_is_valid_iff in H. discriminate.
Qed.
Example C04_ex : ConfForm CConfValue (x08 :: zeros 32) /\ ConfForm CConfAsset (x0b :: zeros 32) /\ ConfForm CConfNonce (x03 :: zeros 32).
Proof. repeat split; apply CF_commit; cbn; auto. Qed.

(** ** C05 *)
Theorem C05_inwit_roundtrip : forall w r, wf_inwit w ->
  exists b, ser_inwit w = Ok b /\ W_inwit w b /\ deser_inwit (b ++ r) = Ok (w, r).
Proof.
  intros w r H. destruct (W_inwit_ex w H) as [b Hb]. exists b.
  split; [apply ser_inwit_iff, Hb|]. split; [exact Hb|apply deser_inwit_W; assumption].
Qed.
Theorem C05_outwit_roundtrip : forall w r, wf_outwit w ->
  exists b, ser_outwit w = Ok b /\ W_outwit w b /\ deser_outwit (b ++ r) = Ok (w, r).
Proof.
  intros w r H. destruct (W_outwit_ex w H) as [b Hb]. exists b.
  split; [apply ser_outwit_iff, Hb|]. split; [exact Hb|apply deser_outwit_W; assumption].
Qed.
Example C05_ex : exists w b, wf_inwit w /\ ser_inwit w = Ok b /\ b = [x01; xaa; x00; x02; x01; xbb; x00; x00].
Proof.
  exists (mkInWit [[xbb]; []] [xaa] [] []). eexists. split; [|split; reflexivity].
  repeat split; cbn; try lia; repeat constructor; cbn; unfold small, blen; cbn; lia.
Qed.

(** ** C06 *)
Theorem C06_issuance_roundtrip : forall i r, wf_issuance i ->
  W_issuance i (ser_issuance i) /\ deser_issuance (ser_issuance i ++ r) = Ok (i, r).
Proof.
  intros i r H. assert (HW : W_issuance i (ser_issuance i)) by (apply W_issuance_ser; reflexivity).
  split; [exact HW|]. apply deser_issuance_W; assumption.
Qed.
Theorem C06_issuance_exact : forall s i r, deser_issuance s = Ok (i, r) ->
  wf_issuance i /\ s = ser_issuance i ++ r.
Proof. exact deser_issuance_inv. Qed.
Example C06_ex : wf_issuance (mkIssuance (zeros 32) (repeat xab 32) (x01 :: zeros 8) (x09 :: zeros 32)).
Proof. repeat split; try reflexivity; [apply CF_explicit|apply CF_commit]; cbn; auto. Qed.

(** ** C07 *)
Theorem C07_txin_roundtrip_iff : forall i b, txin_in_range i -> ser_txin false i = Ok b ->
  ((forall r, deser_txin (b ++ r) = Ok (i, r)) <-> txin_representable i).
Proof.
  intros i b HR HS. apply ser_txin_iff in HS. split.
  - intros H. specialize (H []).
    destruct (Z.eqb_spec (op_n (prevout i)) (2 ^ 32 - 1)) as [EC|EC].
    + rewrite (deser_txin_W i b [] HR) in H; [|intros (A1 & _); lia|assumption].
      apply Ok_pair_inj in H. destruct H as [H _]. unfold norm_txin in H. rewrite EC, Z.eqb_refl in H.
      left. split; [assumption|]. rewrite <- H. split; reflexivity.
    + assert (HB : 0 <= op_n (prevout i) < 2 ^ 30)
        by (destruct HS as (w & n & s & q & iss & [[E _]|[? _]] & _); lia).
      right. split; [assumption|].
      assert (HSp : ~ txin_special i).
      { intros HSp. rewrite (deser_txin_special i b [] HR HSp HS) in H.
        apply Ok_pair_inj in H. destruct H as [H _]. apply (f_equal (fun t => op_n (prevout t))) in H. cbn in H. lia. }
      split; [|exact HSp]. intros EI.
      rewrite (deser_txin_W i b [] HR HSp HS) in H. apply Ok_pair_inj in H. destruct H as [H _].
      unfold norm_txin in H. replace (op_n (prevout i) =? 2 ^ 32 - 1) with false in H by lia. rewrite EI in H.
      rewrite <- H. reflexivity.
  - intros HP r. apply deser_txin_wf; [split; assumption|assumption].
Qed.

(** The excluded combination really is reachable and misread: index
    0x3fffffff with an issuance and the peg-in flag comes back as a coinbase
    input, without either. *)
Theorem C07_every_serializable_txin_roundtrips_refuted :
  exists i b, txin_in_range i /\ ser_txin false i = Ok b /\ 0 <= op_n (prevout i) < 2 ^ 30
    /\ (has_issuance i = false -> assetIssuance i = issuance_default)
    /\ exists j r, deser_txin b = Ok (j, r) /\ op_n (prevout j) = 2 ^ 32 - 1
         /\ has_issuance j = false /\ is_pegin j = false /\ r <> [].
Proof.
  exists (mkTxIn (mkOutPoint (zeros 32) 0x3fffffff) [] 0
            (mkIssuance (zeros 32) (zeros 32) (x01 :: zeros 8) []) true).
  eexists. split.
  - repeat split; try reflexivity; cbn; try lia; try constructor. unfold small, blen; cbn; lia. cbn. reflexivity.
  - split; [reflexivity|]. split; [cbn; lia|]. split; [discriminate|].
    eexists _, _. split; [vm_compute; reflexivity|]. split; [reflexivity|]. split; [reflexivity|]. split; [reflexivity|discriminate].
Qed.
Example C07_ex : exists i b, wf_txin i /\ has_issuance i = true /\ is_pegin i = true /\ ser_txin false i = Ok b
  /\ deser_txin b = Ok (i, []).
Proof.
  exists (mkTxIn (mkOutPoint (repeat x11 32) 7) [x51] 0xfffffffe
            (mkIssuance (zeros 32) (repeat x22 32) (x01 :: zeros 8) (x08 :: zeros 32)) true).
  eexists. split.
  - split.
    + repeat split; try reflexivity; cbn; try lia; try (apply CF_explicit; reflexivity);
      try (apply CF_commit; cbn; auto); unfold small, blen; cbn; lia.
    + right. cbn. split; [lia|]. split; [discriminate|]. intros (H & _). discriminate.
  - split; [reflexivity|]. split; [reflexivity|]. split; [vm_compute; reflexivity|]. vm_compute; reflexivity.
Qed.

(** ** C08 *)
Theorem C08_txin_index_guard : forall sh i, txin_in_range i ->
  (ser_txin sh i = Raise ETxInSerialization <-> (2 ^ 30 <= op_n (prevout i) /\ op_n (prevout i) <> 2 ^ 32 - 1))
  /\ ((op_n (prevout i) < 2 ^ 30 \/ op_n (prevout i) = 2 ^ 32 - 1) -> exists b, ser_txin sh i = Ok b).
Proof.
  intros sh i (HL & HN & HS & HQ & HI).
  assert (HOK : (op_n (prevout i) < 2 ^ 30 \/ op_n (prevout i) = 2 ^ 32 - 1) -> exists b, ser_txin sh i = Ok b).
  { intros HB. destruct (W_bytes_ex _ HS) as [s Hs].
    destruct (le_int_ex 4 (nSequence i)) as [q Hq]; [exact HQ|].
    assert (exists w, wire_index sh i w /\ 0 <= w < 2 ^ 32) as (w & Hw & Rw).
    { destruct HB as [E|E].
      - eexists. split; [right; split; [lia|reflexivity]|].
        destruct (negb sh && has_issuance i), (negb sh && is_pegin i); lia.
      - exists (2 ^ 32 - 1). split; [left; auto|lia]. }
    destruct (le_int_ex 4 w) as [n Hn]; [exact Rw|].
    eexists. apply ser_txin_iff. exists w, n, s, q. eexists. do 5 (split; [eassumption|]).
    split; [apply issuance_ser_if; reflexivity|reflexivity]. }
  split; [|exact HOK].
  destruct (Z_lt_le_dec (op_n (prevout i)) (2 ^ 30)) as [HB|HB].
  - destruct (HOK (or_introl HB)) as [b ->]. split; [discriminate|lia].
  - destruct (Z.eq_dec (op_n (prevout i)) (2 ^ 32 - 1)) as [E|E].
    + destruct (HOK (or_intror E)) as [b ->]. split; [discriminate|lia].
    + split; [intros _; split; assumption|]. intros _. unfold ser_txin. change 0xffffffff with (2 ^ 32 - 1).
      replace (op_n (prevout i) =? 2 ^ 32 - 1) with false by lia. rewrite high_bits_iff.
      replace ((0 <=? op_n (prevout i)) && (op_n (prevout i) <? 2 ^ 30)) with false by lia. reflexivity.
Qed.
Example C08_ex : ser_txin false (mkTxIn (mkOutPoint (zeros 32) 0x40000000) [] 0 issuance_default false) = Raise ETxInSerialization.
Proof. reflexivity. Qed.

(** ** C09 *)
(** [w] is the 32-bit index found on the wire at the start of the input. *)
Theorem C09_deserialized_index : forall s i r, deser_txin s = Ok (i, r) ->
  exists h n rest w, s = h ++ n ++ rest /\ op_hash (prevout i) = h /\ blen h = 32 /\ le_int 4 w n
    /\ ((w = 2 ^ 32 - 1 /\ op_n (prevout i) = 2 ^ 32 - 1 /\ assetIssuance i = issuance_default /\ is_pegin i = false)
        \/ (w <> 2 ^ 32 - 1 /\ op_n (prevout i) < 2 ^ 30 /\ op_n (prevout i) = w mod 2 ^ 30
            /\ is_pegin i = Z.testbit w 30
            /\ (Z.testbit w 31 = false -> assetIssuance i = issuance_default))).
Proof.
  intros s i r H. apply deser_txin_inv in H. destruct H as ((HR & _) & w & n & sg & q & Hs & Hn & _ & Hc).
  eexists _, n, _, w. split; [exact Hs|]. split; [reflexivity|]. destruct HR as (HL & _). split; [exact HL|].
  split; [exact Hn|]. destruct Hc as [Hc|(H1 & H2 & H3 & H4)]; [left; exact Hc|].
  right. split; [exact H1|]. split; [|split; [exact H2|split; [exact H3|exact H4]]].
  pose proof (Z.mod_pos_bound w (2 ^ 30) ltac:(lia)). lia.
Qed.
(** An issuance record is consumed exactly when bit 31 is set. *)
Theorem C09_issuance_bit : forall h n s q w r, blen h = 32 -> le_int 4 w n -> w <> 2 ^ 32 - 1 ->
  Z.testbit w 31 = true -> W_bytes [] s -> length q = 4%nat ->
  (forall i r', deser_txin (h ++ n ++ s ++ q ++ r) = Ok (i, r') <->
     (exists iss, deser_issuance r = Ok (iss, r')
       /\ i = mkTxIn (mkOutPoint h (w mod 2 ^ 30)) [] (le_val q) iss (Z.testbit w 30))).
Proof.
  intros h n s q w r HL Hn Hw HB Hs Hq i r'.
  unfold deser_txin. unfold pbind at 1. rewrite (deser_outpoint_app _ _ w _ HL Hn).
  unfold pbind at 1. rewrite (deser_bytes_W [] s); [|unfold small, blen; cbn; lia|assumption].
  unfold pbind at 1. rewrite (read_le_app 4 q); [|assumption|unfold MAX_SIZE; cbn; lia].
  cbn [op_n op_hash]. change 0xffffffff with (2 ^ 32 - 1).
  replace (w =? 2 ^ 32 - 1) with false by lia. cbv zeta.
  unfold OUTPOINT_ISSUANCE_FLAG, OUTPOINT_PEGIN_FLAG. rewrite !land_pow2_testbit, HB, land_mask by lia.
  rewrite outpoint_new_ok; [|assumption|change (2 ^ 32) with 4294967296; change (2 ^ 30) with 1073741824; lia].
  unfold pbind. destruct (deser_issuance r) as [[iss r2]|e]; unfold pret.
  - split.
    + intros H. apply Ok_pair_inj in H. destruct H; subst. eauto.
    + intros (iss' & H1 & ->). apply Ok_pair_inj in H1. destruct H1; subst. reflexivity.
  - split; [discriminate|]. intros (? & ? & _). discriminate.
Qed.
Example C09_ex : exists i, deser_txin (zeros 32 ++ [x05; x00; x00; x40] ++ [x00] ++ [x00; x00; x00; x00]) = Ok (i, [])
  /\ op_n (prevout i) = 5 /\ is_pegin i = true.
Proof. eexists. split; [vm_compute; reflexivity|split; reflexivity]. Qed.

(** ** C10 *)
Theorem C10_txout_roundtrip : forall o r, wf_txout o ->
  exists b, ser_txout o = Ok b /\ W_txout o b /\ deser_txout (b ++ r) = Ok (o, r).
Proof.
  intros o r H. destruct (W_txout_ex o H) as [b Hb]. exists b.
  split; [apply ser_txout_iff, Hb|]. split; [exact Hb|apply deser_txout_W; assumption].
Qed.
Example C10_ex : exists o b, wf_txout o /\ ser_txout o = Ok b /\ blen b = 33 + 9 + 1 + 2.
Proof.
  exists (mkTxOut (x01 :: zeros 8) [x51] (x01 :: zeros 32) []). eexists. split; [|split; reflexivity].
  repeat split; try constructor; try reflexivity. unfold small, blen; cbn; lia.
Qed.

(** ** C11 *)
Theorem C11_tx_roundtrip : forall dw t r, dw_null dw -> wf_tx t ->
  exists b t', tx_serialize t = Ok b /\ deser_tx dw (b ++ r) = Ok (t', r) /\ same_tx t t'.
Proof.
  intros dw t r HD [HB HWit]. pose proof (wf_body_readable t HB) as HR.
  destruct (W_tx_ex t HR HWit) as [b Hb]. exists b, (norm_tx dw t).
  split; [apply ser_tx_iff, Hb|]. split; [apply deser_tx_W; assumption|].
  destruct HB as (_ & _ & _ & _ & HFi & _). unfold same_tx, norm_tx. cbn. rewrite wf_norm_id by assumption.
  repeat split. destruct (txwit_is_null (wit t)) eqn:EN; [|left; reflexivity].
  right. split; [apply txwit_is_null_iff, EN|apply HD].
Qed.
Theorem C11_tx_deserialize : forall dw t, dw_null dw -> wf_tx t ->
  exists b t', tx_serialize t = Ok b /\ tx_deserialize dw b = Ok t' /\ same_tx t t'.
Proof.
  intros dw t HD HW. destruct (C11_tx_roundtrip dw t [] HD HW) as (b & t' & H1 & H2 & H3).
  rewrite app_nil_r in H2. exists b, t'. split; [exact H1|]. split; [|exact H3].
  unfold tx_deserialize, deserialize_all. rewrite H2. reflexivity.
Qed.
Theorem C11_tx_injective : forall t1 t2 b, wf_tx t1 -> wf_tx t2 ->
  tx_serialize t1 = Ok b -> tx_serialize t2 = Ok b -> same_tx t1 t2.
Proof.
  intros t1 t2 b H1 H2 E1 E2. set (dw := fun (_ : list txin) (_ : list txout) => mkTxWit [] []).
  assert (HD : dw_null dw) by (intros ? ?; split; constructor).
  destruct (C11_tx_roundtrip dw t1 [] HD H1) as (b1 & t1' & A1 & B1 & C1).
  destruct (C11_tx_roundtrip dw t2 [] HD H2) as (b2 & t2' & A2 & B2 & C2).
  rewrite E1 in A1. rewrite E2 in A2. apply Ok_inj in A1, A2. subst b1 b2. rewrite B1 in B2.
  apply Ok_pair_inj in B2. destruct B2 as [-> _].
  destruct C1 as (? & ? & ? & ? & W1), C2 as (? & ? & ? & ? & W2). unfold same_tx.
  repeat split; try congruence. destruct W1 as [W1|[W1 W1']], W2 as [W2|[W2 W2']]; try (left; congruence).
  - right. rewrite W1. auto.
  - right. rewrite W2. auto.
  - right; auto.
Qed.

(** A concrete transaction used by the examples: one input with issuance and
    peg-in, two outputs, witness data. *)
Definition ex_txin : txin :=
  mkTxIn (mkOutPoint (repeat x11 32) 7) [x51] 0xfffffffe
            (mkIssuance (zeros 32) (repeat x22 32) (x01 :: zeros 8) (x08 :: zeros 32)) true.
Definition ex_tx : tx :=
  mkTx [ex_txin] [mkTxOut (x01 :: zeros 8) [x51] (x01 :: zeros 32) []; mkTxOut (x09 :: zeros 32) [] (x0a :: zeros 32) (x02 :: zeros 32)]
    3000000000 2
    (mkTxWit [mkInWit [[xaa; xbb]; []] [x01] [] [[xcc]]] [outwit_null; mkOutWit [x07] [x08; x09]]).
Lemma ex_txin_wf : wf_txin ex_txin.
Proof.
  split.
  + repeat split; try reflexivity; cbn; try lia; try (apply CF_explicit; reflexivity);
      try (apply CF_commit; cbn; auto); unfold small, blen; cbn; lia.
  + right. cbn. split; [lia|]. split; [discriminate|]. intros (H & _). discriminate.
Qed.
Ltac conf_form := first [apply CF_null | apply CF_explicit; reflexivity | apply CF_commit; [cbn; tauto|reflexivity]].
Ltac wf_out := split; [conf_form|split; [conf_form|split; [conf_form|unfold small, blen; cbn; lia]]].
Lemma ex_tx_wf : wf_tx ex_tx.
Proof.
  split.
  - split; [cbn; lia|]. split; [cbn; lia|]. split; [cbn; lia|]. split; [cbn; lia|].
    split; [constructor; [apply ex_txin_wf|constructor]|].
    constructor; [wf_out|]. constructor; [wf_out|constructor].
  - right. split; [reflexivity|]. split; [reflexivity|].
    split; repeat constructor; cbn; unfold small, blen; cbn; lia.
Qed.
Example C11_ex : exists b, tx_serialize ex_tx = Ok b /\ tx_deserialize nulls_wit b = Ok ex_tx.
Proof. eexists. split; [vm_compute; reflexivity|]. vm_compute; reflexivity. Qed.

(** ** C12 *)
Theorem C12_wire_layout : forall include_witness for_sighash t b,
  ser_tx include_witness for_sighash t = Ok b <-> W_tx include_witness for_sighash t b.
Proof. exact ser_tx_iff. Qed.
Theorem C12_wire_layout_functional : forall iw sh t b b', W_tx iw sh t b -> W_tx iw sh t b' -> b = b'.
Proof. exact W_tx_fun. Qed.
Theorem C12_deserialize_wire : forall dw t b r, wf_tx t -> W_tx true false t b ->
  exists t', deser_tx dw (b ++ r) = Ok (t', r) /\ vin t' = vin t /\ vout t' = vout t
    /\ nLockTime t' = nLockTime t /\ nVersion t' = nVersion t /\ (~ NullWit (wit t) -> wit t' = wit t).
Proof.
  intros dw t b r [HB HWit] HW. exists (norm_tx dw t).
  split; [apply deser_tx_W; [apply wf_body_readable|..]; assumption|].
  destruct HB as (_ & _ & _ & _ & HFi & _). unfold norm_tx; cbn. rewrite wf_norm_id by assumption.
  repeat split. intros HN. apply txwit_not_null_iff in HN. rewrite HN. reflexivity.
Qed.

(** ** C13 *)
Theorem C13_superfluous_witness : forall dw s t r fl, dw_null dw ->
  deser_tx dw s = Ok (t, r) -> nth_error s 4 = Some fl -> (fl = x01 <-> ~ NullWit (wit t)).
Proof.
  intros dw s t r fl HD H HF. unfold deser_tx in H.
  unfold pbind at 1 in H. destruct (read_le 4 s) as [[v r1]|] eqn:E1; [|discriminate]. cbv zeta in H.
  apply read_le_inv in E1. destruct E1 as (vb & -> & HLv & _).
  unfold pbind at 1 in H. destruct (read_le 1 r1) as [[f r2]|] eqn:E2; [|discriminate].
  apply read_le_inv in E2. destruct E2 as (fb & -> & HLf & ->).
  destruct fb as [|f0 [|]]; try discriminate HLf.
  rewrite nth_error_app2 in HF by lia. rewrite HLv in HF. cbn in HF. inversion HF; subst f0; clear HF.
  assert (EV : le_val [fl] = bz fl) by (cbn [le_val]; lia). rewrite EV in H.
  destruct (bz fl =? 1) eqn:EF.
  - apply (bz_eq_byte fl 1) in EF; [|lia]. change (zb 1) with x01 in EF. subst fl. pinv H.
    destruct (txwit_is_null _) eqn:EN; [discriminate|]. unfold pret in H. apply Ok_pair_inj in H. destruct H as [<- <-].
    cbn. apply txwit_not_null_iff in EN. split; auto.
  - pinv H. split.
    + intros ->. discriminate.
    + intros HN. exfalso. apply HN. cbn. apply HD.
Qed.
(** Only the documented errors are ever raised, and ValueError only for a
    flagged transaction whose witness records are all empty. *)
Theorem C13_deserialize_errors : forall dw s e, deser_tx dw s = Raise e ->
  e = ETruncation \/ e = ESerialization \/ e = EWitnessSerialization \/
  (e = EValue /\ nth_error s 4 = Some x01 /\
   (* the same bytes with flag 0 parse, and are followed by one empty witness per input and output *)
   exists t r w r', deser_tx dw (firstn 4 s ++ [x00] ++ skipn 5 s) = Ok (t, r)
     /\ deser_txwit (length (vin t)) (length (vout t)) r = Ok (w, r') /\ NullWit w).
Proof.
  intros dw s e H. apply deser_tx_err in H. destruct H as [[[->| ->]| ->]|(-> & v & vi & vo & lt & w & r1 & r2 & r3 & r4 & r5 & E1 & E2 & E3 & E4 & E5 & (r6 & E6) & HN)]; auto.
  do 3 right. split; [reflexivity|].
  pose proof E1 as E1'. apply read_le_inv in E1. destruct E1 as (vb & -> & HLv & ->).
  apply read_le_inv in E2. destruct E2 as (fb & -> & HLf & HF).
  destruct fb as [|f0 [|]]; try discriminate HLf. cbn [le_val] in HF.
  assert (f0 = x01) by (apply bz_inj; rewrite bz_x01; lia). subst f0.
  destruct vb as [|b0 [|b1 [|b2 [|b3 [|]]]]]; try discriminate HLv.
  split; [reflexivity|].
  exists (mkTx vi vo lt (to_signed 4 (le_val [b0; b1; b2; b3])) (dw vi vo)), r5, w, r6.
  split; [|split; assumption].
  cbn [firstn skipn app]. unfold deser_tx. unfold pbind at 1.
  change (b0 :: b1 :: b2 :: b3 :: x00 :: r2) with ([b0; b1; b2; b3] ++ x00 :: r2).
  rewrite (read_le_app 4 [b0; b1; b2; b3] (x00 :: r2)); [|reflexivity|unfold MAX_SIZE; cbn; lia].
  cbv zeta. unfold pbind at 1. change (x00 :: r2) with ([x00] ++ r2). rewrite (read_le_app 1 [x00] r2); [|reflexivity|unfold MAX_SIZE; cbn; lia].
  change (le_val [x00] =? 1) with false. cbv iota. unfold pbind. rewrite E3, E4, E5. reflexivity.
Qed.
Example C13_ex : deser_tx nulls_wit ([x02; x00; x00; x00; x01] ++ [x00; x00] ++ zeros 4) = Raise EValue.
Proof. reflexivity. Qed.

(** ** C14 *)
Theorem C14_normalisation : forall dw s t r, dw_null dw -> deser_tx dw s = Ok (t, r) ->
  exists b t', tx_serialize t = Ok b /\ wf_tx t' /\ tx_deserialize dw b = Ok t' /\ tx_serialize t' = Ok b.
Proof.
  intros dw s t r HD H. apply deser_tx_inv in H. destruct H as [HR HWt].
  assert (HWit : wf_wit t).
  { destruct HWt as [E|(_ & H1 & H2 & H3 & H4)]; [left; rewrite E; apply HD|right; auto]. }
  destruct (W_tx_ex t HR HWit) as [b Hb]. exists b, (norm_tx dw t).
  assert (HWf : wf_tx (norm_tx dw t)).
  { destruct HR as (HV & HT & HLi & HLo & HFi & HFo). split.
    - unfold norm_tx. repeat split; cbn; try rewrite map_length; try lia; [|assumption].
      clear HLi Hb HWit HWt. induction HFi; cbn; constructor; [apply norm_txin_wf; assumption|assumption].
    - unfold norm_tx, wf_wit. cbn. destruct (txwit_is_null (wit t)) eqn:EN; [left; apply HD|].
      rewrite map_length. destruct HWit as [HWit|HWit]; [|right; exact HWit].
      apply txwit_is_null_iff in HWit. congruence. }
  split; [apply ser_tx_iff, Hb|]. split; [exact HWf|].
  split.
  - unfold tx_deserialize, deserialize_all. pose proof (deser_tx_W dw t b [] HR HWit Hb) as HDs.
    rewrite app_nil_r in HDs. rewrite HDs. reflexivity.
  - apply ser_tx_iff. destruct HR as (HV & HT & HLi & HLo & HFi & HFo).
    destruct Hb as [v i o l Hc Hv Hi Ho Hl|v i o l wi wo _ HN Hv Hi Ho Hl Hwi Hwo HLwi HLwo].
    + apply (W_tx_nowit true false (norm_tx dw t)); unfold norm_tx; cbn; auto.
      * right. destruct Hc as [Hc|Hc]; [discriminate|]. apply txwit_is_null_iff in Hc. rewrite Hc. apply HD.
      * apply norm_txin_vec_W; assumption.
    + pose proof HN as HN'. apply txwit_not_null_iff in HN'.
      apply (W_tx_wit true false (norm_tx dw t)); unfold norm_tx; cbn; rewrite ?HN', ?map_length; auto.
      apply norm_txin_vec_W; assumption.
Qed.
(** Byte-for-byte canonicity is false, in three independent ways: an unknown
    flag byte, an issuance flag with a null issuance, a non-minimal count. *)
Theorem C14_bytes_canonical_refuted :
  exists s1 s2 s3 t1 t2 t3 b1 b2 b3,
    tx_deserialize nulls_wit s1 = Ok t1 /\ tx_serialize t1 = Ok b1 /\ b1 <> s1 /\ nth_error s1 4 = Some x02
    /\ tx_deserialize nulls_wit s2 = Ok t2 /\ tx_serialize t2 = Ok b2 /\ blen s2 = blen b2 + 66
    /\ tx_deserialize nulls_wit s3 = Ok t3 /\ tx_serialize t3 = Ok b3 /\ blen s3 = blen b3 + 2.
Proof.
  exists ([x02; x00; x00; x00; x02] ++ [x00; x00] ++ zeros 4).
  exists ([x02; x00; x00; x00; x00] ++ [x01] ++ zeros 32 ++ [x00; x00; x00; x80] ++ [x00] ++ zeros 4
          ++ zeros 64 ++ [x00; x00] ++ [x00] ++ zeros 4).
  exists ([x02; x00; x00; x00; x00] ++ [xfd; x00; x00] ++ [x00] ++ zeros 4).
  do 6 eexists.
  split; [vm_compute; reflexivity|]. split; [vm_compute; reflexivity|]. split; [vm_compute; discriminate|].
  split; [reflexivity|]. split; [vm_compute; reflexivity|]. split; [vm_compute; reflexivity|].
  split; [reflexivity|]. split; [vm_compute; reflexivity|]. split; [vm_compute; reflexivity|]. reflexivity.
Qed.

(** ** C15 *)
Theorem C15_prefix_truncated : forall dw s t r, deser_tx dw s = Ok (t, r) ->
  exists consumed, s = consumed ++ r
    /\ (forall r', deser_tx dw (consumed ++ r') = Ok (t, r'))
    /\ (forall p q, consumed = p ++ q -> q <> [] -> deser_tx dw p = Raise ETruncation).
Proof.
  intros dw s t r H. destruct (local_ok _ (local_deser_tx dw) _ _ _ H) as (c & -> & Hc).
  exists c. split; [reflexivity|]. split; [exact Hc|]. intros p q E1 E2.
  eapply local_trunc; [apply local_deser_tx|apply (Hc [])|exact E1|exact E2].
Qed.
Theorem C15_extra_data_rejected : forall dw s t r, deser_tx dw s = Ok (t, r) -> r <> [] ->
  tx_deserialize dw s = Raise EExtraData.
Proof.
  intros dw s t r H HN. unfold tx_deserialize, deserialize_all. rewrite H. destruct r; [contradiction|reflexivity].
Qed.
(** No serialisation of a transaction is a proper prefix of another one. *)
Theorem C15_prefix_free : forall t1 t2 b1 b2 r, wf_tx t1 -> wf_tx t2 ->
  tx_serialize t1 = Ok b1 -> tx_serialize t2 = Ok b2 -> b2 = b1 ++ r -> r = [] /\ same_tx t1 t2.
Proof.
  intros t1 t2 b1 b2 r H1 H2 E1 E2 ->. set (dw := fun (_ : list txin) (_ : list txout) => mkTxWit [] []).
  assert (HD : dw_null dw) by (intros ? ?; split; constructor).
  destruct (C11_tx_roundtrip dw t1 r HD H1) as (b1' & t1' & A1 & B1 & C1).
  destruct (C11_tx_roundtrip dw t2 [] HD H2) as (b2' & t2' & A2 & B2 & C2).
  rewrite E1 in A1. rewrite E2 in A2. apply Ok_inj in A1, A2. subst b1' b2'. rewrite app_nil_r, B1 in B2.
  apply Ok_pair_inj in B2. destruct B2 as [_ ->]. split; [reflexivity|]. rewrite app_nil_r in E2.
  eapply C11_tx_injective; eassumption.
Qed.
Example C15_ex : exists b, tx_serialize ex_tx = Ok b /\ deser_tx nulls_wit (firstn 100 b) = Raise ETruncation.
Proof. eexists. split; [vm_compute; reflexivity|]. vm_compute; reflexivity. Qed.

(** ** C16 *)
Theorem C16_witness_independent : forall sh t1 t2,
  vin t1 = vin t2 -> vout t1 = vout t2 -> nLockTime t1 = nLockTime t2 -> nVersion t1 = nVersion t2 ->
  ser_tx false sh t1 = ser_tx false sh t2.
Proof. intros sh t1 t2 H1 H2 H3 H4. unfold ser_tx. rewrite H1, H2, H3, H4. reflexivity. Qed.
Theorem C16_txid_preimage_injective : forall t1 t2 b, wf_body t1 -> wf_body t2 ->
  ser_tx false false t1 = Ok b -> ser_tx false false t2 = Ok b ->
  vin t1 = vin t2 /\ vout t1 = vout t2 /\ nLockTime t1 = nLockTime t2 /\ nVersion t1 = nVersion t2.
Proof.
  intros t1 t2 b H1 H2 E1 E2. rewrite strip_ser in E1, E2.
  assert (W1 : wf_tx (strip t1)) by (split; [exact H1|left; apply strip_null]).
  assert (W2 : wf_tx (strip t2)) by (split; [exact H2|left; apply strip_null]).
  destruct (C11_tx_injective _ _ _ W1 W2 E1 E2) as (? & ? & ? & ? & _). cbn in *. auto.
Qed.
(** Transaction id for an arbitrary hash function: it never depends on the
    witness, and equal ids of different bodies are a collision of [Hash]. *)
Theorem C16_txid_commits : forall (Hash : bytes -> bytes) t1 t2 b1 b2, wf_body t1 -> wf_body t2 ->
  ser_tx false false t1 = Ok b1 -> ser_tx false false t2 = Ok b2 -> Hash b1 = Hash b2 ->
  (vin t1 = vin t2 /\ vout t1 = vout t2 /\ nLockTime t1 = nLockTime t2 /\ nVersion t1 = nVersion t2)
  \/ (b1 <> b2 /\ Hash b1 = Hash b2).
Proof.
  intros Hash t1 t2 b1 b2 H1 H2 E1 E2 EH. destruct (bytes_eq_dec b1 b2) as [->|Hne].
  - left. eapply C16_txid_preimage_injective; eassumption.
  - right. auto.
Qed.
Example C16_ex : exists b, ser_tx false false ex_tx = Ok b /\ wf_body ex_tx.
Proof. eexists. split; [vm_compute; reflexivity|]. apply ex_tx_wf. Qed.

(** ** C17 *)
Theorem C17_witness_shape_required : forall sh t b, ser_tx true sh t = Ok b -> ~ NullWit (wit t) ->
  (vtxinwit (wit t) = [] \/ length (vtxinwit (wit t)) = length (vin t))
  /\ (vtxoutwit (wit t) = [] \/ length (vtxoutwit (wit t)) = length (vout t)).
Proof.
  intros sh t b H HN. apply ser_tx_iff in H. inversion H; subst; [|auto].
  destruct H0; [discriminate|contradiction].
Qed.
Theorem C17_incomplete_witness_never_reads_back : forall dw t b t' r, dw_null dw ->
  ~ NullWit (wit t) -> (length (vtxinwit (wit t)) <> length (vin t) \/ length (vtxoutwit (wit t)) <> length (vout t)) ->
  deser_tx dw (b ++ r) = Ok (t', r) -> ~ same_tx t t'.
Proof.
  intros dw t b t' r HD HN HL H (H1 & H2 & _ & _ & HW). apply deser_tx_inv in H. destruct H as [_ H].
  destruct HW as [HW|[HW _]]; [|contradiction].
  destruct H as [E|(_ & L1 & L2 & _)].
  - apply HN. rewrite HW, E. apply HD.
  - rewrite <- HW, <- H1 in L1. rewrite <- HW, <- H2 in L2. destruct HL; contradiction.
Qed.
(** ... and such transactions do serialise. *)
Theorem C17_all_serializable_roundtrip_refuted :
  exists t b, wf_body t /\ tx_serialize t = Ok b /\ ~ NullWit (wit t)
    /\ forall dw t' r, dw_null dw -> deser_tx dw (b ++ r) = Ok (t', r) -> ~ same_tx t t'.
Proof.
  exists (mkTx [ex_txin] [mkTxOut (x01 :: zeros 8) [] (x01 :: zeros 32) []] 0 2 (mkTxWit [] [mkOutWit [x07] [x08]])).
  eexists. split.
  - split; [cbn; lia|]. split; [cbn; lia|]. split; [cbn; lia|]. split; [cbn; lia|].
    split; [constructor; [apply ex_txin_wf|constructor]|].
    constructor; [wf_out|constructor].
  - split; [vm_compute; reflexivity|].
    assert (HN : ~ NullWit (mkTxWit [] [mkOutWit [x07] [x08]])).
    { intros [_ H]. inversion H; subst. discriminate. }
    split; [exact HN|]. intros dw t' r HD H. eapply C17_incomplete_witness_never_reads_back; [exact HD|exact HN| |exact H].
    left. discriminate.
Qed.

(** ** C60 *)
Theorem C60_num_issuances : forall t, num_issuances t =
  Z.of_nat (length (filter (fun i => match is_amount (assetIssuance i) with [] => false | _ => true end) (vin t)))
  + Z.of_nat (length (filter (fun i => match is_keys (assetIssuance i) with [] => false | _ => true end) (vin t))).
Proof. intros t. unfold num_issuances. rewrite num_issuances_acc. lia. Qed.
Theorem C60_is_fee : forall o, txout_is_fee o = true <->
  scriptPubKey o = [] /\ (exists d, nValue o = x01 :: d /\ length d = 8%nat) /\ (exists d, nAsset o = x01 :: d /\ length d = 32%nat).
Proof.
  intros o. unfold txout_is_fee. rewrite !andb_true_iff.
  assert (HS : blen (scriptPubKey o) =? 0 = true <-> scriptPubKey o = []).
  { destruct (scriptPubKey o) as [|x l]; [split; reflexivity|]. rewrite blen_cons. pose proof (blen_nonneg l). split; [intros; exfalso; lia|discriminate]. }
  assert (HE : forall c x n, explicitSize c = 1 + Z.of_nat n -> conf_is_explicit c x = true <-> exists d, x = x01 :: d /\ length d = n).
  { intros c x n Hc. unfold conf_is_explicit. rewrite andb_true_iff, Z.eqb_eq, Hc. split.
    - intros [E1 E2]. destruct x as [|p d]; [discriminate|]. exists d. rewrite blen_cons in E1. unfold blen in E1.
      split; [|lia]. f_equal. destruct p; try discriminate E2; reflexivity.
    - intros (d & -> & Hd). rewrite blen_cons. unfold blen. rewrite Hd. split; [reflexivity|reflexivity]. }
  rewrite HS, (HE CConfValue _ 8%nat), (HE CConfAsset _ 32%nat) by reflexivity. tauto.
Qed.
Theorem C60_is_null : forall o, txout_is_null o = true <-> o = mkTxOut [] [] [] [].
Proof.
  intros [v s a n]. unfold txout_is_null, conf_is_null. cbn. rewrite !andb_true_iff. split.
  - intros [[[H1 H2] H3] H4]. destruct v, s, a, n; try discriminate. reflexivity.
  - intros H; inversion H; subst. repeat split.
Qed.
Example C60_ex : num_issuances ex_tx = 2.
Proof. reflexivity. Qed.

Print Assumptions C01_amount_roundtrip.
Print Assumptions C01_amount_unique.
Print Assumptions C02_asset_roundtrip.
Print Assumptions C02_asset_unique.
Print Assumptions C03_forms.
Print Assumptions C03_getters.
Print Assumptions C04_conf_roundtrip_iff_valid.
Print Assumptions C04_conf_accepts_only_valid.
Print Assumptions C04_all_constructible_roundtrip_refuted.
Print Assumptions C05_inwit_roundtrip.
Print Assumptions C05_outwit_roundtrip.
Print Assumptions C06_issuance_roundtrip.
Print Assumptions C06_issuance_exact.
Print Assumptions C07_txin_roundtrip_iff.
Print Assumptions C07_every_serializable_txin_roundtrips_refuted.
Print Assumptions C08_txin_index_guard.
Print Assumptions C09_deserialized_index.
Print Assumptions C09_issuance_bit.
Print Assumptions C10_txout_roundtrip.
Print Assumptions C11_tx_roundtrip.
Print Assumptions C11_tx_deserialize.
Print Assumptions C11_tx_injective.
Print Assumptions C12_wire_layout.
Print Assumptions C12_wire_layout_functional.
Print Assumptions C12_deserialize_wire.
Print Assumptions C13_superfluous_witness.
Print Assumptions C13_deserialize_errors.
Print Assumptions C14_normalisation.
Print Assumptions C14_bytes_canonical_refuted.
Print Assumptions C15_prefix_truncated.
Print Assumptions C15_extra_data_rejected.
Print Assumptions C15_prefix_free.
Print Assumptions C16_witness_independent.
Print Assumptions C16_txid_preimage_injective.
Print Assumptions C16_txid_commits.
Print Assumptions C17_witness_shape_required.
Print Assumptions C17_incomplete_witness_never_reads_back.
Print Assumptions C17_all_serializable_roundtrip_refuted.
Print Assumptions C60_num_issuances.
Print Assumptions C60_is_fee.
Print Assumptions C60_is_null.
