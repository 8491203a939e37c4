(** C95: what == means for fields, inputs, outputs, witnesses and transactions. *)
From Verif Require Import Base BaseFacts Serialize ParserFacts TxModel SpecWire TxProofs TxProofs2 CodecFacts PropCodec EqModel SpecEq EqProofs.
Local Open Scope Z_scope.

(** ** Fields *)
(** Objects of one class that the constructor accepts, valid or not, are equal exactly if they hold the same bytes; comparing does not fail. *)
Theorem C95_field_eq : forall c x y, conf_new c x = Ok x -> conf_new c y = Ok y -> (conf_eq x y = Ok true <-> x = y) /\ (conf_eq x y = Ok false <-> x <> y).
Proof.
  assert (K : forall c x, conf_new c x = Ok x -> constructible c x).
  { intros c x H. unfold conf_new, committedSize, explicitSize in H. destruct (_ || _) eqn:E; [|discriminate]. unfold constructible.
    destruct (Z.eqb_spec (blen x) 0) as [Z0|Z0]; [left; destruct x; [reflexivity|rewrite blen_cons in Z0; pose proof (blen_nonneg x); lia]|]. right. destruct c; lia || (destruct (Z.eqb_spec (blen x) 33); [left; lia|right; split; [reflexivity|lia]]). }
  intros c x y HX HY. apply K in HX, HY. assert (T : conf_eq x y = Ok true <-> x = y) by (unfold conf_eq; rewrite same_ok; split; [apply (ser_conf_inj c); assumption|congruence]).
  split; [exact T|]. rewrite <- T. unfold conf_eq. destruct (same_total (ser_conf x) (ser_conf y)) as ([|] & ->); split; congruence.
Qed.
(** Objects made from two amounts, or from two assets, are equal exactly if the amounts or assets are. *)
Theorem C95_explicit_eq : (forall a b x y, conf_value_of_amount a = Ok x -> conf_value_of_amount b = Ok y -> (conf_eq x y = Ok true <-> a = b))
  /\ (forall d e x y, uint256_new d = Ok d -> uint256_new e = Ok e -> conf_asset_of_asset d = Ok x -> conf_asset_of_asset e = Ok y -> (conf_eq x y = Ok true <-> d = e)).
Proof.
  assert (NE : forall x y : bytes, x <> [] -> y <> [] -> (conf_eq x y = Ok true <-> x = y)).
  { intros x y X Y. unfold conf_eq. rewrite same_ok. destruct x, y; try congruence. reflexivity. }
  assert (CN : forall c t x, conf_new c (x01 :: t) = Ok x -> x = x01 :: t) by (intros c t x; unfold conf_new; destruct (_ || _); congruence).
  split.
  - intros a b x y HX HY.
    assert (G : forall a x, conf_value_of_amount a = Ok x -> to_amount x = Ok a /\ x <> []).
    { clear. intros a x H. destruct (C01_amount_roundtrip a) as (R1 & R2). destruct (Z_le_dec (- 2 ^ 63) a) as [L|L]; [destruct (Z_lt_dec a (2 ^ 63)) as [M|M]|];
        [|rewrite R2 in H by lia; discriminate|rewrite R2 in H by lia; discriminate].
      destruct (R1 (conj L M)) as (t & E & _ & _ & _ & _ & T). rewrite E in H. injection H as <-. split; [exact T|discriminate]. }
    destruct (G _ _ HX) as (A1 & A2), (G _ _ HY) as (B1 & B2). rewrite NE by assumption. split; [intros ->; congruence|intros ->; congruence].
  - intros d e x y _ _ HX HY. apply CN in HX, HY. subst. rewrite NE by discriminate. split; congruence.
Qed.

(** ** Issuances and outputs *)
Theorem C95_issuance_eq : forall i j, wf_issuance i -> wf_issuance j -> (issuance_eq i j = Ok true <-> i = j) /\ exists b, issuance_eq i j = Ok b.
Proof. intros i j WI WJ. unfold issuance_eq. split; [|apply same_total]. rewrite same_ok. split; [apply ser_issuance_inj; assumption|congruence]. Qed.
Theorem C95_txout_eq : forall o p, wf_txout o -> wf_txout p -> (txout_eq o p = Ok true <-> o = p) /\ exists b, txout_eq o p = Ok b.
Proof.
  intros o p WO WP. destruct (W_txout_ex o WO) as (b & B). destruct (W_txout_ex p WP) as (c & C). unfold txout_eq.
  rewrite (proj2 (ser_txout_iff o b) B), (proj2 (ser_txout_iff p c) C). split; [|apply same_total]. rewrite same_ok. split; intros E.
  - subst c. assert (X := deser_txout_W o b [] WO B). assert (Y := deser_txout_W p b [] WP C). congruence.
  - subst p. apply ser_txout_iff in B, C. congruence.
Qed.
(** The constructors also accept bytes that are no valid field. With those, different outputs, and different issuances, may be equal: the first has
    no asset and a value that is a commitment, the second has an asset and no value. *)
Theorem C95_constructible_eq_refuted :
  (exists o p, constructible_out o /\ constructible_out p /\ wf_txout o /\ txout_eq o p = Ok true /\ nValue o <> nValue p /\ nAsset o <> nAsset p)
  /\ (exists i j, constructible_iss i /\ constructible_iss j /\ wf_issuance i /\ issuance_eq i j = Ok true /\ is_amount i <> is_amount j).
Proof.
  split.
  - exists (mkTxOut (x08 :: zeros 32) [] [] []), (mkTxOut [] [] (x00 :: x08 :: zeros 31) []).
    unfold constructible_out, constructible, wf_txout, small. cbn [nValue nAsset nNonce scriptPubKey].
    repeat split; auto; try (vm_compute; discriminate); try apply CF_null; try (apply CF_commit; [left; reflexivity|reflexivity]).
  - exists (mkIssuance (zeros 32) (zeros 32) [] (x08 :: zeros 32)), (mkIssuance (zeros 32) (zeros 32) (x00 :: x08 :: zeros 31) []).
    unfold constructible_iss, constructible, wf_issuance. cbn [is_amount is_keys is_nonce is_entropy].
    repeat split; auto; try (vm_compute; discriminate); try apply CF_null; try (apply CF_commit; [left; reflexivity|reflexivity]).
Qed.

(** ** Inputs *)
(** Comparing inputs fails exactly if one of them has an index that the flags leave no room for. *)
Theorem C95_txin_raises : forall i j, txin_in_range i -> txin_in_range j ->
  (txin_eq i j = Raise ETxInSerialization <-> ~ good_index i \/ ~ good_index j) /\ (good_index i -> good_index j -> exists b, txin_eq i j = Ok b).
Proof.
  intros i j RI RJ. assert (D : forall x, good_index x \/ ~ good_index x) by (intros x; unfold good_index; lia).
  assert (R : forall x, txin_in_range x -> ~ good_index x -> ser_txin false x = Raise ETxInSerialization) by (intros x RX G; apply C08_txin_index_guard; [exact RX|unfold good_index in G; lia]).
  split.
  - split.
    + intros E. destruct (D i) as [GI|GI]; [|left; exact GI]. destruct (D j) as [GJ|GJ]; [|right; exact GJ].
      destruct (good_ser i RI GI) as (b & B), (good_ser j RJ GJ) as (c & C). unfold txin_eq in E. rewrite B, C in E. destruct (same_total b c) as (z & Z). congruence.
    + intros G. unfold txin_eq. destruct (D i) as [GI|GI]; [|rewrite (R i RI GI); reflexivity]. destruct G as [G|G]; [contradiction|].
      destruct (good_ser i RI GI) as (b & B). rewrite B, (R j RJ G). reflexivity.
  - intros GI GJ. destruct (good_ser i RI GI) as (b & B), (good_ser j RJ GJ) as (c & C). unfold txin_eq. rewrite B, C. apply same_total.
Qed.
Theorem C95_txin_eq : forall i j, txin_in_range i -> txin_in_range j -> good_index i -> good_index j -> (txin_eq i j = Ok true <-> SameIn i j).
Proof.
  intros i j RI RJ GI GJ. unfold txin_eq. rewrite same_true. split.
  - intros (b & B & C). exact (txin_same i j b RI RJ B C).
  - intros S. destruct (good_ser i RI GI) as (b & B). exists b. split; [exact B|]. rewrite <- (samein_ser false i j S). exact B.
Qed.
(** Not the same fields: what an input without issuance amounts, or a coinbase input, says about an issuance is not compared. *)
Theorem C95_txin_fields_refuted : exists i j, txin_in_range i /\ txin_in_range j /\ txin_eq i j = Ok true /\ assetIssuance i <> assetIssuance j /\ op_n (prevout i) = 0.
Proof.
  exists (mkTxIn (mkOutPoint (zeros 32) 0) [] 0 issuance_default false), (mkTxIn (mkOutPoint (zeros 32) 0) [] 0 (mkIssuance (zeros 32) (xab :: zeros 31) [] []) false).
  unfold txin_in_range, wf_issuance, small. cbn [prevout op_hash op_n scriptSig nSequence assetIssuance issuance_default is_nonce is_entropy is_amount is_keys].
  assert (N : ConfForm CConfValue []) by apply CF_null. repeat split; auto; try lia; try (vm_compute; congruence).
Qed.

(** ** Witnesses *)
Theorem C95_witness_eq : (forall v w, wf_inwit v -> wf_inwit w -> (inwit_eq v w = Ok true <-> v = w) /\ exists b, inwit_eq v w = Ok b)
  /\ (forall v w, wf_outwit v -> wf_outwit w -> (outwit_eq v w = Ok true <-> v = w) /\ exists b, outwit_eq v w = Ok b).
Proof.
  split; intros v w WV WW.
  - destruct (C05_inwit_roundtrip v [] WV) as (b & B1 & _ & B2), (C05_inwit_roundtrip w [] WW) as (c & C1 & _ & C2). unfold inwit_eq. rewrite B1, C1. split; [|apply same_total].
    rewrite same_ok. split; congruence.
  - destruct (C05_outwit_roundtrip v [] WV) as (b & B1 & _ & B2), (C05_outwit_roundtrip w [] WW) as (c & C1 & _ & C2). unfold outwit_eq. rewrite B1, C1. split; [|apply same_total].
    rewrite same_ok. split; congruence.
Qed.

(** ** Transactions *)
Lemma plain_ser t : plain_body t -> wf_wit t -> exists b, tx_serialize t = Ok b.
Proof.
  intros PB W. assert (WF := tidy_wf t PB W). destruct (W_tx_ex (tidy t) (wf_body_readable _ (proj1 WF)) (proj2 WF)) as (b & B).
  exists b. apply ser_tx_iff in B. unfold tx_serialize. rewrite <- tidy_ser. exact B.
Qed.
Theorem C95_tx_eq : forall t u, plain_body t -> plain_body u -> wf_wit t -> wf_wit u ->
  (tx_eq t u = Ok true <-> SameBody t u /\ SameWit (wit t) (wit u)) /\ exists b, tx_eq t u = Ok b.
Proof.
  intros t u PT PU WT WU. destruct (plain_ser t PT WT) as (b & B), (plain_ser u PU WU) as (c & C). unfold tx_eq. rewrite B, C. split; [|apply same_total]. rewrite same_ok.
  unfold tx_serialize in *. split.
  - intros E. subst c. assert (SB := C11_tx_injective (tidy t) (tidy u) b (tidy_wf t PT WT) (tidy_wf u PU WU)). unfold tx_serialize in SB. rewrite !tidy_ser in SB.
    destruct (SB B C) as (S1 & S2 & S3 & S4 & S5). cbn [tidy vin vout nLockTime nVersion wit] in *. split; [|exact S5].
    split; [exact S4|]. split; [exact S3|]. split; [apply map_norm_same; exact S1|exact S2].
  - intros (SB & SW). assert (X : ser_tx true false t = ser_tx true false u); [|congruence]. destruct SW as [SW|(N1 & N2)]; [apply same_body_ser; auto|].
    assert (Y : forall x, NullWit (wit x) -> ser_tx true false x = ser_tx false false x) by (intros x N; apply txwit_is_null_iff in N; unfold ser_tx; rewrite N; reflexivity).
    rewrite (Y t N1), (Y u N2). apply same_body_ser; auto.
Qed.
(** The same transaction id: everything but the witness is the same; so equal transactions have the same id. *)
Theorem C95_txid_eq : forall t u, plain_body t -> plain_body u -> (txid_eq t u = Ok true <-> SameBody t u) /\ exists b, txid_eq t u = Ok b.
Proof.
  intros t u PT PU. assert (S : forall x, plain_body x -> plain_body (strip x) /\ wf_wit (strip x)) by (intros x P; split; [exact P|left; apply strip_null]).
  destruct (S t PT) as (A1 & A2), (S u PU) as (B1 & B2). destruct (C95_tx_eq (strip t) (strip u) A1 B1 A2 B2) as (E & T).
  unfold txid_eq. rewrite !strip_ser. unfold tx_eq, tx_serialize in E, T. split; [|exact T]. rewrite E. split; [intros (X & _); exact X|].
  intros X. split; [exact X|]. right. split; apply strip_null.
Qed.
(** Left out above are inputs with the index 2^30-1, an issuance and a peg-in, the flags of which make it the index of a coinbase input. With one,
    transactions with different inputs and outputs are equal and have the same id. *)
Theorem C95_full_index_refuted : exists t u, Forall txin_in_range (vin t) /\ Forall good_index (vin t) /\ wf_tx u /\ tx_eq t u = Ok true /\ txid_eq t u = Ok true
  /\ vout t = [] /\ length (vout u) = 1%nat.
Proof.
  set (iss := mkIssuance ([x01; x00; x00; x00; x46] ++ zeros 27) (zeros 32) (x01 :: zeros 8) []).
  exists (mkTx [mkTxIn (mkOutPoint (zeros 32) (2 ^ 30 - 1)) [] 0 iss true] [] 0 2 (mkTxWit [] [])).
  exists (mkTx [mkTxIn (mkOutPoint (zeros 32) (2 ^ 32 - 1)) [] 0 issuance_default false] [mkTxOut [] (skipn 5 (ser_issuance iss) ++ [x00]) [] []] 0 2 (mkTxWit [] [])).
  assert (N : forall c, ConfForm c []) by (intros c; apply CF_null).
  split; [|split; [|split; [|split; [|split]]]].
  - constructor; [|constructor]. unfold txin_in_range, wf_issuance, small. cbn [prevout op_hash op_n scriptSig nSequence assetIssuance iss is_nonce is_entropy is_amount is_keys].
    repeat split; auto; try lia; try (vm_compute; congruence). apply CF_explicit. reflexivity.
  - constructor; [left; cbn; lia|constructor].
  - split; [|left; split; constructor]. unfold wf_body. cbn [nVersion nLockTime vin vout length]. split; [lia|]. split; [lia|]. split; [lia|]. split; [lia|]. split.
    + constructor; [|constructor]. split.
      * unfold txin_in_range, wf_issuance, small. cbn [prevout op_hash op_n scriptSig nSequence assetIssuance issuance_default is_nonce is_entropy is_amount is_keys].
        repeat split; auto; try lia; vm_compute; congruence.
      * left. auto.
    + constructor; [|constructor]. unfold wf_txout, small. cbn [nAsset nValue nNonce scriptPubKey]. repeat split; auto. vm_compute. congruence.
  - vm_compute. reflexivity.
  - vm_compute. reflexivity.
  - split; reflexivity.
Qed.

(** ** Concrete cases *)
Section cases.
Let null_in n iss pg := mkTxIn (mkOutPoint (zeros 32) n) [] 0 iss pg.
Let coins := mkIssuance (zeros 32) (zeros 32) (x01 :: zeros 8) [].
Let out k := mkTxOut (x01 :: zeros 7 ++ [k]) [x51] (x01 :: zeros 32) [].
(** C95_field_eq: bytes that are no valid commitment *)
Example field_cases : conf_new CConfValue (xff :: zeros 32) = Ok (xff :: zeros 32) /\ conf_new CConfValue [] = Ok []
  /\ conf_eq (xff :: zeros 32) [] = Ok false /\ conf_eq [] [] = Ok true.
Proof. vm_compute. repeat split. Qed.
(** C95_explicit_eq *)
Example explicit_cases : exists x y, conf_value_of_amount 5 = Ok x /\ conf_value_of_amount (-5) = Ok y /\ conf_eq x y = Ok false.
Proof. eexists _, _. vm_compute. repeat split. Qed.
(** C95_issuance_eq, C95_txout_eq *)
Example out_cases : wf_issuance coins /\ wf_txout (out x07) /\ wf_txout (out x08) /\ txout_eq (out x07) (out x08) = Ok false
  /\ issuance_eq coins issuance_default = Ok false.
Proof.
  assert (N : forall c, ConfForm c []) by (intros c; apply CF_null). assert (V : forall d, length d = 8%nat -> ConfForm CConfValue (x01 :: d)) by (intros d L; apply CF_explicit; unfold blen; cbn [length]; rewrite L; reflexivity).
  split; [repeat split; cbn; auto|].
  assert (OK : forall k, wf_txout (out k)) by (intros k; split; [apply CF_explicit; reflexivity|]; split; [apply V; reflexivity|]; split; [apply N|vm_compute; congruence]).
  split; [apply OK|]. split; [apply OK|]. split; vm_compute; reflexivity.
Qed.
Let W : wf_issuance coins := proj1 out_cases.
Let N0 : wf_issuance issuance_default.
Proof. repeat split; try reflexivity; apply CF_null. Qed.
Let R n iss pg : 0 <= n < 2 ^ 32 -> wf_issuance iss -> txin_in_range (null_in n iss pg).
Proof. intros. unfold txin_in_range, small. cbn [prevout op_hash op_n scriptSig nSequence assetIssuance null_in]. repeat split; auto; try lia; try apply H0; vm_compute; congruence. Qed.
(** C95_txin_raises, C95_txin_eq: an index without room, and issuances that count and that do not *)
Example in_cases : txin_in_range (null_in (2 ^ 30) coins false) /\ ~ good_index (null_in (2 ^ 30) coins false)
  /\ txin_in_range (null_in 3 coins false) /\ good_index (null_in 3 coins false) /\ txin_in_range (null_in (2 ^ 32 - 1) coins true) /\ good_index (null_in (2 ^ 32 - 1) coins true)
  /\ txin_eq (null_in 3 coins false) (null_in 3 issuance_default false) = Ok false /\ txin_eq (null_in 3 coins false) (null_in 3 coins true) = Ok false
  /\ txin_eq (null_in (2 ^ 32 - 1) coins true) (null_in (2 ^ 32 - 1) issuance_default false) = Ok true.
Proof.
  split; [apply R; [lia|exact W]|]. split; [unfold good_index; cbn; lia|]. split; [apply R; [lia|exact W]|]. split; [left; cbn; lia|].
  split; [apply R; [lia|exact W]|]. split; [right; reflexivity|]. vm_compute. repeat split.
Qed.
(** C95_witness_eq, C95_tx_eq, C95_txid_eq: transactions that differ in the witness, and in an output *)
Let v := mkInWit [[x30]] [] [] [].
Let t k w := mkTx [null_in 3 coins false] [out k] 0 2 w.
Let full := mkTxWit [v] [mkOutWit [] []].
Let none := mkTxWit [mkInWit [] [] [] []] [].
Example tx_cases : plain_body (t x07 full) /\ plain_body (t x08 none) /\ wf_wit (t x07 full) /\ wf_wit (t x07 (mkTxWit [] []))
  /\ tx_eq (t x07 full) (t x07 (mkTxWit [] [])) = Ok false /\ txid_eq (t x07 full) (t x07 (mkTxWit [] [])) = Ok true /\ txid_eq (t x07 full) (t x08 full) = Ok false
  /\ tx_eq (t x07 none) (t x07 (mkTxWit [] [])) = Ok true.
Proof.
  assert (P : forall k w, plain_body (t k w)).
  { intros k w. unfold plain_body. cbn [t nVersion nLockTime vin vout length]. split; [lia|]. split; [lia|]. split; [lia|]. split; [lia|]. split.
    - constructor; [|constructor]. split; [apply R; [lia|exact W]|]. split; [left; cbn; lia|]. intros (A & _). cbn in A. lia.
    - constructor; [|constructor]. split; [apply CF_explicit; reflexivity|]. split; [apply CF_explicit; reflexivity|]. split; [apply CF_null|vm_compute; congruence]. }
  split; [apply P|]. split; [apply P|]. split.
  - right. cbn [t wit full vtxinwit vtxoutwit vin vout]. repeat split; try reflexivity; repeat constructor; vm_compute; congruence.
  - split; [left; split; constructor|]. vm_compute. repeat split.
Qed.
End cases.

Print Assumptions C95_field_eq.
Print Assumptions C95_explicit_eq.
Print Assumptions C95_issuance_eq.
Print Assumptions C95_txout_eq.
Print Assumptions C95_constructible_eq_refuted.
Print Assumptions C95_txin_raises.
Print Assumptions C95_txin_eq.
Print Assumptions C95_txin_fields_refuted.
Print Assumptions C95_witness_eq.
Print Assumptions C95_tx_eq.
Print Assumptions C95_txid_eq.
Print Assumptions C95_full_index_refuted.
