(** Property C87: claim_funds_back of the program examples/asset-atomic-swap.py. *)
From Verif Require Import Base BaseFacts Serialize TxModel MiscModel IssuanceModel BlindModel UnblindModel SpendModel WalletModel SighashModel ScriptModel SpecWire
  SpecBlind SpecBalance SpecUnblind SpecMulti SpecNode SpecSpend SpecSign BlindFacts BlindBalance BlindFrame BlindSer TxProofs TxProofs2 PropUnblind PropSpend PropSign
  ExampleModel SpecExample ExampleProofs SwapModel SpecSwap SwapProofs SwapRun SwapSign LegacyModel ToyCrypto ToyTx ToyUnblind ToyNode ToyFit PropSwap
  ClaimModel SpecClaim ClaimProofs.
From Coq Require Import Lia Permutation.
Local Open Scope Z_scope.

(** What is sent spends these outputs, one of each asset, to one new address each, and pays the fee from the one of the fee's asset. *)
Theorem C87_claims : forall z dw ver legacy Hash160 sign fee_asset rand new_addr us t message,
  claim_funds_back z dw ver legacy Hash160 sign fee_asset rand new_addr us = Sends t message ->
  Claims fee_asset new_addr us t /\ tx_serialize t = Ok message.
Proof.
  intros z dw ver legacy H160 sign fa rand na us T b H. apply claim_inv in H. destruct H as (outs & f & bfs & abfs & s & t & [P1 P2 P3 P4 P5 P6 P7 P8 P9 P10 P11]). split; [|exact P11].
  destruct (sign_all_kept _ _ _ _ _ _ _ _ P10) as (K1 & K2 & K3). assert (F := blind_transaction_frame z rand (plain_args (map descriptor us) (map snd outs ++ [[]]) []) t). rewrite P8 in F. cbn [snd] in F.
  assert (VO : vout t = map fst outs ++ [f]) by (rewrite P7; reflexivity). assert (PU : a_pubkeys (plain_args (map descriptor us) (map snd outs ++ [[]]) []) = map snd outs ++ [[]]) by reflexivity.
  constructor.
  - exact P2.
  - rewrite K1, (plain_vin _ _ _ _ _ F), (ins_inv _ _ P1), map_map. reflexivity.
  - rewrite K2, (fr_nout _ _ _ _ _ F), VO, app_length, map_length, P4. reflexivity.
  - intros n u E. destruct (P5 n u E) as (o & Q1 & Q2 & Q3). assert (L : (n < length us)%nat) by (apply nth_error_Some; congruence).
    assert (EO : nth_error (vout t) n = Some o). { rewrite VO, nth_error_app1 by (rewrite map_length; lia). rewrite nth_error_map, Q1. reflexivity. }
    destruct (frame_script _ _ _ _ _ F EO) as (o' & E1 & E2 & _). exists o'. rewrite K2. split; [exact E1|]. rewrite E2. apply output_of_Ok in Q2. destruct Q2 as (v & a & sc & -> & _ & _ & X). exact X.
  - assert (EO : nth_error (vout t) (length us) = Some f). { rewrite VO, nth_error_app2 by (rewrite map_length; lia). rewrite map_length, P4, Nat.sub_diag. reflexivity. }
    destruct (frame_script _ _ _ _ _ F EO) as (o' & E1 & _ & E3). assert (o' = f). { apply E3. rewrite PU, app_nth2 by (rewrite map_length; lia). rewrite map_length, P4, Nat.sub_diag. reflexivity. } subst o'.
    exists f. rewrite K2. split; [exact E1|]. apply output_of_Ok in P6. destruct P6 as (v & a & sc & -> & X1 & X2 & X3). cbn [scriptPubKey nAsset nValue]. split; [apply Ok_inj in X3; congruence|].
    split; [apply asset_back; [exact (asset_len _ _ X2)|exact X2]|apply value_back; exact X1].
  - exact P3.
Qed.
(** Each input carries the signature, by the key of the output that it spends, of the transaction that is sent. *)
Theorem C87_signatures : forall z dw ver Hash160 sign fee_asset rand new_addr us t message,
  claim_funds_back z dw ver (legacy_sighash (c_hash z)) Hash160 sign fee_asset rand new_addr us = Sends t message ->
  forall n u, nth_error us n = Some u -> Signature z Hash160 sign t n u.
Proof.
  intros z dw ver H160 sign fa rand na us T b H. apply claim_inv in H. destruct H as (outs & f & bfs & abfs & s & t & [P1 P2 P3 P4 P5 P6 P7 P8 P9 P10 P11]).
  intros n u E. destruct (sign_all_signatures _ _ _ _ _ _ _ P10) as (Q & _). exact (Q n u E).
Qed.
(** With the keys of the new addresses everything is read again. *)
Theorem C87_reads : forall z dw ver legacy Hash160 sign fee_asset rand new_addr us t message,
  SizesOk z -> RandOk z rand -> CodecLaws z -> RewindLaw z -> KeyLaws z ->
  claim_funds_back z dw ver legacy Hash160 sign fee_asset rand new_addr us = Sends t message ->
  forall n u key, nth_error us n = Some u -> 0 <= u_amount u <= money -> sk_valid z key = true -> blinding_pubkey (new_addr n) = sk_pub z key ->
    Gets z t n key (u_asset u) (net fee_asset u).
Proof.
  intros z dw ver legacy H160 sign fa rand na us T b SZ RO CL RL KL H. apply claim_inv in H. destruct H as (outs & f & bfs & abfs & s & t & [P1 P2 P3 P4 P5 P6 P7 P8 P9 P10 P11]).
  intros n u key E RG SK EK. destruct (P5 n u E) as (o & Q1 & Q2 & Q3). assert (L : (n < length us)%nat) by (apply nth_error_Some; congruence).
  assert (VO : vout t = map fst outs ++ [f]) by (rewrite P7; reflexivity). destruct (sign_all_kept _ _ _ _ _ _ _ _ P10) as (K1 & K2 & K3).
  apply (plain_gets z rand (map descriptor us) (map snd outs ++ [[]]) [] t _ bfs abfs s T n key o _ _ (to_scriptPubKey (na n)) SZ RO CL RL KL P8 SK).
  - rewrite nth_error_app1 by (rewrite map_length; lia). rewrite nth_error_map, Q1, <- EK. reflexivity.
  - rewrite VO, nth_error_app1 by (rewrite map_length; lia). rewrite nth_error_map, Q1. reflexivity.
  - exact Q2.
  - unfold net. assert (N := P3 u (nth_error_In _ _ E)). destruct (bytes_eqb (u_asset u) fa) eqn:EB; [|lia]. apply bytes_eqb_eq in EB. specialize (N EB). lia.
  - exact K2.
  - exact K3.
Qed.
(** If what the program knows of the outputs is true and one of them is of the fee's asset, a node accepts the transaction. *)
Lemma net_range fa u : 0 < u_amount u <= money -> (u_asset u = fa -> 20000 <= u_amount u) -> 0 < net fa u <= money.
Proof. intros R Q. unfold net. destruct (bytes_eqb (u_asset u) fa) eqn:E; [apply bytes_eqb_eq in E; specialize (Q E)|]; lia. Qed.
Lemma Forall2_nth_l {A B} (R : A -> B -> Prop) l1 l2 : Forall2 R l1 l2 -> forall n a, nth_error l1 n = Some a -> exists b, nth_error l2 n = Some b /\ R a b.
Proof. induction 1 as [|a b l1 l2 AB _ IH]; intros [|n] x E; try discriminate E; [injection E as <-; exists b; auto|exact (IH n x E)]. Qed.
Theorem C87_accepted : forall z V order (G : PointGroup order) (M : Meaning z G) dw ver legacy Hash160 sign fee_asset rand new_addr us spent t message,
  SizesOk z -> BlindSumLaw z order -> CodecLaws z -> VerifierLaws z V M -> RewindSound z -> ZeroGen z ->
  FullNull dw -> (forall k, rand k <> zeros 32) -> Forall2 (Truth z) us spent -> In fee_asset (map u_asset us) ->
  claim_funds_back z dw ver legacy Hash160 sign fee_asset rand new_addr us = Sends t message ->
  (forall o, nth_error (vout t) (length us - 1) = Some o -> hd x00 (nAsset o) <> x01) ->
  node_check z V spent t = true.
Proof.
  intros z V order G M dw ver legacy H160 sign fa rand na us spent T b SZ LAW CL VL RS ZG DN RN TR IF H CH. apply claim_inv in H.
  destruct H as (outs & f & bfs & abfs & s & t & [P1 P2 P3 P4 P5 P6 P7 P8 P9 P10 P11]). set (args := plain_args (map descriptor us) (map snd outs ++ [[]]) []) in *.
  assert (F := blind_transaction_frame z rand args t). rewrite P8 in F. cbn [snd] in F. assert (VO : vout t = map fst outs ++ [f]) by (rewrite P7; reflexivity).
  assert (VI := ins_inv _ _ P1). assert (LS : length spent = length us) by (clear - TR; induction TR; cbn [length]; congruence).
  assert (NW : NullWit (wit t)) by (rewrite P7; cbn [wit]; apply DN). destruct (null_at _ NW) as [NI NO].
  assert (LP : us <> []) by (intros ->; exact IF). assert (LN : exists m, length us = S m) by (destruct us as [|? us0]; [congruence|exists (length us0); reflexivity]). destruct LN as [m LN].
  assert (SS : OnlySigned (s_tx s) T). { apply (sign_all_signed _ _ _ _ _ _ _ _ P10). intros k _. rewrite (plain_inwit _ _ _ _ _ k F), NI. auto. }
  destruct (C78_signing_keeps _ _ 0%nat SS) as (_ & _ & _ & KEEP). { rewrite (plain_vin _ _ _ _ _ F), VI, map_length. lia. }
  rewrite KEEP. clear KEEP.
  assert (KN : forall n u, nth_error us n = Some u -> exists p, nth_error spent n = Some p /\ Truth z u p) by (intros n u E; exact (Forall2_nth_l _ _ _ TR n u E)).
  assert (NR : forall u, In u us -> 0 < net fa u <= money /\ gen_generate z (u_asset u) <> None).
  { intros u IU. destruct (In_nth_error _ _ IU) as [n E]. destruct (KN n u E) as (p & _ & TP). split; [|exact (proj2 (tr_asset _ _ _ TP))].
    apply net_range; [exact (truth_amount _ _ _ TP)|exact (P3 u IU)]. }
  assert (FG : gen_generate z fa <> None) by (apply in_map_iff in IF; destruct IF as (u & <- & IU); exact (proj2 (NR u IU))).
  destruct (out_sound z _ _ _ _ P6 ltac:(unfold money; lia) FG) as (OF & AF & XF & _ & _).
  assert (OK : forall n u, nth_error us n = Some u -> exists o, nth_error (map fst outs) n = Some o /\ output_of (net fa u) (u_asset u) (to_scriptPubKey (na n)) = Ok o).
  { intros n u E. destruct (P5 n u E) as (o & Q1 & Q2 & _). exists o. rewrite nth_error_map, Q1. auto. }
  assert (NIS : forall inp ps, In inp (vin t) -> iss_field ps inp = []) by (intros inp ps IN; rewrite VI in IN; apply in_map_iff in IN; destruct IN as (u & <- & _); destruct ps; reflexivity).
  apply (C77_accepted z V order G M [args] spent (map descriptor us) t (s_tx s) SZ LAW CL VL RS ZG).
  2: { intros a i inp _ E _ NK. exfalso. apply NK. exact (NIS inp true (nth_error_In _ _ E)). }
  2: { intros a [<-|[]]. cbn [args plain_args a_aux length]. lia. }
  constructor.
  - left. discriminate.
  - eapply BL_cons; [exact P8|reflexivity|exact (plain_stray _ _ _ _)|rewrite P9, LN; discriminate| |constructor].
    destruct (nth_error us m) as [ul|] eqn:EL; [|apply nth_error_None in EL; lia]. destruct (P5 _ _ EL) as (ol & Q1 & Q2 & _).
    assert (EOL : nth_error (vout t) m = Some ol) by (rewrite VO, nth_error_app1 by (rewrite map_length; lia); rewrite nth_error_map, Q1; reflexivity).
    apply (plain_nonzero z rand _ _ _ t _ _ _ s (seq 0 m) m ol RN P8); [transitivity (seq 0 (length us)); [exact P9|rewrite LN, seq_S; reflexivity]|exact EOL|rewrite in_seq; lia|].
    intros E. destruct (out_sound z _ _ _ _ Q2 (proj1 (NR ul (nth_error_In _ _ EL))) (proj2 (NR ul (nth_error_In _ _ EL)))) as (_ & _ & _ & HA & _).
    apply (CH ol); [rewrite (si_out _ _ SS); replace (length us - 1)%nat with m by lia; exact E|exact HA].
  - constructor.
    + intros o. rewrite VO. intros IN. apply in_app_or in IN. destruct IN as [IN|[<-|[]]]; [|exact OF]. destruct (In_nth_error _ _ IN) as [n E].
      destruct (nth_error us n) as [u|] eqn:E'; [|exfalso; apply nth_error_None in E'; assert (n < length (map fst outs))%nat by (apply nth_error_Some; congruence); rewrite map_length in *; lia].
      destruct (OK n u E') as (o' & X1 & X2). assert (o' = o) by congruence. subst o'. destruct (NR u (nth_error_In _ _ E')) as [R1 R2]. exact (proj1 (out_sound z _ _ _ _ X2 R1 R2)).
    + exact NO.
    + intros inp ps IN. left. exact (NIS inp ps IN).
    + intros i ps. rewrite NI. destruct ps; reflexivity.
    + intros i inp E [Q|Q]; exfalso; apply Q; exact (NIS inp _ (nth_error_In _ _ E)).
    + intros i u inp _ E [Q|Q]; exfalso; apply Q; exact (NIS inp _ (nth_error_In _ _ E)).
  - rewrite VI, map_length. exact LS.
  - clear - TR. induction TR as [|u p us ps T _ IH]; constructor; [exact (truth_existing _ _ _ T)|exact IH].
  - clear - TR. induction TR as [|u p us ps T _ IH]; constructor; [exact (tr_described _ _ _ T)|exact IH].
  - intros a i p d [<-|[]] EP ED. rewrite nth_error_map in ED. destruct (nth_error us i) as [u|] eqn:E; [|discriminate ED]. cbn [option_map] in ED. injection ED as <-.
    destruct (KN i u E) as (p' & X1 & X2). assert (p' = p) by congruence. subst p'. apply (truth_gives z _ _ u p _ X2 eq_refl). left. cbn [args plain_args a_descs]. rewrite nth_error_map, E. reflexivity.
  - unfold described_once, blinded_inputs. cbn [flat_map args plain_args a_descs]. rewrite app_nil_r. apply Permutation_refl.
  - intros a. assert (IS : issued z [args] t = []).
    { unfold issued. assert (Q : forall x, In x (issuance_slots (length (vin t))) -> issued_at z [args] t x = []).
      { intros [i ps] _. unfold issued_at. cbn [fst snd]. destruct (nth_error (vin t) i) as [inp|] eqn:E; [|reflexivity]. rewrite (NIS inp ps (nth_error_In _ _ E)). reflexivity. }
      clear - Q. induction (issuance_slots (length (vin t))) as [|x l IH]; [reflexivity|]. cbn [flat_map]. rewrite Q by (left; reflexivity). apply IH. intros y Y. apply Q. right. exact Y. }
    rewrite IS, app_nil_r, map_map, VO, map_app. cbn [map descriptor d_asset d_amount]. rewrite AF, XF.
    assert (EM : map (fun o => (tl (nAsset o), be_val (tl (nValue o)))) (map fst outs) = map (entry fa) us).
    { apply nth_error_ext. intros n. rewrite !nth_error_map. destruct (nth_error us n) as [u|] eqn:E.
      - destruct (OK n u E) as (o & X1 & X2). rewrite nth_error_map in X1. rewrite X1. cbn [option_map]. destruct (NR u (nth_error_In _ _ E)) as [R1 R2]. destruct (out_sound z _ _ _ _ X2 R1 R2) as (_ & -> & -> & _). reflexivity.
      - apply nth_error_None in E. replace (nth_error outs n) with (@None (txout * bytes)) by (symmetry; apply nth_error_None; lia). reflexivity. }
    rewrite EM. exact (conserved a fa us P2 IF).
Qed.

(** * Runs over the toy library *)
Definition cl_addr (n : nat) : addr := sw_addr (31 + Z.of_nat n) x61.
Definition cl_run (fa : bytes) (us : list utxo) : turn := claim_funds_back ftoy sw_dw 2 sw_legacy sw_h160 sw_sign fa (fit_rand 909) cl_addr us.
Lemma cl_run_eq fa us : cl_run fa us = claim_funds_back ftoy sw_dw 2 sw_legacy sw_h160 sw_sign fa (fit_rand 909) cl_addr us. Proof. unfold cl_run. reflexivity. Qed.
Definition cl_sent (n : nat) (good : bool) (us : list utxo) (r : turn) : bool :=
  match r with
  | Sends t _ => match nth_error (vout t) n with Some o => negb (Byte.eqb (hd x00 (nAsset o)) x01) | None => false end && Bool.eqb (node_check ftoy toy_verifier (map sw_spent us) t) good
  | _ => false end.
Lemma cl_sent_Sends n good us r : cl_sent n good us r = true -> exists t b, r = Sends t b /\ (forall o, nth_error (vout t) n = Some o -> hd x00 (nAsset o) <> x01)
  /\ node_check ftoy toy_verifier (map sw_spent us) t = good.
Proof.
  unfold cl_sent. intros H. destruct r as [t b|w|e]; [|discriminate H|discriminate H]. apply andb_prop in H. destruct H as [H1 H2]. exists t, b. split; [reflexivity|]. split.
  - intros o E. rewrite E in H1. intros X. rewrite X in H1. discriminate H1.
  - apply Bool.eqb_prop. exact H2.
Qed.
Definition cl_ex : list utxo := [sw_a2; sw_fee].
Definition cl_more : utxo := sw_utxo 7 asset_I 250 1007 2007 P2WPKH (toy_pub 17).
Lemma cl_truth us : forallb truth_ok us = true -> Forall2 (Truth ftoy) us (map sw_spent us).
Proof. induction us as [|u us IH]; intros H; cbn [map]; constructor; cbn [forallb] in H; apply andb_prop in H; destruct H as [H1 H2]; [apply truth_ok_Truth; exact H1|apply IH; exact H2]. Qed.
Lemma cl_t1 : cl_sent 1 true cl_ex (cl_run sw_fee_asset cl_ex) = true. Proof. vm_compute. reflexivity. Qed.
Lemma cl_t2 : cl_sent 0 false [sw_a2] (cl_run sw_fee_asset [sw_a2]) = true. Proof. vm_compute. reflexivity. Qed.
Lemma cl_t3 : cl_run sw_fee_asset [sw_a2; cl_more; sw_fee] = Crashes EAssert. Proof. vm_compute. reflexivity. Qed.

(** 500 of one asset and 50000 of the fee's: all hypotheses of these theorems are met. *)
Example C87_ex : exists t message,
  SizesOk ftoy /\ BlindSumLaw ftoy toy_order /\ CodecLaws ftoy /\ VerifierLaws ftoy toy_verifier ftoy_meaning /\ RewindSound ftoy /\ ZeroGen ftoy
  /\ RewindLaw ftoy /\ KeyLaws ftoy /\ RandOk ftoy (fit_rand 909) /\ FullNull sw_dw /\ (forall k, fit_rand 909 k <> zeros 32)
  /\ Forall2 (Truth ftoy) cl_ex (map sw_spent cl_ex) /\ In sw_fee_asset (map u_asset cl_ex)
  /\ claim_funds_back ftoy sw_dw 2 sw_legacy sw_h160 sw_sign sw_fee_asset (fit_rand 909) cl_addr cl_ex = Sends t message
  /\ (forall o, nth_error (vout t) (length cl_ex - 1) = Some o -> hd x00 (nAsset o) <> x01).
Proof.
  destruct (cl_sent_Sends _ _ _ _ cl_t1) as (t & b & S1 & S2 & _). rewrite cl_run_eq in S1. exists t, b.
  split; [exact ftoy_sizes|]. split; [exact ftoy_blind_sum|]. split; [exact ftoy_codec|]. split; [exact ftoy_verifies|]. split; [exact ftoy_sound|]. split; [exact ftoy_zerogen|].
  split; [exact ftoy_rewind|]. split; [exact ftoy_keys|]. split; [apply fit_rand_ok|]. split; [exact sw_full|]. split; [intros k; apply fit_rand_nonzero; split; reflexivity|].
  split; [apply cl_truth; vm_compute; reflexivity|]. split; [right; left; unfold sw_fee, sw_utxo, u_asset; reflexivity|]. split; [exact S1|exact S2].
Qed.
Example C87_ex_keys : sk_valid ftoy (b32 31) = true /\ blinding_pubkey (cl_addr 0) = sk_pub ftoy (b32 31) /\ sk_valid ftoy (b32 32) = true /\ blinding_pubkey (cl_addr 1) = sk_pub ftoy (b32 32)
  /\ net sw_fee_asset sw_a2 = 500 /\ net sw_fee_asset sw_fee = 40000.
Proof. split; [vm_compute; reflexivity|]. split; [vm_compute; reflexivity|]. split; [vm_compute; reflexivity|]. split; [vm_compute; reflexivity|]. split; vm_compute; reflexivity. Qed.

(** * Claims that do not hold *)
(** "If some assets are the same, we want them to be sent to one address" (line 942): with two outputs of one asset, all that is known of
    them true and the fee paid for, the program fails. *)
Theorem C87_same_asset_refuted : exists z V order (G : PointGroup order) (M : Meaning z G) dw ver legacy Hash160 sign fee_asset rand new_addr us spent,
  SizesOk z /\ BlindSumLaw z order /\ CodecLaws z /\ VerifierLaws z V M /\ RewindSound z /\ ZeroGen z /\ FullNull dw /\ RandOk z rand /\ (forall k, rand k <> zeros 32)
  /\ Forall2 (Truth z) us spent /\ In fee_asset (map u_asset us) /\ (forall u, In u us -> u_asset u = fee_asset -> 20000 <= u_amount u) /\ (forall n, ad_conf (new_addr n) = true)
  /\ ~ NoDup (map u_asset us)
  /\ claim_funds_back z dw ver legacy Hash160 sign fee_asset rand new_addr us = Crashes EAssert.
Proof.
  exists ftoy, toy_verifier, toy_order, toy_group, ftoy_meaning, sw_dw, 2, sw_legacy, sw_h160, sw_sign, sw_fee_asset, (fit_rand 909), cl_addr, [sw_a2; cl_more; sw_fee], (map sw_spent [sw_a2; cl_more; sw_fee]).
  split; [exact ftoy_sizes|]. split; [exact ftoy_blind_sum|]. split; [exact ftoy_codec|]. split; [exact ftoy_verifies|]. split; [exact ftoy_sound|]. split; [exact ftoy_zerogen|].
  split; [exact sw_full|]. split; [apply fit_rand_ok|]. split; [intros k; apply fit_rand_nonzero; split; reflexivity|]. split; [apply cl_truth; vm_compute; reflexivity|].
  split; [right; right; left; unfold sw_fee, sw_utxo, u_asset; reflexivity|]. split.
  { intros u [<-|[<-|[<-|[]]]] E; [exfalso; revert E; vm_compute; discriminate|exfalso; revert E; vm_compute; discriminate|vm_compute; discriminate]. }
  split; [intros n; reflexivity|]. split; [|rewrite <- cl_run_eq; exact cl_t3]. intros ND. inversion ND as [|x l N1 N2]. apply N1. left. unfold sw_a2, cl_more, sw_utxo, u_asset. reflexivity.
Qed.
(** "What is sent is valid": the program sends a transaction also if none of the outputs is of the fee's asset. *)
Theorem C87_fee_refuted : exists z V order (G : PointGroup order) (M : Meaning z G) dw ver legacy Hash160 sign fee_asset rand new_addr us spent t message,
  SizesOk z /\ BlindSumLaw z order /\ CodecLaws z /\ VerifierLaws z V M /\ RewindSound z /\ ZeroGen z /\ FullNull dw /\ RandOk z rand /\ (forall k, rand k <> zeros 32)
  /\ Forall2 (Truth z) us spent
  /\ claim_funds_back z dw ver legacy Hash160 sign fee_asset rand new_addr us = Sends t message /\ node_check z V spent t = false.
Proof.
  destruct (cl_sent_Sends _ _ _ _ cl_t2) as (t & b & S1 & _ & S3). rewrite cl_run_eq in S1.
  exists ftoy, toy_verifier, toy_order, toy_group, ftoy_meaning, sw_dw, 2, sw_legacy, sw_h160, sw_sign, sw_fee_asset, (fit_rand 909), cl_addr, [sw_a2], (map sw_spent [sw_a2]), t, b.
  split; [exact ftoy_sizes|]. split; [exact ftoy_blind_sum|]. split; [exact ftoy_codec|]. split; [exact ftoy_verifies|]. split; [exact ftoy_sound|]. split; [exact ftoy_zerogen|].
  split; [exact sw_full|]. split; [apply fit_rand_ok|]. split; [intros k; apply fit_rand_nonzero; split; reflexivity|]. split; [apply cl_truth; vm_compute; reflexivity|]. split; [exact S1|exact S3].
Qed.

Print Assumptions C87_claims.
Print Assumptions C87_signatures.
Print Assumptions C87_reads.
Print Assumptions C87_accepted.
Print Assumptions C87_same_asset_refuted.
Print Assumptions C87_fee_refuted.
