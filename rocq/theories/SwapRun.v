(** Proofs for C86: both parties follow the program. *)
From Verif Require Import Base BaseFacts Serialize TxModel MiscModel IssuanceModel BlindModel UnblindModel SpendModel WalletModel SighashModel ScriptModel SpecWire
  SpecBlind SpecBalance SpecUnblind SpecMulti SpecNode SpecSpend SpecSign SpecGrow BlindFacts BlindFrame BlindSteps BlindComplete BlindMain BlindBalance BlindSer TxProofs TxProofs2 PropBlindSer PropCodec PropUnblind PropSpend PropSign
  ExampleModel SpecExample ExampleProofs PropExample GrowProofs PropGrow SwapModel SpecSwap SwapProofs.
From Coq Require Import Lia Permutation.
Local Open Scope Z_scope.

(** * On the wire *)
Lemma conf_script_small a sc : ad_conf a = true -> to_scriptPubKey a = Ok sc -> small sc.
Proof.
  intros C. unfold to_scriptPubKey, to_unconfidential, addr_from_bytes, rbind. rewrite C, andb_false_r.
  destruct (Z.eqb_spec (blen (skipn 33 (ad_data a))) (data_length (ad_kind a) false)) as [L|]; [|discriminate]. intros H. apply Ok_inj in H. subst sc. cbn [ad_kind ad_data].
  unfold small. assert (blen (unconf_script (ad_kind a) (skipn 33 (ad_data a))) <= 40); [|lia].
  destruct (ad_kind a); cbn [unconf_script]; rewrite ?blen_app, L; vm_compute; discriminate.
Qed.
Lemma wf_output amount asset script o sc : output_of amount asset script = Ok o -> script = Ok sc -> small sc -> wf_txout o.
Proof.
  intros H E S. apply output_of_Ok in H. destruct H as (v & a & sc' & -> & EV & EA & ES). assert (sc' = sc) by congruence. subst sc'.
  apply value_back, to_amount_explicit in EV. destruct EV as (x & -> & L & _). assert (AL := asset_len _ _ EA). apply asset_back, to_asset_explicit in EA; [|exact AL]. destruct EA as [-> LA].
  split; [cbn [nAsset]; apply CF_explicit; unfold blen; rewrite LA; reflexivity|]. split; [cbn [nValue]; apply CF_explicit; unfold blen; rewrite L; reflexivity|]. split; [constructor|exact S].
Qed.
Lemma wf_input u i : input_of u = Ok i -> 0 <= u_vout u < 2 ^ 30 -> wf_txin i.
Proof.
  intros H R. apply input_of_Ok in H. destruct H as (-> & L & _). unfold plain_input, outpoint_of. split.
  - split; [exact L|]. split; [cbn [prevout op_n]; lia|]. split; [apply small_nil|]. split; [cbn [nSequence]; lia|]. split; [reflexivity|]. split; [reflexivity|]. split; constructor.
  - right. cbn [prevout op_n assetIssuance is_pegin]. split; [exact R|]. split; [reflexivity|]. intros (_ & X & _). discriminate X.
Qed.
Lemma push_small d s : blen d <= 200 -> encode_op_pushdata d = Ok s -> blen s <= 300.
Proof.
  intros L. unfold encode_op_pushdata. destruct (Z.ltb_spec (blen d) 0x4c); [intros E; apply Ok_inj in E; subst s; rewrite blen_cons; lia|].
  destruct (Z.leb_spec (blen d) 0xff); [intros E; apply Ok_inj in E; subst s; rewrite !blen_cons; lia|lia].
Qed.
Lemma filled_wf t i ss st t' : Filled t i ss st t' -> blen ss <= 1000 -> match st with Some st => Forall (fun x => blen x <= 1000) st /\ (length st <= 10)%nat | None => True end -> wf_fields t -> wf_fields t'.
Proof.
  intros (x & E & A & B & C & D & F & G & I) S1 S2 ((W1 & W2 & W3 & W4 & W5 & W6) & W7 & W8). split; [|split].
  - unfold wf_body. rewrite A, B, C, D, upd_length. repeat (split; [assumption|]). split; [|assumption]. apply Forall_upd; [exact W5|].
    assert (WX := Forall_nth_error _ _ _ _ W5 E). destruct WX as [(X1 & X2 & X3 & X4 & X5) X6]. split; [|exact X6].
    split; [exact X1|]. split; [exact X2|]. split; [unfold small; cbn [scriptSig]; lia|]. split; [exact X4|exact X5].
  - rewrite G. destruct st as [st|]; [|exact W7]. apply Forall_upd; [exact W7|]. destruct S2 as [S2 S3]. split; [apply small_nil|]. split; [apply small_nil|]. split; [|split; [cbn; lia|constructor]].
    split; [cbn [iw_script]; lia|]. cbn [iw_script]. eapply Forall_impl; [|exact S2]. intros y Y. cbv beta in Y. unfold small. lia.
  - rewrite F. exact W8.
Qed.
Lemma filled_aligned t i ss st t' : Filled t i ss st t' -> complete_witness t -> complete_witness t'.
Proof.
  intros (x & E & A & B & C & D & F & G & I) [L1 L2]. split; [|rewrite F, B; exact L2]. rewrite G, A, upd_length. destruct st; [rewrite upd_length|]; exact L1.
Qed.
Section Wire.
Variables (z : Crypto) (legacy : bytes -> tx -> Z -> Z -> res (bytes * bool)) (Hash160 : bytes -> bytes) (sign : bytes -> bytes -> bytes).
Lemma sign_wf t i u t' : SmallKeys Hash160 sign [u] -> sign_input z legacy Hash160 sign t i u = Ok t' -> wf_fields t -> complete_witness t -> wf_fields t' /\ complete_witness t'.
Proof.
  intros (H1 & H2 & H3) SG W C. apply sign_filled in SG. destruct SG as (ss & st & h & F & ST & SS). apply Forall_inv in H3.
  assert (LS : blen (sign (u_pub u) h ++ [zb SIGHASH_ALL]) <= 101) by (rewrite blen_app; specialize (H2 (u_pub u) h); cbn [blen length]; unfold blen at 2; cbn [length]; lia).
  split; [|eapply filled_aligned; eassumption]. eapply filled_wf; [exact F| | |exact W].
  - destruct SS as [->|[SS|(a & b & -> & A & B)]]; [cbn; lia| |].
    + apply push_small in SS; [lia|]. rewrite blen_app, H1. cbn; lia.
    + apply push_small in A, B; [|lia|lia]. rewrite blen_app. lia.
  - destruct ST as [->| ->]; [exact I|]. split; [|cbn; lia]. constructor; [lia|]. constructor; [lia|constructor].
Qed.
Lemma sign_all_wf us : forall t i t', SmallKeys Hash160 sign us -> sign_all z legacy Hash160 sign t i us = Ok t' -> wf_fields t -> complete_witness t -> wf_fields t' /\ complete_witness t'.
Proof.
  induction us as [|u us IH]; intros t i t' SK SG W C; cbn [sign_all] in SG.
  - apply Ok_inj in SG. subst. auto.
  - unfold rbind in SG. destruct (sign_input z legacy Hash160 sign t i u) as [t1|] eqn:E; [|discriminate SG]. destruct SK as (H1 & H2 & H3).
    destruct (sign_wf t i u t1) as [W1 C1]; [|exact E|exact W|exact C|]. { split; [exact H1|]. split; [exact H2|]. constructor; [exact (Forall_inv H3)|constructor]. }
    apply (IH _ _ _ (conj H1 (conj H2 (Forall_inv_tail H3))) SG W1 C1).
Qed.
End Wire.
Lemma wire_same dw t b t' : dw_null dw -> wf_fields t -> complete_witness t -> tx_serialize t = Ok b -> tx_deserialize dw b = Ok t' -> ~ NullWit (wit t) \/ ~ NullWit (wit t') -> t' = t.
Proof.
  intros HD (A & B & C) [L1 L2] E1 E2 N. destruct (C11_tx_deserialize dw t HD) as (b' & t'' & X1 & X2 & X3).
  { split; [exact A|]. right. repeat split; assumption. }
  assert (b' = b) by congruence. subst b'. assert (t'' = t') by congruence. subst t''. destruct X3 as (Y1 & Y2 & Y3 & Y4 & [Y5|[Y5 Y6]]); [|destruct N as [N|N]; contradiction].
  destruct t, t'. cbn in *. congruence.
Qed.
Lemma blind_wf' z rand args t r s : SizesOk z -> SmallProofs z -> blind_transaction z rand args t = (Ret r, s) -> wf_fields t -> complete_witness t -> wf_fields (s_tx s) /\ complete_witness (s_tx s).
Proof.
  intros SZ SP E W C. split.
  - assert (Q := blind_wf z rand args SZ SP t W). rewrite E in Q. exact Q.
  - exact (proj1 (exchange_aligned z rand args t r s C E)).
Qed.
Lemma read_not_null z o key w r d t : txout_unblind z o key (ow_range w) = Ok r -> get_descriptor r = Some d -> nth_error (vtxoutwit (wit t)) 0 = Some w -> ~ NullWit (wit t).
Proof.
  intros R D E [_ N]. apply nth_error_In in E. rewrite Forall_forall in N. apply N in E. unfold NullOut in E. subst w. destruct r as [m|n b ab|asset amount bf abf]; try discriminate D.
  unfold txout_unblind in R. destruct (C50_success_facts _ _ _ _ _ _ _ _ _ _ _ R) as (X & _). apply X. reflexivity.
Qed.

(** * Bob's part *)
Definition first_tx (dw : default_wit) (ver : Z) (me : utxo) (o : txout) : tx := let i := plain_input (outpoint_of me) in mkTx [i] [o] 0 ver (dw [i] [o]).
Definition bob_args (me : utxo) (pub : bytes) (gens : list bytes) : blind_args := plain_args [descriptor me] [pub] gens.
Lemma bob_offers_inv z dw ver rand me alice_addr coms T b : bob_offers z dw ver rand me alice_addr coms = Sends T b ->
  exists mine i o bfs abfs s, u_commitment me = Some mine /\ input_of me = Ok i /\ output_of (u_amount me) (u_asset me) (to_scriptPubKey alice_addr) = Ok o /\ ad_conf alice_addr = true
    /\ blind_transaction z rand (bob_args me (blinding_pubkey alice_addr) (mine :: coms)) (first_tx dw ver me o) = (Ret (BSuccess 1 bfs abfs), s) /\ T = s_tx s /\ tx_serialize T = Ok b.
Proof.
  unfold bob_offers. intros H. apply bindT_sends in H. destruct H as (mine & EM & H). apply bindT_sends in H. destruct H as (i & EI & H). apply bindT_sends in H. destruct H as (o & EO & H).
  apply bindT_sends in H. destruct H as (pub & EP & H). apply pubkey_of_Ok in EP. destruct EP as [CO ->]. apply blinds_sends in H. destruct H as (bfs & abfs & s & B & H).
  apply bindT_sends in H. destruct H as (b' & SB & H). injection H as E1 E2. subst T b'. destruct (input_of_Ok _ _ EI) as (-> & _).
  exists mine, (plain_input (outpoint_of me)), o, bfs, abfs, s. split; [destruct (u_commitment me); [apply Ok_inj in EM; congruence|discriminate EM]|]. repeat (split; [assumption|]). split; [reflexivity|assumption].
Qed.

(** * The whole *)
Lemma out_sound z amount asset script o : output_of amount asset script = Ok o -> 0 < amount <= money -> gen_generate z asset <> None ->
  (exists a g, ExplicitAsset (nAsset o) a /\ gen_generate z a = Some g /\ (Amount (nValue o) \/ (nValue o = x01 :: zeros 8 /\ unspendable (scriptPubKey o) = true)))
  /\ tl (nAsset o) = asset /\ be_val (tl (nValue o)) = amount /\ hd x00 (nAsset o) = x01 /\ hd x00 (nValue o) = x01.
Proof.
  intros H R NG. apply output_of_Ok in H. destruct H as (v & a & sc & -> & EV & EA & _). cbn [nAsset nValue scriptPubKey].
  apply made_amount in EV; [|lia]. assert (AL := asset_len _ _ EA). apply asset_back, to_asset_explicit in EA; [|exact AL]. split.
  - destruct (gen_generate z asset) as [g|] eqn:G; [|congruence]. exists asset, g. split; [exact EA|]. split; [exact G|]. left. exists amount. auto.
  - destruct EA as [-> _]. destruct EV as (d & -> & _ & E). auto.
Qed.
Lemma truth_amount z u o : Truth z u o -> 0 < u_amount u <= money.
Proof.
  intros [D B C A P I]. split; [exact P|]. inversion D as [a v EA EV Q|key proof r d R G X Q].
  - exfalso. apply B. destruct EA as [-> _]. reflexivity.
  - destruct r as [m|n b ab|asset amount bf abf]; try discriminate G. unfold txout_unblind in R. destruct (C50_success_facts _ _ _ _ _ _ _ _ _ _ _ R) as (_ & RG & _).
    cbn [get_descriptor] in G. unfold descriptor in G. injection G as G1 G2 G3 G4. rewrite <- G2. apply RG.
Qed.
Lemma truth_existing z u o : Truth z u o -> Existing z o.
Proof. intros T a v [E _]. exfalso. apply (tr_blinded _ _ _ T). rewrite E. reflexivity. Qed.
Definition alice_adds (a1 a2 fee : utxo) (o1 o2 o3 o4 : txout) : more :=
  mkMore (map (fun u => (plain_input (outpoint_of u), inwit_null)) [a1; a2; fee]) (map (fun o => (o, outwit_null)) [o1; o2; o3; o4]).
Lemma joined_extend partial a1 a2 fee o1 o2 o3 o4 : joined partial a1 a2 fee o1 o2 o3 o4 = extend (alice_adds a1 a2 fee o1 o2 o3 o4) partial.
Proof. reflexivity. Qed.
Lemma plain_nonzero z rand descs pubs gens t n bfs abfs s pre j o : (forall k, rand k <> zeros 32) ->
  blind_transaction z rand (plain_args descs pubs gens) t = (Ret (BSuccess n bfs abfs), s) -> output_tasks (plain_args descs pubs gens) = pre ++ [j] ->
  nth_error (vout t) j = Some o -> ~ In j pre -> nth_error (vout (s_tx s)) j <> Some o ->
  forall i, In i (output_tasks (plain_args descs pubs gens)) -> nth_error bfs i <> Some (zeros 32).
Proof.
  intros RN B ET EO NI NE i IN. assert (NN := plain_count _ _ _ _ _ _ _ _ _ _ B). destruct (blind_success z rand _ t _ _ _ _ B) as (_ & _ & Q).
  destruct (Q NN) as (targets & _ & [(AB & _ & LF)|(pre' & j' & EP & AB & _)]).
  - destruct (LF _ _ ET) as (bf & EB & NB & _). destruct (In_nth_error _ _ IN) as [k EK]. destruct (ab_out _ _ _ _ _ _ _ _ _ AB _ _ EK) as (b0 & ab0 & x & x' & E1 & _ & _ & _ & _ & E6 & _).
    destruct (Nat.eq_dec i j) as [->|NEQ]; [congruence|]. rewrite E1. intros X. injection X as X. apply (RN (length (issuance_tasks (plain_args descs pubs gens) t) + 4 * k)%nat). rewrite <- E6; [congruence|].
    intros L. rewrite ET, app_length in L. cbn [length] in L. rewrite ET, nth_error_app2 in EK by lia. replace (k - length pre)%nat with 0%nat in EK by lia. injection EK as EK. congruence.
  - exfalso. rewrite ET in EP. apply app_inj_tail in EP. destruct EP as [<- <-]. apply NE.
    destruct (ab_rest _ _ _ _ _ _ _ _ _ AB j) as (_ & _ & X); [apply nth_error_Some; congruence|exact NI|congruence].
Qed.
Lemma truth_gives z args i u o d : Truth z u o -> d = descriptor u ->
  nth_error (a_descs args) i = Some d \/ (nth_error (a_descs args) i = Some unknown_input /\ nth_error (a_aux args) i = u_commitment u) -> Gives z args i o d.
Proof.
  intros T -> [E|[E X]].
  - exists (descriptor u). split; [exact E|]. left. split; [reflexivity|]. exact (proj1 (tr_asset _ _ _ T)).
  - exists unknown_input. split; [exact E|]. right. split; [reflexivity|]. exists (nAsset o). split; [rewrite X; exact (tr_commitment _ _ _ T)|]. left. split; [reflexivity|exact (tr_blinded _ _ _ T)].
Qed.
Lemma unknown_zero : negb (bytes_eqb (d_bf unknown_input) (zeros 32) && bytes_eqb (d_abf unknown_input) (zeros 32)) = false. Proof. reflexivity. Qed.

Section Honest.
Variables (z : Crypto) (V : Verifier) (order : Z) (G : PointGroup order) (M : Meaning z G) (dw : default_wit) (ver : Z)
  (legacy : bytes -> tx -> Z -> Z -> res (bytes * bool)) (Hash160 : bytes -> bytes) (sign : bytes -> bytes -> bytes) (randA randB : nat -> bytes)
  (me a1 a2 fee : utxo) (p_me p1 p2 p_fee : txout) (alice_addr b1 b2 change : addr) (bkey k1 k2 mine : bytes) (coms : list bytes) (t1 t2 t3 : tx) (m1 m2 m3 : bytes).
Hypotheses (SZ : SizesOk z) (LAW : BlindSumLaw z order) (CL : CodecLaws z) (VL : VerifierLaws z V M) (RS : RewindSound z) (ZG : ZeroGen z) (SP : SmallProofs z)
  (DN : FullNull dw) (SK : SmallKeys Hash160 sign [me; a1; a2; fee]) (VR : - 2 ^ 31 <= ver < 2 ^ 31)
  (RA : forall k, randA k <> zeros 32) (RB : forall k, randB k <> zeros 32)
  (T0 : Truth z me p_me) (T1 : Truth z a1 p1) (T2 : Truth z a2 p2) (T3 : Truth z fee p_fee) (FE : FIXED_FEE_SATOSHI < u_amount fee)
  (EM : u_commitment me = Some mine) (EC : alice_commitments a1 a2 fee = Ok coms)
  (H1 : bob_offers z dw ver randB me alice_addr coms = Sends t1 m1)
  (H2 : alice_signs z dw legacy Hash160 sign randA a1 a2 fee (u_asset fee) change bkey (mkOffer (u_asset me) (u_amount me)) m1 [b1; b2] mine = Sends t2 m2)
  (H3 : bob_signs z dw legacy Hash160 sign me [k1; k2] [mkOffer (u_asset a1) (u_amount a1); mkOffer (u_asset a2) (u_amount a2)] m2 = Sends t3 m3)
  (CH : forall o, nth_error (vout t3) 3 = Some o -> hd x00 (nAsset o) <> x01).

Lemma honest_run : node_check z V [p_me; p1; p2; p_fee] t3 = true
  /\ Gets z t3 0 bkey (u_asset me) (u_amount me) /\ Gets z t3 1 k1 (u_asset a1) (u_amount a1) /\ Gets z t3 2 k2 (u_asset a2) (u_amount a2)
  /\ alice_broadcasts dw t2 m3 = Some t3.
Proof.
  assert (HD : dw_null dw) by (intros i o; apply DN).
  (* Bob's offer *)
  apply bob_offers_inv in H1. destruct H1 as (mine' & i0 & o0 & bfs1 & abfs1 & s1 & EM' & EI0 & EO0 & CO0 & B1 & -> & SB1).
  assert (mine' = mine) by congruence. subst mine'. set (t0 := first_tx dw ver me o0) in *. destruct (DN [plain_input (outpoint_of me)] [o0]) as (NW0 & LI0 & LO0). change (NullWit (wit t0)) in NW0.
  assert (C0 : complete_witness t0) by (split; [exact LI0|exact LO0]).
  assert (SC0 : exists sc, to_scriptPubKey alice_addr = Ok sc) by (apply output_of_Ok in EO0; destruct EO0 as (? & ? & sc & _ & _ & _ & E); exists sc; exact E). destruct SC0 as [sc0 SC0].
  assert (W0 : wf_fields t0).
  { assert (WI := wf_input _ _ EI0 (tr_index _ _ _ T0)). destruct (input_of_Ok _ _ EI0) as (-> & _). split; [|split].
    - split; [exact VR|]. split; [cbn; lia|]. split; [cbn; lia|]. split; [cbn; lia|]. split; [constructor; [exact WI|constructor]|].
      constructor; [exact (wf_output _ _ _ _ _ EO0 SC0 (conf_script_small _ _ CO0 SC0))|constructor].
    - eapply Forall_impl; [|exact (proj1 NW0)]. intros w ->. apply inwit_null_wf.
    - eapply Forall_impl; [|exact (proj2 NW0)]. intros w ->. apply outwit_null_wf. }
  destruct (blind_wf' _ _ _ _ _ _ SZ SP B1 W0 C0) as [W1 C1].
  (* Alice's part *)
  apply alice_inv in H2. destruct H2 as (b1' & b2' & EB & partial & o & w & d & o1 & o2 & o3 & o4 & bfs2 & abfs2 & s2 & AR). injection EB as <- <-.
  assert (WT := ar_wit0 _ _ _ _ _ _ _ _ _ _ _ _ _ _ _ _ _ _ _ _ _ _ _ _ _ _ _ _ _ _ AR). assert (GT := ar_gets _ _ _ _ _ _ _ _ _ _ _ _ _ _ _ _ _ _ _ _ _ _ _ _ _ _ _ _ _ _ AR).
  destruct AR as [P1 P2 P3 P4 P5 P6 P7 P8 P9 P10 P11 P12 P13 P14 P15]. destruct P4 as (r & P4 & P4'). destruct P12 as (Q1 & Q2 & Q3).
  assert (EPT : partial = s_tx s1) by (apply (wire_same dw _ _ _ HD W1 C1 SB1 P1); right; exact (read_not_null _ _ _ _ _ _ _ P4 P4' P3)).
  subst partial. rewrite joined_extend in P13. set (x := alice_adds a1 a2 fee o1 o2 o3 o4) in *.
  assert (SCR : forall amount asset a u, output_of amount asset (to_scriptPubKey a) = Ok u -> ad_conf a = true -> wf_txout u).
  { intros amount asset a u OO CO. assert (OO' := OO). apply output_of_Ok in OO'. destruct OO' as (? & ? & sc & _ & _ & _ & E). exact (wf_output _ _ _ _ _ OO E (conf_script_small _ _ CO E)). }
  destruct P7 as (ins & P7). destruct (rmap3 _ _ _ _ _ P7) as (i1 & i2 & i3 & -> & I1 & I2 & I3).
  assert (V1 : vin (s_tx s1) = vin t0) by (eapply plain_vin; assert (F := blind_transaction_frame z randB (bob_args me (blinding_pubkey alice_addr) (mine :: coms)) t0); rewrite B1 in F; exact F).
  assert (WE : wf_fields (extend x (s_tx s1))).
  { destruct W1 as ((A1 & A2 & A3 & A4 & A5 & A6) & A7 & A8). split; [|split].
    - split; [exact A1|]. split; [exact A2|]. cbn [extend vin vout]. rewrite !app_length, V1, P2. cbn. split; [lia|]. split; [lia|]. rewrite P2 in A6. split.
      + constructor; [rewrite V1 in A5; exact (Forall_inv A5)|]. assert (J1 := wf_input _ _ I1 (tr_index _ _ _ T1)). assert (J2 := wf_input _ _ I2 (tr_index _ _ _ T2)). assert (J3 := wf_input _ _ I3 (tr_index _ _ _ T3)).
        destruct (input_of_Ok _ _ I1) as (-> & _). destruct (input_of_Ok _ _ I2) as (-> & _). destruct (input_of_Ok _ _ I3) as (-> & _). repeat (constructor; [assumption|]). constructor.
      + constructor; [exact (Forall_inv A6)|]. constructor; [exact (SCR _ _ _ _ P8 Q1)|]. constructor; [exact (SCR _ _ _ _ P9 Q2)|]. constructor; [exact (SCR _ _ _ _ P10 Q3)|].
        constructor; [exact (wf_output _ _ _ _ _ P11 eq_refl small_nil)|constructor].
    - cbn [extend wit vtxinwit]. apply Forall_app. split; [exact A7|]. repeat (constructor; [apply inwit_null_wf|]). constructor.
    - cbn [extend wit vtxoutwit]. apply Forall_app. split; [exact A8|]. repeat (constructor; [apply outwit_null_wf|]). constructor. }
  assert (CE : complete_witness (extend x (s_tx s1))) by (exact (extend_aligned x _ C1)).
  destruct (blind_wf' _ _ _ _ _ _ SZ SP P13 WE CE) as [W2 C2].
  assert (SK' : SmallKeys Hash160 sign [a1; a2; fee] /\ SmallKeys Hash160 sign [me]).
  { destruct SK as (X1 & X2 & X3). split; (split; [exact X1|]; split; [exact X2|]); [exact (Forall_inv_tail X3)|constructor; [exact (Forall_inv X3)|constructor]]. }
  destruct (sign_all_wf _ _ _ _ _ _ _ _ (proj1 SK') P14 W2 C2) as [W3 C3].
  (* Bob again *)
  apply bob_inv in H3. destruct H3 as (t & D1 & D2 & D3 & D4 & D5 & D6).
  assert (NN2 : ~ NullWit (wit t2)) by (exact (read_not_null _ _ _ _ _ _ _ P4 P4' (proj2 WT))).
  assert (t = t2) by (apply (wire_same dw _ _ _ HD W3 C3 P15 D1); left; exact NN2). subst t.
  destruct (sign_wf _ _ _ _ _ _ _ _ (proj2 SK') D5 W3 C3) as [W4 C4]. destruct (sign_filled _ _ _ _ _ _ _ _ D5) as (ss & st & h & FI & _). assert (OI := filled_only _ _ _ _ _ FI).
  assert (GS : forall j key asset amount, Gets z t2 j key asset amount -> Gets z t3 j key asset amount) by (intros j key asset amount; apply gets_same; [exact (oi_out _ _ _ OI)|exact (oi_outwit _ _ _ OI)]).
  assert (F1 := blind_transaction_frame z randB (bob_args me (blinding_pubkey alice_addr) (mine :: coms)) t0). rewrite B1 in F1. cbn [snd] in F1.
  set (aargs := alice_args a1 a2 fee (blinding_pubkey b1) (blinding_pubkey b2) (blinding_pubkey change) mine) in *.
  assert (F2 := blind_transaction_frame z randA aargs (extend x (s_tx s1))). rewrite P13 in F2. cbn [snd] in F2.
  (* signing *)
  assert (IW : forall k, inwit_at (s_tx s2) k = mkInWit [] [] [] []).
  { intros k. rewrite (plain_inwit _ _ _ _ _ _ F2). assert (QQ : forall n, inwit_at (s_tx s1) n = mkInWit [] [] [] []) by (intros n; rewrite (plain_inwit _ _ _ _ _ n F1); apply (null_at t0 NW0)).
    unfold inwit_at in *. cbn [extend wit vtxinwit x alice_adds m_in map snd]. destruct (le_lt_dec (length (vtxinwit (wit (s_tx s1)))) k) as [L|L].
    - rewrite app_nth2 by exact L. destruct (k - length (vtxinwit (wit (s_tx s1))))%nat as [|[|[|[|]]]]; reflexivity.
    - rewrite app_nth1 by exact L. apply QQ. }
  assert (S1 : OnlySigned (s_tx s2) t2) by (apply (sign_all_signed _ _ _ _ _ _ _ _ P14); intros k _; rewrite IW; auto).
  assert (S2 : OnlySigned t2 t3) by (apply (filled_signed legacy Hash160 sign _ _ _ _ _ FI); destruct (si_inwit _ _ S1 0%nat) as (X1 & X2 & X3); rewrite X1, X2, X3, IW; auto).
  assert (SS := OnlySigned_trans _ _ _ S1 S2).
  assert (V2 : vin (s_tx s2) = vin (extend x (s_tx s1))) by (exact (plain_vin _ _ _ _ _ F2)).
  split; [|split; [apply GS, GT|split; [|split]]].
  2: { destruct (D4 0%nat _ eq_refl) as (key & EK & X). injection EK as <-. apply GS, X. }
  2: { destruct (D4 1%nat _ eq_refl) as (key & EK & X). injection EK as <-. apply GS, X. }
  2: { unfold alice_broadcasts. destruct (C11_tx_deserialize dw t3 HD) as (b & t3' & X1 & X2 & X3).
       { destruct W4 as (Y1 & Y2 & Y3). destruct C4 as [Y4 Y5]. split; [exact Y1|]. right. repeat split; assumption. }
       assert (b = m3) by congruence. subst b.
       assert (t3' = t3). { apply (wire_same dw _ _ _ HD W4 C4 D6 X2). left. apply (read_not_null _ _ _ _ _ _ _ P4 P4'). rewrite (oi_outwit _ _ _ OI). exact (proj2 WT). }
       subst t3'. rewrite X2. assert (PV : map prevout (vin t3) = map prevout (vin t2)). { destruct (oi_in _ _ _ OI) as (aa & xx & bb & s0 & -> & _ & ->). rewrite !map_app. reflexivity. }
       replace (same_prevouts (vin t3) (vin t2)) with true; [reflexivity|]. clear - PV. revert PV. generalize (vin t2). induction (vin t3) as [|y l IH]; intros l2 PV; [reflexivity|].
       destruct l2 as [|y2 l2]; [discriminate PV|]. cbn [map] in PV. injection PV as PV1 PV2. cbn [same_prevouts]. rewrite PV1, (proj2 (bytes_eqb_eq _ _) eq_refl), Z.eqb_refl. exact (IH _ PV2). }
  destruct (C78_signing_keeps _ _ 0%nat SS) as (_ & _ & _ & KEEP). { rewrite V2. cbn [extend vin]. rewrite app_length. cbn. lia. }
  rewrite KEEP. clear KEEP.
  assert (QN : output_tasks aargs = [1; 2; 3]%nat).
  { assert (N := plain_count _ _ _ _ _ _ _ _ _ _ P13). rewrite plain_tasks in N. change (3%nat = length (output_tasks aargs)) in N.
    unfold output_tasks in N |- *. cbn [aargs alice_args plain_args a_pubkeys length seq filter nth] in N |- *.
    destruct (blinding_pubkey b1), (blinding_pubkey b2), (blinding_pubkey change); cbn [length] in N; try discriminate N. reflexivity. }
  assert (QB : output_tasks (bob_args me (blinding_pubkey alice_addr) (mine :: coms)) = [0]%nat).
  { assert (N := plain_count _ _ _ _ _ _ _ _ _ _ B1). rewrite plain_tasks in N. cbn [length Nat.add] in N. unfold output_tasks in N |- *. cbn [bob_args plain_args a_pubkeys length seq filter nth] in N |- *.
    destruct (blinding_pubkey alice_addr); [discriminate N|reflexivity]. }
  assert (U0 := truth_amount _ _ _ T0). assert (U1 := truth_amount _ _ _ T1). assert (U2 := truth_amount _ _ _ T2). assert (U3 := truth_amount _ _ _ T3).
  assert (FF : FIXED_FEE_SATOSHI = 10000) by reflexivity.
  destruct (out_sound z _ _ _ _ EO0 U0 (proj2 (tr_asset _ _ _ T0))) as (O0 & A0 & X0 & HA0 & HV0).
  destruct (out_sound z _ _ _ _ P8 U1 (proj2 (tr_asset _ _ _ T1))) as (O1 & A1 & X1 & HA1 & HV1).
  destruct (out_sound z _ _ _ _ P9 U2 (proj2 (tr_asset _ _ _ T2))) as (O2 & A2 & X2 & HA2 & HV2).
  destruct (out_sound z _ _ _ _ P10 ltac:(lia) (proj2 (tr_asset _ _ _ T3))) as (O3 & A3 & X3 & HA3 & HV3).
  destruct (out_sound z _ _ _ _ P11 ltac:(lia) (proj2 (tr_asset _ _ _ T3))) as (O4 & A4 & X4 & HA4 & HV4).
  assert (CC : coms = [nAsset p1; nAsset p2; nAsset p_fee]).
  { unfold alice_commitments in EC. cbn [rmap] in EC. rewrite (tr_commitment _ _ _ T1), (tr_commitment _ _ _ T2), (tr_commitment _ _ _ T3) in EC. cbn [key_of rbind] in EC. apply Ok_inj in EC. congruence. }
  set (bargs := bob_args me (blinding_pubkey alice_addr) (mine :: coms)) in *.
  set (steps := [(bargs, x); (aargs, mkMore [] [])]).
  assert (AX : additions steps = x) by reflexivity.
  assert (EX : vin (extend x t0) = map (fun u => plain_input (outpoint_of u)) [me; a1; a2; fee]) by reflexivity.
  assert (EO : vout (extend x t0) = [o0; o1; o2; o3; o4]) by reflexivity.
  assert (NX : NullWit (wit (extend x t0))).
  { destruct NW0 as [N1 N2]. split; cbn [extend wit vtxinwit vtxoutwit]; apply Forall_app; (split; [assumption|]); repeat (constructor; [reflexivity|]); constructor. }
  destruct (null_at _ NX) as [NI NO].
  assert (NIS : forall inp ps, In inp (vin (extend x t0)) -> iss_field ps inp = []) by (intros inp ps; rewrite EX; intros [<-|[<-|[<-|[<-|[]]]]]; destruct ps; reflexivity).
  apply (C84_accepted z V order G M steps [p_me; p1; p2; p_fee] (map descriptor [me; a1; a2; fee]) t0 (s_tx s2) SZ LAW CL VL RS ZG).
  2: { rewrite AX. intros args i inp _ E _ NK. exfalso. apply NK. exact (NIS inp true (nth_error_In _ _ E)). }
  2: { rewrite AX. intros args IN. rewrite EX. cbn [steps whole In] in IN. destruct IN as [<-|[<-|[]]]; cbn [widen a_aux bargs bob_args aargs alice_args plain_args map length repeat]; [rewrite CC; cbn; lia|lia]. }
  constructor.
  - discriminate.
  - eapply BG_cons; [exact B1|reflexivity|exact (plain_stray _ _ _ _)|rewrite QB; discriminate| | |].
    + apply (plain_nonzero z randB _ _ _ t0 _ _ _ s1 [] 0 o0 RB B1 QB eq_refl); [intros []|]. rewrite P2. cbn [nth_error]. intros E. injection E as ->.
      destruct r as [m|n b ab|asset amount bf abf]; try discriminate P4'. unfold txout_unblind in P4. destruct (C50_success_facts _ _ _ _ _ _ _ _ _ _ _ P4) as (_ & _ & (p & q & E & _ & HP) & _).
      rewrite E in HV0. cbn [hd] in HV0. subst p. destruct HP as [HP|HP]; discriminate HP.
    + right. change (m_in (additions ((bargs, x) :: [(aargs, mkMore [] [])]))) with (m_in x). cbn [bargs bob_args plain_args a_aux]. rewrite CC. cbn. lia.
    + eapply BG_cons; [exact P13|reflexivity|exact (plain_stray _ _ _ _)|rewrite QN; discriminate| |left; reflexivity|rewrite extend_nil; constructor].
      apply (plain_nonzero z randA _ _ _ _ _ _ _ s2 [1; 2]%nat 3 o3 RA P13 QN); [cbn [extend vout]; rewrite P2; reflexivity|cbn; lia|].
      intros E. apply (CH o3); [rewrite (si_out _ _ SS); exact E|exact HA3].
  - exact C0.
  - intros i w0 IN. rewrite AX in IN. cbn [x alice_adds m_in map In] in IN. destruct IN as [IN|[IN|[IN|[]]]]; injection IN as <- <-; split; reflexivity.
  - rewrite AX. constructor.
    + intros u. rewrite EO. intros [<-|[<-|[<-|[<-|[<-|[]]]]]]; assumption.
    + exact NO.
    + intros inp ps IN. left. exact (NIS inp ps IN).
    + intros i ps. rewrite NI. destruct ps; reflexivity.
    + intros i inp E [Q|Q]; exfalso; apply Q; exact (NIS inp _ (nth_error_In _ _ E)).
    + intros i u inp _ E [Q|Q]; exfalso; apply Q; exact (NIS inp _ (nth_error_In _ _ E)).
  - reflexivity.
  - constructor; [exact (truth_existing _ _ _ T0)|]. constructor; [exact (truth_existing _ _ _ T1)|]. constructor; [exact (truth_existing _ _ _ T2)|]. constructor; [exact (truth_existing _ _ _ T3)|constructor].
  - constructor; [apply T0|]. constructor; [apply T1|]. constructor; [apply T2|]. constructor; [apply T3|constructor].
  - intros args i u d0 IN EU ED. cbn [steps whole In] in IN.
    destruct i as [|[|[|[|i]]]]; cbn [nth_error map] in EU, ED; [| | | |destruct i; discriminate EU]; injection EU as <-; injection ED as <-;
      [apply (truth_gives z _ _ me)|apply (truth_gives z _ _ a1)|apply (truth_gives z _ _ a2)|apply (truth_gives z _ _ fee)]; try assumption; try reflexivity;
      destruct IN as [<-|[<-|[]]]; cbn [widen a_descs a_aux bargs bob_args aargs alice_args plain_args map app nth_error];
      try (left; reflexivity); right; (split; [reflexivity|]); [exact (eq_sym EM)|rewrite CC; exact (eq_sym (tr_commitment _ _ _ T1))|rewrite CC; exact (eq_sym (tr_commitment _ _ _ T2))|rewrite CC; exact (eq_sym (tr_commitment _ _ _ T3))].
  - unfold described_once, blinded_inputs. cbn [steps whole flat_map widen a_descs bargs bob_args aargs alice_args plain_args map app]. rewrite app_nil_r.
    change no_input with unknown_input. cbn [additions plus m_in app length x alice_adds map repeat]. cbn [filter]. rewrite !unknown_zero.
    destruct (negb (bytes_eqb (d_bf (descriptor me)) (zeros 32) && bytes_eqb (d_abf (descriptor me)) (zeros 32))); apply Permutation_refl.
  - rewrite AX. intros a. assert (IS : issued z (whole steps) (extend x t0) = []).
    { unfold issued. rewrite EX. cbn [length map]. unfold issuance_slots. cbn [seq flat_map app]. unfold issued_at. rewrite EX. reflexivity. }
    rewrite IS, app_nil_r, EO. cbn [map descriptor d_asset d_amount]. rewrite A0, A1, A2, A3, A4, X0, X1, X2, X3, X4. unfold amount_of. cbn [filter fst snd].
    destruct (bytes_eqb (u_asset me) a), (bytes_eqb (u_asset a1) a), (bytes_eqb (u_asset a2) a), (bytes_eqb (u_asset fee) a); cbn [map snd]; unfold zsum; cbn [fold_right]; lia.
Qed.
End Honest.
