(** Property C85: the program examples/spend-to-confidential-address.py. *)
From Verif Require Import Base BaseFacts TxModel MiscModel IssuanceModel BlindModel UnblindModel SpendModel WalletModel SighashModel ScriptModel SpecWire
  SpecBlind SpecBalance SpecMulti SpecNode SpecUnblind SpecSpend SpecSign BlindFacts BlindFrame BlindSteps BlindComplete BlindMain BlindBalance TxProofs TxProofs2 PropCodec PropUnblind
  ToyCrypto ToyTx ToyUnblind ToyNode PropBlind NodeMain PropSpend PropSign ExampleModel SpecExample ExampleProofs.
From Coq Require Import Lia Permutation.
Local Open Scope Z_scope.

(** A lone output cannot be blinded when no input is: strict blind() never succeeds. *)
Theorem C85_lone_output : forall z rand args t n bfs abfs s, a_strict args = true -> issuance_tasks args t = [] -> blinded_inputs args = [] ->
  length (output_tasks args) = 1%nat -> blind_transaction z rand args t <> (Ret (BSuccess n bfs abfs), s).
Proof. exact lone_output. Qed.

(** What is printed spends the first output found, pays the destination, leaves the fee; it is the serialisation of that. *)
Theorem C85_pays : forall z rand dw ver legacy Hash160 sign input_tx pub bkey dst dummy signed hex n bfs,
  program z rand dw ver legacy Hash160 sign input_tx pub bkey dst dummy = Printed signed hex n bfs ->
  exists k utxo d fa fv script, FirstWith (vout input_tx) (p2sh_p2wpkh Hash160 pub) k utxo /\ Opens z input_tx k utxo bkey d
    /\ FeeOf (vout input_tx) fa fv /\ to_scriptPubKey dst = Ok script
    /\ Pays z input_tx k d script fa fv (negb (ad_conf dst)) signed /\ tx_serialize signed = Ok hex.
Proof. exact printed_pays. Qed.

(** The signature in it is valid for the output that is spent. *)
Theorem C85_unlocks : forall z rand dw ver legacy Hash160 sign (verify : bytes -> bytes -> bytes -> Prop) input_tx pub bkey dst dummy signed hex n bfs,
  dw_null dw -> blen (Hash160 pub) = 20 -> (forall h, verify pub h (sign h)) ->
  program z rand dw ver legacy Hash160 sign input_tx pub bkey dst dummy = Printed signed hex n bfs ->
  exists k utxo, FirstWith (vout input_tx) (p2sh_p2wpkh Hash160 pub) k utxo /\ Unlocks z Hash160 verify utxo signed.
Proof.
  intros z rand dw ver legacy H160 sign verify input_tx pub bkey dst dummy signed hex n bfs DN L20 VF P.
  apply program_cases in P. destruct P as [(k & utxo & d & fa & fv & script & body & v & a & fvb & t & pubs & ST & P)|[]].
  apply complete_cases in P. destruct P as (unb & abfs & s & _ & B & EN & SG & _).
  assert (F := blind_transaction_frame z rand (run_args d pubs) t). rewrite B in F. cbn [snd] in F.
  assert (NW := start_null _ _ _ _ _ _ _ _ _ _ _ _ _ _ _ _ _ _ _ _ _ DN ST). destruct (null_at t NW) as [NI NO].
  assert (SO := sign_only _ _ _ _ _ _ _ _ SG ltac:(rewrite (kept_inwit _ _ _ _ _ F); apply NI)).
  assert (VT : vin t = [plain_input (mkOutPoint (c_hash z body) (Z.of_nat k))]).
  { destruct (st_tx _ _ _ _ _ _ _ _ _ _ _ _ _ _ _ _ _ _ _ _ _ ST) as [(_ & -> & _)|(_ & _ & _ & v0 & _ & -> & _)]; reflexivity. }
  assert (LV : (0 < length (vin (s_tx s)))%nat) by (rewrite (kept_vin _ _ _ _ F), VT; cbn; lia).
  destruct (C78_signing_keeps _ _ 0%nat SO LV) as (KEEP & _). change (Z.of_nat 0) with 0 in KEEP.
  assert (FW := st_first _ _ _ _ _ _ _ _ _ _ _ _ _ _ _ _ _ _ _ _ _ ST).
  exists k, utxo. split; [exact FW|]. destruct FW as (_ & SC & _).
  unfold sign_tx in SG. cbv zeta in SG.
  destruct (sighash legacy (c_hash z) ([x76; xa9; x14] ++ H160 pub ++ [x88; xac]) (s_tx s) 0 SIGHASH_ALL (Some (nValue utxo)) SIGVERSION_WITNESS_V0) as [hash|e] eqn:HS;
    cbn [rbind] in SG; [|discriminate].
  assert (HS' : forall l, sighash l (c_hash z) ([x76; xa9; x14] ++ H160 pub ++ [x88; xac]) signed 0 1 (Some (nValue utxo)) SIGVERSION_WITNESS_V0 = Ok hash).
  { intros l. rewrite KEEP. rewrite <- HS. reflexivity. }
  clear HS KEEP. unfold set_script in SG. destruct (vin (s_tx s)) as [|i0 ins]; [discriminate|]. destruct (vtxinwit (wit (s_tx s))) as [|w0 ws]; [discriminate|].
  apply Ok_inj in SG. subst signed. do 7 eexists. split; [reflexivity|]. split; [reflexivity|]. cbn [scriptSig iw_script].
  split; [exact SC|]. split; [|split; [reflexivity|]].
  - assert (E : blen ([x00; x14] ++ H160 pub) = 22) by (rewrite blen_app, L20; reflexivity). rewrite E. reflexivity.
  - split; [exact L20|]. split; [reflexivity|]. split; [reflexivity|]. split; [exact HS'|apply VF].
Qed.

(** An output in plain sight is never sent to a confidential address. *)
Theorem C85_explicit_to_confidential : forall z rand dw ver legacy Hash160 sign input_tx pub bkey dst dummy k utxo,
  FirstWith (vout input_tx) (p2sh_p2wpkh Hash160 pub) k utxo -> conf_is_explicit CConfValue (nValue utxo) = true ->
  ad_conf dst = true -> blinding_pubkey dst <> [] ->
  forall signed hex n bfs, program z rand dw ver legacy Hash160 sign input_tx pub bkey dst dummy <> Printed signed hex n bfs.
Proof. exact explicit_to_confidential. Qed.

(** The assertions after blind() never fail. *)
Theorem C85_assertions : forall z rand dw ver legacy Hash160 sign input_tx pub bkey dst dummy line, dw_null dw ->
  program z rand dw ver legacy Hash160 sign input_tx pub bkey dst dummy = AssertFailed line -> line = 126%nat.
Proof. intros z rand dw ver legacy Hash160 sign input_tx pub bkey dst dummy line. apply never_fails. Qed.

Lemma plain_amount x v u : to_amount x = Ok v -> ExplicitValue x u -> 0 <= u <= money -> u = v.
Proof.
  intros T (d & -> & L & E) R. unfold to_amount in T. destruct (conf_is_explicit CConfValue (x01 :: d)); [|discriminate]. apply Ok_inj in T. cbn [tl] in T. subst v u.
  unfold to_signed. assert (money < 2 ^ 63) by reflexivity. change (256 ^ Z.of_nat 8) with (2 ^ 64). change (2 ^ 64 / 2) with (2 ^ 63).
  destruct (Z.ltb_spec (be_val d) (2 ^ 63)); lia.
Qed.
Lemma made_amount x v : conf_value_of_amount v = Ok x -> 0 <= v <= money -> ExplicitValue x v.
Proof.
  intros E R. apply value_back in E. apply to_amount_explicit in E. unfold c_uint64 in E. rewrite Z.mod_small in E; [exact E|]. assert (money < 2 ^ 64) by reflexivity. lia.
Qed.
Lemma described z t k u key d : OnChain z u -> Opens z t k u key d -> Described z u d /\ 0 <= d_amount d <= money.
Proof.
  intros [EX PL] [(a & v & A & V & ->)|(X & w & r & W & R & D)].
  - apply to_asset_explicit in A. assert (E := to_amount_explicit _ _ V). destruct (EX a _ A E) as [_ RG]. assert (Q := plain_amount _ _ _ V E ltac:(lia)).
    rewrite Q in E, RG. split; [exact (D_explicit z u a v A E)|cbn; lia].
  - destruct r as [m|n b ab|asset amount bf abf]; try discriminate D. injection D as <-.
    split.
    + eapply D_unblinded; [exact R|reflexivity|]. intros a EA. destruct (PL a EA) as (v & d & E & L & _). exfalso.
      unfold conf_is_explicit in X. rewrite E, blen_cons in X. unfold blen in X. rewrite L in X. discriminate.
    + unfold txout_unblind in R. destruct (C50_success_facts _ _ _ _ _ _ _ _ _ _ _ R) as (_ & RG & _). cbn [d_amount]. exact RG.
Qed.

(** The holder of the blinding key of a confidential destination reads the printed transaction: the asset, and what was spent less
    the fee. *)
Theorem C85_received : forall z rand dw ver legacy Hash160 sign input_tx pub bkey dst dummy signed hex n bfs k utxo d fa fv key,
  SizesOk z -> RandOk z rand -> CodecLaws z -> RewindLaw z -> KeyLaws z ->
  program z rand dw ver legacy Hash160 sign input_tx pub bkey dst dummy = Printed signed hex n bfs ->
  FirstWith (vout input_tx) (p2sh_p2wpkh Hash160 pub) k utxo -> Opens z input_tx k utxo bkey d -> FeeOf (vout input_tx) fa fv -> 0 <= fv ->
  ad_conf dst = true -> sk_valid z key = true -> blinding_pubkey dst = sk_pub z key ->
  exists u d', nth_error (vout signed) 0 = Some u /\ Opens z signed 0 u key d' /\ d_asset d' = d_asset d /\ d_amount d' = d_amount d - fv.
Proof.
  intros z rand dw ver legacy H160 sign input_tx pub bkey dst dummy signed hex n bfs k utxo d fa fv key SZ RO CL RL KL P FW OP FE F0 CO SK EK.
  assert (NEK : sk_pub z key <> []) by (destruct (so_pub z SZ _ SK) as (x & _ & [-> | ->]); discriminate).
  destruct (conf_is_explicit CConfValue (nValue utxo)) eqn:EX.
  { exfalso. refine (C85_explicit_to_confidential z rand dw ver legacy H160 sign input_tx pub bkey dst dummy k utxo FW EX CO _ signed hex n bfs P). congruence. }
  apply program_cases in P. destruct P as [(k' & utxo' & d0 & fa' & fv' & script & body & v & a & fvb & t & pubs & ST & P)|[]].
  destruct ST as [H1 H2 H3 H4 H5 H6 H7 H8 H9 H10]. destruct (first_unique _ _ _ _ _ _ FW H1) as [<- <-]. destruct (fee_unique _ _ _ _ _ FE H2) as [<- <-].
  assert (d0 = d) by exact (opens_unique _ _ _ _ _ _ _ H3 OP). subst d0.
  cbv zeta in H10. destruct H10 as [(_ & ET & EP)|(_ & X & _)]; [|congruence]. rewrite CO, EK in EP.
  apply complete_cases in P. destruct P as (unb & abfs & s & _ & B & EN & SG & _).
  assert (AL := opens_asset _ _ _ _ _ _ OP).
  assert (RG : 0 <= d_amount d <= max_money).
  { destruct OP as [(a0 & v0 & _ & V & _)|(_ & w & r & _ & R & D)]; [apply amount_explicit in V; congruence|].
    destruct r as [m|n0 b0 ab0|asset amount bf abf]; try discriminate D. injection D as <-. unfold txout_unblind in R.
    destruct (C50_success_facts _ _ _ _ _ _ _ _ _ _ _ R) as (_ & RG & _). exact RG. }
  assert (V1 : ExplicitValue v (d_amount d - fv)) by (apply made_amount; [exact H7|]; change money with max_money; lia).
  assert (A1 : ExplicitAsset a (d_asset d)) by (apply to_asset_explicit, asset_back; assumption).
  assert (EO : nth_error (vout t) 0 = Some (mkTxOut v script a [])) by (rewrite ET; reflexivity).
  assert (NN : n = (length (issuance_tasks (run_args d pubs) t) + length (output_tasks (run_args d pubs)))%nat).
  { rewrite no_issuance_tasks, filter_tasks. exact EN. }
  assert (WL : (0 < length (vtxoutwit (wit (s_tx s))))%nat).
  { destruct (blind_success z rand _ t _ _ _ _ B) as (_ & _ & Q). destruct (Q NN) as (targets & _ & [[AB _]|(pre & j & _ & AB & _)]);
      apply ab_nwit in AB; rewrite ET in AB; cbn [spend_of vout length] in AB; lia. }
  apply sign_inv in SG. destruct SG as (i & ins & w & ws & ss & stk & _ & _ & ->).
  assert (W0 : nth_error (vtxoutwit (wit (s_tx s))) 0 = Some (outwit_at (s_tx s) 0)).
  { unfold outwit_at. destruct (vtxoutwit (wit (s_tx s))); [cbn in WL; lia|reflexivity]. }
  destruct (C48_receiver_unblinds _ _ _ _ _ _ _ _ 0%nat key _ _ _ SZ RO CL RL KL B NN SK ltac:(cbn [run_args a_pubkeys]; rewrite EP; reflexivity) EO V1 A1)
    as [(u & bf & abf & EU & _ & _ & S & _ & _ & VC)|(pre & _ & EU & _)].
  - exists u, (mkDesc (d_asset d) (d_amount d - fv) bf abf). cbn [vout]. split; [exact EU|]. split; [|split; reflexivity]. right. split.
    { destruct VC as (p & q & -> & L & _). unfold conf_is_explicit. rewrite blen_cons, L. reflexivity. }
    exists (outwit_at (s_tx s) 0). eexists. cbn [wit vtxoutwit]. split; [exact W0|]. split; [apply S; lia|reflexivity].
  - exists (mkTxOut v script a []), (mkDesc (d_asset d) (d_amount d - fv) (zeros 32) (zeros 32)). cbn [vout]. split; [exact EU|]. split; [|split; reflexivity].
    left. exists (d_asset d), (d_amount d - fv). cbn [nAsset nValue]. split; [apply asset_back; assumption|]. split; [apply value_back; exact H7|reflexivity].
Qed.

Lemma start_unblinded z dw ver H160 input_tx pub bkey dst dummy k utxo d fv script body v a fvb t pubs calls us : dw_null dw ->
  Start z dw ver H160 input_tx pub bkey dst dummy k utxo d (x01 :: d_asset d) fv script body v a fvb t pubs ->
  0 < fv -> d_amount d <= money -> gen_generate z (d_asset d) <> None -> forall t1, vin t1 = vin t -> vout t1 = vout t -> NullWit (wit t1) ->
  Unblinded z calls us t1 /\ Conserves z calls [d] t1.
Proof.
  intros DN [H1 H2 H3 H4 H5 H6 H7 H8 H9 H10] F0 LE NG t1 EV EO NW. destruct (gen_generate z (d_asset d)) as [g|] eqn:G; [|congruence].
  assert (AL := opens_asset _ _ _ _ _ _ H3). assert (A1 : ExplicitAsset a (d_asset d)) by (apply to_asset_explicit, asset_back; assumption).
  assert (A2 : ExplicitAsset (x01 :: d_asset d) (d_asset d)) by (split; [reflexivity|unfold blen in AL; lia]).
  assert (V1 : ExplicitValue v (d_amount d - fv)) by (apply made_amount; [exact H7|lia]).
  assert (V2 : ExplicitValue fvb fv) by (apply made_amount; [exact H9|lia]).
  assert (VT : vin t = [plain_input (mkOutPoint (c_hash z body) (Z.of_nat k))]).
  { cbv zeta in H10. destruct H10 as [(_ & -> & _)|(_ & _ & _ & v0 & _ & -> & _)]; reflexivity. }
  assert (OT : vout t = [mkTxOut v script a []; mkTxOut fvb [] (x01 :: d_asset d) []]
            \/ vout t = [mkTxOut v script a []; mkTxOut fvb [] (x01 :: d_asset d) []; mkTxOut (x01 :: zeros 8) [x6a] a []]).
  { cbv zeta in H10. destruct H10 as [(_ & -> & _)|(_ & _ & _ & v0 & E0 & -> & _)]; [left; reflexivity|right].
    assert (v0 = x01 :: zeros 8) by (assert (Q : conf_value_of_amount 0 = Ok (x01 :: zeros 8)) by reflexivity; congruence). subst v0. reflexivity. }
  destruct (null_at t1 NW) as [NI NO]. rewrite VT in EV. clear H10 VT.
  assert (IN : forall inp, In inp (vin t1) -> inp = plain_input (mkOutPoint (c_hash z body) (Z.of_nat k))) by (intros inp; rewrite EV; intros [<-|[]]; reflexivity).
  split.
  - constructor.
    + intros o IO. exists (d_asset d), g. rewrite EO in IO.
      assert (Q : o = mkTxOut v script a [] \/ o = mkTxOut fvb [] (x01 :: d_asset d) [] \/ o = mkTxOut (x01 :: zeros 8) [x6a] a []).
      { destruct OT as [OT|OT]; rewrite OT in IO; cbn [In] in IO; intuition congruence. }
      destruct Q as [->|[->| ->]]; cbn [nAsset nValue scriptPubKey].
      * split; [exact A1|]. split; [exact G|]. left. exists (d_amount d - fv). split; [exact V1|lia].
      * split; [exact A2|]. split; [exact G|]. left. exists fv. split; [exact V2|lia].
      * split; [exact A1|]. split; [exact G|]. right. split; reflexivity.
    + exact NO.
    + intros inp ps I0. apply IN in I0. subst inp. left. destruct ps; reflexivity.
    + intros i ps. rewrite NI. destruct ps; reflexivity.
    + intros i inp E [Q|Q]; apply nth_error_In, IN in E; subst inp; exfalso; apply Q; reflexivity.
    + intros i u inp _ E [Q|Q]; apply nth_error_In, IN in E; subst inp; exfalso; apply Q; reflexivity.
  - intros a0. assert (IS : issued z calls t1 = []).
    { unfold issued. rewrite EV. cbn [length]. unfold issuance_slots. cbn [seq flat_map app]. unfold issued_at. rewrite EV. reflexivity. }
    rewrite IS, app_nil_r, EO. destruct A1 as [-> L1]. destruct V1 as (x & -> & _ & E1). destruct V2 as (y & -> & _ & E2).
    unfold amount_of. destruct OT as [-> | ->]; cbn [map filter fst snd tl nAsset nValue]; rewrite E1, E2; destruct (bytes_eqb (d_asset d) a0); cbn [map snd zsum]; try reflexivity.
    + unfold zsum. cbn. lia.
    + change (be_val (zeros 8)) with 0. unfold zsum. cbn. lia.
Qed.

(** A validating node accepts the printed transaction, when the fee is in the asset spent. *)
Theorem C85_accepted : forall z V order (G : PointGroup order) (M : Meaning z G) rand dw ver legacy Hash160 sign input_tx pub bkey dst dummy signed hex n bfs k utxo d fv,
  SizesOk z -> BlindSumLaw z order -> CodecLaws z -> VerifierLaws z V M -> RewindSound z -> ZeroGen z -> dw_null dw ->
  program z rand dw ver legacy Hash160 sign input_tx pub bkey dst dummy = Printed signed hex n bfs ->
  FirstWith (vout input_tx) (p2sh_p2wpkh Hash160 pub) k utxo -> Opens z input_tx k utxo bkey d ->
  FeeOf (vout input_tx) (x01 :: d_asset d) fv ->
  OnChain z utxo -> (forall o, In o (vout input_tx) -> txout_is_fee o = true -> Existing z o) ->
  (ad_conf dst = true -> blinding_pubkey dst <> []) ->
  (n = 0%nat \/ exists bf, In bf bfs /\ bf <> zeros 32) ->
  node_check z V [utxo] signed = true.
Proof.
  intros z V order G M rand dw ver legacy H160 sign input_tx pub bkey dst dummy signed hex n bfs k utxo d fv SZ LAW CL VL RS ZG DN P FW OP FE OC FX BP NZ.
  apply program_cases in P. destruct P as [(k' & utxo' & d0 & fa' & fv' & script & body & v & a & fvb & t & pubs & ST & P)|[]].
  destruct (first_unique _ _ _ _ _ _ FW (st_first _ _ _ _ _ _ _ _ _ _ _ _ _ _ _ _ _ _ _ _ _ ST)) as [<- <-].
  destruct (fee_unique _ _ _ _ _ FE (st_fee _ _ _ _ _ _ _ _ _ _ _ _ _ _ _ _ _ _ _ _ _ ST)) as [<- <-].
  assert (d0 = d) by exact (opens_unique _ _ _ _ _ _ _ (st_opens _ _ _ _ _ _ _ _ _ _ _ _ _ _ _ _ _ _ _ _ _ ST) OP). subst d0.
  apply complete_cases in P. destruct P as (unb & abfs & s & _ & B & EN & SG & _).
  assert (F := blind_transaction_frame z rand (run_args d pubs) t). rewrite B in F. cbn [snd] in F.
  assert (NW := start_null _ _ _ _ _ _ _ _ _ _ _ _ _ _ _ _ _ _ _ _ _ DN ST). destruct (null_at t NW) as [NI NO].
  destruct (described _ _ _ _ _ _ OC OP) as [DS RG].
  assert (FV : gen_generate z (d_asset d) <> None /\ 0 < fv).
  { destruct FE as (_ & p & o & q & E & F1 & F2 & F3 & _). assert (IO : In o (vout input_tx)) by (rewrite E; apply in_or_app; right; left; reflexivity).
    assert (EA : ExplicitAsset (nAsset o) (d_asset d)). { rewrite F2. split; [reflexivity|]. assert (AL := opens_asset _ _ _ _ _ _ OP). unfold blen in AL. lia. }
    destruct (FX o IO F1 _ _ EA (to_amount_explicit _ _ F3)) as [X Y]. split; [exact X|]. rewrite <- (plain_amount _ _ _ F3 (to_amount_explicit _ _ F3) ltac:(lia)). lia. }
  destruct FV as [NG F0].
  assert (SO := sign_only _ _ _ _ _ _ _ _ SG ltac:(rewrite (kept_inwit _ _ _ _ _ F); apply NI)).
  assert (VT : vin t = [plain_input (mkOutPoint (c_hash z body) (Z.of_nat k))]).
  { destruct (st_tx _ _ _ _ _ _ _ _ _ _ _ _ _ _ _ _ _ _ _ _ _ ST) as [(_ & -> & _)|(_ & _ & _ & v0 & _ & -> & _)]; reflexivity. }
  assert (LV : (0 < length (vin (s_tx s)))%nat) by (rewrite (kept_vin _ _ _ _ F), VT; cbn; lia).
  destruct (C78_signing_keeps _ _ 0%nat SO LV) as (_ & _ & _ & KEEP). rewrite KEEP. clear KEEP SO LV SG.
  assert (NOI : forall inp ps, In inp [plain_input (mkOutPoint (c_hash z body) (Z.of_nat k))] -> iss_field ps inp = []) by (intros inp ps [<-|[]]; destruct ps; reflexivity).
  assert (NOK : forall calls t1, vin t1 = vin t -> TokenKeys calls t1).
  { intros calls t1 E args i inp _ EI _ NK. rewrite E, VT in EI. apply nth_error_In in EI. destruct EI as [<-|[]]. exfalso. apply NK. reflexivity. }
  destruct (Nat.eq_dec n 0) as [N0|NN].
  - (* nothing to blind *)
    destruct (nothing_blinded z rand _ _ _ _ _ _ _ B NW) as (E1 & E2 & E3 & _); [congruence|].
    destruct (start_unblinded z dw ver H160 input_tx pub bkey dst dummy k utxo d fv script body v a fvb t pubs [] [utxo] DN ST F0 ltac:(lia) NG (s_tx s) E1 E2 E3) as [UB CO].
    refine (C77_accepted z V order G M [] [utxo] [d] (s_tx s) (s_tx s) SZ LAW CL VL RS ZG _ (NOK [] (s_tx s) E1) _); [|intros ? []].
    constructor.
    + right. rewrite E1, VT. exact NOI.
    + constructor.
    + exact UB.
    + rewrite E1, VT. reflexivity.
    + constructor; [apply OC|constructor].
    + constructor; [exact DS|constructor].
    + intros args i u d1 [].
    + (* the output spent is in plain sight *)
      unfold described_once. cbn [flat_map filter].
      assert (PX : conf_is_explicit CConfValue (nValue utxo) = true).
      { destruct (st_tx _ _ _ _ _ _ _ _ _ _ _ _ _ _ _ _ _ _ _ _ _ ST) as [([X|X] & _ & EP)|(_ & _ & SK & v0 & _ & _ & EP)]; [exact X| |]; exfalso.
        - rewrite X in EP. rewrite N0 in EN. symmetry in EN. apply (none_wanted _ 0%nat) in EN. rewrite EP in EN. exact (BP X EN).
        - rewrite N0 in EN. symmetry in EN. apply (none_wanted _ 2%nat) in EN. rewrite EP in EN. cbn [nth] in EN. destruct (so_pub z SZ _ SK) as (x & _ & [Q|Q]); congruence. }
      destruct OP as [(a0 & v0 & _ & _ & ->)|(X & _)]; [|congruence]. cbn [d_bf d_abf]. rewrite (proj2 (bytes_eqb_eq _ _) eq_refl). constructor.
    + exact CO.
  - (* one output *)
    destruct NZ as [NZ|(bf & INB & NB)]; [congruence|].
    destruct (start_unblinded z dw ver H160 input_tx pub bkey dst dummy k utxo d fv script body v a fvb t pubs [run_args d pubs] [utxo] DN ST F0 ltac:(lia) NG t eq_refl eq_refl NW) as [UB CO].
    assert (ONE : exists j, output_tasks (run_args d pubs) = [j]).
    { assert (LE : (length (output_tasks (run_args d pubs)) <= 1)%nat).
      { rewrite filter_tasks. destruct (st_tx _ _ _ _ _ _ _ _ _ _ _ _ _ _ _ _ _ _ _ _ _ ST) as [(_ & _ & ->)|(_ & _ & _ & v0 & _ & _ & ->)]; cbn [filter is_nonempty blen length Z.of_nat Z.eqb negb];
          destruct (is_nonempty _); cbn [length]; lia. }
      assert (GE : length (output_tasks (run_args d pubs)) = n) by (rewrite filter_tasks; congruence).
      destruct (output_tasks (run_args d pubs)) as [|j [|j2 l]]; [cbn in GE; congruence|exists j; reflexivity|cbn in LE; lia]. }
    destruct ONE as [j ONE].
    assert (NST : ~ stray_key (run_args d pubs) t) by (intros (i & ps & inp & IN & _); rewrite no_issuance_tasks in IN; exact IN).
    destruct (blind_success z rand _ t _ _ _ _ B) as (_ & Q1 & Q2). specialize (Q1 eq_refl NST). destruct (Q2 Q1) as (targets & TG & CN). clear Q1 Q2.
    assert (ALLNZ : forall j', In j' (output_tasks (run_args d pubs)) -> nth_error bfs j' <> Some (zeros 32)).
    { intros j' IN E. rewrite ONE in IN. destruct IN as [<-|[]]. apply In_nth_error in INB. destruct INB as [i EI]. apply NB.
      destruct (Nat.eq_dec i j) as [->|NEJ]; [congruence|].
      assert (NJ : ~ In i [j]) by (intros [X|[]]; congruence).
      destruct CN as [(AB & _)|(pre & j0 & EP & AB & _)].
      - rewrite ONE in AB. destruct (ab_rest _ _ _ _ _ _ _ _ _ AB i) as (X & _); [|exact NJ|congruence]. rewrite <- (ab_bfs _ _ _ _ _ _ _ _ _ AB). apply nth_error_Some. congruence.
      - destruct (ab_rest _ _ _ _ _ _ _ _ _ AB i) as (X & _); [| |congruence].
        + rewrite <- (ab_bfs _ _ _ _ _ _ _ _ _ AB). apply nth_error_Some. congruence.
        + rewrite ONE in EP. destruct pre as [|x [|y pre]]; [intros []| |]; cbn [app] in EP; discriminate EP. }
    assert (NA : d_asset d <> zeros 32).
    { intros E. destruct TG as (l1 & l2 & tok & TF & _). rewrite VT in TF. inversion TF as [|i0 tok0 inp0 rest0 l0 tok1 ls tok2 IT _]; subst.
      destruct IT as (d1 & g & l3 & l4 & ED & _ & X & _). cbn [run_args a_descs nth_error] in ED. injection ED as <-. destruct (X E) as (ag & EA & _). discriminate EA. }
    refine (C77_accepted z V order G M [run_args d pubs] [utxo] [d] t (s_tx s) SZ LAW CL VL RS ZG _ (NOK [run_args d pubs] t eq_refl) _).
    2: { intros args [<-|[]]. cbn. lia. }
    constructor.
    + left. discriminate.
    + eapply BL_cons; [exact B|reflexivity|exact NST|rewrite ONE; discriminate|exact ALLNZ|constructor].
    + exact UB.
    + rewrite VT. reflexivity.
    + constructor; [apply OC|constructor].
    + constructor; [exact DS|constructor].
    + intros args i u d1 [<-|[]] EU ED. destruct i as [|i]; [|destruct i; discriminate EU]. injection EU as <-. injection ED as <-. exists d. split; [reflexivity|]. left. auto.
    + unfold described_once. cbn [flat_map]. rewrite app_nil_r. unfold blinded_inputs. cbn [run_args a_descs]. apply Permutation_refl.
    + exact CO.
Qed.

(** * Runs over the toy library *)
Definition run_h160 (x : bytes) : bytes := firstn 20 (c_hash toy x).
Definition run_pub : bytes := toy_pub 800.
Definition run_src : bytes := p2sh_p2wpkh run_h160 run_pub.
Definition run_dw : default_wit := fun ins outs => mkTxWit (map (fun _ => inwit_null) ins) (map (fun _ => outwit_null) outs).
Definition run_legacy (_ : bytes) (_ : tx) (_ _ : Z) : res (bytes * bool) := Raise EValue.
Definition run_prog (from : tx) (dst : addr) : ending := program toy toy_rand run_dw 2 run_legacy run_h160 (fun h => h) from run_pub (b32 901) dst (b32 907).
(** 900 units to the key, 90 to somebody, and the fee *)
Definition plain_from (fee_asset : bytes) : tx :=
  mkTx [toy_in0] [toy_out 900 asset_A run_src; toy_out 90 asset_A [x51]; toy_out 10 fee_asset []] 0 2 (run_dw [toy_in0] [toy_out 0 [] []; toy_out 0 [] []; toy_out 0 [] []]).
Definition blinded_from : tx := s_tx (snd (blind_transaction toy toy_rand
  (mkArgs [mkDesc asset_A 1000 (b32 12345) (b32 67890)] [toy_pub 901; toy_pub 902] [] [] [] None None true) (plain_from asset_A))).
Definition plain_dst : addr := mkAddr Elements P2PKH false (repeat x77 20).
Definition conf_dst : addr := mkAddr Elements P2PKH true (toy_pub 905 ++ repeat x77 20).
(** what the cases below have in common, as a test *)
Definition from_ok (from : tx) (fee_asset : bytes) : bool :=
  match vout from with
  | [u; o; f] => bytes_eqb (scriptPubKey u) run_src && negb (txout_is_fee u) && negb (txout_is_fee o) && txout_is_fee f
      && bytes_eqb (nAsset f) (x01 :: fee_asset) && bytes_eqb (nValue f) (expl 10)
      && (negb (Byte.eqb (hd x00 (nAsset u)) x01) || (bytes_eqb (nAsset u) (x01 :: asset_A) && bytes_eqb (nValue u) (expl 900)))
      && match describe toy from 0 u (b32 901) (fun d => if bytes_eqb (d_asset d) asset_A && (d_amount d =? 900) then AssertFailed 1 else AssertFailed 126) with AssertFailed 1 => true | _ => false end
  | _ => false
  end.
Definition Ran (from : tx) (fee_asset : bytes) (dst : addr) (m : nat) (accepted : bool) : Prop :=
  exists signed hex bfs u d, run_prog from dst = Printed signed hex m bfs
    /\ FirstWith (vout from) run_src 0 u /\ Opens toy from 0 u (b32 901) d /\ FeeOf (vout from) (x01 :: fee_asset) 10
    /\ OnChain toy u /\ (forall o, In o (vout from) -> txout_is_fee o = true -> Existing toy o)
    /\ (m = 0%nat \/ exists bf, In bf bfs /\ bf <> zeros 32) /\ d_asset d = asset_A /\ d_amount d = 900
    /\ node_check toy toy_verifier [u] signed = accepted.
Definition ran (from : tx) (dst : addr) (m : nat) (accepted : bool) : bool :=
  match run_prog from dst with
  | Printed signed _ n bfs => (n =? m)%nat && ((n =? 0)%nat || existsb (fun b => negb (bytes_eqb b (zeros 32))) bfs)
      && Bool.eqb (node_check toy toy_verifier (firstn 1 (vout from)) signed) accepted
  | _ => false end.
Lemma ran_Ran from fa dst m acc : length fa = 32%nat -> gen_generate toy fa <> None -> from_ok from fa = true -> ran from dst m acc = true -> Ran from fa dst m acc.
Proof.
  intros LF GF F R. unfold from_ok in F. unfold ran in R. unfold Ran.
  destruct (vout from) as [|u [|o [|f [|x l]]]] eqn:EO; try discriminate F.
  apply andb_prop in F. destruct F as [F F8]. apply andb_prop in F. destruct F as [F F7]. apply andb_prop in F. destruct F as [F F6]. apply andb_prop in F. destruct F as [F F5].
  apply andb_prop in F. destruct F as [F F4]. apply andb_prop in F. destruct F as [F F3]. apply andb_prop in F. destruct F as [F1 F2].
  apply bytes_eqb_eq in F1, F5, F6. apply negb_true_iff in F2, F3.
  destruct (run_prog from dst) as [|e|l0|signed hex n bfs] eqn:RP; try discriminate R.
  apply andb_prop in R. destruct R as [R R3]. apply andb_prop in R. destruct R as [R1 R2]. apply Nat.eqb_eq in R1. subst n. apply Bool.eqb_prop in R3.
  destruct (describe toy from 0 u (b32 901) _) as [|e|lne|] eqn:DE in F8; try discriminate F8.
  assert (lne = 1%nat) by (destruct lne as [|[|]]; congruence). subst lne. apply describe_cases in DE. destruct DE as [(d & OP & DE)|X]; [|discriminate X].
  destruct (bytes_eqb (d_asset d) asset_A) eqn:D1; [|discriminate DE]. destruct (Z.eqb_spec (d_amount d) 900) as [D2|]; [|discriminate DE]. apply bytes_eqb_eq in D1.
  exists signed, hex, bfs, u, d. split; [reflexivity|]. split.
  { split; [reflexivity|]. split; [exact F1|]. intros k x L. lia. }
  split; [exact OP|]. split.
  { split.
    - intros y [<-|[<-|[<-|[]]]] FE; [congruence|congruence|exact F5].
    - exists [u; o], f, []. split; [reflexivity|]. split; [exact F4|]. split; [exact F5|]. split; [rewrite F6; reflexivity|]. intros y []. }
  split.
  { apply orb_prop in F7. destruct F7 as [F7|F7].
    - apply negb_true_iff in F7. split; [intros a v [EA _]|intros a [EA _]]; rewrite EA in F7; discriminate F7.
    - apply andb_prop in F7. destruct F7 as [A V]. apply bytes_eqb_eq in A, V. split.
      + intros a v [EA _] (x & EV & _ & <-). rewrite A in EA. injection EA as <-. rewrite V in EV. injection EV as <-. split; [vm_compute; discriminate|]. split; reflexivity || discriminate.
      + intros a _. exists 900, (be_bytes 8 900). rewrite V. split; [reflexivity|]. split; reflexivity. }
  split.
  { intros y [<-|[<-|[<-|[]]]] FE; [congruence|congruence|]. intros a v [EA _] (x & EV & _ & <-). rewrite F5 in EA. injection EA as <-. rewrite F6 in EV. injection EV as <-.
    split; [exact GF|]. split; reflexivity || discriminate. }
  split.
  { apply orb_prop in R2. destruct R2 as [R2|R2]; [left; apply Nat.eqb_eq; exact R2|]. right. apply existsb_exists in R2. destruct R2 as (b & IB & NB). exists b. split; [exact IB|].
    intros ->. rewrite (proj2 (bytes_eqb_eq _ _) eq_refl) in NB. discriminate NB. }
  split; [exact D1|]. split; [exact D2|]. exact R3.
Qed.
(** From a blinded output to a confidential address, to a plain one (with the additional output); from a plain one to a plain one. *)
Example C85_ex : Ran blinded_from asset_A conf_dst 1 true /\ Ran blinded_from asset_A plain_dst 1 true /\ Ran (plain_from asset_A) asset_A plain_dst 0 true
  /\ dw_null run_dw /\ (ad_conf conf_dst = true -> blinding_pubkey conf_dst <> []).
Proof.
  split; [apply ran_Ran; [reflexivity|vm_compute; discriminate|vm_compute; reflexivity|vm_compute; reflexivity]|].
  split; [apply ran_Ran; [reflexivity|vm_compute; discriminate|vm_compute; reflexivity|vm_compute; reflexivity]|].
  split; [apply ran_Ran; [reflexivity|vm_compute; discriminate|vm_compute; reflexivity|vm_compute; reflexivity]|].
  split; [|discriminate]. intros ins outs. split; cbn [run_dw vtxinwit vtxoutwit]; apply Forall_forall; intros w IN; apply in_map_iff in IN; destruct IN as (x & <- & _); reflexivity.
Qed.
(** From a plain one to a confidential address: blind() refuses. *)
Example C85_ex2 : run_prog (plain_from asset_A) conf_dst = Stopped (CannotBlind (F_count 0 1)).
Proof. vm_compute. reflexivity. Qed.
(** The hypotheses of C85_received on the first of these runs. *)
Example C85_ex3 : SizesOk toy /\ RandOk toy toy_rand /\ CodecLaws toy /\ RewindLaw toy /\ KeyLaws toy /\ RewindSound toy /\ ZeroGen toy
  /\ BlindSumLaw toy toy_order /\ VerifierLaws toy toy_verifier toy_meaning
  /\ ad_conf conf_dst = true /\ sk_valid toy (b32 905) = true /\ blinding_pubkey conf_dst = sk_pub toy (b32 905).
Proof.
  split; [exact toy_sizes|]. split; [exact toy_rand_ok|]. split; [exact toy_codec|]. split; [exact toy_rewind|]. split; [exact toy_keys|]. split; [exact toy_sound|].
  split; [exact toy_zerogen|]. split; [exact toy_blind_sum|]. split; [exact toy_verifies|]. repeat split; vm_compute; reflexivity.
Qed.

(** Those of C85_unlocks: a signature that is the hash itself. *)
Example C85_ex4 : blen (run_h160 run_pub) = 20 /\ forall h, (fun (_ hash sig : bytes) => sig = hash) run_pub h ((fun h => h) h).
Proof. split; [vm_compute; reflexivity|reflexivity]. Qed.

Lemma run_prog_eq from dst : run_prog from dst = program toy toy_rand run_dw 2 run_legacy run_h160 (fun h => h) from run_pub (b32 901) dst (b32 907).
Proof. unfold run_prog. reflexivity. Qed.
Lemma run_src_eq : run_src = p2sh_p2wpkh run_h160 run_pub. Proof. unfold run_src. reflexivity. Qed.
(** Without the premise that the fee is in the asset spent: the program prints a transaction that no node accepts. *)
Theorem C85_fee_asset_refuted : exists z V order (G : PointGroup order) (M : Meaning z G) rand dw ver legacy Hash160 sign input_tx pub bkey dst dummy signed hex n bfs k utxo d fa fv,
  SizesOk z /\ BlindSumLaw z order /\ CodecLaws z /\ VerifierLaws z V M /\ RewindSound z /\ ZeroGen z /\ dw_null dw
  /\ program z rand dw ver legacy Hash160 sign input_tx pub bkey dst dummy = Printed signed hex n bfs
  /\ FirstWith (vout input_tx) (p2sh_p2wpkh Hash160 pub) k utxo /\ Opens z input_tx k utxo bkey d /\ FeeOf (vout input_tx) fa fv
  /\ OnChain z utxo /\ (forall o, In o (vout input_tx) -> txout_is_fee o = true -> Existing z o)
  /\ (ad_conf dst = true -> blinding_pubkey dst <> []) /\ (n = 0%nat \/ exists bf, In bf bfs /\ bf <> zeros 32)
  /\ fa <> x01 :: d_asset d /\ node_check z V [utxo] signed = false.
Proof.
  assert (R : Ran (plain_from asset_I) asset_I plain_dst 0 false) by (apply ran_Ran; [reflexivity|vm_compute; discriminate|vm_compute; reflexivity|vm_compute; reflexivity]).
  destruct R as (signed & hex & bfs & u & d & R1 & R2 & R3 & R4 & R5 & R6 & R7 & R8 & R9 & R10).
  exists toy, toy_verifier, toy_order, toy_group, toy_meaning, toy_rand, run_dw, 2, run_legacy, run_h160, (fun h => h), (plain_from asset_I), run_pub, (b32 901), plain_dst, (b32 907),
    signed, hex, 0%nat, bfs, 0%nat, u, d, (x01 :: asset_I), 10.
  split; [exact toy_sizes|]. split; [exact toy_blind_sum|]. split; [exact toy_codec|]. split; [exact toy_verifies|]. split; [exact toy_sound|]. split; [exact toy_zerogen|].
  split; [exact (proj1 (proj2 (proj2 (proj2 C85_ex))))|]. rewrite run_prog_eq in R1. rewrite run_src_eq in R2. split; [exact R1|]. split; [exact R2|]. split; [exact R3|]. split; [exact R4|]. split; [exact R5|]. split; [exact R6|].
  split; [discriminate|]. split; [exact R7|]. split; [|exact R10]. rewrite R8. discriminate.
Qed.

Print Assumptions C85_lone_output.
Print Assumptions C85_pays.
Print Assumptions C85_unlocks.
Print Assumptions C85_explicit_to_confidential.
Print Assumptions C85_assertions.
Print Assumptions C85_received.
Print Assumptions C85_accepted.
Print Assumptions C85_fee_asset_refuted.
