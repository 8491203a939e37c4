(** Unblinding: properties C48, C49, C50. *)
From Coq Require Import Strings.String.
From Verif Require Import Base BaseFacts TxModel SpecWire TxProofs MiscModel BlindModel SpecBlind SpecBalance BlindFacts BlindComplete BlindProps UnblindModel SpecUnblind ToyCrypto ToyTx ToyUnblind PropBlind.
From Coq Require Import Lia.
Local Open Scope Z_scope.

(** The amounts accepted: 0 to 21 million coins. *)
Definition max_money : Z := 2100000000000000.
Definition money_failure : result := Failure "resulting amount after rangeproof rewind is outside MoneyRange".

Lemma MoneyRange_iff a : MoneyRange a = true <-> 0 <= a <= max_money.
Proof. unfold MoneyRange, MAX_MONEY, max_money. rewrite andb_true_iff, !Z.leb_le. lia. Qed.
Lemma uint256_new_32 x : blen x = 32 -> uint256_new x = Ok x.
Proof. intros H. unfold uint256_new. rewrite H. reflexivity. Qed.
Lemma len32 x : blen x = 32 -> length x = 32%nat. Proof. unfold blen. lia. Qed.

(** What a rewind of the sender's own proof returns. *)
Lemma rewind_own z minv commit bf nonce e bits u a abf extra gen ca proof : CodecLaws z -> RewindLaw z ->
  blen nonce = 32 -> blen bf = 32 -> blen a = 32 -> blen abf = 32 -> 0 <= u < 2 ^ 64 ->
  gen_generate_blinded z a abf = Some gen -> gen_serialize z gen = Some ca -> ped_commit z bf u gen = Some commit ->
  rp_sign z minv commit bf nonce e bits u (a ++ abf) extra gen = Some proof ->
  proof <> [] /\ unblind_rewind z nonce extra gen commit proof = Ok (if u <=? max_money then UnblindingSuccess a u bf abf else money_failure).
Proof.
  intros CL RL LN LB LA LF U G S C R.
  assert (LM : blen (a ++ abf) = 64) by (rewrite blen_app, LA, LF; reflexivity).
  destruct (RL _ _ _ _ _ _ _ _ _ _ _ LN LB LM U C R) as [NE RW]. split; [exact NE|].
  unfold unblind_rewind. rewrite RW. assert (MR : MoneyRange u = (u <=? max_money)).
  { destruct (Z.leb_spec u max_money) as [L|L].
    - apply MoneyRange_iff. lia.
    - apply not_true_iff_false. rewrite MoneyRange_iff. lia. }
  rewrite MR. destruct (u <=? max_money) eqn:E; cbn [negb]; [|reflexivity]. rewrite LM. cbv zeta. cbn [Z.eqb Pos.eqb negb].
  rewrite (firstn_at 32) by (apply len32, LA). rewrite (skipn_at 32) by (apply len32, LA).
  replace (firstn 32 abf) with abf by (symmetry; apply firstn_all2; rewrite (len32 _ LF); auto).
  rewrite G, S. assert (BE : bytes_eqb ca ca = true) by (apply bytes_eqb_eq; reflexivity). rewrite BE. cbn [negb].
  rewrite !uint256_new_32 by assumption. cbn [rbind]. unfold new_unblinding_success. rewrite MR. reflexivity.
Qed.

Lemma ExplicitValue_range x u : ExplicitValue x u -> 0 <= u < 2 ^ 64.
Proof. intros (d & _ & L & <-). assert (H := be_val_range d). unfold blen in H. rewrite L in H. exact H. Qed.
Lemma ExplicitValue_fun x u v : ExplicitValue x u -> ExplicitValue x v -> u = v.
Proof. intros (d & -> & _ & <-) (e & E & _ & <-). injection E as <-. reflexivity. Qed.
Lemma ExplicitAsset_fun x u v : ExplicitAsset x u -> ExplicitAsset x v -> u = v.
Proof. intros (-> & _) (E & _). injection E as <-. reflexivity. Qed.
Lemma commitment_form (c : cclass) p d : In p (match c with CConfAsset => [x0a; x0b] | CConfValue => [x08; x09] | CConfNonce => [x02; x03] end) ->
  blen d = 32 -> conf_is_commitment c (p :: d) = true.
Proof. intros H L. unfold conf_is_commitment. rewrite blen_cons, L. destruct c; destruct H as [<-|[<-|[]]]; reflexivity. Qed.

Lemma unblind_output z args targets key bf abf eph seed o o' w : SizesOk z -> CodecLaws z -> RewindLaw z -> KeyLaws z ->
  blen bf = 32 -> blen abf = 32 -> sk_valid z key = true ->
  BlindedOutput z args targets (sk_pub z key) bf abf eph seed o o' w ->
  exists u a, ExplicitValue (nValue o) u /\ ExplicitAsset (nAsset o) a
    /\ txout_unblind z o' key (ow_range w) = Ok (if u <=? max_money then UnblindingSuccess a u bf abf else money_failure).
Proof.
  intros SZ CL RL KL LB LF SK (u & a & gen & commit & shared & minv & EV & EA & G & GS & C & CS & SE & NN & EC & SC & _ & _ & RP & _).
  exists u, a. split; [exact EV|]. split; [exact EA|].
  assert (U := ExplicitValue_range _ _ EV). assert (LA : blen a = 32) by (destruct EA as [_ L]; unfold blen; lia).
  destruct (rewind_own z minv commit bf (c_sha z shared) (ct_exp args) (ct_bits args) u a abf (scriptPubKey o) gen (nAsset o') (ow_range w) CL RL (so_sha z SZ _) LB LA LF U G GS C RP) as [NE RW].
  unfold txout_unblind, unblind_confidential_pair.
  destruct (ow_range w) as [|r0 rs] eqn:ER; [congruence|]. rewrite <- ER in *. clear NE.
  assert (NZ : (blen (ow_range w) =? 0) = false) by (rewrite ER, blen_cons; assert (X := blen_nonneg rs); apply Z.eqb_neq; lia). rewrite NZ.
  unfold unblind_nonce. destruct (so_pub z SZ _ SE) as (d & Ld & FD).
  assert (LP : blen (nNonce o') = 33) by (rewrite NN; destruct FD as [-> | ->]; rewrite blen_cons, Ld; reflexivity).
  rewrite LP. cbn [Z.ltb Z.compare]. unfold is_fullyvalid, is_nonempty. rewrite LP, NN, (kl_valid z KL _ SE). cbn [Z.eqb negb andb].
  rewrite <- (kl_sym z KL _ _ SE SK), EC. cbn [rbind]. rewrite SC.
  destruct (so_comser z SZ _ _ CS) as (dv & Lv & FV).
  assert (CV : conf_is_commitment CConfValue (nValue o') = true) by (destruct FV as [-> | ->]; apply commitment_form; cbn; auto).
  rewrite CV. cbn [negb]. destruct (so_genser z SZ _ _ GS) as (da & Lda & FA).
  assert (CA : conf_is_commitment CConfAsset (nAsset o') = true) by (destruct FA as [-> | ->]; apply commitment_form; cbn; auto).
  unfold unblind_generator. rewrite CA, (cl_gen z CL _ _ _ _ G GS). cbn [rbind]. rewrite (cl_com z CL _ _ _ _ _ C CS). exact RW.
Qed.

Definition AssetCommitment (x : bytes) : Prop := exists p d, x = p :: d /\ blen d = 32 /\ (p = x0a \/ p = x0b).
Definition ValueCommitment (x : bytes) : Prop := exists p d, x = p :: d /\ blen d = 32 /\ (p = x08 \/ p = x09).
(** C48. A successful blind() of everything requested, an output sent to the public key of [key]: its fields are commitments,
    and with [key] and the produced range proof the receiver gets the original asset and amount and the factors blind() reported. Above
    21 million coins the answer is a failure. The exception is the last output when its balancing factor came out
    zero, which is left explicit. *)
Theorem C48_receiver_unblinds : forall z rand args t n bfs abfs s j key o u a,
  SizesOk z -> RandOk z rand -> CodecLaws z -> RewindLaw z -> KeyLaws z ->
  blind_transaction z rand args t = (Ret (BSuccess n bfs abfs), s) ->
  n = (length (issuance_tasks args t) + length (output_tasks args))%nat ->
  sk_valid z key = true -> nth_error (a_pubkeys args) j = Some (sk_pub z key) ->
  nth_error (vout t) j = Some o -> ExplicitValue (nValue o) u -> ExplicitAsset (nAsset o) a ->
  (exists o' bf abf, nth_error (vout (s_tx s)) j = Some o' /\ nth_error bfs j = Some bf /\ nth_error abfs j = Some abf
     /\ (u <= max_money -> txout_unblind z o' key (ow_range (outwit_at (s_tx s) j)) = Ok (UnblindingSuccess a u bf abf))
     /\ (u > max_money -> txout_unblind z o' key (ow_range (outwit_at (s_tx s) j)) = Ok money_failure)
     /\ AssetCommitment (nAsset o') /\ ValueCommitment (nValue o'))
  \/ (exists pre, output_tasks args = pre ++ [j] /\ nth_error (vout (s_tx s)) j = Some o
      /\ nth_error bfs j = Some (zeros 32) /\ nth_error abfs j = Some (zeros 32) /\ FinalSum z rand args t pre j bfs abfs (zeros 32)).
Proof.
  intros z rand args t n bfs abfs s j key o u a SZ RO CL RL KL H NE SK EP EO EV EA.
  destruct (blind_success z rand args t _ _ _ _ H) as (_ & _ & B). destruct (B NE) as (targets & _ & C). clear B.
  assert (EN : nth j (a_pubkeys args) [] = sk_pub z key) by (apply nth_error_nth; exact EP).
  assert (IN : In j (output_tasks args)).
  { apply wants_output_task. unfold wants_output. rewrite EN. destruct (so_pub z SZ _ SK) as (d & _ & [-> | ->]); discriminate. }
  assert (G : forall done k, AllBlinded z rand args t targets done (s_tx s) bfs abfs -> nth_error done k = Some j ->
     (forall bf, nth_error bfs j = Some bf -> blen bf = 32) ->
     exists o' bf abf, nth_error (vout (s_tx s)) j = Some o' /\ nth_error bfs j = Some bf /\ nth_error abfs j = Some abf
     /\ (u <= max_money -> txout_unblind z o' key (ow_range (outwit_at (s_tx s) j)) = Ok (UnblindingSuccess a u bf abf))
     /\ (u > max_money -> txout_unblind z o' key (ow_range (outwit_at (s_tx s) j)) = Ok money_failure)
     /\ AssetCommitment (nAsset o') /\ ValueCommitment (nValue o')).
  { intros done k AB Ek LB. destruct (ab_out _ _ _ _ _ _ _ _ _ AB _ _ Ek) as (bf & abf & o0 & o' & E1 & E2 & E3 & E4 & E5 & _ & BO).
    assert (o0 = o) by congruence. subst o0. rewrite EN in BO.
    destruct (unblind_output z args targets key bf abf _ _ o o' _ SZ CL RL KL (LB _ E1) ltac:(rewrite E5; apply RO) SK BO) as (u' & a' & EV' & EA' & R).
    rewrite <- (ExplicitValue_fun _ _ _ EV EV'), <- (ExplicitAsset_fun _ _ _ EA EA') in R.
    exists o', bf, abf. split; [exact E4|]. split; [exact E1|]. split; [exact E2|]. rewrite R. split; [|split].
    + intros L. destruct (Z.leb_spec u max_money); [reflexivity|lia].
    + intros L. destruct (Z.leb_spec u max_money); [lia|reflexivity].
    + destruct BO as (v0 & a0 & gen & commit & shared & minv & _ & _ & _ & GS & _ & CS & _). destruct (so_genser z SZ _ _ GS) as (d & L & D). destruct (so_comser z SZ _ _ CS) as (d' & L' & D').
      split; [destruct D as [-> | ->]|destruct D' as [-> | ->]]; unfold AssetCommitment, ValueCommitment; eauto 6. }
  destruct C as [(AB & _ & LF)|(pre & j' & ET & AB & FS)].
  - left. destruct (In_nth_error _ _ IN) as [k Ek]. apply (G _ _ AB Ek). intros bf Eb.
    destruct (ab_out _ _ _ _ _ _ _ _ _ AB _ _ Ek) as (bf' & abf & o0 & o' & E1 & _ & _ & _ & _ & E6 & _).
    assert (bf' = bf) by congruence. subst bf'.
    destruct (Nat.eq_dec (S k) (length (output_tasks args))) as [EL|NL]; [|rewrite (E6 NL); apply RO].
    assert (NN : output_tasks args <> []) by (intros X; rewrite X in IN; destruct IN).
    destruct (exists_last NN) as (pre & j' & ET). destruct (LF _ _ ET) as (b2 & Eb2 & _ & FS).
    assert (j' = j). { rewrite ET, app_length in EL. cbn [length] in EL. rewrite ET, nth_error_app2 in Ek by lia. replace (k - length pre)%nat with 0%nat in Ek by lia. injection Ek as ->. reflexivity. }
    subst j'. assert (b2 = bf) by congruence. subst b2. eapply so_sum; [exact SZ|exact FS].
  - destruct (Nat.eq_dec j j') as [<-|NJ].
    + right. exists pre. split; [exact ET|]. assert (ND := output_tasks_NoDup args). rewrite ET in ND. apply NoDup_remove_2 in ND. rewrite app_nil_r in ND.
      destruct (ab_rest _ _ _ _ _ _ _ _ _ AB j (proj1 (nth_error_Some (vout t) j) ltac:(congruence)) ND) as (R1 & R2 & R3). split; [congruence|]. split; [exact R1|]. split; [exact R2|exact FS].
    + left. rewrite ET in IN. apply in_app_or in IN. destruct IN as [IN|[->|[]]]; [|congruence].
      destruct (In_nth_error _ _ IN) as [k Ek]. apply (G _ _ AB Ek). intros bf Eb.
      destruct (ab_out _ _ _ _ _ _ _ _ _ AB _ _ Ek) as (bf' & abf & o0 & o' & E1 & _ & _ & _ & _ & E6 & _).
      assert (bf' = bf) by congruence. subst bf'. rewrite E6; [apply RO|]. rewrite ET, app_length. cbn [length].
      assert (k < length pre)%nat by (apply nth_error_Some; congruence). lia.
Qed.

(** C49. A blinded issuance ([ps]: of reissuance tokens) is read back with its key, an empty nonce and the explicit asset. *)
Theorem C49_issuer_unblinds : forall z rand args t n bfs abfs s i ps key inp u e script,
  SizesOk z -> RandOk z rand -> CodecLaws z -> RewindLaw z ->
  blind_transaction z rand args t = (Ret (BSuccess n bfs abfs), s) ->
  n = (length (issuance_tasks args t) + length (output_tasks args))%nat ->
  nth i (if ps : bool then a_token_keys args else a_asset_keys args) None = Some key -> blen key = 32 ->
  nth_error (vin t) i = Some inp -> ExplicitValue (iss_field ps inp) u -> EntropyOf z inp e ->
  let asset := c_mid z (e ++ tag32 (if ps then x02 else x00)) in
  exists inp' k, nth_error (vin (s_tx s)) i = Some inp' /\ nth_error (issuance_tasks args t) k = Some (i, ps)
    /\ let answer := unblind_confidential_pair z key (iss_field ps inp') (x01 :: asset) [] script (iss_proof ps (inwit_at (s_tx s) i)) in
       (u <= max_money -> answer = Ok (UnblindingSuccess asset u (rand k) (zeros 32)))
       /\ (u > max_money -> answer = Ok money_failure).
Proof.
  intros z rand args t n bfs abfs s i ps key inp u e script SZ RO CL RL H NE EK LK EI EV EE asset.
  destruct (blind_success z rand args t _ _ _ _ H) as (_ & _ & B). destruct (B NE) as (targets & _ & C). clear B.
  assert (AB : exists done, AllBlinded z rand args t targets done (s_tx s) bfs abfs).
  { destruct C as [(X & _)|(pre & j & _ & X & _)]; eauto. }
  destruct AB as [done AB].
  destruct (AllBlinded_issuances z rand args t targets done (s_tx s) bfs abfs i ps key AB) as (k & inp0 & inp' & Ek & E1 & E2 & BI); [apply nth_error_Some; congruence|exact EK|].
  assert (inp0 = inp) by congruence. subst inp0. exists inp', k. split; [exact E2|]. split; [exact Ek|].
  destruct BI as (u' & e' & a' & gen & commit & EV' & EE' & _ & EA & G & CO & CS & RP).
  rewrite <- (ExplicitValue_fun _ _ _ EV EV') in *. rewrite <- (EntropyOf_fun _ _ _ _ EE EE') in EA. fold asset in EA. rewrite EA in *. clear u' EV' e' EE' a' EA.
  assert (U := ExplicitValue_range _ _ EV). assert (LA : blen asset = 32) by apply (so_mid z SZ). destruct (cl_ser z CL _ _ _ G) as [ca GS].
  destruct (rewind_own z 0 commit (rand k) key (ct_exp args) (ct_bits args) u asset (zeros 32) [] gen ca _ CL RL LK (proj1 (RO k)) LA eq_refl U G GS CO RP) as [NP RW].
  assert (R : unblind_confidential_pair z key (iss_field ps inp') (x01 :: asset) [] script (iss_proof ps (inwit_at (s_tx s) i))
              = Ok (if u <=? max_money then UnblindingSuccess asset u (rand k) (zeros 32) else money_failure)).
  { unfold unblind_confidential_pair. clearbody asset. set (pr := iss_proof ps (inwit_at (s_tx s) i)) in *.
    assert (NZ : (blen pr =? 0) = false) by (destruct pr as [|b0 pr0]; [congruence|]; rewrite blen_cons; assert (X := blen_nonneg pr0); apply Z.eqb_neq; lia).
    rewrite NZ. unfold unblind_nonce. change (0 <? blen []) with false. cbv iota. cbn [rbind].
    destruct (so_comser z SZ _ _ CS) as (dv & Lv & FV).
    assert (CV : conf_is_commitment CConfValue (iss_field ps inp') = true) by (destruct FV as [-> | ->]; apply commitment_form; cbn; auto).
    rewrite CV. cbn [negb]. unfold unblind_generator.
    assert (X1 : conf_is_commitment CConfAsset (x01 :: asset) = false) by (unfold conf_is_commitment; apply andb_false_r).
    assert (X2 : conf_is_explicit CConfAsset (x01 :: asset) = true) by (unfold conf_is_explicit; rewrite blen_cons, LA; reflexivity).
    unfold to_asset. rewrite X1, X2. cbn [tl]. rewrite (uint256_new_32 _ LA). cbn [rbind].
    rewrite (proj1 (cl_zero z CL _ _) G). cbn [rbind]. rewrite (cl_com z CL _ _ _ _ _ CO CS). exact RW. }
  cbv zeta. rewrite R. clear - u. split; intros L; destruct (Z.leb_spec u max_money); try lia; reflexivity.
Qed.

(** C50. Nothing assumed of the library. *)
Lemma conf_is_commitment_form c x : conf_is_commitment c x = true ->
  exists p d, x = p :: d /\ blen d = 32 /\ In p (match c with CConfAsset => [x0a; x0b] | CConfValue => [x08; x09] | CConfNonce => [x02; x03] end).
Proof.
  intros H. assert (V : conf_is_valid c x = true) by (unfold conf_is_valid; rewrite H; apply orb_true_r).
  apply conf_is_valid_iff in V. destruct V as [|d L|p d I L].
  - discriminate H.
  - exfalso. unfold conf_is_commitment in H. apply andb_prop in H. destruct H as [_ H]. destruct c; discriminate H.
  - exists p, d. auto.
Qed.

Lemma unblind_inv z key v a nonce script proof asset amount bf abf :
  unblind_confidential_pair z key v a nonce script proof = Ok (UnblindingSuccess asset amount bf abf) ->
  proof <> [] /\ 0 <= amount <= max_money /\ ValueCommitment v /\ (nonce = [] \/ pk_fullyvalid z nonce = true)
  /\ blen asset = 32 /\ blen bf = 32 /\ blen abf = 32
  /\ exists n sc g commit gen s,
       rp_rewind z n commit proof sc g = Some (bf, amount, asset ++ abf) /\ ped_parse z v = Some commit
       /\ gen_generate_blinded z asset abf = Some gen /\ gen_serialize z gen = Some s /\ gen_serialize z g = Some s
       /\ ((nonce = [] /\ n = key /\ sc = []) \/ (nonce <> [] /\ sc = script /\ exists sh, ecdh z key nonce = Some sh /\ n = c_sha z sh))
       /\ ((AssetCommitment a /\ gen_parse z a = Some g)
           \/ (exists d, ExplicitAsset a d /\ gen_generate z d = Some g)
           \/ (~ AssetCommitment a /\ (forall d, ~ ExplicitAsset a d) /\ g = zeros 64)).
Proof.
  unfold unblind_confidential_pair. intros H.
  destruct (blen proof =? 0) eqn:EP; [discriminate|].
  assert (NP : proof <> []) by (intros ->; discriminate EP).
  destruct (unblind_nonce z key nonce script) as [[f|[n sc]]|] eqn:EN; cbn [rbind] in H; [|  |discriminate].
  { exfalso. unfold unblind_nonce in EN. destruct (0 <? blen nonce); [|discriminate]. destruct (negb (is_fullyvalid z nonce)); [|destruct (ecdh z key nonce); discriminate].
    cbn in EN. injection EN as <-. discriminate H. }
  assert (NN : (nonce = [] /\ n = key /\ sc = []) \/ (nonce <> [] /\ pk_fullyvalid z nonce = true /\ sc = script /\ exists sh, ecdh z key nonce = Some sh /\ n = c_sha z sh)).
  { unfold unblind_nonce in EN. destruct (0 <? blen nonce) eqn:L0.
    - right. destruct (is_fullyvalid z nonce) eqn:FV; cbn [negb] in EN; [|discriminate]. destruct (ecdh z key nonce) as [sh|]; [|discriminate].
      apply Ok_inj in EN. injection EN as <- <-. unfold is_fullyvalid in FV. apply andb_prop in FV. destruct FV as [_ FV].
      split; [intros ->; discriminate L0|]. split; [exact FV|]. split; [reflexivity|]. eauto.
    - left. apply Z.ltb_ge in L0. destruct nonce as [|b0 nr]; [|exfalso; rewrite blen_cons in L0; assert (X := blen_nonneg nr); lia].
      apply Ok_inj in EN. injection EN as <- <-. auto. }
  clear EN. destruct (conf_is_commitment CConfValue v) eqn:CV; cbn [negb] in H; [|discriminate].
  destruct (unblind_generator z a) as [[f|g]|] eqn:EG; cbn [rbind] in H; [| |discriminate].
  { exfalso. unfold unblind_generator in EG. destruct (conf_is_commitment CConfAsset a).
    - destruct (gen_parse z a); [discriminate|]. cbn in EG. injection EG as <-. discriminate H.
    - destruct (conf_is_explicit CConfAsset a); [|discriminate]. destruct (to_asset a); cbn [rbind] in EG; [|discriminate].
      destruct (gen_generate z _); [discriminate|]. cbn in EG. injection EG as <-. discriminate H. }
  assert (AA : (AssetCommitment a /\ gen_parse z a = Some g) \/ (exists d, ExplicitAsset a d /\ gen_generate z d = Some g)
           \/ (~ AssetCommitment a /\ (forall d, ~ ExplicitAsset a d) /\ g = zeros 64)).
  { unfold unblind_generator in EG. destruct (conf_is_commitment CConfAsset a) eqn:CA.
    - left. apply conf_is_commitment_form in CA. destruct CA as (p & d & -> & Ld & I). split; [exists p, d; cbn in I; intuition auto|].
      destruct (gen_parse z (p :: d)); [|discriminate]. apply Ok_inj in EG. congruence.
    - destruct (conf_is_explicit CConfAsset a) eqn:CE.
      + right; left. destruct (to_asset a) as [d|] eqn:TA; cbn [rbind] in EG; [|discriminate]. exists d.
        destruct (gen_generate z d) as [g'|]; [|discriminate]. apply Ok_inj in EG. split; [|congruence].
        unfold to_asset in TA. rewrite CE in TA. unfold uint256_new in TA. destruct (blen (tl a) =? 32) eqn:L; [|discriminate]. apply Ok_inj in TA. subst d.
        apply Z.eqb_eq in L. unfold conf_is_explicit in CE. apply andb_prop in CE. destruct CE as [_ CE]. destruct a as [|x0 d]; [discriminate|]. cbn [tl] in *.
        split; [|unfold blen in L; lia]. destruct x0; try discriminate CE. reflexivity.
      + right; right. apply Ok_inj in EG. split; [|split].
        * intros (p & d & -> & Ld & I). rewrite commitment_form in CA; [discriminate CA| |exact Ld]. cbn. intuition auto.
        * intros d (-> & Ld). unfold conf_is_explicit in CE. rewrite blen_cons in CE. unfold blen in CE. rewrite Ld in CE. discriminate CE.
        * congruence. }
  clear EG. destruct (ped_parse z v) as [commit|] eqn:PP; [|discriminate]. unfold unblind_rewind in H.
  destruct (rp_rewind z n commit proof sc g) as [[[b0 am] msg]|] eqn:RW; [|discriminate].
  destruct (MoneyRange am) eqn:MR; cbn [negb] in H; [|discriminate]. destruct (blen msg =? 64) eqn:LM; cbn [negb] in H; [|discriminate].
  cbv zeta in H. destruct (gen_generate_blinded z (firstn 32 msg) (firstn 32 (skipn 32 msg))) as [gen|] eqn:GG; [|discriminate].
  destruct (gen_serialize z g) as [s1|] eqn:S1; [|discriminate]. destruct (gen_serialize z gen) as [s2|] eqn:S2; [|discriminate].
  destruct (bytes_eqb s1 s2) eqn:BE; cbn [negb] in H; [|discriminate]. apply bytes_eqb_eq in BE. subst s2.
  apply rbind_Ok in H. destruct H as (x1 & U1 & H). apply rbind_Ok in H. destruct H as (x2 & U2 & H). apply rbind_Ok in H. destruct H as (x3 & U3 & H).
  unfold new_unblinding_success in H. rewrite MR in H. cbn [rassert rbind] in H. apply Ok_inj in H.
  assert (UU : forall x y, uint256_new x = Ok y -> y = x /\ blen x = 32).
  { intros x y Q. unfold uint256_new in Q. destruct (Z.eqb_spec (blen x) 32); [|discriminate]. apply Ok_inj in Q. auto. }
  apply UU in U1, U2, U3. destruct U1 as [-> L1], U2 as [-> L2], U3 as [-> L3].
  assert (EA : asset = firstn 32 msg) by congruence. assert (EB : bf = b0) by congruence. assert (EF : abf = firstn 32 (skipn 32 msg)) by congruence. assert (EM : amount = am) by congruence. clear H. subst b0 am.
  assert (MS : msg = asset ++ abf).
  { rewrite EA, EF, <- (firstn_skipn 32 msg) at 1. f_equal. symmetry. apply firstn_all2. rewrite skipn_length. apply Z.eqb_eq in LM. unfold blen in LM. lia. }
  split; [exact NP|]. split; [apply MoneyRange_iff, MR|]. apply conf_is_commitment_form in CV. destruct CV as (p & d & -> & Ld & I).
  split; [exists p, d; cbn in I; intuition auto|]. split; [destruct NN as [[-> _]|(_ & FV & _)]; auto|].
  split; [rewrite EA; exact L2|]. split; [exact L1|]. split; [rewrite EF; exact L3|].
  exists n, sc, g, commit, gen, s1. rewrite MS in RW. rewrite <- EA, <- EF in GG.
  split; [exact RW|]. split; [reflexivity|]. split; [exact GG|]. split; [exact S2|]. split; [exact S1|]. split; [|exact AA].
  destruct NN as [NN|(NN & _ & NS)]; [left; exact NN|right; split; [exact NN|exact NS]].
Qed.
Theorem C50_success_facts : forall z key v a nonce script proof asset amount bf abf,
  unblind_confidential_pair z key v a nonce script proof = Ok (UnblindingSuccess asset amount bf abf) ->
  proof <> [] /\ 0 <= amount <= max_money /\ ValueCommitment v /\ (nonce = [] \/ pk_fullyvalid z nonce = true)
  /\ blen asset = 32 /\ blen bf = 32 /\ blen abf = 32
  /\ exists g gen s, gen_generate_blinded z asset abf = Some gen /\ gen_serialize z gen = Some s /\ gen_serialize z g = Some s
       /\ ((AssetCommitment a /\ gen_parse z a = Some g)
           \/ (exists d, ExplicitAsset a d /\ gen_generate z d = Some g)
           \/ (~ AssetCommitment a /\ (forall d, ~ ExplicitAsset a d) /\ g = zeros 64)).
Proof.
  intros z key v a nonce script proof asset amount bf abf H. apply unblind_inv in H.
  destruct H as (A & B & C & D & E & F & G & n & sc & g & commit & gen & s & _ & _ & H3 & H4 & H5 & _ & H6). eauto 20.
Qed.
(** With the library's contract: what is returned is an opening of the two commitments. *)
Theorem C50_opening : forall z key v a nonce script proof asset amount bf abf,
  CodecLaws z -> RewindSound z -> ZeroGen z ->
  unblind_confidential_pair z key v a nonce script proof = Ok (UnblindingSuccess asset amount bf abf) ->
  exists gen commit, gen_generate_blinded z asset abf = Some gen
    /\ (gen_serialize z gen = Some a \/ exists d, ExplicitAsset a d /\ gen_generate z d = Some gen)
    /\ ped_commit z bf amount gen = Some commit /\ ped_serialize z commit = Some v.
Proof.
  intros z key v a nonce script proof asset amount bf abf CL RS ZG H. apply unblind_inv in H.
  destruct H as (_ & _ & _ & _ & _ & _ & _ & n & sc & g & commit & gen & s & RW & PP & GG & S1 & S2 & _ & AA).
  apply RS in RW. apply (cl_com_back z CL) in PP. assert (PG := cl_gen z CL _ _ _ _ GG S1). exists gen, commit. split; [exact GG|].
  destruct AA as [[_ PA]|[(d & EA & GA)|(_ & _ & ->)]].
  - assert (SA := cl_gen_back z CL _ _ PA). assert (s = a) by congruence. subst s. assert (g = gen) by congruence. subst g. auto.
  - assert (GZ := proj2 (cl_zero z CL _ _) GA). assert (PG2 := cl_gen z CL _ _ _ _ GZ S2). assert (g = gen) by congruence. subst g. eauto 10.
  - exfalso. eapply ZG; eassumption.
Qed.
(** In points: the value commitment is amount * (asset point + abf * base) + bf * base. *)
Theorem C50_points : forall z order (G : PointGroup order) (M : Meaning z G) key v a nonce script proof asset amount bf abf,
  CodecLaws z -> RewindSound z -> ZeroGen z ->
  unblind_confidential_pair z key v a nonce script proof = Ok (UnblindingSuccess asset amount bf abf) ->
  peq G (cpt M v) (padd G (pmul G amount (padd G (hpt M asset) (pmul G (be_val abf) (base M)))) (pmul G (be_val bf) (base M))).
Proof.
  intros z order G M key v a nonce script proof asset amount bf abf CL RS ZG H.
  destruct (C50_opening _ _ _ _ _ _ _ _ _ _ _ CL RS ZG H) as (gen & commit & GG & _ & CC & CS).
  eapply peq_trans; [eapply m_commit; eassumption|]. apply padd_eq; [|apply peq_refl]. apply pmul_eq. eapply m_gen. exact GG.
Qed.
Theorem C50_null_asset_never : forall z key v a nonce script proof asset amount bf abf, ZeroGen z ->
  unblind_confidential_pair z key v a nonce script proof = Ok (UnblindingSuccess asset amount bf abf) ->
  AssetCommitment a \/ exists d, ExplicitAsset a d.
Proof.
  intros z key v a nonce script proof asset amount bf abf ZG H. apply unblind_inv in H.
  destruct H as (_ & _ & _ & _ & _ & _ & _ & n & sc & g & commit & gen & s & RW & PP & GG & S1 & S2 & _ & AA).
  destruct AA as [[X _]|[(d & X & _)|(_ & _ & ->)]]; [auto|eauto|]. exfalso. eapply ZG; eassumption.
Qed.
(** It answers, rather than raise, on every input, if the library does not refuse generators it made and keys it validated. *)
Theorem C50_no_exception : forall z key v a nonce script proof,
  (forall g, gen_serialize z g <> None) -> (forall p, pk_fullyvalid z p = true -> ecdh z key p <> None) ->
  (forall n c p e g bf x m, rp_rewind z n c p e g = Some (bf, x, m) -> blen bf = 32) ->
  exists r, unblind_confidential_pair z key v a nonce script proof = Ok r.
Proof.
  intros z key v a nonce script proof GS EC RB. unfold unblind_confidential_pair.
  destruct (blen proof =? 0); [eexists; reflexivity|]. unfold unblind_nonce.
  assert (X : forall n sc, exists r, (if negb (conf_is_commitment CConfValue v) then new_failure "value is not a commitment"
    else let! y := unblind_generator z a in match y with inl f => Ok f | inr g => match ped_parse z v with
          | None => new_failure "cannot parse value commitment as Pedersen commitment" | Some c => unblind_rewind z n sc g c proof end end) = Ok r).
  { intros n sc. destruct (conf_is_commitment CConfValue v); cbn [negb]; [|eexists; reflexivity].
    assert (Y : exists y, unblind_generator z a = Ok y).
    { unfold unblind_generator. destruct (conf_is_commitment CConfAsset a); [destruct (gen_parse z a); eexists; reflexivity|].
      destruct (conf_is_explicit CConfAsset a) eqn:CE; [|eexists; reflexivity]. unfold to_asset. rewrite CE.
      assert (L : blen (tl a) = 32). { unfold conf_is_explicit in CE. apply andb_prop in CE. destruct CE as [CE _]. destruct a as [|x0 d]; [discriminate|]. cbn [tl]. apply Z.eqb_eq in CE. rewrite blen_cons in CE. cbn [explicitSize] in CE. lia. }
      rewrite (uint256_new_32 _ L). cbn [rbind]. destruct (gen_generate z _); eexists; reflexivity. }
    destruct Y as [[f|g] ->]; cbn [rbind]; [eexists; reflexivity|]. destruct (ped_parse z v) as [c|]; [|eexists; reflexivity].
    unfold unblind_rewind. destruct (rp_rewind z n c proof sc g) as [[[b x] m]|] eqn:RW; [|eexists; reflexivity].
    destruct (MoneyRange x) eqn:MR; cbn [negb]; [|eexists; reflexivity]. destruct (Z.eqb_spec (blen m) 64) as [LM|]; cbn [negb]; [|eexists; reflexivity]. cbv zeta.
    destruct (gen_generate_blinded z _ _) as [g2|]; [|eexists; reflexivity].
    destruct (gen_serialize z g) as [s1|] eqn:S1; [|destruct (GS _ S1)]. destruct (gen_serialize z g2) as [s2|] eqn:S2; [|destruct (GS _ S2)].
    destruct (bytes_eqb s1 s2); cbn [negb]; [|eexists; reflexivity]. apply RB in RW.
    assert (L64 : length m = 64%nat) by (unfold blen in LM; lia).
    rewrite (uint256_new_32 b RW). rewrite !uint256_new_32 by (unfold blen; rewrite firstn_length, ?skipn_length, L64; reflexivity).
    cbn [rbind]. unfold new_unblinding_success. rewrite MR. eexists. reflexivity. }
  destruct (0 <? blen nonce); [|apply X]. destruct (is_fullyvalid z nonce) eqn:FV; cbn [negb]; [|eexists; reflexivity].
  unfold is_fullyvalid in FV. apply andb_prop in FV. destruct FV as [_ FV]. destruct (ecdh z key nonce) as [sh|] eqn:EE; [|destruct (EC _ FV EE)]. apply X.
Qed.

(** The hypotheses are met: the toy library, the transaction of ToyTx.v, its first output (700 of asset A). *)
Definition toy_after : tx := s_tx (snd (blind_transaction toy toy_rand toy_args toy_tx)).
Definition is_success (a : bytes) (u : Z) (r : res result) : bool :=
  match r with Ok (UnblindingSuccess a' u' _ _) => bytes_eqb a a' && (u =? u') | _ => false end.
Definition unblind_at (t : tx) (j : nat) (key : bytes) : res result :=
  match nth_error (vout t) j with Some o' => txout_unblind toy o' key (ow_range (outwit_at t j)) | None => Raise EIndex end.
Example C48_ex : SizesOk toy /\ RandOk toy toy_rand /\ CodecLaws toy /\ RewindLaw toy /\ KeyLaws toy
  /\ (exists bfs abfs s, blind_transaction toy toy_rand toy_args toy_tx = (Ret (BSuccess 6 bfs abfs), s))
  /\ (length (issuance_tasks toy_args toy_tx) + length (output_tasks toy_args) = 6)%nat
  /\ sk_valid toy (b32 901) = true /\ nth_error (a_pubkeys toy_args) 0 = Some (sk_pub toy (b32 901))
  /\ nth_error (vout toy_tx) 0 = Some (toy_out 700 asset_A [x51]) /\ ExplicitValue (expl 700) 700 /\ ExplicitAsset (x01 :: asset_A) asset_A
  /\ is_success asset_A 700 (unblind_at toy_after 0 (b32 901)) = true.
Proof.
  split; [exact toy_sizes|]. split; [exact toy_rand_ok|]. split; [exact toy_codec|]. split; [exact toy_rewind|]. split; [exact toy_keys|].
  split; [exact toy_success|]. split; [reflexivity|]. split; [vm_compute; reflexivity|]. split; [reflexivity|]. split; [reflexivity|].
  split; [exists (be_bytes 8 700); repeat split|]. split; [split; reflexivity|]. vm_compute. reflexivity.
Qed.
(** Its issuance of 500 on input 1, and the 3 reissuance tokens. *)
Example C49_ex : nth 1 (a_asset_keys toy_args) None = Some (b32 5001) /\ blen (b32 5001) = 32
  /\ nth_error (vin toy_tx) 1 = Some toy_in1 /\ ExplicitValue (iss_field false toy_in1) 500 /\ EntropyOf toy toy_in1 ent1
  /\ match nth_error (vin toy_after) 1 with
     | Some i' => is_success asset_I 500 (unblind_confidential_pair toy (b32 5001) (iss_field false i') (x01 :: asset_I) [] [] (iss_proof false (inwit_at toy_after 1)))
                  && is_success asset_T 3 (unblind_confidential_pair toy (b32 5002) (iss_field true i') (x01 :: asset_T) [] [] (iss_proof true (inwit_at toy_after 1)))
     | None => false end = true.
Proof.
  split; [reflexivity|]. split; [apply b32_blen|]. split; [reflexivity|]. split; [exists (be_bytes 8 500); repeat split|].
  split; [|vm_compute; reflexivity]. left. split; [reflexivity|]. exists [x01; x00; x00; x00]. split; [reflexivity|]. split; reflexivity.
Qed.
Example C50_ex : CodecLaws toy /\ RewindSound toy /\ ZeroGen toy.
Proof. split; [exact toy_codec|]. split; [exact toy_sound|exact toy_zerogen]. Qed.
(** An explicit amount above the range is blinded, and then not readable by its receiver. *)
Definition rich_tx : tx := mkTx [toy_in0] [toy_out 2100000000000001 asset_A [x51]] 0 2 (mkTxWit [] []).
Definition rich_args : blind_args := mkArgs [mkDesc asset_A 2100000000000001 (b32 12345) (b32 67890)] [toy_pub 901] [] [] [] None None true.
Theorem C48_every_blinded_amount_unblinds_refuted : exists z rand args t n bfs abfs s key o',
  SizesOk z /\ RandOk z rand /\ CodecLaws z /\ RewindLaw z /\ KeyLaws z
  /\ blind_transaction z rand args t = (Ret (BSuccess n bfs abfs), s) /\ a_strict args = true
  /\ sk_valid z key = true /\ nth_error (a_pubkeys args) 0 = Some (sk_pub z key)
  /\ nth_error (vout (s_tx s)) 0 = Some o' /\ nValue o' <> expl 2100000000000001
  /\ txout_unblind z o' key (ow_range (outwit_at (s_tx s) 0)) = Ok money_failure.
Proof.
  set (run := blind_transaction toy toy_rand rich_args rich_tx).
  assert (H : ret_is (fun r => match r with BSuccess n _ _ => (n =? 1)%nat | _ => false end) run = true) by (vm_compute; reflexivity).
  apply ret_is_success in H. destruct H as (bfs & abfs & H).
  assert (K : exists o', nth_error (vout (s_tx (snd run))) 0 = Some o' /\ nValue o' <> expl 2100000000000001
     /\ txout_unblind toy o' (b32 901) (ow_range (outwit_at (s_tx (snd run)) 0)) = Ok money_failure).
  { eexists. split; [vm_compute; reflexivity|]. split; [|vm_compute; reflexivity]. cbn [nValue]. unfold expl. intros C. discriminate (f_equal (fun l => match l with b :: _ => b | [] => x00 end) C). }
  destruct K as (o' & K1 & K2 & K3). exists toy, toy_rand, rich_args, rich_tx, 1%nat, bfs, abfs, (snd run), (b32 901), o'.
  split; [exact toy_sizes|]. split; [exact toy_rand_ok|]. split; [exact toy_codec|]. split; [exact toy_rewind|]. split; [exact toy_keys|].
  split; [exact H|]. split; [reflexivity|]. split; [vm_compute; reflexivity|]. split; [reflexivity|]. split; [exact K1|]. split; [exact K2|exact K3].
Qed.

Print Assumptions C48_receiver_unblinds.
Print Assumptions C48_every_blinded_amount_unblinds_refuted.
Print Assumptions C49_issuer_unblinds.
Print Assumptions C50_success_facts.
Print Assumptions C50_opening.
Print Assumptions C50_points.
Print Assumptions C50_null_asset_never.
Print Assumptions C50_no_exception.
