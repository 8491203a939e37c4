(** More of C50: every outcome of unblinding, failure texts and exceptions included. *)
From Coq Require Import Strings.String.
From Verif Require Import Base BaseFacts TxModel SpecWire TxProofs MiscModel BlindModel SpecBlind SpecBalance BlindFacts BlindComplete BlindProps UnblindModel SpecUnblind ToyCrypto ToyTx ToyUnblind PropBlind PropUnblind.
From Coq Require Import Lia.
Local Open Scope Z_scope.

(** The six things unblinding goes through, each on its own. *)
Section Steps.
Variable z : Crypto.
(** The secret for the proof and the script it commits to: without a nonce, the key itself and no script. *)
Definition Secret (key nonce script n sc : bytes) : Prop :=
  (nonce = [] /\ n = key /\ sc = [])
  \/ (nonce <> [] /\ pk_fullyvalid z nonce = true /\ sc = script /\ exists sh, ecdh z key nonce = Some sh /\ n = c_sha z sh).
(** The generator of the asset field; 64 zero bytes for a field that is neither a commitment nor explicit. *)
Definition AssetGen (a g : bytes) : Prop :=
  (AssetCommitment a /\ gen_parse z a = Some g)
  \/ (exists d, ExplicitAsset a d /\ gen_generate z d = Some g)
  \/ (~ AssetCommitment a /\ (forall d, ~ ExplicitAsset a d) /\ g = zeros 64).
(** Secret, commitment and generator are all there. *)
Definition Ready (key v a nonce script proof n sc g commit : bytes) : Prop :=
  proof <> [] /\ Secret key nonce script n sc /\ ValueCommitment v /\ AssetGen a g /\ ped_parse z v = Some commit.
(** The proof opens to an amount in range, an asset and its factor. *)
Definition Opens (key v a nonce script proof asset abf bf : bytes) (amount : Z) (g : bytes) : Prop :=
  exists n sc commit, Ready key v a nonce script proof n sc g commit
    /\ rp_rewind z n commit proof sc g = Some (bf, amount, asset ++ abf) /\ 0 <= amount <= max_money /\ blen asset = 32 /\ blen abf = 32.

(** What is returned or raised, and when. *)
Inductive Outcome (key v a nonce script proof : bytes) : res result -> Prop :=
| OEmpty : proof = [] -> Outcome key v a nonce script proof (Ok (Failure "rangeproof is empty"))
| ONonce : proof <> [] -> nonce <> [] -> pk_fullyvalid z nonce = false ->
    Outcome key v a nonce script proof (Ok (Failure "nNonce.commitment is not a valid pubkey"))
| OEcdh : proof <> [] -> nonce <> [] -> pk_fullyvalid z nonce = true -> ecdh z key nonce = None ->
    Outcome key v a nonce script proof (Raise ERuntime)
| OValue n sc : proof <> [] -> Secret key nonce script n sc -> ~ ValueCommitment v ->
    Outcome key v a nonce script proof (Ok (Failure "value is not a commitment"))
| OAsset n sc : proof <> [] -> Secret key nonce script n sc -> ValueCommitment v -> AssetCommitment a -> gen_parse z a = None ->
    Outcome key v a nonce script proof (Ok (Failure "cannot parse asset commitment as a generator"))
| OExplicit n sc d : proof <> [] -> Secret key nonce script n sc -> ValueCommitment v -> ExplicitAsset a d -> gen_generate z d = None ->
    Outcome key v a nonce script proof (Ok (Failure "unable to create a generator out of asset explicit data"))
| OCommit n sc g : proof <> [] -> Secret key nonce script n sc -> ValueCommitment v -> AssetGen a g -> ped_parse z v = None ->
    Outcome key v a nonce script proof (Ok (Failure "cannot parse value commitment as Pedersen commitment"))
| ORewind n sc g commit : Ready key v a nonce script proof n sc g commit -> rp_rewind z n commit proof sc g = None ->
    Outcome key v a nonce script proof (Ok (Failure "unable to rewind rangeproof"))
| OMoney n sc g commit bf amount m : Ready key v a nonce script proof n sc g commit -> rp_rewind z n commit proof sc g = Some (bf, amount, m) ->
    ~ 0 <= amount <= max_money ->
    Outcome key v a nonce script proof (Ok (Failure "resulting amount after rangeproof rewind is outside MoneyRange"))
| OMessage n sc g commit bf amount m : Ready key v a nonce script proof n sc g commit -> rp_rewind z n commit proof sc g = Some (bf, amount, m) ->
    0 <= amount <= max_money -> blen m <> 64 ->
    Outcome key v a nonce script proof (Ok (Failure "resulting message after rangeproof rewind is not 64 bytes in size"))
| ORegen asset abf bf amount g : Opens key v a nonce script proof asset abf bf amount g -> gen_generate_blinded z asset abf = None ->
    Outcome key v a nonce script proof (Ok (Failure "unable to recalculate a generator from asset type and asset blinder resulted from rangeproof rewind"))
| OSerial asset abf bf amount g gen : Opens key v a nonce script proof asset abf bf amount g -> gen_generate_blinded z asset abf = Some gen ->
    gen_serialize z g = None \/ gen_serialize z gen = None -> Outcome key v a nonce script proof (Raise ERuntime)
| OMismatch asset abf bf amount g gen s s' : Opens key v a nonce script proof asset abf bf amount g -> gen_generate_blinded z asset abf = Some gen ->
    gen_serialize z g = Some s -> gen_serialize z gen = Some s' -> s <> s' ->
    Outcome key v a nonce script proof (Ok (Failure "generator recalculated after rangeproof rewind does not match generator presented in asset commitment"))
| OSuccess asset abf bf amount g gen s : Opens key v a nonce script proof asset abf bf amount g -> gen_generate_blinded z asset abf = Some gen ->
    gen_serialize z g = Some s -> gen_serialize z gen = Some s ->
    Outcome key v a nonce script proof (Ok (UnblindingSuccess asset amount bf abf)).
End Steps.

Lemma value_commitment_dec v : conf_is_commitment CConfValue v = true <-> ValueCommitment v.
Proof.
  split.
  - intros H. apply conf_is_commitment_form in H. destruct H as (p & d & -> & Ld & I). exists p, d. cbn in I. intuition auto.
  - intros (p & d & -> & Ld & I). rewrite commitment_form; [reflexivity| |exact Ld]. cbn. intuition auto.
Qed.
Lemma asset_commitment_dec v : conf_is_commitment CConfAsset v = true <-> AssetCommitment v.
Proof.
  split.
  - intros H. apply conf_is_commitment_form in H. destruct H as (p & d & -> & Ld & I). exists p, d. cbn in I. intuition auto.
  - intros (p & d & -> & Ld & I). rewrite commitment_form; [reflexivity| |exact Ld]. cbn. intuition auto.
Qed.
Lemma explicit_asset_dec a : conf_is_explicit CConfAsset a = true -> ExplicitAsset a (tl a) /\ to_asset a = Ok (tl a).
Proof.
  intros CE. assert (X := CE). unfold conf_is_explicit in CE. apply andb_prop in CE. destruct CE as [CL CE]. destruct a as [|x0 d]; [discriminate|]. cbn [tl].
  apply Z.eqb_eq in CL. rewrite blen_cons in CL. cbn [explicitSize] in CL.
  split; [split; [destruct x0; try discriminate CE; reflexivity|unfold blen in CL; lia]|].
  unfold to_asset. rewrite X. cbn [tl]. apply uint256_new_32. lia.
Qed.
Lemma explicit_asset_not a : conf_is_explicit CConfAsset a = false -> forall d, ~ ExplicitAsset a d.
Proof. intros CE d (-> & Ld). unfold conf_is_explicit in CE. rewrite blen_cons in CE. unfold blen in CE. rewrite Ld in CE. discriminate CE. Qed.

Lemma outcome_complete : forall z key v a nonce script proof,
  (forall n c e g bf x m, rp_rewind z n c proof e g = Some (bf, x, m) -> blen bf = 32) ->
  Outcome z key v a nonce script proof (unblind_confidential_pair z key v a nonce script proof).
Proof.
  intros z key v a nonce script proof RB. unfold unblind_confidential_pair.
  destruct (Z.eqb_spec (blen proof) 0) as [E|E].
  { apply OEmpty. destruct proof; [reflexivity|]. rewrite blen_cons in E. assert (X := blen_nonneg proof). lia. }
  assert (NP : proof <> []) by (intros ->; apply E; reflexivity). clear E.
  assert (SD : (nonce <> [] /\ pk_fullyvalid z nonce = false /\ unblind_nonce z key nonce script = Ok (inl (Failure "nNonce.commitment is not a valid pubkey")))
    \/ (nonce <> [] /\ pk_fullyvalid z nonce = true /\ ecdh z key nonce = None /\ unblind_nonce z key nonce script = Raise ERuntime)
    \/ exists n sc, Secret z key nonce script n sc /\ unblind_nonce z key nonce script = Ok (inr (n, sc))).
  { unfold unblind_nonce, is_fullyvalid, is_nonempty. destruct nonce as [|b0 nr].
    - right; right. exists key, []. split; [left; auto|reflexivity].
    - rewrite blen_cons. assert (X := blen_nonneg nr). destruct (Z.ltb_spec 0 (1 + blen nr)); [|lia]. destruct (Z.eqb_spec (1 + blen nr) 0); [lia|]. cbn [negb andb].
      assert (N : b0 :: nr <> []) by discriminate.
      destruct (pk_fullyvalid z (b0 :: nr)) eqn:FV; cbn [negb]; [|left; auto].
      destruct (ecdh z key (b0 :: nr)) as [sh|] eqn:EC; [|right; left; auto].
      right; right. exists (c_sha z sh), script. split; [right|reflexivity]. eauto 10. }
  destruct SD as [(A & B & ->)|[(A & B & C & ->)|(n & sc & S & ->)]]; cbn [rbind]; [apply ONonce; auto|apply OEcdh; auto|].
  destruct (conf_is_commitment CConfValue v) eqn:CV; cbn [negb].
  2: { eapply OValue; [exact NP|exact S|]. rewrite <- value_commitment_dec. congruence. }
  apply value_commitment_dec in CV.
  assert (AD : (AssetCommitment a /\ gen_parse z a = None /\ unblind_generator z a = Ok (inl (Failure "cannot parse asset commitment as a generator")))
    \/ (exists d, ExplicitAsset a d /\ gen_generate z d = None /\ unblind_generator z a = Ok (inl (Failure "unable to create a generator out of asset explicit data")))
    \/ exists g, AssetGen z a g /\ unblind_generator z a = Ok (inr g)).
  { unfold unblind_generator. destruct (conf_is_commitment CConfAsset a) eqn:CA.
    - apply asset_commitment_dec in CA. destruct (gen_parse z a) as [g|] eqn:GP; [right; right; exists g; split; [left; auto|reflexivity]|left; auto].
    - assert (NA : ~ AssetCommitment a) by (rewrite <- asset_commitment_dec; congruence).
      destruct (conf_is_explicit CConfAsset a) eqn:CE.
      + destruct (explicit_asset_dec a CE) as [EA TA]. rewrite TA. cbn [rbind]. destruct (gen_generate z (tl a)) as [g|] eqn:GG.
        * right; right. exists g. split; [right; left; eauto|reflexivity].
        * right; left. exists (tl a). auto.
      + right; right. exists (zeros 64). split; [right; right; split; [exact NA|split; [apply explicit_asset_not, CE|reflexivity]]|reflexivity]. }
  destruct AD as [(A & B & ->)|[(d & A & B & ->)|(g & G & ->)]]; cbn [rbind]; [eapply OAsset; eassumption|eapply OExplicit; eassumption|].
  destruct (ped_parse z v) as [c|] eqn:PP; [|eapply OCommit; eassumption].
  assert (RD : Ready z key v a nonce script proof n sc g c) by (repeat split; assumption).
  unfold unblind_rewind. destruct (rp_rewind z n c proof sc g) as [[[bf x] m]|] eqn:RW; [|eapply ORewind; eassumption].
  destruct (MoneyRange x) eqn:MR; cbn [negb].
  2: { eapply OMoney; [exact RD|exact RW|]. rewrite <- MoneyRange_iff. congruence. }
  apply MoneyRange_iff in MR. destruct (Z.eqb_spec (blen m) 64) as [LM|LM]; cbn [negb]; [|eapply OMessage; eassumption]. cbv zeta.
  assert (L64 : length m = 64%nat) by (unfold blen in LM; lia).
  set (asset := firstn 32 m). set (abf := firstn 32 (skipn 32 m)).
  assert (L1 : blen asset = 32) by (unfold asset, blen; rewrite firstn_length, L64; reflexivity).
  assert (L2 : blen abf = 32) by (unfold abf, blen; rewrite firstn_length, skipn_length, L64; reflexivity).
  assert (EM : m = asset ++ abf).
  { unfold asset, abf. rewrite <- (firstn_skipn 32 m) at 1. f_equal. symmetry. apply firstn_all2. rewrite skipn_length. lia. }
  assert (OP : Opens z key v a nonce script proof asset abf bf x g).
  { exists n, sc, c. rewrite <- EM. auto 10. }
  assert (LB := RB _ _ _ _ _ _ _ RW). clearbody asset abf.
  destruct (gen_generate_blinded z asset abf) as [gen|] eqn:GB; [|eapply ORegen; eassumption].
  destruct (gen_serialize z g) as [s1|] eqn:S1; [|eapply OSerial; eauto].
  destruct (gen_serialize z gen) as [s2|] eqn:S2; [|eapply OSerial; eauto].
  destruct (bytes_eqb s1 s2) eqn:BE; cbn [negb].
  - apply bytes_eqb_eq in BE. subst s2. rewrite !uint256_new_32 by assumption. cbn [rbind]. unfold new_unblinding_success.
    rewrite (proj2 (MoneyRange_iff x) MR). cbn [rassert rbind]. eapply OSuccess; eassumption.
  - eapply OMismatch; try eassumption. intros ->. assert (X : bytes_eqb s2 s2 = true) by (apply bytes_eqb_eq; reflexivity). congruence.
Qed.

Lemma nonempty {A} (l : list A) : l <> [] -> 0 < Z.of_nat (List.length l).
Proof. destruct l; [congruence|cbn [List.length]; lia]. Qed.
Lemma Secret_run z key nonce script n sc : Secret z key nonce script n sc -> unblind_nonce z key nonce script = Ok (inr (n, sc)).
Proof.
  unfold unblind_nonce, is_fullyvalid, is_nonempty. intros [(-> & -> & ->)|(NE & FV & -> & sh & EC & ->)]; [reflexivity|].
  apply nonempty in NE. change (Z.of_nat (List.length nonce)) with (blen nonce) in NE. destruct (Z.ltb_spec 0 (blen nonce)); [|lia].
  destruct (Z.eqb_spec (blen nonce) 0); [lia|]. rewrite FV, EC. reflexivity.
Qed.
Lemma Explicit_run a d : ExplicitAsset a d -> conf_is_commitment CConfAsset a = false /\ conf_is_explicit CConfAsset a = true /\ to_asset a = Ok d.
Proof.
  intros (-> & Ld). assert (B : blen d = 32) by (unfold blen; lia).
  assert (E : conf_is_explicit CConfAsset (x01 :: d) = true) by (unfold conf_is_explicit; rewrite blen_cons, B; reflexivity).
  split; [|split; [exact E|unfold to_asset; rewrite E; apply uint256_new_32, B]].
  apply not_true_iff_false. rewrite asset_commitment_dec. intros (p & d' & X & _ & I). injection X as <- <-. destruct I; discriminate.
Qed.
Lemma AssetGen_run z a g : AssetGen z a g -> unblind_generator z a = Ok (inr g).
Proof.
  unfold unblind_generator. intros [[A B]|[(d & A & B)|(A & B & ->)]].
  - apply asset_commitment_dec in A. rewrite A, B. reflexivity.
  - apply Explicit_run in A. destruct A as (-> & -> & ->). cbn [rbind]. rewrite B. reflexivity.
  - destruct (conf_is_commitment CConfAsset a) eqn:CA; [destruct A; apply asset_commitment_dec, CA|].
    destruct (conf_is_explicit CConfAsset a) eqn:CE; [destruct (B _ (proj1 (explicit_asset_dec _ CE)))|reflexivity].
Qed.
Lemma Ready_run z key v a nonce script proof n sc g c : Ready z key v a nonce script proof n sc g c ->
  unblind_confidential_pair z key v a nonce script proof = unblind_rewind z n sc g c proof.
Proof.
  intros (NP & S & V & G & P). unfold unblind_confidential_pair. apply nonempty in NP. change (Z.of_nat (List.length proof)) with (blen proof) in NP.
  destruct (Z.eqb_spec (blen proof) 0); [lia|]. rewrite (Secret_run _ _ _ _ _ _ S). cbn [rbind]. rewrite (proj2 (value_commitment_dec v) V). cbn [negb].
  rewrite (AssetGen_run _ _ _ G). cbn [rbind]. rewrite P. reflexivity.
Qed.
Lemma Opens_run z key v a nonce script proof asset abf bf x g : Opens z key v a nonce script proof asset abf bf x g -> blen bf = 32 ->
  unblind_confidential_pair z key v a nonce script proof =
  match gen_generate_blinded z asset abf with
  | None => new_failure "unable to recalculate a generator from asset type and asset blinder resulted from rangeproof rewind"
  | Some gen => match gen_serialize z g with None => Raise ERuntime | Some s =>
      match gen_serialize z gen with None => Raise ERuntime | Some s' =>
        if bytes_eqb s s' then Ok (UnblindingSuccess asset x bf abf)
        else new_failure "generator recalculated after rangeproof rewind does not match generator presented in asset commitment" end end end.
Proof.
  intros (n & sc & c & R & RW & M & L1 & L2) LB. rewrite (Ready_run _ _ _ _ _ _ _ _ _ _ _ R). unfold unblind_rewind. rewrite RW.
  rewrite (proj2 (MoneyRange_iff x) M). cbn [negb]. rewrite blen_app, L1, L2. cbv zeta. change (32 + 32 =? 64) with true. cbn [negb].
  rewrite (firstn_at 32) by (apply len32, L1). rewrite (skipn_at 32) by (apply len32, L1).
  replace (firstn 32 abf) with abf by (symmetry; apply firstn_all2; rewrite (len32 _ L2); auto).
  destruct (gen_generate_blinded z asset abf) as [gen|]; [|reflexivity]. destruct (gen_serialize z g); [|reflexivity]. destruct (gen_serialize z gen); [|reflexivity].
  destruct (bytes_eqb b b0); [|reflexivity]. cbn [negb]. rewrite !uint256_new_32 by assumption. cbn [rbind]. unfold new_unblinding_success.
  rewrite (proj2 (MoneyRange_iff x) M). reflexivity.
Qed.
Lemma outcome_sound z key v a nonce script proof r :
  (forall n c e g bf x m, rp_rewind z n c proof e g = Some (bf, x, m) -> blen bf = 32) ->
  Outcome z key v a nonce script proof r -> unblind_confidential_pair z key v a nonce script proof = r.
Proof.
  intros RB H.
  assert (OB : forall asset abf bf x g, Opens z key v a nonce script proof asset abf bf x g -> blen bf = 32).
  { intros asset abf bf x g (n & sc & c & _ & RW & _). eapply RB. exact RW. }
  assert (PZ : proof <> [] -> (blen proof =? 0) = false).
  { intros NP. apply nonempty in NP. apply Z.eqb_neq. unfold blen. lia. }
  assert (FB : nonce <> [] -> (0 <? blen nonce) = true /\ is_fullyvalid z nonce = pk_fullyvalid z nonce).
  { intros NE. apply nonempty in NE. unfold is_fullyvalid, is_nonempty, blen.
    destruct (Z.ltb_spec 0 (Z.of_nat (List.length nonce))); [|lia]. destruct (Z.eqb_spec (Z.of_nat (List.length nonce)) 0); [lia|auto]. }
  assert (BR : forall s s', bytes_eqb s s' = true <-> s = s') by apply bytes_eqb_eq.
  destruct H as [H|NP NE FV|NP NE FV EC|n sc NP S V|n sc NP S V A G|n sc d NP S V A G|n sc g NP S V G P|n sc g c R RW|n sc g c bf x m R RW M|n sc g c bf x m R RW M L
    |asset abf bf x g O G|asset abf bf x g gen O G D|asset abf bf x g gen s s' O G D D' N|asset abf bf x g gen s O G D D'].
  - rewrite H. reflexivity.
  - unfold unblind_confidential_pair, unblind_nonce. destruct (FB NE) as [-> ->]. rewrite (PZ NP), FV. reflexivity.
  - unfold unblind_confidential_pair, unblind_nonce. destruct (FB NE) as [-> ->]. rewrite (PZ NP), FV, EC. reflexivity.
  - unfold unblind_confidential_pair. rewrite (PZ NP), (Secret_run _ _ _ _ _ _ S). cbn [rbind].
    destruct (conf_is_commitment CConfValue v) eqn:CV; [destruct V; apply value_commitment_dec, CV|reflexivity].
  - unfold unblind_confidential_pair. rewrite (PZ NP), (Secret_run _ _ _ _ _ _ S). cbn [rbind]. rewrite (proj2 (value_commitment_dec v) V). cbn [negb].
    unfold unblind_generator. rewrite (proj2 (asset_commitment_dec a) A), G. reflexivity.
  - unfold unblind_confidential_pair. rewrite (PZ NP), (Secret_run _ _ _ _ _ _ S). cbn [rbind]. rewrite (proj2 (value_commitment_dec v) V). cbn [negb].
    unfold unblind_generator. apply Explicit_run in A. destruct A as (-> & -> & ->). cbn [rbind]. rewrite G. reflexivity.
  - unfold unblind_confidential_pair. rewrite (PZ NP), (Secret_run _ _ _ _ _ _ S). cbn [rbind]. rewrite (proj2 (value_commitment_dec v) V). cbn [negb].
    rewrite (AssetGen_run _ _ _ G). cbn [rbind]. rewrite P. reflexivity.
  - rewrite (Ready_run _ _ _ _ _ _ _ _ _ _ _ R). unfold unblind_rewind. rewrite RW. reflexivity.
  - rewrite (Ready_run _ _ _ _ _ _ _ _ _ _ _ R). unfold unblind_rewind. rewrite RW.
    destruct (MoneyRange x) eqn:MR; [destruct M; apply MoneyRange_iff, MR|reflexivity].
  - rewrite (Ready_run _ _ _ _ _ _ _ _ _ _ _ R). unfold unblind_rewind. rewrite RW, (proj2 (MoneyRange_iff x) M). cbn [negb].
    destruct (Z.eqb_spec (blen m) 64); [contradiction|reflexivity].
  - rewrite (Opens_run _ _ _ _ _ _ _ _ _ _ _ _ O (OB _ _ _ _ _ O)), G. reflexivity.
  - rewrite (Opens_run _ _ _ _ _ _ _ _ _ _ _ _ O (OB _ _ _ _ _ O)), G. destruct D as [-> | ->]; [reflexivity|]. destruct (gen_serialize z g); reflexivity.
  - rewrite (Opens_run _ _ _ _ _ _ _ _ _ _ _ _ O (OB _ _ _ _ _ O)), G, D, D'. destruct (bytes_eqb s s') eqn:E; [apply BR in E; contradiction|reflexivity].
  - rewrite (Opens_run _ _ _ _ _ _ _ _ _ _ _ _ O (OB _ _ _ _ _ O)), G, D, D'. rewrite (proj2 (BR s s) eq_refl). reflexivity.
Qed.

(** C50, every outcome: the list above is exactly what unblinding does (the library fills a 32-byte buffer for the factor). *)
Theorem C50_outcome : forall z key v a nonce script proof r,
  (forall n c e g bf x m, rp_rewind z n c proof e g = Some (bf, x, m) -> blen bf = 32) ->
  (unblind_confidential_pair z key v a nonce script proof = r <-> Outcome z key v a nonce script proof r).
Proof.
  intros z key v a nonce script proof r RB. split.
  - intros <-. apply outcome_complete, RB.
  - apply outcome_sound, RB.
Qed.
(** The toy library rewinds to 32-byte factors; on the blinded transaction of ToyTx.v: the receiver reads the output (OSuccess),
    another key does not rewind it (ORewind), without proof nothing is tried (OEmpty), an explicit amount is refused (OValue). *)
Definition outcome_is (msg : string) (r : res result) : bool := match r with Ok (Failure m) => String.eqb m msg | _ => false end.
Definition toy_proof : bytes := ow_range (outwit_at toy_after 0).
Example C50_ex_outcome : (forall n c e g bf x m, rp_rewind toy n c toy_proof e g = Some (bf, x, m) -> blen bf = 32)
  /\ is_success asset_A 700 (unblind_at toy_after 0 (b32 901)) = true
  /\ outcome_is "unable to rewind rangeproof" (unblind_at toy_after 0 (b32 902)) = true
  /\ match nth_error (vout toy_after) 0 with
     | Some o => outcome_is "rangeproof is empty" (txout_unblind toy o (b32 901) [])
                 && outcome_is "value is not a commitment" (unblind_confidential_pair toy (b32 901) (expl 700) (nAsset o) (nNonce o) [] toy_proof)
                 && outcome_is "nNonce.commitment is not a valid pubkey" (unblind_confidential_pair toy (b32 901) (nValue o) (nAsset o) [x00] [] toy_proof)
     | None => false end = true.
Proof.
  split; [|split; [vm_compute; reflexivity|split; vm_compute; reflexivity]].
  assert (L : (64 <=? Z.of_nat (List.length toy_proof)) = true) by (vm_compute; reflexivity). apply Z.leb_le in L.
  intros n c e g bf x m H. revert L H. generalize toy_proof. intros p L H. cbn [toy rp_rewind] in H. cbv zeta in H. destruct (_ && _) in H; [|discriminate H].
  assert (E : bf = firstn 32 (skipn 32 p)) by congruence. rewrite E. unfold blen. rewrite firstn_length, skipn_length.
  rewrite Nat.min_l; [reflexivity|lia].
Qed.

Print Assumptions C50_outcome.
