(** Property C89: the transactions that spend the contract on the side of Elements, examples/confidential-cross-chain-atomic-swap.py. *)
From Verif Require Import Base BaseFacts Serialize TxModel MiscModel IssuanceModel BlindModel UnblindModel SpendModel WalletModel SighashModel LegacyModel ScriptModel SpecWire
  SpecBlind SpecBalance SpecUnblind SpecMulti SpecNode SpecSpend SpecSign BlindFacts ExampleModel SpecExample SwapModel SpecSwap SwapProofs ToyCrypto ToyTx ToyUnblind ToyNode ToyFit PropSwap PropClaim
  CrossModel SpecCross CrossProofs ToyCurve PropCross CrossTxModel SpecCrossTx CrossTxProofs.
From Coq Require Import Lia.
Local Open Scope Z_scope.

(** Bob sends a transaction only if the first output with the hash of the contract holds what was agreed; it spends that output to his
    confidential address, with a fee of 0.01. *)
Theorem C89_bob : forall z dw ver legacy Hash160 E sha asset rand commit txid contract bkey ckey flip dst dummy sign t message,
  bob_claims z dw ver legacy Hash160 E sha asset rand commit txid contract bkey ckey flip dst dummy sign = Sent t message ->
  exists n u, Committed z dw Hash160 commit contract bkey n u asset 101000000 /\ SpendsContract txid n 0xffffffff dst asset t
  /\ nVersion t = ver /\ tx_serialize t = Ok message /\ ad_conf dst = true.
Proof.
  intros z dw ver legacy H160 E sha asset rand commit txid contract bkey ck flip dst dummy sign t b H. apply bob_inv in H.
  destruct H as (from & n & u & w & bf & abf & o & d & f & pub & k & bfs & abfs & s & t1 & am & hash & ss & EF & FW & EW & EU & MD & SB & CO).
  exists n, u. split; [exists from, w, bf, abf; auto|]. split; [exact (made_spends MD)|]. split; [apply (made_T MD)|]. auto.
Qed.
(** Alice reclaims with the sequence number 10, whatever the amount. *)
Theorem C89_alice : forall z dw ver legacy Hash160 asset rand commit txid contract bkey dst dummy sign t message,
  alice_reclaims z dw ver legacy Hash160 asset rand commit txid contract bkey dst dummy sign = Sent t message ->
  exists n u amount, Committed z dw Hash160 commit contract bkey n u asset amount /\ SpendsContract txid n 10 dst asset t
  /\ nVersion t = ver /\ tx_serialize t = Ok message /\ ad_conf dst = true.
Proof.
  intros z dw ver legacy H160 asset rand commit txid contract bkey dst dummy sign t b H. apply alice_inv in H.
  destruct H as (from & n & u & w & amount & bf & abf & o & d & f & pub & k & bfs & abfs & s & t1 & am & hash & ss & EF & FW & EW & EU & MD & SB).
  exists n, u, amount. split; [exists from, w, bf, abf; auto|]. split; [exact (made_spends MD)|]. split; [apply (made_T MD)|]. split; [exact SB|]. exact (proj1 (pubkey_of_Ok _ _ (md_pub MD))).
Qed.
(** The holder of the key of the address reads one bitcoin less the fee. *)
Theorem C89_reads : forall z dw ver legacy Hash160 E sha asset rand commit txid contract bkey ckey flip dst dummy sign t message key,
  SizesOk z -> RandOk z rand -> CodecLaws z -> RewindLaw z -> KeyLaws z ->
  bob_claims z dw ver legacy Hash160 E sha asset rand commit txid contract bkey ckey flip dst dummy sign = Sent t message
  \/ alice_reclaims z dw ver legacy Hash160 asset rand commit txid contract bkey dst dummy sign = Sent t message ->
  sk_valid z key = true -> blinding_pubkey dst = sk_pub z key -> Gets z t 0 key asset 100000000.
Proof.
  intros z dw ver legacy H160 E sha asset rand commit txid contract bkey ck flip dst dummy sign t b key SZ RO CL RL KL [H|H] SK EK.
  - apply bob_inv in H. destruct H as (from & n & u & w & bf & abf & o & d & f & pub & k & bfs & abfs & s & t1 & am & hash & ss & EF & FW & EW & EU & MD & _). exact (made_reads MD key SZ RO CL RL KL SK EK).
  - apply alice_inv in H. destruct H as (from & n & u & w & amount & bf & abf & o & d & f & pub & k & bfs & abfs & s & t1 & am & hash & ss & EF & FW & EW & EU & MD & _). exact (made_reads MD key SZ RO CL RL KL SK EK).
Qed.
(** The amounts of Bob's transaction are in order; the output that is spent is fully blinded, and so is the one that holds nothing. *)
Lemma committed_unique z dw H160 commit contract bkey n u asset amount from w n' u' : Committed z dw H160 commit contract bkey n u asset amount ->
  tx_deserialize dw commit = Ok from -> FirstWith (vout from) ([xa9; x14] ++ H160 contract ++ [x87]) n' u' -> nth_error (vtxoutwit (wit from)) n' = Some w ->
  u = u' /\ exists bf abf, txout_unblind z u' bkey (ow_range w) = Ok (UnblindingSuccess asset amount bf abf).
Proof.
  intros (fr & w0 & bf0 & abf0 & E1 & (A1 & A2 & A3) & E3 & E4) E1' (B1 & B2 & B3) E3'. rewrite E1 in E1'. apply Ok_inj in E1'. subst fr.
  assert (n = n'). { destruct (lt_eq_lt_dec n n') as [[L| ->]|L]; [|reflexivity|]; exfalso; [exact (B3 _ _ L A1 A2)|exact (A3 _ _ L B1 B2)]. } subst n'.
  assert (u = u') by congruence. subst u'. assert (w = w0) by congruence. subst w0. split; [reflexivity|]. exists bf0, abf0. exact E4.
Qed.
Theorem C89_accepted : forall z V order (G : PointGroup order) (M : Meaning z G) dw ver legacy Hash160 E sha asset rand commit txid contract bkey ckey flip dst dummy sign t message n u,
  SizesOk z -> BlindSumLaw z order -> CodecLaws z -> VerifierLaws z V M -> RewindSound z -> ZeroGen z -> FullNull dw -> (forall k, rand k <> zeros 32) ->
  Committed z dw Hash160 commit contract bkey n u asset 101000000 -> hd x00 (nAsset u) <> x01 -> asset <> zeros 32 -> gen_generate z asset <> None ->
  bob_claims z dw ver legacy Hash160 E sha asset rand commit txid contract bkey ckey flip dst dummy sign = Sent t message
  \/ alice_reclaims z dw ver legacy Hash160 asset rand commit txid contract bkey dst dummy sign = Sent t message ->
  (forall x, nth_error (vout t) 1 = Some x -> hd x00 (nAsset x) <> x01) ->
  node_check z V [u] t = true.
Proof.
  intros z V order G M dw ver legacy H160 E sha asset rand commit txid contract bkey ck flip dst dummy sign t b n0 u0 SZ LAW CL VL RS ZG DN RN CM HU NZ NG [H|H] CH.
  - apply bob_inv in H. destruct H as (from & n & u & w & bf & abf & o & d & f & pub & k & bfs & abfs & s & t1 & am & hash & ss & EF & FW & EW & EU & MD & _).
    destruct (committed_unique _ _ _ _ _ _ _ _ _ _ _ _ _ _ CM EF FW EW) as [-> _].
    exact (made_accepted MD V order G M u bkey (ow_range w) SZ LAW CL VL RS ZG DN RN EU HU NZ NG CH).
  - apply alice_inv in H. destruct H as (from & n & u & w & amount & bf & abf & o & d & f & pub & k & bfs & abfs & s & t1 & am & hash & ss & EF & FW & EW & EU & MD & _).
    destruct (committed_unique _ _ _ _ _ _ _ _ _ _ _ _ _ _ CM EF FW EW) as [-> (bf' & abf' & EU')].
    rewrite EU in EU'. apply Ok_inj in EU'. injection EU' as -> _ _.
    exact (made_accepted MD V order G M u bkey (ow_range w) SZ LAW CL VL RS ZG DN RN EU HU NZ NG CH).
Qed.
(** Bob's transaction satisfies the contract, and from it Alice gets the key of the Bitcoin side. *)
Theorem C89_bob_spends : forall z dw ver Hash160 E field sha asset rand commit txid contract bkey ckey flip dst dummy sign t message (verify : bytes -> bytes -> bytes -> Prop) target buyer seller,
  let n := ec_order E in let b := be_val bkey in let h := be_val (sha [x01]) in
  CurveLaws E field -> KnownPoint E field -> 0 < ckey < n -> 0 < b < n -> pub_add E (pub E ckey) (pub E b) = Ok target ->
  blen buyer < 76 -> blen seller < 76 -> make_elt_contract E target buyer seller = Ok contract ->
  (forall hash, verify buyer hash (sign hash) /\ blen (sign hash) <= 500) ->
  bob_claims z dw ver (legacy_sighash (c_hash z)) Hash160 E sha asset rand commit txid contract bkey ckey flip dst dummy sign = Sent t message ->
  exists i, vin t = [i] /\ Spends (FromStack E sha) (Checks z verify contract t) (OldEnough t) contract (scriptSig i)
  /\ forall a combined, 0 < a < n -> pub_add E (pub E ckey) (pub E a) = Ok combined -> (2 * h + ((ckey + b) mod n) * known_r E) mod n <> 0 ->
     exists k, recover E sha txid contract target b a (map (fun i => (op_hash (prevout i), scriptSig i)) (vin t)) = Key k /\ 0 < k < n /\ pub E k = combined.
Proof.
  intros z dw ver H160 E field sha asset rand commit txid contract bkey ck flip dst dummy sign t mb verify target buyer seller n b h L K RC RB HT Lb Ls HM SG H.
  apply bob_inv in H. destruct H as (from & m & u & w & bf & abf & o & d & f & pubk & k & bfs & abfs & s & t1 & am & hash & ss & EF & FW & EW & EU & MD & _).
  destruct (made_T MD) as (VI & _). eexists. split; [exact VI|]. cbn [scriptSig map prevout op_hash]. rewrite VI. cbn [scriptSig map prevout op_hash].
  assert (NS : (h + ((ck + b) mod n) * known_r E) mod n <> 0).
  { intros Q. assert (R := md_finish MD). unfold reveal_script, rbind in R. fold b in R. unfold key_add, key_new in R. destruct (_ && _); [|discriminate R].
    destruct (Z.eqb_spec (reveal_s E sha ((ck + b) mod ec_order E)) 0) as [_|X]; [discriminate R|]. apply X. unfold reveal_s, mhash. fold n h.
    assert (NP : 0 < n) by (generalize (el_order _ _ L); unfold n; lia).
    rewrite (Z.mod_small (known_r E)) by (generalize (kp_range _ _ K); fold n; lia). rewrite <- Z.mul_mod_idemp_r, Q, Z.mul_0_r by lia. apply Z.mod_0_l. lia. }
  assert (CK : Checks z verify contract t (sign hash ++ [x01]) buyer). { exists (sign hash), hash. split; [reflexivity|]. split; [exact (made_signed _ _ _ _ _ _ _ _ _ _ _ _ _ _ _ _ _ _ _ _ _ _ _ _ _ _ _ _ MD)|]. apply SG. }
  destruct (C88_reveals E field sha (Checks z verify contract t) (OldEnough t) flip ck b target buyer seller contract (sign hash ++ [x01]) L K RC RB HT NS Lb Ls HM) as (s' & RS & SP & RV).
  { destruct (SG hash) as [_ LS]. unfold blen in *. rewrite app_length. cbn [length]. lia. } { exact CK. }
  assert (s' = ss) by (assert (R := md_finish MD); cbv beta in R; fold b in R; rewrite RS in R; apply Ok_inj in R; exact R). subst s'. split; [exact SP|].
  intros a combined RA HC ND. exact (RV a combined txid [] [] RA HC (Forall_nil _) ND).
Qed.
(** Alice's transaction satisfies the contract by the other branch. *)
Theorem C89_alice_spends : forall z dw ver Hash160 E sha asset rand commit txid contract bkey dst dummy sign t message (verify : bytes -> bytes -> bytes -> Prop) reveal buyer seller,
  (ec_len E <= 32)%nat -> blen reveal < 76 -> blen buyer < 76 -> blen seller < 76 -> make_elt_contract E reveal buyer seller = Ok contract ->
  (forall hash, verify seller hash (sign hash) /\ blen (sign hash) <= 500) -> 2 <= ver ->
  alice_reclaims z dw ver (legacy_sighash (c_hash z)) Hash160 asset rand commit txid contract bkey dst dummy sign = Sent t message ->
  exists i, vin t = [i] /\ Spends (FromStack E sha) (Checks z verify contract t) (OldEnough t) contract (scriptSig i).
Proof.
  intros z dw ver H160 E sha asset rand commit txid contract bkey dst dummy sign t mb verify reveal buyer seller LE Lr Lb Ls HM SG VR H.
  apply alice_inv in H. destruct H as (from & m & u & w & amount & bf & abf & o & d & f & pubk & k & bfs & abfs & s & t1 & am & hash & ss & EF & FW & EW & EU & MD & _).
  destruct (made_T MD) as (VI & _ & _ & VV & _). eexists. split; [exact VI|]. cbn [scriptSig].
  assert (CK : Checks z verify contract t (sign hash ++ [x01]) seller). { exists (sign hash), hash. split; [reflexivity|]. split; [exact (made_signed _ _ _ _ _ _ _ _ _ _ _ _ _ _ _ _ _ _ _ _ _ _ _ _ _ _ _ _ MD)|]. apply SG. }
  assert (OE : OldEnough t 10). { eexists. rewrite VI. split; [reflexivity|]. rewrite VV. split; [exact VR|]. cbn [nSequence]. split; [reflexivity|]. split; [reflexivity|]. discriminate. }
  destruct (C88_reclaims E reveal buyer seller (FromStack E sha) (Checks z verify contract t) (OldEnough t) contract (sign hash ++ [x01]) LE Lr Lb Ls HM) as (s' & RS & SP).
  { destruct (SG hash) as [_ LS]. unfold blen in *. rewrite app_length. cbn [length]. lia. } { exact OE. } { exact CK. }
  assert (R := md_finish MD). cbv beta in R. rewrite RS in R. apply Ok_inj in R. rewrite <- R. exact SP.
Qed.

(** * Runs over the toy library *)
Definition ct_asset : bytes := sw_fee_asset.
Definition ct_contract : bytes := tcontract [x00; x10].
Definition ct_script : bytes := [xa9; x14] ++ sw_h160 ct_contract ++ [x87].
Definition ct_key : bytes := b32 9.
Definition ct_out (amount : Z) : txout := sw_out ct_asset amount (b32 1004) (b32 2004) ct_script.
Definition ct_proof (amount : Z) : bytes := ct_key ++ b32 1004 ++ be_bytes 8 amount ++ ct_asset ++ b32 2004.
(** Alice's transaction: something else, what was agreed, the fee *)
Definition ct_from (amount : Z) :=
  mkTx [plain_input (mkOutPoint (repeat x43 32) 7)] [sw_out asset_A 700 (b32 1005) (b32 2005) [x51]; ct_out amount; mkTxOut (expl 1000) [] (x01 :: ct_asset) []] 0 2
    (mkTxWit [inwit_null] [outwit_null; mkOutWit [] (ct_proof amount); outwit_null]).
Definition ct_commit (amount : Z) : bytes := match tx_serialize (ct_from amount) with Ok b => b | Raise _ => [] end.
Definition ct_txid : bytes := repeat x44 32.
Definition ct_dst : addr := sw_addr 31 x61.
Definition ct_bob (amount : Z) : attempt :=
  bob_claims ftoy sw_dw 2 sw_legacy sw_h160 tcurve tsha ct_asset (fit_rand 909) (ct_commit amount) ct_txid ct_contract ct_key 7 (fun _ => false) ct_dst (b32 55) (sw_sign [xb0]).
Definition ct_alice (amount : Z) : attempt :=
  alice_reclaims ftoy sw_dw 2 sw_legacy sw_h160 ct_asset (fit_rand 909) (ct_commit amount) ct_txid ct_contract ct_key ct_dst (b32 55) (sw_sign [x50]).
Lemma ct_bob_eq amount : ct_bob amount =
  bob_claims ftoy sw_dw 2 sw_legacy sw_h160 tcurve tsha ct_asset (fit_rand 909) (ct_commit amount) ct_txid ct_contract ct_key 7 (fun _ => false) ct_dst (b32 55) (sw_sign [xb0]).
Proof. unfold ct_bob. reflexivity. Qed.
Lemma ct_alice_eq amount : ct_alice amount =
  alice_reclaims ftoy sw_dw 2 sw_legacy sw_h160 ct_asset (fit_rand 909) (ct_commit amount) ct_txid ct_contract ct_key ct_dst (b32 55) (sw_sign [x50]).
Proof. unfold ct_alice. reflexivity. Qed.
Definition ct_sent (amount : Z) (good : bool) (r : attempt) : bool :=
  match r with
  | Sent t _ => match nth_error (vout t) 1 with Some o => negb (Byte.eqb (hd x00 (nAsset o)) x01) | None => false end && Bool.eqb (node_check ftoy toy_verifier [ct_out amount] t) good
  | _ => false end.
Lemma ct_sent_Sent amount good r : ct_sent amount good r = true -> exists t b, r = Sent t b /\ (forall o, nth_error (vout t) 1 = Some o -> hd x00 (nAsset o) <> x01)
  /\ node_check ftoy toy_verifier [ct_out amount] t = good.
Proof.
  unfold ct_sent. intros H. destruct r as [t b|w|e]; [|discriminate H|discriminate H]. apply andb_prop in H. destruct H as [H1 H2]. exists t, b. split; [reflexivity|]. split.
  - intros o E. rewrite E in H1. intros X. rewrite X in H1. discriminate H1.
  - apply Bool.eqb_prop. exact H2.
Qed.
Lemma ct_b1 : ct_sent 101000000 true (ct_bob 101000000) = true. Proof. vm_compute. reflexivity. Qed.
Lemma ct_b2 : ct_bob 100999999 = Refused OtherAmount. Proof. vm_compute. reflexivity. Qed.
Lemma ct_a1 : ct_sent 101000000 true (ct_alice 101000000) = true. Proof. vm_compute. reflexivity. Qed.
Lemma ct_a2 : ct_sent 102000000 false (ct_alice 102000000) = true. Proof. vm_compute. reflexivity. Qed.
Definition ct_committed_ok (amount : Z) : bool :=
  match tx_deserialize sw_dw (ct_commit amount) with
  | Ok from => match vout from, vtxoutwit (wit from) with
    | [o; p; q], [_; w; _] => negb (bytes_eqb (scriptPubKey o) ct_script) && bytes_eqb (scriptPubKey p) ct_script && bytes_eqb (nAsset p) (nAsset (ct_out amount)) && bytes_eqb (nValue p) (nValue (ct_out amount)) && bytes_eqb (nNonce p) []
        && match txout_unblind ftoy p ct_key (ow_range w) with Ok (UnblindingSuccess a v _ _) => bytes_eqb a ct_asset && (v =? amount) | _ => false end
    | _, _ => false end
  | Raise _ => false end.
Lemma ct_committed amount : ct_committed_ok amount = true -> Committed ftoy sw_dw sw_h160 (ct_commit amount) ct_contract ct_key 1 (ct_out amount) ct_asset amount.
Proof.
  unfold ct_committed_ok. intros H. destruct (tx_deserialize sw_dw (ct_commit amount)) as [from|] eqn:D; [|discriminate H]. destruct (vout from) as [|o [|p [|q [|r l]]]] eqn:VO; try discriminate H.
  destruct (vtxoutwit (wit from)) as [|w1 [|w [|w2 [|w3 l]]]] eqn:VW; try discriminate H. apply andb_prop in H. destruct H as [H H6]. apply andb_prop in H. destruct H as [H H5]. apply andb_prop in H. destruct H as [H H4].
  apply andb_prop in H. destruct H as [H H3]. apply andb_prop in H. destruct H as [H1 H2]. apply bytes_eqb_eq in H2, H3, H4, H5. apply negb_true_iff in H1.
  assert (EP : p = ct_out amount) by (destruct p as [pv ps pa pn]; cbn [scriptPubKey nAsset nValue nNonce] in *; subst; reflexivity). rewrite EP in H6, VO.
  destruct (txout_unblind ftoy (ct_out amount) ct_key (ow_range w)) as [[x|x y l|a v bf abf]|] eqn:EU; try discriminate H6. apply andb_prop in H6. destruct H6 as [A V]. apply bytes_eqb_eq in A. apply Z.eqb_eq in V. subst a v.
  exists from, w, bf, abf. split; [exact D|]. split; [|split; [rewrite VW; reflexivity|exact EU]]. rewrite VO. split; [reflexivity|]. split; [unfold ct_out, sw_out; cbv zeta; cbn [scriptPubKey]; unfold ct_script; reflexivity|].
  intros [|m] y L EY; [|lia]. cbn [nth_error] in EY. injection EY as <-. intros Q. change ([xa9; x14] ++ sw_h160 ct_contract ++ [x87]) with ct_script in Q. rewrite Q in H1. rewrite (proj2 (bytes_eqb_eq _ _) eq_refl) in H1. discriminate H1.
Qed.
Lemma ct_c1 : ct_committed_ok 101000000 = true. Proof. vm_compute. reflexivity. Qed.
Lemma ct_c2 : ct_committed_ok 102000000 = true. Proof. vm_compute. reflexivity. Qed.
Definition ct_verify (key hash s : bytes) : Prop := s = sw_sign key hash.
Lemma ct_laws : SizesOk ftoy /\ BlindSumLaw ftoy toy_order /\ CodecLaws ftoy /\ VerifierLaws ftoy toy_verifier ftoy_meaning /\ RewindSound ftoy /\ ZeroGen ftoy
  /\ RewindLaw ftoy /\ KeyLaws ftoy /\ RandOk ftoy (fit_rand 909) /\ FullNull sw_dw /\ (forall k, fit_rand 909 k <> zeros 32) /\ ct_asset <> zeros 32 /\ gen_generate ftoy ct_asset <> None.
Proof.
  split; [exact ftoy_sizes|]. split; [exact ftoy_blind_sum|]. split; [exact ftoy_codec|]. split; [exact ftoy_verifies|]. split; [exact ftoy_sound|]. split; [exact ftoy_zerogen|].
  split; [exact ftoy_rewind|]. split; [exact ftoy_keys|]. split; [apply fit_rand_ok|]. split; [exact sw_full|]. split; [intros k; apply fit_rand_nonzero; lia|]. split; vm_compute; discriminate.
Qed.
(** Both parties, Bob with the keys 7 and 9: all hypotheses of the theorems are met. *)
Example C89_ex : exists t message t' message',
  Committed ftoy sw_dw sw_h160 (ct_commit 101000000) ct_contract ct_key 1 (ct_out 101000000) ct_asset 101000000 /\ hd x00 (nAsset (ct_out 101000000)) <> x01
  /\ CurveLaws tcurve tn /\ KnownPoint tcurve tn /\ pub_add tcurve (pub tcurve 7) (pub tcurve (be_val ct_key)) = Ok [x00; x10] /\ make_elt_contract tcurve [x00; x10] [xb0] [x50] = Ok ct_contract
  /\ (forall hash, ct_verify [xb0] hash (sw_sign [xb0] hash) /\ blen (sw_sign [xb0] hash) <= 500) /\ (forall hash, ct_verify [x50] hash (sw_sign [x50] hash) /\ blen (sw_sign [x50] hash) <= 500)
  /\ ad_conf ct_dst = true /\ sk_valid ftoy (b32 31) = true /\ blinding_pubkey ct_dst = sk_pub ftoy (b32 31)
  /\ bob_claims ftoy sw_dw 2 sw_legacy sw_h160 tcurve tsha ct_asset (fit_rand 909) (ct_commit 101000000) ct_txid ct_contract ct_key 7 (fun _ => false) ct_dst (b32 55) (sw_sign [xb0]) = Sent t message
  /\ (forall x, nth_error (vout t) 1 = Some x -> hd x00 (nAsset x) <> x01) /\ node_check ftoy toy_verifier [ct_out 101000000] t = true
  /\ alice_reclaims ftoy sw_dw 2 sw_legacy sw_h160 ct_asset (fit_rand 909) (ct_commit 101000000) ct_txid ct_contract ct_key ct_dst (b32 55) (sw_sign [x50]) = Sent t' message'
  /\ (forall x, nth_error (vout t') 1 = Some x -> hd x00 (nAsset x) <> x01) /\ node_check ftoy toy_verifier [ct_out 101000000] t' = true.
Proof.
  destruct (ct_sent_Sent _ _ _ ct_b1) as (t & b & E1 & E2 & E3). destruct (ct_sent_Sent _ _ _ ct_a1) as (t' & b' & A1 & A2 & A3). rewrite ct_bob_eq in E1. rewrite ct_alice_eq in A1.
  exists t, b, t', b'. split; [exact (ct_committed _ ct_c1)|]. split; [vm_compute; discriminate|]. split; [exact tcurve_laws|]. split; [exact tcurve_known|]. split; [vm_compute; reflexivity|]. split; [exact c7_contract|].
  assert (SL : forall k h, blen (sw_sign k h) <= 500) by (intros k h; unfold sw_sign, blen; rewrite firstn_length; lia).
  split; [intros hash; split; [reflexivity|apply SL]|]. split; [intros hash; split; [reflexivity|apply SL]|]. split; [reflexivity|]. split; [vm_compute; reflexivity|]. split; [vm_compute; reflexivity|].
  split; [exact E1|]. split; [exact E2|]. split; [exact E3|]. split; [exact A1|]. split; [exact A2|exact A3].
Qed.
(** The theorems on the contract apply to these runs: Bob's scriptSig spends it and gives Alice, with her key 11, the combined key. *)
Lemma ct_legacy : sw_legacy = legacy_sighash (c_hash ftoy). Proof. reflexivity. Qed.
Example C89_ex_spends : exists t message i t' message' i',
  bob_claims ftoy sw_dw 2 sw_legacy sw_h160 tcurve tsha ct_asset (fit_rand 909) (ct_commit 101000000) ct_txid ct_contract ct_key 7 (fun _ => false) ct_dst (b32 55) (sw_sign [xb0]) = Sent t message
  /\ vin t = [i] /\ Spends (FromStack tcurve tsha) (Checks ftoy ct_verify ct_contract t) (OldEnough t) ct_contract (scriptSig i)
  /\ (exists k, recover tcurve tsha ct_txid ct_contract [x00; x10] 9 11 [(op_hash (prevout i), scriptSig i)] = Key k /\ pub tcurve k = [x00; x12])
  /\ alice_reclaims ftoy sw_dw 2 sw_legacy sw_h160 ct_asset (fit_rand 909) (ct_commit 101000000) ct_txid ct_contract ct_key ct_dst (b32 55) (sw_sign [x50]) = Sent t' message'
  /\ vin t' = [i'] /\ Spends (FromStack tcurve tsha) (Checks ftoy ct_verify ct_contract t') (OldEnough t') ct_contract (scriptSig i').
Proof.
  destruct (ct_sent_Sent _ _ _ ct_b1) as (t & b & E1 & _). destruct (ct_sent_Sent _ _ _ ct_a1) as (t' & b' & A1 & _). rewrite ct_bob_eq in E1. rewrite ct_alice_eq in A1.
  assert (SL : forall k h, blen (sw_sign k h) <= 500) by (intros k h; unfold sw_sign, blen; rewrite firstn_length; lia).
  assert (SG : forall k hash, ct_verify k hash (sw_sign k hash) /\ blen (sw_sign k hash) <= 500) by (intros k hash; split; [reflexivity|apply SL]).
  assert (B9 : be_val ct_key = 9) by (vm_compute; reflexivity).
  pose proof E1 as E2. pose proof A1 as A2. rewrite ct_legacy in E2, A2.
  destruct (C89_bob_spends ftoy sw_dw 2 sw_h160 tcurve tn tsha ct_asset (fit_rand 909) (ct_commit 101000000) ct_txid ct_contract ct_key 7 (fun _ => false) ct_dst (b32 55) (sw_sign [xb0]) t b ct_verify [x00; x10] [xb0] [x50]
    tcurve_laws tcurve_known) as (i & VI & SP & RC); [split; reflexivity|rewrite B9; split; reflexivity|rewrite B9; exact c7_sum|reflexivity|reflexivity|exact c7_contract|exact (SG [xb0])|exact E2|].
  assert (L32 : (ec_len tcurve <= 32)%nat) by (apply Nat.leb_le; vm_compute; reflexivity).
  pose proof (Z.le_refl 2) as V2.
  destruct (C89_alice_spends ftoy sw_dw 2 sw_h160 tcurve tsha ct_asset (fit_rand 909) (ct_commit 101000000) ct_txid ct_contract ct_key ct_dst (b32 55) (sw_sign [x50]) t' b' ct_verify [x00; x10] [xb0] [x50]
    L32 eq_refl eq_refl eq_refl c7_contract (SG [x50]) V2 A2) as (i' & VI' & SP').
  exists t, b, i, t', b', i'. split; [exact E1|]. split; [exact VI|]. split; [exact SP|]. split.
  - rewrite B9 in RC. rewrite VI in RC. destruct (RC 11 [x00; x12]) as (k & RK & _ & PK); [split; reflexivity|exact c7_comb|vm_compute; discriminate|]. exists k. split; [exact RK|exact PK].
  - split; [exact A1|]. split; [exact VI'|exact SP'].
Qed.
(** Alice's program takes it for granted that the output holds the amount agreed: if it holds more, what she sends is not valid. *)
Theorem C89_amount_refuted : exists z V order (G : PointGroup order) (M : Meaning z G) dw ver legacy Hash160 asset rand commit txid contract bkey dst dummy sign t message n u amount,
  SizesOk z /\ BlindSumLaw z order /\ CodecLaws z /\ VerifierLaws z V M /\ RewindSound z /\ ZeroGen z /\ FullNull dw /\ (forall k, rand k <> zeros 32)
  /\ Committed z dw Hash160 commit contract bkey n u asset amount /\ 101000000 < amount /\ hd x00 (nAsset u) <> x01 /\ asset <> zeros 32 /\ gen_generate z asset <> None
  /\ alice_reclaims z dw ver legacy Hash160 asset rand commit txid contract bkey dst dummy sign = Sent t message
  /\ (forall x, nth_error (vout t) 1 = Some x -> hd x00 (nAsset x) <> x01)
  /\ node_check z V [u] t = false.
Proof.
  destruct ct_laws as (L1 & L2 & L3 & L4 & L5 & L6 & L7 & L8 & L9 & L10 & L11 & L12 & L13). destruct (ct_sent_Sent _ _ _ ct_a2) as (t & b & A1 & A2 & A3). rewrite ct_alice_eq in A1.
  exists ftoy, toy_verifier, toy_order, toy_group, ftoy_meaning, sw_dw, 2, sw_legacy, sw_h160, ct_asset, (fit_rand 909), (ct_commit 102000000), ct_txid, ct_contract, ct_key, ct_dst, (b32 55), (sw_sign [x50]), t, b, 1%nat, (ct_out 102000000), 102000000.
  repeat (split; [assumption|]). split; [exact (ct_committed _ ct_c2)|]. split; [reflexivity|]. split; [vm_compute; discriminate|]. auto.
Qed.

Print Assumptions C89_bob.
Print Assumptions C89_alice.
Print Assumptions C89_reads.
Print Assumptions C89_accepted.
Print Assumptions C89_bob_spends.
Print Assumptions C89_alice_spends.
Print Assumptions C89_amount_refuted.
Print Assumptions C89_ex.
Print Assumptions C89_ex_spends.
