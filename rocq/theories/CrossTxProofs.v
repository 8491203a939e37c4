(** Proofs for C89. *)
From Verif Require Import Base BaseFacts Serialize TxModel MiscModel IssuanceModel BlindModel UnblindModel SpendModel WalletModel SighashModel LegacyModel ScriptModel SpecWire
  SpecBlind SpecBalance SpecUnblind SpecMulti SpecNode SpecSpend SpecSign BlindFacts BlindBalance BlindFrame BlindFails BlindSteps BlindOuts BlindMain BlindProps BlindComplete BlindSer TxProofs TxProofs2 PropUnblind PropSpend PropSign
  ExampleModel SpecExample ExampleProofs PropExample SwapModel SpecSwap SwapProofs SwapRun SwapSign CrossModel SpecCross CrossTxModel SpecCrossTx.
From Coq Require Import Lia Permutation.
Local Open Scope Z_scope.

Lemma bindA_sent {A} (r : res A) k T b : bindA r k = Sent T b -> exists a, r = Ok a /\ k a = Sent T b.
Proof. destruct r as [a|e]; [|discriminate]. intros H. exists a. auto. Qed.
Lemma find_first script outs : forall k n o, find_vout script k outs = Some (n, o) -> exists m, n = (k + m)%nat /\ FirstWith outs script m o.
Proof.
  induction outs as [|x outs IH]; intros k n o; cbn [find_vout]; [discriminate|]. destruct (bytes_eqb (scriptPubKey x) script) eqn:EB.
  - intros H. injection H as <- <-. exists 0%nat. split; [lia|]. apply bytes_eqb_eq in EB. split; [reflexivity|]. split; [exact EB|]. intros m y L. lia.
  - intros H. destruct (IH _ _ _ H) as (m & -> & F1 & F2 & F3). exists (S m). split; [lia|]. split; [exact F1|]. split; [exact F2|]. intros [|j] y L EY.
    + injection EY as <-. intros Q. apply bytes_eqb_eq in Q. congruence.
    + exact (F3 j y ltac:(lia) EY).
Qed.
Lemma find_unblind_inv z H160 ba t contract bkey k T b : find_and_unblind_vout z H160 ba t contract bkey k = Sent T b ->
  exists n o w amount bf abf, FirstWith (vout t) ([xa9; x14] ++ H160 contract ++ [x87]) n o /\ nth_error (vtxoutwit (wit t)) n = Some w
  /\ txout_unblind z o bkey (ow_range w) = Ok (UnblindingSuccess ba amount bf abf) /\ k n amount bf abf = Sent T b.
Proof.
  unfold find_and_unblind_vout. destruct (find_vout _ _ _) as [[n o]|] eqn:F; [|discriminate]. apply find_first in F. destruct F as (m & -> & F). cbn [Nat.add].
  intros H. apply bindA_sent in H. destruct H as (w & EW & H). apply nth_res_Ok in EW. apply bindA_sent in H. destruct H as (r & ER & H).
  destruct r as [f|x y l|asset amount bf abf]; try discriminate H. destruct (bytes_eqb asset ba) eqn:EB; cbn [negb] in H; [|discriminate H]. apply bytes_eqb_eq in EB. subst asset.
  exists m, o, w, amount, bf, abf. auto.
Qed.
Lemma output_with_Ok ba amount script nonce o : output_with ba amount script nonce = Ok o ->
  exists v a sc nn, o = mkTxOut v sc a nn /\ conf_value_of_amount amount = Ok v /\ conf_asset_of_asset ba = Ok a /\ script = Ok sc /\ nonce = Ok nn.
Proof.
  unfold output_with, rbind. destruct (conf_value_of_amount amount) as [v|]; [|discriminate]. destruct (conf_asset_of_asset ba) as [a|]; [|discriminate].
  destruct script as [sc|]; [|discriminate]. destruct nonce as [nn|]; [|discriminate]. unfold conf_new. destruct (_ || _ || _); [|discriminate]. intros H. apply Ok_inj in H. subst o. exists v, a, sc, nn. auto.
Qed.
Lemma with_sound z ba amount script nonce o : output_with ba amount script nonce = Ok o -> 0 < amount <= money \/ (amount = 0 /\ script = Ok [x6a]) -> gen_generate z ba <> None ->
  (exists a g, ExplicitAsset (nAsset o) a /\ gen_generate z a = Some g /\ (Amount (nValue o) \/ (nValue o = x01 :: zeros 8 /\ unspendable (scriptPubKey o) = true)))
  /\ tl (nAsset o) = ba /\ be_val (tl (nValue o)) = amount /\ hd x00 (nAsset o) = x01.
Proof.
  intros H R NG. apply output_with_Ok in H. destruct H as (v & a & sc & nn & -> & EV & EA & ES & _). cbn [nAsset nValue scriptPubKey].
  assert (EV' := EV). apply made_amount in EV; [|unfold money in *; lia]. assert (AL := asset_len _ _ EA). apply asset_back, to_asset_explicit in EA; [|exact AL]. split.
  - destruct (gen_generate z ba) as [g|] eqn:G; [|congruence]. exists ba, g. split; [exact EA|]. split; [exact G|]. destruct R as [R|[-> ->]].
    + left. exists amount. auto.
    + right. split; [|apply Ok_inj in ES; subst sc; reflexivity]. vm_compute in EV'. apply Ok_inj in EV'. subst v. reflexivity.
  - destruct EA as [-> _]. destruct EV as (d & -> & _ & EE). auto.
Qed.

(** The receiver of a blinded output reads it; the output may have come with a nonce. *)
Lemma nonce_gets z rand descs pubs gens t n bfs abfs s T j key o amount asset script nonce : SizesOk z -> RandOk z rand -> CodecLaws z -> RewindLaw z -> KeyLaws z ->
  blind_transaction z rand (plain_args descs pubs gens) t = (Ret (BSuccess n bfs abfs), s) ->
  sk_valid z key = true -> nth_error pubs j = Some (sk_pub z key) -> nth_error (vout t) j = Some o -> output_with asset amount script nonce = Ok o -> 0 <= amount <= money ->
  vout T = vout (s_tx s) -> vtxoutwit (wit T) = vtxoutwit (wit (s_tx s)) -> Gets z T j key asset amount.
Proof.
  intros SZ RO CL RL KL B SK EP EO OO RG K2 K3. assert (NN := plain_count _ _ _ _ _ _ _ _ _ _ B). apply output_with_Ok in OO. destruct OO as (v & a & sc & nn & -> & EV & EA & _).
  assert (V1 : ExplicitValue v amount) by (apply made_amount; [exact EV|exact RG]).
  assert (A1 : ExplicitAsset a asset) by (apply to_asset_explicit, asset_back; [exact (asset_len _ _ EA)|exact EA]).
  assert (WL : (j < length (vtxoutwit (wit (s_tx s))))%nat).
  { assert (LJ : (j < length (vout t))%nat) by (apply nth_error_Some; congruence).
    destruct (blind_success z rand _ t _ _ _ _ B) as (_ & _ & Q). destruct (Q NN) as (targets & _ & [[AB _]|(pre & j0 & _ & AB & _)]); apply ab_nwit in AB; lia. }
  assert (W0 : nth_error (vtxoutwit (wit (s_tx s))) j = Some (outwit_at (s_tx s) j)) by (unfold outwit_at; apply nth_error_nth'; exact WL).
  destruct (C48_receiver_unblinds _ _ _ _ _ _ _ _ j key _ _ _ SZ RO CL RL KL B NN SK EP EO V1 A1) as [(u & bf & abf & EU & _ & _ & S & _ & _ & VC)|(pre & _ & EU & _)].
  - exists u, (mkDesc asset amount bf abf). rewrite K2. split; [exact EU|]. split; [|split; reflexivity]. right. split.
    { destruct VC as (p & q & -> & L & _). unfold conf_is_explicit. rewrite blen_cons, L. reflexivity. }
    exists (outwit_at (s_tx s) j). eexists. rewrite K3. split; [exact W0|]. split; [apply S; exact (proj2 RG)|reflexivity].
  - exists (mkTxOut v sc a nn), (mkDesc asset amount (zeros 32) (zeros 32)). rewrite K2. split; [exact EU|]. split; [|split; reflexivity].
    left. exists asset, amount. cbn [nAsset nValue]. split; [apply asset_back; [exact (asset_len _ _ EA)|exact EA]|]. split; [apply value_back; exact EV|reflexivity].
Qed.

(** The sequence number is not looked at when amounts are checked. *)
Lemma sequence_inv t seq t' : set_sequence t seq = Ok t' -> exists i ins, vin t = i :: ins
  /\ vin t' = mkTxIn (prevout i) (scriptSig i) seq (assetIssuance i) (is_pegin i) :: ins /\ vout t' = vout t /\ nLockTime t' = nLockTime t /\ nVersion t' = nVersion t /\ wit t' = wit t.
Proof. unfold set_sequence. destruct (vin t) as [|i ins]; [discriminate|]. intros H. apply Ok_inj in H. subst t'. exists i, ins. auto 10. Qed.
Lemma sequence_node z V us t seq t' : set_sequence t seq = Ok t' -> node_check z V us t' = node_check z V us t.
Proof.
  intros H. apply sequence_inv in H. destruct H as (i & ins & E1 & E2 & E3 & _ & _ & E6). unfold node_check. rewrite E1, E2, E3. cbn [length].
  assert (Q : forall k, node_input z V us t' k = node_input z V us t k).
  { intros k. unfold node_input. rewrite E1, E2, E6. destruct (nth_error us k); [|reflexivity]. destruct k; reflexivity. }
  rewrite (map_ext _ _ Q). destruct (opt_concat _) as [items|]; [|reflexivity].
  assert (R : forall k, node_output z V (map fst items) t' k = node_output z V (map fst items) t k) by (intros k; unfold node_output, outwit_at; rewrite E3, E6; reflexivity).
  rewrite (map_ext _ _ R). reflexivity.
Qed.

(** What is known of a transaction that is made. *)
Record Made (z : Crypto) (dw : default_wit) (ver : Z) legacy (ba : bytes) (rand : nat -> bytes) (dst : addr) (dummy txid : bytes) (n : nat) (contract bf abf : bytes)
    (reclaim : bool) (sign : bytes -> bytes) (finish : bytes -> res bytes) (o d f : txout) (pub : bytes) (k : nat) (bfs abfs : list bytes) (s : St) (t1 T : tx) (am hash ss : bytes) : Prop := {
  md_dummy : sk_valid z dummy = true;
  md_o : output_with ba (agreed - fixed_fee) (to_scriptPubKey dst) (pubkey_of dst) = Ok o;
  md_d : output_with ba 0 (Ok [x6a]) (Ok (sk_pub z dummy)) = Ok d;
  md_f : output_with ba fixed_fee (Ok []) (Ok []) = Ok f;
  md_pub : pubkey_of dst = Ok pub;
  md_blind : blind_transaction z rand (plain_args [mkDesc ba agreed bf abf] [pub; sk_pub z dummy] [])
     (mkTx [plain_input (mkOutPoint txid (Z.of_nat n))] [o; d; f] 0 ver (dw [plain_input (mkOutPoint txid (Z.of_nat n))] [o; d; f])) = (Ret (BSuccess k bfs abfs), s);
  md_seq : (if reclaim then set_sequence (s_tx s) elements_timeout else Ok (s_tx s)) = Ok t1;
  md_hash : sighash legacy (c_hash z) contract t1 0 SIGHASH_ALL (Some am) SIGVERSION_BASE = Ok hash;
  md_finish : finish (sign hash ++ [x01]) = Ok ss;
  md_set : set_input t1 0 ss None = Ok T
}.
Arguments md_dummy {z dw ver legacy ba rand dst dummy txid n contract bf abf reclaim sign finish o d f pub k bfs abfs s t1 T am hash ss} _.
Arguments md_o {z dw ver legacy ba rand dst dummy txid n contract bf abf reclaim sign finish o d f pub k bfs abfs s t1 T am hash ss} _.
Arguments md_d {z dw ver legacy ba rand dst dummy txid n contract bf abf reclaim sign finish o d f pub k bfs abfs s t1 T am hash ss} _.
Arguments md_f {z dw ver legacy ba rand dst dummy txid n contract bf abf reclaim sign finish o d f pub k bfs abfs s t1 T am hash ss} _.
Arguments md_pub {z dw ver legacy ba rand dst dummy txid n contract bf abf reclaim sign finish o d f pub k bfs abfs s t1 T am hash ss} _.
Arguments md_blind {z dw ver legacy ba rand dst dummy txid n contract bf abf reclaim sign finish o d f pub k bfs abfs s t1 T am hash ss} _.
Arguments md_seq {z dw ver legacy ba rand dst dummy txid n contract bf abf reclaim sign finish o d f pub k bfs abfs s t1 T am hash ss} _.
Arguments md_hash {z dw ver legacy ba rand dst dummy txid n contract bf abf reclaim sign finish o d f pub k bfs abfs s t1 T am hash ss} _.
Arguments md_finish {z dw ver legacy ba rand dst dummy txid n contract bf abf reclaim sign finish o d f pub k bfs abfs s t1 T am hash ss} _.
Arguments md_set {z dw ver legacy ba rand dst dummy txid n contract bf abf reclaim sign finish o d f pub k bfs abfs s t1 T am hash ss} _.
Lemma made_inv z dw ver legacy ba rand dst dummy txid n contract bf abf reclaim sign finish k T b :
  create_elt_spend_tx z dw ver legacy ba rand dst dummy txid n contract bf abf reclaim sign finish k = Sent T b ->
  exists o d f pub m bfs abfs s t1 T' am hash ss, Made z dw ver legacy ba rand dst dummy txid n contract bf abf reclaim sign finish o d f pub m bfs abfs s t1 T' am hash ss /\ k T' = Sent T b.
Proof.
  unfold create_elt_spend_tx. intros H. apply bindA_sent in H. destruct H as ([t pubs] & EU & H). cbn [fst snd] in H.
  unfold unblinded_tx, rbind in EU. unfold key_pub in EU. destruct (sk_valid z dummy) eqn:SV; [|discriminate EU].
  destruct (outpoint_new txid (Z.of_nat n)) as [p|] eqn:EP; [|discriminate EU]. destruct (output_with ba (agreed - fixed_fee) _ _) as [o|] eqn:EO; [|discriminate EU].
  destruct (output_with ba 0 _ _) as [d|] eqn:ED; [|discriminate EU]. destruct (output_with ba fixed_fee _ _) as [f|] eqn:EF; [|discriminate EU]. destruct (pubkey_of dst) as [pub|] eqn:EK; [|discriminate EU].
  apply Ok_inj in EU. injection EU as <- <-. unfold outpoint_new in EP. destruct (negb _); [discriminate EP|]. destruct (_ && _); [|discriminate EP]. apply Ok_inj in EP. subst p.
  change (mkArgs [mkDesc ba agreed bf abf] [pub; sk_pub z dummy] [] [] [] None None true) with (plain_args [mkDesc ba agreed bf abf] [pub; sk_pub z dummy] []) in H.
  destruct (blind_transaction z rand _ _) as [[x|[m bfs abfs|x]|x] s] eqn:B; try discriminate H.
  apply bindA_sent in H. destruct H as (t1 & E1 & H). apply bindA_sent in H. destruct H as (am & E2 & H). apply bindA_sent in H. destruct H as (hash & E3 & H).
  apply bindA_sent in H. destruct H as (ss & E4 & H). apply bindA_sent in H. destruct H as (T' & E5 & H).
  exists o, d, f, pub, m, bfs, abfs, s, t1, T', am, hash, ss. split; [|exact H]. constructor; assumption || (rewrite EK; assumption) || auto.
Qed.

Section Made.
Context {z : Crypto} {dw : default_wit} {ver : Z} {legacy : bytes -> tx -> Z -> Z -> res (bytes * bool)} {ba : bytes} {rand : nat -> bytes} {dst : addr} {dummy txid : bytes} {n : nat} {contract bf abf : bytes}
  {reclaim : bool} {sign : bytes -> bytes} {finish : bytes -> res bytes} {o d f : txout} {pub : bytes} {k : nat} {bfs abfs : list bytes} {s : St} {t1 T : tx} {am hash ss : bytes}.
Hypothesis MD : Made z dw ver legacy ba rand dst dummy txid n contract bf abf reclaim sign finish o d f pub k bfs abfs s t1 T am hash ss.
Let prev := mkOutPoint txid (Z.of_nat n).
Let t0 := mkTx [plain_input prev] [o; d; f] 0 ver (dw [plain_input prev] [o; d; f]).
Let args := plain_args [mkDesc ba agreed bf abf] [pub; sk_pub z dummy] [].
Let seq := if reclaim then elements_timeout else 0xffffffff.

Lemma made_frame : Frame args t0 (s_tx s).
Proof. assert (F := blind_transaction_frame z rand args t0). unfold args, t0, prev in *. rewrite (md_blind MD) in F. exact F. Qed.
Lemma made_t1 : vin t1 = [mkTxIn prev [] seq issuance_default false] /\ vout t1 = vout (s_tx s) /\ nLockTime t1 = 0 /\ nVersion t1 = ver /\ wit t1 = wit (s_tx s).
Proof.
  assert (F := made_frame). assert (V := plain_vin _ _ _ _ _ F). assert (L := fr_locktime _ _ _ _ _ F). assert (W := fr_version _ _ _ _ _ F).
  assert (S := md_seq MD). unfold seq. destruct reclaim.
  - apply sequence_inv in S. destruct S as (i & ins & E1 & E2 & E3 & E4 & E5 & E6). rewrite E1 in V. injection V as -> ->. rewrite E2, E3, E4, E5, E6, L, W. auto.
  - apply Ok_inj in S. subst t1. rewrite V, L, W. auto.
Qed.
Lemma made_filled : Filled t1 0 ss None T.
Proof. exact (set_filled _ _ _ _ _ (md_set MD)). Qed.
Lemma made_T : vin T = [mkTxIn prev ss seq issuance_default false] /\ vout T = vout (s_tx s) /\ nLockTime T = 0 /\ nVersion T = ver /\ wit T = wit (s_tx s).
Proof.
  destruct made_t1 as (A1 & A2 & A3 & A4 & A5). destruct made_filled as (x & E & B1 & B2 & B3 & B4 & B5 & B6 & _). rewrite A1 in E, B1. injection E as <-. cbn in B1.
  rewrite B1, B2, B3, B4, A2, A3, A4. repeat (split; [reflexivity|]). destruct (wit T), (wit t1), (wit (s_tx s)); cbn in *. congruence.
Qed.
Lemma made_outs : exists o' d', vout T = [o'; d'; f] /\ scriptPubKey o' = scriptPubKey o /\ scriptPubKey d' = scriptPubKey d.
Proof.
  destruct made_T as (_ & A2 & _). rewrite A2. assert (F := made_frame).
  destruct (frame_script _ _ _ 0%nat o F eq_refl) as (o' & E1 & S1 & _). destruct (frame_script _ _ _ 1%nat d F eq_refl) as (d' & E2 & S2 & _). destruct (frame_script _ _ _ 2%nat f F eq_refl) as (f' & E3 & S3 & K).
  specialize (K eq_refl). subst f'. assert (L := fr_nout _ _ _ _ _ F). cbn in L. destruct (vout (s_tx s)) as [|a [|b [|c [|e l]]]]; try discriminate L. cbn in E1, E2, E3. injection E1 as ->. injection E2 as ->. injection E3 as ->.
  exists o', d'. auto.
Qed.
Lemma made_spends : SpendsContract txid n seq dst ba T.
Proof.
  destruct made_T as (A1 & A2 & A3 & A4 & A5). destruct made_outs as (o' & d' & EV & S1 & S2).
  destruct (output_with_Ok _ _ _ _ _ (md_o MD)) as (v & a & sc & nn & -> & _ & _ & EO & _).
  destruct (output_with_Ok _ _ _ _ _ (md_d MD)) as (v2 & a2 & sc2 & nn2 & -> & _ & _ & ED & _).
  destruct (output_with_Ok _ _ _ _ _ (md_f MD)) as (v3 & a3 & sc3 & nn3 & -> & E1 & E2 & E3 & E4).
  cbn [scriptPubKey] in *. apply Ok_inj in ED, E3. constructor.
  - eexists. split; [exact A1|]. cbn. auto.
  - exact A3.
  - exists o', d'. eexists. split; [exact EV|]. rewrite S1, S2. cbn [scriptPubKey nAsset nValue]. split; [exact EO|]. split; [symmetry; exact ED|]. split; [symmetry; exact E3|].
    split; [apply asset_back; [exact (asset_len _ _ E2)|exact E2]|]. apply value_back in E1. exact E1.
Qed.
Lemma made_reads key : SizesOk z -> RandOk z rand -> CodecLaws z -> RewindLaw z -> KeyLaws z -> sk_valid z key = true -> blinding_pubkey dst = sk_pub z key -> Gets z T 0 key ba 100000000.
Proof.
  intros SZ RO CL RL KL SK EK. destruct made_T as (A1 & A2 & A3 & A4 & A5). assert (P := md_pub MD). apply pubkey_of_Ok in P. destruct P as [_ EP].
  refine (nonce_gets z rand _ _ _ t0 k bfs abfs s T 0 key o 100000000 ba _ _ SZ RO CL RL KL (md_blind MD) SK _ eq_refl
    (md_o MD) _ A2 (f_equal vtxoutwit A5)).
  - cbn [nth_error]. congruence.
  - unfold money. lia.
Qed.
(** If the output spent has the amount, a node accepts the transaction. *)
Lemma made_accepted (V : Verifier) order (G : PointGroup order) (M : Meaning z G) (u : txout) key w :
  SizesOk z -> BlindSumLaw z order -> CodecLaws z -> VerifierLaws z V M -> RewindSound z -> ZeroGen z -> FullNull dw -> (forall k, rand k <> zeros 32) ->
  txout_unblind z u key w = Ok (UnblindingSuccess ba agreed bf abf) -> hd x00 (nAsset u) <> x01 -> ba <> zeros 32 -> gen_generate z ba <> None ->
  (forall x, nth_error (vout T) 1 = Some x -> hd x00 (nAsset x) <> x01) -> node_check z V [u] T = true.
Proof.
  intros SZ LAW CL VL RS ZG DN RN UB HU NZ NG CH. assert (F := made_frame). destruct MD as [P1 P2 P3 P4 P5 P6 P7 P8 P9 P10]. fold prev t0 args in P6.
  destruct made_T as (A1 & A2 & A3 & A4 & A5). assert (NW : NullWit (wit t0)) by apply DN. destruct (null_at _ NW) as [NI NO].
  assert (SS : OnlySigned t1 T). { apply (filled_signed legacy (fun x => x) (fun x _ => x) _ _ _ _ _ made_filled). destruct made_t1 as (_ & _ & _ & _ & W1). unfold inwit_at. rewrite W1. fold (inwit_at (s_tx s) 0). rewrite (plain_inwit _ _ _ _ _ 0%nat F), NI. auto. }
  destruct (C78_signing_keeps _ _ 0%nat SS) as (_ & _ & _ & KEEP). { destruct made_t1 as (-> & _). cbn. lia. }
  rewrite KEEP. clear KEEP. assert (SN : node_check z V [u] t1 = node_check z V [u] (s_tx s)). { destruct reclaim; [exact (sequence_node _ _ _ _ _ _ P7)|apply Ok_inj in P7; subst t1; reflexivity]. }
  rewrite SN. clear SN.
  destruct (with_sound z _ _ _ _ _ P2 ltac:(left; unfold agreed, fixed_fee, money; lia) NG) as (O1 & O2 & O3 & O4).
  destruct (with_sound z _ _ _ _ _ P3 ltac:(right; auto) NG) as (D1 & D2 & D3 & D4).
  destruct (with_sound z _ _ _ _ _ P4 ltac:(left; unfold fixed_fee, money; lia) NG) as (F1 & F2 & F3 & F4).
  assert (ND : exists c e, sk_pub z dummy = c :: e) by (destruct (so_pub z SZ _ P1) as (x & _ & [-> | ->]); eauto). destruct ND as (c & e & ND).
  assert (OT : exists pre, output_tasks args = pre ++ [1%nat] /\ ~ In 1%nat pre).
  { unfold args, output_tasks, plain_args. cbn [a_pubkeys length List.seq filter nth]. rewrite ND. destruct pub; [exists []|exists [0%nat]]; (split; [reflexivity|]); cbn; intuition discriminate. }
  destruct OT as (pre & OT & NPre).
  apply (C77_accepted z V order G M [args] [u] [mkDesc ba agreed bf abf] t0 (s_tx s) SZ LAW CL VL RS ZG).
  2: { intros a i inp _ E _ NK. exfalso. apply NK. destruct i as [|[|i]]; try discriminate E. injection E as <-. reflexivity. }
  2: { intros a [<-|[]]. cbn. lia. }
  assert (NIS : forall inp ps, In inp (vin t0) -> iss_field ps inp = []) by (intros inp ps [<-|[]]; destruct ps; reflexivity).
  constructor.
  - left. discriminate.
  - eapply BL_cons; [exact P6|reflexivity|exact (plain_stray _ _ _ _)|rewrite OT; destruct pre; discriminate| |constructor].
    apply (plain_nonzero z rand _ _ _ t0 _ _ _ s pre 1%nat d RN P6 OT); [reflexivity|exact NPre|]. intros EQ. apply (CH d); [rewrite A2; exact EQ|exact D4].
  - constructor.
    + intros x [<-|[<-|[<-|[]]]]; assumption.
    + exact NO.
    + intros inp ps IN. left. exact (NIS inp ps IN).
    + intros i ps. rewrite NI. destruct ps; reflexivity.
    + intros i inp EI [Q|Q]; exfalso; apply Q; exact (NIS inp _ (nth_error_In _ _ EI)).
    + intros i x inp _ EI [Q|Q]; exfalso; apply Q; exact (NIS inp _ (nth_error_In _ _ EI)).
  - reflexivity.
  - constructor; [|constructor]. intros a v [EA _]. exfalso. apply HU. rewrite EA. reflexivity.
  - constructor; [|constructor]. refine (D_unblinded z u key w _ _ UB eq_refl _). intros a [EA _]. exfalso. apply HU. rewrite EA. reflexivity.
  - intros a i x y [<-|[]] EP ED. destruct i as [|[|i]]; try discriminate EP. injection EP as <-. injection ED as <-. exists (mkDesc ba agreed bf abf). split; [reflexivity|]. left. auto.
  - unfold described_once, blinded_inputs. cbn [flat_map args plain_args a_descs]. rewrite app_nil_r. apply Permutation_refl.
  - intros a. cbn. rewrite O2, D2, F2, O3, D3, F3. destruct (bytes_eqb _ _); reflexivity.
Qed.
End Made.

(** The hash that is signed is that of the transaction that is sent. *)
Lemma made_signed z dw ver ba rand dst dummy txid n contract bf abf reclaim sign finish o d f pub k bfs abfs s t1 T am hash ss :
  Made z dw ver (legacy_sighash (c_hash z)) ba rand dst dummy txid n contract bf abf reclaim sign finish o d f pub k bfs abfs s t1 T am hash ss -> SignedHash z contract T hash.
Proof.
  intros MD. exists (Some am). apply (only_hash _ _ _ _ _ 0%nat _ _ _ _ (filled_only _ _ _ _ _ (made_filled MD))); [|left; reflexivity|exact (md_hash MD)].
  destruct (made_t1 MD) as (-> & _). cbn. lia.
Qed.
Lemma bob_inv z dw ver legacy H160 E sha ba rand commit txid contract bkey ck flip dst dummy sign T b :
  bob_claims z dw ver legacy H160 E sha ba rand commit txid contract bkey ck flip dst dummy sign = Sent T b ->
  exists from n u w bf abf o d f pub k bfs abfs s t1 am hash ss, tx_deserialize dw commit = Ok from
  /\ FirstWith (vout from) ([xa9; x14] ++ H160 contract ++ [x87]) n u /\ nth_error (vtxoutwit (wit from)) n = Some w
  /\ txout_unblind z u bkey (ow_range w) = Ok (UnblindingSuccess ba agreed bf abf)
  /\ Made z dw ver legacy ba rand dst dummy txid n contract bf abf false sign (fun sig => reveal_script E sha flip contract sig ck (be_val bkey)) o d f pub k bfs abfs s t1 T am hash ss
  /\ tx_serialize T = Ok b /\ ad_conf dst = true.
Proof.
  unfold bob_claims. intros H. apply bindA_sent in H. destruct H as (from & EF & H). apply find_unblind_inv in H. destruct H as (n & u & w & amount & bf & abf & FW & EW & EU & H).
  destruct (Z.eqb_spec amount agreed) as [->|]; cbn [negb] in H; [|discriminate H]. apply bindA_sent in H. destruct H as ([] & EC & H).
  apply made_inv in H. destruct H as (o & d & f & pub & m & bfs & abfs & s & t1 & T' & am & hash & ss & MD & H). apply bindA_sent in H. destruct H as (b' & SB & H). injection H as <- <-.
  exists from, n, u, w, bf, abf, o, d, f, pub, m, bfs, abfs, s, t1, am, hash, ss. repeat (split; [assumption|]). destruct (ad_conf dst); [reflexivity|discriminate EC].
Qed.
Lemma alice_inv z dw ver legacy H160 ba rand commit txid contract bkey dst dummy sign T b :
  alice_reclaims z dw ver legacy H160 ba rand commit txid contract bkey dst dummy sign = Sent T b ->
  exists from n u w amount bf abf o d f pub k bfs abfs s t1 am hash ss, tx_deserialize dw commit = Ok from
  /\ FirstWith (vout from) ([xa9; x14] ++ H160 contract ++ [x87]) n u /\ nth_error (vtxoutwit (wit from)) n = Some w
  /\ txout_unblind z u bkey (ow_range w) = Ok (UnblindingSuccess ba amount bf abf)
  /\ Made z dw ver legacy ba rand dst dummy txid n contract bf abf true sign (fun sig => reclaim_script contract sig) o d f pub k bfs abfs s t1 T am hash ss
  /\ tx_serialize T = Ok b.
Proof.
  unfold alice_reclaims. intros H. apply bindA_sent in H. destruct H as (from & EF & H). apply find_unblind_inv in H. destruct H as (n & u & w & amount & bf & abf & FW & EW & EU & H).
  apply made_inv in H. destruct H as (o & d & f & pub & m & bfs & abfs & s & t1 & T' & am & hash & ss & MD & H). apply bindA_sent in H. destruct H as (b' & SB & H). injection H as <- <-.
  exists from, n, u, w, amount, bf, abf, o, d, f, pub, m, bfs, abfs, s, t1, am, hash, ss. repeat (split; [assumption|]). assumption.
Qed.
