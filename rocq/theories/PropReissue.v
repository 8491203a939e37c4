(** C82: from a first issuance to a reissuance. *)
From Coq Require Import Permutation.
From Verif Require Import Base BaseFacts Serialize TxModel MiscModel BlindModel BlindFacts BlindSteps IssuanceModel UnblindModel CommModel SpendModel SpecBlind SpecBalance SpecUnblind SpecMulti SpecNode SpecSpend SpecReissue
  ToyCrypto ToyTx ToyUnblind ToyNode PropBlind PropUnblind PropMulti PropNode PropComm PropSpend.
Import ListNotations.
Local Open Scope Z_scope.

Lemma token_id z e conf t : calculate_reissuance_token (c_mid z) e conf = Ok t -> t = c_mid z (e ++ tag32 (if conf then x02 else x01)).
Proof.
  unfold calculate_reissuance_token. destruct (negb _); [discriminate|]. unfold uint256_new. destruct le32_tag as (_ & T1 & T2).
  destruct (_ =? _); [|discriminate]. intros E. apply Ok_inj in E. subst t. destruct conf; rewrite ?T1, ?T2; reflexivity.
Qed.
Lemma nonce_entropy z inp : is_nonce (assetIssuance inp) <> zeros 32 -> node_entropy z inp = is_entropy (assetIssuance inp).
Proof.
  intros N. unfold node_entropy. destruct (bytes_eqb _ _) eqn:E; [|reflexivity]. apply bytes_eqb_eq in E. contradiction.
Qed.

(** The check a node makes of a reissuing input passes, when the input is built from what unblinding the token output tells. *)
Theorem C82_check : forall z u d inp conf, CodecLaws z -> RewindSound z -> ZeroGen z ->
  Existing z u -> Described z u d -> Reissues z conf inp d ->
  reissue_ok z u inp (node_id z true conf inp) = true.
Proof.
  intros z u d inp conf CL RS ZG EX D (N & NZ & K & T). destruct (C77_truthful z u d CL RS ZG EX D) as [A _].
  apply token_id in T. unfold reissue_ok, node_id. rewrite nonce_entropy by congruence. rewrite N, K, <- T. cbn [nothing andb].
  destruct A as [(_ & _ & A)|(g & G & S)]; [congruence|]. rewrite G, S, (proj2 (bytes_eqb_eq _ _) eq_refl). apply orb_true_r.
Qed.
Print Assumptions C82_check.

(** A transaction with such inputs, balanced and blinded by its parties, is accepted by a node. *)
Theorem C82_accepted : forall z V order (G : PointGroup order) (M : Meaning z G) calls us descs t t',
  SizesOk z -> BlindSumLaw z order -> CodecLaws z -> VerifierLaws z V M -> RewindSound z -> ZeroGen z ->
  Reissuing z calls us descs t t' -> TokenKeys calls t -> NoSpareGenerators calls t ->
  node_check z V us t' = true.
Proof.
  intros z V order G M calls us descs t t' SO LAW CL VL RS ZG [H1 H2 [P1 P2 P3 P4 P5] H4 H5 H6 H7 H8 H9 H10] TK NS.
  apply (C77_accepted z V order G M calls us descs t t' SO LAW CL VL RS ZG); [|exact TK|exact NS]. constructor; try assumption; [left; exact H1|]. constructor; try assumption.
  intros i u inp EU EI IS. assert (EX : exists d, nth_error descs i = Some d /\ Described z u d /\ Existing z u).
  { clear - H6 H7 EU. revert i H6 EU. induction H7 as [|u0 d us ds D _ IH]; intros [|i] F EU; try discriminate EU; inversion F; subst.
    - injection EU as <-. exists d. auto.
    - destruct (IH i H2 EU) as (d' & X). exists d'. auto. }
  destruct EX as (d & ED & DS & EX). destruct (H4 i inp d EI ED IS) as [N|R].
  - unfold reissue_ok. rewrite N, (proj2 (bytes_eqb_eq _ _) eq_refl). reflexivity.
  - exact (C82_check z u d inp _ CL RS ZG EX DS R).
Qed.
Print Assumptions C82_accepted.

(** From the first issuance: the holder of the key to which a token output was blinded can build the input, and it issues the
    same asset. *)
Theorem C82_from_issuance : forall z rand args t n bfs abfs s i inp e conf token j key o v,
  SizesOk z -> RandOk z rand -> CodecLaws z -> RewindLaw z -> KeyLaws z -> RewindSound z -> ZeroGen z ->
  blind_transaction z rand args t = (Ret (BSuccess n bfs abfs), s) ->
  n = (length (issuance_tasks args t) + length (output_tasks args))%nat ->
  (* input [i] makes a first issuance; entropy and token as computed by the library *)
  nth_error (vin t) i = Some inp -> is_nonce (assetIssuance inp) = zeros 32 ->
  generate_asset_entropy (c_hash z) (c_mid z) (prevout inp) (is_entropy (assetIssuance inp)) = Ok e ->
  calculate_reissuance_token (c_mid z) e conf = Ok token ->
  (* output [j] sends tokens to the key *)
  sk_valid z key = true -> nth_error (a_pubkeys args) j = Some (sk_pub z key) ->
  nth_error (vout t) j = Some o -> ExplicitValue (nValue o) v -> ExplicitAsset (nAsset o) token -> 0 < v <= max_money -> gen_generate z token <> None ->
  exists u d, nth_error (vout (s_tx s)) j = Some u /\ Described z u d /\ d_asset d = token /\ d_amount d = v
  /\ (d_abf d <> zeros 32 -> forall inp', is_nonce (assetIssuance inp') = d_abf d -> is_entropy (assetIssuance inp') = e -> is_keys (assetIssuance inp') = [] ->
        reissue_ok z u inp' (node_id z true conf inp') = true /\ forall c, node_id z false c inp' = node_id z false c inp).
Proof.
  intros z rand args t n bfs abfs s i inp e conf token j key o v SZ RO CL RL KL RS ZG B NE EI N0 GE CT SK EP EO EV EA LE NG.
  destruct (C77_received z rand args t n bfs abfs s j key o v token SZ RO CL RL KL B NE SK EP EO EV EA (proj2 LE)) as (u & d & EU & D & DA & DV).
  exists u, d. split; [exact EU|]. split; [exact D|]. split; [exact DA|]. split; [exact DV|].
  intros NZ inp' N E K. assert (NN : is_nonce (assetIssuance inp') <> zeros 32) by congruence. split.
  - destruct D as [a v' EA' EV'|ky proof r d UB GD PL]; [contradiction NZ; reflexivity|].
    apply (C82_check z u d inp' conf CL RS ZG); [|exact (D_unblinded z u ky proof r d UB GD PL)|].
    + intros a v' EA' _. destruct (PL a EA') as [_ X]. contradiction.
    + split; [exact N|]. split; [exact NZ|]. split; [exact K|]. rewrite E, DA. exact CT.
  - intros c. unfold node_id. rewrite (nonce_entropy z inp' NN), E. unfold node_entropy. rewrite N0, (proj2 (bytes_eqb_eq _ _) eq_refl).
    f_equal. f_equal. unfold generate_asset_entropy in GE. destruct (rassert _ _); [|discriminate GE]. cbn [rbind] in GE.
    unfold ser_outpoint in GE. destruct (negb _); [discriminate GE|]. destruct (pack_le 4 _) as [q|] eqn:P; [|discriminate GE]. cbn [rbind] in GE.
    unfold uint256_new in GE. destruct (_ =? _); [|discriminate GE]. apply Ok_inj in GE. rewrite <- GE. do 4 f_equal.
    unfold pack_le in P. destruct (_ && _); [|discriminate P]. apply Ok_inj in P. symmetry. exact P.
Qed.
Print Assumptions C82_from_issuance.

(** Tokens held in an unblinded output reissue nothing: no nonce passes the check. *)
Theorem C82_plain_token : forall z u inp a conf, SizesOk z -> ExplicitAsset (nAsset u) a -> is_nonce (assetIssuance inp) <> zeros 32 ->
  reissue_ok z u inp (node_id z true conf inp) = false.
Proof.
  intros z u inp a conf SZ [EA _] N. unfold reissue_ok. destruct (bytes_eqb (is_nonce (assetIssuance inp)) (zeros 32)) eqn:E; [apply bytes_eqb_eq in E; contradiction|].
  destruct (nothing _); [|reflexivity]. cbn [orb andb]. destruct (gen_generate_blinded _ _ _) as [g|]; [|reflexivity].
  destruct (gen_serialize z g) as [s|] eqn:S; [|reflexivity]. rewrite EA. destruct (so_genser z SZ g s S) as (d & _ & [-> | ->]); reflexivity.
Qed.
Print Assumptions C82_plain_token.

(** The token output of [hop1] is spent to reissue 250 of the asset, with some of the asset A for the fee. *)
Definition tok_abf : bytes := Eval vm_compute in d_abf (read_at 3 (b32 904)).
Definition re_in : txin := mkTxIn (mkOutPoint (repeat x55 32) 3) [] 0xffffffff (mkIssuance tok_abf ent1 (expl 250) []) false.
Definition re_us : list txout := [nth 3 (vout hop1) (toy_out 0 [] []); nth 0 (vout hop1) (toy_out 0 [] [])].
Definition re_descs : list input_desc := [read_at 3 (b32 904); read_at 0 (b32 901)].
Definition re_tx : tx := with_wit [re_in; hop_in 0] [toy_out 3 asset_T [x51]; toy_out 250 asset_I [x51]; toy_out 690 asset_A [x51]; toy_out 10 asset_A []].
Definition re_args : blind_args := mkArgs re_descs [toy_pub 905; toy_pub 906; toy_pub 907] [Some (b32 5003)] [] [] None None true.
Definition re_done : tx := node_after re_args re_tx.
Lemma re_done_eq : re_done = s_tx (snd (blind_transaction toy toy_rand re_args re_tx)). Proof. unfold re_done, node_after. reflexivity. Qed.
Lemma re_outs : exists u3 u0, re_us = [u3; u0] /\ nth_error (vout hop1) 3 = Some u3 /\ nth_error (vout hop1) 0 = Some u0
  /\ hd x00 (nAsset u3) <> x01 /\ hd x00 (nAsset u0) <> x01.
Proof.
  assert (E : match vout hop1 with u0 :: _ :: _ :: u3 :: _ => negb (Byte.eqb (hd x00 (nAsset u3)) x01) && negb (Byte.eqb (hd x00 (nAsset u0)) x01) | _ => false end = true) by (vm_compute; reflexivity).
  unfold re_us. destruct (vout hop1) as [|u0 [|u1 [|u2 [|u3 l]]]]; try discriminate E. exists u3, u0. apply andb_prop in E. destruct E as [E0 E2].
  repeat split; intros C; rewrite C in *; discriminate.
Qed.
Lemma re_read : is_success asset_T 3 (unblind_at hop1 3 (b32 904)) = true /\ is_success asset_A 700 (unblind_at hop1 0 (b32 901)) = true.
Proof. split; vm_compute; reflexivity. Qed.
Lemma re_reissues : Reissues toy true re_in (read_at 3 (b32 904)).
Proof.
  assert (E : d_abf (read_at 3 (b32 904)) = tok_abf) by (vm_compute; reflexivity).
  assert (T : calculate_reissuance_token (c_mid toy) ent1 true = Ok (d_asset (read_at 3 (b32 904)))) by (vm_compute; reflexivity).
  split; [symmetry; exact E|]. split; [rewrite E; discriminate|]. split; [reflexivity|exact T].
Qed.
Lemma re_kind : amount_blinded [re_args] 0 re_in = true. Proof. reflexivity. Qed.
Lemma re_inputs i inp : nth_error (vin re_tx) i = Some inp -> (i = 0%nat /\ inp = re_in) \/ (i = 1%nat /\ inp = hop_in 0).
Proof. destruct i as [|[|i]]; intros E; [left; apply Some_inj in E; auto|right; apply Some_inj in E; auto|destruct i; discriminate E]. Qed.
Lemma re_plain : Plain toy re_tx.
Proof.
  constructor.
  - intros o I. apply spendable_ok. assert (F : forallb spendable (vout re_tx) = true) by (vm_compute; reflexivity). exact (proj1 (forallb_forall _ _) F o I).
  - intros j. apply no_outwit.
  - intros inp ps I. destruct (In_nth_error _ _ I) as [i E]. destruct (re_inputs i inp E) as [[_ ->]|[_ ->]]; [|left; destruct ps; reflexivity].
    destruct ps; [left; reflexivity|]. right. exists 250. split; [|unfold money; lia]. exists (be_bytes 8 250). repeat split; vm_compute; reflexivity.
  - intros i ps. apply no_inwit.
  - intros i inp E _. destruct (re_inputs i inp E) as [[-> _]|[-> _]]; cbn; lia.
Qed.
Example C82_ex : SizesOk toy /\ BlindSumLaw toy toy_order /\ CodecLaws toy /\ VerifierLaws toy toy_verifier toy_meaning /\ RewindSound toy /\ ZeroGen toy
  /\ Reissuing toy [re_args] re_us re_descs re_tx re_done /\ TokenKeys [re_args] re_tx /\ NoSpareGenerators [re_args] re_tx
  /\ node_check toy toy_verifier re_us re_tx = false.
Proof.
  split; [exact toy_sizes|]. split; [exact toy_blind_sum|]. split; [exact toy_codec|]. split; [exact toy_verifies|]. split; [exact toy_sound|]. split; [exact toy_zerogen|].
  destruct re_outs as (u3 & u0 & EU & E3 & E0 & P3 & P0). destruct re_read as [R3 R0].
  destruct (described_at _ _ _ _ _ E3 R3 P3) as (D3 & A3 & V3). destruct (described_at _ _ _ _ _ E0 R0 P0) as (D0 & A0 & V0).
  split; [|split; [|split]].
  - constructor.
    + discriminate.
    + apply (done_call 4 re_args re_tx _ eq_refl); [vm_compute; reflexivity|reflexivity| |discriminate|].
      { intros (i & ps & inp & IN & EI & X & _). destruct IN as [IN|[]]. injection IN as <- <-. apply Some_inj in EI. rewrite <- EI in X. discriminate X. }
      rewrite <- re_done_eq. apply BL_nil.
    + exact re_plain.
    + intros i inp d EI ED IS. destruct (re_inputs i inp EI) as [[-> ->]|[-> ->]]; [|destruct IS as [X|X]; contradiction X; reflexivity].
      right. rewrite re_kind. unfold re_descs in ED. cbn [nth_error] in ED. apply Some_inj in ED. rewrite <- ED. exact re_reissues.
    + reflexivity.
    + rewrite EU. constructor; [|constructor; [|constructor]]; intros a v [EA _]; [rewrite EA in P3; destruct (P3 eq_refl)|rewrite EA in P0; destruct (P0 eq_refl)].
    + rewrite EU. unfold re_descs. constructor; [exact D3|constructor; [exact D0|constructor]].
    + intros args i u d IN _ ED. each_in IN. exists d. split; [exact ED|]. left. split; [reflexivity|].
      unfold re_descs in ED. destruct i as [|[|i]]; cbn [nth_error] in ED; [apply Some_inj in ED; rewrite <- ED, A3; discriminate|apply Some_inj in ED; rewrite <- ED, A0; discriminate|destruct i; discriminate ED].
    + unfold described_once, blinded_inputs. cbn [flat_map re_args a_descs]. rewrite app_nil_r. apply Permutation_refl.
    + intros a. unfold re_descs. cbn [map]. rewrite A3, V3, A0, V0. unfold issued, issued_at. change (length (vin re_tx)) with 2%nat.
      cbn [issuance_slots flat_map seq fst snd nth_error vin re_tx with_wit app]. rewrite re_kind.
      assert (EI : node_id toy false true re_in = asset_I) by (vm_compute; reflexivity).
      cbn [iss_field assetIssuance re_in hop_in no_issuance is_amount is_keys nothing app]. change (nothing (expl 250)) with false. cbv iota. rewrite EI.
      unfold amount_of. cbn [vout re_tx with_wit toy_out map app nAsset nValue tl filter fst snd].
      destruct (bytes_eqb asset_A a), (bytes_eqb asset_I a), (bytes_eqb asset_T a); vm_compute; reflexivity.
  - intros args i inp _ E _ KK. exfalso. apply KK. destruct (re_inputs i inp E) as [[_ ->]|[_ ->]]; reflexivity.
  - intros args IN. each_in IN. cbn. lia.
  - vm_compute. reflexivity.
Qed.
Example C82_ex2 : node_id toy false true re_in = node_id toy false true (issue 500 (expl 3))
  /\ generate_asset_entropy (c_hash toy) (c_mid toy) op1 contract = Ok ent1
  /\ reissue_ok toy (nth 3 (vout hop1) (toy_out 0 [] [])) re_in (node_id toy true true re_in) = true
  /\ reissue_ok toy (toy_out 3 asset_T [x51]) re_in (node_id toy true true re_in) = false.
Proof. split; [|split; [|split]]; vm_compute; reflexivity. Qed.

(** The kind of the token is fixed by the first issuance. Tokens of a confidential issuance, the reissued amount left
    unblinded: blind() blinds every output asked for and succeeds, the sums balance, and a node rejects the transaction. *)
Definition re_open : blind_args := mkArgs re_descs [toy_pub 905; toy_pub 906; toy_pub 907] [] [] [] None None true.
Theorem C82_kind_refuted : exists args us descs t t' inp d,
  Blindings toy [args] t t' /\ output_tasks args <> [] /\ Plain toy t /\ Forall2 (Described toy) us descs /\ a_descs args = descs
  /\ nth_error (vin t) 0 = Some inp /\ nth_error descs 0 = Some d /\ Reissues toy true inp d /\ amount_blinded [args] 0 inp = false
  /\ Conserves toy [args] descs t /\ node_check toy toy_verifier us t' = false.
Proof.
  destruct re_outs as (u3 & u0 & EU & E3 & E0 & P3 & P0). destruct re_read as [R3 R0].
  destruct (described_at _ _ _ _ _ E3 R3 P3) as (D3 & A3 & V3). destruct (described_at _ _ _ _ _ E0 R0 P0) as (D0 & A0 & V0).
  exists re_open, re_us, re_descs, re_tx, (node_after re_open re_tx), re_in, (read_at 3 (b32 904)).
  split; [|split; [discriminate|split; [exact re_plain|split; [rewrite EU; unfold re_descs; constructor; [exact D3|constructor; [exact D0|constructor]]|split; [reflexivity|split; [reflexivity|split; [reflexivity|split; [exact re_reissues|split; [reflexivity|split]]]]]]]]].
  - apply (done_call 3 re_open re_tx _ eq_refl); [vm_compute; reflexivity|reflexivity| |discriminate|].
    { intros (i & ps & inp & [] & _). }
    rewrite <- node_after_eq. apply BL_nil.
  - intros a. unfold re_descs. cbn [map]. rewrite A3, V3, A0, V0. unfold issued, issued_at. change (length (vin re_tx)) with 2%nat.
    cbn [issuance_slots flat_map seq fst snd nth_error vin re_tx with_wit app].
    assert (EI : node_id toy false (amount_blinded [re_open] 0 re_in) re_in = asset_I) by (vm_compute; reflexivity).
    cbn [iss_field assetIssuance re_in hop_in no_issuance is_amount is_keys nothing app]. change (nothing (expl 250)) with false. cbv iota. rewrite EI.
    unfold amount_of. cbn [vout re_tx with_wit toy_out map app nAsset nValue tl filter fst snd].
    destruct (bytes_eqb asset_A a), (bytes_eqb asset_I a), (bytes_eqb asset_T a); vm_compute; reflexivity.
  - vm_compute. reflexivity.
Qed.
Print Assumptions C82_kind_refuted.
