(** C77: spending what was received. *)
From Coq Require Import Permutation.
From Verif Require Import Base BaseFacts Serialize TxModel MiscModel BlindModel BlindFacts UnblindModel CommModel SpendModel SpecBlind SpecBalance SpecUnblind SpecMulti SpecNode SpecSpend
  ToyCrypto ToyTx ToyUnblind ToyNode PropUnblind PropMulti PropNode PropComm.
Import ListNotations.
Local Open Scope Z_scope.

(** What unblinding reports is the truth about the output, whoever made it. *)
Theorem C77_truthful : forall z u d, CodecLaws z -> RewindSound z -> ZeroGen z ->
  Existing z u -> Described z u d -> SpentAs z u d.
Proof.
  intros z u d CL RS ZG EX D. destruct D as [a v EA EV|key proof r d UB GD PL].
  - destruct (EX a v EA EV) as [NG R]. destruct (gen_generate z a) as [g|] eqn:G; [|congruence]. destruct EA as [EA LA].
    split; [left; repeat split; assumption|]. exists g. split; [apply (cl_zero z CL); exact G|]. left. repeat split; [exact EV| |]; cbn [d_amount]; lia.
  - destruct r as [m|n b ab|asset amount bf abf]; try discriminate GD. injection GD as <-. cbn [d_asset d_abf] in PL.
    unfold txout_unblind in UB. destruct (C50_success_facts _ _ _ _ _ _ _ _ _ _ _ UB) as (_ & R & _).
    destruct (C50_opening _ _ _ _ _ _ _ _ _ _ _ CL RS ZG UB) as (gen & commit & GG & A & PC & PS).
    assert (BIG : max_money < 2 ^ 64) by reflexivity. split.
    + destruct A as [A|(a & EA & G)]; [right; eauto|]. destruct (PL a EA) as [-> ->]. left. destruct EA as [E L]. auto.
    + exists gen. split; [exact GG|]. right. exists commit. cbn [d_amount d_bf]. split; [lia|auto].
Qed.
(** What blind() made for a key is described by the holder of the key, with the amount and asset it had before. *)
Theorem C77_received : forall z rand args t n bfs abfs s j key o v a,
  SizesOk z -> RandOk z rand -> CodecLaws z -> RewindLaw z -> KeyLaws z ->
  blind_transaction z rand args t = (Ret (BSuccess n bfs abfs), s) ->
  n = (length (issuance_tasks args t) + length (output_tasks args))%nat ->
  sk_valid z key = true -> nth_error (a_pubkeys args) j = Some (sk_pub z key) ->
  nth_error (vout t) j = Some o -> ExplicitValue (nValue o) v -> ExplicitAsset (nAsset o) a -> v <= max_money ->
  exists u d, nth_error (vout (s_tx s)) j = Some u /\ Described z u d /\ d_asset d = a /\ d_amount d = v.
Proof.
  intros z rand args t n bfs abfs s j key o v a SZ RO CL RL KL B NE SK EP EO EV EA LE.
  destruct (C48_receiver_unblinds _ _ _ _ _ _ _ _ _ _ _ _ _ SZ RO CL RL KL B NE SK EP EO EV EA) as [(u & bf & abf & EU & _ & _ & S & _ & AC & _)|(pre & _ & EU & _)].
  - specialize (S LE). exists u, (mkDesc a v bf abf). split; [exact EU|]. split; [|split; reflexivity].
    eapply D_unblinded; [exact S|reflexivity|]. intros a' [EA' _]. destruct AC as (p & d & E & _ & [-> | ->]); rewrite E in EA'; discriminate EA'.
  - exists o. eexists. split; [exact EU|]. split; [exact (D_explicit z o a v EA EV)|]. split; reflexivity.
Qed.
(** A transaction that spends outputs so described is accepted by a validating node. *)
Theorem C77_accepted : forall z V order (G : PointGroup order) (M : Meaning z G) calls us descs t t',
  SizesOk z -> BlindSumLaw z order -> CodecLaws z -> VerifierLaws z V M -> RewindSound z -> ZeroGen z ->
  Spending z calls us descs t t' -> TokenKeys calls t -> NoSpareGenerators calls t ->
  node_check z V us t' = true.
Proof.
  intros z V order G M calls us descs t t' SO LAW CL VL RS ZG [H1 H2 H3 H4 H5 H6 H7 H8 H9] TK NS.
  assert (SP : Forall2 (SpentAs z) us descs).
  { clear - H5 H6 CL RS ZG. revert H5. induction H6 as [|u d us ds D _ IH]; intros H5; [constructor|]. inversion H5; subst. constructor; [apply C77_truthful; assumption|auto]. }
  apply (C68_node_accepts z V order G M calls us descs t t' SO LAW CL VL); [|exact TK|exact NS]. constructor; try assumption.
  intros args i u IN EU. assert (EX : exists d, nth_error descs i = Some d /\ SpentAs z u d).
  { clear - SP EU. revert i EU. induction SP as [|u0 d us ds S _ IH]; intros [|i] EU; try discriminate EU; [injection EU as <-; exists d; auto|]. exact (IH i EU). }
  destruct EX as (d & ED & [SA _]). destruct (H7 args i u d IN EU ED) as (g & EG & X). exists g. split; [exact EG|].
  destruct X as [[-> NZ]|(Z0 & c & EC & X)]; [left; auto|]. right. split; [exact Z0|]. exists c. split; [exact EC|].
  destruct X as [X|(a & [EA LA] & X)]; [left; exact X|]. right. unfold to_commitment in X. destruct (gen_generate z a) as [gen|] eqn:GG; [|discriminate X].
  destruct (gen_serialize z gen) as [q|] eqn:GS; [|discriminate X]. injection X as ->. eauto 6.
Qed.

(** * Two transactions over the toy library: the receivers of two outputs of the example of C68 spend them together *)
Definition hop1 : tx := node_after toy_args node_tx.
Definition read_at (j : nat) (key : bytes) : input_desc :=
  match unblind_at hop1 j key with Ok r => match get_descriptor r with Some d => d | None => unknown end | Raise _ => unknown end.
Definition hop_us : list txout := [nth 0 (vout hop1) (toy_out 0 [] []); nth 2 (vout hop1) (toy_out 0 [] [])].
Definition hop_descs : list input_desc := [read_at 0 (b32 901); read_at 2 (b32 903)].
Definition hop_in (n : Z) : txin := mkTxIn (mkOutPoint (repeat x55 32) n) [] 0xffffffff no_issuance false.
Definition hop_tx : tx := mkTx [hop_in 0; hop_in 2] [toy_out 690 asset_A [x51]; toy_out 500 asset_I [x51]; toy_out 10 asset_A []] 0 2 (mkTxWit [] []).
Definition hop_args : blind_args := mkArgs hop_descs [toy_pub 905; toy_pub 906] [] [] [] None None true.
Definition hop2 : tx := node_after hop_args hop_tx.
Lemma described_at j key a v u : nth_error (vout hop1) j = Some u -> is_success a v (unblind_at hop1 j key) = true -> hd x00 (nAsset u) <> x01 ->
  Described toy u (read_at j key) /\ d_asset (read_at j key) = a /\ d_amount (read_at j key) = v.
Proof.
  intros EU S H. unfold read_at. unfold unblind_at in *. rewrite EU in *. destruct (txout_unblind toy u key _) as [r|] eqn:UB; [|discriminate S].
  destruct r as [m|n b ab|a' v' bf abf]; try discriminate S. cbn [is_success] in S. apply andb_prop in S. destruct S as [S1 S2]. apply bytes_eqb_eq in S1. apply Z.eqb_eq in S2.
  cbn [get_descriptor d_asset d_amount]. split; [|auto]. eapply D_unblinded; [exact UB|reflexivity|]. intros x [EX _]. rewrite EX in H. destruct (H eq_refl).
Qed.
Lemma hop_outs : exists u0 u2, hop_us = [u0; u2] /\ nth_error (vout hop1) 0 = Some u0 /\ nth_error (vout hop1) 2 = Some u2
  /\ hd x00 (nAsset u0) <> x01 /\ hd x00 (nAsset u2) <> x01.
Proof.
  assert (E : match vout hop1 with u0 :: _ :: u2 :: _ => negb (Byte.eqb (hd x00 (nAsset u0)) x01) && negb (Byte.eqb (hd x00 (nAsset u2)) x01) | _ => false end = true) by (vm_compute; reflexivity).
  unfold hop_us. destruct (vout hop1) as [|u0 [|u1 [|u2 l]]]; try discriminate E. exists u0, u2. apply andb_prop in E. destruct E as [E0 E2].
  repeat split; intros C; rewrite C in *; discriminate.
Qed.
Lemma hop_read : is_success asset_A 700 (unblind_at hop1 0 (b32 901)) = true /\ is_success asset_I 500 (unblind_at hop1 2 (b32 903)) = true.
Proof. split; vm_compute; reflexivity. Qed.
Lemma hop2_eq : hop2 = s_tx (snd (blind_transaction toy toy_rand hop_args hop_tx)). Proof. unfold hop2, node_after. reflexivity. Qed.
Lemma no_tasks : issuance_tasks hop_args hop_tx = []. Proof. reflexivity. Qed.
Lemma hop_outwit j : outwit_at hop_tx j = mkOutWit [] []. Proof. unfold outwit_at. destruct j; reflexivity. Qed.
Lemma hop_inwit i ps : iss_proof ps (inwit_at hop_tx i) = []. Proof. unfold inwit_at. destruct i, ps; reflexivity. Qed.
Lemma hop_inputs i inp : nth_error (vin hop_tx) i = Some inp -> assetIssuance inp = no_issuance.
Proof. destruct i as [|[|i]]; intros E; [injection E as <-; reflexivity|injection E as <-; reflexivity|destruct i; discriminate E]. Qed.
Lemma hop_unblinded : Unblinded toy [hop_args] hop_us hop_tx.
Proof.
  assert (IN : forall inp, In inp (vin hop_tx) -> assetIssuance inp = no_issuance) by (intros inp I; destruct (In_nth_error _ _ I) as [i E]; exact (hop_inputs i inp E)).
  constructor.
  - intros o I. apply spendable_ok. assert (F : forallb spendable (vout hop_tx) = true) by (vm_compute; reflexivity). exact (proj1 (forallb_forall _ _) F o I).
  - apply hop_outwit.
  - intros inp ps I. left. unfold iss_field. rewrite (IN inp I). destruct ps; reflexivity.
  - apply hop_inwit.
  - intros i inp E [X|X]; exfalso; apply X; unfold iss_field; rewrite (hop_inputs i inp E); reflexivity.
  - intros i u inp _ E [X|X]; exfalso; apply X; unfold iss_field; rewrite (hop_inputs i inp E); reflexivity.
Qed.
Lemma Some_inj {A} (x y : A) : Some x = Some y -> x = y. Proof. congruence. Qed.
Example C77_ex : SizesOk toy /\ BlindSumLaw toy toy_order /\ CodecLaws toy /\ VerifierLaws toy toy_verifier toy_meaning /\ RewindSound toy /\ ZeroGen toy
  /\ Spending toy [hop_args] hop_us hop_descs hop_tx hop2 /\ TokenKeys [hop_args] hop_tx /\ NoSpareGenerators [hop_args] hop_tx
  /\ node_check toy toy_verifier hop_us hop_tx = false.
Proof.
  split; [exact toy_sizes|]. split; [exact toy_blind_sum|]. split; [exact toy_codec|]. split; [exact toy_verifies|]. split; [exact toy_sound|]. split; [exact toy_zerogen|].
  destruct hop_outs as (u0 & u2 & EU & E0 & E2 & P0 & P2). destruct hop_read as [R0 R2].
  destruct (described_at _ _ _ _ _ E0 R0 P0) as (D0 & A0 & V0). destruct (described_at _ _ _ _ _ E2 R2 P2) as (D2 & A2 & V2).
  split; [|split; [|split]].
  - constructor.
    + left. discriminate.
    + apply (done_call 2 hop_args hop_tx _ eq_refl); [vm_compute; reflexivity|reflexivity| |discriminate|].
      { intros (i & ps & inp & IN & _). rewrite no_tasks in IN. destruct IN. }
      rewrite <- hop2_eq. apply BL_nil.
    + exact hop_unblinded.
    + reflexivity.
    + rewrite EU. constructor; [|constructor; [|constructor]]; intros a v [EA _]; [rewrite EA in P0; destruct (P0 eq_refl)|rewrite EA in P2; destruct (P2 eq_refl)].
    + rewrite EU. unfold hop_descs. constructor; [exact D0|constructor; [exact D2|constructor]].
    + intros args i u d IN _ ED. each_in IN. exists d. split; [exact ED|]. left. split; [reflexivity|].
      unfold hop_descs in ED. destruct i as [|[|i]]; cbn [nth_error] in ED; [apply Some_inj in ED; rewrite <- ED, A0; discriminate|apply Some_inj in ED; rewrite <- ED, A2; discriminate|destruct i; discriminate ED].
    + unfold described_once, blinded_inputs. cbn [flat_map hop_args a_descs]. rewrite app_nil_r. apply Permutation_refl.
    + intros a. unfold hop_descs. cbn [map]. rewrite A0, V0, A2, V2. unfold issued, issued_at. change (length (vin hop_tx)) with 2%nat.
      cbn [issuance_slots flat_map seq fst snd nth_error vin hop_tx hop_in iss_field assetIssuance no_issuance is_amount is_keys nothing app].
      unfold amount_of. cbn [vout hop_tx toy_out map app nAsset nValue tl filter fst snd].
      destruct (bytes_eqb asset_A a), (bytes_eqb asset_I a); vm_compute; reflexivity.
  - intros args i inp _ E _ KK. exfalso. apply KK. rewrite (hop_inputs i inp E). reflexivity.
  - intros args IN. each_in IN. cbn. lia.
  - vm_compute. reflexivity.
Qed.
(** C77_received and C77_truthful on the same outputs. *)
Example C77_ex2 : exists u, nth_error (vout hop1) 0 = Some u /\ Existing toy u /\ Described toy u (read_at 0 (b32 901)) /\ d_amount (read_at 0 (b32 901)) = 700.
Proof.
  destruct hop_outs as (u0 & u2 & _ & E0 & _ & P0 & _). destruct hop_read as [R0 _]. destruct (described_at _ _ _ _ _ E0 R0 P0) as (D0 & _ & V0).
  exists u0. split; [exact E0|]. split; [|auto]. intros a v [EA _]. rewrite EA in P0. destruct (P0 eq_refl).
Qed.

Print Assumptions C77_truthful.
Print Assumptions C77_received.
Print Assumptions C77_accepted.
