(** A validating node accepts what the parties leave: property C68. *)
From Verif Require Import Base BaseFacts TxModel BlindModel SpecBlind SpecBalance BlindBalance SpecUnblind SpecMulti SpecNode NodeMain ToyCrypto ToyTx ToyUnblind ToyNode PropBlind PropMulti.
From Coq Require Import Lia Permutation.
Local Open Scope Z_scope.

(** C68. One party, or several in turn, blind a balanced transaction. If the library's proofs verify, a node checking
    the amounts accepts the result: balance, every range proof, every surjection proof. *)
Theorem C68_node_accepts : forall z V order (G : PointGroup order) (M : Meaning z G) calls us real t t',
  SizesOk z -> BlindSumLaw z order -> CodecLaws z -> VerifierLaws z V M ->
  Ready z calls us real t t' -> TokenKeys calls t -> NoSpareGenerators calls t ->
  node_check z V us t' = true.
Proof. intros z V order G M calls us real t t' SO LAW CL VL [] TK NS. eapply node_accepts; eassumption. Qed.

(** * Examples over the toy library *)
Definition with_wit (ins : list txin) (outs : list txout) : tx := mkTx ins outs 0 2 (mkTxWit (repeat inwit_null 2) (repeat outwit_null 5)).
Ltac each_in H := cbn [In vin with_wit] in H; repeat match type of H with _ \/ _ => destruct H as [H|H] | False => destruct H end; try subst.
Lemma no_outwit ins outs j : outwit_at (with_wit ins outs) j = mkOutWit [] [].
Proof. unfold outwit_at. do 5 (destruct j as [|j]; [reflexivity|]). destruct j; reflexivity. Qed.
Lemma no_inwit ins outs i ps : iss_proof ps (inwit_at (with_wit ins outs) i) = [].
Proof. unfold inwit_at. do 2 (destruct i as [|i]; [destruct ps; reflexivity|]). destruct i, ps; reflexivity. Qed.
Definition spendable (o : txout) : bool :=
  match nAsset o, nValue o with
  | x01 :: a, x01 :: v => (length a =? 32)%nat && (length v =? 8)%nat && (0 <? be_val v) && (be_val v <=? money) && negb (tmod (be_val a) =? 0)
  | _, _ => false
  end.
Lemma spendable_ok o : spendable o = true -> exists a g, ExplicitAsset (nAsset o) a /\ gen_generate toy a = Some g
    /\ (Amount (nValue o) \/ (nValue o = x01 :: zeros 8 /\ unspendable (scriptPubKey o) = true)).
Proof.
  unfold spendable. destruct (nAsset o) as [|[] a] eqn:EA; try discriminate. destruct (nValue o) as [|[] v]; try discriminate. intros H.
  repeat (apply andb_prop in H; destruct H as [H ?]). apply Nat.eqb_eq in H. apply Nat.eqb_eq in H3. apply Z.ltb_lt in H2. apply Z.leb_le in H1. apply negb_true_iff in H0.
  exists a. eexists. split; [split; [reflexivity|exact H]|]. split.
  - cbn [toy gen_generate]. unfold toy_point. rewrite H0. reflexivity.
  - left. exists (be_val v). split; [exists v; auto|lia].
Qed.
Definition issue (n : Z) (keys : bytes) : txin := mkTxIn op1 [] 0xffffffff (mkIssuance (zeros 32) contract (expl n) keys) false.
Lemma unblinded2 calls us n keys outs : 0 < n <= 1000000 -> keys = [] \/ (exists k, keys = expl k /\ 0 < k <= 1000000) -> forallb spendable outs = true -> Unblinded toy calls us (with_wit [toy_in0; issue n keys] outs).
Proof.
  intros N K F.
  assert (AM : forall k, 0 < k <= 1000000 -> Amount (expl k)).
  { intros k R. exists k. split; [|unfold money; lia]. exists (be_bytes 8 k). split; [reflexivity|]. split; [apply be_bytes_length|]. rewrite be_val_be_bytes. apply Z.mod_small. change (256 ^ Z.of_nat 8) with (2 ^ 64). lia. }
  constructor.
  - intros o IN. apply spendable_ok. exact (proj1 (forallb_forall _ _) F o IN).
  - apply no_outwit.
  - intros inp ps IN. each_in IN; [left; destruct ps; reflexivity|]. destruct ps; cbn [iss_field issue assetIssuance is_keys is_amount]; [|right; apply AM; exact N].
    destruct K as [K|(k & -> & R)]; [left; exact K|right; apply AM; exact R].
  - apply no_inwit.
  - intros i inp E _. assert (i < 2)%nat by (change 2%nat with (length [toy_in0; issue n keys]); apply nth_error_Some; cbn [with_wit vin] in E; congruence). cbn [with_wit wit vtxinwit]. rewrite repeat_length. assumption.
  - intros i u inp _ E NN. cbn [with_wit vin] in E. destruct i as [|[|i]]; cbn [nth_error] in E; [| |destruct i; discriminate E].
    + assert (inp = toy_in0) by congruence. subst inp. destruct NN as [X|X]; exfalso; apply X; reflexivity.
    + assert (inp = issue n keys) by congruence. subst inp. unfold reissue_ok. cbn [issue assetIssuance is_nonce]. rewrite (proj2 (bytes_eqb_eq _ _) eq_refl). reflexivity.
Qed.

(** One party: blinds two outputs of A, the issued asset and the tokens. *)
Definition node_tx : tx := with_wit [toy_in0; issue 500 (expl 3)]
  [toy_out 700 asset_A [x51]; toy_out 490 asset_A [x51; x51]; toy_out 500 asset_I [x51]; toy_out 3 asset_T [x51]; toy_out 10 asset_A []].
Definition node_us : list txout := [conf_utxo (nth 0 toy_descs unknown); plain_utxo (nth 1 toy_descs unknown)].
Definition node_after (args : blind_args) (t : tx) : tx := s_tx (snd (blind_transaction toy toy_rand args t)).
Lemma node_after_eq args t : node_after args t = s_tx (snd (blind_transaction toy toy_rand args t)). Proof. unfold node_after. reflexivity. Qed.
Lemma toy_descs_spent : Forall2 (SpentAs toy) node_us toy_descs.
Proof.
  constructor; [apply conf_spent; [vm_compute; discriminate|cbn; lia]|]. constructor; [|constructor].
  apply plain_spent; [vm_compute; discriminate|reflexivity|unfold money; cbn; lia|reflexivity|reflexivity].
Qed.
Lemma toy_descs_known args i u : a_descs args = toy_descs -> nth_error node_us i = Some u -> Knows toy args i u.
Proof.
  intros D E. unfold Knows. rewrite D. destruct i as [|[|i]]; cbn [node_us nth_error] in E; [| |destruct i; discriminate E]; injection E as <-.
  - exists (nth 0 toy_descs unknown). split; [reflexivity|]. left. split; [discriminate|]. apply conf_asset. vm_compute. discriminate.
  - exists (nth 1 toy_descs unknown). split; [reflexivity|]. left. split; [discriminate|]. left. repeat split.
Qed.
Lemma node_conserves args : nth 1 (a_asset_keys args) None <> None -> Conserves toy [args] toy_descs node_tx.
Proof.
  intros K a. unfold issued, issued_at, amount_blinded. change (length (vin node_tx)) with 2%nat. cbn [issuance_slots flat_map seq fst snd nth_error vin node_tx with_wit existsb app].
  destruct (nth 1 (a_asset_keys args) None) as [k|]; [|congruence].
  assert (EI : node_id toy false true (issue 500 (expl 3)) = asset_I) by (vm_compute; reflexivity). assert (ET : node_id toy true true (issue 500 (expl 3)) = asset_T) by (vm_compute; reflexivity).
  cbn [iss_field assetIssuance issue toy_in0 no_issuance is_amount is_keys nothing negb andb orb]. change (nothing (expl 500)) with false. change (nothing (expl 3)) with false. cbn [negb andb orb app]. rewrite EI, ET. clear.
  unfold amount_of. cbn [toy_descs map app d_asset d_amount fst snd vout node_tx with_wit toy_out nAsset nValue tl filter].
  destruct (bytes_eqb asset_A a), (bytes_eqb asset_I a), (bytes_eqb asset_T a); vm_compute; reflexivity.
Qed.
Lemma node_ready args n : a_descs args = toy_descs -> nth 1 (a_asset_keys args) None <> None ->
  done n (output_tasks args) (blind_transaction toy toy_rand args node_tx) = true -> a_strict args = true -> ~ stray_key args node_tx -> output_tasks args <> [] ->
  Ready toy [args] node_us toy_descs node_tx (node_after args node_tx).
Proof.
  intros D K DN ST NS NO. constructor.
  - left. discriminate.
  - apply (done_call n args node_tx _ eq_refl DN ST NS NO). rewrite <- node_after_eq. apply BL_nil.
  - apply unblinded2; [lia|right; exists 3; split; [reflexivity|lia]|vm_compute; reflexivity].
  - reflexivity.
  - exact toy_descs_spent.
  - intros args0 i u IN. each_in IN. apply toy_descs_known. exact D.
  - unfold described_once. cbn [flat_map]. rewrite app_nil_r. unfold blinded_inputs. rewrite D. apply Permutation_refl.
  - apply node_conserves. exact K.
Qed.
Lemma not_stray args n keys outs : (forall l, In l [a_asset_keys args; a_token_keys args] -> nth 0 l None = None) -> ~ stray_key args (with_wit [toy_in0; issue n keys] outs).
Proof.
  intros K (i & ps & inp & IN & EI & X & _). apply filter_In in IN. destruct IN as [_ IN]. unfold wants_issuance in IN. cbn [fst snd] in IN. destruct i as [|[|i]].
  - rewrite (K (if ps then a_token_keys args else a_asset_keys args)) in IN by (destruct ps; [right|]; left; reflexivity). discriminate IN.
  - cbn [with_wit vin nth_error] in EI. assert (inp = issue n keys) by congruence. subst inp. discriminate X.
  - cbn [with_wit vin nth_error] in EI. destruct i; discriminate EI.
Qed.
Example C68_ex : SizesOk toy /\ BlindSumLaw toy toy_order /\ CodecLaws toy /\ VerifierLaws toy toy_verifier toy_meaning
  /\ Ready toy [toy_args] node_us toy_descs node_tx (node_after toy_args node_tx) /\ TokenKeys [toy_args] node_tx /\ NoSpareGenerators [toy_args] node_tx
  /\ length (output_tasks toy_args) = 4%nat /\ length (issuance_tasks toy_args node_tx) = 2%nat
  (* the toy verifier can say no: the untouched transaction with its token output changed *)
  /\ node_check toy toy_verifier node_us (with_wit (vin node_tx) (vout toy_tx ++ [toy_out 1 asset_A []])) = false.
Proof.
  split; [exact toy_sizes|]. split; [exact toy_blind_sum|]. split; [exact toy_codec|]. split; [exact toy_verifies|]. split.
  { apply (node_ready toy_args 6); [reflexivity|discriminate|vm_compute; reflexivity|reflexivity| |discriminate]. apply not_stray. intros l IN. each_in IN; reflexivity. }
  split.
  { intros args i inp IN EI _ KK. each_in IN. destruct i as [|[|i]].
    - cbn in EI. injection EI as <-. exfalso. apply KK. reflexivity.
    - cbn in EI. injection EI as <-. split; [intros _; reflexivity|intros _; discriminate].
    - cbn in EI. destruct i; discriminate EI. }
  split. { intros args IN. each_in IN. cbn. lia. }
  split; [reflexivity|]. split; [reflexivity|]. vm_compute. reflexivity.
Qed.

(** Two parties, each knowing one input; the second issues an asset without tokens, confidentially. *)
Definition node_tx2 : tx := with_wit [toy_in0; issue 500 []]
  [toy_out 700 asset_A [x51]; toy_out 490 asset_A [x51; x51]; toy_out 500 asset_I [x51]; toy_out 10 asset_A []].
Definition node_us2 : list txout := map conf_utxo real2.
Definition issuer2 : blind_args := mkArgs (a_descs party2) [[]; toy_pub 902; toy_pub 903] [None; Some (b32 5001)] [] gens2 None None true.
Definition between2 : tx := node_after party1 node_tx2.
Definition final2 : tx := node_after issuer2 between2.
Lemma between2_eq : between2 = s_tx (snd (blind_transaction toy toy_rand party1 node_tx2)). Proof. unfold between2, node_after. reflexivity. Qed.
Lemma final2_eq : final2 = s_tx (snd (blind_transaction toy toy_rand issuer2 between2)). Proof. unfold final2, node_after. reflexivity. Qed.
Lemma real2_spent : Forall2 (SpentAs toy) node_us2 real2.
Proof. constructor; [apply conf_spent; [vm_compute; discriminate|cbn; lia]|]. constructor; [|constructor]. apply conf_spent; [vm_compute; discriminate|cbn; lia]. Qed.
Lemma real2_known args i u : In (a_descs args) [a_descs party1; a_descs party2] -> a_aux args = gens2 -> nth_error node_us2 i = Some u -> Knows toy args i u.
Proof.
  intros D A E. unfold Knows. rewrite A. assert (CA : forall k d, nth_error real2 k = Some d -> AssetAs toy (conf_utxo d) (d_asset d) (d_abf d)).
  { intros [|[|k]] d EK; cbn [real2 nth_error] in EK; [| |destruct k; discriminate EK]; injection EK as <-; apply conf_asset; vm_compute; discriminate. }
  destruct i as [|[|i]]; cbn [node_us2 real2 map nth_error] in E; [| |destruct i; discriminate E]; injection E as <-; each_in D; rewrite <- D; cbn [a_descs party1 party2 nth_error]; eexists; (split; [reflexivity|]).
  - left. split; [discriminate|]. apply (CA 0%nat). reflexivity.
  - right. split; [reflexivity|]. exists (nth 0 gens2 []). split; [reflexivity|]. left. split; [reflexivity|discriminate].
  - right. split; [reflexivity|]. exists (nth 1 gens2 []). split; [reflexivity|]. left. split; [reflexivity|discriminate].
  - left. split; [discriminate|]. apply (CA 1%nat). reflexivity.
Qed.
Example C68_ex2 : Ready toy [party1; issuer2] node_us2 real2 node_tx2 final2 /\ TokenKeys [party1; issuer2] node_tx2 /\ NoSpareGenerators [party1; issuer2] node_tx2
  /\ issuance_tasks issuer2 between2 = [(1%nat, false)].
Proof.
  assert (IT : issuance_tasks issuer2 between2 = [(1%nat, false)]) by (vm_compute; reflexivity).
  split; [constructor|split; [|split; [|exact IT]]].
  - left. discriminate.
  - apply (done_call 1 party1 node_tx2 _ eq_refl); [vm_compute; reflexivity|reflexivity| |discriminate|].
    { apply not_stray. intros l IN. each_in IN; reflexivity. }
    rewrite <- between2_eq. apply (done_call 3 issuer2 between2 _ eq_refl); [vm_compute; reflexivity|reflexivity| |discriminate|].
    + intros (i & ps & inp & IN & EI & X & _). rewrite IT in IN. each_in IN. assert (i = 1%nat) by congruence. subst i.
      assert (E : exists inp1, nth_error (vin between2) 1 = Some inp1 /\ is_amount (assetIssuance inp1) = expl 500) by (eexists; split; vm_compute; reflexivity).
      destruct E as (inp1 & E1 & E2). assert (inp = inp1) by congruence. subst inp. rewrite E2 in X. discriminate X.
    + rewrite <- final2_eq. apply BL_nil.
  - apply unblinded2; [lia|left; reflexivity|vm_compute; reflexivity].
  - reflexivity.
  - exact real2_spent.
  - intros args i u IN. each_in IN; apply real2_known; try reflexivity; [left|right; left]; reflexivity.
  - apply Permutation_refl.
  - intros a. unfold issued, issued_at. change (length (vin node_tx2)) with 2%nat. cbn [issuance_slots flat_map seq fst snd nth_error vin node_tx2 with_wit app].
    assert (EI : node_id toy false (amount_blinded [party1; issuer2] 1 (issue 500 [])) (issue 500 []) = asset_I) by (vm_compute; reflexivity).
    cbn [iss_field assetIssuance issue toy_in0 no_issuance is_amount is_keys nothing app]. change (nothing (expl 500)) with false. cbv iota. rewrite EI.
    unfold amount_of. cbn [real2 map app d_asset d_amount fst snd vout node_tx2 with_wit toy_out nAsset nValue tl filter].
    destruct (bytes_eqb asset_A a), (bytes_eqb asset_I a); vm_compute; reflexivity.
  - intros args i inp IN EI _ KK. exfalso. apply KK. destruct i as [|[|i]]; cbn in EI; [| |destruct i; discriminate EI]; injection EI as <-; reflexivity.
  - intros args IN. each_in IN; cbn; lia.
Qed.

(** * The two last premises are needed *)
(** Blinding the issued amount but not the tokens: everything succeeds, and the node rejects, because blind() took the
    id that tokens of an explicit issuance have. *)
Definition asset_key_only : blind_args := mkArgs toy_descs [toy_pub 901; toy_pub 902; toy_pub 903] [None; Some (b32 5001)] [] [] None None true.
Theorem C68_without_token_key_refuted : exists args us real t t',
  SizesOk toy /\ BlindSumLaw toy toy_order /\ CodecLaws toy /\ VerifierLaws toy toy_verifier toy_meaning
  /\ Ready toy [args] us real t t' /\ NoSpareGenerators [args] t /\ a_token_keys args = []
  /\ node_check toy toy_verifier us t' = false.
Proof.
  exists asset_key_only, node_us, toy_descs, node_tx, (node_after asset_key_only node_tx).
  split; [exact toy_sizes|]. split; [exact toy_blind_sum|]. split; [exact toy_codec|]. split; [exact toy_verifies|]. split.
  { apply (node_ready asset_key_only 4); [reflexivity|discriminate|vm_compute; reflexivity|reflexivity| |discriminate]. apply not_stray. intros l IN. each_in IN; reflexivity. }
  split. { intros args IN. each_in IN. cbn. lia. }
  split; [reflexivity|]. vm_compute. reflexivity.
Qed.
(** With both keys, but another party having blinded before: that party's proofs name the wrong token too. *)
Definition middle : tx := node_after party1 node_tx.
Definition wrong2 : tx := node_after party2 middle.
Lemma middle_eq : middle = s_tx (snd (blind_transaction toy toy_rand party1 node_tx)). Proof. unfold middle, node_after. reflexivity. Qed.
Lemma wrong2_eq : wrong2 = s_tx (snd (blind_transaction toy toy_rand party2 middle)). Proof. unfold wrong2, node_after. reflexivity. Qed.
Theorem C68_party_before_issuer_refuted : exists first issuer us real t t',
  SizesOk toy /\ BlindSumLaw toy toy_order /\ CodecLaws toy /\ VerifierLaws toy toy_verifier toy_meaning
  /\ Ready toy [first; issuer] us real t t' /\ NoSpareGenerators [first; issuer] t /\ issuance_tasks issuer t = [(1%nat, false); (1%nat, true)]
  /\ node_check toy toy_verifier us t' = false.
Proof.
  exists party1, party2, node_us2, real2, node_tx, wrong2.
  split; [exact toy_sizes|]. split; [exact toy_blind_sum|]. split; [exact toy_codec|]. split; [exact toy_verifies|].
  assert (IT : issuance_tasks party2 middle = [(1%nat, false); (1%nat, true)]) by (vm_compute; reflexivity).
  split; [constructor|].
  - left. discriminate.
  - apply (done_call 1 party1 node_tx _ eq_refl); [vm_compute; reflexivity|reflexivity| |discriminate|].
    { apply not_stray. intros l IN. each_in IN; reflexivity. }
    rewrite <- middle_eq. apply (done_call 5 party2 middle _ eq_refl); [vm_compute; reflexivity|reflexivity| |discriminate|].
    + intros (i & ps & inp & IN & EI & X & _). rewrite IT in IN.
      assert (E : exists inp1, nth_error (vin middle) 1 = Some inp1 /\ is_amount (assetIssuance inp1) = expl 500) by (eexists; split; vm_compute; reflexivity).
      destruct E as (inp1 & E1 & E2). each_in IN; (assert (i = 1%nat) by congruence; subst i; assert (inp = inp1) by congruence; subst inp; rewrite E2 in X; discriminate X).
    + rewrite <- wrong2_eq. apply BL_nil.
  - apply unblinded2; [lia|right; exists 3; split; [reflexivity|lia]|vm_compute; reflexivity].
  - reflexivity.
  - exact real2_spent.
  - intros args i u IN. each_in IN; apply real2_known; try reflexivity; [left|right; left]; reflexivity.
  - apply Permutation_refl.
  - intros a. unfold issued, issued_at. change (length (vin node_tx)) with 2%nat. cbn [issuance_slots flat_map seq fst snd nth_error vin node_tx with_wit app].
    assert (EI : node_id toy false (amount_blinded [party1; party2] 1 (issue 500 (expl 3))) (issue 500 (expl 3)) = asset_I) by (vm_compute; reflexivity).
    assert (ET : node_id toy true (amount_blinded [party1; party2] 1 (issue 500 (expl 3))) (issue 500 (expl 3)) = asset_T) by (vm_compute; reflexivity).
    cbn [iss_field assetIssuance issue toy_in0 no_issuance is_amount is_keys nothing app]. change (nothing (expl 500)) with false. change (nothing (expl 3)) with false. cbv iota. rewrite EI, ET.
    unfold amount_of. cbn [real2 map app d_asset d_amount fst snd vout node_tx with_wit toy_out nAsset nValue tl filter].
    destruct (bytes_eqb asset_A a), (bytes_eqb asset_I a), (bytes_eqb asset_T a); vm_compute; reflexivity.
  - split. { intros args IN. each_in IN; cbn; lia. } split; [vm_compute; reflexivity|]. vm_compute. reflexivity.
Qed.
(** One auxiliary generator too many: blind() proves against it as well, the node does not know it. *)
Definition spare_args : blind_args := mkArgs toy_descs (a_pubkeys toy_args) (a_asset_keys toy_args) (a_token_keys toy_args) (gens2 ++ [x0a :: b32 4242]) None None true.
Theorem C68_spare_generator_refuted : exists args us real t t',
  SizesOk toy /\ BlindSumLaw toy toy_order /\ CodecLaws toy /\ VerifierLaws toy toy_verifier toy_meaning
  /\ Ready toy [args] us real t t' /\ TokenKeys [args] t /\ length (a_aux args) = S (length (vin t))
  /\ node_check toy toy_verifier us t' = false.
Proof.
  exists spare_args, node_us, toy_descs, node_tx, (node_after spare_args node_tx).
  split; [exact toy_sizes|]. split; [exact toy_blind_sum|]. split; [exact toy_codec|]. split; [exact toy_verifies|]. split.
  { apply (node_ready spare_args 6); [reflexivity|discriminate|vm_compute; reflexivity|reflexivity| |discriminate]. apply not_stray. intros l IN. each_in IN; reflexivity. }
  split.
  { intros args i inp IN EI _ KK. each_in IN. destruct i as [|[|i]].
    - cbn in EI. injection EI as <-. exfalso. apply KK. reflexivity.
    - cbn in EI. injection EI as <-. split; [intros _; reflexivity|intros _; discriminate].
    - cbn in EI. destruct i; discriminate EI. }
  split; [reflexivity|]. vm_compute. reflexivity.
Qed.

Print Assumptions C68_node_accepts.
Print Assumptions C68_without_token_key_refuted.
Print Assumptions C68_party_before_issuer_refuted.
Print Assumptions C68_spare_generator_refuted.
