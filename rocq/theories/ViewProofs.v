(** Proofs about examples/unblind.py. *)
From Coq Require Import Strings.String.
From Verif Require Import Base BaseFacts Serialize TxModel MiscModel BlindModel UnblindModel WalletModel SpecWire SpecBlind SpecUnblind TxProofs BlindFacts FaultProofs PropUnblind PropWallet CrossTxModel ViewModel SpecView.
From Coq Require Import Lia.
Local Open Scope Z_scope.

Lemma amount_of x v : ExplicitValue x v -> to_amount x = Ok (to_signed 8 v) /\ 0 <= v < 2 ^ 64.
Proof.
  intros (d & -> & L & <-). split.
  - unfold to_amount. assert (E : conf_is_explicit CConfValue (x01 :: d) = true) by (apply expl_value; exists (be_val d), d; auto). rewrite E. reflexivity.
  - assert (R := be_val_range d). unfold blen in R. rewrite L in R. exact R.
Qed.
Lemma coins_of v : 0 <= v < 2 ^ 64 -> in_coins (to_signed 8 v) = if v <=? coins then Ok v else Raise EValue.
Proof.
  intros R. unfold in_coins, MoneyRange, to_signed, coins. change MAX_MONEY with 2100000000000000. change (256 ^ Z.of_nat 8 / 2) with (2 ^ 63). change (256 ^ Z.of_nat 8) with (2 ^ 64).
  destruct (v <? 2 ^ 63) eqn:S; [apply Z.ltb_lt in S|apply Z.ltb_ge in S].
  - assert (P : (0 <=? v) = true) by (apply Z.leb_le; lia). rewrite P. cbn [andb]. destruct (v <=? 2100000000000000); reflexivity.
  - assert (P : (0 <=? v - 2 ^ 64) = false) by (apply Z.leb_gt; lia). rewrite P. cbn [andb]. assert (Q : (v <=? 2100000000000000) = false) by (apply Z.leb_gt; lia). rewrite Q. reflexivity.
Qed.
Lemma asset_of x a : ExplicitAsset x a -> to_asset x = Ok a.
Proof.
  intros [-> L]. unfold to_asset. assert (E : conf_is_explicit CConfAsset (x01 :: a) = true) by (apply expl_asset; exists a; split; auto). rewrite E. cbn [tl]. unfold uint256_new, blen. rewrite L. reflexivity.
Qed.
Lemma no_value x : conf_is_explicit CConfValue x = false -> forall v, ~ ExplicitValue x v.
Proof. intros E v X. assert (Q : conf_is_explicit CConfValue x = true) by (apply expl_value; eauto). congruence. Qed.
Lemma unblind_answers z key v a nonce script proof r : unblind_confidential_pair z key v a nonce script proof = Ok r ->
  (exists e, r = Failure e) \/ (exists asset amount bf abf, r = UnblindingSuccess asset amount bf abf).
Proof.
  assert (NF : forall s r, new_failure s = Ok r -> exists e, r = Failure e).
  { intros s r0 H. unfold new_failure in H. destruct (rassert _ _); [|discriminate H]. injection H as <-. eauto. }
  unfold unblind_confidential_pair. destruct (blen proof =? 0); [intros H; left; eapply NF; exact H|].
  destruct (unblind_nonce z key nonce script) as [[f|[n sc]]|] eqn:EN; cbn [rbind]; [|destruct (negb _); [intros H; left; eapply NF; exact H|]|discriminate].
  - intros H. injection H as <-. unfold unblind_nonce in EN. destruct (0 <? blen nonce); [|discriminate EN]. destruct (negb _).
    + destruct (new_failure _) as [g|] eqn:G; [|discriminate EN]. cbn [rbind] in EN. injection EN as <-. left. eapply NF. exact G.
    + destruct (ecdh z key nonce); discriminate EN.
  - destruct (unblind_generator z a) as [[f|g]|] eqn:EG; cbn [rbind]; [| |discriminate].
    + intros H. injection H as <-. unfold unblind_generator in EG. destruct (conf_is_commitment CConfAsset a).
      * destruct (gen_parse z a); [discriminate EG|]. destruct (new_failure _) as [x|] eqn:G; [|discriminate EG]. cbn [rbind] in EG. injection EG as <-. left. eapply NF. exact G.
      * destruct (conf_is_explicit CConfAsset a); [|discriminate EG]. destruct (to_asset a) as [x|]; [|discriminate EG]. cbn [rbind] in EG. destruct (gen_generate z x); [discriminate EG|].
        destruct (new_failure _) as [y|] eqn:G; [|discriminate EG]. cbn [rbind] in EG. injection EG as <-. left. eapply NF. exact G.
    + destruct (ped_parse z v) as [c|]; [|intros H; left; eapply NF; exact H]. unfold unblind_rewind.
      destruct (rp_rewind z n c proof sc g) as [[[bf m] msg]|]; [|intros H; left; eapply NF; exact H]. destruct (negb _); [intros H; left; eapply NF; exact H|]. destruct (negb _); [intros H; left; eapply NF; exact H|].
      destruct (gen_generate_blinded z _ _); [|intros H; left; eapply NF; exact H]. destruct (gen_serialize z g); [|discriminate]. destruct (gen_serialize z _); [|discriminate].
      destruct (negb _); [intros H; left; eapply NF; exact H|]. destruct (uint256_new bf) as [u1|]; [|discriminate]. cbn [rbind]. destruct (uint256_new _) as [u2|]; [|discriminate]. cbn [rbind].
      destruct (uint256_new _) as [u3|]; [|discriminate]. cbn [rbind]. unfold new_unblinding_success. destruct (rassert _ _); [|discriminate]. cbn [rbind]. intros H. injection H as <-. right. eauto 6.
Qed.

Section View.
Variable z : Crypto.
Variable dw : default_wit.
Variable cur : chain.
Variable find : bytes -> option (kind * bytes).
Variable rp_info : bytes -> option (Z * Z * Z * Z).
Variable bkey : bytes.
Hypothesis FV : pk_fullyvalid z (sk_pub z bkey) = true.
Hypothesis L33 : blen (sk_pub z bkey) = 33.
Hypothesis FO : forall s k d, find s = Some (k, d) -> payload_of k (blen d).

Lemma conf_of s k d : find s = Some (k, d) -> from_unconfidential (pk_fullyvalid z) cur cur CAny (mkAddr cur k false d) (sk_pub z bkey) = Ok (mkAddr cur k true (sk_pub z bkey ++ d)).
Proof.
  intros E. apply C38_from_unconfidential.
  - unfold valid_addr. cbn [ad_kind ad_data ad_conf]. rewrite Z.sub_0_r. exact (FO _ _ _ E).
  - cbn [ad_chain ad_kind ad_conf ad_data covers]. split; [exact FV|]. split; [reflexivity|]. split; [exact I|]. split; [lia|reflexivity].
Qed.
Lemma show_info_spec t n w k : nth_error (vtxoutwit (wit t)) n = Some w -> exists l, Revealed rp_info t n l /\ show_info rp_info (wit t) n k = (l ++ fst k, snd k).
Proof.
  intros E. unfold Revealed, show_info, nth_res. rewrite E. cbn [bindP]. destruct (rp_info (ow_range w)) as [[[[e m] lo] hi]|] eqn:R.
  - destruct (txwit_is_null (wit t)) eqn:N; cbn [negb].
    + exists []. split; [left; split; [apply txwit_is_null_iff; exact N|reflexivity]|destruct k; reflexivity].
    + exists [LExponent e; LBits m; LMinimum lo; LMaximum hi]. split; [right; split; [apply txwit_not_null_iff; exact N|reflexivity]|reflexivity].
  - exists []. split; [reflexivity|]. destruct (txwit_is_null (wit t)); destruct k; reflexivity.
Qed.
Lemma show_output_spec t n o rest :
  (exists l, Shown z cur find rp_info t bkey n o l /\ show_output z cur find rp_info t bkey (sk_pub z bkey) n o rest = (l ++ fst rest, snd rest))
  \/ (exists l e, Stops z cur find t bkey n o l e /\ show_output z cur find rp_info t bkey (sk_pub z bkey) n o rest = (l, Some e)).
Proof.
  unfold show_output. cbv zeta. destruct (conf_is_explicit CConfValue (nValue o)) eqn:EV.
  - apply expl_value in EV. destruct EV as [v EV]. destruct (amount_of _ _ EV) as [AV RV]. destruct (conf_is_explicit CConfAsset (nAsset o)) eqn:EA; cbn [rassert bindP].
    2:{ right. exists [], EAssert. split; [|reflexivity]. eapply st_mixed; [exact EV|]. intros a X. assert (Q : conf_is_explicit CConfAsset (nAsset o) = true) by (apply expl_asset; eauto). congruence. }
    apply expl_asset in EA. destruct EA as [a EA]. rewrite AV. cbn [bindP]. rewrite (coins_of v RV), (asset_of _ _ EA). cbn [bindP].
    destruct (txout_is_fee o) eqn:EF.
    + apply fee_iff in EF. destruct EF as [EF _]. destruct (v <=? coins) eqn:C; [apply Z.leb_le in C|apply Z.leb_gt in C].
      * left. eexists. split; [eapply sh_fee; eassumption|reflexivity].
      * right. eexists _, _. split; [eapply st_fee; eassumption|reflexivity].
    + assert (NS : scriptPubKey o <> []). { intros X. assert (Q : txout_is_fee o = true) by (apply fee_iff; split; [exact X|split; eauto]). congruence. }
      unfold address_of. destruct (find (scriptPubKey o)) as [[k d]|] eqn:EK; cbn [bindP].
      * destruct (v <=? coins) eqn:C; [apply Z.leb_le in C|apply Z.leb_gt in C].
        -- left. eexists. split; [eapply sh_explicit; eassumption|reflexivity].
        -- right. eexists _, _. split; [eapply st_amount; eassumption|reflexivity].
      * right. eexists _, _. split; [eapply st_explicit; eassumption|reflexivity].
  - assert (NV := no_value _ EV). destruct (nth_error (vtxoutwit (wit t)) n) as [w|] eqn:EW;
    [assert (NR : nth_res (vtxoutwit (wit t)) n = Ok w) by (unfold nth_res; rewrite EW; reflexivity)|assert (NR : nth_res (vtxoutwit (wit t)) n = Raise EIndex) by (unfold nth_res; rewrite EW; reflexivity)]; rewrite NR; cbn [bindP].
    2:{ right. exists [], EIndex. split; [|reflexivity]. apply st_raises. split; [exact NV|]. rewrite EW. reflexivity. }
    assert (AN : Answer z t bkey n o (txout_unblind z o bkey (ow_range w))) by (split; [exact NV|rewrite EW; reflexivity]).
    destruct (txout_unblind z o bkey (ow_range w)) as [r|e] eqn:EU; cbn [bindP]; [|right; exists [], e; split; [apply st_raises; exact AN|reflexivity]].
    destruct (unblind_answers _ _ _ _ _ _ _ _ EU) as [[e ->]|(asset & amount & bf & abf & ->)].
    + unfold address_of. destruct (find (scriptPubKey o)) as [[k d]|] eqn:EK; cbn [bindP].
      * destruct (show_info_spec t n w (say LBlank rest) EW) as (l & RV & SI). left. eexists. split; [eapply sh_cannot; eassumption|]. rewrite SI. cbn [say fst snd app]. rewrite <- !app_assoc. reflexivity.
      * right. eexists _, _. split; [eapply st_cannot; eassumption|reflexivity].
    + unfold address_of. destruct (find (scriptPubKey o)) as [[k d]|] eqn:EK; cbn [bindP].
      * rewrite (conf_of _ _ _ EK). cbn [bindP]. assert (MR : in_coins amount = Ok amount). { unfold in_coins. destruct (C50_success_facts _ _ _ _ _ _ _ _ _ _ _ EU) as (_ & [R1 R2] & _). unfold MoneyRange. change MAX_MONEY with max_money. rewrite (proj2 (Z.leb_le _ _) R1), (proj2 (Z.leb_le _ _) R2). reflexivity. }
        rewrite MR. cbn [bindP]. left. eexists. split; [eapply sh_unblinded; eassumption|reflexivity].
      * right. eexists _, _. split; [eapply st_unblinded; eassumption|reflexivity].
Qed.
Lemma show_outputs_spec t outs : forall n, exists l e, Prints z cur find rp_info t bkey n outs l e /\ show_outputs z cur find rp_info t bkey (sk_pub z bkey) n outs = (l, e).
Proof.
  induction outs as [|o outs IH]; intros n; [exists [], None; split; [constructor|reflexivity]|]. cbn [show_outputs].
  destruct (IH (S n)) as (l & e & P & E). rewrite E. destruct (show_output_spec t n o (l, e)) as [(b & S & X)|(b & x & S & X)]; rewrite X; cbn [fst snd].
  - eexists _, _. split; [eapply pr_shown; eassumption|reflexivity].
  - eexists _, _. split; [eapply pr_stops; exact S|reflexivity].
Qed.
(** The specification determines what is printed. *)
Lemma answer_fun t n o r r' : Answer z t bkey n o r -> Answer z t bkey n o r' -> r = r'.
Proof. intros [_ A] [_ B]. destruct (nth_error (vtxoutwit (wit t)) n); congruence. Qed.
Lemma value_fun x v v' : ExplicitValue x v -> ExplicitValue x v' -> v = v'.
Proof. intros (d & -> & _ & <-) (d' & E & _ & <-). injection E as <-. reflexivity. Qed.
Lemma asset_fun x a a' : ExplicitAsset x a -> ExplicitAsset x a' -> a = a'.
Proof. intros [-> _] [E _]. injection E as <-. reflexivity. Qed.
Lemma revealed_fun t n l l' : Revealed rp_info t n l -> Revealed rp_info t n l' -> l = l'.
Proof.
  unfold Revealed. destruct (nth_error (vtxoutwit (wit t)) n) as [w|]; [|contradiction]. destruct (rp_info (ow_range w)) as [[[[e m] lo] hi]|]; [|congruence].
  intros [[A B]|[A B]] [[C D]|[C D]]; try contradiction; congruence.
Qed.
Ltac same_facts := repeat match goal with
  | A : ExplicitValue ?x ?v, B : ExplicitValue ?x ?w |- _ => assert_fails (constr_eq v w); pose proof (value_fun _ _ _ A B); subst
  | A : ExplicitAsset ?x ?v, B : ExplicitAsset ?x ?w |- _ => assert_fails (constr_eq v w); pose proof (asset_fun _ _ _ A B); subst
  | A : Answer z ?t bkey ?n ?o ?r, B : Answer z ?t bkey ?n ?o ?r' |- _ => assert_fails (constr_eq r r'); pose proof (answer_fun _ _ _ _ _ A B); clear B
  | H : Ok _ = Ok _ |- _ => injection H as H
  | H : Ok _ = Raise _ |- _ => discriminate H
  | H : Raise _ = Ok _ |- _ => discriminate H
  | H : Raise _ = Raise _ |- _ => injection H as H; subst
  | H : Failure _ = Failure _ |- _ => injection H as H; subst
  | H : Failure _ = UnblindingSuccess _ _ _ _ |- _ => discriminate H
  | H : UnblindingSuccess _ _ _ _ = Failure _ |- _ => discriminate H
  | H : UnblindingSuccess _ _ _ _ = UnblindingSuccess _ _ _ _ |- _ => injection H as ? ? ? ?; subst
  | A : ?x = Some (?k, ?d), B : ?x = Some (?k', ?d') |- _ => assert_fails (constr_eq k k'; constr_eq d d'); rewrite A in B; injection B as ? ?; subst
  | A : ?x = Some _, B : ?x = None |- _ => rewrite A in B; discriminate B
  | A : Revealed rp_info ?t ?n ?l, B : Revealed rp_info ?t ?n ?l' |- _ => assert_fails (constr_eq l l'); pose proof (revealed_fun _ _ _ _ A B); subst
  end.
Lemma shown_fun t n o l l' : Shown z cur find rp_info t bkey n o l -> Shown z cur find rp_info t bkey n o l' -> l = l'.
Proof.
  intros [] []; try reflexivity; try contradiction; same_facts; subst; try reflexivity; try contradiction;
  match goal with A : ExplicitValue _ _, B : Answer _ _ _ _ _ _ |- _ => exfalso; exact (proj1 B _ A) end.
Qed.
Lemma stops_fun t n o l l' e e' : Stops z cur find t bkey n o l e -> Stops z cur find t bkey n o l' e' -> l = l' /\ e = e'.
Proof.
  intros [] []; try (split; reflexivity); try contradiction; same_facts; subst; try (split; reflexivity); try contradiction;
  match goal with
  | A : ExplicitValue _ _, B : Answer _ _ _ _ _ _ |- _ => exfalso; exact (proj1 B _ A)
  | A : ExplicitAsset _ _, B : forall a, ~ ExplicitAsset _ a |- _ => exfalso; exact (B _ A)
  end.
Qed.
Lemma shown_stops t n o l l' e : Shown z cur find rp_info t bkey n o l -> Stops z cur find t bkey n o l' e -> False.
Proof.
  intros [] []; try contradiction; same_facts; try contradiction; try lia;
  match goal with
  | A : ExplicitValue _ _, B : Answer _ _ _ _ _ _ |- _ => exact (proj1 B _ A)
  | A : ExplicitAsset _ _, B : forall a, ~ ExplicitAsset _ a |- _ => exact (B _ A)
  end.
Qed.
Lemma prints_fun t n outs l e : Prints z cur find rp_info t bkey n outs l e -> forall l' e', Prints z cur find rp_info t bkey n outs l' e' -> l = l' /\ e = e'.
Proof.
  induction 1 as [n|n o outs l rest e S P IH|n o outs l e S]; intros l' e' H; inversion H; subst.
  - auto.
  - match goal with A : Prints _ _ _ _ _ _ _ _ ?r _, B : Shown _ _ _ _ _ _ _ _ ?k |- _ => destruct (IH _ _ A) as [-> ->]; rewrite (shown_fun _ _ _ _ _ S B); auto end.
  - exfalso. eapply shown_stops; eassumption.
  - exfalso. eapply shown_stops; eassumption.
  - match goal with A : Stops _ _ _ _ _ _ _ l' _ |- _ => destruct (stops_fun _ _ _ _ _ _ _ S A) as [-> ->]; auto end.
Qed.
End View.
