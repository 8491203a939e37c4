(** Proofs for C86. *)
From Verif Require Import Base BaseFacts Serialize TxModel MiscModel IssuanceModel BlindModel UnblindModel SpendModel WalletModel SighashModel ScriptModel SpecWire
  SpecBlind SpecUnblind SpecMulti SpecNode SpecSpend SpecSign SpecGrow BlindFacts BlindFrame BlindFails BlindSteps BlindOuts BlindComplete BlindMain BlindProps TxProofs TxProofs2 PropCodec PropUnblind
  ExampleModel SpecExample ExampleProofs PropExample GrowProofs SwapModel SpecSwap.
From Coq Require Import Lia.
Local Open Scope Z_scope.

(** * blind() without issuance keys *)
Definition plain_args (descs : list input_desc) (pubs gens : list bytes) : blind_args := mkArgs descs pubs [] [] gens None None true.
Lemma plain_tasks descs pubs gens t : issuance_tasks (plain_args descs pubs gens) t = [].
Proof.
  unfold issuance_tasks. induction (issuance_slots (length (vin t))) as [|[i ps] l IH]; [reflexivity|]. cbn [filter]. unfold wants_issuance. cbn [fst snd plain_args a_token_keys a_asset_keys].
  destruct ps, i; exact IH.
Qed.
Lemma plain_stray descs pubs gens t : ~ stray_key (plain_args descs pubs gens) t.
Proof. intros (i & ps & inp & IN & _). rewrite plain_tasks in IN. exact IN. Qed.
Lemma plain_vin descs pubs gens t t' : Frame (plain_args descs pubs gens) t t' -> vin t' = vin t.
Proof.
  intros F. apply nth_error_ext. intros i. destruct (nth_error (vin t) i) as [a|] eqn:E.
  - destruct (nth_error (vin t') i) as [a'|] eqn:E'.
    + destruct (fr_in _ _ _ _ _ F i a a' E E') as (H1 & H2 & H3 & H4 & H5 & H6 & H7 & H8).
      assert (N1 : is_amount (assetIssuance a') = is_amount (assetIssuance a)) by (apply H7; intros [X _]; apply X; destruct i; reflexivity).
      assert (N2 : is_keys (assetIssuance a') = is_keys (assetIssuance a)) by (apply H8; intros [X _]; apply X; destruct i; reflexivity).
      destruct a as [p1 s1 q1 [n1 e1 m1 k1] g1], a' as [p2 s2 q2 [n2 e2 m2 k2] g2]. cbn in *. congruence.
    + apply nth_error_None in E'. rewrite (fr_nin _ _ _ _ _ F) in E'. apply nth_error_None in E'. congruence.
  - apply nth_error_None in E. rewrite <- (fr_nin _ _ _ _ _ F) in E. apply nth_error_None in E. exact E.
Qed.
Lemma plain_inwit descs pubs gens t t' i : Frame (plain_args descs pubs gens) t t' -> inwit_at t' i = inwit_at t i.
Proof.
  intros F. destruct (fr_inwit _ _ _ _ _ F i) as (H1 & H2 & H3 & H4).
  assert (N1 : iw_issproof (inwit_at t' i) = iw_issproof (inwit_at t i)) by (apply H3; intros [X _]; apply X; destruct i; reflexivity).
  assert (N2 : iw_keysproof (inwit_at t' i) = iw_keysproof (inwit_at t i)) by (apply H4; intros [X _]; apply X; destruct i; reflexivity).
  destruct (inwit_at t' i), (inwit_at t i). cbn in *. congruence.
Qed.
Lemma frame_script args t t' j o : Frame args t t' -> nth_error (vout t) j = Some o -> exists o', nth_error (vout t') j = Some o' /\ scriptPubKey o' = scriptPubKey o
  /\ (nth j (a_pubkeys args) [] = [] -> o' = o).
Proof.
  intros F E. destruct (nth_error (vout t') j) as [o'|] eqn:E'.
  - exists o'. split; [reflexivity|]. destruct (fr_out _ _ _ _ _ F j o o' E E') as [A B]. split; [exact A|]. intros NW. apply B. intros W. exact (W NW).
  - apply nth_error_None in E'. rewrite (fr_nout _ _ _ _ _ F) in E'. apply nth_error_None in E'. congruence.
Qed.
Lemma plain_count z rand descs pubs gens t n bfs abfs s : blind_transaction z rand (plain_args descs pubs gens) t = (Ret (BSuccess n bfs abfs), s) ->
  n = (length (issuance_tasks (plain_args descs pubs gens) t) + length (output_tasks (plain_args descs pubs gens)))%nat.
Proof. intros B. destruct (blind_success z rand _ t _ _ _ _ B) as (_ & A & _). exact (A eq_refl (plain_stray _ _ _ _)). Qed.
Lemma blinds_sends z rand descs pubs gens e t k T b : blinds z rand descs pubs gens e t k = Sends T b ->
  exists bfs abfs s, blind_transaction z rand (plain_args descs pubs gens) t = (Ret (BSuccess e bfs abfs), s) /\ k (s_tx s) = Sends T b.
Proof.
  unfold blinds. fold (plain_args descs pubs gens). destruct (blind_transaction z rand (plain_args descs pubs gens) t) as [[x|[n bfs abfs|f]|x] s]; try discriminate.
  destruct (Nat.eqb_spec n e) as [->|]; [|discriminate]. intros H. exists bfs, abfs, s. auto.
Qed.
Lemma bindT_sends {A} (r : res A) k T b : bindT r k = Sends T b -> exists a, r = Ok a /\ k a = Sends T b.
Proof. destruct r as [a|e]; [|discriminate]. intros H. exists a. auto. Qed.

(** * Signing *)
Lemma OnlySigned_refl t : OnlySigned t t.
Proof. constructor; auto. intros i x x' E E'. rewrite E in E'. injection E' as <-. auto. Qed.
Lemma OnlySigned_trans a b c : OnlySigned a b -> OnlySigned b c -> OnlySigned a c.
Proof.
  intros H K. constructor.
  - rewrite (si_version _ _ K). apply (si_version _ _ H).
  - rewrite (si_locktime _ _ K). apply (si_locktime _ _ H).
  - rewrite (si_out _ _ K). apply (si_out _ _ H).
  - rewrite (si_outwit _ _ K). apply (si_outwit _ _ H).
  - rewrite (si_nin _ _ K). apply (si_nin _ _ H).
  - intros i x x' E E'. destruct (nth_error (vin b) i) as [y|] eqn:EB.
    + destruct (si_in _ _ H i x y E EB) as (A1 & A2 & A3 & A4). destruct (si_in _ _ K i y x' EB E') as (B1 & B2 & B3 & B4). repeat split; congruence.
    + apply nth_error_None in EB. rewrite (si_nin _ _ H) in EB. apply nth_error_None in EB. congruence.
  - rewrite (si_ninwit _ _ K). apply (si_ninwit _ _ H).
  - intros i. destruct (si_inwit _ _ H i) as (A1 & A2 & A3). destruct (si_inwit _ _ K i) as (B1 & B2 & B3). repeat split; congruence.
Qed.
Lemma upd_split {A} (l : list A) i x y : nth_error l i = Some x -> exists a b, l = a ++ x :: b /\ length a = i /\ upd l i y = a ++ y :: b.
Proof.
  revert i. induction l as [|h l IH]; intros [|i] E; try discriminate E.
  - injection E as ->. exists [], l. auto.
  - destruct (IH i E) as (a & b & -> & L & U). exists (h :: a), b. cbn. split; [reflexivity|]. split; [congruence|]. rewrite U. reflexivity.
Qed.
Section Sign.
Variables (z : Crypto) (legacy : bytes -> tx -> Z -> Z -> res (bytes * bool)) (Hash160 : bytes -> bytes) (sign : bytes -> bytes -> bytes).
(** the shape of what is signed *)
Definition Filled (t : tx) (i : nat) (ss : bytes) (st : option (list bytes)) (t' : tx) : Prop :=
  exists x, nth_error (vin t) i = Some x
  /\ vin t' = upd (vin t) i (mkTxIn (prevout x) ss (nSequence x) (assetIssuance x) (is_pegin x))
  /\ vout t' = vout t /\ nLockTime t' = nLockTime t /\ nVersion t' = nVersion t /\ vtxoutwit (wit t') = vtxoutwit (wit t)
  /\ vtxinwit (wit t') = match st with None => vtxinwit (wit t) | Some st => upd (vtxinwit (wit t)) i (mkInWit st [] [] []) end
  /\ (st <> None -> (i < length (vtxinwit (wit t)))%nat).
Lemma set_filled t i ss st t' : set_input t i ss st = Ok t' -> Filled t i ss st t'.
Proof.
  unfold set_input, rbind. destruct (nth_res (vin t) i) as [x|e] eqn:E; [|discriminate]. apply nth_res_Ok in E.
  destruct st as [st|].
  - destruct (nth_res (vtxinwit (wit t)) i) as [w|e] eqn:W; [|discriminate]. apply nth_res_Ok in W. intros H. apply Ok_inj in H. subst t'. exists x. cbn. repeat (split; [auto|]).
    intros _. apply nth_error_Some. congruence.
  - intros H. apply Ok_inj in H. subst t'. exists x. cbn. repeat (split; [auto|]). congruence.
Qed.
Lemma sign_filled t i u t' : sign_input z legacy Hash160 sign t i u = Ok t' -> exists ss st h, Filled t i ss st t'
  /\ (st = None \/ st = Some [sign (u_pub u) h ++ [zb SIGHASH_ALL]; u_pub u])
  /\ (ss = [] \/ encode_op_pushdata ([x00; x14] ++ Hash160 (u_pub u)) = Ok ss
      \/ exists a b, ss = a ++ b /\ encode_op_pushdata (sign (u_pub u) h ++ [zb SIGHASH_ALL]) = Ok a /\ encode_op_pushdata (u_pub u) = Ok b).
Proof.
  unfold sign_input, rbind. destruct (rassert _ EAssert) as [uu|e]; [|discriminate]. destruct (match u_value u with Some b => _ | None => _ end) as [am|e]; [|discriminate].
  destruct (sighash _ _ _ _ _ _ _ _) as [h|e]; [|discriminate].
  destruct (ad_kind (u_addr u)); intros H;
    try (destruct (encode_op_pushdata ([x00; x14] ++ Hash160 (u_pub u))) as [pa|e] eqn:P; [|discriminate H]; exists pa, (Some [sign (u_pub u) h ++ [zb SIGHASH_ALL]; u_pub u]), h; split; [apply set_filled; exact H|]; auto).
  - destruct (encode_op_pushdata (sign (u_pub u) h ++ _)) as [a|e] eqn:P1; [|discriminate H]. destruct (encode_op_pushdata (u_pub u)) as [b|e] eqn:P2; [|discriminate H].
    exists (a ++ b), None, h. split; [apply set_filled; exact H|]. split; [auto|]. right. right. exists a, b. auto.
  - exists [], (Some [sign (u_pub u) h ++ [zb SIGHASH_ALL]; u_pub u]), h. split; [apply set_filled; exact H|]. auto.
Qed.
Lemma filled_only t i ss st t' : Filled t i ss st t' -> OnlyInput i t t'.
Proof.
  intros (x & E & A & B & C & D & F & G & I). constructor; try assumption.
  - destruct (upd_split (vin t) i x (mkTxIn (prevout x) ss (nSequence x) (assetIssuance x) (is_pegin x)) E) as (a & b & L1 & L2 & L3). exists a, x, b, ss. rewrite A. auto.
  - intros k NE. rewrite G. destruct st as [st|]; [|reflexivity]. apply upd_nth_other. congruence.
Qed.
Lemma filled_signed t i ss st t' : Filled t i ss st t' -> (iw_issproof (inwit_at t i) = [] /\ iw_keysproof (inwit_at t i) = [] /\ iw_pegin (inwit_at t i) = []) -> OnlySigned t t'.
Proof.
  intros (x & E & A & B & C & D & F & G & I) N. constructor; try assumption.
  - rewrite A. apply upd_length.
  - intros k y y' EY EY'. rewrite A in EY'. destruct (Nat.eq_dec k i) as [->|NE].
    + rewrite upd_nth_same in EY' by (apply nth_error_Some; congruence). injection EY' as <-. rewrite E in EY. injection EY as <-. cbn. auto.
    + rewrite upd_nth_other in EY' by congruence. rewrite EY in EY'. injection EY' as <-. auto.
  - rewrite G. destruct st; [apply upd_length|reflexivity].
  - intros k. unfold inwit_at in *. rewrite G. destruct st as [st|]; [|auto]. destruct (Nat.eq_dec k i) as [->|NE].
    + rewrite (nth_error_nth _ _ _ (upd_nth_same _ _ _ (I ltac:(discriminate)))). cbn. intuition congruence.
    + assert (Q : nth k (upd (vtxinwit (wit t)) i (mkInWit st [] [] [])) (mkInWit [] [] [] []) = nth k (vtxinwit (wit t)) (mkInWit [] [] [] [])).
      { destruct (nth_error (vtxinwit (wit t)) k) as [w|] eqn:W.
        - rewrite (nth_error_nth _ _ _ W). apply nth_error_nth. rewrite upd_nth_other by congruence. exact W.
        - apply nth_error_None in W. rewrite !nth_overflow; [reflexivity|exact W|rewrite upd_length; exact W]. }
      rewrite Q. auto.
Qed.
Lemma sign_all_kept us : forall t i t', sign_all z legacy Hash160 sign t i us = Ok t' ->
  map prevout (vin t') = map prevout (vin t) /\ vout t' = vout t /\ vtxoutwit (wit t') = vtxoutwit (wit t).
Proof.
  induction us as [|u us IH]; intros t i t' H; cbn [sign_all] in H.
  - apply Ok_inj in H. subst. auto.
  - unfold rbind in H. destruct (sign_input z legacy Hash160 sign t i u) as [t1|e] eqn:E; [|discriminate H]. apply sign_filled in E. destruct E as (ss & st & h & F & _).
    assert (O := filled_only _ _ _ _ _ F). destruct (IH _ _ _ H) as (A & B & C). rewrite A, B, C. split; [|split; [apply O|apply O]].
    destruct (oi_in _ _ _ O) as (a & x & b & s0 & -> & _ & ->). rewrite !map_app. reflexivity.
Qed.
Lemma sign_all_signed us : forall t i t', sign_all z legacy Hash160 sign t i us = Ok t' ->
  (forall k, (i <= k < i + length us)%nat -> iw_issproof (inwit_at t k) = [] /\ iw_keysproof (inwit_at t k) = [] /\ iw_pegin (inwit_at t k) = []) -> OnlySigned t t'.
Proof.
  induction us as [|u us IH]; intros t i t' H N; cbn [sign_all] in H.
  - apply Ok_inj in H. subst. apply OnlySigned_refl.
  - unfold rbind in H. destruct (sign_input z legacy Hash160 sign t i u) as [t1|e] eqn:E; [|discriminate H]. apply sign_filled in E. destruct E as (ss & st & h & F & _).
    assert (O : OnlySigned t t1) by (apply (filled_signed _ _ _ _ _ F), N; cbn [length]; lia). eapply OnlySigned_trans; [exact O|]. apply (IH _ _ _ H).
    intros k K. destruct (si_inwit _ _ O k) as (A1 & A2 & A3). rewrite A1, A2, A3. apply N. cbn [length]. lia.
Qed.
End Sign.

(** * Alice *)
Lemma output_of_Ok amount asset script o : output_of amount asset script = Ok o ->
  exists v a sc, o = mkTxOut v sc a [] /\ conf_value_of_amount amount = Ok v /\ conf_asset_of_asset asset = Ok a /\ script = Ok sc.
Proof.
  unfold output_of, rbind. destruct (conf_value_of_amount amount) as [v|]; [|discriminate]. destruct (conf_asset_of_asset asset) as [a|]; [|discriminate].
  destruct script as [sc|]; [|discriminate]. intros H. apply Ok_inj in H. subst o. exists v, a, sc. auto.
Qed.
Lemma input_of_Ok u i : input_of u = Ok i -> i = plain_input (outpoint_of u) /\ blen (u_txid u) = 32 /\ 0 <= u_vout u <= 0xffffffff.
Proof.
  unfold input_of, rbind, outpoint_new. destruct (Z.eqb_spec (blen (u_txid u)) 32) as [L|]; cbn [negb]; [|discriminate].
  destruct ((0 <=? u_vout u) && (u_vout u <=? 0xffffffff)) eqn:R; [|discriminate]. intros H. apply Ok_inj in H. subst i. apply andb_prop in R. destruct R as [R1 R2].
  apply Z.leb_le in R1, R2. auto.
Qed.
Lemma pubkey_of_Ok a k : pubkey_of a = Ok k -> ad_conf a = true /\ k = blinding_pubkey a.
Proof. unfold pubkey_of. destruct (ad_conf a); [|discriminate]. intros H. apply Ok_inj in H. auto. Qed.
Lemma rmap3 {A B} (f : A -> res B) a b c l : rmap f [a; b; c] = Ok l -> exists x y w, l = [x; y; w] /\ f a = Ok x /\ f b = Ok y /\ f c = Ok w.
Proof.
  cbn [rmap]. unfold rbind. destruct (f a) as [x|]; [|discriminate]. destruct (f b) as [y|]; [|discriminate]. destruct (f c) as [w|]; [|discriminate].
  intros H. apply Ok_inj in H. subst. exists x, y, w. auto.
Qed.
(** the transaction Alice blinds *)
Definition joined (partial : tx) (a1 a2 fee : utxo) (o1 o2 o3 o4 : txout) : tx :=
  mkTx (vin partial ++ map (fun u => plain_input (outpoint_of u)) [a1; a2; fee]) (vout partial ++ [o1; o2; o3; o4]) (nLockTime partial) (nVersion partial)
       (mkTxWit (vtxinwit (wit partial) ++ repeat inwit_null 3) (vtxoutwit (wit partial) ++ repeat outwit_null 4)).
Definition alice_args (a1 a2 fee : utxo) (k1 k2 k3 gen : bytes) : blind_args :=
  plain_args (no_input :: map descriptor [a1; a2; fee]) [[]; k1; k2; k3; []] (gen :: repeat (zeros 33) 3).
Record AliceRun (z : Crypto) (dw : default_wit) (legacy : bytes -> tx -> Z -> Z -> res (bytes * bool)) (Hash160 : bytes -> bytes) (sign : bytes -> bytes -> bytes) (rand : nat -> bytes)
    (a1 a2 fee : utxo) (fee_asset : bytes) (change : addr) (bkey : bytes) (bob_offer : offer) (pbytes : bytes) (b1 b2 : addr) (gen : bytes) (T : tx) (b : bytes)
    (partial : tx) (o : txout) (w : outwit) (d : input_desc) (o1 o2 o3 o4 : txout) (bfs abfs : list bytes) (s : St) : Prop := {
  ar_partial : tx_deserialize dw pbytes = Ok partial;
  ar_out : vout partial = [o];
  ar_wit : nth_error (vtxoutwit (wit partial)) 0 = Some w;
  ar_reads : exists r, txout_unblind z o bkey (ow_range w) = Ok r /\ get_descriptor r = Some d;
  ar_asset : d_asset d = f_asset bob_offer;
  ar_amount : d_amount d = f_amount bob_offer;
  ar_ins : exists ins, rmap input_of [a1; a2; fee] = Ok ins;
  ar_o1 : output_of (u_amount a1) (u_asset a1) (to_scriptPubKey b1) = Ok o1;
  ar_o2 : output_of (u_amount a2) (u_asset a2) (to_scriptPubKey b2) = Ok o2;
  ar_o3 : output_of (u_amount fee - FIXED_FEE_SATOSHI) fee_asset (to_scriptPubKey change) = Ok o3;
  ar_o4 : output_of FIXED_FEE_SATOSHI fee_asset (Ok []) = Ok o4;
  ar_conf : ad_conf b1 = true /\ ad_conf b2 = true /\ ad_conf change = true;
  ar_blind : blind_transaction z rand (alice_args a1 a2 fee (blinding_pubkey b1) (blinding_pubkey b2) (blinding_pubkey change) gen) (joined partial a1 a2 fee o1 o2 o3 o4)
     = (Ret (BSuccess 3 bfs abfs), s);
  ar_sign : sign_all z legacy Hash160 sign (s_tx s) 1 [a1; a2; fee] = Ok T;
  ar_bytes : tx_serialize T = Ok b
}.
Lemma alice_inv z dw legacy Hash160 sign rand a1 a2 fee fee_asset change bkey bob_offer pbytes addrs gen T b :
  alice_signs z dw legacy Hash160 sign rand a1 a2 fee fee_asset change bkey bob_offer pbytes addrs gen = Sends T b ->
  exists b1 b2, addrs = [b1; b2] /\ exists partial o w d o1 o2 o3 o4 bfs abfs s,
    AliceRun z dw legacy Hash160 sign rand a1 a2 fee fee_asset change bkey bob_offer pbytes b1 b2 gen T b partial o w d o1 o2 o3 o4 bfs abfs s.
Proof.
  unfold alice_signs. intros H. apply bindT_sends in H. destruct H as (partial & EP & H). unfold alice_reads in H.
  destruct (vout partial) as [|o [|]] eqn:EV; try discriminate H. apply bindT_sends in H. destruct H as (w & EW & H). apply nth_res_Ok in EW.
  apply bindT_sends in H. destruct H as (r & ER & H). destruct (get_descriptor r) as [d|] eqn:ED; [|discriminate H].
  destruct (bytes_eqb (d_asset d) (f_asset bob_offer)) eqn:EA; cbn [negb] in H; [|discriminate H]. apply bytes_eqb_eq in EA.
  destruct (Z.eqb_spec (d_amount d) (f_amount bob_offer)) as [EM|]; cbn [negb] in H; [|discriminate H].
  destruct addrs as [|b1 [|b2 [|]]]; try discriminate H. exists b1, b2. split; [reflexivity|].
  apply bindT_sends in H. destruct H as (ins & EI & H). apply bindT_sends in H. destruct H as (o1 & E1 & H). apply bindT_sends in H. destruct H as (k1 & K1 & H).
  apply bindT_sends in H. destruct H as (o2 & E2 & H). apply bindT_sends in H. destruct H as (k2 & K2 & H).
  apply bindT_sends in H. destruct H as (o3 & E3 & H). apply bindT_sends in H. destruct H as (k3 & K3 & H). apply bindT_sends in H. destruct H as (o4 & E4 & H).
  apply pubkey_of_Ok in K1, K2, K3. destruct K1 as [C1 ->], K2 as [C2 ->], K3 as [C3 ->].
  assert (IQ : ins = map (fun u => plain_input (outpoint_of u)) [a1; a2; fee]).
  { destruct (rmap3 _ _ _ _ _ EI) as (x & y & v & -> & X & Y & V). apply input_of_Ok in X, Y, V. cbn [map]. destruct X as [-> _], Y as [-> _], V as [-> _]. reflexivity. }
  apply blinds_sends in H. destruct H as (bfs & abfs & s & B & H). apply bindT_sends in H. destruct H as (T' & SG & H). apply bindT_sends in H. destruct H as (b' & SB & H).
  injection H as -> ->. rewrite IQ, <- EV in B.
  exists partial, o, w, d, o1, o2, o3, o4, bfs, abfs, s. constructor; try assumption; [exists r; auto|exists ins; exact EI|auto].
Qed.
Lemma made_amount' x v : conf_value_of_amount v = Ok x -> to_amount x = Ok v. Proof. apply value_back. Qed.
Lemma unblind_opens z t k u key w r d : nth_error (vtxoutwit (wit t)) k = Some w -> txout_unblind z u key (ow_range w) = Ok r -> get_descriptor r = Some d -> Opens z t k u key d.
Proof.
  intros W R D. right. destruct r as [m|n b ab|asset amount bf abf]; try discriminate D. unfold txout_unblind in R. destruct (C50_success_facts _ _ _ _ _ _ _ _ _ _ _ R) as (_ & _ & (p & q & E & L & _) & _).
  split; [unfold conf_is_explicit; rewrite E, blen_cons, L; reflexivity|]. exists w, (UnblindingSuccess asset amount bf abf). unfold txout_unblind. auto.
Qed.
Lemma asset_len x a : conf_asset_of_asset x = Ok a -> blen x = 32.
Proof.
  unfold conf_asset_of_asset, conf_new. rewrite blen_cons. change (explicitSize CConfAsset) with 33. change committedSize with 33. pose proof (blen_nonneg x).
  destruct (Z.eqb_spec (1 + blen x) 0); [lia|]. destruct (Z.eqb_spec (1 + blen x) 33); [lia|discriminate].
Qed.
Section Alice.
Variables (z : Crypto) (dw : default_wit) (legacy : bytes -> tx -> Z -> Z -> res (bytes * bool)) (Hash160 : bytes -> bytes) (sign : bytes -> bytes -> bytes) (rand : nat -> bytes)
    (a1 a2 fee : utxo) (fee_asset : bytes) (change : addr) (bkey : bytes) (bob_offer : offer) (pbytes : bytes) (b1 b2 : addr) (gen : bytes) (T : tx) (b : bytes)
    (partial : tx) (o : txout) (w : outwit) (d : input_desc) (o1 o2 o3 o4 : txout) (bfs abfs : list bytes) (s : St).
Hypothesis AR : AliceRun z dw legacy Hash160 sign rand a1 a2 fee fee_asset change bkey bob_offer pbytes b1 b2 gen T b partial o w d o1 o2 o3 o4 bfs abfs s.
Let args := alice_args a1 a2 fee (blinding_pubkey b1) (blinding_pubkey b2) (blinding_pubkey change) gen.
Let t := joined partial a1 a2 fee o1 o2 o3 o4.
Lemma ar_frame : Frame args t (s_tx s).
Proof. assert (F := blind_transaction_frame z rand args t). unfold args, t in *. rewrite (ar_blind _ _ _ _ _ _ _ _ _ _ _ _ _ _ _ _ _ _ _ _ _ _ _ _ _ _ _ _ _ _ AR) in F. exact F. Qed.
Lemma ar_vout : vout t = [o; o1; o2; o3; o4].
Proof. unfold t, joined. cbn [vout]. rewrite (ar_out _ _ _ _ _ _ _ _ _ _ _ _ _ _ _ _ _ _ _ _ _ _ _ _ _ _ _ _ _ _ AR). reflexivity. Qed.
Lemma ar_one : exists i, vin partial = [i].
Proof.
  assert (NB : ~ bad_arguments args t).
  { intros Q. destruct (check_cases args (mkSt t 0)) as [[_ X]|[NB _]]; [|exact (NB Q)]. assert (E := ar_blind _ _ _ _ _ _ _ _ _ _ _ _ _ _ _ _ _ _ _ _ _ _ _ _ _ _ _ _ _ _ AR).
    fold args t in E. unfold blind_transaction, blind_body, mbind in E. rewrite X in E. discriminate E. }
  destruct (good_sizes _ _ NB) as (L & _). cbn [args alice_args plain_args a_descs length map t joined vin] in L. rewrite app_length in L. cbn [length map] in L.
  destruct (vin partial) as [|i [|i' l]]; cbn [length] in L; try lia. exists i. reflexivity.
Qed.
Lemma ar_signs : AliceSigns [a1; a2; fee] b1 b2 change fee_asset FIXED_FEE_SATOSHI T.
Proof.
  assert (F := ar_frame). assert (SG := ar_sign _ _ _ _ _ _ _ _ _ _ _ _ _ _ _ _ _ _ _ _ _ _ _ _ _ _ _ _ _ _ AR). destruct (sign_all_kept _ _ _ _ _ _ _ _ SG) as (K1 & K2 & K3).
  assert (PT : forall j a amount asset u, nth_error (vout t) j = Some u -> output_of amount asset (to_scriptPubKey a) = Ok u -> PaysTo T j a).
  { intros j a amount asset u E O. destruct (frame_script _ _ _ _ _ F E) as (u' & E' & S & _). exists u'. rewrite K2. split; [exact E'|]. rewrite S.
    apply output_of_Ok in O. destruct O as (v & x & sc & -> & _ & _ & ES). exact ES. }
  destruct AR as [H1 H2 H3 H4 H5 H6 H7 H8 H9 H10 H11 H12 H13 H14 H15]. assert (VO := ar_vout). constructor.
  - destruct ar_one as [i E]. exists (prevout i). rewrite K1. assert (V : vin (s_tx s) = vin t) by (exact (plain_vin _ _ _ _ _ F)). rewrite V. unfold t, joined. cbn [vin]. rewrite E. reflexivity.
  - rewrite K2, (fr_nout _ _ _ _ _ F), VO. reflexivity.
  - eapply PT; [rewrite VO; reflexivity|exact H8].
  - eapply PT; [rewrite VO; reflexivity|exact H9].
  - eapply PT; [rewrite VO; reflexivity|exact H10].
  - destruct (frame_script args t (s_tx s) 4 o4 F) as (u' & E' & S & Q); [rewrite VO; reflexivity|]. exists u'. rewrite K2. split; [exact E'|]. assert (u' = o4) by (apply Q; reflexivity). subst u'.
    apply output_of_Ok in H11. destruct H11 as (v & x & sc & -> & EV & EA & ES). apply Ok_inj in ES. subst sc. cbn [scriptPubKey nAsset nValue]. split; [reflexivity|]. split; [|apply value_back; exact EV].
    apply asset_back; [exact (asset_len _ _ EA)|exact EA].
Qed.
Lemma ar_wit0 : nth_error (vout T) 0 = Some o /\ nth_error (vtxoutwit (wit T)) 0 = Some w.
Proof.
  assert (F := ar_frame). assert (SG := ar_sign _ _ _ _ _ _ _ _ _ _ _ _ _ _ _ _ _ _ _ _ _ _ _ _ _ _ _ _ _ _ AR). destruct (sign_all_kept _ _ _ _ _ _ _ _ SG) as (K1 & K2 & K3).
  assert (VO := ar_vout). assert (H3 := ar_wit _ _ _ _ _ _ _ _ _ _ _ _ _ _ _ _ _ _ _ _ _ _ _ _ _ _ _ _ _ _ AR).
  destruct (frame_script args t (s_tx s) 0 o F) as (u' & E' & S & Q); [rewrite VO; reflexivity|]. assert (u' = o) by (apply Q; reflexivity). subst u'.
  split; [rewrite K2; exact E'|]. rewrite K3.
  assert (OW := fr_outwit _ _ _ _ _ F 0%nat ltac:(intros W; apply W; reflexivity)). unfold outwit_at in OW. cbn [t joined wit vtxoutwit] in OW.
  assert (NW := fr_noutwit _ _ _ _ _ F). cbn [t joined wit vtxoutwit] in NW. rewrite !app_length in NW. cbn [repeat length] in NW.
  destruct (vtxoutwit (wit partial)) as [|w0 ws]; [discriminate H3|]. injection H3 as ->. destruct (vtxoutwit (wit (s_tx s))) as [|w1 ws1]; [cbn [length] in NW; lia|]. cbn [nth nth_error app] in OW |- *. congruence.
Qed.
Lemma ar_gets : Gets z T 0 bkey (f_asset bob_offer) (f_amount bob_offer).
Proof.
  destruct ar_wit0 as [EO EW]. destruct AR as [H1 H2 H3 H4 H5 H6 H7 H8 H9 H10 H11 H12 H13 H14 H15]. destruct H4 as (r & ER & ED).
  exists o, d. split; [exact EO|]. split; [|auto]. exact (unblind_opens _ _ _ _ _ _ _ _ EW ER ED).
Qed.
End Alice.

(** The receiver of a blinded output reads it, also from a transaction that was signed afterwards. *)
Lemma plain_gets z rand descs pubs gens t n bfs abfs s T j key o amount asset script : SizesOk z -> RandOk z rand -> CodecLaws z -> RewindLaw z -> KeyLaws z ->
  blind_transaction z rand (plain_args descs pubs gens) t = (Ret (BSuccess n bfs abfs), s) ->
  sk_valid z key = true -> nth_error pubs j = Some (sk_pub z key) -> nth_error (vout t) j = Some o -> output_of amount asset script = Ok o -> 0 <= amount <= money ->
  vout T = vout (s_tx s) -> vtxoutwit (wit T) = vtxoutwit (wit (s_tx s)) -> Gets z T j key asset amount.
Proof.
  intros SZ RO CL RL KL B SK EP EO OO RG K2 K3. assert (NN := plain_count _ _ _ _ _ _ _ _ _ _ B). apply output_of_Ok in OO. destruct OO as (v & a & sc & -> & EV & EA & _).
  assert (V1 : ExplicitValue v amount) by (apply made_amount; [exact EV|exact RG]).
  assert (A1 : ExplicitAsset a asset) by (apply to_asset_explicit, asset_back; [exact (asset_len _ _ EA)|exact EA]).
  assert (WL : (j < length (vtxoutwit (wit (s_tx s))))%nat).
  { assert (LJ : (j < length (vout t))%nat) by (apply nth_error_Some; congruence).
    destruct (blind_success z rand _ t _ _ _ _ B) as (_ & _ & Q). destruct (Q NN) as (targets & _ & [[AB _]|(pre & j0 & _ & AB & _)]); apply ab_nwit in AB; lia. }
  assert (W0 : nth_error (vtxoutwit (wit (s_tx s))) j = Some (outwit_at (s_tx s) j)) by (unfold outwit_at; apply nth_error_nth'; exact WL).
  destruct (C48_receiver_unblinds _ _ _ _ _ _ _ _ j key _ _ _ SZ RO CL RL KL B NN SK EP EO V1 A1) as [(u & bf & abf & EU & _ & _ & S & _ & _ & VC)|(pre & _ & EU & _)].
  - exists u, (mkDesc asset amount bf abf). rewrite K2. split; [exact EU|]. split; [|split; reflexivity]. right. split.
    { destruct VC as (p & q & -> & L & _). unfold conf_is_explicit. rewrite blen_cons, L. reflexivity. }
    exists (outwit_at (s_tx s) j). eexists. rewrite K3. split; [exact W0|]. split; [apply S; exact (proj2 RG)|reflexivity].
  - exists (mkTxOut v sc a []), (mkDesc asset amount (zeros 32) (zeros 32)). rewrite K2. split; [exact EU|]. split; [|split; reflexivity].
    left. exists asset, amount. cbn [nAsset nValue]. split; [apply asset_back; [exact (asset_len _ _ EA)|exact EA]|]. split; [apply value_back; exact EV|reflexivity].
Qed.

(** * Bob *)
Lemma bob_reads_inv z t keys : forall offers n k T b, bob_reads z t n keys offers k = Sends T b ->
  k = Sends T b /\ forall m f, nth_error offers m = Some f -> exists key, nth_error keys (n + m) = Some key /\ Gets z t (n + m + 1) key (f_asset f) (f_amount f).
Proof.
  induction offers as [|f offers IH]; intros n k T b H; cbn [bob_reads] in H.
  - split; [exact H|]. intros [|m] g E; discriminate E.
  - apply bindT_sends in H. destruct H as (o & EO & H). apply bindT_sends in H. destruct H as (key & EK & H). apply bindT_sends in H. destruct H as (w & EW & H).
    apply bindT_sends in H. destruct H as (r & ER & H). apply nth_res_Ok in EO, EK, EW. destruct (get_descriptor r) as [d|] eqn:ED; [|discriminate H].
    destruct (bytes_eqb (d_asset d) (f_asset f)) eqn:EA; cbn [negb] in H; [|discriminate H]. apply bytes_eqb_eq in EA.
    destruct (Z.eqb_spec (d_amount d) (f_amount f)) as [EM|]; cbn [negb] in H; [|discriminate H].
    destruct (IH _ _ _ _ H) as [HK HM]. split; [exact HK|]. intros [|m] g E; cbn [nth_error] in E.
    + injection E as <-. exists key. rewrite Nat.add_0_r. split; [exact EK|]. exists o, d. split; [exact EO|]. split; [|auto]. exact (unblind_opens _ _ _ _ _ _ _ _ EW ER ED).
    + destruct (HM m g E) as (key' & K1 & K2). rewrite <- Nat.add_succ_comm. exists key'. auto.
Qed.
Lemma gets_same z t t' j key asset amount : vout t' = vout t -> vtxoutwit (wit t') = vtxoutwit (wit t) -> Gets z t j key asset amount -> Gets z t' j key asset amount.
Proof. intros E1 E2 (o & d & EO & OP & Q). exists o, d. rewrite E1. split; [exact EO|]. split; [|exact Q]. unfold Opens in *. rewrite E2. exact OP. Qed.
Lemma bob_inv z dw legacy Hash160 sign me keys offers semi T b : bob_signs z dw legacy Hash160 sign me keys offers semi = Sends T b ->
  exists t, tx_deserialize dw semi = Ok t /\ length (vout t) = (length offers + 3)%nat
    /\ (exists o, nth_error (vout t) (length offers + 2) = Some o /\ txout_is_fee o = true)
    /\ (forall m f, nth_error offers m = Some f -> exists key, nth_error keys m = Some key /\ Gets z t (m + 1) key (f_asset f) (f_amount f))
    /\ sign_input z legacy Hash160 sign t 0 me = Ok T /\ tx_serialize T = Ok b.
Proof.
  unfold bob_signs. intros H. apply bindT_sends in H. destruct H as (t & ET & H). destruct (Nat.eqb_spec (length (vout t)) (length offers + 3)) as [L|]; cbn [negb] in H; [|discriminate H].
  apply bindT_sends in H. destruct H as (o & EO & H). apply nth_res_Ok in EO. destruct (txout_is_fee o) eqn:FE; cbn [negb] in H; [|discriminate H].
  apply bob_reads_inv in H. destruct H as [H R]. apply bindT_sends in H. destruct H as (T' & SG & H). apply bindT_sends in H. destruct H as (b' & SB & H). injection H as -> ->.
  exists t. split; [exact ET|]. split; [exact L|]. split.
  { exists o. split; [|exact FE]. destruct (rev (vout t)) as [|x l] eqn:RV; [discriminate EO|]. injection EO as ->. assert (Q := f_equal (@rev _) RV). rewrite rev_involutive in Q. cbn [rev] in Q.
    rewrite Q in L |- *. rewrite app_length in L. cbn [length] in L. rewrite nth_error_app2 by lia. replace (length offers + 2 - length (rev l))%nat with 0%nat by lia. reflexivity. }
  split; [exact R|]. auto.
Qed.
