(** Property C91: what reading a transaction from untrusted bytes can end in. *)
From Verif Require Import Base BaseFacts Serialize ParserFacts TxModel SpecWire CodecFacts TxProofs TxProofs2 PropCodec SpecRead ReadProofs ReadProofs2.
Local Open Scope Z_scope.

(** Only these exceptions come out. *)
Theorem C91_errors : forall dw s e, tx_deserialize dw s = Raise e ->
  e = ETruncation \/ e = ESerialization \/ e = EWitnessSerialization \/ e = EValue \/ e = EExtraData.
Proof.
  intros dw s e. unfold tx_deserialize, deserialize_all. destruct (deser_tx dw s) as [[t [|x r]]|e'] eqn:E.
  - discriminate.
  - intros [= <-]. auto 6.
  - intros [= <-]. apply raises_tx in E. cbn in E. intuition auto.
Qed.
Theorem C91_no_other : forall dw s, tx_deserialize dw s <> Raise EStruct /\ tx_deserialize dw s <> Raise EIndex
  /\ tx_deserialize dw s <> Raise EAssert /\ tx_deserialize dw s <> Raise EType /\ tx_deserialize dw s <> Raise ETxInSerialization.
Proof. intros dw s. repeat split; intros H; apply C91_errors in H; intuition discriminate. Qed.

Lemma all_ok dw s t : tx_deserialize dw s = Ok t <-> deser_tx dw s = Ok (t, []).
Proof.
  unfold tx_deserialize, deserialize_all. destruct (deser_tx dw s) as [[t' [|x r]]|e]; split; intros H; inversion H; reflexivity.
Qed.
Lemma all_raise dw s e : e <> EExtraData -> tx_deserialize dw s = Raise e <-> deser_tx dw s = Raise e.
Proof.
  intros N. unfold tx_deserialize, deserialize_all. destruct (deser_tx dw s) as [[t' [|x r]]|e']; split; congruence.
Qed.

(** Left-over bytes: exactly when a shorter text is a transaction. *)
Theorem C91_extra : forall dw s, tx_deserialize dw s = Raise EExtraData <->
  exists p q t, s = p ++ q /\ q <> [] /\ tx_deserialize dw p = Ok t.
Proof.
  intros dw s. split.
  - unfold tx_deserialize at 1, deserialize_all. destruct (deser_tx dw s) as [[t [|x r]]|e] eqn:E; try discriminate.
    + intros _. destruct (local_ok _ (local_deser_tx dw) _ _ _ E) as (c & -> & H).
      exists c, (x :: r), t. repeat split; [discriminate|]. apply all_ok. rewrite <- (app_nil_r c). apply H.
    + intros [= ->]. apply raises_tx in E. cbn in E. intuition discriminate.
  - intros (p & q & t & -> & N & H). apply all_ok in H. apply (local_ext _ _ _ _ q (local_deser_tx dw)) in H.
    unfold tx_deserialize, deserialize_all. rewrite H. destruct q; [congruence|reflexivity].
Qed.

(** Any other rejection is final: no bytes that follow change it. *)
Theorem C91_final : forall dw s e q, tx_deserialize dw s = Raise e -> e <> ETruncation ->
  tx_deserialize dw (s ++ q) = Raise e.
Proof.
  intros dw s e q H N. destruct (exn_eq_dec e EExtraData) as [->|NE].
  - apply C91_extra in H. destruct H as (p & r & t & -> & Nr & H). apply C91_extra.
    exists p, (r ++ q), t. rewrite app_assoc. repeat split; [|exact H]. destruct r; [congruence|discriminate].
  - rewrite all_raise in * by assumption. apply (local_err _ (local_deser_tx dw)); assumption.
Qed.

(** Truncation is reported for every proper beginning of a transaction ... *)
Theorem C91_beginning : forall dw s q t, tx_deserialize dw (s ++ q) = Ok t -> q <> [] ->
  tx_deserialize dw s = Raise ETruncation.
Proof.
  intros dw s q t H N. destruct (tx_deserialize dw s) as [t'|e] eqn:E.
  - assert (X : tx_deserialize dw (s ++ q) = Raise EExtraData) by (apply C91_extra; exists s, q, t'; auto). congruence.
  - destruct (exn_eq_dec e ETruncation) as [->|NE]; [reflexivity|]. rewrite (C91_final _ _ _ q E NE) in H. discriminate.
Qed.
(** ... and for nothing else, but for texts that eight more bytes, whatever they are, show to be bad. *)
Theorem C91_truncated : forall dw s, tx_deserialize dw s = Raise ETruncation ->
  (exists q t, q <> [] /\ tx_deserialize dw (s ++ q) = Ok t)
  \/ forall q, 8 <= blen q -> tx_deserialize dw (s ++ q) = Raise ESerialization \/ tx_deserialize dw (s ++ q) = Raise EValue.
Proof.
  intros dw s H. rewrite all_raise in H by discriminate. destruct (ends_tx dw s H) as [(q & t & X & _)|(k & L & D)].
  - left. exists q, t. split; [|apply all_ok, X]. intros ->. rewrite app_nil_r in X. congruence.
  - right. intros q Lq. destruct (D q ltac:(unfold blen in Lq; lia)) as (e & X & [-> | ->]); [left|right]; apply all_raise; congruence.
Qed.
(** The natural claim, that a truncated text is always the beginning of a transaction, is false:
    a script length of the nine-byte form with its first bytes above the limit ... *)
Theorem C91_truncated_refuted : exists s, forall dw, tx_deserialize dw s = Raise ETruncation
  /\ forall q t, tx_deserialize dw (s ++ q) <> Ok t.
Proof.
  exists (zeros 4 ++ [x00; x01] ++ zeros 36 ++ [xff; xff; xff; xff; xff]). intros dw. split; [vm_compute; reflexivity|].
  intros q t H.
  assert (D : forall r, 4 <= blen r -> tx_deserialize dw ((zeros 4 ++ [x00; x01] ++ zeros 36 ++ [xff; xff; xff; xff; xff]) ++ r) = Raise ESerialization).
  { intros r L. destruct r as [|b1 [|b2 [|b3 [|b4 r]]]]; unfold blen in L; cbn [length] in L; try lia. clear L.
    apply all_raise; [discriminate|].
    assert (P : deser_txin (zeros 36 ++ [xff; xff; xff; xff; xff; b1; b2; b3; b4] ++ r) = Raise ESerialization).
    { rewrite txin_eq. unfold pbind at 1.
      assert (O : deser_outpoint (zeros 36 ++ [xff; xff; xff; xff; xff; b1; b2; b3; b4] ++ r)
                  = Ok (mkOutPoint (zeros 32) 0, [xff; xff; xff; xff; xff; b1; b2; b3; b4] ++ r)).
      { apply (local_ext deser_outpoint (zeros 36) _ []); [apply local_deser_outpoint|vm_compute; reflexivity]. }
      rewrite O. unfold pbind at 1. change ([xff; xff; xff; xff; xff; b1; b2; b3; b4] ++ r) with ((xff :: [xff; xff; xff; xff]) ++ [b1; b2; b3; b4] ++ r).
      rewrite (bytes_of xff 8 [xff; xff; xff; xff] r [b1; b2; b3; b4]); [|auto|reflexivity].
      rewrite le_val_app. change (le_val [xff; xff; xff; xff]) with 4294967295.
      pose proof (le_val_range [b1; b2; b3; b4]) as R. change (256 ^ blen [xff; xff; xff; xff]) with 4294967296.
      unfold ser_read. destruct (Z.ltb_spec MAX_SIZE (4294967295 + 4294967296 * le_val [b1; b2; b3; b4])) as [|G]; [reflexivity|].
      unfold MAX_SIZE in G. lia. }
    change ((zeros 4 ++ [x00; x01] ++ zeros 36 ++ [xff; xff; xff; xff; xff]) ++ b1 :: b2 :: b3 :: b4 :: r)
      with ((zeros 4 ++ [x00]) ++ x01 :: zeros 36 ++ [xff; xff; xff; xff; xff; b1; b2; b3; b4] ++ r).
    remember (zeros 36 ++ [xff; xff; xff; xff; xff; b1; b2; b3; b4] ++ r) as body eqn:EB. clear EB.
    unfold deser_tx. unfold pbind at 1.
    change ((zeros 4 ++ [x00]) ++ x01 :: body) with (zeros 4 ++ x00 :: x01 :: body).
    rewrite (read_le_app 4 (zeros 4)); [|reflexivity|unfold MAX_SIZE; cbn; lia]. cbv zeta. unfold pbind at 1.
    change (x00 :: x01 :: body) with ([x00] ++ x01 :: body).
    rewrite (read_le_app 1 [x00] (x01 :: body)); [|reflexivity|unfold MAX_SIZE; cbn; lia].
    change (le_val [x00] =? 1) with false. cbv iota. unfold pbind at 1, deser_vector at 1, pbind at 1.
    assert (V : deser_varint (x01 :: body) = Ok (1, body)) by (unfold deser_varint, pbind; rewrite ser_read_1; reflexivity).
    rewrite V. cbn [prep prep_pos]. unfold pbind at 1. rewrite P. reflexivity. }
  assert (X : tx_deserialize dw (((zeros 4 ++ [x00; x01] ++ zeros 36 ++ [xff; xff; xff; xff; xff]) ++ q) ++ zeros 4) = Raise EExtraData).
  { apply C91_extra. exists ((zeros 4 ++ [x00; x01] ++ zeros 36 ++ [xff; xff; xff; xff; xff]) ++ q), (zeros 4), t. repeat split; [discriminate|exact H]. }
  rewrite <- app_assoc, D in X; [discriminate|]. rewrite blen_app, zeros_blen. pose proof (blen_nonneg q). lia.
Qed.
(** ... and a text flagged as carrying a witness, with no inputs and no outputs. *)
Theorem C91_flagged_empty_refuted : exists s, forall dw, tx_deserialize dw s = Raise ETruncation
  /\ forall q t, tx_deserialize dw (s ++ q) <> Ok t.
Proof.
  exists (zeros 4 ++ [x01; x00; x00]). intros dw. split; [vm_compute; reflexivity|]. intros q t H.
  assert (D : forall r, 4 <= blen r -> tx_deserialize dw ((zeros 4 ++ [x01; x00; x00]) ++ r) = Raise EValue).
  { intros r L. destruct r as [|b1 [|b2 [|b3 [|b4 r]]]]; unfold blen in L; cbn [length] in L; try lia. clear L.
    apply all_raise; [discriminate|].
    change ((zeros 4 ++ [x01; x00; x00]) ++ b1 :: b2 :: b3 :: b4 :: r) with (zeros 4 ++ [x01] ++ [x00] ++ [x00] ++ [b1; b2; b3; b4] ++ r).
    unfold deser_tx. unfold pbind at 1. rewrite (read_le_app 4 (zeros 4)); [|reflexivity|unfold MAX_SIZE; cbn; lia]. cbv zeta.
    unfold pbind at 1. rewrite (read_le_app 1 [x01]); [|reflexivity|unfold MAX_SIZE; cbn; lia]. change (le_val [x01] =? 1) with true. cbv iota.
    assert (V : forall u, deser_varint ([x00] ++ u) = Ok (0, u)) by (intros u; unfold deser_varint, pbind; cbn [app]; rewrite ser_read_1; reflexivity).
    unfold pbind at 1, deser_vector at 1, pbind at 1. rewrite V. cbn [prep]. unfold pret at 1.
    unfold pbind at 1, deser_vector at 1, pbind at 1. rewrite V. cbn [prep]. unfold pret at 1.
    unfold pbind at 1. rewrite (read_le_app 4 [b1; b2; b3; b4]); [|reflexivity|unfold MAX_SIZE; cbn; lia]. reflexivity. }
  assert (X : tx_deserialize dw (((zeros 4 ++ [x01; x00; x00]) ++ q) ++ zeros 4) = Raise EExtraData).
  { apply C91_extra. exists ((zeros 4 ++ [x01; x00; x00]) ++ q), (zeros 4), t. repeat split; [discriminate|exact H]. }
  rewrite <- app_assoc, D in X; [discriminate|]. rewrite blen_app, zeros_blen. pose proof (blen_nonneg q). lia.
Qed.

(** What comes out is no larger than what went in. *)
Theorem C91_bounded : forall dw s t, tx_deserialize dw s = Ok t ->
  body_room t <= blen s
  /\ (wit t = dw (vin t) (vout t) \/ body_room t + wit_room t <= blen s).
Proof.
  intros dw s t H. apply all_ok, sized_tx in H. rewrite blen_nil in H.
  assert (N : 0 <= wit_room t).
  { unfold wit_room.
    assert (T : forall {A} (f : A -> Z) l, (forall a, 0 <= f a) -> 0 <= total f l)
      by (intros A f l F; induction l as [|a l IH]; cbn [total]; [lia|]; specialize (F a); lia).
    assert (IT : forall b, 0 <= item_room b) by (intros b; unfold item_room; pose proof (blen_nonneg b); lia).
    assert (0 <= total inwit_room (vtxinwit (wit t))).
    { apply T. intros w. unfold inwit_room. pose proof (blen_nonneg (iw_issproof w)). pose proof (blen_nonneg (iw_keysproof w)).
      pose proof (T _ _ (iw_script w) IT). pose proof (T _ _ (iw_pegin w) IT). lia. }
    assert (0 <= total outwit_room (vtxoutwit (wit t))).
    { apply T. intros w. unfold outwit_room. pose proof (blen_nonneg (ow_surj w)). pose proof (blen_nonneg (ow_range w)). lia. }
    lia. }
  destruct H as [(E & L)|L]; [split; [lia|left; exact E]|split; [lia|right; lia]].
Qed.
(** In particular the numbers of inputs and outputs, which the text states, cannot run away. *)
Theorem C91_counts : forall dw s t, tx_deserialize dw s = Ok t ->
  41 * Z.of_nat (length (vin t)) + 4 * Z.of_nat (length (vout t)) + 11 <= blen s.
Proof.
  intros dw s t H. apply C91_bounded in H. destruct H as (H & _). unfold body_room in H.
  assert (I : 41 * Z.of_nat (length (vin t)) <= total in_room (vin t)).
  { clear H. induction (vin t) as [|i l IH]; cbn [total length]; [lia|]. unfold in_room at 1.
    pose proof (blen_nonneg (scriptSig i)). pose proof (blen_nonneg (is_amount (assetIssuance i))). pose proof (blen_nonneg (is_keys (assetIssuance i))). lia. }
  assert (O : 4 * Z.of_nat (length (vout t)) <= total out_room (vout t)).
  { clear I H. induction (vout t) as [|o l IH]; cbn [total length]; [lia|]. unfold out_room at 1.
    pose proof (blen_nonneg (scriptPubKey o)). lia. }
  lia.
Qed.

(** * Examples: each outcome occurs *)
Definition raw1 : bytes := match tx_serialize ex_tx with Ok b => b | Raise _ => [] end.
Example rd_ok : match tx_deserialize nulls_wit raw1 with
  Ok t => (body_room t + wit_room t <=? blen raw1) && (200 <? body_room t) && (0 <? wit_room t) | Raise _ => false end = true.
Proof. vm_compute. reflexivity. Qed.
Example rd_trunc : tx_deserialize nulls_wit (firstn 50 raw1) = Raise ETruncation
  /\ tx_deserialize nulls_wit (firstn 50 raw1 ++ skipn 50 raw1) = tx_deserialize nulls_wit raw1.
Proof. split; [vm_compute; reflexivity|]. rewrite firstn_skipn. reflexivity. Qed.
Example rd_extra : tx_deserialize nulls_wit (raw1 ++ [x00]) = Raise EExtraData.
Proof. vm_compute. reflexivity. Qed.
Example rd_ser : tx_deserialize nulls_wit (zeros 4 ++ [x00; x01] ++ zeros 36 ++ [xfe; x00; x00; x00; x03]) = Raise ESerialization.
Proof. vm_compute. reflexivity. Qed.
Example rd_wser : tx_deserialize nulls_wit (zeros 4 ++ [x00; x00; x01; x02]) = Raise EWitnessSerialization.
Proof. vm_compute. reflexivity. Qed.
Example rd_value : tx_deserialize nulls_wit (zeros 4 ++ [x01; x00; x01; x00; x00; x00; x00] ++ zeros 4 ++ [x00; x00]) = Raise EValue.
Proof. vm_compute. reflexivity. Qed.

Print Assumptions C91_errors.
Print Assumptions C91_no_other.
Print Assumptions C91_extra.
Print Assumptions C91_final.
Print Assumptions C91_beginning.
Print Assumptions C91_truncated.
Print Assumptions C91_truncated_refuted.
Print Assumptions C91_flagged_empty_refuted.
Print Assumptions C91_bounded.
Print Assumptions C91_counts.
