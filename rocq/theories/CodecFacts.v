(** Remaining lemmas for the codec properties. *)
From Verif Require Import Base BaseFacts Serialize ParserFacts TxModel SpecWire TxProofs TxProofs2.
Local Open Scope Z_scope.

(** * Which exceptions a deserializer can raise *)
Definition raises {A} (P : exn -> Prop) (p : parser A) : Prop := forall s e, p s = Raise e -> P e.
Definition io_err (e : exn) : Prop := e = ETruncation \/ e = ESerialization.
Definition codec_err (e : exn) : Prop := io_err e \/ e = EWitnessSerialization.

Lemma raises_bind {A B} P (p : parser A) (k : A -> parser B) :
  raises P p -> (forall a, raises P (k a)) -> raises P (pbind p k).
Proof.
  intros H1 H2 s e. unfold pbind. destruct (p s) as [[a r]|e'] eqn:E; intros H.
  - eapply H2; eassumption.
  - inversion H; subst. eapply H1; eassumption.
Qed.
Lemma raises_pret {A} P (a : A) : raises P (pret a).
Proof. intros s e H. discriminate. Qed.
Lemma raises_weaken {A} (P Q : exn -> Prop) (p : parser A) : (forall e, P e -> Q e) -> raises P p -> raises Q p.
Proof. intros H1 H2 s e H. apply H1. eapply H2; eassumption. Qed.
Lemma raises_ser_read n : raises io_err (ser_read n).
Proof.
  intros s e. unfold ser_read, io_err. destruct (MAX_SIZE <? n); [intros H; inversion H; auto|].
  destruct (blen s <? n); [intros H; inversion H; auto|discriminate].
Qed.
Lemma raises_read_le n : raises io_err (read_le n).
Proof. apply raises_bind; [apply raises_ser_read|]. intros; apply raises_pret. Qed.
Lemma raises_varint : raises io_err deser_varint.
Proof.
  apply raises_bind; [apply raises_ser_read|]. intros c. cbv zeta.
  repeat match goal with |- context [if ?b then _ else _] => destruct b end;
    first [apply raises_pret | apply raises_read_le].
Qed.
Lemma raises_bytes : raises io_err deser_bytes.
Proof. apply raises_bind; [apply raises_varint|]. intros; apply raises_ser_read. Qed.
Lemma raises_prep_nat {A} P (p : parser A) k : raises P p -> raises P (prep_nat p k).
Proof.
  intros H. induction k; cbn; [apply raises_pret|].
  apply raises_bind; [assumption|]. intros. apply raises_bind; [assumption|]. intros; apply raises_pret.
Qed.
Lemma raises_vector {A} (P : exn -> Prop) (p : parser A) :
  (forall e, io_err e -> P e) -> raises P p -> raises P (deser_vector p).
Proof.
  intros HP H. intros s e. unfold deser_vector, pbind. destruct (deser_varint s) as [[n r]|e'] eqn:E; intros HH.
  - pose proof (deser_varint_nonneg _ _ _ E). rewrite prep_nat_Z in HH by lia.
    eapply (raises_prep_nat P); eassumption.
  - inversion HH; subst. apply HP. eapply raises_varint; eassumption.
Qed.
Lemma raises_conf c : raises codec_err (deser_conf c).
Proof.
  intros s e H. unfold deser_conf in H. unfold pbind at 1 in H.
  destruct (ser_read 1 s) as [[v rest]|] eqn:E; [|inversion H; subst; left; eapply raises_ser_read; eassumption].
  cbv zeta in H.
  assert (G : forall q, (q = 0 \/ q = explicitSize c \/ q = committedSize) ->
     (do! commitment := (if 0 <? q then do! t := ser_read (q - 1) in pret ([zb (le_val v)] ++ t) else pret []) in
      (fun s => match conf_new c commitment with Ok x => Ok (x, s) | Raise e => Raise e end)) rest = Raise e -> codec_err e).
  { intros q Hq HH. unfold pbind at 1 in HH. destruct (Z.ltb_spec 0 q).
    - unfold pbind in HH. destruct (ser_read (q - 1) rest) as [[t r2]|] eqn:E2.
      + apply ser_read_inv in E2; [|lia]. destruct E2 as (_ & HL & _). unfold pret in HH. unfold conf_new in HH.
        cbn [app] in HH. rewrite blen_cons in HH.
        replace ((1 + blen t =? 0) || (1 + blen t =? explicitSize c) || (1 + blen t =? committedSize)) with true in HH; [discriminate|].
        destruct Hq as [?|[?|?]]; lia.
      + inversion HH; subst. left. eapply raises_ser_read; eassumption.
    - unfold pret in HH. cbn in HH. discriminate. }
  unfold pbind at 1 in H.
  destruct (le_val v =? 0); [unfold pret at 1 in H; apply (G 0); auto|].
  destruct (le_val v =? 1); [unfold pret at 1 in H; apply (G (explicitSize c)); auto|].
  destruct ((le_val v =? prefixA c) || (le_val v =? prefixB c)); [unfold pret at 1 in H; apply (G committedSize); auto|].
  unfold pfail in H. inversion H; subst. right; reflexivity.
Qed.
Lemma raises_outpoint : raises io_err deser_outpoint.
Proof.
  intros s e. unfold deser_outpoint, pbind.
  destruct (ser_read 32 s) as [[h r]|e'] eqn:E1; [|intros H; inversion H; subst; eapply raises_ser_read; eassumption].
  destruct (read_le 4 r) as [[n r2]|e'] eqn:E2; [|intros H; inversion H; subst; eapply raises_read_le; eassumption].
  apply ser_read_inv in E1; [|lia]. apply read_le_range in E2.
  rewrite outpoint_new_ok; [discriminate|lia|]. exact E2.
Qed.
Lemma io_codec e : io_err e -> codec_err e. Proof. left; assumption. Qed.
Lemma raises_issuance : raises codec_err deser_issuance.
Proof.
  repeat (apply raises_bind; [first [apply raises_conf | eapply raises_weaken; [apply io_codec|apply raises_ser_read]] | intros]).
  apply raises_pret.
Qed.
Lemma raises_txin : raises codec_err deser_txin.
Proof.
  intros s e. unfold deser_txin. unfold pbind at 1.
  destruct (deser_outpoint s) as [[o r]|e'] eqn:E1;
    [|intros H; inversion H; subst; left; eapply raises_outpoint; eassumption].
  apply deser_outpoint_inv in E1. destruct E1 as (HL & HN & _).
  set (k := fun bsig : bytes => _).
  apply (raises_bind codec_err deser_bytes k); [apply (raises_weaken io_err); [apply io_codec|apply raises_bytes]|].
  intros bsig. unfold k. apply raises_bind; [apply (raises_weaken io_err); [apply io_codec|apply raises_read_le]|].
  intros q. apply raises_bind.
  - destruct (op_n o =? 0xffffffff); [apply raises_pret|]. cbv zeta. intros s' e' H.
    rewrite outpoint_new_ok in H; [discriminate|assumption|]. rewrite land_mask. change (2 ^ 32) with 4294967296. change (2 ^ 30) with 1073741824. lia.
  - intros [[h p] o']. apply raises_bind; [destruct h; [apply raises_issuance|apply raises_pret]|]. intros; apply raises_pret.
Qed.
Lemma raises_txout : raises codec_err deser_txout.
Proof.
  repeat (apply raises_bind; [first [apply raises_conf | eapply raises_weaken; [apply io_codec|apply raises_bytes]] | intros]).
  apply raises_pret.
Qed.
Lemma raises_stack : raises io_err deser_scriptwitness.
Proof. apply raises_vector; [auto|apply raises_bytes]. Qed.
Lemma raises_txwit a b : raises io_err (deser_txwit a b).
Proof.
  unfold deser_txwit. apply raises_bind.
  - apply raises_prep_nat. repeat (apply raises_bind; [first [apply raises_bytes|apply raises_stack]|intros]). apply raises_pret.
  - intros. apply raises_bind; [|intros; apply raises_pret].
    apply raises_prep_nat. repeat (apply raises_bind; [apply raises_bytes|intros]). apply raises_pret.
Qed.

(** Body of a flagged/unflagged transaction up to and including the locktime. *)
Lemma deser_tx_err dw s e : deser_tx dw s = Raise e ->
  codec_err e \/
  (e = EValue /\ exists v vi vo lt w r1 r2 r3 r4 r5,
     read_le 4 s = Ok (v, r1) /\ read_le 1 r1 = Ok (1, r2) /\ deser_vector deser_txin r2 = Ok (vi, r3)
     /\ deser_vector deser_txout r3 = Ok (vo, r4) /\ read_le 4 r4 = Ok (lt, r5)
     /\ (exists r6, deser_txwit (length vi) (length vo) r5 = Ok (w, r6)) /\ NullWit w).
Proof.
  intros H. unfold deser_tx in H.
  assert (RI : raises codec_err (deser_vector deser_txin)) by (apply raises_vector; [apply io_codec|apply raises_txin]).
  assert (RO : raises codec_err (deser_vector deser_txout)) by (apply raises_vector; [apply io_codec|apply raises_txout]).
  unfold pbind at 1 in H. destruct (read_le 4 s) as [[v r1]|] eqn:E1;
    [|inversion H; subst; left; left; eapply raises_read_le; eassumption].
  cbv zeta in H.
  unfold pbind at 1 in H. destruct (read_le 1 r1) as [[fl r2]|] eqn:E2;
    [|inversion H; subst; left; left; eapply raises_read_le; eassumption].
  destruct (Z.eqb_spec fl 1) as [->|NF].
  - unfold pbind at 1 in H. destruct (deser_vector deser_txin r2) as [[vi r3]|] eqn:E3;
      [|inversion H; subst; left; eapply RI; eassumption].
    unfold pbind at 1 in H. destruct (deser_vector deser_txout r3) as [[vo r4]|] eqn:E4;
      [|inversion H; subst; left; eapply RO; eassumption].
    unfold pbind at 1 in H. destruct (read_le 4 r4) as [[lt r5]|] eqn:E5;
      [|inversion H; subst; left; left; eapply raises_read_le; eassumption].
    unfold pbind at 1 in H. destruct (deser_txwit (length vi) (length vo) r5) as [[w r6]|] eqn:E6;
      [|inversion H; subst; left; left; eapply raises_txwit; eassumption].
    destruct (txwit_is_null w) eqn:EN; [|discriminate].
    unfold pfail in H. inversion H; subst. right. split; [reflexivity|].
    exists v, vi, vo, lt, w, r1, r2, r3, r4, r5. do 5 (split; [first [assumption|reflexivity]|]). split; [eauto|].
    apply txwit_is_null_iff, EN.
  - left. refine (raises_bind codec_err _ _ _ _ r2 e H); [exact RI|]. intros vi.
    apply raises_bind; [assumption|]. intros vo.
    apply raises_bind; [apply (raises_weaken io_err); [apply io_codec|apply raises_read_le]|]. intros; apply raises_pret.
Qed.

(** * Determinacy of the wire format *)
Lemma W_varint_fun z b b' : W_varint z b -> W_varint z b' -> b = b'.
Proof.
  intros H1 H2. pose proof (W_varint_range _ _ H1).
  apply ser_varint_iff in H1; [|lia]. apply ser_varint_iff in H2; [|lia]. congruence.
Qed.

Lemma W_tx_fun iw sh t b b' : W_tx iw sh t b -> W_tx iw sh t b' -> b = b'.
Proof. rewrite <- !ser_tx_iff. congruence. Qed.

(** * Witness-free injectivity *)
Definition strip (t : tx) : tx := mkTx (vin t) (vout t) (nLockTime t) (nVersion t) (mkTxWit [] []).

Lemma strip_ser t : ser_tx false false t = ser_tx true false (strip t).
Proof. unfold ser_tx. cbn. reflexivity. Qed.

Lemma strip_null t : NullWit (wit (strip t)).
Proof. split; constructor. Qed.

(** * Confidential fields *)
Lemma conf_valid_of_roundtrip c x r : deser_conf c (ser_conf x ++ r) = Ok (x, r) -> ConfForm c x.
Proof. intros H. apply deser_conf_inv in H. tauto. Qed.

Lemma num_issuances_acc l acc :
  fold_left (fun acc i =>
    let iss := assetIssuance i in
    if negb (issuance_is_null iss) then
      let acc := if negb (conf_is_null (is_amount iss)) then acc + 1 else acc in
      if negb (conf_is_null (is_keys iss)) then acc + 1 else acc
    else acc) l acc
  = acc + Z.of_nat (length (filter (fun i => match is_amount (assetIssuance i) with [] => false | _ => true end) l))
        + Z.of_nat (length (filter (fun i => match is_keys (assetIssuance i) with [] => false | _ => true end) l)).
Proof.
  revert acc; induction l as [|i l IH]; intros acc; [cbn [fold_left filter length]; lia|].
  cbn [fold_left filter]. rewrite IH. clear IH.
  unfold issuance_is_null, conf_is_null.
  destruct (is_amount (assetIssuance i)) as [|x a]; destruct (is_keys (assetIssuance i)) as [|y k]; cbn [length];
    rewrite ?blen_cons, ?blen_nil; cbn [negb andb Z.eqb];
    repeat match goal with |- context [1 + blen ?z =? 0] =>
      replace (1 + blen z =? 0) with false by (pose proof (blen_nonneg z); lia) end; cbn [negb andb]; lia.
Qed.
