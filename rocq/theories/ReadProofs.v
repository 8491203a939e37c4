(** Proofs for C91: what the deserialiser does with bytes from outside. *)
From Verif Require Import Base BaseFacts Serialize ParserFacts TxModel SpecWire CodecFacts TxProofs TxProofs2 SpecRead.
Local Open Scope Z_scope.

(** * Which exceptions *)
Definition raises {A} (E : list exn) (p : parser A) : Prop := forall s e, p s = Raise e -> In e E.

Lemma raises_incl {A} E F (p : parser A) : raises E p -> incl E F -> raises F p.
Proof. intros H I s e X. apply I, (H s e X). Qed.
Lemma raises_pret {A} E (a : A) : raises E (pret a).
Proof. intros s e H. discriminate. Qed.
Lemma raises_pbind {A B} E (p : parser A) (k : A -> parser B) :
  raises E p -> (forall s a r, p s = Ok (a, r) -> raises E (k a)) -> raises E (pbind p k).
Proof.
  intros P K s e H. unfold pbind in H. destruct (p s) as [[a r]|x] eqn:X; [exact (K _ _ _ X _ _ H)|].
  apply (P s). congruence.
Qed.
Lemma raises_read n : raises [ETruncation; ESerialization] (ser_read n).
Proof. intros s e. unfold ser_read. destruct (_ <? _); [|destruct (_ <? _)]; intros [= <-]; cbn; auto. Qed.
Lemma raises_small n : n <= MAX_SIZE -> raises [ETruncation] (ser_read n).
Proof. intros L s e. unfold ser_read. destruct (Z.ltb_spec MAX_SIZE n); [lia|]. destruct (_ <? _); intros [= <-]; cbn; auto. Qed.
Lemma raises_le n : Z.of_nat n <= MAX_SIZE -> raises [ETruncation] (read_le n).
Proof. intros L. apply raises_pbind; [apply raises_small, L|]. intros. apply raises_pret. Qed.
Lemma raises_varint : raises [ETruncation] deser_varint.
Proof.
  apply raises_pbind; [apply raises_small; unfold MAX_SIZE; lia|]. intros s a r _. cbv zeta.
  destruct (_ <? _); [apply raises_pret|]. destruct (_ =? _); [|destruct (_ =? _)]; apply raises_le; unfold MAX_SIZE; cbn; lia.
Qed.
Lemma raises_bytes : raises [ETruncation; ESerialization] deser_bytes.
Proof.
  apply raises_pbind; [eapply raises_incl; [apply raises_varint|]|]; [intros x [<-|[]]; cbn; auto|].
  intros. apply raises_read.
Qed.
Lemma raises_nat {A} E (p : parser A) n : raises E p -> raises E (prep_nat p n).
Proof.
  intros P. induction n as [|n IH]; cbn [prep_nat]; [apply raises_pret|].
  apply raises_pbind; [exact P|]. intros. apply raises_pbind; [exact IH|]. intros. apply raises_pret.
Qed.
Lemma raises_ext {A} E (p q : parser A) : (forall s, p s = q s) -> raises E q -> raises E p.
Proof. intros X H s e. rewrite X. apply H. Qed.
Lemma raises_vector {A} E (p : parser A) : In ETruncation E -> raises E p -> raises E (deser_vector p).
Proof.
  intros I P. apply raises_pbind; [eapply raises_incl; [apply raises_varint|intros x [<-|[]]; exact I]|].
  intros s n r X. apply deser_varint_nonneg in X.
  apply (raises_ext _ _ (prep_nat p (Z.to_nat n))); [intros; apply prep_nat_Z; lia|]. apply raises_nat, P.
Qed.
Lemma conf_new_size c b : blen b = 0 \/ blen b = explicitSize c \/ blen b = committedSize -> conf_new c b = Ok b.
Proof.
  unfold conf_new. cbv zeta. intros [->|[->| ->]]; rewrite ?Z.eqb_refl, ?orb_true_r; reflexivity.
Qed.
Lemma raises_conf c : raises [ETruncation; EWitnessSerialization] (deser_conf c).
Proof.
  assert (I : incl [ETruncation] [ETruncation; EWitnessSerialization]) by (intros x [<-|[]]; cbn; auto).
  assert (K : forall z n, n = explicitSize c \/ n = committedSize -> raises [ETruncation; EWitnessSerialization]
    (do! commitment := (if 0 <? n then do! t := ser_read (n - 1) in pret ([zb z] ++ t) else pret []) in
     fun s => match conf_new c commitment with Ok x => Ok (x, s) | Raise e => Raise e end)).
  { intros z n N. assert (P : 0 < n <= MAX_SIZE) by (unfold MAX_SIZE, committedSize in *; destruct c; cbn in N; lia).
    destruct (Z.ltb_spec 0 n); [|lia].
    apply raises_pbind.
    - apply raises_pbind; [eapply raises_incl; [apply raises_small; lia|exact I]|]. intros. apply raises_pret.
    - intros s x r H0 s2 e. rewrite conf_new_size; [discriminate|]. right.
      unfold pbind in H0. destruct (ser_read (n - 1) s) as [[t r2]|] eqn:Y; [|discriminate].
      injection H0 as <- <-. apply ser_read_inv in Y; [|lia]. destruct Y as (_ & L & _).
      change (zb z :: t) with ([zb z] ++ t). rewrite blen_app. change (blen [zb z]) with 1.
      destruct N; [left|right]; lia. }
  apply raises_pbind; [eapply raises_incl; [apply raises_small; unfold MAX_SIZE; lia|exact I]|]. intros _ v _ _. cbv zeta.
  destruct (_ =? 0).
  { intros s e. unfold pbind, pret. cbn. discriminate. }
  destruct (_ =? 1); [intros s e; apply K; auto|].
  destruct (_ || _); [intros s e; apply K; auto|].
  intros s e [= <-]. cbn; auto.
Qed.
Lemma raises_outpoint : raises [ETruncation] deser_outpoint.
Proof.
  apply raises_pbind; [apply raises_small; unfold MAX_SIZE; lia|]. intros s h r Hh.
  apply ser_read_inv in Hh; [|lia]. destruct Hh as (_ & Lh & _).
  apply raises_pbind; [apply raises_le; unfold MAX_SIZE; cbn; lia|]. intros s2 n r2 Hn t e.
  apply read_le_range in Hn. change (256 ^ Z.of_nat 4) with 4294967296 in Hn.
  unfold outpoint_new. rewrite Lh. cbn [negb Z.eqb Pos.eqb].
  destruct (Z.leb_spec 0 n); [|lia]. destruct (Z.leb_spec n 0xffffffff); [|lia]. discriminate.
Qed.
Lemma raises_issuance : raises [ETruncation; EWitnessSerialization] deser_issuance.
Proof.
  assert (I : incl [ETruncation] [ETruncation; EWitnessSerialization]) by (intros x [<-|[]]; cbn; auto).
  apply raises_pbind; [eapply raises_incl; [apply raises_small; unfold MAX_SIZE; lia|exact I]|]. intros _ n _ _.
  apply raises_pbind; [eapply raises_incl; [apply raises_small; unfold MAX_SIZE; lia|exact I]|]. intros _ e _ _.
  apply raises_pbind; [apply raises_conf|]. intros _ a _ _.
  apply raises_pbind; [apply raises_conf|]. intros. apply raises_pret.
Qed.

Definition body_errs : list exn := [ETruncation; ESerialization; EWitnessSerialization].
Lemma raises_txin : raises body_errs deser_txin.
Proof.
  assert (I1 : incl [ETruncation] body_errs) by (intros x [<-|[]]; cbn; auto).
  assert (I2 : incl [ETruncation; ESerialization] body_errs) by (intros x [<-|[<-|[]]]; cbn; auto).
  assert (I3 : incl [ETruncation; EWitnessSerialization] body_errs) by (intros x [<-|[<-|[]]]; cbn; auto).
  apply raises_pbind; [eapply raises_incl; [apply raises_outpoint|exact I1]|]. intros s o r Ho.
  apply raises_pbind; [eapply raises_incl; [apply raises_bytes|exact I2]|]. intros _ sg _ _.
  apply raises_pbind; [eapply raises_incl; [apply raises_le; unfold MAX_SIZE; cbn; lia|exact I1]|]. intros _ sq _ _.
  apply raises_pbind.
  - destruct (op_n o =? 0xffffffff); [apply raises_pret|]. cbv zeta. intros t e.
    assert (W : blen (op_hash o) = 32 /\ 0 <= op_n o).
    { revert Ho. unfold deser_outpoint, pbind. destruct (ser_read 32 s) as [[h r1]|] eqn:Eh; [|discriminate].
      destruct (read_le 4 r1) as [[n r2]|] eqn:En; [|discriminate]. unfold outpoint_new.
      apply ser_read_inv in Eh; [|lia]. apply read_le_range in En.
      destruct (negb _); [discriminate|]. destruct (_ && _); [|discriminate]. intros [= <- _]. cbn. split; [apply Eh|lia]. }
    destruct W as (Wh & Wn). unfold outpoint_new. rewrite Wh. cbn [negb Z.eqb Pos.eqb].
    assert (B : 0 <= Z.land (op_n o) OUTPOINT_INDEX_MASK <= 0xffffffff).
    { split; [apply Z.land_nonneg; auto|].
      change OUTPOINT_INDEX_MASK with (Z.ones 30). rewrite Z.land_ones by lia.
      pose proof (Z.mod_pos_bound (op_n o) (2 ^ 30) ltac:(lia)). change (2 ^ 30) with 1073741824 in *. lia. }
    destruct (Z.leb_spec 0 (Z.land (op_n o) OUTPOINT_INDEX_MASK)); [|lia].
    destruct (Z.leb_spec (Z.land (op_n o) OUTPOINT_INDEX_MASK) 0xffffffff); [|lia]. discriminate.
  - intros _ [[hai peg] po] _ _. apply raises_pbind; [|intros; apply raises_pret].
    destruct hai; [|apply raises_pret]. eapply raises_incl; [apply raises_issuance|exact I3].
Qed.
Lemma raises_txout : raises body_errs deser_txout.
Proof.
  assert (I2 : incl [ETruncation; ESerialization] body_errs) by (intros x [<-|[<-|[]]]; cbn; auto).
  assert (I3 : incl [ETruncation; EWitnessSerialization] body_errs) by (intros x [<-|[<-|[]]]; cbn; auto).
  do 3 (apply raises_pbind; [eapply raises_incl; [apply raises_conf|exact I3]|]; intros).
  apply raises_pbind; [eapply raises_incl; [apply raises_bytes|exact I2]|]; intros. apply raises_pret.
Qed.
Lemma raises_stack : raises [ETruncation; ESerialization] deser_scriptwitness.
Proof. apply raises_vector; [cbn; auto|apply raises_bytes]. Qed.
Lemma raises_txwit a b : raises [ETruncation; ESerialization] (deser_txwit a b).
Proof.
  apply raises_pbind; [|intros; apply raises_pbind; [|intros; apply raises_pret]]; apply raises_nat.
  - do 2 (apply raises_pbind; [apply raises_bytes|]; intros).
    do 2 (apply raises_pbind; [apply raises_stack|]; intros). apply raises_pret.
  - do 2 (apply raises_pbind; [apply raises_bytes|]; intros). apply raises_pret.
Qed.

(** The exceptions of the whole deserialiser; [EValue] only when flagged. *)
Lemma raises_tx dw : raises (EValue :: body_errs) (deser_tx dw).
Proof.
  assert (I0 : incl body_errs (EValue :: body_errs)) by (intros x H; cbn; auto).
  assert (I1 : incl [ETruncation] (EValue :: body_errs)) by (intros x [<-|[]]; cbn; auto).
  assert (I2 : incl [ETruncation; ESerialization] (EValue :: body_errs)) by (intros x [<-|[<-|[]]]; cbn; auto).
  assert (T : In ETruncation body_errs) by (cbn; auto).
  assert (L4 : raises (EValue :: body_errs) (read_le 4)) by (eapply raises_incl; [apply raises_le; unfold MAX_SIZE; cbn; lia|exact I1]).
  assert (VI : raises (EValue :: body_errs) (deser_vector deser_txin))
    by (eapply raises_incl; [apply raises_vector; [exact T|apply raises_txin]|exact I0]).
  assert (VO : raises (EValue :: body_errs) (deser_vector deser_txout))
    by (eapply raises_incl; [apply raises_vector; [exact T|apply raises_txout]|exact I0]).
  apply raises_pbind; [exact L4|]. intros _ ver _ _. cbv zeta.
  apply raises_pbind; [eapply raises_incl; [apply raises_le; unfold MAX_SIZE; cbn; lia|exact I1]|]. intros _ fl _ _.
  destruct (fl =? 1).
  - apply raises_pbind; [exact VI|]. intros _ vi _ _. apply raises_pbind; [exact VO|]. intros _ vo _ _.
    apply raises_pbind; [exact L4|]. intros _ lt _ _.
    apply raises_pbind; [eapply raises_incl; [apply raises_txwit|exact I2]|]. intros _ w _ _.
    destruct (txwit_is_null w); [|apply raises_pret]. intros s e [= <-]. cbn; auto.
  - apply raises_pbind; [exact VI|]. intros _ vi _ _. apply raises_pbind; [exact VO|]. intros _ vo _ _.
    apply raises_pbind; [exact L4|]. intros. apply raises_pret.
Qed.

(** * How much is read *)
Definition sized {A} (f : A -> Z) (p : parser A) : Prop :=
  forall s a r, p s = Ok (a, r) -> f a + blen r <= blen s.

Lemma sized_pret {A} (f : A -> Z) a : f a <= 0 -> sized f (pret a).
Proof. intros L s b r [= <- <-]. lia. Qed.
Lemma sized_imp {A} (f g : A -> Z) p : sized f p -> (forall a, g a <= f a) -> sized g p.
Proof. intros H L s a r X. specialize (H s a r X). specialize (L a). lia. Qed.
Lemma sized_pbind {A B} (f : A -> Z) (g : B -> Z) p (k : A -> parser B) :
  sized f p -> (forall s a r, p s = Ok (a, r) -> sized (fun b => g b - f a) (k a)) -> sized g (pbind p k).
Proof.
  intros P K s b r H. unfold pbind in H. destruct (p s) as [[a r1]|] eqn:X; [|discriminate].
  specialize (P _ _ _ X). specialize (K _ _ _ X _ _ _ H). cbv beta in K. lia.
Qed.
Lemma sized_read n : 0 <= n -> sized (fun b => n) (ser_read n).
Proof. intros N s a r H. apply ser_read_inv in H; [|exact N]. destruct H as (-> & L & _). rewrite blen_app. lia. Qed.
Lemma sized_le n : sized (fun _ => Z.of_nat n) (read_le n).
Proof. intros s a r H. apply read_le_inv in H. destruct H as (b & -> & L & _). rewrite blen_app. unfold blen. lia. Qed.
Lemma sized_varint : sized (fun _ => 1) deser_varint.
Proof.
  apply sized_pbind with (f := fun _ => 1); [apply sized_read; lia|]. intros _ c _ _. cbv zeta.
  destruct (_ <? _); [apply sized_pret; lia|].
  destruct (_ =? _); [|destruct (_ =? _)]; (eapply sized_imp; [apply sized_le|]; intros; cbn; lia).
Qed.
Lemma sized_bytes : sized (fun b => 1 + blen b) deser_bytes.
Proof.
  apply sized_pbind with (f := fun _ => 1); [apply sized_varint|]. intros s n r X.
  apply deser_varint_nonneg in X. intros s2 b r2 H. apply ser_read_inv in H; [|lia].
  destruct H as (-> & _ & _). rewrite blen_app. lia.
Qed.
Lemma sized_nat {A} (f : A -> Z) p n : sized f p -> sized (total f) (prep_nat p n).
Proof.
  intros P. induction n as [|n IH]; cbn [prep_nat]; [apply sized_pret; cbn; lia|].
  apply sized_pbind with (f := f); [exact P|]. intros _ a _ _.
  apply sized_pbind with (f := total f); [exact IH|]. intros _ l _ _. apply sized_pret. cbn [total]. lia.
Qed.
Lemma sized_vector {A} (f : A -> Z) p : sized f p -> sized (fun l => 1 + total f l) (deser_vector p).
Proof.
  intros P. apply sized_pbind with (f := fun _ => 1); [apply sized_varint|]. intros s n r X.
  apply deser_varint_nonneg in X. intros s2 l r2 H. rewrite prep_nat_Z in H by lia.
  apply (sized_nat f p _ P) in H. lia.
Qed.
Lemma sized_conf c : sized (fun b => Z.max 1 (blen b)) (deser_conf c).
Proof.
  intros s b r H. apply deser_conf_inv in H. destruct H as (_ & ->). rewrite blen_app.
  destruct b as [|x b]; cbn [ser_conf]; unfold blen; cbn [length]; lia.
Qed.
Lemma sized_outpoint : sized (fun _ => 36) deser_outpoint.
Proof.
  apply sized_pbind with (f := fun _ => 32); [apply sized_read; lia|]. intros _ h _ _.
  apply sized_pbind with (f := fun _ => 4); [apply (sized_le 4)|]. intros _ n _ _ s o r.
  destruct (outpoint_new h n); [|discriminate]. intros [= _ <-]. lia.
Qed.
Lemma sized_issuance : sized (fun i => blen (is_amount i) + blen (is_keys i)) deser_issuance.
Proof.
  apply sized_pbind with (f := fun _ => 32); [apply (sized_read 32); lia|]. intros _ n _ _.
  apply sized_pbind with (f := fun _ => 32); [apply (sized_read 32); lia|]. intros _ e _ _.
  eapply sized_pbind; [apply sized_conf|]. intros _ a _ _.
  eapply sized_pbind; [apply sized_conf|]. intros _ k _ _. apply sized_pret. cbn. lia.
Qed.
Lemma sized_txin : sized in_room deser_txin.
Proof.
  eapply sized_pbind; [apply sized_outpoint|]. intros _ o _ _.
  eapply sized_pbind; [apply sized_bytes|]. intros _ sg _ _.
  eapply sized_pbind; [apply (sized_le 4)|]. intros _ sq _ _.
  apply sized_pbind with (f := fun _ => 0).
  - destruct (op_n o =? 0xffffffff); [apply sized_pret; lia|]. cbv zeta. intros s x r.
    destruct (outpoint_new _ _); [|discriminate]. intros [= _ <-]. lia.
  - intros _ [[hai peg] po] _ _.
    apply sized_pbind with (f := fun i => blen (is_amount i) + blen (is_keys i)).
    + destruct hai; [apply sized_issuance|]. apply sized_pret. cbn. lia.
    + intros _ i _ _. apply sized_pret. unfold in_room. cbn [scriptSig assetIssuance]. lia.
Qed.
Lemma sized_txout : sized out_room deser_txout.
Proof.
  eapply sized_pbind; [apply sized_conf|]. intros _ a _ _.
  eapply sized_pbind; [apply sized_conf|]. intros _ v _ _.
  eapply sized_pbind; [apply sized_conf|]. intros _ n _ _.
  eapply sized_pbind; [apply sized_bytes|]. intros _ sc _ _.
  apply sized_pret. unfold out_room. cbn [nAsset nValue nNonce scriptPubKey]. lia.
Qed.
Lemma sized_stack : sized (fun l => 1 + total item_room l) deser_scriptwitness.
Proof. apply sized_vector, sized_bytes. Qed.
Lemma sized_txwit a b :
  sized (fun w => total inwit_room (vtxinwit w) + total outwit_room (vtxoutwit w)) (deser_txwit a b).
Proof.
  eapply sized_pbind; [apply sized_nat|].
  - instantiate (1 := inwit_room).
    eapply sized_pbind; [apply sized_bytes|]. intros _ x1 _ _.
    eapply sized_pbind; [apply sized_bytes|]. intros _ x2 _ _.
    eapply sized_pbind; [apply sized_stack|]. intros _ x3 _ _.
    eapply sized_pbind; [apply sized_stack|]. intros _ x4 _ _.
    apply sized_pret. unfold inwit_room. cbn [iw_issproof iw_keysproof iw_script iw_pegin]. lia.
  - intros _ wi _ _. eapply sized_pbind; [apply sized_nat|].
    + instantiate (1 := outwit_room).
      eapply sized_pbind; [apply sized_bytes|]. intros _ x1 _ _.
      eapply sized_pbind; [apply sized_bytes|]. intros _ x2 _ _.
      apply sized_pret. unfold outwit_room. cbn [ow_surj ow_range]. lia.
    + intros _ wo _ _. apply sized_pret. cbn [vtxinwit vtxoutwit]. lia.
Qed.
Lemma sized_tx dw s t r : deser_tx dw s = Ok (t, r) ->
  (wit t = dw (vin t) (vout t) /\ body_room t + blen r <= blen s)
  \/ body_room t + wit_room t + blen r <= blen s.
Proof.
  unfold deser_tx. intros H. unfold pbind in H.
  destruct (read_le 4 s) as [[ver r1]|] eqn:E1; [|discriminate]. apply (sized_le 4) in E1. cbv zeta in H.
  destruct (read_le 1 r1) as [[fl r2]|] eqn:E2; [|discriminate]. apply (sized_le 1) in E2.
  destruct (fl =? 1);
    (destruct (deser_vector deser_txin r2) as [[vi r3]|] eqn:E3; [|discriminate]; apply (sized_vector _ _ sized_txin) in E3;
     destruct (deser_vector deser_txout r3) as [[vo r4]|] eqn:E4; [|discriminate]; apply (sized_vector _ _ sized_txout) in E4;
     destruct (read_le 4 r4) as [[lt r5]|] eqn:E5; [|discriminate]; apply (sized_le 4) in E5).
  - destruct (deser_txwit _ _ r5) as [[w r6]|] eqn:E6; [|discriminate]. apply sized_txwit in E6.
    destruct (txwit_is_null w); [discriminate|]. injection H as <- <-. right.
    unfold body_room, wit_room. cbn [vin vout wit]. lia.
  - injection H as <- <-. left. split; [reflexivity|]. unfold body_room. cbn [vin vout]. lia.
Qed.
