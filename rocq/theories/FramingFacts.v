(** Unique readability of concatenated encodings. *)
From Verif Require Import Base BaseFacts Serialize ParserFacts TxModel SpecWire TxProofs TxProofs2 SpecSighash.
Local Open Scope Z_scope.

Definition prefix_free {A} (P : A -> Prop) (W : A -> bytes -> Prop) : Prop :=
  forall x y b b' r r', P x -> P y -> W x b -> W y b' -> b ++ r = b' ++ r' -> x = y /\ b = b' /\ r = r'.

Lemma prefix_free_parser {A} (P : A -> Prop) (W : A -> bytes -> Prop) (p : parser A) :
  (forall x b r, P x -> W x b -> p (b ++ r) = Ok (x, r)) -> prefix_free P W.
Proof.
  intros Hp x y b b' r r' Px Py Wx Wy E.
  pose proof (Hp x b r Px Wx) as H1. rewrite E, (Hp y b' r' Py Wy) in H1.
  apply Ok_pair_inj in H1. destruct H1 as [-> ->]. split; [reflexivity|].
  split; [apply app_inv_tail in E; assumption|reflexivity].
Qed.

Lemma prefix_free_inj {A} (P : A -> Prop) W x y b : prefix_free P W -> P x -> P y -> W x b -> W y b -> x = y.
Proof.
  intros H Px Py Wx Wy. destruct (H x y b b [] [] Px Py Wx Wy eq_refl). assumption.
Qed.

Lemma prefix_free_pair {A B} (P : A -> Prop) (Q : B -> Prop) W V :
  prefix_free P W -> prefix_free Q V ->
  prefix_free (fun x : A * B => P (fst x) /\ Q (snd x))
              (fun x b => exists b1 b2, W (fst x) b1 /\ V (snd x) b2 /\ b = b1 ++ b2).
Proof.
  intros H1 H2 [x1 x2] [y1 y2] b b' r r' [P1 P2] [Q1 Q2] (b1 & b2 & W1 & W2 & ->) (c1 & c2 & V1 & V2 & ->) E.
  cbn [fst snd] in *. rewrite <- !app_assoc in E.
  destruct (H1 _ _ _ _ _ _ P1 Q1 W1 V1 E) as (-> & -> & E').
  destruct (H2 _ _ _ _ _ _ P2 Q2 W2 V2 E') as (-> & -> & ->). auto.
Qed.

Lemma W_seq_inj {A} (P : A -> Prop) (W : A -> bytes -> Prop) l1 : forall l2 s,
  prefix_free P W -> (forall x b, P x -> W x b -> b <> []) -> Forall P l1 -> Forall P l2 ->
  W_seq W l1 s -> W_seq W l2 s -> l1 = l2.
Proof.
  induction l1 as [|x l1 IH]; intros [|y l2] s HP HN F1 F2 H1 H2.
  - reflexivity.
  - exfalso. inversion H1; subst. inversion H2; subst. inversion F2; subst.
    destruct b; [|discriminate]. eapply HN; [| |reflexivity]; [|eassumption]; assumption.
  - exfalso. inversion H2; subst. inversion H1; subst. inversion F1; subst.
    destruct b; [|discriminate]. eapply HN; [| |reflexivity]; [|eassumption]; assumption.
  - inversion H1; subst. inversion H2 as [|? ? c cs]; subst. inversion F1; subst. inversion F2; subst.
    match goal with E : c ++ cs = b ++ bs |- _ => symmetry in E; rename E into EE end.
    destruct (HP x y b c bs cs) as (-> & -> & ->); try assumption. f_equal. eapply IH; eassumption.
Qed.

(** Same number of elements: emptiness does not matter. *)
Lemma W_seq_inj_len {A} (P : A -> Prop) (W : A -> bytes -> Prop) l1 : forall l2 s,
  prefix_free P W -> length l1 = length l2 -> Forall P l1 -> Forall P l2 ->
  W_seq W l1 s -> W_seq W l2 s -> l1 = l2.
Proof.
  induction l1 as [|x l1 IH]; intros [|y l2] s HP HL F1 F2 H1 H2; try discriminate; [reflexivity|].
  inversion H1; subst. inversion H2 as [|? ? c cs]; subst. inversion F1; subst. inversion F2; subst.
  match goal with E : c ++ cs = b ++ bs |- _ => symmetry in E; rename E into EE end.
  destruct (HP x y b c bs cs) as (-> & -> & ->); try assumption. f_equal.
  eapply IH; try eassumption. cbn in HL. lia.
Qed.

Lemma W_seq_map {A B} (f : A -> B) (W : B -> bytes -> Prop) l : forall s,
  W_seq (fun x => W (f x)) l s <-> W_seq W (map f l) s.
Proof.
  induction l as [|x l IH]; intros s; cbn [map]; split; intros H; inversion H; subst; constructor; auto; apply IH; assumption.
Qed.

Lemma Forall_map_iff {A B} (f : A -> B) (P : B -> Prop) l : Forall P (map f l) <-> Forall (fun x => P (f x)) l.
Proof. rewrite Forall_map. reflexivity. Qed.

(** * Instances *)
Lemma pf_outpoint : prefix_free (fun _ => True) W_outpoint.
Proof.
  apply (prefix_free_parser _ _ deser_outpoint). intros [h n] b r _ (w & HL & Hw & ->). cbn [op_hash op_n] in *.
  rewrite <- app_assoc. apply deser_outpoint_app; assumption.
Qed.
Lemma outpoint_nonempty o b : W_outpoint o b -> b <> [].
Proof.
  intros (n & HL & (Hn & _) & ->) E. apply app_eq_nil in E. destruct E as [_ ->]. discriminate Hn.
Qed.
Lemma pf_le_int n : (n <= 8)%nat -> prefix_free (fun _ => True) (le_int n).
Proof. intros Hn. apply (prefix_free_parser _ _ (read_le n)). intros x b r _ H. apply read_le_W; assumption. Qed.

Lemma pf_varint : prefix_free (fun _ => True) W_varint.
Proof. apply (prefix_free_parser _ _ deser_varint). intros. apply deser_varint_W; assumption. Qed.

Lemma pf_bytes : prefix_free (fun _ => True) W_bytes.
Proof.
  intros x y b b' r r' _ _ (n & Hn & ->) (m & Hm & ->) E. rewrite <- !app_assoc in E.
  destruct (pf_varint _ _ _ _ _ _ I I Hn Hm E) as (HL & -> & E').
  apply app_inj_len in E'; [|unfold blen in HL; lia]. destruct E' as [-> ->]. auto.
Qed.

Lemma pf_txout : prefix_free wf_txout W_txout.
Proof. apply (prefix_free_parser _ _ deser_txout). intros. apply deser_txout_W; assumption. Qed.
Lemma txout_nonempty o b : W_txout o b -> b <> [].
Proof.
  intros (a & v & n & s & Ha & _ & _ & _ & ->) E. apply W_conf_ser in Ha.
  apply app_eq_nil in E. destruct E as [-> _]. symmetry in Ha. exact (ser_conf_nonempty _ Ha).
Qed.
Lemma pf_issuance : prefix_free wf_issuance W_issuance.
Proof. apply (prefix_free_parser _ _ deser_issuance). intros. apply deser_issuance_W; assumption. Qed.

Lemma pf_outwit : prefix_free (fun _ => True) W_outwit.
Proof.
  intros [x1 x2] [y1 y2] b b' r r' _ _ (b1 & b2 & W1 & W2 & ->) (c1 & c2 & V1 & V2 & ->) E.
  cbn [ow_surj ow_range] in *. rewrite <- !app_assoc in E.
  destruct (pf_bytes _ _ _ _ _ _ I I W1 V1 E) as (-> & -> & E').
  destruct (pf_bytes _ _ _ _ _ _ I I W2 V2 E') as (-> & -> & ->). auto.
Qed.
Lemma bytes_nonempty d b : W_bytes d b -> b <> [].
Proof.
  intros (n & Hn & ->) E. apply app_eq_nil in E. destruct E as [-> _]. inversion Hn.
  match goal with H : le_int 1 _ [] |- _ => destruct H; discriminate end.
Qed.

Lemma le_sint32_inj z z' b : le_sint32 z b -> le_sint32 z' b -> z = z'.
Proof.
  intros (R & _ & E) (R' & _ & E'). rewrite E in E'.
  destruct (Z.ltb_spec z 0), (Z.ltb_spec z' 0); lia.
Qed.
Lemma le_sint32_len z b : le_sint32 z b -> length b = 4%nat.
Proof. intros (_ & H & _). assumption. Qed.

(** The issuances of a list of inputs are readable once it is known which inputs have one. *)
Lemma issuances_inj l1 : forall l2 s,
  Forall (fun i => wf_issuance (assetIssuance i)) l1 -> Forall (fun i => wf_issuance (assetIssuance i)) l2 ->
  map has_issuance l1 = map has_issuance l2 ->
  W_seq W_issuance0 l1 s -> W_seq W_issuance0 l2 s -> map issuance_of l1 = map issuance_of l2.
Proof.
  induction l1 as [|x l1 IH]; intros [|y l2] s F1 F2 HM H1 H2; try discriminate; [reflexivity|].
  cbn [map] in *. injection HM as Hxy HM. inversion F1; subst. inversion F2; subst.
  inversion H1; subst. inversion H2 as [|? ? c cs]; subst.
  match goal with E : c ++ cs = b ++ bs |- _ => symmetry in E; rename E into EE end.
  unfold W_issuance0, issuance_of in *.
  destruct (has_issuance x) eqn:Ex; rewrite <- Hxy in *.
  - destruct (pf_issuance (assetIssuance x) (assetIssuance y) b c bs cs) as (-> & -> & ->); try assumption.
    f_equal. eapply IH; eassumption.
  - subst b c. injection EE as ->. f_equal. eapply IH; eassumption.
Qed.

(** Lengths of an issuance record. *)
Lemma conf_value_len x : ConfForm CConfValue x ->
  (x = [] /\ blen (ser_conf x) = 1) \/ (exists d, x = x01 :: d /\ blen (ser_conf x) = 9)
  \/ (exists p d, (p = x08 \/ p = x09) /\ x = p :: d /\ blen (ser_conf x) = 33).
Proof.
  intros H. inversion H; subst.
  - left. split; reflexivity.
  - right; left. exists d. split; [reflexivity|]. cbn [ser_conf]. rewrite blen_cons. lia.
  - right; right. exists p, d. cbn [In] in *. split; [intuition congruence|]. split; [reflexivity|].
    cbn [ser_conf]. rewrite blen_cons. lia.
Qed.

Lemma issuance_lengths i : wf_issuance (assetIssuance i) -> has_issuance i = true ->
  In (blen (ser_issuance (assetIssuance i))) [74; 82; 98; 106; 130].
Proof.
  intros (H1 & H2 & H3 & H4) Hh. unfold ser_issuance. rewrite !blen_app, H1, H2.
  unfold has_issuance in Hh.
  destruct (conf_value_len _ H3) as [[E1 L1]|[(d & E1 & L1)|(p & d & _ & E1 & L1)]];
  destruct (conf_value_len _ H4) as [[E2 L2]|[(d' & E2 & L2)|(p' & d' & _ & E2 & L2)]];
    rewrite ?L1, ?L2; cbn [In]; try lia.
  rewrite E1, E2 in Hh. discriminate.
Qed.
