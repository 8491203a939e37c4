(** Proofs about comparison with ==. *)
From Verif Require Import Base BaseFacts Serialize ParserFacts TxModel SpecWire TxProofs TxProofs2 CodecFacts EqModel SpecEq.
Local Open Scope Z_scope.

Lemma same_ok x y : same (Ok x) (Ok y) = Ok true <-> x = y.
Proof. unfold same. cbn [rbind]. destruct (list_eq_dec _ x y); split; congruence. Qed.
Lemma same_total x y : exists b, same (Ok x) (Ok y) = Ok b.
Proof. unfold same. cbn [rbind]. eauto. Qed.
Lemma same_true a b : same a b = Ok true <-> exists x, a = Ok x /\ b = Ok x.
Proof.
  destruct a as [x|e]; [|split; [discriminate|intros (x & H & _); discriminate H]]. destruct b as [y|e]; [|split; [discriminate|intros (z & _ & H); discriminate H]].
  rewrite same_ok. split; [intros ->; eauto|intros (z & H1 & H2); congruence].
Qed.

Lemma ser_conf_inj c x y : constructible c x -> constructible c y -> ser_conf x = ser_conf y -> x = y.
Proof.
  assert (N : forall z, constructible c z -> z <> [] -> 1 < blen z) by (intros z [->|[H|(_ & H)]] NE; [congruence|lia|lia]).
  intros H1 H2 E. destruct x as [|a x], y as [|b y]; cbn in E; try congruence.
  - assert (Y := N _ H2 ltac:(discriminate)). rewrite <- E in Y. cbn in Y. lia.
  - assert (Y := N _ H1 ltac:(discriminate)). rewrite E in Y. cbn in Y. lia.
Qed.
Lemma form_constructible c x : ConfForm c x -> constructible c x.
Proof.
  intros [|d H|p d I H]; [left; reflexivity| |right; left; rewrite blen_cons; lia]. rewrite <- blen_cons with (x := x01) in H. unfold constructible. destruct c; auto.
Qed.
Lemma ser_issuance_inj i j : wf_issuance i -> wf_issuance j -> ser_issuance i = ser_issuance j -> i = j.
Proof.
  intros WI WJ E. assert (A := deser_issuance_W i (ser_issuance i) [] WI (proj2 (W_issuance_ser i _) eq_refl)).
  assert (B := deser_issuance_W j (ser_issuance j) [] WJ (proj2 (W_issuance_ser j _) eq_refl)). rewrite E in A. congruence.
Qed.

(** ** inputs *)
Lemma has_negb i : negb (issuance_is_null (assetIssuance i)) = has_issuance i.
Proof.
  unfold issuance_is_null, conf_is_null, has_issuance. destruct (is_amount (assetIssuance i)) as [|a x], (is_keys (assetIssuance i)) as [|b y]; rewrite ?blen_cons, ?blen_nil; try reflexivity.
  - replace (1 + blen y =? 0) with false by (pose proof (blen_nonneg y); lia). reflexivity.
  - replace (1 + blen x =? 0) with false by (pose proof (blen_nonneg x); lia). reflexivity.
  - replace (1 + blen x =? 0) with false by (pose proof (blen_nonneg x); lia). reflexivity.
Qed.
Lemma samein_ser sh i j : SameIn i j -> ser_txin sh i = ser_txin sh j.
Proof.
  intros (P & S & Q & H). unfold ser_txin. cbv zeta. rewrite !has_negb, P, S, Q. change 0xffffffff with (2 ^ 32 - 1). destruct (op_n (prevout j) =? 2 ^ 32 - 1) eqn:EN; [reflexivity|].
  destruct H as [H|(HP & HI)]; [rewrite P in H; lia|]. rewrite HP.
  destruct (negb (Z.land _ _ =? 0)); [reflexivity|].
  assert (HH : has_issuance i = has_issuance j) by (destruct HI as [HI|(A & B)]; [unfold has_issuance; rewrite HI; reflexivity|congruence]).
  rewrite HH. destruct (outpoint_new _ _); cbn [rbind]; [|reflexivity]. destruct HI as [HI|(A & B)]; [rewrite HI; reflexivity|]. rewrite B. reflexivity.
Qed.
Lemma norm_same i : SameIn (norm_txin i) i.
Proof.
  unfold norm_txin. destruct (Z.eqb_spec (op_n (prevout i)) (2 ^ 32 - 1)) as [E|E].
  - repeat split; cbn; auto.
  - destruct (has_issuance i) eqn:H; repeat split; cbn; auto.
Qed.
Lemma same_norm i j : SameIn i j -> norm_txin i = norm_txin j.
Proof.
  intros (P & S & Q & H). unfold norm_txin. rewrite P, S, Q. destruct (Z.eqb_spec (op_n (prevout j)) (2 ^ 32 - 1)) as [E|E]; [reflexivity|].
  destruct H as [H|(HP & HI)]; [rewrite P in H; contradiction|]. destruct HI as [HI|(A & B)].
  - assert (HH : has_issuance i = has_issuance j) by (unfold has_issuance; rewrite HI; reflexivity). rewrite HH, HP. destruct (has_issuance j); [|reflexivity].
    destruct i, j; cbn in *; congruence.
  - rewrite A, B, HP. reflexivity.
Qed.
Lemma same_sym i j : SameIn i j -> SameIn j i.
Proof. intros (P & S & Q & H). split; [auto|]. split; [auto|]. split; [auto|]. rewrite <- P. destruct H as [H|(H & [H2|(H2 & H3)])]; [left|right|right]; auto. Qed.
Lemma norm_eq_same i j : norm_txin i = norm_txin j -> SameIn i j.
Proof.
  intros E. assert (A := norm_same i). assert (B := norm_same j). rewrite E in A. apply same_sym in A.
  destruct A as (A1 & A2 & A3 & A4), B as (B1 & B2 & B3 & B4). split; [congruence|]. split; [congruence|]. split; [congruence|].
  destruct A4 as [A4|(A4 & A5)]; [left; exact A4|]. destruct B4 as [B4|(B4 & B5)]; [left; rewrite A1; exact B4|]. right. split; [congruence|].
  assert (HN : forall x y, assetIssuance x = assetIssuance y -> has_issuance x = has_issuance y) by (intros x y H; unfold has_issuance; rewrite H; reflexivity).
  destruct A5 as [A5|(A5 & A6)]; destruct B5 as [B5|(B5 & B6)]; [left; congruence| | |]; right; split; auto.
  - rewrite (HN _ _ A5). exact B5.
  - rewrite <- (HN _ _ B5). exact A6.
Qed.
Lemma plain_norm_wf i : plain_in i -> wf_txin (norm_txin i).
Proof.
  intros ((HL & HN & HS & HQ & HI) & G & NF). assert (WD : wf_issuance issuance_default) by (repeat split; try reflexivity; apply CF_null).
  unfold norm_txin. destruct (Z.eqb_spec (op_n (prevout i)) (2 ^ 32 - 1)) as [E|E].
  - split; [split; [exact HL|split; [exact HN|split; [exact HS|split; [exact HQ|exact WD]]]]|]. left. cbn. auto.
  - assert (R : 0 <= op_n (prevout i) < 2 ^ 30) by (destruct G as [G|G]; [lia|contradiction]). destruct (has_issuance i) eqn:H.
    + split; [split; [exact HL|split; [exact HN|split; [exact HS|split; [exact HQ|exact HI]]]]|]. right. split; [exact R|]. split; [congruence|]. exact NF.
    + split; [split; [exact HL|split; [exact HN|split; [exact HS|split; [exact HQ|exact WD]]]]|]. right. cbn. split; [exact R|]. split; [auto|]. intros (_ & X & _). discriminate X.
Qed.
Lemma good_ser i : txin_in_range i -> good_index i -> exists b, ser_txin false i = Ok b.
Proof.
  intros (HL & HN & HS & HQ & HI) G. destruct (W_bytes_ex _ HS) as [s Hs]. destruct (le_int_ex 4 (nSequence i)) as [q Hq]; [exact HQ|].
  set (w := if op_n (prevout i) =? 2 ^ 32 - 1 then 2 ^ 32 - 1 else op_n (prevout i) + (if has_issuance i then 2 ^ 31 else 0) + (if is_pegin i then 2 ^ 30 else 0)).
  assert (WR : 0 <= w < 2 ^ 32) by (unfold w; destruct (Z.eqb_spec (op_n (prevout i)) (2 ^ 32 - 1)); [lia|destruct G; [|contradiction]; destruct (has_issuance i), (is_pegin i); lia]).
  destruct (le_int_ex 4 w) as [n Hn]; [exact WR|].
  eexists. apply ser_txin_iff. exists w, n, s, q, (if writes_issuance i then ser_issuance (assetIssuance i) else []).
  split; [|split; [exact HL|split; [exact Hn|split; [exact Hs|split; [exact Hq|split; [|reflexivity]]]]]].
  - unfold w, wire_index. destruct (Z.eqb_spec (op_n (prevout i)) (2 ^ 32 - 1)); [left; auto|right]. destruct G; [|contradiction]. split; [lia|]. reflexivity.
  - destruct (writes_issuance i); [apply W_issuance_ser|]; reflexivity.
Qed.
Lemma txin_same i j b : txin_in_range i -> txin_in_range j -> ser_txin false i = Ok b -> ser_txin false j = Ok b -> SameIn i j.
Proof.
  intros RI RJ EI EJ. apply ser_txin_iff in EI, EJ.
  assert (SD : forall x, txin_special x \/ ~ txin_special x).
  { intros x. unfold txin_special. destruct (Z.eq_dec (op_n (prevout x)) (2 ^ 30 - 1)), (has_issuance x), (is_pegin x); intuition discriminate. }
  assert (LS : forall x, ser_issuance x <> []).
  { intros x H. apply (f_equal (@length _)) in H. unfold ser_issuance in H. rewrite !app_length in H. assert (length (ser_conf (is_keys x)) <> O) by (destruct (is_keys x); discriminate). cbn in H. lia. }
  destruct (SD i) as [SI|SI], (SD j) as [SJ|SJ].
  - assert (A := deser_txin_special i b [] RI SI EI). assert (B := deser_txin_special j b [] RJ SJ EJ). rewrite A in B.
    rewrite !app_nil_r in B. injection B as B1 B2 B3 B4. apply ser_issuance_inj in B4; [|apply RI|apply RJ].
    destruct SI as (S1 & _ & S2), SJ as (T1 & _ & T2). split; [|split; [|split; [|right; split]]]; auto; try congruence.
    destruct (prevout i), (prevout j); cbn in *; congruence.
  - assert (A := deser_txin_special i b [] RI SI EI). assert (B := deser_txin_W j b [] RJ SJ EJ). rewrite A in B. exfalso. rewrite app_nil_r in B. apply (LS (assetIssuance i)). congruence.
  - assert (A := deser_txin_W i b [] RI SI EI). assert (B := deser_txin_special j b [] RJ SJ EJ). rewrite A in B. exfalso. rewrite app_nil_r in B. apply (LS (assetIssuance j)). congruence.
  - assert (A := deser_txin_W i b [] RI SI EI). assert (B := deser_txin_W j b [] RJ SJ EJ). apply norm_eq_same. congruence.
Qed.

(** ** transactions *)
Definition tidy (t : tx) : tx := mkTx (map norm_txin (vin t)) (vout t) (nLockTime t) (nVersion t) (wit t).
Lemma ser_list_same sh l l' : Forall2 SameIn l l' -> ser_list (ser_txin sh) l = ser_list (ser_txin sh) l'.
Proof. intros F. induction F as [|i j l l' S F IH]; [reflexivity|]. cbn [ser_list]. rewrite (samein_ser sh i j S), IH. reflexivity. Qed.
Lemma same_body_ser iw sh t u : SameBody t u -> wit t = wit u \/ iw = false -> ser_tx iw sh t = ser_tx iw sh u.
Proof.
  intros (V & L & F & O) W. assert (LV : length (vin t) = length (vin u)) by (clear - F; induction F; cbn; congruence).
  assert (SV : forall s, ser_vector (ser_txin s) (vin t) = ser_vector (ser_txin s) (vin u)) by (intros s; unfold ser_vector; rewrite LV, (ser_list_same s _ _ F); reflexivity).
  unfold ser_tx. rewrite V, L, O, LV, !SV. destruct W as [-> | ->]; reflexivity.
Qed.
Lemma tidy_same t : SameBody t (tidy t).
Proof. repeat split. cbn [tidy vin]. induction (vin t); constructor; [apply same_sym, norm_same|assumption]. Qed.
Lemma tidy_ser iw t : ser_tx iw false (tidy t) = ser_tx iw false t.
Proof. symmetry. apply same_body_ser; [apply tidy_same|left; reflexivity]. Qed.
Lemma tidy_wf t : plain_body t -> wf_wit t -> wf_tx (tidy t).
Proof.
  intros (HV & HL & HI & HO & FI & FO) W. split.
  - split; [exact HV|]. split; [exact HL|]. cbn [tidy vin vout]. rewrite map_length. split; [exact HI|]. split; [exact HO|]. split; [|exact FO].
    apply Forall_map. eapply Forall_impl; [|exact FI]. apply plain_norm_wf.
  - unfold wf_wit, tidy. cbn [wit vin vout]. rewrite map_length. exact W.
Qed.
Lemma map_norm_same l l' : map norm_txin l = map norm_txin l' <-> Forall2 SameIn l l'.
Proof.
  revert l'. induction l as [|i l IH]; intros [|j l']; cbn; try (split; intros H; inversion H; fail); [split; [constructor|reflexivity]|].
  split; intros H.
  - injection H as H1 H2. constructor; [apply norm_eq_same; exact H1|apply IH; exact H2].
  - inversion H; subst. f_equal; [apply same_norm; assumption|apply IH; assumption].
Qed.
