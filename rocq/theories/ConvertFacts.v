(** Facts about [convertbits]: loop invariant in terms of bit strings. *)
From Coq Require Import ZArith List Bool Lia.
From Verif Require Import Base BaseFacts Blech32Model SpecBits.
Import ListNotations.
Local Open Scope Z_scope.

Lemma bits_msb_length n a : length (bits_msb n a) = n.
Proof. induction n; simpl; auto. Qed.

Lemma bits_msb_ext n a b :
  (forall i, 0 <= i < Z.of_nat n -> Z.testbit a i = Z.testbit b i) ->
  bits_msb n a = bits_msb n b.
Proof.
  induction n; intros H; [reflexivity|].
  cbn [bits_msb]. f_equal; [apply H; lia|apply IHn; intros; apply H; lia].
Qed.

Lemma bits_msb_app n m a :
  bits_msb (n + m) a = bits_msb n (Z.shiftr a (Z.of_nat m)) ++ bits_msb m a.
Proof.
  induction n; [reflexivity|].
  cbn [bits_msb Nat.add app]. rewrite IHn. f_equal.
  rewrite Z.shiftr_spec by lia. f_equal. lia.
Qed.

Lemma bits_msb_inj_bits n a b :
  bits_msb n a = bits_msb n b ->
  forall i, 0 <= i < Z.of_nat n -> Z.testbit a i = Z.testbit b i.
Proof.
  induction n; intros H i Hi; [lia|].
  cbn [bits_msb] in H. injection H as H1 H2.
  destruct (Z.eq_dec i (Z.of_nat n)) as [->|Hne]; [assumption|].
  apply IHn; [assumption|lia].
Qed.

Lemma testbit_high a n i : 0 <= a < 2 ^ n -> n <= i -> Z.testbit a i = false.
Proof.
  intros Ha Hi. destruct (Z.eq_dec a 0) as [->|Hne]; [apply Z.bits_0|].
  apply Z.bits_above_log2; [lia|].
  assert (0 <= n) by (destruct (Z_lt_le_dec n 0); [rewrite Z.pow_neg_r in Ha by lia; lia|lia]).
  assert (Z.log2 a < n) by (apply Z.log2_lt_pow2; lia). lia.
Qed.

Lemma bits_msb_inj n a b :
  0 <= a < 2 ^ Z.of_nat n -> 0 <= b < 2 ^ Z.of_nat n ->
  bits_msb n a = bits_msb n b -> a = b.
Proof.
  intros Ha Hb H. apply Z.bits_inj'. intros i Hi.
  destruct (Z_lt_le_dec i (Z.of_nat n)).
  - eapply bits_msb_inj_bits; [exact H|lia].
  - rewrite (testbit_high a (Z.of_nat n)), (testbit_high b (Z.of_nat n)) by lia. reflexivity.
Qed.

Lemma bitstring_length w l : length (bitstring w l) = (w * length l)%nat.
Proof.
  unfold bitstring. induction l; simpl; [lia|].
  rewrite app_length, bits_msb_length, IHl. lia.
Qed.

Lemma bitstring_app w a b : bitstring w (a ++ b) = bitstring w a ++ bitstring w b.
Proof. unfold bitstring. apply flat_map_app. Qed.

Lemma bitstring_inj w l1 l2 :
  words w l1 -> words w l2 -> length l1 = length l2 ->
  bitstring w l1 = bitstring w l2 -> l1 = l2.
Proof.
  revert l2. induction l1 as [|a l1 IH]; intros [|b l2] H1 H2 HL H; simpl in HL; try discriminate; auto.
  unfold bitstring in H. cbn [flat_map] in H.
  apply app_inj_len in H; [|rewrite !bits_msb_length; reflexivity].
  destruct H as [Hh Ht]. inversion H1; inversion H2; subst.
  f_equal; [eapply bits_msb_inj; eauto|apply IH; auto].
Qed.

Lemma land_ones_spec a n i : 0 <= n -> 0 <= i ->
  Z.testbit (Z.land a (Z.shiftl 1 n - 1)) i = Z.testbit a i && (i <? n).
Proof.
  intros Hn Hi. rewrite Z.land_spec. f_equal.
  replace (Z.shiftl 1 n - 1) with (Z.ones n) by (unfold Z.ones; lia).
  destruct (Z.ltb_spec i n); [apply Z.ones_spec_low|apply Z.ones_spec_high]; lia.
Qed.

Lemma land_ones_range a n : 0 <= n -> 0 <= Z.land a (Z.shiftl 1 n - 1) < 2 ^ n.
Proof.
  intros Hn. replace (Z.shiftl 1 n - 1) with (Z.ones n) by (unfold Z.ones; lia).
  rewrite Z.land_ones by lia. apply Z.mod_pos_bound. apply Z.pow_pos_nonneg; lia.
Qed.

(** [drain] emits whole output words from the front of the pending bits. *)
Lemma drain_spec tobits : 0 < tobits ->
  forall fuel acc bits ret,
    0 <= bits -> (Z.to_nat bits <= fuel)%nat ->
    words (Z.to_nat tobits) ret ->
    exists bits' new,
      drain fuel acc bits tobits (Z.shiftl 1 tobits - 1) ret = (bits', ret ++ new) /\
      0 <= bits' < tobits /\
      words (Z.to_nat tobits) (ret ++ new) /\
      bits_msb (Z.to_nat bits) acc = bitstring (Z.to_nat tobits) new ++ bits_msb (Z.to_nat bits') acc.
Proof.
  intros Ht. induction fuel; intros acc bits ret Hb Hf Hw.
  - exists bits, []. rewrite app_nil_r. repeat split; auto; lia.
  - cbn [drain]. destruct (Z.leb_spec tobits bits) as [Hle|Hlt].
    + cbv zeta. set (v := Z.land (Z.shiftr acc (bits - tobits)) (Z.shiftl 1 tobits - 1)).
      assert (Hv : 0 <= v < 2 ^ tobits) by (apply land_ones_range; lia).
      destruct (IHfuel acc (bits - tobits) (ret ++ [v])) as (bits' & new & E & Hr & Hw' & Hbits).
      * lia.
      * lia.
      * apply Forall_app. split; [assumption|]. repeat constructor; rewrite ?Z2Nat.id; lia.
      * exists bits', (v :: new). rewrite E.
        rewrite <- app_assoc in Hw' |- *. repeat split; auto; try lia.
        replace (Z.to_nat bits) with (Z.to_nat tobits + Z.to_nat (bits - tobits))%nat by lia.
        rewrite bits_msb_app, Hbits. unfold bitstring. cbn [flat_map]. rewrite <- app_assoc.
        f_equal. apply bits_msb_ext. intros i Hi. unfold v.
        rewrite land_ones_spec by lia. rewrite Z2Nat.id by lia.
        assert (i <? tobits = true) as -> by lia. rewrite andb_true_r. reflexivity.
    + exists bits, []. rewrite app_nil_r. repeat split; auto; lia.
Qed.

Lemma bits_msb_push acc v bits from to :
  0 <= bits < to -> 0 < from -> 0 <= v < 2 ^ from ->
  bits_msb (Z.to_nat (bits + from))
    (Z.land (Z.lor (Z.shiftl acc from) v) (Z.shiftl 1 (from + to - 1) - 1))
  = bits_msb (Z.to_nat bits) acc ++ bits_msb (Z.to_nat from) v.
Proof.
  intros Hb Hf Hv.
  replace (Z.to_nat (bits + from)) with (Z.to_nat bits + Z.to_nat from)%nat by lia.
  rewrite bits_msb_app. f_equal; apply bits_msb_ext; intros i Hi; rewrite ?Z2Nat.id in * by lia.
  - rewrite Z.shiftr_spec, land_ones_spec, Z.lor_spec, Z.shiftl_spec by lia.
    rewrite (testbit_high v from) by lia. rewrite orb_false_r.
    assert (i + from <? from + to - 1 = true) as -> by lia.
    rewrite andb_true_r. f_equal. lia.
  - rewrite land_ones_spec, Z.lor_spec, Z.shiftl_spec by lia.
    rewrite Z.testbit_neg_r by lia.
    assert (i <? from + to - 1 = true) as -> by lia. rewrite andb_true_r. reflexivity.
Qed.

(** The loop over the input words: the output words followed by the pending
    bits are the input bit string. *)
Lemma convert_loop_spec from to : 0 < from -> 0 < to ->
  forall data acc bits ret pre,
    0 <= bits < to ->
    words (Z.to_nat to) ret ->
    pre = bitstring (Z.to_nat to) ret ++ bits_msb (Z.to_nat bits) acc ->
    match convert_loop from to (Z.shiftl 1 to - 1) (Z.shiftl 1 (from + to - 1) - 1) data acc bits ret with
    | Some (acc', bits', ret') =>
        words (Z.to_nat from) data /\ words (Z.to_nat to) ret' /\ 0 <= bits' < to /\
        pre ++ bitstring (Z.to_nat from) data
          = bitstring (Z.to_nat to) ret' ++ bits_msb (Z.to_nat bits') acc'
    | None => ~ words (Z.to_nat from) data
    end.
Proof.
  intros Hf Ht. induction data as [|v data IH]; intros acc bits ret pre Hb Hw Hpre.
  - cbn [convert_loop]. repeat split; auto; try lia; [constructor|].
    unfold bitstring at 1. simpl. rewrite app_nil_r. assumption.
  - cbn [convert_loop].
    destruct (Z.ltb_spec v 0) as [Hneg|Hpos]; cbn [orb].
    { intros H. inversion H; subst. lia. }
    assert (Hsh : Z.shiftr v from = 0 <-> v < 2 ^ from).
    { rewrite Z.shiftr_div_pow2 by lia. assert (0 < 2 ^ from) by (apply Z.pow_pos_nonneg; lia).
      split; intros H'; [|apply Z.div_small; lia].
      pose proof (Z.div_mod v (2 ^ from)). pose proof (Z.mod_pos_bound v (2 ^ from)). nia. }
    destruct (Z.eqb_spec (Z.shiftr v from) 0) as [E|E]; cbn [negb].
    2:{ intros H. inversion H; subst. rewrite Z2Nat.id in * by lia. tauto. }
    cbv zeta.
    set (acc1 := Z.land _ _).
    destruct (drain_spec to Ht (Z.to_nat (bits + from)) acc1 (bits + from) ret)
      as (bits' & new & Ed & Hb' & Hw' & Hbits); [lia|lia|assumption|].
    rewrite Ed.
    specialize (IH acc1 bits' (ret ++ new) (pre ++ bits_msb (Z.to_nat from) v) Hb' Hw').
    assert (Hv : 0 <= v < 2 ^ from) by (split; [lia|tauto]).
    match type of IH with ?P -> _ => assert P as HP end.
    { rewrite bitstring_app, <- app_assoc, <- Hbits. subst pre. rewrite <- app_assoc. f_equal.
      symmetry. apply bits_msb_push; assumption. }
    specialize (IH HP).
    destruct (convert_loop _ _ _ _ data acc1 bits' _) as [[[acc2 bits2] ret2]|].
    + destruct IH as (H1 & H2 & H3 & H4). repeat split; auto; try lia.
      * constructor; [rewrite Z2Nat.id by lia; assumption|assumption].
      * unfold bitstring at 1. cbn [flat_map]. rewrite app_assoc. exact H4.
    + intros H. inversion H; subst. contradiction.
Qed.

Lemma bits_msb_zeros n a :
  bits_msb n a = repeat false n <-> (forall i, 0 <= i < Z.of_nat n -> Z.testbit a i = false).
Proof.
  split.
  - induction n; intros H i Hi; [lia|].
    cbn [bits_msb repeat] in H. injection H as H1 H2.
    destruct (Z.eq_dec i (Z.of_nat n)) as [->|]; [assumption|apply IHn; [assumption|lia]].
  - induction n; intros H; [reflexivity|].
    cbn [bits_msb repeat]. rewrite H by lia. f_equal. apply IHn. intros; apply H; lia.
Qed.

(** Padding: the last word is the pending bits followed by zeros. *)
Lemma pad_word acc bits to :
  0 <= bits < to ->
  let w := Z.land (Z.shiftl acc (to - bits)) (Z.shiftl 1 to - 1) in
  0 <= w < 2 ^ to /\
  bits_msb (Z.to_nat to) w = bits_msb (Z.to_nat bits) acc ++ repeat false (Z.to_nat (to - bits)).
Proof.
  intros Hb w. split; [apply land_ones_range; lia|].
  replace (Z.to_nat to) with (Z.to_nat bits + Z.to_nat (to - bits))%nat by lia.
  rewrite bits_msb_app. f_equal.
  - apply bits_msb_ext. intros i Hi. unfold w.
    rewrite Z.shiftr_spec, land_ones_spec, Z.shiftl_spec by lia.
    assert (i + Z.of_nat (Z.to_nat (to - bits)) <? to = true) as -> by lia.
    rewrite andb_true_r. f_equal. lia.
  - apply bits_msb_zeros. intros i Hi. unfold w.
    rewrite land_ones_spec, Z.shiftl_spec by lia.
    rewrite Z.testbit_neg_r by lia. reflexivity.
Qed.

(** Padding direction. *)
Lemma convertbits_pad_spec from to data :
  0 < from -> 0 < to ->
  match convertbits data from to true with
  | Some out =>
      words (Z.to_nat from) data /\ words (Z.to_nat to) out /\
      exists p, (p < Z.to_nat to)%nat /\
        bitstring (Z.to_nat to) out = bitstring (Z.to_nat from) data ++ repeat false p
  | None => ~ words (Z.to_nat from) data
  end.
Proof.
  intros Hf Ht. unfold convertbits. cbv zeta.
  pose proof (convert_loop_spec from to Hf Ht data 0 0 [] []) as H.
  specialize (H ltac:(lia) ltac:(constructor) eq_refl).
  destruct (convert_loop _ _ _ _ data 0 0 []) as [[[acc bits] ret]|]; [|assumption].
  destruct H as (H1 & H2 & H3 & H4). cbn [app] in H4.
  destruct (Z.eqb_spec bits 0) as [->|Hne]; cbn [negb].
  - split; [assumption|]. split; [assumption|]. exists 0%nat. split; [lia|].
    cbn [repeat]. rewrite app_nil_r, H4. cbn [Z.to_nat bits_msb]. rewrite app_nil_r. reflexivity.
  - destruct (pad_word acc bits to H3) as [Hw Hbits].
    split; [assumption|]. split.
    + apply Forall_app. split; [assumption|]. constructor; [rewrite Z2Nat.id by lia; exact Hw|constructor].
    + exists (Z.to_nat (to - bits)). split; [lia|].
      rewrite bitstring_app, H4. unfold bitstring at 2. cbn [flat_map]. rewrite app_nil_r, Hbits.
      rewrite app_assoc. reflexivity.
Qed.

(** Strict direction: accepted exactly when fewer than [from] bits are left over
    and they are zero. *)
Lemma convertbits_strict_spec from to data :
  0 < from -> 0 < to ->
  match convertbits data from to false with
  | Some out =>
      words (Z.to_nat from) data /\ words (Z.to_nat to) out /\
      exists p, (p < Z.to_nat from)%nat /\
        bitstring (Z.to_nat from) data = bitstring (Z.to_nat to) out ++ repeat false p
  | None =>
      ~ (words (Z.to_nat from) data /\
         exists out p, words (Z.to_nat to) out /\ (p < Z.to_nat from)%nat /\ (p < Z.to_nat to)%nat /\
           bitstring (Z.to_nat from) data = bitstring (Z.to_nat to) out ++ repeat false p)
  end.
Proof.
  intros Hf Ht. unfold convertbits. cbv zeta.
  pose proof (convert_loop_spec from to Hf Ht data 0 0 [] []) as H.
  specialize (H ltac:(lia) ltac:(constructor) eq_refl).
  destruct (convert_loop _ _ _ _ data 0 0 []) as [[[acc bits] ret]|]; [|tauto].
  destruct H as (H1 & H2 & H3 & H4). cbn [app] in H4.
  destruct (pad_word acc bits to H3) as [Hw Hbits]. cbv zeta in Hw, Hbits.
  set (w := Z.land _ _) in *.
  assert (Hz : w = 0 <-> bits_msb (Z.to_nat bits) acc = repeat false (Z.to_nat bits)).
  { split; intros HH.
    - rewrite HH in Hbits.
      assert (Hzz : bits_msb (Z.to_nat to) 0 = repeat false (Z.to_nat to))
        by (apply bits_msb_zeros; intros; apply Z.bits_0).
      rewrite Hzz in Hbits.
      replace (Z.to_nat to) with (Z.to_nat bits + Z.to_nat (to - bits))%nat in Hbits at 1 by lia.
      rewrite repeat_app in Hbits. apply app_inj_len in Hbits; [|rewrite repeat_length, bits_msb_length; reflexivity].
      symmetry. apply Hbits.
    - apply (bits_msb_inj (Z.to_nat to)).
      + rewrite Z2Nat.id by lia. assumption.
      + rewrite Z2Nat.id by lia. split; [lia|apply Z.pow_pos_nonneg; lia].
      + rewrite Hbits, HH, <- repeat_app.
        symmetry. replace (Z.to_nat bits + Z.to_nat (to - bits))%nat with (Z.to_nat to) by lia.
        apply bits_msb_zeros. intros; apply Z.bits_0. }
  assert (HL : (Z.to_nat from * length data = Z.to_nat to * length ret + Z.to_nat bits)%nat).
  { pose proof (f_equal (@length _) H4) as HL.
    rewrite app_length, !bitstring_length, bits_msb_length in HL. exact HL. }
  destruct (Z.leb_spec from bits) as [Hfb|Hfb]; cbn [orb].
  - intros [_ (out & p & Ho & Hpf & Hpt & E)].
    pose proof (f_equal (@length _) E) as HL2.
    rewrite app_length, !bitstring_length, repeat_length in HL2.
    assert (length ret = length out) by nia. nia.
  - destruct (Z.eqb_spec w 0) as [Ew|Ew]; cbn [negb].
    + split; [assumption|]. split; [assumption|]. exists (Z.to_nat bits). split; [lia|].
      rewrite H4. f_equal. apply Hz. assumption.
    + intros [_ (out & p & Ho & Hpf & Hpt & E)]. apply Ew, Hz.
      pose proof (f_equal (@length _) E) as HL2.
      rewrite app_length, !bitstring_length, repeat_length in HL2.
      assert (length ret = length out) by nia.
      assert (p = Z.to_nat bits) by nia. subst p.
      rewrite H4 in E. apply app_inj_len in E; [|rewrite !bitstring_length; nia].
      apply E.
Qed.

(** ** The two directions used by addresses *)

Lemma words8_bz (s : bytes) : words 8 (map bz s).
Proof.
  unfold words. rewrite Forall_map. apply Forall_forall. intros b _.
  pose proof (bz_range b). change (2 ^ Z.of_nat 8) with 256. lia.
Qed.

Lemma to5_exists (s : bytes) : exists out,
  convertbits (map bz s) 8 5 true = Some out /\ words 5 out /\
  exists p, (p < 5)%nat /\ bitstring 5 out = bitstring 8 (map bz s) ++ repeat false p.
Proof.
  pose proof (convertbits_pad_spec 8 5 (map bz s) ltac:(lia) ltac:(lia)) as H.
  destruct (convertbits (map bz s) 8 5 true) as [out|].
  - destruct H as (H1 & H2 & H3). exists out. auto.
  - exfalso. apply H. apply words8_bz.
Qed.

Lemma strict_of_pad out l :
  convertbits l 8 5 true = Some out -> convertbits out 5 8 false = Some l.
Proof.
  intros E. pose proof (convertbits_pad_spec 8 5 l ltac:(lia) ltac:(lia)) as H. rewrite E in H.
  destruct H as (H1 & H2 & p & Hp & HB).
  pose proof (convertbits_strict_spec 5 8 out ltac:(lia) ltac:(lia)) as H.
  change (Z.to_nat 5) with 5%nat in *. change (Z.to_nat 8) with 8%nat in *.
  destruct (convertbits out 5 8 false) as [l'|].
  - destruct H as (_ & Hl' & p' & Hp' & HB'). f_equal.
    rewrite HB in HB'.
    pose proof (f_equal (@length _) HB') as HL.
    rewrite !app_length, !bitstring_length, !repeat_length in HL.
    assert (length l = length l') as HLL by lia.
    apply app_inj_len in HB'; [|rewrite !bitstring_length; lia].
    apply (bitstring_inj 8); auto. symmetry. apply HB'.
  - exfalso. apply H. split; [assumption|]. exists l, p. repeat split; auto; lia.
Qed.

Lemma pad_of_strict out l :
  convertbits l 5 8 false = Some out -> words 8 out /\ convertbits out 8 5 true = Some l.
Proof.
  intros E. pose proof (convertbits_strict_spec 5 8 l ltac:(lia) ltac:(lia)) as H. rewrite E in H.
  change (Z.to_nat 5) with 5%nat in *. change (Z.to_nat 8) with 8%nat in *.
  destruct H as (H1 & H2 & p & Hp & HB). split; [assumption|].
  pose proof (convertbits_pad_spec 8 5 out ltac:(lia) ltac:(lia)) as H.
  change (Z.to_nat 5) with 5%nat in *. change (Z.to_nat 8) with 8%nat in *.
  destruct (convertbits out 8 5 true) as [l'|]; [|contradiction].
  destruct H as (_ & Hl' & p' & Hp' & HB'). f_equal.
  assert (HL : length l = length l').
  { pose proof (f_equal (@length _) HB) as A. pose proof (f_equal (@length _) HB') as B.
    rewrite !app_length, !bitstring_length, !repeat_length in A, B. lia. }
  apply (bitstring_inj 5); auto.
  rewrite HB, HB'. f_equal. f_equal.
  pose proof (f_equal (@length _) HB) as A. pose proof (f_equal (@length _) HB') as B.
  rewrite !app_length, !bitstring_length, !repeat_length in A, B. lia.
Qed.

(** Length of the padded regrouping. *)
Lemma to5_length l out :
  convertbits l 8 5 true = Some out ->
  Z.of_nat (length out) = (8 * Z.of_nat (length l) + 4) / 5.
Proof.
  intros E. pose proof (convertbits_pad_spec 8 5 l ltac:(lia) ltac:(lia)) as H. rewrite E in H.
  destruct H as (_ & _ & p & Hp & HB).
  change (Z.to_nat 5) with 5%nat in *. change (Z.to_nat 8) with 8%nat in *.
  pose proof (f_equal (@length _) HB) as A.
  rewrite !app_length, !bitstring_length, !repeat_length in A. lia.
Qed.
