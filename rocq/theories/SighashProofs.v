(** Proofs about the segwit v0 signature hash. *)
From Verif Require Import Base BaseFacts Serialize ParserFacts TxModel SpecWire TxProofs TxProofs2
  SighashModel SpecSighash.
Local Open Scope Z_scope.

Lemma is_acp_spec ht : is_acp ht = acp ht.
Proof. apply (land_pow2_testbit ht 7). lia. Qed.
Lemma land31 ht : Z.land ht 0x1f = ht mod 32.
Proof. apply (Z.land_ones ht 5). lia. Qed.
Lemma is_none_spec ht : is_none ht = sig_none ht.
Proof. unfold is_none. rewrite land31. reflexivity. Qed.
Lemma is_single_spec ht : is_single ht = sig_single ht.
Proof. unfold is_single. rewrite land31. reflexivity. Qed.
Lemma none_single ht : sig_none ht = true -> sig_single ht = true -> False.
Proof. unfold sig_none, sig_single. lia. Qed.

Lemma py_nth_nonneg {A} (l : list A) i : 0 <= i ->
  py_nth l i = match nth_error l (Z.to_nat i) with Some x => Ok x | None => Raise EIndex end.
Proof.
  intros Hi. unfold py_nth. destruct (Z.ltb_spec i 0); [lia|].
  destruct (Z.leb_spec 0 i); [|lia]. cbn [andb].
  destruct (Z.ltb_spec i (Z.of_nat (length l))); [reflexivity|].
  rewrite (proj2 (nth_error_None l (Z.to_nat i))) by lia. reflexivity.
Qed.

Lemma py_nth_ok {A} (l : list A) i x : 0 <= i -> py_nth l i = Ok x <-> nth_error l (Z.to_nat i) = Some x.
Proof.
  intros Hi. rewrite py_nth_nonneg by assumption. destruct (nth_error l (Z.to_nat i)); split; congruence.
Qed.

Lemma py_nth_neg {A} (l : list A) i : - Z.of_nat (length l) <= i < 0 ->
  py_nth l i = py_nth l (i + Z.of_nat (length l)).
Proof.
  intros Hi. unfold py_nth. destruct (Z.ltb_spec i 0); [|lia].
  destruct (Z.ltb_spec (i + Z.of_nat (length l)) 0); [lia|reflexivity].
Qed.

Lemma W_outpoint_iff o b : ser_outpoint o = Ok b <-> W_outpoint o b.
Proof.
  unfold ser_outpoint, W_outpoint. destruct (Z.eqb_spec (blen (op_hash o)) 32) as [E|E]; cbn [negb].
  - rewrite rbind_Ok. split.
    + intros (n & H1 & H2). apply Ok_inj in H2. apply pack_le_iff in H1. exists n. auto.
    + intros (n & _ & H1 & ->). exists n. rewrite pack_le_iff. auto.
  - split; [discriminate|]. intros (n & H & _). contradiction.
Qed.

Lemma prevouts_iff t s : v0_prevouts t = Ok s <-> W_seq (fun x => W_outpoint (prevout x)) (vin t) s.
Proof. apply ser_list_iff. intros. apply W_outpoint_iff. Qed.
Lemma sequences_iff t s : v0_sequences t = Ok s <-> W_seq (fun x => le_int 4 (nSequence x)) (vin t) s.
Proof. apply ser_list_iff. intros. apply pack_le_iff. Qed.
Lemma outputs_iff t s : v0_outputs t = Ok s <-> W_seq W_txout (vout t) s.
Proof. apply ser_list_iff. intros. apply ser_txout_iff. Qed.

Lemma iss_or_zero_iff i b : b = iss_or_zero i <-> W_issuance0 i b.
Proof.
  unfold iss_or_zero, W_issuance0. rewrite issuance_is_null_has. destruct (has_issuance i); cbn [negb].
  - symmetry. apply W_issuance_ser.
  - reflexivity.
Qed.
Lemma issuances_iff t s : s = v0_issuances t <-> W_seq W_issuance0 (vin t) s.
Proof.
  unfold v0_issuances. revert s. induction (vin t) as [|i l IH]; intros s; cbn [map concat].
  - split; [intros ->; constructor|]. intros H; inversion H; reflexivity.
  - split.
    + intros ->. constructor; [apply iss_or_zero_iff; reflexivity|apply IH; reflexivity].
    + intros H; inversion H; subst. f_equal; [apply iss_or_zero_iff; assumption|apply IH; assumption].
Qed.

Lemma W_seq_1 {A} (W : A -> bytes -> Prop) x s : W_seq W [x] s <-> W x s.
Proof.
  split.
  - intros H; inversion H; subst. match goal with H : W_seq W [] _ |- _ => inversion H; subst end.
    rewrite app_nil_r. assumption.
  - intros H. rewrite <- (app_nil_r s). constructor; [assumption|constructor].
Qed.

Lemma v0_block1 (H : bytes -> bytes) t ht hp hi :
  (if negb (acp ht) then let! p := v0_prevouts t in Ok (H p, H (v0_issuances t)) else Ok (zeros 32, zeros 32))
  = Ok (hp, hi) <->
  (if acp ht then hp = zeros 32 else HashOf H (fun x => W_outpoint (prevout x)) (vin t) hp) /\
  (if acp ht then hi = zeros 32 else HashOf H W_issuance0 (vin t) hi).
Proof.
  destruct (acp ht); cbn [negb].
  - split; [intros E; apply Ok_pair_inj in E; intuition congruence|intros [-> ->]; reflexivity].
  - unfold HashOf. rewrite rbind_Ok. split.
    + intros (p & E1 & E2). apply Ok_pair_inj in E2. destruct E2 as [<- <-].
      apply prevouts_iff in E1. split; [exists p; auto|].
      exists (v0_issuances t). split; [apply issuances_iff|]; reflexivity.
    + intros [(p & E1 & ->) (q & E2 & ->)]. exists p. apply prevouts_iff in E1. split; [assumption|].
      apply issuances_iff in E2. subst q. reflexivity.
Qed.

Lemma v0_block2 (H : bytes -> bytes) t ht hs :
  (if negb (acp ht) && negb (sig_single ht) && negb (sig_none ht)
   then let! s := v0_sequences t in Ok (H s) else Ok (zeros 32)) = Ok hs <->
  (if acp ht || sig_none ht || sig_single ht then hs = zeros 32
   else HashOf H (fun x => le_int 4 (nSequence x)) (vin t) hs).
Proof.
  assert (Z : Ok (zeros 32) = Ok hs <-> hs = zeros 32) by (split; congruence).
  destruct (acp ht); [exact Z|]. destruct (sig_single ht); destruct (sig_none ht); try exact Z. cbn [negb orb andb].
  unfold HashOf. rewrite rbind_Ok. split.
  - intros (s & E1 & E2). apply Ok_inj in E2. apply sequences_iff in E1. exists s; auto.
  - intros (s & E1 & ->). exists s. apply sequences_iff in E1. auto.
Qed.

Lemma v0_block3 (H : bytes -> bytes) t ht inIdx ho : 0 <= inIdx ->
  (if negb (sig_single ht) && negb (sig_none ht)
   then let! s := v0_outputs t in Ok (H s)
   else if sig_single ht && (inIdx <? Z.of_nat (length (vout t)))
   then let! o := py_nth (vout t) inIdx in let! s := ser_txout o in Ok (H s)
   else Ok (zeros 32)) = Ok ho <->
  (if sig_single ht then
     match nth_error (vout t) (Z.to_nat inIdx) with
     | Some o => HashOf H W_txout [o] ho
     | None => ho = zeros 32
     end
   else if sig_none ht then ho = zeros 32
   else HashOf H W_txout (vout t) ho).
Proof.
  intros Hi. assert (Z : Ok (zeros 32) = Ok ho <-> ho = zeros 32) by (split; congruence).
  destruct (sig_single ht); cbn [negb andb].
  - rewrite py_nth_nonneg by assumption.
    destruct (Z.ltb_spec inIdx (Z.of_nat (length (vout t)))).
    + destruct (nth_error (vout t) (Z.to_nat inIdx)) as [o|] eqn:E.
      * cbn [rbind]. rewrite rbind_Ok. unfold HashOf. split.
        -- intros (s & E1 & E2). apply Ok_inj in E2. apply ser_txout_iff in E1. exists s. rewrite W_seq_1. auto.
        -- intros (s & E1 & ->). rewrite W_seq_1 in E1. apply ser_txout_iff in E1. exists s. auto.
      * apply nth_error_None in E. lia.
    + rewrite (proj2 (nth_error_None _ _)) by lia. exact Z.
  - destruct (sig_none ht); cbn [negb]; [exact Z|].
    rewrite rbind_Ok. unfold HashOf. split.
    + intros (s & E1 & E2). apply Ok_inj in E2. apply outputs_iff in E1. exists s; auto.
    + intros (s & E1 & ->). apply outputs_iff in E1. exists s; auto.
Qed.

Lemma own_issuance_iff i b :
  b = (if negb (issuance_is_null (assetIssuance i)) then ser_issuance (assetIssuance i) else []) <->
  (if has_issuance i then W_issuance (assetIssuance i) b else b = []).
Proof.
  rewrite issuance_is_null_has, negb_involutive. destruct (has_issuance i); [|reflexivity].
  symmetry. apply W_issuance_ser.
Qed.

Theorem v0_preimage_iff H script t inIdx ht a h : 0 <= inIdx ->
  sighash_v0 H script t inIdx ht (Some a) = Ok h <->
  exists b, V0Preimage H script t (Z.to_nat inIdx) ht a b /\ h = H b.
Proof.
  intros Hi. unfold sighash_v0, V0Preimage. cbn [rbind].
  rewrite is_acp_spec, is_none_spec, is_single_spec. split.
  - intros HH. apply rbind_Ok in HH. destruct HH as ([hp hi] & B1 & HH).
    apply rbind_Ok in HH. destruct HH as (hs & B2 & HH).
    apply rbind_Ok in HH. destruct HH as (ho & B3 & HH).
    apply v0_block1 in B1. apply v0_block2 in B2. apply v0_block3 in B3; [|assumption].
    apply rbind_Ok in HH. destruct HH as (ver & C1 & HH). apply pack_sint32_iff in C1.
    apply rbind_Ok in HH. destruct HH as (inp & C2 & HH). apply py_nth_ok in C2; [|assumption].
    apply rbind_Ok in HH. destruct HH as (op & C3 & HH). apply W_outpoint_iff in C3.
    apply rbind_Ok in HH. destruct HH as (sc & C4 & HH). apply ser_bytes_iff in C4.
    apply rbind_Ok in HH. destruct HH as (sq & C5 & HH). apply pack_le_iff in C5.
    cbv zeta in HH.
    apply rbind_Ok in HH. destruct HH as (lt & C6 & HH). apply pack_sint32_iff in C6.
    apply rbind_Ok in HH. destruct HH as (hty & C7 & HH). apply pack_sint32_iff in C7.
    apply Ok_inj in HH. eexists. split; [|symmetry; exact HH].
    exists inp, ver, hp, hs, hi, op, sc, sq, (if negb (issuance_is_null (assetIssuance inp)) then ser_issuance (assetIssuance inp) else []), ho, lt, hty.
    destruct B1. pose proof (proj1 (own_issuance_iff inp _) eq_refl).
    repeat (split; [first [assumption|reflexivity]|]). reflexivity.
  - intros (b & (inp & ver & hp & hs & hi & op & sc & sq & iss & ho & lt & hty & C2 & C1 & B11 & B2 & B12 & C3 & C4 & C5 & CI & B3 & C6 & C7 & ->) & ->).
    rewrite (proj2 (v0_block1 H t ht hp hi) (conj B11 B12)). cbn [rbind].
    rewrite (proj2 (v0_block2 H t ht hs) B2). cbn [rbind].
    rewrite (proj2 (v0_block3 H t ht inIdx ho Hi) B3). cbn [rbind].
    rewrite (proj2 (pack_sint32_iff _ _) C1). cbn [rbind].
    rewrite (proj2 (py_nth_ok _ _ _ Hi) C2). cbn [rbind].
    rewrite (proj2 (W_outpoint_iff _ _) C3). cbn [rbind].
    rewrite (proj2 (ser_bytes_iff _ _) C4). cbn [rbind].
    rewrite (proj2 (pack_le_iff _ _ _) C5). cbn [rbind].
    apply own_issuance_iff in CI. rewrite <- CI.
    rewrite (proj2 (pack_sint32_iff _ _) C6). cbn [rbind].
    rewrite (proj2 (pack_sint32_iff _ _) C7). reflexivity.
Qed.

(** * What the hash depends on *)
Lemma iss_or_zero_of x y : issuance_of x = issuance_of y -> iss_or_zero x = iss_or_zero y.
Proof.
  unfold issuance_of, iss_or_zero. rewrite !issuance_is_null_has.
  destruct (has_issuance x), (has_issuance y); cbn [negb]; congruence.
Qed.

Lemma ser_list_map {A B} (f : B -> res bytes) (g : A -> B) l : ser_list (fun x => f (g x)) l = ser_list f (map g l).
Proof. induction l as [|x l IH]; cbn; [reflexivity|]. rewrite IH. reflexivity. Qed.

Lemma issuances_of_map l1 : forall l2, map issuance_of l1 = map issuance_of l2 ->
  map iss_or_zero l1 = map iss_or_zero l2.
Proof.
  induction l1 as [|x l1 IH]; intros [|y l2] H; try discriminate; [reflexivity|].
  cbn [map] in *. injection H as H1 H2. rewrite (iss_or_zero_of _ _ H1), (IH _ H2). reflexivity.
Qed.

Lemma own_iss_of x y : issuance_of x = issuance_of y ->
  (if negb (issuance_is_null (assetIssuance x)) then ser_issuance (assetIssuance x) else [])
  = (if negb (issuance_is_null (assetIssuance y)) then ser_issuance (assetIssuance y) else []).
Proof.
  unfold issuance_of. rewrite !issuance_is_null_has, !negb_involutive.
  destruct (has_issuance x), (has_issuance y); congruence.
Qed.

Theorem v0_depends H script t1 t2 i1 i2 ht a x y :
  0 <= i1 -> 0 <= i2 ->
  nVersion t1 = nVersion t2 -> nLockTime t1 = nLockTime t2 ->
  nth_error (vin t1) (Z.to_nat i1) = Some x -> nth_error (vin t2) (Z.to_nat i2) = Some y ->
  prevout x = prevout y -> nSequence x = nSequence y -> issuance_of x = issuance_of y ->
  (acp ht = false -> map prevout (vin t1) = map prevout (vin t2)
                     /\ map issuance_of (vin t1) = map issuance_of (vin t2)) ->
  (acp ht || sig_none ht || sig_single ht = false -> map nSequence (vin t1) = map nSequence (vin t2)) ->
  (sig_none ht || sig_single ht = false -> vout t1 = vout t2) ->
  (sig_single ht = true -> nth_error (vout t1) (Z.to_nat i1) = nth_error (vout t2) (Z.to_nat i2)) ->
  sighash_v0 H script t1 i1 ht a = sighash_v0 H script t2 i2 ht a.
Proof.
  intros Hi1 Hi2 EV EL N1 N2 EP ES EI Hacp Hseq Hout Hsin. unfold sighash_v0.
  destruct a as [a|]; [|reflexivity]. cbn [rbind].
  rewrite is_acp_spec, is_none_spec, is_single_spec.
  rewrite !py_nth_nonneg by assumption. rewrite N1, N2.
  assert (B1 : (if negb (acp ht) then let! p := v0_prevouts t1 in Ok (H p, H (v0_issuances t1)) else Ok (zeros 32, zeros 32))
             = (if negb (acp ht) then let! p := v0_prevouts t2 in Ok (H p, H (v0_issuances t2)) else Ok (zeros 32, zeros 32))).
  { destruct (acp ht); cbn [negb]; [reflexivity|]. destruct (Hacp eq_refl) as [E1 E2].
    unfold v0_prevouts, v0_issuances. rewrite !(ser_list_map ser_outpoint prevout), E1, (issuances_of_map _ _ E2). reflexivity. }
  rewrite B1. clear B1.
  assert (B2 : (if negb (acp ht) && negb (sig_single ht) && negb (sig_none ht)
                then let! s := v0_sequences t1 in Ok (H s) else Ok (zeros 32))
             = (if negb (acp ht) && negb (sig_single ht) && negb (sig_none ht)
                then let! s := v0_sequences t2 in Ok (H s) else Ok (zeros 32))).
  { unfold v0_sequences. rewrite !(ser_list_map (pack_le 4) nSequence).
    destruct (acp ht); [reflexivity|]. destruct (sig_single ht); [reflexivity|]. destruct (sig_none ht); [reflexivity|].
    rewrite (Hseq eq_refl). reflexivity. }
  rewrite B2. clear B2.
  assert (B3 : (if negb (sig_single ht) && negb (sig_none ht)
   then let! s := v0_outputs t1 in Ok (H s)
   else if sig_single ht && (i1 <? Z.of_nat (length (vout t1)))
   then let! o := match nth_error (vout t1) (Z.to_nat i1) with Some x0 => Ok x0 | None => Raise EIndex end in
        let! s := ser_txout o in Ok (H s)
   else Ok (zeros 32)) =
   (if negb (sig_single ht) && negb (sig_none ht)
   then let! s := v0_outputs t2 in Ok (H s)
   else if sig_single ht && (i2 <? Z.of_nat (length (vout t2)))
   then let! o := match nth_error (vout t2) (Z.to_nat i2) with Some x0 => Ok x0 | None => Raise EIndex end in
        let! s := ser_txout o in Ok (H s)
   else Ok (zeros 32))).
  { destruct (sig_single ht); cbn [negb andb].
    - specialize (Hsin eq_refl). rewrite Hsin.
      destruct (Z.ltb_spec i1 (Z.of_nat (length (vout t1)))) as [A1|A1];
      destruct (Z.ltb_spec i2 (Z.of_nat (length (vout t2)))) as [A2|A2]; try reflexivity.
      + assert (nth_error (vout t2) (Z.to_nat i2) = None) by (apply nth_error_None; lia).
        assert (nth_error (vout t1) (Z.to_nat i1) <> None) by (apply nth_error_Some; lia). congruence.
      + assert (nth_error (vout t1) (Z.to_nat i1) = None) by (apply nth_error_None; lia).
        assert (nth_error (vout t2) (Z.to_nat i2) <> None) by (apply nth_error_Some; lia). congruence.
    - destruct (sig_none ht); [reflexivity|]. cbn [negb]. unfold v0_outputs. rewrite (Hout eq_refl). reflexivity. }
  rewrite B3. clear B3. cbn [rbind]. rewrite EV, EL, EP, ES, (own_iss_of _ _ EI). reflexivity.
Qed.

(** * Availability *)
Lemma W_outpoint_ex i : txin_in_range i -> exists b, W_outpoint (prevout i) b.
Proof.
  intros (HL & HN & _). destruct (le_int_ex 4 (op_n (prevout i))) as [n Hn]; [cbn; lia|].
  exists (op_hash (prevout i) ++ n), n. auto.
Qed.

Lemma v0_available H script t inIdx ht a : signable t -> small script ->
  - 2 ^ 31 <= nVersion t < 2 ^ 31 ->
  0 <= inIdx < Z.of_nat (length (vin t)) ->
  (exists h, sighash_v0 H script t inIdx ht (Some a) = Ok h) <->
  (- 2 ^ 31 <= nLockTime t < 2 ^ 31 /\ - 2 ^ 31 <= ht < 2 ^ 31).
Proof.
  intros [S T] Hsc HV Hi. split.
  - intros [h E]. apply v0_preimage_iff in E; [|lia]. destruct E as (b & (inp & ver & hp & hs & hi & op & sc & sq & iss & ho & lt & hty & P) & _).
    destruct P as (_ & _ & _ & _ & _ & _ & _ & _ & _ & _ & K & Y & _). split; [apply K|apply Y].
  - intros [HK HY].
    destruct (nth_error (vin t) (Z.to_nat inIdx)) as [x|] eqn:EN.
    2: { apply nth_error_None in EN. lia. }
    assert (Hx : txin_in_range x) by (rewrite Forall_forall in S; apply S; eapply nth_error_In; eassumption).
    destruct (W_outpoint_ex x Hx) as [op Hop]. destruct (W_bytes_ex script Hsc) as [sc Hc].
    destruct (le_sint32_ex _ HV) as [ver Hver]. destruct (le_sint32_ex _ HK) as [lt Hlt].
    destruct (le_sint32_ex _ HY) as [hty Hhty].
    destruct (le_int_ex 4 (nSequence x)) as [sq Hsq]; [cbn; destruct Hx as (_ & _ & _ & Hx & _); lia|].
    assert (XP : exists hp, if acp ht then hp = zeros 32 else HashOf H (fun x => W_outpoint (prevout x)) (vin t) hp).
    { destruct (acp ht); [eexists; reflexivity|].
      destruct (W_seq_ex (fun x => W_outpoint (prevout x)) txin_in_range (vin t)) as [s Hs]; [apply W_outpoint_ex|assumption|].
      exists (H s), s; auto. }
    assert (XS : exists hs, if acp ht || sig_none ht || sig_single ht then hs = zeros 32
                 else HashOf H (fun x => le_int 4 (nSequence x)) (vin t) hs).
    { destruct (acp ht || sig_none ht || sig_single ht); [eexists; reflexivity|].
      destruct (W_seq_ex (fun x => le_int 4 (nSequence x)) txin_in_range (vin t)) as [s Hs]; [|assumption|exists (H s), s; auto].
      intros z (_ & _ & _ & Hz & _). apply le_int_ex. cbn. lia. }
    assert (XI : exists hi, if acp ht then hi = zeros 32 else HashOf H W_issuance0 (vin t) hi).
    { destruct (acp ht); [eexists; reflexivity|]. exists (H (v0_issuances t)), (v0_issuances t).
      split; [apply issuances_iff|]; reflexivity. }
    assert (XO : exists ho, if sig_single ht then match nth_error (vout t) (Z.to_nat inIdx) with
             | Some o => HashOf H W_txout [o] ho | None => ho = zeros 32 end
             else if sig_none ht then ho = zeros 32 else HashOf H W_txout (vout t) ho).
    { destruct (sig_single ht).
      - destruct (nth_error (vout t) (Z.to_nat inIdx)) as [o|] eqn:EO; [|eexists; reflexivity].
        destruct (W_txout_ex o) as [s Hs]; [rewrite Forall_forall in T; apply T; eapply nth_error_In; eassumption|].
        exists (H s), s. rewrite W_seq_1. auto.
      - destruct (sig_none ht); [eexists; reflexivity|].
        destruct (W_seq_ex W_txout wf_txout (vout t)) as [s Hs]; [apply W_txout_ex|assumption|exists (H s), s; auto]. }
    destruct XP as [hp XP], XS as [hs XS], XI as [hi XI], XO as [ho XO].
    eexists. apply v0_preimage_iff; [lia|]. eexists. split; [|reflexivity].
    exists x, ver, hp, hs, hi, op, sc, sq, (if negb (issuance_is_null (assetIssuance x)) then ser_issuance (assetIssuance x) else []), ho, lt, hty.
    pose proof (proj1 (own_issuance_iff x _) eq_refl).
    repeat (split; [first [assumption|reflexivity]|]). reflexivity.
Qed.

(** The only exception for such arguments is struct.error. *)
Lemma ser_list_raise {A} (f : A -> res bytes) l e : ser_list f l = Raise e -> exists x, In x l /\ f x = Raise e.
Proof.
  induction l as [|x l IH]; cbn [ser_list]; [discriminate|]. intros H. apply rbind_Raise in H.
  destruct H as [H|(b & _ & H)]; [exists x; split; [left; reflexivity|assumption]|].
  apply rbind_Raise in H. destruct H as [H|(b' & _ & H)]; [|discriminate].
  destruct (IH H) as (y & Hy & E). exists y. split; [right; assumption|assumption].
Qed.
Lemma pack_le_raise n z e : pack_le n z = Raise e -> e = EStruct.
Proof. unfold pack_le. destruct (_ && _); congruence. Qed.
Lemma pack_le_signed_raise n z e : pack_le_signed n z = Raise e -> e = EStruct.
Proof. unfold pack_le_signed. destruct (_ && _); congruence. Qed.
Lemma ser_varint_raise z e : ser_varint z = Raise e -> e = EStruct.
Proof.
  unfold ser_varint. destruct (z <? 253); [discriminate|].
  destruct (z <=? 65535); [|destruct (z <=? 4294967295)]; intros H; apply rbind_Raise in H;
    (destruct H as [H|(? & _ & H)]; [eapply pack_le_raise; eassumption|discriminate]).
Qed.
Lemma ser_bytes_raise d e : ser_bytes d = Raise e -> e = EStruct.
Proof.
  unfold ser_bytes. intros H. apply rbind_Raise in H. destruct H as [H|(? & _ & H)]; [|discriminate].
  eapply ser_varint_raise; eassumption.
Qed.
Lemma ser_txout_raise o e : ser_txout o = Raise e -> e = EStruct.
Proof.
  unfold ser_txout. intros H. apply rbind_Raise in H. destruct H as [H|(? & _ & H)]; [|discriminate].
  eapply ser_bytes_raise; eassumption.
Qed.
Lemma ser_outwit_raise w e : ser_outwit w = Raise e -> e = EStruct.
Proof.
  unfold ser_outwit. intros H. apply rbind_Raise in H. destruct H as [H|(? & _ & H)]; [eapply ser_bytes_raise; eassumption|].
  apply rbind_Raise in H. destruct H as [H|(? & _ & H)]; [|discriminate]. eapply ser_bytes_raise; eassumption.
Qed.
Lemma ser_outpoint_raise o e : blen (op_hash o) = 32 -> ser_outpoint o = Raise e -> e = EStruct.
Proof.
  intros HL. unfold ser_outpoint. rewrite HL. cbn [Z.eqb Pos.eqb negb]. intros H.
  apply rbind_Raise in H. destruct H as [H|(? & _ & H)]; [|discriminate]. eapply pack_le_raise; eassumption.
Qed.

Lemma v0_raise_struct H script t inIdx ht a e : signable t ->
  0 <= inIdx < Z.of_nat (length (vin t)) ->
  sighash_v0 H script t inIdx ht (Some a) = Raise e -> e = EStruct.
Proof.
  intros [S _] Hi. unfold sighash_v0. cbn [rbind].
  assert (RO : forall x, In x (vin t) -> forall e, ser_outpoint (prevout x) = Raise e -> e = EStruct).
  { intros x Hx e'. apply ser_outpoint_raise. rewrite Forall_forall in S. apply S. assumption. }
  assert (RN : exists x, py_nth (vin t) inIdx = Ok x /\ In x (vin t)).
  { destruct (nth_error (vin t) (Z.to_nat inIdx)) as [x|] eqn:EN; [|apply nth_error_None in EN; lia].
    exists x. split; [apply py_nth_ok; [lia|assumption]|eapply nth_error_In; eassumption]. }
  destruct RN as (x & EN & Hin). rewrite EN.
  intros HH. apply rbind_Raise in HH. destruct HH as [HH|([hp hi] & _ & HH)].
  { destruct (negb (is_acp ht)); [|discriminate]. apply rbind_Raise in HH. destruct HH as [HH|(? & _ & HH)]; [|discriminate].
    apply ser_list_raise in HH. destruct HH as (z & Hz & HH). eapply RO; eassumption. }
  apply rbind_Raise in HH. destruct HH as [HH|(hs & _ & HH)].
  { destruct (_ && _); [|discriminate]. apply rbind_Raise in HH. destruct HH as [HH|(? & _ & HH)]; [|discriminate].
    apply ser_list_raise in HH. destruct HH as (z & Hz & HH). eapply pack_le_raise; eassumption. }
  apply rbind_Raise in HH. destruct HH as [HH|(ho & _ & HH)].
  { destruct (negb (is_single ht) && negb (is_none ht)).
    - apply rbind_Raise in HH. destruct HH as [HH|(? & _ & HH)]; [|discriminate].
      apply ser_list_raise in HH. destruct HH as (z & Hz & HH). eapply ser_txout_raise; eassumption.
    - destruct (is_single ht && _) eqn:ES; [|discriminate].
      rewrite py_nth_nonneg in HH by lia. apply andb_true_iff in ES. destruct ES as [_ ES]. apply Z.ltb_lt in ES.
      destruct (nth_error (vout t) (Z.to_nat inIdx)) eqn:EO; [|apply nth_error_None in EO; lia].
      cbn [rbind] in HH. apply rbind_Raise in HH. destruct HH as [HH|(? & _ & HH)]; [|discriminate].
      eapply ser_txout_raise; eassumption. }
  cbn [rbind] in HH.
  apply rbind_Raise in HH. destruct HH as [HH|(? & _ & HH)]; [eapply pack_le_signed_raise; eassumption|].
  apply rbind_Raise in HH. destruct HH as [HH|(? & _ & HH)]; [eapply RO; eassumption|].
  apply rbind_Raise in HH. destruct HH as [HH|(? & _ & HH)]; [eapply ser_bytes_raise; eassumption|].
  apply rbind_Raise in HH. destruct HH as [HH|(? & _ & HH)]; [eapply pack_le_raise; eassumption|].
  cbv zeta in HH.
  apply rbind_Raise in HH. destruct HH as [HH|(? & _ & HH)]; [eapply pack_le_signed_raise; eassumption|].
  apply rbind_Raise in HH. destruct HH as [HH|(? & _ & HH)]; [eapply pack_le_signed_raise; eassumption|discriminate].
Qed.

(** A negative index counts from the end of the inputs (when the outputs are not indexed). *)
Lemma v0_negative H script t inIdx ht a : - Z.of_nat (length (vin t)) <= inIdx < 0 ->
  sig_single ht = false ->
  sighash_v0 H script t inIdx ht a = sighash_v0 H script t (inIdx + Z.of_nat (length (vin t))) ht a.
Proof.
  intros Hi Hs. unfold sighash_v0. rewrite is_single_spec, Hs. cbn [negb andb].
  rewrite <- (py_nth_neg (vin t) inIdx Hi). reflexivity.
Qed.
