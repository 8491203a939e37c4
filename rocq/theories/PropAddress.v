(** The text of confidential addresses: property C70. *)
From Coq Require Import Strings.String.
From Coq Require Import ZArith List Bool Lia Permutation.
From Verif Require Import Base BaseFacts PropBlech32 PyStr Blech32Model Blech32Facts WalletModel PropWallet Base58Model SpecBase58 Base58Proofs Sha256.
Import ListNotations.
Local Open Scope Z_scope.

(** * C70 *)
Definition DigestOk (H : bytes -> bytes) : Prop := forall x, (4 <= length (H x))%nat.
(** The encodings tried by the confidential address class of chain [c]: two, in any order, each with its classes in any order. *)
Definition Encodings (c : chain) (encs : list encoding) : Prop := exists cands leaves,
  Permutation cands [B58Address c P2PKH true; B58Address c P2SH true] /\ Permutation leaves [P2WPKH; P2WSH; P2TR]
  /\ Permutation encs [EncBase58 cands; EncBlech32 leaves].
(** A confidential address of chain [c]: 33 bytes of key and the payload of its kind. *)
Definition ConfidentialAddress (c : chain) (a : addr) : Prop :=
  ad_chain a = c /\ ad_conf a = true /\ blen (ad_data a) = 33 + payload_length (ad_kind a).

(** Base58 text is exactly the text of the specification, both ways. *)
Theorem C70_base58_encode : forall b s, b58_encode b = s <-> Base58Text b s.
Proof. exact encode_iff. Qed.
Theorem C70_base58_decode : forall s b, b58_decode s = Ok b <-> Base58Text b s.
Proof. exact decode_iff. Qed.
Print Assumptions C70_base58_encode.
Print Assumptions C70_base58_decode.

Lemma prefix_bz c k conf p : base58_prefix c k conf = Some p -> map bz (map zb p) = p.
Proof. destruct c, k, conf; cbn; intros E; try discriminate; injection E as <-; reflexivity. Qed.
(** A base58 address class reads exactly the text of its addresses. *)
Theorem C70_base58_address : forall H cands s a, DigestOk H ->
  base58_new H cands s = Ok a <->
  In (B58Address (ad_chain a) (ad_kind a) (ad_conf a)) cands /\ blen (ad_data a) = data_length (ad_kind a) (ad_conf a) /\
  base58_str H a = Some s.
Proof.
  intros H cands s a DK. unfold base58_new. split.
  - destruct (b58check_decode H s) as [data|e] eqn:E; [|discriminate]. cbn [rbind]. apply (check_decode H s data DK) in E.
    destruct (base58_match cands data) as [[[c k conf|c|c|c] d]|] eqn:M; try discriminate. apply C40_match_sound in M. destruct M as (I & p & P & MZ). cbn [prefix_of] in P.
    unfold addr_from_bytes. assert (SG : is_segwit k = false) by (destruct c, k, conf; cbn in P; try discriminate P; reflexivity). rewrite SG. cbn [andb].
    destruct (Z.eqb_spec (blen d) (data_length k conf)) as [L|]; [|discriminate]. intros Q. injection Q as <-. cbn [ad_chain ad_kind ad_conf ad_data].
    split; [exact I|]. split; [exact L|]. unfold base58_str. cbn [ad_chain ad_kind ad_conf ad_data]. rewrite P. f_equal. apply check_encode.
    assert (X : data = map zb p ++ d) by (apply map_bz_inj; rewrite map_app, (prefix_bz _ _ _ _ P); exact MZ). rewrite <- X. exact E.
  - intros (I & L & S). unfold base58_str in S. destruct (base58_prefix (ad_chain a) (ad_kind a) (ad_conf a)) as [p|] eqn:P; [|discriminate]. injection S as S. apply check_encode in S.
    rewrite (proj2 (check_decode H s _ DK) S). cbn [rbind]. rewrite (C40_match cands _ _ _ p (ad_data a) _ I P) by (rewrite map_app, (prefix_bz _ _ _ _ P); reflexivity).
    unfold addr_from_bytes. assert (SG : is_segwit (ad_kind a) = false) by (destruct (ad_chain a), (ad_kind a), (ad_conf a); cbn in P; try discriminate P; reflexivity). rewrite SG, L, Z.eqb_refl. cbn [andb].
    destruct a; reflexivity.
Qed.
Print Assumptions C70_base58_address.

(** * First letters *)
Lemma top ds n m t A Bd : Digits 58 ds -> no_zero_first ds -> value 58 ds = n -> A * 58 ^ Z.of_nat m <= n < (Bd + 1) * 58 ^ Z.of_nat m ->
  58 ^ Z.of_nat t <= A -> Bd < 58 ^ Z.of_nat (S t) -> exists hi lo, ds = hi ++ lo /\ length hi = S t /\ length lo = m /\ A <= value 58 hi <= Bd.
Proof.
  intros D N V R LA LB. assert (VR := value_range 58 ltac:(lia) ds D). rewrite V in VR.
  assert (P : forall k, 0 < 58 ^ Z.of_nat k) by (intros k; apply Z.pow_pos_nonneg; lia). assert (Pm := P m).
  assert (LN : length ds = (S t + m)%nat).
  { destruct ds as [|d r]; [cbn [value length] in V; specialize (P t); nia|]. assert (X := value_lead 58 ltac:(lia) d r D (fun Q => N (f_equal Some Q))). rewrite V in X. cbn [length] in *.
    assert (U1 : Z.of_nat (length r) < Z.of_nat (S t + m)). { apply (Z.pow_lt_mono_r_iff 58); [lia|lia|]. eapply Z.le_lt_trans; [exact X|]. rewrite Nat2Z.inj_add, Z.pow_add_r by lia. nia. }
    assert (U2 : Z.of_nat (t + m) < Z.of_nat (S (length r))). { apply (Z.pow_lt_mono_r_iff 58); [lia|lia|]. eapply Z.le_lt_trans; [|apply VR]. rewrite Nat2Z.inj_add, Z.pow_add_r by lia. nia. } lia. }
  assert (LL : length (skipn (S t) ds) = m) by (rewrite skipn_length; lia).
  exists (firstn (S t) ds), (skipn (S t) ds). split; [symmetry; apply firstn_skipn|]. split; [rewrite firstn_length; lia|]. split; [exact LL|].
  assert (VV : value 58 (firstn (S t) ds) * 58 ^ Z.of_nat m + value 58 (skipn (S t) ds) = n) by (rewrite <- LL, <- value_app by lia; rewrite firstn_skipn; exact V).
  assert (DS : Digits 58 (skipn (S t) ds)) by (rewrite <- (firstn_skipn (S t) ds) in D; apply Forall_app in D; tauto).
  assert (VL := value_range 58 ltac:(lia) _ DS). rewrite LL in VL. nia.
Qed.
Lemma bytes_value_range p1 p2 (rest : bytes) : (bz p1 * 256 + bz p2) * 256 ^ blen rest <= value 256 (map bz (p1 :: p2 :: rest)) < (bz p1 * 256 + bz p2 + 1) * 256 ^ blen rest.
Proof.
  cbn [map value length]. rewrite map_length. assert (R := value_range 256 ltac:(lia) _ (bz_digits rest)). rewrite map_length in R. unfold blen.
  rewrite Nat2Z.inj_succ, Z.pow_succ_r by lia. lia.
Qed.
Lemma bytes_value_range3 p1 p2 p3 (rest : bytes) : (bz p1 * 65536 + bz p2 * 256 + bz p3) * 256 ^ blen rest <= value 256 (map bz (p1 :: p2 :: p3 :: rest)) < (bz p1 * 65536 + bz p2 * 256 + bz p3 + 1) * 256 ^ blen rest.
Proof.
  cbn [map value length]. rewrite map_length. assert (R := value_range 256 ltac:(lia) _ (bz_digits rest)). rewrite map_length in R. unfold blen.
  rewrite !Nat2Z.inj_succ, !Z.pow_succ_r by lia. lia.
Qed.
Lemma text_nonzero b s x r : b = x :: r -> bz x <> 0 -> Base58Text b s -> exists ds, s = map letter ds /\ Digits 58 ds /\ no_zero_first ds /\ value 58 ds = value 256 (map bz b).
Proof.
  intros -> NZ (k & rest & ds & E & N & -> & D & ND & V). cbn [map] in E. destruct k as [|k]; [|cbn in E; injection E as E _; congruence]. cbn [repeat app] in *. exists ds. cbn [map]. rewrite E. auto.
Qed.
Lemma one_letter (l : list Z) : length l = 1%nat -> exists d, l = [d]. Proof. destruct l as [|d [|? ?]]; try discriminate. eauto. Qed.

(** The text has 80 characters; with a compressed blinding key it starts with the letters users know. *)
Definition first_letters (c : chain) (k : kind) : list pystr :=
  match c, k with
  | Elements, P2PKH => [str "CTE"] | Elements, P2SH => [str "Azp"]
  | LiquidV1, P2PKH => [str "VTp"; str "VTq"] | LiquidV1, P2SH => [str "VJL"]
  | _, _ => []
  end.
Lemma conf_payload c k d p : ConfidentialAddress c (mkAddr c k true d) -> base58_prefix c k true = Some p -> length d = 53%nat.
Proof. intros (_ & _ & L) P. cbn in L. unfold blen in L. destruct c, k; cbn in P; try discriminate P; cbn in L; lia. Qed.
Lemma top3 ds (A Bd : Z) : 58 ^ 2 <= A -> A <= Bd < 58 ^ 3 -> Digits 58 ds -> no_zero_first ds -> A * 58 ^ 77 <= value 58 ds < (Bd + 1) * 58 ^ 77 ->
  exists hi lo, ds = hi ++ lo /\ length hi = 3%nat /\ length lo = 77%nat /\ A <= value 58 hi <= Bd.
Proof. intros L U D N R. apply (top ds _ 77 2 A Bd D N eq_refl R L). apply U. Qed.
Lemma first_letter H c k d s : DigestOk H -> ConfidentialAddress c (mkAddr c k true d) -> base58_str H (mkAddr c k true d) = Some s ->
  exists d0 r, s = letter d0 :: r /\ In d0 [9; 10; 11; 28] /\ length r = 79%nat.
Proof.
  intros DK CA S. unfold base58_str in S. cbn [ad_chain ad_kind ad_conf ad_data] in S.
  destruct (base58_prefix c k true) as [p|] eqn:P; [|discriminate]. injection S as S. apply check_encode in S. red in S.
  assert (LD := conf_payload _ _ _ _ CA P).
  assert (LC : length (firstn 4 (H (map zb p ++ d))) = 4%nat) by (rewrite firstn_length; specialize (DK (map zb p ++ d)); lia).
  set (chk := firstn 4 (H (map zb p ++ d))) in *. clearbody chk. rewrite <- app_assoc in S.
  assert (W : forall (b1 b2 : byte) A0 B0, map zb p = [b1; b2] -> bz b1 <> 0 ->
    (1 <= A0 <= B0 /\ B0 < 58 /\ A0 * 58 ^ 79 <= (bz b1 * 256 + bz b2) * 256 ^ 57 /\ (bz b1 * 256 + bz b2 + 1) * 256 ^ 57 <= (B0 + 1) * 58 ^ 79) ->
    exists d0 r, s = letter d0 :: r /\ A0 <= d0 <= B0 /\ length r = 79%nat).
  { intros b1 b2 A0 B0 EP NZ (C1 & C2 & C3 & C4). rewrite EP in S. cbn [app] in S.
    destruct (text_nonzero _ _ b1 (b2 :: d ++ chk) eq_refl NZ S) as (ds & -> & D & N & V).
    assert (R := bytes_value_range b1 b2 (d ++ chk)). unfold blen in R. rewrite app_length, LD, LC in R. change (Z.of_nat (53 + 4)) with 57 in R. rewrite <- V in R.
    destruct (top ds _ 79 0 A0 B0 D N eq_refl) as (hi & lo & -> & L1 & L2 & R3).
    - change (Z.of_nat 79) with 79. lia.
    - change (58 ^ Z.of_nat 0) with 1. lia.
    - change (58 ^ Z.of_nat 1) with 58. lia.
    - destruct (one_letter _ L1) as (d0 & ->). exists d0, (map letter lo). split; [reflexivity|]. split; [|rewrite map_length; exact L2].
      cbn [value length] in R3. change (58 ^ Z.of_nat 0) with 1 in R3. lia. }
  destruct c, k; cbn [base58_prefix] in P; try discriminate P; injection P as <-.
  - destruct (W x04 xeb 11 11 eq_refl) as (d0 & r & E & R & L); [discriminate|repeat split; vm_compute; congruence|]. exists d0, r. split; [exact E|]. split; [cbn [In]; lia|exact L].
  - destruct (W x04 x4b 9 10 eq_refl) as (d0 & r & E & R & L); [discriminate|repeat split; vm_compute; congruence|]. exists d0, r. split; [exact E|]. split; [cbn [In]; lia|exact L].
  - destruct (W x0c x39 28 28 eq_refl) as (d0 & r & E & R & L); [discriminate|repeat split; vm_compute; congruence|]. exists d0, r. split; [exact E|]. split; [cbn [In]; lia|exact L].
  - destruct (W x0c x27 28 28 eq_refl) as (d0 & r & E & R & L); [discriminate|repeat split; vm_compute; congruence|]. exists d0, r. split; [exact E|]. split; [cbn [In]; lia|exact L].
Qed.
Theorem C70_first_letters : forall H c k d s, DigestOk H -> ConfidentialAddress c (mkAddr c k true d) ->
  base58_str H (mkAddr c k true d) = Some s ->
  length s = 80%nat /\ (nth_error d 0 = Some x02 \/ nth_error d 0 = Some x03 -> In (firstn 3 s) (first_letters c k)).
Proof.
  intros H c k d s DK CA S. split; [destruct (first_letter H c k d s DK CA S) as (d0 & r & -> & _ & L); cbn [length]; rewrite L; reflexivity|].
  intros F. unfold base58_str in S. cbn [ad_chain ad_kind ad_conf ad_data] in S.
  destruct (base58_prefix c k true) as [p|] eqn:P; [|discriminate]. injection S as S. apply check_encode in S. red in S.
  assert (LD := conf_payload _ _ _ _ CA P).
  assert (LC : length (firstn 4 (H (map zb p ++ d))) = 4%nat) by (rewrite firstn_length; specialize (DK (map zb p ++ d)); lia).
  set (chk := firstn 4 (H (map zb p ++ d))) in *. clearbody chk. rewrite <- app_assoc in S.
  assert (W : forall (b1 b2 : byte) A B, map zb p = [b1; b2] -> bz b1 <> 0 ->
    (58 ^ 2 <= A <= B /\ B < 58 ^ 3 /\ A * 58 ^ 77 <= (bz b1 * 65536 + bz b2 * 256 + 2) * 256 ^ 56 /\ (bz b1 * 65536 + bz b2 * 256 + 4) * 256 ^ 56 <= (B + 1) * 58 ^ 77) ->
    exists hi lo, s = map letter hi ++ lo /\ length hi = 3%nat /\ Digits 58 hi /\ A <= value 58 hi <= B).
  { intros b1 b2 A B EP NZ (C5 & C6 & C7 & C8). rewrite EP in S. cbn [app] in S.
    destruct (text_nonzero _ _ b1 (b2 :: d ++ chk) eq_refl NZ S) as (ds & -> & D & N & V).
    destruct d as [|x d]; [discriminate LD|]. cbn [nth_error app] in *. assert (X : 2 <= bz x < 4) by (destruct F as [F|F]; injection F as ->; cbn; lia).
    assert (R := bytes_value_range3 b1 b2 x (d ++ chk)). unfold blen in R. injection LD as LD. rewrite app_length, LC, LD in R. change (Z.of_nat (52 + 4)) with 56 in R. rewrite <- V in R.
    assert (P56 : 0 < 256 ^ 56) by reflexivity. destruct (top3 ds A B) as (hi & lo & -> & L1 & L2 & R3); [lia|lia|exact D|exact N| |].
    { set (q := 256 ^ 56) in *. set (w := 58 ^ 77) in *. clearbody q w. split; nia. }
    exists hi, (map letter lo). rewrite map_app. split; [reflexivity|]. split; [exact L1|]. split; [apply Forall_app in D; tauto|exact R3]. }
  assert (FIN : forall A hi lo, Digits 58 hi -> length hi = 3%nat -> s = map letter hi ++ lo -> forall l3, length l3 = 3%nat -> Digits 58 l3 -> value 58 l3 = A -> value 58 hi = A -> firstn 3 s = map letter l3).
  { intros A hi lo Dh Lh -> l3 L3 D3 V3 Vh. rewrite firstn_app, map_length, Lh, Nat.sub_diag. change (firstn 0 lo) with (@nil Z). rewrite app_nil_r.
    assert (hi = l3) by (apply (value_inj_len 58); congruence || lia || assumption). subst l3. apply firstn_all2. rewrite map_length. lia. }
  assert (DG : forall a b c0, 0 <= a < 58 -> 0 <= b < 58 -> 0 <= c0 < 58 -> Digits 58 [a; b; c0]) by (intros; repeat constructor; lia).
  destruct c, k; cbn [base58_prefix] in P; try discriminate P; injection P as <-; cbn [first_letters].
  - destruct (W x04 xeb 38525 38525 eq_refl) as (hi & lo & E & L1 & D & V); [discriminate|repeat split; vm_compute; congruence|]. left.
    symmetry. exact (FIN 38525 hi lo D L1 E [11; 26; 13] eq_refl (DG 11 26 13 ltac:(lia) ltac:(lia) ltac:(lia)) eq_refl ltac:(lia)).
  - destruct (W x04 x4b 33629 33629 eq_refl) as (hi & lo & E & L1 & D & V); [discriminate|repeat split; vm_compute; congruence|]. left.
    symmetry. exact (FIN 33629 hi lo D L1 E [9; 57; 47] eq_refl (DG 9 57 47 ltac:(lia) ltac:(lia) ltac:(lia)) eq_refl ltac:(lia)).
  - destruct (W x0c x39 95747 95748 eq_refl) as (hi & lo & E & L1 & D & V); [discriminate|repeat split; vm_compute; congruence|].
    assert (VV : value 58 hi = 95747 \/ value 58 hi = 95748) by lia. destruct VV as [VV|VV]; [left|right; left]; symmetry.
    + exact (FIN 95747 hi lo D L1 E [28; 26; 47] eq_refl (DG 28 26 47 ltac:(lia) ltac:(lia) ltac:(lia)) eq_refl VV).
    + exact (FIN 95748 hi lo D L1 E [28; 26; 48] eq_refl (DG 28 26 48 ltac:(lia) ltac:(lia) ltac:(lia)) eq_refl VV).
  - destruct (W x0c x27 95197 95197 eq_refl) as (hi & lo & E & L1 & D & V); [discriminate|repeat split; vm_compute; congruence|]. left.
    symmetry. exact (FIN 95197 hi lo D L1 E [28; 17; 19] eq_refl (DG 28 17 19 ltac:(lia) ltac:(lia) ltac:(lia)) eq_refl ltac:(lia)).
Qed.
Print Assumptions C70_first_letters.

(** * Both encodings *)
(** [s] is the text of [a] as printed, or, for blech32, all upper case. *)
Definition Reads (H : bytes -> bytes) (c : chain) (s : pystr) (a : addr) : Prop :=
  ConfidentialAddress c a /\ (conf_str H a = Ok s \/ is_segwit (ad_kind a) = true /\ upper s = s /\ conf_str H a = Ok (lower s)).
(** Base58Check text with the prefix of a confidential address but a payload of the wrong size. *)
Definition Malformed (H : bytes -> bytes) (c : chain) (s : pystr) : Prop := exists k p d,
  base58_prefix c k true = Some p /\ Base58CheckText H (map zb p ++ d) s /\ blen d <> 53.

Lemma seg_b58 H c k d : base58_str H (mkAddr c k true d) = None <-> is_segwit k = true.
Proof. unfold base58_str. cbn [ad_chain ad_kind ad_conf]. destruct c, k; cbn; split; congruence. Qed.
Lemma seg_kind k : is_segwit k = true <-> exists n v, blech32_kind k n v.
Proof. destruct k; cbn; split; try discriminate; try (intros _; eauto using blech32_kind; fail); intros (n & v & K); inversion K. Qed.
Lemma conf_cases H c a s : ConfidentialAddress c a -> conf_str H a = Ok s ->
  base58_str H a = Some s \/ base58_str H a = None /\ exists n v, blech32_kind (ad_kind a) n v /\ blen (ad_data a) = n /\ encode (blech32_hrp c) v (ad_data a) = Ok (Some s) /\ decode (blech32_hrp c) s = Ok (Some (v, ad_data a)).
Proof.
  intros (C & F & L) S. destruct a as [c' k conf d]. cbn [ad_chain ad_kind ad_conf ad_data] in *. subst c' conf. unfold conf_str in S.
  destruct (base58_str H (mkAddr c k true d)) as [s'|] eqn:B; [left; congruence|]. right. split; [reflexivity|].
  apply seg_b58 in B. apply seg_kind in B. destruct B as (n & v & K). exists n, v. split; [exact K|].
  assert (LN : blen d = n) by (destruct K; cbn in L; exact L). split; [exact LN|].
  cbn [ad_chain ad_kind ad_data] in S. destruct (kind_facts _ _ _ K) as (_ & WV & _). rewrite WV in S. destruct (str_leaf c k n v d K LN) as (s' & S' & E & D). rewrite S' in S. injection S as <-. auto.
Qed.
Lemma printable_lower s : printable (lower s) -> printable s.
Proof.
  unfold printable, lower. rewrite !Forall_forall. intros F x I. specialize (F _ (in_map lower_c _ _ I)). unfold lower_c in F.
  destruct (65 <=? x) eqn:E1, (x <=? 90) eqn:E2; cbn [andb] in F; lia.
Qed.
(** The text of a blech32 address is in lower case and starts with the letters of its network. *)
Lemma seg_text hrp s v d : encode hrp v d = Ok (Some s) -> lower s = s /\ printable s /\ exists r, s = hrp ++ 49 :: r.
Proof.
  intros E. assert (D := C30_encode_decode _ _ _ _ E). assert (E2 := C31_decode_canonical _ _ _ _ D). assert (LS : lower s = s) by congruence.
  apply decode_spec in D. destruct D as (_ & PR & _ & _ & _ & v5 & syms & chk & _ & _ & _ & X & _). split; [exact LS|]. split; [exact PR|]. rewrite LS in X. eauto.
Qed.

Section Both.
Variables (H : bytes -> bytes) (c : chain).
Hypothesis DK : DigestOk H.

Lemma base_in cands k conf c' : Permutation cands [B58Address c P2PKH true; B58Address c P2SH true] ->
  In (B58Address c' k conf) cands <-> c' = c /\ is_segwit k = false /\ conf = true.
Proof.
  intros P. split.
  - intros I. apply (Permutation_in _ P) in I. destruct I as [I|[I|[]]]; injection I as <- <- <-; auto.
  - intros (-> & SG & ->). apply (Permutation_in _ (Permutation_sym P)). destruct k; cbn in SG; try discriminate SG; cbn; auto.
Qed.
Lemma base_enc cands s a : Permutation cands [B58Address c P2PKH true; B58Address c P2SH true] ->
  enc_new H c (EncBase58 cands) s = Ok a <-> ConfidentialAddress c a /\ base58_str H a = Some s.
Proof.
  intros P. cbn [enc_new]. rewrite (C70_base58_address H cands s a DK), (base_in _ _ _ _ P). unfold ConfidentialAddress, data_length. destruct a as [c' k conf d]. cbn [ad_chain ad_kind ad_conf ad_data].
  split.
  - intros ((-> & SG & ->) & L & S). repeat split; auto. lia.
  - intros ((-> & -> & L) & S). split; [split; [reflexivity|split; [|reflexivity]]|split; [lia|exact S]].
    destruct (is_segwit k) eqn:SG; [|reflexivity]. apply (seg_b58 H c k d) in SG. congruence.
Qed.
Lemma base_err cands s e : Permutation cands [B58Address c P2PKH true; B58Address c P2SH true] ->
  enc_new H c (EncBase58 cands) s = Raise e -> e = EBase58 \/ e = EType /\ Malformed H c s.
Proof.
  intros P. cbn [enc_new]. unfold base58_new. destruct (b58check_decode H s) as [data|x] eqn:E; cbn [rbind]; [|intros Q; injection Q as <-; left; exact (check_err _ _ _ E)].
  apply (check_decode H s data DK) in E. destruct (base58_match cands data) as [[b d]|] eqn:M; [|intros Q; injection Q as <-; auto].
  apply C40_match_sound in M. destruct M as (I & p & PP & MZ). destruct b as [c' k conf|c'|c'|c']; try (intros Q; injection Q as <-; auto; fail). cbn [prefix_of] in PP.
  apply (base_in _ _ _ _ P) in I. destruct I as (-> & SG & ->). unfold addr_from_bytes. rewrite SG. cbn [andb].
  destruct (Z.eqb_spec (blen d) (data_length k true)) as [|NL]; [discriminate|]. intros Q. injection Q as <-. right. split; [reflexivity|]. exists k, p, d. split; [exact PP|].
  assert (X : data = map zb p ++ d) by (apply map_bz_inj; rewrite map_app, (prefix_bz _ _ _ _ PP); exact MZ). rewrite <- X. split; [exact E|].
  intros L. apply NL. rewrite L. destruct k; try discriminate SG; reflexivity.
Qed.
Lemma find_kind leaves k : Permutation leaves [P2WPKH; P2WSH; P2TR] -> (exists n v, blech32_kind k n v) -> find (fun k' => Nat.eqb (kind_number k') (kind_number k)) leaves = Some k.
Proof.
  intros P K. apply (perm_kinds leaves k P) in K. clear P. induction leaves as [|x l IH]; [destruct K|]. cbn [find].
  destruct (Nat.eqb_spec (kind_number x) (kind_number k)) as [E|N]; [f_equal; destruct x, k; cbn in E; congruence|]. apply IH. destruct K as [->|K]; [congruence|exact K].
Qed.
Lemma bl_enc leaves s a : Permutation leaves [P2WPKH; P2WSH; P2TR] ->
  enc_new H c (EncBlech32 leaves) s = Ok a <-> ConfidentialAddress c a /\ base58_str H a = None /\ conf_str H a = Ok (lower s) /\ (lower s = s \/ upper s = s).
Proof.
  intros P. cbn [enc_new]. assert (PS := C36_parse_sound c _ s _ (pc_base c leaves P) eq_refl). split.
  - destruct PS as [->|(k & n & v & d & K & L & EQ & _ & _ & S)]; [discriminate|]. intros Q. rewrite EQ in Q. cbn [rbind o_cls leaf_info b_name o_data] in Q.
    rewrite (find_kind leaves k P (ex_intro _ n (ex_intro _ v K))) in Q. injection Q as <-. unfold ConfidentialAddress. cbn [ad_chain ad_kind ad_conf ad_data].
    assert (SG : is_segwit k = true) by (apply seg_kind; eauto). split; [split; [reflexivity|split; [reflexivity|destruct K; cbn; lia]]|]. split; [apply seg_b58; exact SG|]. split.
    + unfold conf_str. rewrite (proj2 (seg_b58 H c k d) SG). cbn [ad_chain ad_kind ad_data]. destruct (kind_facts _ _ _ K) as (_ & -> & _). exact S.
    + destruct (decode_none_or (blech32_hrp c) s) as [N|(v' & d' & D)].
      * unfold blech32_new in EQ. rewrite (parse_class_hrp c _ (pc_base c leaves P)), N in EQ. discriminate EQ.
      * apply decode_spec in D. tauto.
  - intros (CA & B & S & CS). destruct (conf_cases H c a _ CA S) as [B'|(_ & n & v & K & L & E & D)]; [congruence|].
    assert (D2 : decode (blech32_hrp c) s = Ok (Some (v, ad_data a))).
    { destruct CS as [CS|CS]; [rewrite CS in D; exact D|]. destruct (seg_text _ _ _ _ E) as (_ & PR & _). apply printable_lower in PR. rewrite <- CS, C34_case_insensitive; [|exact PR]. exact D. }
    assert (PS2 : blech32_new (blech32_base c leaves) s = blech32_new (blech32_base c leaves) (lower s)).
    { unfold blech32_new. rewrite (parse_class_hrp c _ (pc_base c leaves P)), D, D2. reflexivity. }
    destruct (C36_str_parse c (ad_kind a) n v (ad_data a) (mkObj (leaf_info c (ad_kind a)) v (ad_data a)) K) as (s2 & S2 & _ & Q); [apply (from_bytes_leaf c _ n v); auto|].
    unfold conf_str in S. rewrite B in S. destruct CA as (C & F & LA). rewrite C in S. destruct (kind_facts _ _ _ K) as (_ & WV & _). rewrite WV in S. rewrite S in S2. injection S2 as <-.
    rewrite PS2, (Q leaves P). cbn [rbind o_cls leaf_info b_name o_data]. rewrite (find_kind leaves _ P) by eauto. destruct a as [c0 k0 f0 d0]; cbn [ad_chain ad_conf ad_kind ad_data] in *. subst. reflexivity.
Qed.
Lemma bl_err leaves s e : Permutation leaves [P2WPKH; P2WSH; P2TR] -> enc_new H c (EncBlech32 leaves) s = Raise e -> e = EBlech32.
Proof.
  intros P. cbn [enc_new]. destruct (C36_parse_sound c _ s _ (pc_base c leaves P) eq_refl) as [->|(k & n & v & d & K & L & -> & _)]; cbn [rbind o_cls leaf_info b_name]; [intros Q; injection Q as <-; reflexivity|].
  rewrite (find_kind leaves k P (ex_intro _ n (ex_intro _ v K))). discriminate.
Qed.

(** No text is both. *)
Lemma not_both s a a' : ConfidentialAddress c a -> base58_str H a = Some s -> forall c', ConfidentialAddress c' a' -> base58_str H a' = None -> conf_str H a' = Ok (lower s) -> False.
Proof.
  intros CA S c' CA' N S'. destruct (conf_cases H c' a' _ CA' S') as [B|(_ & n & v & K & L & E & _)]; [congruence|]. destruct (seg_text _ _ _ _ E) as (_ & _ & r & X).
  destruct a as [c0 k conf d]. assert (CA2 := CA). destruct CA2 as (C & F & _). cbn [ad_chain ad_conf] in C, F. subst c0 conf. destruct (first_letter H c k d s DK CA S) as (d0 & r0 & -> & I & _).
  unfold lower in X. cbn [map] in X. destruct I as [<-|[<-|[<-|[<-|[]]]]]; destruct c'; vm_compute in X; discriminate X.
Qed.
Lemma has_l c' s v d : encode (blech32_hrp c') v d = Ok (Some s) -> forall data, ~ Base58Text data s.
Proof.
  intros E data T. destruct (seg_text _ _ _ _ E) as (_ & _ & r & X). assert (I : In 108 s) by (rewrite X; apply in_or_app; left; destruct c'; cbn; auto).
  destruct T as (k & rest & ds & _ & _ & -> & D & _). apply in_app_or in I. destruct I as [I|I]; [apply repeat_spec in I; discriminate I|].
  apply in_map_iff in I. destruct I as (x & LX & IX). unfold Digits in D. rewrite Forall_forall in D. specialize (D x IX).
  assert (Q : index_of 108 b58_digits = Some x) by (apply index_iff; auto). vm_compute in Q. discriminate Q.
Qed.
Lemma same_base a a' s : ad_conf a = true -> ad_conf a' = true -> blen (ad_data a) = 33 + payload_length (ad_kind a) -> blen (ad_data a') = 33 + payload_length (ad_kind a') ->
  base58_str H a = Some s -> base58_str H a' = Some s -> a = a'.
Proof.
  intros F F' L L' S S'. set (all := [B58Address (ad_chain a) (ad_kind a) (ad_conf a); B58Address (ad_chain a') (ad_kind a') (ad_conf a')]).
  assert (E : base58_new H all s = Ok a) by (apply C70_base58_address; [exact DK|]; split; [left; reflexivity|]; split; [unfold data_length; rewrite F, L; lia|exact S]).
  assert (E' : base58_new H all s = Ok a') by (apply C70_base58_address; [exact DK|]; split; [right; left; reflexivity|]; split; [unfold data_length; rewrite F', L'; lia|exact S']). congruence.
Qed.
End Both.

(** No two confidential addresses, of whatever networks and kinds, have the same text. *)
Theorem C70_injective : forall H c c' a a' s, DigestOk H -> ConfidentialAddress c a -> ConfidentialAddress c' a' ->
  conf_str H a = Ok s -> conf_str H a' = Ok s -> a = a'.
Proof.
  intros H c c' a a' s DK CA CA' S S'. assert (Z1 := CA). assert (Z2 := CA'). destruct Z1 as (C & F & L). destruct Z2 as (C' & F' & L').
  destruct (conf_cases H c a s CA S) as [B|(B & n & v & K & LN & E & D)]; destruct (conf_cases H c' a' s CA' S') as [B'|(B' & n' & v' & K' & LN' & E' & D')].
  - exact (same_base H DK a a' s F F' L L' B B').
  - exfalso. apply (not_both H c DK s a a' CA B c' CA' B'). destruct (seg_text _ _ _ _ E') as (-> & _). exact S'.
  - exfalso. apply (not_both H c' DK s a' a CA' B' c CA B). destruct (seg_text _ _ _ _ E) as (-> & _). exact S.
  - destruct (seg_text _ _ _ _ E) as (_ & _ & r & X). destruct (seg_text _ _ _ _ E') as (_ & _ & r' & X'). assert (CC : c = c') by (clear - X X'; rewrite X in X'; destruct c, c'; try reflexivity; vm_compute in X'; discriminate X').
    rewrite CC in D. rewrite D in D'. injection D' as V DD. subst v'. rewrite DD, LN' in LN. rewrite <- LN in K. assert (KK := kind_unique _ _ _ _ K K').
    destruct a as [c0 k0 f0 d0], a' as [c1 k1 f1 d1]; cbn [ad_chain ad_conf ad_kind ad_data] in *; congruence.
Qed.
Print Assumptions C70_injective.

Lemma enc_two H c encs : Encodings c encs -> exists cands leaves, Permutation cands [B58Address c P2PKH true; B58Address c P2SH true] /\ Permutation leaves [P2WPKH; P2WSH; P2TR] /\
  (encs = [EncBase58 cands; EncBlech32 leaves] \/ encs = [EncBlech32 leaves; EncBase58 cands]) /\ (forall s e, enc_new H c (EncBlech32 leaves) s = Raise e -> e = EBlech32).
Proof.
  intros (cands & leaves & P1 & P2 & P3). exists cands, leaves. split; [exact P1|]. split; [exact P2|]. split; [|intros; eapply bl_err; eauto].
  apply Permutation_sym, Permutation_length_2_inv in P3. tauto.
Qed.

(** What the confidential address class of a network makes of a text, whatever the order in which it tries the encodings:
    an address only if the text is that address's; and, if no address, there is none. *)
Theorem C70_parse_sound : forall H c encs s a, DigestOk H -> Encodings c encs -> conf_new H c encs s = Ok a -> Reads H c s a.
Proof.
  intros H c encs s a DK EN. destruct (enc_two H c encs EN) as (cands & leaves & P1 & P2 & OR & BE).
  assert (B1 : enc_new H c (EncBase58 cands) s = Ok a -> Reads H c s a). { intros E. apply (base_enc H c DK _ _ _ P1) in E. destruct E as (CA & S). split; [exact CA|]. left. unfold conf_str. rewrite S. reflexivity. }
  assert (B2 : enc_new H c (EncBlech32 leaves) s = Ok a -> Reads H c s a).
  { intros E. apply (bl_enc H c _ _ _ P2) in E. destruct E as (CA & N & S & CS). split; [exact CA|]. destruct CS as [CS|CS]; [left; congruence|]. right. split; [|auto].
    destruct a as [c0 k conf d]. destruct CA as (C & F & _). cbn in C, F. subst. apply (seg_b58 H c k d). exact N. }
  destruct OR as [-> | ->]; cbn [conf_new].
  - destruct (enc_new H c (EncBase58 cands) s) as [x|x]; [intros Q; apply B1; exact Q|]. destruct (caught x); [|discriminate]. destruct (enc_new H c (EncBlech32 leaves) s) as [y|y]; [exact B2|]. destruct (caught y); discriminate.
  - destruct (enc_new H c (EncBlech32 leaves) s) as [x|x]; [intros Q; apply B2; exact Q|]. destruct (caught x); [|discriminate]. destruct (enc_new H c (EncBase58 cands) s) as [y|y]; [exact B1|]. destruct (caught y); discriminate.
Qed.
Theorem C70_parse_complete : forall H c encs s, DigestOk H -> Encodings c encs ->
  (exists a, conf_new H c encs s = Ok a) \/ (conf_new H c encs s = Raise EAddress /\ forall a, ~ Reads H c s a) \/ (conf_new H c encs s = Raise EType /\ Malformed H c s).
Proof.
  intros H c encs s DK EN. destruct (enc_two H c encs EN) as (cands & leaves & P1 & P2 & OR & BE).
  assert (NR : (forall a, enc_new H c (EncBase58 cands) s <> Ok a) -> (forall a, enc_new H c (EncBlech32 leaves) s <> Ok a) -> forall a, ~ Reads H c s a).
  { intros N1 N2 a (CA & R). destruct (base58_str H a) as [s'|] eqn:B.
    - apply (N1 a). apply (base_enc H c DK _ _ _ P1). split; [exact CA|]. destruct R as [R|(SG & _)]; [unfold conf_str in R; rewrite B in R; congruence|].
      destruct a as [c0 k conf d]. destruct CA as (C & F & _). cbn in C, F, SG. subst. apply (seg_b58 H c k d) in SG. congruence.
    - apply (N2 a). apply (bl_enc H c _ _ _ P2). split; [exact CA|]. split; [exact B|]. destruct R as [R|(SG & U & R)]; [|auto].
      destruct (conf_cases H c a _ CA R) as [B'|(_ & n & v & _ & _ & E & _)]; [congruence|]. destruct (seg_text _ _ _ _ E) as (LS & _). rewrite LS. auto. }
  assert (BB := base_err H c DK cands s). 
  destruct OR as [-> | ->]; cbn [conf_new].
  - destruct (enc_new H c (EncBase58 cands) s) as [x|x] eqn:E1; [eauto|]. destruct (BB x P1 eq_refl) as [-> |(-> & M)]; cbn [caught]; [|auto].
    destruct (enc_new H c (EncBlech32 leaves) s) as [y|y] eqn:E2; [eauto|]. rewrite (BE _ _ E2). cbn [caught]. right; left. split; [reflexivity|]. apply NR; congruence.
  - destruct (enc_new H c (EncBlech32 leaves) s) as [x|x] eqn:E2; [eauto|]. rewrite (BE _ _ E2). cbn [caught].
    destruct (enc_new H c (EncBase58 cands) s) as [y|y] eqn:E1; [eauto|]. destruct (BB y P1 eq_refl) as [-> |(-> & M)]; cbn [caught]; [|auto]. right; left. split; [reflexivity|]. apply NR; congruence.
Qed.
Print Assumptions C70_parse_sound.
Print Assumptions C70_parse_complete.

Lemma canonical_not_malformed H c c' a s : DigestOk H -> ConfidentialAddress c a -> conf_str H a = Ok s -> ~ Malformed H c' s.
Proof.
  intros DK CA S (k & p & d & P & T & NL). destruct (conf_cases H c a s CA S) as [B|(_ & n & v & _ & _ & E & _)]; [|exact (has_l _ _ _ _ E _ T)].
  destruct a as [c0 k0 conf d0]. assert (CA2 := CA). destruct CA2 as (C & F & L). cbn in C, F. subst. unfold base58_str in B. cbn [ad_chain ad_kind ad_conf ad_data] in B.
  destruct (base58_prefix c k0 true) as [p0|] eqn:P0; [|discriminate]. injection B as B. apply check_encode in B. assert (LD := conf_payload _ _ _ _ CA P0).
  apply (check_decode H s _ DK) in B. apply (check_decode H s _ DK) in T. rewrite B in T. injection T as T. apply (f_equal (@length byte)) in T. rewrite !app_length, !map_length in T.
  assert (length p0 = 2%nat) by (destruct c, k0; cbn in P0; try discriminate; injection P0 as <-; reflexivity). assert (length p = 2%nat) by (destruct c', k; cbn in P; try discriminate; injection P as <-; reflexivity).
  unfold blen in NL. lia.
Qed.
(** Every confidential address has a text, and reading that text gives it back. *)
Theorem C70_roundtrip : forall H c encs a, DigestOk H -> Encodings c encs -> ConfidentialAddress c a ->
  exists s, conf_str H a = Ok s /\ conf_new H c encs s = Ok a.
Proof.
  intros H c encs a DK EN CA.
  assert (X : exists s, conf_str H a = Ok s).
  { unfold conf_str. destruct (base58_str H a) as [s|] eqn:B; [eauto|]. destruct a as [c0 k conf d]. destruct CA as (C & F & L). cbn in C, F, L. subst. apply seg_b58 in B. apply seg_kind in B. destruct B as (n & v & K).
    destruct (str_leaf c k n v d K) as (s & S & _); [destruct K; exact L|]. cbn [ad_chain ad_kind ad_data]. destruct (kind_facts _ _ _ K) as (_ & -> & _). eauto. }
  destruct X as (s & S). exists s. split; [exact S|].
  destruct (C70_parse_complete H c encs s DK EN) as [(a' & E)|[(_ & N)|(_ & M)]].
  - rewrite E. f_equal. apply C70_parse_sound in E; [|exact DK|exact EN]. destruct E as (CA' & [S'|(SG & U & S')]).
    + exact (C70_injective H c c a' a s DK CA' CA S' S).
    + destruct (conf_cases H c a s CA S) as [B|(_ & n & v & _ & _ & EE & _)].
      * exfalso. destruct a' as [c0 k conf d]. assert (Z1 := CA'). destruct Z1 as (C & F & _). cbn in C, F, SG. subst. apply (seg_b58 H c k d) in SG. exact (not_both H c DK s a _ CA B c CA' SG S').
      * destruct (seg_text _ _ _ _ EE) as (LS & _). rewrite LS in S'. exact (C70_injective H c c a' a s DK CA' CA S' S).
  - exfalso. apply (N a). split; auto.
  - exfalso. exact (canonical_not_malformed H c c a s DK CA S M).
Qed.
(** The text of an address of one network is refused by the class of the other. *)
Theorem C70_other_network : forall H c c' encs a s, DigestOk H -> c <> c' -> ConfidentialAddress c a -> conf_str H a = Ok s -> Encodings c' encs ->
  conf_new H c' encs s = Raise EAddress.
Proof.
  intros H c c' encs a s DK NE CA S EN. destruct (C70_parse_complete H c' encs s DK EN) as [(a' & E)|[(E & _)|(_ & M)]]; [|exact E|exfalso; exact (canonical_not_malformed H c c' a s DK CA S M)].
  exfalso. apply C70_parse_sound in E; [|exact DK|exact EN]. destruct E as (CA' & R). assert (S2 : conf_str H a' = Ok s \/ False).
  { destruct R as [R|(SG & U & S')]; [auto|]. destruct (conf_cases H c a s CA S) as [B|(_ & n & v & _ & _ & EE & _)].
    - right. destruct a' as [c0 k conf d]. assert (Z1 := CA'). destruct Z1 as (C & F & _). cbn in C, F, SG. subst. apply (seg_b58 H c' k d) in SG. exact (not_both H c DK s a _ CA B c' CA' SG S').
    - left. destruct (seg_text _ _ _ _ EE) as (LS & _). rewrite LS in S'. exact S'. }
  destruct S2 as [S2|[]]. assert (a = a') by exact (C70_injective H c c' a a' s DK CA CA' S S2). subst a'. destruct CA as (C & _). destruct CA' as (C' & _). congruence.
Qed.
Print Assumptions C70_roundtrip.
Print Assumptions C70_other_network.

(** Bitcoin's double SHA-256 meets the hypothesis; the address of the project's test_confidential_address.py; and text with
    the right prefix but too few bytes. *)
Lemma sha256d_digest : DigestOk sha256d.
Proof. intros x. unfold sha256d. generalize (sha256 x). intros y. unfold sha256. match goal with |- context [sha_out ?z] => generalize z end. intros z. vm_compute. lia. Qed.
Definition ex_conf : bytes := [x02; x9f; xfb; x47; x60; x6c; x3d; x67; x2a; x34; x29; xd9; x16; x50; x96; x0c; x63; xff; x7d; x8f; x8f; xf9; xe0; x0b; x4a; x8e; x34; x30; xc6; x54; x9b; x4c; xc8; x34; x22; xfe; x11; xc4; x15; xbb; x9c; x86; x18; xf9; xd8; x49; x8d; x9a; xd9; x45; x05; x6b; xdb].
Definition ex_text : pystr := str "CTEp1wviJ6U7SdAAs5sRJ1NzzRzAbmQGt1veiswjWrkzv98W7UJMQjBccafpS6v9w6evWTqeLsGc7TC1".
Example C70_ex : conf_str sha256d (mkAddr Elements P2PKH true ex_conf) = Ok ex_text
  /\ conf_new sha256d Elements [EncBlech32 [P2TR; P2WPKH; P2WSH]; EncBase58 [B58Address Elements P2SH true; B58Address Elements P2PKH true]] ex_text = Ok (mkAddr Elements P2PKH true ex_conf)
  /\ conf_new sha256d LiquidV1 [EncBase58 [B58Address LiquidV1 P2SH true; B58Address LiquidV1 P2PKH true]; EncBlech32 [P2TR; P2WPKH; P2WSH]] ex_text = Raise EAddress.
Proof. split; [vm_compute; reflexivity|]. split; vm_compute; reflexivity. Qed.
Example C70_ex_unconf : base58_str sha256d (mkAddr Elements P2PKH false (skipn 33 ex_conf)) = Some (str "2deBRSp69HSsJ5WAegsaksoWj8PfaQ2PqDd").
Proof. vm_compute. reflexivity. Qed.
Example C70_ex_encodings : Encodings Elements [EncBlech32 [P2TR; P2WPKH; P2WSH]; EncBase58 [B58Address Elements P2SH true; B58Address Elements P2PKH true]]
  /\ ConfidentialAddress Elements (mkAddr Elements P2PKH true ex_conf) /\ ConfidentialAddress LiquidV1 (mkAddr LiquidV1 P2TR true (x02 :: repeat x07 64)).
Proof.
  split; [|split; repeat split; reflexivity]. exists [B58Address Elements P2SH true; B58Address Elements P2PKH true], [P2TR; P2WPKH; P2WSH]. split; [apply perm_swap|]. split; [|apply perm_swap].
  apply perm_trans with [P2WPKH; P2TR; P2WSH]; [apply perm_swap|]. apply perm_skip, perm_swap.
Qed.
Example C70_ex_malformed : exists s, Malformed sha256d Elements s /\ conf_new sha256d Elements [EncBlech32 [P2TR; P2WPKH; P2WSH]; EncBase58 [B58Address Elements P2SH true; B58Address Elements P2PKH true]] s = Raise EType.
Proof.
  exists (b58check_encode sha256d [x04; xeb; x01; x02]). split; [|vm_compute; reflexivity]. exists P2PKH, [4; 235], [x01; x02]. split; [reflexivity|]. split; [|discriminate].
  apply check_encode. reflexivity.
Qed.
