(** Exact outcomes, scripts, prefixes and first letters: more of C36, C37, C38, C40 and C70. *)
From Coq Require Import Strings.String.
From Coq Require Import ZArith List Bool Lia Permutation.
From Verif Require Import Base BaseFacts SpecBlech32 PropBlech32 PyStr Blech32Model Blech32Facts WalletModel PropWallet Base58Model SpecBase58 Base58Proofs SpecScript SpecWallet PropAddress.
Import ListNotations.
Local Open Scope Z_scope.
Local Notation length := List.length (only parsing).

(** * C37: from_bytes of every class *)
Theorem C37_outcome : forall i d w r, from_bytes i d w = r <-> FromBytes i d w r.
Proof.
  intros i d w. assert (DET : forall r, FromBytes i d w (from_bytes i d w) /\ (FromBytes i d w r -> from_bytes i d w = r)).
  2: { intros r. destruct (DET r) as [A B]. split; [intros <-; exact A|exact B]. }
  intros r. unfold from_bytes, blech32_init.
  assert (UN : forall v v', VersionFor (b_wv i) w v -> VersionFor (b_wv i) w v' -> v = v') by (intros v v' [] Q; inversion Q; congruence).
  assert (VD : (exists v, VersionFor (b_wv i) w v /\ 0 <= v <= 16
       /\ match w with None => if b_wv i <? 0 then Raise EValue else Ok (b_wv i)
                     | Some v => if v <? 0 then Raise EValue else if (0 <=? b_wv i) && negb (v =? b_wv i) then Raise EValue else Ok v end = Ok v
       /\ (0 <= b_wv i -> b_wv i = v))
     \/ ((forall v, ~ VersionFor (b_wv i) w v) /\ exists x,
         match w with None => if b_wv i <? 0 then Raise EValue else Ok (b_wv i)
                     | Some v => if v <? 0 then Raise EValue else if (0 <=? b_wv i) && negb (v =? b_wv i) then Raise EValue else Ok v end = x
         /\ (x = Raise EValue \/ exists v, x = Ok v /\ negb ((0 <=? v) && (v <=? 16)) = true))).
  { destruct w as [v|].
    - destruct (Z.ltb_spec v 0). { right. split; [intros v' Q; inversion Q; lia|eauto]. }
      destruct ((0 <=? b_wv i) && negb (v =? b_wv i)) eqn:B.
      { right. apply andb_prop in B. destruct B as [B1 B2]. apply Z.leb_le in B1. apply negb_true_iff, Z.eqb_neq in B2. split; [intros v' Q; inversion Q; lia|eauto]. }
      assert (OWN : b_wv i < 0 \/ b_wv i = v).
      { destruct (Z.leb_spec 0 (b_wv i)); [|lia]. cbn [andb] in B. apply negb_false_iff, Z.eqb_eq in B. lia. }
      destruct (Z.leb_spec v 16).
      + left. exists v. split; [constructor; [lia|exact OWN]|]. split; [lia|]. split; [reflexivity|lia].
      + right. split; [intros v' Q; inversion Q; lia|]. eexists. split; [reflexivity|]. right. exists v. split; [reflexivity|].
        apply negb_true_iff, andb_false_iff. right. apply Z.leb_gt. lia.
    - destruct (Z.ltb_spec (b_wv i) 0). { right. split; [intros v' Q; inversion Q; lia|eauto]. }
      destruct (Z.leb_spec (b_wv i) 16).
      + left. exists (b_wv i). split; [constructor; lia|]. split; [lia|]. auto.
      + right. split; [intros v' Q; inversion Q; lia|]. eexists. split; [reflexivity|]. right. exists (b_wv i). split; [reflexivity|].
        apply negb_true_iff, andb_false_iff. right. apply Z.leb_gt. lia. }
  destruct VD as [(v & VF & R & E & OWN)|(NV & x & E & X)]; rewrite E; cbn [rbind].
  - assert (RR : (0 <=? v) && (v <=? 16) = true) by (apply andb_true_intro; split; apply Z.leb_le; lia). rewrite RR. cbn [negb].
    destruct (b_dispatched i) eqn:DI.
    + destruct (Z.ltb_spec (b_wv i) 0); cbn [rbind].
      { split; [eapply fb_abstract; eauto|]. intros Q. inversion Q as [NV|v' V' D'|v' V' D' P' L'|v' V' L']; subst; try reflexivity; [destruct (NV v VF)|destruct (L' DI); lia]. }
      destruct (Z.eqb_spec (blen d) (b_len i)); cbn [negb rbind].
      { assert (OV := OWN ltac:(lia)). split.
        - rewrite OV. apply fb_ok; [exact VF|]. intros _. split; [lia|assumption].
        - intros Q. inversion Q as [NV|v' V' D' P'|v' V' D' P' L'|v' V' L']; [destruct (NV v VF)|lia|congruence|]. f_equal. f_equal. rewrite OV. symmetry. apply (UN _ _ V' VF). }
      { split; [eapply fb_length; eauto; lia|]. intros Q. inversion Q as [NV|v' V' D'|v' V' D' P' L'|v' V' L']; subst; try reflexivity; [destruct (NV v VF)|destruct (L' DI); congruence]. }
    + cbn [rbind]. assert (EQ : (if b_wv i <? 0 then v else b_wv i) = v) by (destruct (Z.ltb_spec (b_wv i) 0); [reflexivity|apply OWN; lia]). rewrite EQ. split.
      * apply fb_ok; [exact VF|intros; congruence].
      * intros Q. inversion Q as [NV|v' V' D' P'|v' V' D' P' L'|v' V' L']; subst; try congruence; [destruct (NV v VF)|]. rewrite (UN _ _ V' VF). reflexivity.
  - assert (RES : (let! v := x in if negb ((0 <=? v) && (v <=? 16)) then Raise EValue else
       (let! _ := (if b_dispatched i then if b_wv i <? 0 then Raise EType else if negb (blen d =? b_len i) then Raise EType else Ok tt else Ok tt) in
       Ok (mkObj i (if b_wv i <? 0 then v else b_wv i) d))) = Raise EValue).
    { destruct X as [-> |(v & -> & B)]; cbn [rbind]; [reflexivity|]. rewrite B. reflexivity. }
    rewrite RES. split; [apply fb_version; exact NV|]. intros Q. inversion Q as [NV'|v' V' D' P'|v' V' D' P' L'|v' V' L']; subst; try reflexivity; destruct (NV v' V').
Qed.
Print Assumptions C37_outcome.

(** * C36: text given to a class without descendants *)
Theorem C36_single_class : forall i s, exists x, decode (b_hrp i) s = Ok x /\
  blech32_new (BClass i []) s =
    match x with
    | None => Raise EBlech32
    | Some (v, d) =>
      if b_wv i <? 0 then (if b_dispatched i then Raise EType else Ok (mkObj i v d))
      else if (blen d =? b_len i) && (v =? b_wv i) then Ok (mkObj i v d) else Raise EBlech32
    end.
Proof.
  intros i s. destruct (C32_decode_never_raises (b_hrp i) s) as [x D]. exists x. split; [exact D|].
  unfold blech32_new. cbn [info]. rewrite D. cbn [rbind]. destruct x as [[v d]|]; [|reflexivity].
  assert (VR : 0 <= v <= 16) by (apply decode_spec in D; destruct D as ((V & _) & _); lia).
  assert (FB : b_wv i < 0 \/ (0 <= b_wv i /\ b_wv i = v) -> (b_dispatched i = true -> 0 <= b_wv i /\ blen d = b_len i) -> from_bytes i d (Some v) = Ok (mkObj i v d)).
  { intros O1 O2. apply C37_outcome. apply fb_ok; [constructor; [lia|]|exact O2]. lia. }
  assert (INIT : (b_dispatched i = true -> 0 <= b_wv i /\ blen d = b_len i) -> blech32_init i d = Ok tt).
  { intros O. unfold blech32_init. destruct (b_dispatched i); [|reflexivity]. destruct (O eq_refl) as [O1 O2]. destruct (Z.ltb_spec (b_wv i) 0); [lia|]. rewrite O2, Z.eqb_refl. reflexivity. }
  cbn [match_program match_candidates]. destruct (Z.ltb_spec (b_wv i) 0).
  - assert (E : (0 <=? b_wv i) = false) by (apply Z.leb_gt; lia). rewrite E. destruct (b_dispatched i) eqn:DI; [reflexivity|].
    rewrite FB by (intros; try discriminate; lia). cbn [rbind o_cls o_data]. rewrite INIT by discriminate. reflexivity.
  - assert (E : (0 <=? b_wv i) = true) by (apply Z.leb_le; lia). rewrite E.
    assert (M : forall (b : bool), (if b then Ok (inl tt) else Ok (inl tt)) = Ok (@inl unit (list bclass) tt)) by (intros []; reflexivity). rewrite M.
    destruct (Z.eqb_spec (blen d) (b_len i)); cbn [andb]; [|reflexivity]. destruct (Z.eqb_spec v (b_wv i)); [|reflexivity].
    rewrite FB by (first [lia | intros _; split; lia]). cbn [rbind o_cls o_data]. rewrite INIT by (intros _; split; [lia|assumption]). reflexivity.
Qed.
Print Assumptions C36_single_class.

(** * C38: every outcome of from_unconfidential, whichever chain is current *)
Section Keys.
Variable fullyvalid : bytes -> bool.
Hypothesis empty_key : fullyvalid [] = false.
Theorem C38_outcome : forall cur c cls adr pk r, valid_addr adr ->
  from_unconfidential fullyvalid cur c cls adr pk = r <-> Conversion fullyvalid cur c cls adr pk r.
Proof.
  intros cur c cls adr pk r VA.
  assert (DET : forall r r', Conversion fullyvalid cur c cls adr pk r -> Conversion fullyvalid cur c cls adr pk r' -> r = r').
  { intros r1 r2 [] Q; inversion Q; subst; try congruence; try tauto; exfalso;
      repeat match goal with H : _ \/ _ |- _ => destruct H end; try congruence; try tauto. }
  assert (TOT : Conversion fullyvalid cur c cls adr pk (from_unconfidential fullyvalid cur c cls adr pk)).
  2: { split; [intros <-; exact TOT|]. intros Q. exact (DET _ _ TOT Q). }
  unfold from_unconfidential. destruct (fullyvalid pk) eqn:FV; cbn [negb]; [|apply cv_key; exact FV].
  destruct (chain_eqb c (ad_chain adr)) eqn:CE; cbn [negb].
  2: { apply cv_chain; [exact FV|]. intros <-. assert (X := proj2 (chain_eqb_eq (ad_chain adr) (ad_chain adr)) eq_refl). congruence. }
  apply chain_eqb_eq in CE. symmetry in CE.
  assert (SIZE : In (ad_kind adr) (kinds_of cls) -> leaf_class cls \/ cur = c -> Conversion fullyvalid cur c cls adr pk (addr_from_bytes cur (ad_kind adr) true (pk ++ ad_data adr))).
  { intros I L. unfold valid_addr in VA. apply payload_iff in VA.
    assert (NE : 1 <= blen pk) by (destruct pk as [|b l]; [congruence|rewrite blen_cons; assert (X := blen_nonneg l); lia]).
    destruct (Z.eq_dec (blen (pk ++ ad_data adr)) (data_length (ad_kind adr) true)) as [E|E].
    - rewrite (proj2 (addr_from_bytes_iff cur _ true _ _) (conj E eq_refl)). rewrite blen_app in E. unfold data_length in E.
      destruct (ad_conf adr) eqn:CF; [lia|]. apply cv_ok; try assumption. lia.
    - rewrite addr_from_bytes_raise by exact E. apply cv_size; try assumption. rewrite blen_app in E. unfold data_length in E.
      destruct (ad_conf adr); [left; reflexivity|right; lia]. }
  assert (LEAF : forall k, leaf_class (CLeaf k)) by (intros k; exists k; reflexivity).
  assert (NOT : cls <> CLeaf P2PKH -> cls <> CLeaf P2SH -> cls <> CLeaf P2WPKH -> cls <> CLeaf P2WSH -> cls <> CLeaf P2TR -> ~ leaf_class cls) by (intros A B C D E [[] ->]; congruence).
  destruct adr as [ac k cf d]. cbn [ad_kind ad_data ad_chain ad_conf] in *. subst ac.
  destruct cls as [k'| | |].
  - destruct (kind_eqb k k') eqn:KE.
    + apply kind_eqb_eq in KE. subst k'. specialize (SIZE (or_introl eq_refl) (or_introl (LEAF k))). destruct k; cbn; exact SIZE.
    + assert (X : try_classes cur c (CLeaf k') (mkAddr c k cf d) pk clsmap = Raise EType) by (destruct k, k', cur, c; try discriminate KE; reflexivity).
      rewrite X. apply cv_leaf; auto. cbn [ad_kind kinds_of In]. intros [-> |[]]. assert (Y := proj2 (kind_eqb_eq k k) eq_refl). congruence.
  - destruct (chain_eqb cur c) eqn:CC.
    + apply chain_eqb_eq in CC. subst cur. rewrite try_classes_same by exact I. apply SIZE; [destruct k; cbn; tauto|auto].
    + assert (X : try_classes cur c CAny (mkAddr c k cf d) pk clsmap = Raise EAddress) by (destruct k, cur, c; try discriminate CC; reflexivity).
      rewrite X. apply cv_base; auto; [apply NOT; discriminate|]. right. intros ->. destruct c; discriminate CC.
  - destruct (chain_eqb cur c) eqn:CC.
    + apply chain_eqb_eq in CC. subst cur. destruct k.
      1,2: rewrite try_classes_same by (cbn; auto); apply SIZE; [cbn; tauto|auto].
      all: match goal with |- context [try_classes ?a ?b ?x ?y ?z ?l] => assert (X : try_classes a b x y z l = Raise EAddress) by (destruct c; reflexivity); rewrite X end; apply cv_base; auto; [apply NOT; discriminate|left; cbn; intuition discriminate].
    + assert (X : try_classes cur c CBase58 (mkAddr c k cf d) pk clsmap = Raise EAddress) by (destruct k, cur, c; try discriminate CC; reflexivity).
      rewrite X. apply cv_base; auto; [apply NOT; discriminate|]. right. intros ->. destruct c; discriminate CC.
  - destruct (chain_eqb cur c) eqn:CC.
    + apply chain_eqb_eq in CC. subst cur. destruct k.
      3,4,5: rewrite try_classes_same by (cbn; auto); apply SIZE; [cbn; tauto|auto].
      all: match goal with |- context [try_classes ?a ?b ?x ?y ?z ?l] => assert (X : try_classes a b x y z l = Raise EAddress) by (destruct c; reflexivity); rewrite X end; apply cv_base; auto; [apply NOT; discriminate|left; cbn; intuition discriminate].
    + assert (X : try_classes cur c CBlech32 (mkAddr c k cf d) pk clsmap = Raise EAddress) by (destruct k, cur, c; try discriminate CC; reflexivity).
      rewrite X. apply cv_base; auto; [apply NOT; discriminate|]. right. intros ->. destruct c; discriminate CC.
Qed.
End Keys.
Print Assumptions C38_outcome.

(** * C38: the script an address pays to, and its agreement with the text *)
Definition payload (a : addr) : bytes := if ad_conf a then skipn 33 (ad_data a) else ad_data a.
Lemma push20 d : blen d = 20 -> Push d (x14 :: d). Proof. intros L. apply push_direct; [cbn; lia|rewrite L; reflexivity]. Qed.
Lemma push32 d : blen d = 32 -> Push d (x20 :: d). Proof. intros L. apply push_direct; [cbn; lia|rewrite L; reflexivity]. Qed.
Theorem C38_script : forall a, valid_addr a -> exists script,
  to_scriptPubKey a = Ok script /\ PaysTo (ad_kind a) (payload a) script.
Proof.
  intros a VA. unfold valid_addr in VA. apply payload_iff in VA.
  assert (L : blen (payload a) = payload_length (ad_kind a)).
  { unfold payload. destruct (ad_conf a); [|lia]. unfold blen in *. rewrite skipn_length. assert (0 <= payload_length (ad_kind a)) by (destruct (ad_kind a); cbn; lia). lia. }
  exists (unconf_script (ad_kind a) (payload a)). split.
  - unfold to_scriptPubKey. unfold payload in *. destruct (ad_conf a); [|reflexivity]. unfold to_unconfidential.
    rewrite (proj2 (addr_from_bytes_iff _ _ false _ (mkAddr (ad_chain a) (ad_kind a) false (skipn 33 (ad_data a))))) by (unfold data_length; split; [lia|reflexivity]). reflexivity.
  - destruct (ad_kind a); cbn [payload_length] in L; cbn [PaysTo unconf_script].
    + exists (x14 :: payload a). split; [exact (push20 _ L)|]. split; [rewrite blen_cons; lia|reflexivity].
    + exists (x14 :: payload a). split; [exact (push20 _ L)|]. split; [rewrite blen_cons; lia|reflexivity].
    + exists (x14 :: payload a). split; [exact (push20 _ L)|]. split; [rewrite blen_cons; lia|reflexivity].
    + exists (x20 :: payload a). split; [exact (push32 _ L)|]. split; [rewrite blen_cons; lia|reflexivity].
    + exists (x20 :: payload a). split; [exact (push32 _ L)|]. split; [rewrite blen_cons; lia|reflexivity].
Qed.
Print Assumptions C38_script.
(** Such a script determines kind and payload: no two unconfidential addresses pay to the same script. *)
Lemma push_inj d p : Push d p -> blen p = blen d + 1 -> exists o, p = o :: d /\ bz o = blen d.
Proof. intros [o _ E|l E|l0 l1 E|l0 l1 l2 l3 E] L; rewrite !blen_cons in L; try lia. eauto. Qed.
Lemma pays_shape k d script : blen d = payload_length k -> PaysTo k d script -> script = unconf_script k d.
Proof.
  intros L P.
  assert (B : forall o n, bz o = n -> o = zb n) by (intros o n <-; symmetry; apply zb_bz).
  destruct k; cbn [payload_length] in L; cbn [PaysTo] in P.
  1,2: destruct P as (p & P & LP & ->); destruct (push_inj _ _ P ltac:(lia)) as (o & -> & E); rewrite L in E; apply B in E; subst o; reflexivity.
  all: destruct P as (p & P & LP & ->); destruct (push_inj _ _ P ltac:(lia)) as (o & -> & E); rewrite L in E; apply B in E; subst o; reflexivity.
Qed.
Theorem C38_script_injective : forall a b s, valid_addr a -> valid_addr b ->
  to_scriptPubKey a = Ok s -> to_scriptPubKey b = Ok s -> ad_kind a = ad_kind b /\ payload a = payload b.
Proof.
  intros a b s VA VB SA SB.
  assert (SH : forall a, valid_addr a -> to_scriptPubKey a = Ok s -> s = unconf_script (ad_kind a) (payload a) /\ blen (payload a) = payload_length (ad_kind a)).
  { clear. intros a V S. assert (L : blen (payload a) = payload_length (ad_kind a)).
    { unfold valid_addr in V. apply payload_iff in V. unfold payload. destruct (ad_conf a); [|lia]. unfold blen in *. rewrite skipn_length. assert (0 <= payload_length (ad_kind a)) by (destruct (ad_kind a); cbn; lia). lia. }
    destruct (C38_script a V) as (s' & S' & P). assert (s' = s) by congruence. subst s'. split; [apply pays_shape; assumption|exact L]. }
  destruct (SH a VA SA) as [Ea La]. destruct (SH b VB SB) as [Eb Lb]. rewrite Ea in Eb. clear - Eb La Lb.
  destruct (ad_kind a), (ad_kind b); cbn [unconf_script app] in Eb; try discriminate Eb; split; try reflexivity; injection Eb as Eb; try exact Eb.
  all: apply app_inv_tail in Eb; exact Eb.
Qed.
Print Assumptions C38_script_injective.
(** The text of a blech32 address spells the witness version and program of the script it pays to, after the key. *)
Theorem C38_script_text : forall H c a s script, ConfidentialAddress c a -> is_segwit (ad_kind a) = true ->
  conf_str H a = Ok s -> to_scriptPubKey a = Ok script ->
  exists v key program, decode (blech32_hrp c) s = Ok (Some (v, key ++ program)) /\ blen key = 33 /\ key = blinding_pubkey a /\ WitnessScript v program script.
Proof.
  intros H c a s script (CH & CF & L) SG CS TS.
  assert (VA : valid_addr a) by (unfold valid_addr; rewrite CF; apply payload_iff; lia).
  destruct (C38_script a VA) as (s' & S' & P). assert (s' = script) by congruence. subst s'. unfold payload in P. rewrite CF in P.
  assert (K : blech32_kind (ad_kind a) (data_length (ad_kind a) true) (witness_version (ad_kind a))) by (destruct (ad_kind a); try discriminate SG; constructor).
  destruct (str_leaf c _ _ _ (ad_data a) K) as (t & S & _ & D); [unfold data_length; lia|].
  assert (t = s). { unfold conf_str in CS. assert (B : base58_str H a = None) by (unfold base58_str; destruct (ad_kind a); try discriminate SG; destruct (ad_chain a); reflexivity). rewrite B, CH in CS. congruence. }
  subst t. exists (witness_version (ad_kind a)), (firstn 33 (ad_data a)), (skipn 33 (ad_data a)). rewrite firstn_skipn.
  split; [exact D|]. split. { unfold blen in *. rewrite firstn_length. assert (0 <= payload_length (ad_kind a)) by (destruct (ad_kind a); cbn; lia). lia. }
  split; [reflexivity|]. destruct (ad_kind a); try discriminate SG; exact P.
Qed.
Print Assumptions C38_script_text.

(** * C40: prefixes *)
Theorem C40_prefixes : forall b, prefix_of b = expected_prefix b.
Proof. intros [[] [] []|[]|[]|[]]; reflexivity. Qed.
Theorem C40_hrp : forall c, blech32_hrp c = str (blech32 (network c)).
Proof. intros []; reflexivity. Qed.
Print Assumptions C40_prefixes.
Print Assumptions C40_hrp.

(** * C70: how the texts of keys, extended keys and unconfidential addresses look *)
Lemma class_text_top b data H s p A B t m : DigestOk H -> prefix_of b = Some p -> class_text H b data = Some s ->
  Forall (fun z => 0 <= z < 256) p -> hd 0 p <> 0 ->
  58 ^ Z.of_nat t <= A -> B < 58 ^ Z.of_nat (S t) ->
  A * 58 ^ Z.of_nat m <= value 256 p * 256 ^ (blen data + 4) -> (value 256 p + 1) * 256 ^ (blen data + 4) <= (B + 1) * 58 ^ Z.of_nat m ->
  exists hi lo, s = map letter hi ++ lo /\ length hi = S t /\ length lo = m /\ Digits 58 hi /\ A <= value 58 hi <= B.
Proof.
  intros DK P E FP NZ LA LB BL BU. unfold class_text in E. rewrite P in E. injection E as E. apply check_encode in E. red in E.
  assert (LC : length (firstn 4 (H (map zb p ++ data))) = 4%nat) by (rewrite firstn_length; specialize (DK (map zb p ++ data)); lia).
  set (chk := firstn 4 (H (map zb p ++ data))) in *. clearbody chk. rewrite <- app_assoc in E.
  assert (PB : map bz (map zb p) = p) by (clear - FP; induction FP as [|z l Z _ IH]; [reflexivity|]; cbn [map]; rewrite IH, bz_zb; rewrite Z.mod_small by lia; reflexivity).
  destruct p as [|p0 p]; [cbn [hd] in NZ; congruence|]. cbn [hd] in NZ.
  assert (NB : bz (zb p0) <> 0) by (rewrite bz_zb, Z.mod_small by (inversion FP; lia); exact NZ).
  destruct (text_nonzero _ _ (zb p0) (map zb p ++ data ++ chk) eq_refl NB E) as (ds & -> & D & N & V).
  change (zb p0 :: map zb p ++ data ++ chk) with (map zb (p0 :: p) ++ data ++ chk) in V. rewrite map_app, PB, value_app in V by lia.
  assert (R := value_range 256 ltac:(lia) _ (bz_digits (data ++ chk))). rewrite map_length, app_length, LC in *.
  assert (EX : Z.of_nat (length data + 4) = blen data + 4) by (unfold blen; lia). rewrite EX in *.
  destruct (top ds _ m t A B D N eq_refl) as (hi & lo & -> & L1 & L2 & R3); [rewrite V; nia|exact LA|exact LB|].
  exists hi, (map letter lo). rewrite map_app, map_length. apply Forall_app in D. tauto.
Qed.
Lemma text_one b data H s p m v w l : DigestOk H -> prefix_of b = Some p -> class_text H b data = Some s ->
  Forall (fun z => 0 <= z < 256) p -> hd 0 p <> 0 -> 1 <= v -> v <= w < 58 ->
  v * 58 ^ Z.of_nat m <= value 256 p * 256 ^ (blen data + 4) -> (value 256 p + 1) * 256 ^ (blen data + 4) <= (w + 1) * 58 ^ Z.of_nat m ->
  (forall d, v <= d <= w -> In [letter d] l) -> length s = S m /\ exists start, In start l /\ firstn (length start) s = start.
Proof.
  intros DK P E FP NZ V W BL BU IL. destruct (class_text_top b data H s p v w 0 m DK P E FP NZ) as (hi & lo & -> & L1 & L2 & D & R); [exact V| |exact BL|exact BU|].
  { change (58 ^ Z.of_nat 1) with 58. lia. }
  destruct (one_letter _ L1) as (d & ->). split; [rewrite app_length, map_length; cbn [length]; lia|].
  exists [letter d]. split; [|reflexivity]. apply IL. cbn [value length] in R. change (58 ^ Z.of_nat 0) with 1 in R. lia.
Qed.
Lemma text_many b data H s p m t ds : DigestOk H -> prefix_of b = Some p -> class_text H b data = Some s ->
  Forall (fun z => 0 <= z < 256) p -> hd 0 p <> 0 -> Digits 58 ds -> length ds = S t -> 58 ^ Z.of_nat t <= value 58 ds ->
  value 58 ds * 58 ^ Z.of_nat m <= value 256 p * 256 ^ (blen data + 4) -> (value 256 p + 1) * 256 ^ (blen data + 4) <= (value 58 ds + 1) * 58 ^ Z.of_nat m ->
  length s = (S t + m)%nat /\ firstn (S t) s = map letter ds.
Proof.
  intros DK P E FP NZ DD LD V BL BU. assert (VR := value_range 58 ltac:(lia) ds DD). rewrite LD in VR.
  destruct (class_text_top b data H s p _ _ t m DK P E FP NZ V (proj2 VR) BL BU) as (hi & lo & -> & L1 & L2 & D & R).
  assert (hi = ds) by (apply (value_inj_len 58 ltac:(lia)); [congruence|exact D|exact DD|lia]). subst hi.
  split; [rewrite app_length, map_length; lia|]. rewrite <- LD, <- (map_length letter ds), firstn_app, firstn_all, Nat.sub_diag, firstn_O, app_nil_r. reflexivity.
Qed.

Theorem C70_look : forall H b n starts len data s, DigestOk H -> Look b n starts len -> blen data = n -> class_text H b data = Some s ->
  length s = len /\ exists start, In start starts /\ firstn (String.length start) s = str start.
Proof.
  intros H b n starts len data s DK LK LN E.
  assert (ONE : forall p m v w, prefix_of b = Some p -> Forall (fun z => 0 <= z < 256) p -> hd 0 p <> 0 -> 1 <= v -> v <= w < 58 ->
     v * 58 ^ Z.of_nat m <= value 256 p * 256 ^ (n + 4) -> (value 256 p + 1) * 256 ^ (n + 4) <= (w + 1) * 58 ^ Z.of_nat m ->
     (forall d, v <= d <= w -> In [letter d] (map str starts)) -> S m = len -> Forall (fun x => String.length x = 1%nat) starts ->
     length s = len /\ exists start, In start starts /\ firstn (String.length start) s = str start).
  { intros p m v w P F NZ V W BL BU IL <- FS. rewrite <- LN in *. destruct (text_one b data H s p m v w (map str starts) DK P E F NZ V W BL BU IL) as (L & st & I & ES).
    split; [exact L|]. apply in_map_iff in I. destruct I as (x & <- & I). exists x. split; [exact I|].
    rewrite Forall_forall in FS. rewrite (FS x I). assert (LX : length (str x) = 1%nat) by (unfold str; rewrite ?map_length; specialize (FS x I); destruct x as [|? [|? ?]]; try discriminate FS; reflexivity). rewrite LX in ES. exact ES. }
  assert (MANY : forall p m t ds st, prefix_of b = Some p -> Forall (fun z => 0 <= z < 256) p -> hd 0 p <> 0 -> Digits 58 ds -> length ds = S t -> 58 ^ Z.of_nat t <= value 58 ds ->
     value 58 ds * 58 ^ Z.of_nat m <= value 256 p * 256 ^ (n + 4) -> (value 256 p + 1) * 256 ^ (n + 4) <= (value 58 ds + 1) * 58 ^ Z.of_nat m ->
     (S t + m)%nat = len -> starts = [st] -> map letter ds = str st -> String.length st = S t ->
     length s = len /\ exists start, In start starts /\ firstn (String.length start) s = str start).
  { intros p m t ds st P F NZ D LD V BL BU <- -> ST LS. rewrite <- LN in *. destruct (text_many b data H s p m t ds DK P E F NZ D LD V BL BU) as (L & ES).
    split; [exact L|]. exists st. split; [left; reflexivity|]. rewrite LS, <- ST. exact ES. }
  assert (BYTES : forall p, forallb (fun z => (0 <=? z) && (z <? 256)) p = true -> Forall (fun z => 0 <= z < 256) p).
  { intros p F. apply Forall_forall. intros z I. rewrite forallb_forall in F. specialize (F z I). apply andb_prop in F. destruct F as [F1 F2]. apply Z.leb_le in F1. apply Z.ltb_lt in F2. lia. }
  assert (DIG : forall p, forallb (fun z => (0 <=? z) && (z <? 58)) p = true -> Digits 58 p).
  { intros p F. apply Forall_forall. intros z I. rewrite forallb_forall in F. specialize (F z I). apply andb_prop in F. destruct F as [F1 F2]. apply Z.leb_le in F1. apply Z.ltb_lt in F2. lia. }
  destruct LK; clear E LN data;
    [apply (MANY [235] 33%nat 1%nat [1; 36] "2d"%string)
    |apply (ONE [75] 33%nat 30 30)
    |apply (ONE [57] 33%nat 22 23)
    |apply (ONE [39] 33%nat 15 16)
    |apply (ONE [239] 51%nat 35 35)
    |apply (ONE [239] 50%nat 8 8)
    |apply (MANY [4; 53; 135; 207] 107%nat 3%nat [51; 47; 52; 34] "tpub"%string)
    |apply (MANY [4; 53; 131; 148] 107%nat 3%nat [51; 47; 49; 53] "tprv"%string)
    |apply (MANY [4; 136; 178; 30] 107%nat 3%nat [55; 47; 52; 34] "xpub"%string)
    |apply (MANY [4; 136; 173; 228] 107%nat 3%nat [55; 47; 49; 53] "xprv"%string)]; clear MANY ONE;
    match goal with
    | |- Forall (fun z => 0 <= z < 256) _ => apply BYTES; reflexivity
    | |- Digits 58 _ => apply DIG; reflexivity
    | |- Forall (fun x => String.length x = _) _ => repeat constructor
    | |- _ <> _ => discriminate
    | |- _ <= _ * _ => vm_compute; discriminate
    | |- _ <= _ < _ => lia
    | |- _ <= _ => vm_compute; discriminate
    | |- forall _, _ => idtac
    | |- _ => reflexivity
    end.
  - intros d R. assert (d = 30) by lia. subst d. left; reflexivity.
  - intros d R. assert (d = 22 \/ d = 23) as [-> | ->] by lia; [left; reflexivity|right; left; reflexivity].
  - intros d R. assert (d = 15 \/ d = 16) as [-> | ->] by lia; [left; reflexivity|right; left; reflexivity].
  - intros d R. assert (d = 35) by lia. subst d. left; reflexivity.
  - intros d R. assert (d = 8) by lia. subst d. left; reflexivity.
Qed.
Print Assumptions C70_look.

Example C37_ex_outcomes :
  FromBytes (leaf_info LiquidV1 P2TR) (repeat x02 65) (Some 1) (Ok (mkObj (leaf_info LiquidV1 P2TR) 1 (repeat x02 65)))
  /\ FromBytes (leaf_info LiquidV1 P2TR) (repeat x02 64) None (Raise EType)
  /\ FromBytes (leaf_info LiquidV1 P2TR) (repeat x02 65) (Some 17) (Raise EValue)
  /\ FromBytes (info (blech32_base LiquidV1 [P2TR])) (repeat x02 65) (Some 1) (Raise EType).
Proof. repeat split; apply C37_outcome; vm_compute; reflexivity. Qed.
Definition ex_valid (pk : bytes) : bool := blen pk =? 33.
Example C38_ex_outcomes : ex_valid [] = false
  /\ Conversion ex_valid LiquidV1 LiquidV1 CBase58 (mkAddr LiquidV1 P2WSH false (repeat x07 32)) (repeat x02 33) (Raise EAddress)
  /\ Conversion ex_valid LiquidV1 LiquidV1 (CLeaf P2SH) (mkAddr LiquidV1 P2WSH false (repeat x07 32)) (repeat x02 33) (Raise EType)
  /\ Conversion ex_valid Elements LiquidV1 (CLeaf P2WSH) (mkAddr LiquidV1 P2WSH false (repeat x07 32)) (repeat x02 33) (Ok (mkAddr Elements P2WSH true (repeat x02 33 ++ repeat x07 32)))
  /\ Conversion ex_valid Elements LiquidV1 CAny (mkAddr LiquidV1 P2WSH false (repeat x07 32)) (repeat x02 33) (Raise EAddress)
  /\ Conversion ex_valid LiquidV1 LiquidV1 CAny (mkAddr LiquidV1 P2WSH false (repeat x07 32)) [] (Raise EValue).
Proof. repeat split; apply C38_outcome; vm_compute; reflexivity. Qed.
Example C38_ex_script : to_scriptPubKey (mkAddr LiquidV1 P2TR true (repeat x02 33 ++ repeat x07 32)) = Ok (x51 :: x20 :: repeat x07 32).
Proof. reflexivity. Qed.
(** The unconfidential address of the project's own test, and an extended public key. *)
Example C70_ex_look : class_text Sha256.sha256d (B58Address Elements P2PKH false) (skipn 33 ex_conf) = Some (str "2deBRSp69HSsJ5WAegsaksoWj8PfaQ2PqDd")
  /\ exists s, class_text Sha256.sha256d (B58ExtPub LiquidV1) (repeat x02 74) = Some s /\ firstn 4 s = str "xpub".
Proof. split; [vm_compute; reflexivity|]. eexists. split; vm_compute; reflexivity. Qed.
