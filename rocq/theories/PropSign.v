(** Property C78: blinding and signing. *)
From Verif Require Import Base BaseFacts Serialize ParserFacts TxModel SpecWire TxProofs TxProofs2 ScriptModel SpecScript
  SighashModel SpecSighash SighashProofs PropCodec PropSighash LegacyModel SpecLegacy LegacyProofs PropLegacy
  BlindModel SpecBlind BlindFacts BlindFrame BlindFails BlindSteps BlindComplete BlindMain BlindProps PropBlind SpecBalance SpecMulti SpecNode ToyCrypto ToyTx SpecSign.
From Coq Require Import Lia.
Local Open Scope Z_scope.
Local Notation length := List.length (only parsing).

(** The scope of a hash type. *)
Definition scope (ht : Z) : Scope := mkScope (acp ht) (sig_none ht) (sig_single ht).
Definition tap_scope (ht : option Z) : Scope := mkScope (tap_acp ht) (negb (tap_all ht) && negb (tap_single ht)) (tap_single ht).

Lemma map_nth_eq {A B} (f : A -> B) l l' : length l' = length l ->
  (forall i x x', nth_error l i = Some x -> nth_error l' i = Some x' -> f x = f x') -> map f l = map f l'.
Proof.
  intros E H. apply nth_error_ext. intros j. rewrite !nth_error_map.
  destruct (nth_error l j) as [x|] eqn:N1, (nth_error l' j) as [x'|] eqn:N2; cbn; try reflexivity.
  - f_equal. eauto.
  - apply nth_error_None in N2. assert (nth_error l j <> None) as K by congruence. apply nth_error_Some in K. lia.
  - apply nth_error_None in N1. assert (nth_error l' j <> None) as K by congruence. apply nth_error_Some in K. lia.
Qed.
Lemma nth_some {A} (l : list A) i : (i < length l)%nat -> exists x, nth_error l i = Some x.
Proof. intros L. destruct (nth_error l i) eqn:E; [eauto|]. apply nth_error_None in E. lia. Qed.
Lemma nth_of_nth_error {A} (l : list A) i x d : nth_error l i = Some x -> nth i l d = x.
Proof. apply nth_error_nth. Qed.
Lemma nth_list_eq {A} (l l' : list A) d : length l' = length l -> (forall i, nth i l' d = nth i l d) -> l' = l.
Proof. intros L H. apply (nth_ext _ _ d d L). intros. apply H. Qed.

Lemma issuance_same x y : assetIssuance x = assetIssuance y -> issuance_of x = issuance_of y.
Proof. intros E. unfold issuance_of, has_issuance. rewrite E. reflexivity. Qed.
Lemma written_same x y : prevout x = prevout y -> assetIssuance x = assetIssuance y -> written_issuance x = written_issuance y.
Proof. intros E1 E2. unfold written_issuance, writes_issuance, has_issuance. rewrite E1, E2. reflexivity. Qed.
Lemma issuance_fields (a b : issuance) : is_nonce a = is_nonce b -> is_entropy a = is_entropy b -> is_amount a = is_amount b -> is_keys a = is_keys b -> a = b.
Proof. destruct a, b; cbn; intros; subst; reflexivity. Qed.

(** ** What blind() does not cover stays signed *)
Section Kept.
Variables (z : Crypto) (rand : nat -> bytes) (args : blind_args) (t : tx).
Let t' := s_tx (snd (blind_transaction z rand args t)).
Let FR : Frame args t t' := C43_frame z rand args t.

Lemma kept_in sc i k x x' : Outside sc args t i -> any sc = false \/ k = i ->
  nth_error (vin t) k = Some x -> nth_error (vin t') k = Some x' ->
  prevout x = prevout x' /\ nSequence x = nSequence x' /\ assetIssuance x = assetIssuance x' /\ is_pegin x = is_pegin x'.
Proof.
  intros [O _] A E E'. destruct (O k A) as [N1 N2]. destruct (fr_in _ _ _ _ _ FR k x x' E E') as (P1 & _ & P2 & P3 & P4 & P5 & P6 & P7).
  repeat split; try congruence. apply issuance_fields; symmetry; auto.
Qed.
Lemma kept_out sc i j : Outside sc args t i -> none sc = false -> (single sc = true -> j = i) -> nth_error (vout t) j = nth_error (vout t') j.
Proof.
  intros [_ O] Hn Hs. destruct (nth_error (vout t) j) as [o|] eqn:E.
  - assert (L : (j < length (vout t))%nat) by (apply nth_error_Some; congruence).
    destruct (nth_some (vout t') j) as [o' E']; [rewrite (fr_nout _ _ _ _ _ FR); exact L|].
    destruct (fr_out _ _ _ _ _ FR j o o' E E') as [_ K]. rewrite E'. f_equal. symmetry. apply K. exact (O j L Hn Hs).
  - symmetry. apply nth_error_None. rewrite (fr_nout _ _ _ _ _ FR). apply nth_error_None. exact E.
Qed.
Lemma kept_all sc i : Outside sc args t i -> none sc = false -> single sc = false -> vout t = vout t'.
Proof. intros O Hn Hs. apply nth_error_ext. intros j. eapply kept_out; try eassumption. congruence. Qed.
End Kept.

Theorem C78_blind_keeps : forall z rand args t (i : nat), (i < length (vin t))%nat ->
  (forall legacy H script ht a, Outside (scope ht) args t i ->
     sighash legacy H script (s_tx (snd (blind_transaction z rand args t))) (Z.of_nat i) ht a SIGVERSION_WITNESS_V0
     = sighash legacy H script t (Z.of_nat i) ht a SIGVERSION_WITNESS_V0)
  /\ (forall H script ht a h, Outside (scope ht) args t i ->
     base_sighash H script (s_tx (snd (blind_transaction z rand args t))) (Z.of_nat i) ht a = Ok h
     <-> base_sighash H script t (Z.of_nat i) ht a = Ok h)
  /\ (forall sha tap spent ht sv tl cs an gen, Outside (tap_scope ht) args t i -> valid_tap_ht ht ->
     length spent = length (vin t) -> (length (vin t) <= length (vtxinwit (wit t)))%nat -> (length (vout t) <= length (vtxoutwit (wit t)))%nat ->
     (tap_single ht = true -> (i < length (vout t))%nat) ->
     sighash_schnorr_raw sha tap (s_tx (snd (blind_transaction z rand args t))) (Z.of_nat i) spent ht sv tl cs an gen
     = sighash_schnorr_raw sha tap t (Z.of_nat i) spent ht sv tl cs an gen).
Proof.
  intros z rand args t i L. assert (FR := C43_frame z rand args t).
  destruct (nth_some _ _ L) as [x Ex].
  destruct (nth_some (vin (s_tx (snd (blind_transaction z rand args t)))) i) as [x' Ex']; [rewrite (fr_nin _ _ _ _ _ FR); exact L|].
  split; [|split].
  - intros legacy H script ht a O. symmetry.
    destruct (kept_in z rand args t (scope ht) i i x x' O (or_intror eq_refl) Ex Ex') as (E1 & E2 & E3 & E4).
    apply (C20_only_covered legacy H script _ _ i i ht a x x'); auto.
    + symmetry. apply (fr_version _ _ _ _ _ FR).
    + symmetry. apply (fr_locktime _ _ _ _ _ FR).
    + apply issuance_same. exact E3.
    + intros Ha. split; (apply map_nth_eq; [apply (fr_nin _ _ _ _ _ FR)|]); intros k y y' Ey Ey';
        destruct (kept_in z rand args t (scope ht) i k y y' O (or_introl Ha) Ey Ey') as (Q1 & Q2 & Q3 & Q4); [exact Q1|apply issuance_same; exact Q3].
    + intros Ha. apply orb_false_elim in Ha. destruct Ha as [Ha _]. apply orb_false_elim in Ha. destruct Ha as [Ha _].
      apply map_nth_eq; [apply (fr_nin _ _ _ _ _ FR)|]. intros k y y' Ey Ey'.
      destruct (kept_in z rand args t (scope ht) i k y y' O (or_introl Ha) Ey Ey') as (Q1 & Q2 & Q3 & Q4). exact Q2.
    + intros Ha. apply orb_false_elim in Ha. destruct Ha as [Ha Hb]. eapply kept_all; [exact O|exact Ha|exact Hb].
    + intros Hs. eapply kept_out; [exact O| |intros _; reflexivity].
      cbn. unfold sig_none, sig_single in *. apply Z.eqb_eq in Hs. rewrite Hs. reflexivity.
  - intros H script ht a h O. symmetry.
    destruct (kept_in z rand args t (scope ht) i i x x' O (or_intror eq_refl) Ex Ex') as (E1 & E2 & E3 & E4).
    apply (C64_not_covered H script _ _ i i ht a x x'); auto.
    + symmetry. apply (fr_version _ _ _ _ _ FR).
    + symmetry. apply (fr_locktime _ _ _ _ _ FR).
    + apply written_same; assumption.
    + intros Ha. split; [reflexivity|]. split; (apply map_nth_eq; [apply (fr_nin _ _ _ _ _ FR)|]); intros k y y' Ey Ey';
        destruct (kept_in z rand args t (scope ht) i k y y' O (or_introl Ha) Ey Ey') as (Q1 & Q2 & Q3 & Q4); [exact Q1|apply written_same; assumption].
    + intros Ha. apply orb_false_elim in Ha. destruct Ha as [Ha _]. apply orb_false_elim in Ha. destruct Ha as [Ha _].
      apply map_nth_eq; [apply (fr_nin _ _ _ _ _ FR)|]. intros k y y' Ey Ey'.
      destruct (kept_in z rand args t (scope ht) i k y y' O (or_introl Ha) Ey Ey') as (Q1 & Q2 & Q3 & Q4). exact Q2.
    + intros Ha. apply orb_false_elim in Ha. destruct Ha as [Ha Hb]. eapply kept_all; [exact O|exact Ha|exact Hb].
    + intros Hs. split; [reflexivity|]. eapply kept_out; [exact O| |intros _; reflexivity].
      cbn. unfold sig_none, sig_single in *. apply Z.eqb_eq in Hs. rewrite Hs. reflexivity.
  - intros sha tap spent ht sv tl cs an gen O V LS W1 W2 LO. symmetry.
    destruct (kept_in z rand args t (tap_scope ht) i i x x' O (or_intror eq_refl) Ex Ex') as (E1 & E2 & E3 & E4).
    assert (NI := fr_ninwit _ _ _ _ _ FR). assert (NO := fr_noutwit _ _ _ _ _ FR).
    rewrite Nat.max_l in NI by exact W1. rewrite Nat.max_l in NO by exact W2.
    assert (WI : forall k, any (tap_scope ht) = false \/ k = i -> 
      option_map (fun w => (iw_issproof w, iw_keysproof w)) (nth_error (vtxinwit (wit t)) k)
      = option_map (fun w => (iw_issproof w, iw_keysproof w)) (nth_error (vtxinwit (wit (s_tx (snd (blind_transaction z rand args t))))) k)).
    { intros k A. destruct (proj1 O k A) as [N1 N2]. destruct (fr_inwit _ _ _ _ _ FR k) as (_ & _ & P & K).
      specialize (P N1). specialize (K N2). unfold inwit_at in P, K.
      destruct (nth_error (vtxinwit (wit t)) k) as [w|] eqn:M1.
      - assert (Lk : (k < length (vtxinwit (wit t)))%nat) by (apply nth_error_Some; congruence).
        destruct (nth_some (vtxinwit (wit (s_tx (snd (blind_transaction z rand args t))))) k) as [w' M2]; [lia|].
        rewrite (nth_of_nth_error _ _ _ _ M1), (nth_of_nth_error _ _ _ _ M2) in *. rewrite M2. cbn. congruence.
      - apply nth_error_None in M1. assert (M2 : nth_error (vtxinwit (wit (s_tx (snd (blind_transaction z rand args t))))) k = None) by (apply nth_error_None; lia).
        rewrite M2. reflexivity. }
    assert (WO : forall j, (j < length (vout t))%nat \/ (length (vout t) <= j)%nat -> none (tap_scope ht) = false -> (single (tap_scope ht) = true -> j = i) ->
      nth_error (vtxoutwit (wit t)) j = nth_error (vtxoutwit (wit (s_tx (snd (blind_transaction z rand args t))))) j).
    { intros j Hj Hn Hs.
      assert (P : ~ wants_output args j \/ (length (vout t) <= j)%nat) by (destruct Hj; [left; apply (proj2 O); assumption|right; assumption]).
      assert (Q : outwit_at (s_tx (snd (blind_transaction z rand args t))) j = outwit_at t j).
      { destruct P as [P|P]; [apply (fr_outwit _ _ _ _ _ FR j P)|]. 
        destruct (Nat.le_gt_cases (length (a_pubkeys args)) j) as [G|G].
        - apply (fr_outwit _ _ _ _ _ FR j). unfold wants_output. rewrite nth_overflow by exact G. congruence.
        - rewrite (C42_bad_arguments_refused z rand args t); [reflexivity|]. left. lia. }
      unfold outwit_at in Q.
      destruct (nth_error (vtxoutwit (wit t)) j) as [w|] eqn:M1.
      - assert (Lk : (j < length (vtxoutwit (wit t)))%nat) by (apply nth_error_Some; congruence).
        destruct (nth_some (vtxoutwit (wit (s_tx (snd (blind_transaction z rand args t))))) j) as [w' M2]; [lia|].
        rewrite (nth_of_nth_error _ _ _ _ M1), (nth_of_nth_error _ _ _ _ M2) in *. rewrite M2. congruence.
      - apply nth_error_None in M1. symmetry. apply nth_error_None. lia. }
    destruct (nth_some spent i) as [p Ep]; [lia|].
    apply (C26_only_covered sha tap _ _ i i spent spent ht sv tl cs an gen x x' p p); auto.
    + symmetry. apply (fr_version _ _ _ _ _ FR).
    + symmetry. apply (fr_locktime _ _ _ _ _ FR).
    + rewrite (fr_nin _ _ _ _ _ FR). exact LS.
    + intros Ha. split; [reflexivity|].
      assert (G : forall {B} (f : txin -> B), (forall y y', prevout y = prevout y' -> nSequence y = nSequence y' -> assetIssuance y = assetIssuance y' -> is_pegin y = is_pegin y' -> f y = f y') ->
        map f (vin t) = map f (vin (s_tx (snd (blind_transaction z rand args t))))).
      { intros B f Hf. apply map_nth_eq; [apply (fr_nin _ _ _ _ _ FR)|]. intros k y y' Ey Ey'.
        destruct (kept_in z rand args t (tap_scope ht) i k y y' O (or_introl Ha) Ey Ey') as (Q1 & Q2 & Q3 & Q4). auto. }
      split; [apply G; auto|]. split; [apply G; auto|]. split; [apply G; auto|]. split; [apply G; intros; apply issuance_same; assumption|].
      split; [reflexivity|]. apply nth_error_ext. intros k. rewrite !nth_error_map. apply WI. left. exact Ha.
    + intros Ha. repeat (split; [solve [auto]|]). split; [apply issuance_same; exact E3|]. repeat (split; [reflexivity|]).
      intros _. apply WI. right. reflexivity.
    + intros Ha.
      assert (S0 : tap_single ht = false) by (unfold tap_all, tap_single in *; apply Z.eqb_eq in Ha; rewrite Ha; reflexivity).
      assert (N0 : none (tap_scope ht) = false) by (cbn; rewrite Ha; reflexivity).
      split; [eapply kept_all; [exact O|exact N0|exact S0]|].
      apply nth_error_ext. intros j. apply WO; [lia|exact N0|cbn; congruence].
    + intros Hs. assert (N0 : none (tap_scope ht) = false) by (cbn; rewrite Hs, andb_false_r; reflexivity).
      split; [|apply WO; [lia|exact N0|reflexivity]].
      destruct (nth_some _ _ (LO Hs)) as [o Eo]. exists o. split; [exact Eo|]. rewrite <- Eo. symmetry. eapply kept_out; [exact O|exact N0|reflexivity].
Qed.

(** ** What blind() changed is no longer signed *)
Lemma explicit_not_committed x u d a b : ExplicitValue x u -> x = a :: d \/ x = b :: d -> (a, b) = (x08, x09) -> False.
Proof. intros (e & -> & _) H E. injection E as -> ->. destruct H; discriminate. Qed.

Section Changed.
Variables (z : Crypto) (rand : nat -> bytes) (args : blind_args) (t : tx) (n : nat) (bfs abfs : list bytes) (s : St).
Hypothesis SZ : SizesOk z.
Hypothesis H : blind_transaction z rand args t = (Ret (BSuccess n bfs abfs), s).
Hypothesis ST : a_strict args = true.
Hypothesis NS : ~ stray_key args t.

Lemma all_done : exists targets done, AllBlinded z rand args t targets done (s_tx s) bfs abfs
  /\ forall j, wants_output args j -> nth_error bfs j <> Some (zeros 32) -> In j done.
Proof.
  destruct (blind_success z rand args t _ _ _ _ H) as (_ & A & B). destruct (B (A ST NS)) as (targets & _ & C).
  assert (AB : exists done, AllBlinded z rand args t targets done (s_tx s) bfs abfs).
  { destruct C as [(X & _)|(pre & j & _ & X & _)]; eauto. }
  destruct AB as [done AB]. exists targets, done. split; [exact AB|]. intros j W NZ.
  assert (NB := good_of_success _ _ _ _ _ _ _ _ H).
  assert (L : (j < length (vout t))%nat).
  { apply wants_output_task in W. unfold output_tasks in W. apply filter_In in W. destruct W as [I _]. apply in_seq in I.
    assert (length (a_pubkeys args) <= length (vout t))%nat by (apply Nat.nlt_ge; intros Q; apply NB; left; lia). lia. }
  destruct (in_dec Nat.eq_dec j done) as [I|I]; [exact I|]. exfalso. apply NZ. apply (ab_rest _ _ _ _ _ _ _ _ _ AB j L I).
Qed.
Lemma out_changed j : wants_output args j -> nth_error bfs j <> Some (zeros 32) -> nth_error (vout t) j <> nth_error (vout (s_tx s)) j.
Proof.
  intros W NZ E. destruct all_done as (targets & done & AB & D). destruct (In_nth_error _ _ (D j W NZ)) as [k Hk].
  destruct (ab_out _ _ _ _ _ _ _ _ _ AB k j Hk) as (bf & abf & o & o' & _ & _ & E1 & E2 & _ & _ & BO).
  destruct BO as (u & a & g & c & sh & mv & EV & _ & _ & _ & _ & PS & _). assert (o' = o) by congruence. subst o'.
  destruct (so_comser _ SZ _ _ PS) as (d & _ & F). eapply explicit_not_committed; [exact EV|exact F|reflexivity].
Qed.
Lemma iss_changed k ps : In (k, ps) (issuance_tasks args t) ->
  exists x x' u d, nth_error (vin t) k = Some x /\ nth_error (vin (s_tx s)) k = Some x'
    /\ ExplicitValue (iss_field ps x) u /\ blen d = 32 /\ (iss_field ps x' = x08 :: d \/ iss_field ps x' = x09 :: d).
Proof.
  intros I. destruct all_done as (targets & done & AB & _). apply In_nth_error in I. destruct I as [q Hq].
  destruct (ab_iss _ _ _ _ _ _ _ _ _ AB q k ps Hq) as (key & x & x' & _ & E1 & E2 & BI).
  destruct BI as (u & e & a & g & c & EV & _ & _ & _ & _ & _ & PS & _).
  destruct (so_comser _ SZ _ _ PS) as (d & L & F). exists x, x', u, d. auto.
Qed.
Lemma target_task k x : nth_error (vin t) k = Some x ->
  (amount_target args t k -> In (k, false) (issuance_tasks args t)) /\ (keys_target args t k -> In (k, true) (issuance_tasks args t)).
Proof.
  intros E. assert (L : (k < length (vin t))%nat) by (apply nth_error_Some; congruence).
  split; intros [N _].
  - destruct (nth k (a_asset_keys args) None) as [key|] eqn:K; [|contradiction]. exact (issuance_task args t k false key L K).
  - destruct (nth k (a_token_keys args) None) as [key|] eqn:K; [|contradiction]. exact (issuance_task args t k true key L K).
Qed.
(** null or not, each amount stays as it was *)
Lemma field_null k x x' ps : nth_error (vin t) k = Some x -> nth_error (vin (s_tx s)) k = Some x' ->
  iss_field ps x' = iss_field ps x \/ (iss_field ps x <> [] /\ ConfForm CConfValue (iss_field ps x') /\ iss_field ps x' <> []).
Proof.
  intros E E'. assert (FR := C43_frame z rand args t). rewrite H in FR. cbn [snd] in FR.
  destruct (fr_in _ _ _ _ _ FR k x x' E E') as (_ & _ & _ & _ & _ & _ & Q1 & Q2). destruct (target_task k x E) as [T1 T2].
  assert (G : In (k, ps) (issuance_tasks args t) -> iss_field ps x <> [] /\ ConfForm CConfValue (iss_field ps x') /\ iss_field ps x' <> []).
  { intros I. destruct (iss_changed k ps I) as (y & y' & u & d & Ey & Ey' & (e & EV & _) & L & F).
    assert (y = x) by congruence. assert (y' = x') by congruence. subst y y'. rewrite EV.
    split; [discriminate|]. destruct F as [F|F]; rewrite F; (split; [|discriminate]); [eapply (CF_commit CConfValue); [|exact L]; cbn; auto|eapply (CF_commit CConfValue); [|exact L]; cbn; auto]. }
  destruct (in_dec (fun a b : nat * bool => ltac:(decide equality; [apply Bool.bool_dec|apply Nat.eq_dec]) : {a = b} + {a <> b}) (k, ps) (issuance_tasks args t)) as [I|I]; [right; auto|left].
  destruct ps; cbn [iss_field].
  - apply Q2. auto.
  - apply Q1. auto.
Qed.
Lemma has_same k x x' : nth_error (vin t) k = Some x -> nth_error (vin (s_tx s)) k = Some x' -> has_issuance x = has_issuance x'.
Proof.
  intros E E'. assert (A := field_null k x x' false E E'). assert (B := field_null k x x' true E E'). cbn [iss_field] in A, B. unfold has_issuance.
  destruct (is_amount (assetIssuance x)), (is_amount (assetIssuance x')), (is_keys (assetIssuance x)), (is_keys (assetIssuance x'));
    try reflexivity; exfalso; intuition congruence.
Qed.
Lemma frame_s : Frame args t (s_tx s).
Proof. assert (FR := C43_frame z rand args t). rewrite H in FR. exact FR. Qed.
Lemma writes_same k x x' : nth_error (vin t) k = Some x -> nth_error (vin (s_tx s)) k = Some x' -> writes_issuance x = writes_issuance x'.
Proof.
  intros E E'. unfold writes_issuance. rewrite (has_same k x x' E E').
  destruct (fr_in _ _ _ _ _ frame_s k x x' E E') as (-> & _). reflexivity.
Qed.
(** an issuance that was blinded is another one *)
Lemma issuance_differs k ps x x' : In (k, ps) (issuance_tasks args t) -> nth_error (vin t) k = Some x -> nth_error (vin (s_tx s)) k = Some x' ->
  issuance_of x <> issuance_of x' /\ assetIssuance x <> assetIssuance x' /\ has_issuance x = true.
Proof.
  intros I E E'. destruct (iss_changed k ps I) as (y & y' & u & d & Ey & Ey' & EV & L & F).
  assert (y = x) by congruence. assert (y' = x') by congruence. subst y y'.
  assert (HI : has_issuance x = true).
  { destruct EV as (e & EV & _). unfold has_issuance. unfold iss_field in EV. destruct ps; rewrite EV; [destruct (is_amount (assetIssuance x)); reflexivity|reflexivity]. }
  assert (D : assetIssuance x <> assetIssuance x').
  { intros C. assert (iss_field ps x = iss_field ps x') as Q by (unfold iss_field; rewrite C; reflexivity). rewrite <- Q in F.
    eapply explicit_not_committed; [exact EV|exact F|reflexivity]. }
  split; [|auto]. unfold issuance_of. rewrite <- (has_same k x x' E E'), HI. congruence.
Qed.
Lemma signable_after : signable t -> signable (s_tx s).
Proof.
  intros [SI SO]. destruct all_done as (targets & done & AB & _). split.
  - apply Forall_forall. intros x' I. apply In_nth_error in I. destruct I as [k E'].
    destruct (nth_some (vin t) k) as [x E]. { rewrite <- (fr_nin _ _ _ _ _ frame_s). apply nth_error_Some. congruence. }
    rewrite Forall_forall in SI. destruct (SI x (nth_error_In _ _ E)) as (A1 & A2 & A3 & A4 & A5 & A6 & A7 & A8).
    destruct (fr_in _ _ _ _ _ frame_s k x x' E E') as (B1 & B2 & B3 & B4 & B5 & B6 & _). 
    unfold txin_in_range, wf_issuance. rewrite B1, B2, B3, B5, B6. repeat (split; [assumption|]).
    assert (P := field_null k x x' false E E'). assert (Q := field_null k x x' true E E'). cbn [iss_field] in P, Q.
    split; [destruct P as [->|(_ & P & _)]; assumption|destruct Q as [->|(_ & Q & _)]; assumption].
  - apply Forall_forall. intros o' I. apply In_nth_error in I. destruct I as [j E'].
    assert (L : (j < length (vout t))%nat). { rewrite <- (fr_nout _ _ _ _ _ frame_s). apply nth_error_Some. congruence. }
    destruct (nth_some (vout t) j L) as [o E]. rewrite Forall_forall in SO. destruct (SO o (nth_error_In _ _ E)) as (A1 & A2 & A3 & A4).
    destruct (in_dec Nat.eq_dec j done) as [D|D].
    + apply In_nth_error in D. destruct D as [k Hk]. destruct (ab_out _ _ _ _ _ _ _ _ _ AB k j Hk) as (bf & abf & p & p' & _ & _ & E1 & E2 & _ & _ & BO).
      assert (p' = o') by congruence. assert (p = o) by congruence. subst p p'.
      destruct BO as (u & a & g & c & sh & mv & _ & _ & _ & GS & _ & PS & SK & NN & _ & SP & _).
      destruct (so_comser _ SZ _ _ PS) as (d & Ld & F). destruct (so_genser _ SZ _ _ GS) as (d2 & Ld2 & F2). destruct (so_pub _ SZ _ SK) as (d3 & Ld3 & F3).
      rewrite <- NN in F3. unfold wf_txout. rewrite SP.
      split; [destruct F2 as [-> | ->]; apply CF_commit; cbn; auto|].
      split; [destruct F as [-> | ->]; apply CF_commit; cbn; auto|].
      split; [destruct F3 as [-> | ->]; apply CF_commit; cbn; auto|exact A4].
    + destruct (ab_rest _ _ _ _ _ _ _ _ _ AB j L D) as (_ & _ & Q). assert (o' = o) by congruence. subst o'. unfold wf_txout. auto.
Qed.
Lemma in_exists k : (k < length (vin t))%nat -> exists x x', nth_error (vin t) k = Some x /\ nth_error (vin (s_tx s)) k = Some x'.
Proof.
  intros L. destruct (nth_some _ _ L) as [x E]. destruct (nth_some (vin (s_tx s)) k) as [x' E']; [rewrite (fr_nin _ _ _ _ _ frame_s); exact L|]. eauto.
Qed.
Lemma task_lt k ps : In (k, ps) (issuance_tasks args t) -> (k < length (vin t))%nat.
Proof. intros I. destruct (iss_changed k ps I) as (x & _ & _ & _ & E & _). apply nth_error_Some. congruence. Qed.
Lemma map_has : map has_issuance (vin t) = map has_issuance (vin (s_tx s)).
Proof. apply map_nth_eq; [apply (fr_nin _ _ _ _ _ frame_s)|]. intros k x x' E E'. exact (has_same k x x' E E'). Qed.
Lemma map_writes : map writes_issuance (vin t) = map writes_issuance (vin (s_tx s)).
Proof. apply map_nth_eq; [apply (fr_nin _ _ _ _ _ frame_s)|]. intros k x x' E E'. exact (writes_same k x x' E E'). Qed.
End Changed.

Lemma map_eq_nth {A B} (f : A -> B) l l' k x x' : map f l = map f l' -> nth_error l k = Some x -> nth_error l' k = Some x' -> f x = f x'.
Proof. intros E E1 E2. apply (f_equal (fun m => nth_error m k)) in E. rewrite !nth_error_map, E1, E2 in E. cbn in E. congruence. Qed.

Theorem C78_blind_breaks : forall z rand args t n bfs abfs s (i : nat), SizesOk z ->
  blind_transaction z rand args t = (Ret (BSuccess n bfs abfs), s) -> a_strict args = true -> ~ stray_key args t -> signable t ->
  (forall legacy H script ht a h h', (forall x, length (H x) = 32%nat) -> ConfForm CConfValue a -> Touched (scope ht) args t bfs i ->
     sighash legacy H script t (Z.of_nat i) ht (Some a) SIGVERSION_WITNESS_V0 = Ok h ->
     sighash legacy H script (s_tx s) (Z.of_nat i) ht (Some a) SIGVERSION_WITNESS_V0 = Ok h' ->
     no_collision H (V0Hashed H script t i ht a) (V0Hashed H script (s_tx s) i ht a) -> h <> h')
  /\ (forall H script ht a h h', Touched (scope ht) args t bfs i -> Forall (fun x => op_n (prevout x) <> 2 ^ 32 - 1) (vin t) ->
     base_sighash H script t (Z.of_nat i) ht a = Ok h ->
     base_sighash H script (s_tx s) (Z.of_nat i) ht a = Ok h' ->
     no_collision H (LegacyPreimage script t i ht) (LegacyPreimage script (s_tx s) i ht) -> h <> h')
  /\ (forall sha tap spent ht sv tl cs an gen h h', (forall x, length (sha x) = 32%nat) -> Touched (tap_scope ht) args t bfs i ->
     valid_tap_ht ht -> tap_signable t -> tap_signable (s_tx s) -> Forall wf_txout spent -> length spent = length (vin t) -> (i < length (vin t))%nat ->
     sighash_schnorr_raw sha tap t (Z.of_nat i) spent ht sv tl cs an gen = Ok h ->
     sighash_schnorr_raw sha tap (s_tx s) (Z.of_nat i) spent ht sv tl cs an gen = Ok h' ->
     no_collision tap (TapFinal sha t i spent ht gen) (TapFinal sha (s_tx s) i spent ht gen) ->
     no_collision sha (TapHashed t i spent ht) (TapHashed (s_tx s) i spent ht) -> h <> h').
Proof.
  intros z rand args t n bfs abfs s i SZ HB ST NS SG.
  assert (SG' := signable_after z rand args t n bfs abfs s SZ HB ST NS SG).
  split; [|split].
  - intros legacy H script ht a h h' HL CA TO P1 P2 NC EQ. subst h'.
    destruct (C19_scoped_binds legacy H script script t (s_tx s) i i ht ht a a h HL SG SG' CA CA P1 P2 NC)
      as (_ & _ & _ & _ & _ & (x & y & Ex & Ey & _ & _ & EI) & _ & EIS & _ & EO & ES).
    destruct TO as [(k & ps & I & A)|(j & W & NZ & N0 & S0)].
    + destruct (acp ht) eqn:AC.
      * assert (k = i) by (apply A; exact AC). subst k. destruct (issuance_differs z rand args t n bfs abfs s SZ HB ST NS i ps x y I Ex Ey) as [D _]. contradiction.
      * destruct (in_exists z rand args t n bfs abfs s HB k (task_lt z rand args t n bfs abfs s SZ HB ST NS k ps I)) as (w & w' & Ew & Ew').
        destruct (issuance_differs z rand args t n bfs abfs s SZ HB ST NS k ps w w' I Ew Ew') as [D _]. apply D.
        eapply map_eq_nth; [apply EIS; [reflexivity|]|exact Ew|exact Ew']. exact (map_has z rand args t n bfs abfs s SZ HB ST NS).
    + apply (out_changed z rand args t n bfs abfs s SZ HB ST NS j W NZ). cbn [none single scope] in N0, S0.
      destruct (sig_single ht) eqn:SS.
      * specialize (S0 eq_refl). subst j. destruct (nth_error (vout t) i) as [o|] eqn:E1, (nth_error (vout (s_tx s)) i) as [o'|] eqn:E2; try reflexivity.
        -- f_equal. exact (ES eq_refl o o' eq_refl eq_refl).
        -- apply nth_error_None in E2. rewrite (fr_nout _ _ _ _ _ (frame_s z rand args t n bfs abfs s HB)) in E2. assert (nth_error (vout t) i <> None) as K by congruence. apply nth_error_Some in K. lia.
        -- apply nth_error_None in E1. rewrite <- (fr_nout _ _ _ _ _ (frame_s z rand args t n bfs abfs s HB)) in E1. assert (nth_error (vout (s_tx s)) i <> None) as K by congruence. apply nth_error_Some in K. lia.
      * rewrite EO; [reflexivity|]. rewrite N0. reflexivity.
  - intros H script ht a h h' TO NC0 P1 P2 NC EQ. subst h'.
    assert (MW := map_writes z rand args t n bfs abfs s SZ HB ST NS).
    destruct (C64_binds H script script t (s_tx s) i i ht ht a a h SG SG' P1 P2 NC) as (_ & _ & _ & _ & EA & _ & EX & EO & ES).
    { destruct (acp ht); [|exact MW]. rewrite <- !nth_error_map, MW. reflexivity. }
    assert (WD : forall k ps w w', In (k, ps) (issuance_tasks args t) -> nth_error (vin t) k = Some w -> nth_error (vin (s_tx s)) k = Some w' ->
      written_issuance w <> written_issuance w').
    { intros k ps w w' I Ew Ew' C. destruct (issuance_differs z rand args t n bfs abfs s SZ HB ST NS k ps w w' I Ew Ew') as (_ & D & HI).
      assert (WS := writes_same z rand args t n bfs abfs s SZ HB ST NS k w w' Ew Ew').
      assert (WT : writes_issuance w = true).
      { unfold writes_issuance. rewrite HI. rewrite Forall_forall in NC0. assert (Q := NC0 w (nth_error_In _ _ Ew)). apply Z.eqb_neq in Q. rewrite Q. reflexivity. }
      unfold written_issuance in C. rewrite <- WS, WT in C. congruence. }
    destruct TO as [(k & ps & I & A)|(j & W & NZ & N0 & S0)].
    + destruct (acp ht) eqn:AC.
      * assert (k = i) by (apply A; exact AC). subst k. destruct (EX (or_introl eq_refl)) as (x & y & Ex & Ey & _ & _ & EI). exact (WD i ps x y I Ex Ey EI).
      * destruct (in_exists z rand args t n bfs abfs s HB k (task_lt z rand args t n bfs abfs s SZ HB ST NS k ps I)) as (w & w' & Ew & Ew').
        apply (WD k ps w w' I Ew Ew'). destruct (EA eq_refl) as [_ EI]. eapply map_eq_nth; eassumption.
    + apply (out_changed z rand args t n bfs abfs s SZ HB ST NS j W NZ). cbn [none single scope] in N0, S0.
      destruct (sig_single ht) eqn:SS.
      * specialize (S0 eq_refl). subst j. apply (ES eq_refl).
      * rewrite EO; [reflexivity|]. rewrite N0. reflexivity.
  - intros sha tap spent ht sv tl cs an gen h h' HL TO V TS TS' FS LS LI P1 P2 NC NC2 EQ. subst h'.
    destruct (in_exists z rand args t n bfs abfs s HB i LI) as (x & y & Ex & Ey).
    destruct (nth_some spent i) as [p Ep]; [lia|].
    assert (ALL : (tap_acp ht = false -> map issuance_of (vin t) = map issuance_of (vin (s_tx s)))
      /\ (tap_acp ht = true -> issuance_of x = issuance_of y)
      /\ (tap_all ht = true -> vout t = vout (s_tx s))
      /\ (tap_single ht = true -> nth_error (vout t) i = nth_error (vout (s_tx s)) i)).
    { destruct (tap_acp ht) eqn:AC.
      - destruct (C25_acp_binds sha tap t (s_tx s) i i spent spent ht ht sv sv tl tl cs cs an an gen gen h x y p p HL TS TS' FS FS V V AC P1 P2 Ex Ey Ep Ep NC NC2)
          as (_ & _ & _ & _ & _ & _ & _ & Q1 & Q2 & _ & _ & _ & _ & _ & Q3).
        destruct (Q3 (or_intror eq_refl)) as (_ & _ & Q4 & _).
        split; [discriminate|]. split; [auto|]. split; [intros E; apply (Q1 E)|intros E; apply (Q2 E)].
      - destruct (C24_inputs_bound sha tap t (s_tx s) i i spent spent ht ht sv sv tl tl cs cs an an gen gen h HL TS TS' FS FS V V AC P1 P2 NC NC2)
          as (_ & _ & _ & _ & _ & _ & _ & Q1 & _ & _ & _ & _ & _ & _ & _ & _ & _ & Q2).
        split; [auto|]. split; [discriminate|]. split; [|intros E; apply (Q2 E)].
        intros E. assert (HT : ht = None \/ ht = Some SIGHASH_ALL).
        { destruct ht as [hv|]; [right|auto]. cbn in V. unfold tap_all, tap_acp in *. cbn [tap_ht] in *.
          destruct V as [<-|[<-|[<-|[<-|[<-|[<-|[]]]]]]]; try reflexivity; vm_compute in E, AC; discriminate. }
        destruct (C24_all_binds sha tap t (s_tx s) i i spent spent ht ht sv sv tl tl cs cs an an gen gen h HL TS TS' FS FS HT V P1 P2 NC NC2)
          as (_ & _ & _ & _ & _ & _ & _ & _ & _ & _ & _ & _ & _ & Q3 & _). exact Q3. }
    destruct ALL as (A1 & A2 & A3 & A4).
    destruct TO as [(k & ps & I & A)|(j & W & NZ & N0 & S0)].
    + destruct (tap_acp ht) eqn:AC.
      * assert (k = i) by (apply A; exact AC). subst k. destruct (issuance_differs z rand args t n bfs abfs s SZ HB ST NS i ps x y I Ex Ey) as [D _]. apply D. auto.
      * destruct (in_exists z rand args t n bfs abfs s HB k (task_lt z rand args t n bfs abfs s SZ HB ST NS k ps I)) as (w & w' & Ew & Ew').
        destruct (issuance_differs z rand args t n bfs abfs s SZ HB ST NS k ps w w' I Ew Ew') as [D _]. apply D. eapply map_eq_nth; [apply A1; reflexivity|exact Ew|exact Ew'].
    + apply (out_changed z rand args t n bfs abfs s SZ HB ST NS j W NZ). cbn [none single tap_scope] in N0, S0.
      destruct (tap_single ht) eqn:SS.
      * specialize (S0 eq_refl). subst j. apply A4. reflexivity.
      * rewrite A3; [reflexivity|]. destruct (tap_all ht); [reflexivity|discriminate].
Qed.

(** The transaction id changes as well. *)
Theorem C78_txid_changes : forall z rand args t n bfs abfs s b b', SizesOk z ->
  blind_transaction z rand args t = (Ret (BSuccess n bfs abfs), s) -> a_strict args = true -> ~ stray_key args t ->
  wf_body t -> Touched (mkScope false false false) args t bfs 0 ->
  ser_tx false false t = Ok b -> ser_tx false false (s_tx s) = Ok b' ->
  wf_body (s_tx s) /\ b <> b'.
Proof.
  intros z rand args t n bfs abfs s b b' SZ HB ST NS WB TO S1 S2.
  assert (WB' : wf_body (s_tx s)).
  { destruct WB as (A1 & A2 & A3 & A4 & A5 & A6). assert (FR := frame_s z rand args t n bfs abfs s HB).
    assert (SG : signable t). { split; [|exact A6]. eapply Forall_impl; [|exact A5]. intros a K. apply K. }
    destruct (signable_after z rand args t n bfs abfs s SZ HB ST NS SG) as [B1 B2].
    unfold wf_body. rewrite (fr_version _ _ _ _ _ FR), (fr_locktime _ _ _ _ _ FR), (fr_nin _ _ _ _ _ FR), (fr_nout _ _ _ _ _ FR).
    repeat (split; [assumption|]). split; [|exact B2].
    apply Forall_forall. intros x' I. rewrite Forall_forall in B1. split; [apply B1; exact I|]. apply In_nth_error in I. destruct I as [k E'].
    destruct (nth_some (vin t) k) as [x E]. { rewrite <- (fr_nin _ _ _ _ _ FR). apply nth_error_Some. congruence. }
    rewrite Forall_forall in A5. destruct (A5 x (nth_error_In _ _ E)) as [_ R].
    destruct (fr_in _ _ _ _ _ FR k x x' E E') as (C1 & C2 & C3 & C4 & C5 & C6 & _).
    assert (HS := has_same z rand args t n bfs abfs s SZ HB ST NS k x x' E E').
    assert (P := field_null z rand args t n bfs abfs s SZ HB ST NS k x x' false E E'). assert (Q := field_null z rand args t n bfs abfs s SZ HB ST NS k x x' true E E').
    cbn [iss_field] in P, Q.
    assert (DF : assetIssuance x = issuance_default -> assetIssuance x' = issuance_default).
    { intros D. rewrite <- D. apply issuance_fields; [exact C5|exact C6| |].
      - destruct P as [P|(P & _)]; [exact P|]. rewrite D in P. contradiction.
      - destruct Q as [Q|(Q & _)]; [exact Q|]. rewrite D in Q. contradiction. }
    unfold txin_representable. rewrite C1, C4, <- HS. destruct R as [(R1 & R2 & R3)|(R1 & R2 & R3)]; [left|right]; auto. }
  split; [exact WB'|]. intros E. subst b'.
  destruct (C16_txid_preimage_injective _ _ _ WB WB' S1 S2) as (EI & EO & _).
  destruct TO as [(k & ps & I & _)|(j & W & NZ & _ & _)].
  - destruct (in_exists z rand args t n bfs abfs s HB k (task_lt z rand args t n bfs abfs s SZ HB ST NS k ps I)) as (w & w' & Ew & Ew').
    destruct (issuance_differs z rand args t n bfs abfs s SZ HB ST NS k ps w w' I Ew Ew') as (_ & D & _). apply D. congruence.
  - apply (out_changed z rand args t n bfs abfs s SZ HB ST NS j W NZ). rewrite EO. reflexivity.
Qed.

(** ** Signing keeps the other signatures and the blinding *)
Section Signed.
Variables t t' : tx.
Hypothesis SI : OnlySigned t t'.
Lemma signed_map {B} (f : txin -> B) :
  (forall y y', prevout y = prevout y' -> nSequence y = nSequence y' -> assetIssuance y = assetIssuance y' -> is_pegin y = is_pegin y' -> f y = f y') ->
  map f (vin t) = map f (vin t').
Proof.
  intros Hf. apply map_nth_eq; [apply (si_nin _ _ SI)|]. intros k y y' Ey Ey'. destruct (si_in _ _ SI k y y' Ey Ey') as (A & B0 & C & D). apply Hf; congruence.
Qed.
Lemma signed_wit k : option_map (fun w => (iw_issproof w, iw_keysproof w)) (nth_error (vtxinwit (wit t)) k)
  = option_map (fun w => (iw_issproof w, iw_keysproof w)) (nth_error (vtxinwit (wit t')) k).
Proof.
  assert (NI := si_ninwit _ _ SI). destruct (si_inwit _ _ SI k) as (P & K & _). unfold inwit_at in P, K.
  destruct (nth_error (vtxinwit (wit t)) k) as [w|] eqn:M1.
  - assert (Lk : (k < length (vtxinwit (wit t)))%nat) by (apply nth_error_Some; congruence).
    destruct (nth_some (vtxinwit (wit t')) k) as [w' M2]; [lia|].
    rewrite (nth_of_nth_error _ _ _ _ M1), (nth_of_nth_error _ _ _ _ M2) in *. rewrite M2. cbn. congruence.
  - apply nth_error_None in M1. assert (M2 : nth_error (vtxinwit (wit t')) k = None) by (apply nth_error_None; lia). rewrite M2. reflexivity.
Qed.
Lemma signed_in i x : nth_error (vin t) i = Some x -> exists x', nth_error (vin t') i = Some x' /\ prevout x = prevout x' /\ nSequence x = nSequence x'
  /\ assetIssuance x = assetIssuance x' /\ is_pegin x = is_pegin x'.
Proof.
  intros E. destruct (nth_some (vin t') i) as [x' E']; [rewrite (si_nin _ _ SI); apply nth_error_Some; congruence|].
  destruct (si_in _ _ SI i x x' E E') as (A & B & C & D). exists x'. repeat split; congruence.
Qed.
Lemma node_input_signed z V us i : node_input z V us t' i = node_input z V us t i.
Proof.
  unfold node_input. destruct (nth_error us i) as [u|]; [|reflexivity].
  destruct (nth_error (vin t) i) as [x|] eqn:E.
  - destruct (signed_in i x E) as (x' & -> & A & B & C & D).
    unfold node_id, node_entropy, reissue_ok. rewrite <- A, <- C.
    assert (W := signed_wit i). destruct (nth_error (vtxinwit (wit t)) i) as [w|], (nth_error (vtxinwit (wit t')) i) as [w'|]; cbn in W; try discriminate; [|reflexivity].
    injection W as -> ->. reflexivity.
  - assert (nth_error (vin t') i = None) as ->; [|reflexivity]. apply nth_error_None. rewrite (si_nin _ _ SI). apply nth_error_None. exact E.
Qed.
Lemma node_output_signed z V gens j : node_output z V gens t' j = node_output z V gens t j.
Proof. unfold node_output, outwit_at. rewrite (si_out _ _ SI), (si_outwit _ _ SI). reflexivity. Qed.
End Signed.

Theorem C78_signing_keeps : forall t t' (i : nat), OnlySigned t t' -> (i < length (vin t))%nat ->
  (forall legacy H script ht a,
     sighash legacy H script t' (Z.of_nat i) ht a SIGVERSION_WITNESS_V0 = sighash legacy H script t (Z.of_nat i) ht a SIGVERSION_WITNESS_V0)
  /\ (forall H script ht a h, base_sighash H script t' (Z.of_nat i) ht a = Ok h <-> base_sighash H script t (Z.of_nat i) ht a = Ok h)
  /\ (forall sha tap spent ht sv tl cs an gen, valid_tap_ht ht -> length spent = length (vin t) ->
     (tap_single ht = true -> (i < length (vout t))%nat) ->
     sighash_schnorr_raw sha tap t' (Z.of_nat i) spent ht sv tl cs an gen = sighash_schnorr_raw sha tap t (Z.of_nat i) spent ht sv tl cs an gen)
  /\ (forall z V us, node_check z V us t' = node_check z V us t).
Proof.
  intros t t' i SI L. destruct (nth_some _ _ L) as [x E]. destruct (signed_in t t' SI i x E) as (x' & E' & A & B & C & D).
  split; [|split; [|split]].
  - intros legacy H script ht a. symmetry.
    apply (C20_only_covered legacy H script _ _ i i ht a x x'); auto; try (symmetry; apply SI).
    + apply issuance_same. exact C.
    + intros _. split; apply signed_map; auto. intros. apply issuance_same. assumption.
    + intros _. apply signed_map; auto.
    + intros _. rewrite (si_out _ _ SI). reflexivity.
  - intros H script ht a h. symmetry.
    apply (C64_not_covered H script _ _ i i ht a x x'); auto; try (symmetry; apply SI).
    + apply written_same; assumption.
    + intros _. split; [reflexivity|]. split; apply signed_map; auto. intros. apply written_same; assumption.
    + intros _. apply signed_map; auto.
    + intros _. split; [reflexivity|]. rewrite (si_out _ _ SI). reflexivity.
  - intros sha tap spent ht sv tl cs an gen V LS LO. symmetry. destruct (nth_some spent i) as [p Ep]; [lia|].
    apply (C26_only_covered sha tap _ _ i i spent spent ht sv tl cs an gen x x' p p); auto; try (symmetry; apply SI).
    + rewrite (si_nin _ _ SI). exact LS.
    + intros _. split; [reflexivity|]. do 3 (split; [apply signed_map; auto|]). split; [apply signed_map; auto; intros; apply issuance_same; assumption|].
      split; [reflexivity|]. apply nth_error_ext. intros k. rewrite !nth_error_map. apply signed_wit. exact SI.
    + intros _. repeat (split; [solve [auto]|]). split; [apply issuance_same; exact C|]. repeat (split; [reflexivity|]). intros _. apply signed_wit. exact SI.
    + intros _. rewrite (si_out _ _ SI), (si_outwit _ _ SI). auto.
    + intros Hs. rewrite (si_out _ _ SI), (si_outwit _ _ SI). split; [|reflexivity]. destruct (nth_some _ _ (LO Hs)) as [o Eo]. eauto.
  - intros z V us. unfold node_check. rewrite (si_nin _ _ SI), (si_out _ _ SI).
    rewrite (map_ext _ _ (node_input_signed t t' SI z V us)).
    destruct (opt_concat (map (node_input z V us t) (seq 0 (length (vin t))))) as [items|]; [|reflexivity].
    rewrite (map_ext _ _ (node_output_signed t t' SI z V (map fst items))). reflexivity.
Qed.

(** ** The example of C45, before and after blinding, and then signed *)
Definition toy_after : tx := Eval vm_compute in s_tx (snd (blind_transaction toy toy_rand toy_args toy_tx)).
Lemma toy_after_is : exists bfs abfs k, blind_transaction toy toy_rand toy_args toy_tx = (Ret (BSuccess 6 bfs abfs), mkSt toy_after k).
Proof. do 3 eexists. vm_compute. reflexivity. Qed.
Definition toy_legacy (_ : bytes) (_ : tx) (_ : Z) (_ : Z) : res (bytes * bool) := Raise EValue.
Definition toy_v0 (t : tx) (i ht : Z) : res bytes := sighash toy_legacy toyhash [x51] t i ht (Some (expl 1000)) SIGVERSION_WITNESS_V0.
Definition ok_other (a b : res bytes) : bool := match a, b with Ok x, Ok y => negb (bytes_eqb x y) | _, _ => false end.
Definition ok_same (a b : res bytes) : bool := match a, b with Ok x, Ok y => bytes_eqb x y | _, _ => false end.
(** an input with its signature *)
Definition sign_in (x : txin) : txin := mkTxIn (prevout x) [x30; x44] (nSequence x) (assetIssuance x) (is_pegin x).
Definition toy_signed : tx := mkTx (map sign_in (vin toy_after)) (vout toy_after) (nLockTime toy_after) (nVersion toy_after)
  (mkTxWit (map (fun w => mkInWit [[x30; x44]; [x02]] (iw_issproof w) (iw_keysproof w) (iw_pegin w)) (vtxinwit (wit toy_after))) (vtxoutwit (wit toy_after))).
Lemma toy_signable : signable toy_tx.
Proof. split; [repeat (constructor; [tin|]); constructor|repeat (constructor; [wf_out|]); constructor]. Qed.
Example C78_ex :
  (* the arguments blind output 0 and the issuance of input 1: NONE|ANYONECANPAY of input 0 covers neither, ALL both *)
  Outside (scope 0x82) toy_args toy_tx 0
  /\ (forall bfs, nth_error bfs 0 <> Some (zeros 32) -> Touched (scope 1) toy_args toy_tx bfs 0 /\ Touched (scope 3) toy_args toy_tx bfs 0)
  /\ signable toy_tx
  /\ ok_same (toy_v0 toy_tx 0 0x82) (toy_v0 toy_after 0 0x82) = true
  /\ ok_other (toy_v0 toy_tx 0 1) (toy_v0 toy_after 0 1) = true
  /\ ok_other (toy_v0 toy_tx 0 3) (toy_v0 toy_after 0 3) = true
  (* and after blinding and signing input 0 or 1 the ALL hash of the other is what it was *)
  /\ OnlySigned toy_after toy_signed /\ toy_after <> toy_signed
  /\ ok_same (toy_v0 toy_after 1 1) (toy_v0 toy_signed 1 1) = true.
Proof.
  split. { split.
    - intros k [F|F]; [discriminate|]. subst k. split; intros [N _]; apply N; reflexivity.
    - intros j _ F. discriminate. }
  split. { intros bfs NZ. split; right; exists 0%nat; (split; [discriminate|]); (split; [exact NZ|]); split; reflexivity. }
  split; [exact toy_signable|]. do 3 (split; [vm_compute; reflexivity|]).
  split; [|split; [discriminate|vm_compute; reflexivity]].
  constructor; try reflexivity.
  - intros [|[|[|i]]] x x' E E'; cbn in E, E'; try discriminate; injection E as <-; injection E' as <-; repeat split; reflexivity.
  - intros [|[|[|i]]]; repeat split; reflexivity.
Qed.
Print Assumptions C78_blind_keeps.
Print Assumptions C78_blind_breaks.
Print Assumptions C78_txid_changes.
Print Assumptions C78_signing_keeps.
