(** The two blinding passes of blind(). *)
From Verif Require Import Base BaseFacts Serialize TxModel IssuanceModel ScriptModel MiscModel BlindModel BlindFacts SpecBlind BlindFrame BlindFails BlindSteps BlindTargets BlindCount.
From Coq Require Import Lia.
Local Open Scope Z_scope.

(** * Lists *)
Lemma flat_for {A B L} (f : A -> list B) (body : B -> L -> M L) l : forall st s,
  for_in (flat_map f l) body st s = for_in l (fun a => for_in (f a) body) st s.
Proof.
  assert (APP : forall l1 l2 st s, for_in (l1 ++ l2) body st s = mbind (for_in l1 body st) (fun st' => for_in l2 body st') s).
  { induction l1 as [|x l1 IH]; intros l2 st s; cbn [app for_in]; [reflexivity|].
    unfold mbind. destruct (body x st s) as [[st1|r|e] s1]; auto. rewrite IH. reflexivity. }
  induction l as [|a l IH]; intros st s; cbn [flat_map for_in]; [reflexivity|].
  rewrite APP. apply mbind_ext. intros st1 s1 _. apply IH.
Qed.
Lemma for_ext {A L} (b1 b2 : A -> L -> M L) l : (forall a st s, b1 a st s = b2 a st s) -> forall st s, for_in l b1 st s = for_in l b2 st s.
Proof.
  intros H. induction l as [|a l IH]; intros st s; cbn [for_in]; [reflexivity|].
  unfold mbind. rewrite H. destruct (b2 a st s) as [[st1|r|e] s1]; auto.
Qed.
Lemma slots_In k i ps : In (i, ps) (issuance_slots k) <-> (i < k)%nat.
Proof.
  unfold issuance_slots. rewrite in_flat_map. split.
  - intros (x & Hx & [E|[E|[]]]); injection E as <- _; apply in_seq in Hx; lia.
  - intros H. exists i. split; [apply in_seq; lia|]. destruct ps; cbn; auto.
Qed.
Lemma slots_NoDup k : NoDup (issuance_slots k).
Proof.
  induction k as [|k IH]; [constructor|]. rewrite slots_S.
  replace (issuance_slots k ++ [(k, false); (k, true)]) with ((issuance_slots k ++ [(k, false)]) ++ [(k, true)]) by (rewrite <- app_assoc; reflexivity).
  apply (NoDup_Add (a := (k, true)) (l := issuance_slots k ++ [(k, false)])).
  { rewrite <- (app_nil_r (issuance_slots k ++ [(k, false)])) at 1. apply Add_app. }
  split.
  - apply (NoDup_Add (a := (k, false)) (l := issuance_slots k)).
    { rewrite <- (app_nil_r (issuance_slots k)) at 1. apply Add_app. }
    split; [exact IH|]. rewrite slots_In. lia.
  - rewrite in_app_iff, slots_In. intros [H|[H|[]]]; [lia|discriminate].
Qed.
Lemma NoDup_mid {A} (l1 l2 : list A) x : NoDup (l1 ++ x :: l2) -> ~ In x l1.
Proof. intros N H. apply NoDup_remove_2 in N. apply N. apply in_or_app. auto. Qed.

Lemma inwit_upd_same t n w' : (n < length (pad_to (S n) inwit_null (vtxinwit (wit t))))%nat -> forall v,
  inwit_at (set_inwits (set_vin t v) (upd (pad_to (S n) inwit_null (vtxinwit (wit t))) n w')) n = w'.
Proof.
  intros H v. unfold inwit_at. cbn [set_inwits wit vtxinwit]. apply nth_error_default. apply upd_nth_same. exact H.
Qed.
Lemma nth_of_error {A} (l : list A) i d : nth i l d = match nth_error l i with Some x => x | None => d end.
Proof. revert i. induction l as [|x l IH]; intros [|i]; cbn; auto. Qed.
Lemma inwit_upd_other t n w' i v : n <> i ->
  inwit_at (set_inwits (set_vin t v) (upd (pad_to (S n) inwit_null (vtxinwit (wit t))) n w')) i = inwit_at t i.
Proof.
  intros N. unfold inwit_at. cbn [set_inwits wit vtxinwit]. rewrite (nth_of_error (upd _ _ _)), upd_nth_other by exact N. rewrite <- nth_of_error.
  apply (pad_to_nth (S n) inwit_null).
Qed.

Section S.
Variables (z : Crypto) (rand : nat -> bytes) (args : blind_args) (t : tx).

Lemma BlindedIssuance_ext ps key bf i1 i2 i1' i2' w1 w2 : BlindedIssuance z args ps key bf i1 i1' w1 ->
  prevout i2 = prevout i1 -> is_nonce (assetIssuance i2) = is_nonce (assetIssuance i1) -> is_entropy (assetIssuance i2) = is_entropy (assetIssuance i1) ->
  iss_field ps i2 = iss_field ps i1 -> iss_field ps i2' = iss_field ps i1' -> iss_proof ps w2 = iss_proof ps w1 ->
  BlindedIssuance z args ps key bf i2 i2' w2.
Proof.
  intros (u & e & a & g & c & H1 & H2 & H3 & H4 & H5 & H6 & H7 & H8) P N EN F F' W.
  exists u, e, a, g, c. rewrite F, F', W, N. unfold EntropyOf in *. rewrite P, N, EN. auto 10.
Qed.

Notation wants := (wants_issuance args).
Record IssDone (p : list (nat * bool)) (L0 L : Loc) (s : St) : Prop := {
  id_draws : s_draws s = length (filter wants p);
  id_vout : vout (s_tx s) = vout t;
  id_outwit : vtxoutwit (wit (s_tx s)) = vtxoutwit (wit t);
  id_in : forall i inp, nth_error (vin t) i = Some inp -> exists inp', nth_error (vin (s_tx s)) i = Some inp'
     /\ prevout inp' = prevout inp /\ is_nonce (assetIssuance inp') = is_nonce (assetIssuance inp)
     /\ is_entropy (assetIssuance inp') = is_entropy (assetIssuance inp)
     /\ forall ps, ~ In (i, ps) p -> iss_field ps inp' = iss_field ps inp;
  id_nin : length (vin (s_tx s)) = length (vin t);
  id_blinds : l_blinds L = l_blinds L0 ++ map rand (seq 0 (length (filter wants p)));
  id_ablinds : l_assetblinds L = l_assetblinds L0 ++ repeat (zeros 32) (length (filter wants p));
  id_amounts : map c_uint64 (l_amounts L) = map c_uint64 (l_amounts L0) ++ map (issued_amount t) (filter wants p);
  id_iss : forall k i ps, nth_error (filter wants p) k = Some (i, ps) ->
     exists key inp inp', nth i (if ps then a_token_keys args else a_asset_keys args) None = Some key
      /\ nth_error (vin t) i = Some inp /\ nth_error (vin (s_tx s)) i = Some inp'
      /\ BlindedIssuance z args ps key (rand k) inp inp' (inwit_at (s_tx s) i);
  id_more : forall k, (k < length (filter wants p))%nat -> S k <> l_toblind L0
}.
Definition IssInv (L0 : Loc) (p : list (nat * bool)) (L : Loc) (s : St) : Prop :=
  l_toblind L = l_toblind L0 /\ l_blindsin L = l_blindsin L0 /\ l_bfs L = l_bfs L0 /\ l_abfs L = l_abfs L0
  /\ l_attempts L = length (filter wants p) /\ l_issattempts L = length (filter wants p)
  /\ (l_success L <= l_attempts L)%nat
  /\ (l_success L = l_attempts L -> IssDone p L0 L s).

Lemma iss_step L0 p n ps r L s L' s' : issuance_slots (length (vin t)) = p ++ (n, ps) :: r ->
  IssInv L0 p L s -> blind_pseudo z rand args n ps L s = (Val L', s') -> IssInv L0 (p ++ [(n, ps)]) L' s'.
Proof.
  intros HS (I1 & I2 & I3 & I4 & I5 & I6 & I7 & I8) E.
  assert (NI : ~ In (n, ps) p). { apply (NoDup_mid p r). rewrite <- HS. apply slots_NoDup. }
  assert (FA : filter wants (p ++ [(n, ps)]) = filter wants p ++ (if wants (n, ps) then [(n, ps)] else [])).
  { rewrite filter_app. reflexivity. }
  apply pseudo_Val in E. destruct E as [(W & -> & ->)|(W & (C1 & C2 & C3 & C4 & C5 & C6) & E)]; rewrite W in FA.
  - rewrite app_nil_r in FA. unfold IssInv. rewrite FA. repeat (split; [assumption|]).
    intros EQ. destruct (I8 EQ) as [D1 D2 D3 D4 D5 D6 D7 D8 D9 D10]. constructor; rewrite ?FA; auto.
    intros i inp Hi. destruct (D4 i inp Hi) as (inp' & A1 & A2 & A3 & A4 & A5). exists inp'. repeat (split; [assumption|]).
    intros ps0 N. apply A5. intros H. apply N. apply in_or_app. auto.
  - assert (LEN : length (filter wants (p ++ [(n, ps)])) = S (length (filter wants p))) by (rewrite FA, app_length; cbn; lia).
    unfold IssInv. rewrite LEN. split; [congruence|]. split; [congruence|]. split; [congruence|]. split; [congruence|].
    split; [congruence|]. split; [congruence|].
    destruct E as [SL|(key & inp & amount & b & cv & proof & w & HK & Hi & Ha & Hb & Lb & NT & HL & Hw & HX)].
    { split; [lia|]. intros EQ. exfalso. lia. }
    cbv zeta in HX. destruct HX as [HX BI].
    assert (SL : l_success L' = S (l_success L)) by (rewrite HL; reflexivity).
    split; [lia|]. intros EQ. assert (EQ0 : l_success L = l_attempts L) by lia.
    destruct (I8 EQ0) as [D1 D2 D3 D4 D5 D6 D7 D8 D9 D10].
    set (inp' := set_issuance inp _) in *. set (w' := if ps then _ else _) in HX, BI.
    assert (Hn : (n < length (vin (s_tx s)))%nat) by (apply nth_error_Some; congruence).
    assert (Hi0 : exists inp0, nth_error (vin t) n = Some inp0).
    { destruct (nth_error (vin t) n) as [x|] eqn:X; [eauto|]. apply nth_error_None in X. lia. }
    destruct Hi0 as [inp0 Hi0]. destruct (D4 n inp0 Hi0) as (inp1 & B1 & B2 & B3 & B4 & B5).
    rewrite Hi in B1. injection B1 as <-. specialize (B5 ps NI).
    assert (Hw2 : (n < length (pad_to (S n) inwit_null (vtxinwit (wit (s_tx s)))))%nat) by (apply nth_error_Some; congruence).
    assert (OF : forall q, q <> ps -> iss_field q inp' = iss_field q inp).
    { intros q Hq. unfold inp'. destruct ps, q; try congruence; reflexivity. }
    assert (OW : forall q, q <> ps -> iss_proof q w' = iss_proof q (inwit_at (s_tx s) n)).
    { intros q Hq. assert (WW : w = inwit_at (s_tx s) n).
      { unfold inwit_at. rewrite <- (pad_to_nth (S n) inwit_null). symmetry. apply nth_error_default. exact Hw. }
      unfold w'. rewrite <- WW. destruct ps, q; try congruence; reflexivity. }
    constructor; rewrite ?LEN, ?FA, ?HX; cbn [s_tx s_draws set_inwits set_vin vin vout wit vtxoutwit].
    + congruence.
    + exact D2.
    + exact D3.
    + intros i i0 Hi1. destruct (Nat.eq_dec n i) as [<-|N].
      * rewrite Hi0 in Hi1. injection Hi1 as <-. exists inp'. rewrite upd_nth_same by exact Hn. split; [reflexivity|].
        assert (prevout inp' = prevout inp /\ is_nonce (assetIssuance inp') = is_nonce (assetIssuance inp) /\ is_entropy (assetIssuance inp') = is_entropy (assetIssuance inp)) as (G1 & G2 & G3).
        { unfold inp'. destruct ps; auto. }
        split; [congruence|]. split; [congruence|]. split; [congruence|]. intros q Hq.
        assert (q <> ps). { intros ->. apply Hq. apply in_or_app. right. left. reflexivity. }
        rewrite OF by assumption. destruct (D4 n inp0 Hi0) as (inp2 & E1 & _ & _ & _ & E5). rewrite Hi in E1. injection E1 as <-.
        apply E5. intros X. apply Hq. apply in_or_app. auto.
      * rewrite upd_nth_other by exact N. destruct (D4 i i0 Hi1) as (i1 & E1 & E2 & E3 & E4 & E5). exists i1. repeat (split; [assumption|]).
        intros q Hq. apply E5. intros X. apply Hq. apply in_or_app. auto.
    + rewrite upd_length. exact D5.
    + rewrite HL. cbn [l_blinds inc_success add_blind add_amount inc_attempts]. rewrite seq_S, map_app, app_assoc, D6. cbn [map]. rewrite <- D1. cbn [Nat.add]. rewrite Hb. reflexivity.
    + rewrite HL. cbn [l_assetblinds inc_success add_blind add_amount inc_attempts]. rewrite D7, <- app_assoc. f_equal. rewrite <- repeat_cons. reflexivity.
    + rewrite HL. cbn [l_amounts inc_success add_blind add_amount inc_attempts]. rewrite !map_app, D8, <- app_assoc. f_equal. f_equal. cbn [map]. f_equal.
      apply to_amount_explicit in Ha. destruct Ha as (d & Ed & _ & Ev). unfold issued_amount. cbn [fst snd]. rewrite Hi0, <- B5, Ed. symmetry. exact Ev.
    + intros k i q Hk. destruct (Nat.lt_ge_cases k (length (filter wants p))) as [LT|GE].
      * rewrite nth_error_app1 in Hk by exact LT. destruct (D9 k i q Hk) as (key1 & i1 & i1' & E1 & E2 & E3 & E4).
        destruct (Nat.eq_dec n i) as [<-|N].
        -- assert (Q : q <> ps). { intros ->. apply NI. apply (nth_error_In) in Hk. apply filter_In in Hk. apply Hk. }
           rewrite Hi in E3. injection E3 as <-. exists key1, i1, inp'. split; [exact E1|]. split; [exact E2|]. rewrite upd_nth_same by exact Hn. split; [reflexivity|].
           rewrite inwit_upd_same by exact Hw2. eapply BlindedIssuance_ext; [exact E4|reflexivity|reflexivity|reflexivity|reflexivity|apply OF; exact Q|apply OW; exact Q].
        -- exists key1, i1, i1'. split; [exact E1|]. split; [exact E2|]. rewrite upd_nth_other by exact N. split; [exact E3|].
           rewrite inwit_upd_other by exact N. exact E4.
      * rewrite nth_error_app2 in Hk by exact GE. destruct (k - _)%nat as [|m] eqn:KM; [|destruct m; discriminate].
        cbn in Hk. injection Hk as <- <-. exists key, inp0, inp'. split; [exact HK|]. split; [exact Hi0|]. rewrite upd_nth_same by exact Hn. split; [reflexivity|].
        rewrite inwit_upd_same by exact Hw2. replace k with (s_draws s) by lia. rewrite <- Hb.
        eapply BlindedIssuance_ext; [exact BI| | | | |reflexivity|reflexivity]; congruence.
    + intros k Hk. destruct (Nat.eq_dec k (l_attempts L)) as [->|NK]; [congruence|]. apply D10. lia.
Qed.

Lemma iss_init L0 : l_success L0 = 0%nat -> l_attempts L0 = 0%nat -> l_issattempts L0 = 0%nat -> IssInv L0 [] L0 (mkSt t 0).
Proof.
  intros A B C. unfold IssInv. cbn [filter length]. repeat (split; [congruence || lia|]). intros _. constructor; cbn [s_tx s_draws filter length seq map repeat]; auto.
  - intros i inp Hi. exists inp. auto 10.
  - rewrite app_nil_r; reflexivity.
  - rewrite app_nil_r; reflexivity.
  - rewrite app_nil_r; reflexivity.
  - intros [|k]; discriminate.
  - intros k Hk. lia.
Qed.

Lemma inputs_as_slots n L s : for_in (seq 0 n) (blind_input z rand args) L s
  = for_in (issuance_slots n) (fun x => blind_pseudo z rand args (fst x) (snd x)) L s.
Proof.
  unfold issuance_slots. rewrite flat_for. apply for_ext. intros i st s1. cbn [for_in fst snd]. unfold blind_input.
  apply mbind_ext. intros st2 s2 _. unfold mbind. destruct (blind_pseudo z rand args i true st2 s2) as [[a|r|e] s3]; reflexivity.
Qed.

Lemma issuances_phase L0 o s' : l_success L0 = 0%nat -> l_attempts L0 = 0%nat -> l_issattempts L0 = 0%nat ->
  for_in (seq 0 (length (vin t))) (blind_input z rand args) L0 (mkSt t 0) = (o, s') ->
  match o with
  | Val L => IssInv L0 (issuance_slots (length (vin t))) L s'
  | Ret r => exists L1, r = blinding_result args L1 /\ (l_success L1 < length (issuance_tasks args t))%nat
               /\ l_toblind L1 = l_toblind L0 /\ (l_toblind L0 <= length (issuance_tasks args t))%nat /\ (l_success L1 < l_toblind L0)%nat
  | Exc _ => True
  end.
Proof.
  intros A B C E. rewrite inputs_as_slots in E. apply (for_in_inv (IssInv L0)) in E.
  - destruct o as [L|r|e]; [exact E| |exact I]. destruct E as (p & [n ps] & r0 & L & s1 & HS & (I1 & I2 & I3 & I4 & I5 & I6 & I7 & I8) & E).
    cbn [fst snd] in E. apply pseudo_Ret_inv in E. destruct E as (W & L1 & -> & E1 & E2 & E3). exists L1.
    assert (LT : (length (filter wants p) < length (issuance_tasks args t))%nat).
    { unfold issuance_tasks. rewrite HS, filter_app, app_length. cbn [filter]. rewrite W. cbn [length]. lia. }
    split; [reflexivity|]. split; [lia|]. split; [congruence|]. lia.
  - intros p [n ps] r L s L' s1 HS HI EB. cbn [fst snd] in EB. exact (iss_step L0 p n ps r L s L' s1 HS HI EB).
  - apply iss_init; assumption.
Qed.
End S.
