(** What a complete blinding leaves behind. *)
From Verif Require Import Base BaseFacts Serialize TxModel IssuanceModel ScriptModel MiscModel BlindModel BlindFacts SpecBlind BlindFrame BlindFails BlindSteps BlindTargets BlindCount BlindMain BlindOuts.
From Coq Require Import Lia.
Local Open Scope Z_scope.

Lemma output_tasks_outs args : output_tasks args = outs_to args (length (a_pubkeys args)).
Proof. reflexivity. Qed.
Lemma outs_app args m n : (m <= n)%nat -> exists r, outs_to args n = outs_to args m ++ r.
Proof.
  intros H. unfold outs_to. replace n with (m + (n - m))%nat by lia. rewrite seq_app, filter_app. eauto.
Qed.
Lemma outs_firstn args n : (n <= length (a_pubkeys args))%nat -> length (outs_to args n) = length (filter is_nonempty (firstn n (a_pubkeys args))).
Proof.
  induction n as [|n IH]; intros H; [reflexivity|]. rewrite outs_S, app_length, IH by lia.
  destruct (nth_error (a_pubkeys args) n) as [pub|] eqn:E; [|apply nth_error_None in E; lia].
  rewrite (firstn_S_nth _ _ _ E), filter_app, app_length. rewrite (wants_nonempty _ _ _ E). cbn [filter]. destruct (is_nonempty pub); reflexivity.
Qed.
Lemma outs_count args : length (output_tasks args) = length (filter is_nonempty (a_pubkeys args)).
Proof. rewrite output_tasks_outs, outs_firstn, firstn_all by lia. reflexivity. Qed.

Lemma filter_weaker {A} (f g : A -> bool) l : (forall x, In x l -> g x = true -> f x = true) -> (forall x, f x = true -> g x = true) -> filter f l = filter g l.
Proof.
  intros H1 H2. induction l as [|x l IH]; cbn; [reflexivity|]. rewrite IH by (intros; apply H1; [right|]; assumption).
  destruct (f x) eqn:F; [rewrite (H2 _ F); reflexivity|]. destruct (g x) eqn:G; [|reflexivity]. rewrite (H1 x) in F by (auto; left; reflexivity). discriminate.
Qed.

Section M.
Variables (z : Crypto) (rand : nat -> bytes) (args : blind_args) (t : tx).
Notation tasks := (issuance_tasks args t).
Notation K := (length tasks).

Lemma explicit_counted i ps inp u : wants_issuance args (i, ps) = true -> nth_error (vin t) i = Some inp -> ExplicitValue (iss_field ps inp) u -> counted args t (i, ps) = true.
Proof.
  intros W Hi (d & Ed & _). unfold counted. cbn [fst]. rewrite W, Hi. cbn [andb]. apply negb_true_iff. unfold issuance_is_null. apply andb_false_iff.
  unfold iss_field in Ed. destruct ps; [right|left]; rewrite Ed; reflexivity.
Qed.

Lemma AllBlinded_of L0 La L s1 s2 m targets :
  IssDone z rand args t (issuance_slots (length (vin t))) L0 La s1 ->
  OutDone z rand args t (set_outwits (s_tx s1) (pad_to (length (vout (s_tx s1))) outwit_null (vtxoutwit (wit (s_tx s1))))) targets La K m L s2 ->
  l_toblind La = (K + length (output_tasks args))%nat ->
  AllBlinded z rand args t targets (outs_to args m) (s_tx s2) (map or_zero (l_bfs L)) (map or_zero (l_abfs L)).
Proof.
  intros [A1 A2 A3 A4 A5 A6 A7 A8 A9 A10] [D1 D2 D3 DW D4 D5 D6 D7 D8 D9 D10 D11] HT.
  cbn [set_outwits vin wit vtxinwit vtxoutwit] in D2, D3, DW.
  constructor.
  - rewrite DW, pad_to_length, A2. apply Nat.le_max_l.
  - rewrite map_length. exact D5.
  - rewrite map_length. exact D6.
  - intros k i ps Hk. destruct (A9 k i ps Hk) as (key & inp & inp' & E1 & E2 & E3 & E4). exists key, inp, inp'. rewrite D2. repeat (split; [assumption|]).
    unfold inwit_at in *. rewrite D3. exact E4.
  - intros k j Hk. destruct (D11 k j Hk) as (bf & o & o' & E1 & E2 & E3 & E4 & E5 & E6 & E7). exists bf, (rand (K + 4 * k + 1)), o, o'.
    rewrite !nth_error_map, E1, E2. cbn [option_map or_zero]. split; [reflexivity|]. split; [reflexivity|]. split; [exact E3|]. split; [exact E4|].
    split; [reflexivity|]. split; [intros N; apply E5; lia|exact E7].
  - intros j Hj N. destruct (D7 j Hj N) as [E1 E2]. rewrite !nth_error_map, E1, E2. cbn [option_map or_zero]. auto.
Qed.

Lemma SumIs_Final L0 La L s1 m j r : 
  IssDone z rand args t (issuance_slots (length (vin t))) L0 La s1 ->
  l_blindsin La = length (blinded_inputs args) -> l_blinds L0 = map d_bf (blinded_inputs args) -> l_assetblinds L0 = map d_abf (blinded_inputs args) ->
  l_amounts L0 = map d_amount (blinded_inputs args) -> length (l_bfs L) = length (vout t) -> length (l_abfs L) = length (vout t) ->
  (forall i, In i m -> (i < length (vout t))%nat) ->
  SumIs z rand t La K L m j r -> FinalSum z rand args t m j (map or_zero (l_bfs L)) (map or_zero (l_abfs L)) r.
Proof.
  intros [A1 A2 A3 A4 A5 A6 A7 A8 A9 A10] H1 H2 H3 H4 H5 H6 HI HS. unfold SumIs in HS. unfold FinalSum.
  rewrite A6, A7, A8, H1, H2, H3, H4, map_map in HS.
  rewrite <- !app_assoc in HS.
  replace (length (blinded_inputs args) + K + length m + 1)%nat with (S (K + length m) + length (blinded_inputs args))%nat by lia.
  replace (length (blinded_inputs args) + K)%nat with (K + length (blinded_inputs args))%nat by lia.
  rewrite <- HS. f_equal.
  - f_equal. f_equal. f_equal. apply map_ext_in. intros i Hi. unfold abfat. apply nth_error_default. rewrite nth_error_map, (nth_of_error (l_abfs L) i).
    destruct (nth_error (l_abfs L) i) eqn:E; [reflexivity|]. apply nth_error_None in E. specialize (HI i Hi). lia.
  - f_equal. f_equal. f_equal. apply map_ext_in. intros i Hi. unfold bfat. apply nth_error_default. rewrite nth_error_map, (nth_of_error (l_bfs L) i).
    destruct (nth_error (l_bfs L) i) eqn:E; [reflexivity|]. apply nth_error_None in E. specialize (HI i Hi). lia.
Qed.

(** What the two counting passes establish. *)
Record Counted (L0 : Loc) : Prop := {
  ct_toblind : l_toblind L0 = (length (filter (counted args t) (issuance_slots (length (vin t)))) + length (output_tasks args))%nat;
  ct_success : l_success L0 = 0%nat; ct_attempts : l_attempts L0 = 0%nat; ct_issattempts : l_issattempts L0 = 0%nat;
  ct_blindsin : l_blindsin L0 = length (blinded_inputs args);
  ct_blinds : l_blinds L0 = map d_bf (blinded_inputs args);
  ct_ablinds : l_assetblinds L0 = map d_abf (blinded_inputs args);
  ct_amounts : l_amounts L0 = map d_amount (blinded_inputs args);
  ct_bfs : l_bfs L0 = repeat None (length (vout t)); ct_abfs : l_abfs L0 = repeat None (length (vout t));
  ct_pos : Forall (fun d => 0 <= d_amount d) (blinded_inputs args);
  ct_iss : forall i ps inp, nth_error (vin t) i = Some inp -> wants_issuance args (i, ps) = true -> issuance_is_null (assetIssuance inp) = false ->
     conf_is_explicit CConfValue (iss_field ps inp) = true /\ proof_in_place (vtxinwit (wit t)) i (iss_proof ps) = false;
  ct_outs : forall j pub, nth_error (a_pubkeys args) j = Some pub -> is_nonempty pub = true -> out_ok z t j pub
}.
Lemma looks_Counted o s' : blind_looks z args (blind_acts z rand args) (mkSt t 0) = (o, s') ->
  (exists targets L, blind_acts z rand args (map tg_tag targets) (map tg_gen targets) (map tg_blind targets) L (mkSt t 0) = (o, s')
     /\ SurjectionTargets z args t targets /\ ~ bad_arguments args t /\ Counted L)
  \/ s' = mkSt t 0 /\ match o with Val _ => False | Ret r => exists f, r = BFailure f | Exc _ => True end.
Proof.
  intros E. apply looks_cases in E. destruct E as [(tags & gens & blinders & L & E & ET & EC & L0 & E1 & E2)|E]; [left|right; exact E].
  apply targets_Val in ET. destruct ET as (_ & _ & targets & HT & -> & -> & ->).
  assert (NB : ~ bad_arguments args t).
  { destruct (check_cases args (mkSt t 0)) as [[_ X]|[X _]]; [congruence|exact X]. }
  exists targets, L. split; [exact E|]. split; [exact HT|]. split; [exact NB|].
  apply count_inputs_Val in E1. destruct E1 as [_ CI]. apply count_outputs_Val in E2. destruct E2 as (_ & -> & CO). cbn [s_tx] in CI, CO.
  assert (LD : length (a_descs args) = length (vin t)).
  { destruct (Nat.eq_dec (length (a_descs args)) (length (vin t))) as [|N]; [assumption|]. exfalso. apply NB. unfold bad_arguments. auto. }
  unfold cnt_inv in CI. cbv zeta in CI. rewrite <- LD, firstn_all, LD in CI. change (filter has_factor (a_descs args)) with (blinded_inputs args) in CI.
  destruct CI as (H1 & H2 & H3 & H4 & H5 & H6 & H7 & H8 & H9 & H10 & H11 & H12).
  constructor; cbn [add_toblind l_toblind l_success l_attempts l_issattempts l_blindsin l_blinds l_assetblinds l_amounts l_bfs l_abfs]; auto.
  - rewrite H1, outs_count. reflexivity.
  - intros i ps inp Hi. apply H12; [apply nth_error_Some; congruence|exact Hi].
Qed.

Lemma result_inv L n bfs abfs : BSuccess n bfs abfs = blinding_result args L ->
  n = l_success L /\ bfs = map or_zero (l_bfs L) /\ abfs = map or_zero (l_abfs L) /\ (a_strict args = true -> l_success L = l_toblind L).
Proof.
  unfold blinding_result. destruct (a_strict args); cbn [andb]; [destruct (Nat.eqb_spec (l_success L) (l_toblind L)) as [EQ|]; cbn [negb]; [|discriminate]|];
    intros E; injection E as -> -> ->; auto.
  repeat split; try discriminate.
Qed.

Lemma counted_le L0 : Counted L0 -> (l_toblind L0 <= K + length (output_tasks args))%nat.
Proof.
  intros C. rewrite (ct_toblind _ C). unfold issuance_tasks.
  assert (H : forall l, (length (filter (counted args t) l) <= length (filter (wants_issuance args) l))%nat); [|specialize (H (issuance_slots (length (vin t)))); lia].
  induction l as [|x l IH]; cbn [filter length]; [lia|]. unfold counted at 1. destruct (wants_issuance args x); cbn [andb]; [|exact IH].
  destruct (match nth_error (vin t) (fst x) with Some _ => _ | None => _ end); cbn [length]; lia.
Qed.
Lemma counted_eq L0 : Counted L0 -> (forall i ps, In (i, ps) tasks -> counted args t (i, ps) = true) -> l_toblind L0 = (K + length (output_tasks args))%nat.
Proof.
  intros C H. rewrite (ct_toblind _ C). f_equal. unfold issuance_tasks. f_equal. apply filter_weaker.
  - intros [i ps] Hx W. apply H. apply filter_In. auto.
  - intros x Hx. unfold counted in Hx. apply andb_prop in Hx. apply Hx.
Qed.

Lemma acts_success targets L0 o s' n bfs abfs : Counted L0 ->
  blind_acts z rand args (map tg_tag targets) (map tg_gen targets) (map tg_blind targets) L0 (mkSt t 0) = (o, s') ->
  o = Val (BSuccess n bfs abfs) \/ o = Ret (BSuccess n bfs abfs) ->
  (a_strict args = true -> n = l_toblind L0)
  /\ (n <= K + length (output_tasks args))%nat
  /\ (n = (K + length (output_tasks args))%nat ->
      Complete z rand args t targets (s_tx s') bfs abfs /\ s_draws s' = (K + 4 * length (output_tasks args))%nat
      \/ NullFinal z rand args t targets (s_tx s') bfs abfs /\ (s_draws s' + 2 = K + 4 * length (output_tasks args))%nat).
Proof.
  intros C E HO. unfold blind_acts in E. unfold mbind at 1 in E. cbn [get_tx s_tx] in E.
  unfold mbind at 1 in E. destruct (for_in (seq 0 (length (vin t))) (blind_input z rand args) L0 (mkSt t 0)) as [oi s1] eqn:EI.
  apply issuances_phase in EI; [|apply C..].
  destruct oi as [La|r|e].
  2: { injection E as E1 E2. destruct EI as (L1 & -> & A & B & D & F). destruct HO as [HO|HO]; [congruence|].
       rewrite HO in E1. injection E1 as E1. symmetry in E1. apply result_inv in E1. destruct E1 as (-> & -> & -> & ST).
       split; [intros X; specialize (ST X); lia|]. split; [lia|]. intros X. exfalso. lia. }
  2: { destruct HO; congruence. }
  destruct EI as (I1 & I2 & I3 & I4 & I5 & I6 & I7 & I8). fold tasks in I5, I6. change (filter (wants_issuance args) (issuance_slots (length (vin t)))) with tasks in I5, I6.
  unfold mbind at 1 in E. cbn [get_tx] in E. unfold mbind at 1 in E. cbn [put_tx] in E. unfold mbind at 1 in E.
  set (t1 := set_outwits (s_tx s1) _) in E.
  destruct (Nat.eq_dec (l_success La) K) as [FULL|NFULL].
  - (* all issuances done *)
    assert (ID := I8 ltac:(lia)). assert (IDc := ID). destruct IDc as [A1 A2 A3 A4 A5 A6 A7 A8 A9 A10].
    assert (CE : forall i ps, In (i, ps) tasks -> counted args t (i, ps) = true).
    { intros i ps H. apply In_nth_error in H. destruct H as [k Hk]. assert (W := nth_error_In _ _ Hk). apply filter_In in W. destruct W as [_ W].
      destruct (A9 k i ps Hk) as (key & inp & inp' & _ & Hi & _ & u & _ & _ & _ & _ & EV & _). exact (explicit_counted _ _ _ _ W Hi EV). }
    assert (TT := counted_eq _ C CE).
    assert (PV : forall j pub, nth_error (a_pubkeys args) j = Some pub -> is_nonempty pub = true -> is_fullyvalid z pub = true).
    { intros j pub Hj Hne. apply (ct_outs _ C j pub Hj Hne). }
    assert (V1 : vout t1 = vout t) by (unfold t1; cbn [set_outwits vout]; exact A2).
    destruct (for_in (combine _ _) _ La _) as [oo s2] eqn:EO.
    apply (outputs_phase z rand args t t1 targets La K PV) in EO.
    2: { apply out_init; auto; try lia.
         - rewrite I3. apply C.
         - rewrite I4. apply C. }
    destruct oo as [L|r|e]; [| |destruct HO; congruence].
    + (* loop completed *)
      injection E as E1 E2. subst s2. destruct HO as [HO|HO]; [|congruence]. rewrite HO in E1. injection E1 as E1. symmetry in E1.
      apply result_inv in E1. destruct E1 as (-> & -> & -> & ST).
      destruct EO as (O1 & O2 & O3 & O4 & O5 & O6). rewrite <- output_tasks_outs in O4.
      split; [intros X; specialize (ST X); congruence|]. split; [lia|]. intros EQ.
      assert (OD := O6 ltac:(lia)). left. split; [split; [|split]|].
      4: { rewrite output_tasks_outs. destruct OD; assumption. }
      * rewrite output_tasks_outs. eapply AllBlinded_of; [exact ID|exact OD|congruence].
      * intros NO. destruct tasks as [|x l] eqn:TK; [reflexivity|]. exfalso. rewrite NO in TT. cbn [length] in TT.
        apply (A10 (length l)); [|cbn [length] in TT; lia]. change (filter (wants_issuance args) (issuance_slots (length (vin t)))) with tasks. rewrite TK. cbn [length]. lia.
      * intros pre j HP. destruct OD as [D1 D2 D3 DW D4 D5 D6 D7 D8 D9 D10 D11]. rewrite <- output_tasks_outs in D11.
        assert (Hj : nth_error (output_tasks args) (length pre) = Some j) by (rewrite HP; rewrite nth_error_app2, Nat.sub_diag by lia; reflexivity).
        destruct (D11 _ _ Hj) as (bf & o1 & o1' & E1 & E2 & E3 & E4 & E5 & E6 & E7).
        assert (LP : length (output_tasks args) = S (length pre)) by (rewrite HP, app_length; cbn; lia).
        destruct E6 as [NZ SI]; [lia|]. exists bf. rewrite nth_error_map, E1. cbn [option_map or_zero]. split; [reflexivity|]. split; [exact NZ|].
        assert (FP : firstn (length pre) (output_tasks args) = pre) by (rewrite HP, firstn_app, Nat.sub_diag, firstn_all; cbn; apply app_nil_r).
        rewrite FP in SI. eapply SumIs_Final; [exact ID| | | | | | | |exact SI]; try (apply C); try congruence.
        -- rewrite I2. apply C.
        -- intros i Hi. assert (X : In i (output_tasks args)) by (rewrite HP; apply in_or_app; auto).
           apply In_nth_error in X. destruct X as [k Hk]. destruct (D11 _ _ Hk) as (b1 & o2 & _ & _ & _ & X & _). apply nth_error_Some. congruence.
    + (* early return *)
      injection E as E1 E2. subst s2. destruct HO as [HO|HO]; [congruence|]. rewrite HO in E1. injection E1 as E1.
      destruct EO as (m & pub & L & s3 & HP & OI & EB). assert (SD : s_draws s' = S (S (s_draws s3))) by (apply output_Ret_inv in EB; destruct EB as (_ & -> & _); reflexivity).
      apply (out_null z rand args t t1 targets La K) in EB; [|exact PV|exact HP|exact OI].
      destruct EB as (L1 & ER & OS & ET & T1 & B1 & B2 & EB). rewrite ER in E1. symmetry in E1.
      apply result_inv in E1. destruct E1 as (-> & -> & -> & ST).
      destruct OI as (O1 & O2 & O3 & O4 & O5 & _).
      assert (HM : (m < length (a_pubkeys args))%nat) by (apply nth_error_Some; congruence).
      destruct (outs_app args (S m) (length (a_pubkeys args)) HM) as [rest HR]. rewrite <- output_tasks_outs, OS in HR.
      assert (LR : length (output_tasks args) = (S (length (outs_to args m)) + length rest)%nat) by (rewrite HR, !app_length; cbn; lia).
      split; [intros X; specialize (ST X); congruence|].
      assert (LE : (l_success L1 <= K + length (output_tasks args))%nat) by (destruct EB as [EB|(EB & _)]; lia).
      split; [exact LE|]. intros EQ. destruct EB as [EB|(EB & ES & EB2)]; [exfalso; lia|].
      destruct EB2 as (OD & SI & Hm); [lia|]. right. split; [|assert (DD : s_draws s3 = (K + 4 * length (outs_to args m))%nat) by (destruct OD; assumption); lia].
      assert (rest = []) by (destruct rest; [reflexivity|cbn [length] in LR; lia]). subst rest. rewrite app_nil_r in HR.
      exists (outs_to args m), m. split; [exact HR|]. rewrite B1, B2, ES. split.
      * eapply AllBlinded_of; [exact ID|exact OD|congruence].
      * destruct OD as [D1 D2 D3 DW D4 D5 D6 D7 D8 D9 D10 D11]. eapply SumIs_Final; [exact ID| | | | | | | |exact SI]; try (apply C); try congruence.
        -- rewrite I2. apply C.
        -- intros i Hi. apply In_nth_error in Hi. destruct Hi as [k Hk]. destruct (D11 _ _ Hk) as (b1 & o2 & _ & _ & _ & X & _). apply nth_error_Some. congruence.
  - (* some issuance was skipped: only the counters matter *)
    destruct (for_in (combine _ _) _ La _) as [oo s2] eqn:EO.
    assert (PV : forall j pub, nth_error (a_pubkeys args) j = Some pub -> is_nonempty pub = true -> is_fullyvalid z pub = true).
    { intros j pub Hj Hne. apply (ct_outs _ C j pub Hj Hne). }
    apply (for_in_inv (fun p L s => l_toblind L = l_toblind La /\ (l_success L < K + length (outs_to args (length p)))%nat)) in EO.
    + destruct oo as [L|r|e]; [| |destruct HO; congruence].
      * injection E as E1 E2. destruct HO as [HO|HO]; [|congruence]. rewrite HO in E1. injection E1 as E1. symmetry in E1.
        apply result_inv in E1. destruct E1 as (-> & -> & -> & ST). rewrite enum_length, <- output_tasks_outs in EO. destruct EO as [EO1 EO2].
        split; [intros X; specialize (ST X); congruence|]. split; [lia|]. intros X. exfalso. lia.
      * injection E as E1 E2. destruct HO as [HO|HO]; [congruence|]. rewrite HO in E1. injection E1 as E1.
        destruct EO as (p & [i pub] & r0 & L & s3 & HS & (Q1 & Q2) & EB).
        apply enum_split in HS. destruct HS as (-> & HP & _). cbn [Nat.add] in EB.
        apply output_Ret_inv in EB. destruct EB as (FV & _ & EQ & o2 & amount & L1 & _ & _ & ER & T1 & _ & _ & EB).
        rewrite ER in E1. symmetry in E1. apply result_inv in E1. destruct E1 as (-> & -> & -> & ST).
        assert (HM : (length p < length (a_pubkeys args))%nat) by (apply nth_error_Some; congruence).
        destruct (outs_app args (S (length p)) (length (a_pubkeys args)) HM) as [rest HR]. rewrite <- output_tasks_outs, outs_S, (wants_nonempty _ _ _ HP) in HR.
        unfold is_fullyvalid in FV. apply andb_prop in FV. destruct FV as [FV _]. rewrite FV in HR.
        assert (LR : length (output_tasks args) = (S (length (outs_to args (length p))) + length rest)%nat) by (rewrite HR, !app_length; cbn; lia).
        split; [intros X; specialize (ST X); congruence|].
        assert (LE : (l_success L1 < K + length (output_tasks args))%nat) by (destruct EB as [(EB & _)|(EB & _)]; lia).
        split; [lia|]. intros X. exfalso. lia.
    + intros p [i pub] r L s0 L' s3 HS (Q1 & Q2) EB. apply enum_split in HS. destruct HS as (-> & HP & _). cbn [Nat.add] in EB.
      rewrite app_length, Nat.add_1_r. apply output_Val in EB.
      destruct EB as [(_ & -> & _)|(FV & (C1 & C2 & C3 & C4) & EB)].
      * split; [exact Q1|]. rewrite outs_S, app_length. lia.
      * split; [congruence|]. rewrite outs_S, (wants_nonempty _ _ _ HP), app_length. unfold is_fullyvalid in FV. apply andb_prop in FV. destruct FV as [-> _].
        cbn [length]. destruct EB as [EB|(o2 & am & b & ab & o2' & w' & _ & _ & _ & _ & _ & _ & -> & _)]; [lia|]. cbn [inc_success set_factors add_blind add_amount inc_attempts l_success]. lia.
    + cbn [length]. split; [reflexivity|]. lia.
Qed.

Theorem blind_success n bfs abfs s : blind_transaction z rand args t = (Ret (BSuccess n bfs abfs), s) ->
  (n <= K + length (output_tasks args))%nat
  /\ (a_strict args = true -> ~ stray_key args t -> n = (K + length (output_tasks args))%nat)
  /\ (n = (K + length (output_tasks args))%nat ->
      exists targets, SurjectionTargets z args t targets
        /\ (Complete z rand args t targets (s_tx s) bfs abfs \/ NullFinal z rand args t targets (s_tx s) bfs abfs)).
Proof.
  unfold blind_transaction. rewrite body_split. destruct (blind_looks z args (blind_acts z rand args) (mkSt t 0)) as [o s1] eqn:E. intros H.
  assert (HO : (o = Val (BSuccess n bfs abfs) \/ o = Ret (BSuccess n bfs abfs)) /\ s1 = s).
  { destruct o as [r|r|e]; try discriminate; injection H as H1 H2; subst; auto. }
  destruct HO as [HO ->]. clear H.
  assert (Q := E). apply looks_Counted in E. destruct E as [(targets & L & E & ST & NB & C)|E].
  - destruct (acts_success targets L o s n bfs abfs C E HO) as (R1 & R2 & R3). split; [exact R2|]. split.
    + intros S NS. rewrite (R1 S). apply (counted_eq _ C). intros i ps Hin. 
      assert (W := Hin). apply filter_In in W. destruct W as [Sl W]. apply slots_In in Sl.
      destruct (nth_error (vin t) i) as [inp|] eqn:Ei; [|apply nth_error_None in Ei; lia].
      unfold counted. cbn [fst]. rewrite W, Ei. cbn [andb]. apply negb_true_iff.
      destruct (issuance_is_null (assetIssuance inp)) eqn:IN; [|reflexivity]. exfalso. apply NS.
      apply issuance_null in IN. destruct IN as [N1 N2]. exists i, ps, inp. auto.
    + intros EQ. exists targets. split; [exact ST|]. destruct (R3 EQ) as [[R _]|[R _]]; auto.
  - exfalso. destruct E as [_ E]. destruct HO as [-> | ->]; [exact E|]. destruct E as [f E]. discriminate.
Qed.
(** ... and the number of draws. *)
Theorem blind_success_draws n bfs abfs s : blind_transaction z rand args t = (Ret (BSuccess n bfs abfs), s) -> n = (K + length (output_tasks args))%nat ->
  exists targets, Complete z rand args t targets (s_tx s) bfs abfs /\ s_draws s = (K + 4 * length (output_tasks args))%nat
    \/ NullFinal z rand args t targets (s_tx s) bfs abfs /\ (s_draws s + 2 = K + 4 * length (output_tasks args))%nat.
Proof.
  unfold blind_transaction. rewrite body_split. destruct (blind_looks z args (blind_acts z rand args) (mkSt t 0)) as [o s1] eqn:E. intros H EQ.
  assert (HO : (o = Val (BSuccess n bfs abfs) \/ o = Ret (BSuccess n bfs abfs)) /\ s1 = s).
  { destruct o as [r|r|e]; try discriminate; injection H as H1 H2; subst; auto. }
  destruct HO as [HO ->]. clear H. apply looks_Counted in E. destruct E as [(targets & L & E & ST & NB & C)|E].
  - destruct (acts_success targets L o s n bfs abfs C E HO) as (R1 & R2 & R3). exists targets. exact (R3 EQ).
  - exfalso. destruct E as [_ E]. destruct HO as [-> | ->]; [exact E|]. destruct E as [f E]. discriminate.
Qed.
End M.
