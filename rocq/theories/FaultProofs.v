(** blind() refuses for the first fault. *)
From Verif Require Import Base BaseFacts TxModel IssuanceModel MiscModel BlindModel BlindFacts SpecBlind BlindTargets BlindFrame BlindFails BlindCount SpecFault PropCodec.
From Coq Require Import Lia.
Local Open Scope Z_scope.

Lemma expl_value x : conf_is_explicit CConfValue x = true <-> exists u, ExplicitValue x u.
Proof.
  unfold conf_is_explicit. rewrite andb_true_iff, Z.eqb_eq. split.
  - intros [E1 E2]. destruct x as [|p d]; [discriminate|]. rewrite blen_cons in E1. unfold blen in E1. exists (be_val d), d. destruct p; try discriminate E2. split; [reflexivity|]. split; [change (explicitSize CConfValue) with 9 in E1; lia|reflexivity].
  - intros (u & d & -> & L & _). rewrite blen_cons. unfold blen. rewrite L. split; reflexivity.
Qed.
Lemma expl_asset x : conf_is_explicit CConfAsset x = true <-> exists a, ExplicitAsset x a.
Proof.
  unfold conf_is_explicit. rewrite andb_true_iff, Z.eqb_eq. split.
  - intros [E1 E2]. destruct x as [|p d]; [discriminate|]. rewrite blen_cons in E1. unfold blen in E1. exists d. destruct p; try discriminate E2. split; [reflexivity|change (explicitSize CConfAsset) with 33 in E1; lia].
  - intros (a & -> & L). rewrite blen_cons. unfold blen. rewrite L. split; reflexivity.
Qed.
Lemma comm_value x : conf_is_commitment CConfValue x = true <-> Committed x.
Proof.
  unfold conf_is_commitment. rewrite andb_true_iff, Z.eqb_eq. split.
  - intros [E1 E2]. destruct x as [|p d]; [discriminate|]. rewrite blen_cons in E1. unfold blen in E1. exists p, d. split; [reflexivity|]. change committedSize with 33 in E1. split; [|lia]. destruct p; try discriminate E2; auto.
  - intros (b & d & -> & B & L). rewrite blen_cons. unfold blen. rewrite L. split; [reflexivity|]. destruct B as [-> | ->]; reflexivity.
Qed.
Lemma fee_iff o : txout_is_fee o = true <-> Fee o.
Proof.
  rewrite C60_is_fee. unfold Fee, ExplicitValue, ExplicitAsset. split; intros (S & (d & E & L) & (a & E' & L')); split; try exact S; split; eauto.
  destruct L as (E1 & L & _). eauto.
Qed.
Lemma not_true b (P : Prop) : (b = true <-> P) -> b = false <-> ~ P.
Proof. destruct b; intros [H1 H2]; split; intros X; try discriminate; try reflexivity; [exfalso; auto|]. intros Y. specialize (H2 Y). discriminate. Qed.
Lemma blen0 (x : bytes) : negb (blen x =? 0) = true <-> x <> [].
Proof. rewrite negb_true_iff, Z.eqb_neq. destruct x; [split; intros X; [exfalso; apply X; reflexivity|congruence]|]. rewrite blen_cons. split; [discriminate|]. intros _. pose proof (blen_nonneg x). lia. Qed.
Lemma u256_null x : uint256_is_null x = true <-> x = zeros 32.
Proof. unfold uint256_is_null. apply bytes_eqb_eq. Qed.
Lemma issuance_there inp : issuance_is_null (assetIssuance inp) = false <-> is_amount (assetIssuance inp) <> [] \/ is_keys (assetIssuance inp) <> [].
Proof.
  unfold issuance_is_null, conf_is_null. rewrite andb_false_iff.
  assert (X : forall x : bytes, (blen x =? 0) = false <-> x <> []) by (intros x; rewrite <- blen0, negb_true_iff; reflexivity). rewrite !X. reflexivity.
Qed.

(** A loop whose body changes no state, and stops at the first item that returns. *)
Lemma for_stop {A L} (l : list A) (body : A -> L -> M L) st s o s' : (forall x st, keeps (body x st)) -> for_in l body st s = (o, s') ->
  s' = s /\ match o with
  | Val _ => forall x, In x l -> exists st1 st2, body x st1 s = (Val st2, s)
  | Ret r => exists l1 x l2 st1, l = l1 ++ x :: l2 /\ body x st1 s = (Ret r, s) /\ forall y, In y l1 -> exists st1 st2, body y st1 s = (Val st2, s)
  | Exc _ => True
  end.
Proof.
  intros K. revert st. induction l as [|x l IH]; intros st E; cbn [for_in] in E.
  - injection E as <- <-. split; [reflexivity|]. intros x [].
  - unfold mbind in E. destruct (body x st s) as [[st1|r|e] s1] eqn:EB; assert (s1 = s) by (exact (keeps_eq _ _ _ _ (K x st) EB)); subst s1.
    + apply IH in E. destruct E as [-> E]. split; [reflexivity|]. destruct o as [a|r|e].
      * intros y [<-|IN]; [eauto|apply E; exact IN].
      * destruct E as (l1 & y & l2 & st2 & -> & EY & F). exists (x :: l1), y, l2, st2. split; [reflexivity|]. split; [exact EY|]. intros w [<-|IN]; [eauto|apply F; exact IN].
      * exact I.
    + injection E as <- <-. split; [reflexivity|]. exists [], x, l, st. split; [reflexivity|]. split; [exact EB|]. intros y [].
    + injection E as <- <-. split; [reflexivity|exact I].
Qed.

Section F.
Variables (z : Crypto) (args : blind_args).
Notation FaultAt := (FaultAt z args).
Definition Clean (t : tx) (p i : nat) : Prop := forall k f, ~ FaultAt t p i k f.
Definition Stops (t : tx) (p i : nat) (r : blind_ret) : Prop := exists k f, r = BFailure f /\ FaultAt t p i k f /\ forall k' f', FaultAt t p i k' f' -> (k <= k')%nat.

Lemma add_target_noret T a b c s r s' : add_target T a b c s <> (Ret r, s').
Proof. unfold add_target. intros E. apply bind_Ret in E. destruct E as [E|(x & s1 & _ & E)]; [exact (lift_Ret _ _ _ _ E)|]. apply bind_Ret in E. destruct E as [E|(y & s2 & _ & E)]; [exact (lift_Ret _ _ _ _ E)|]. discriminate. Qed.

Lemma targets_input_ends i T s inp o s' : nth_error (vin (s_tx s)) i = Some inp -> targets_input z args i T s = (o, s') ->
  match o with Val _ => Clean (s_tx s) 0 i | Ret r => Stops (s_tx s) 0 i r | Exc _ => True end.
Proof.
  intros EI E. assert (LT : (i < length (vin (s_tx s)))%nat) by (apply nth_error_Some; congruence).
  destruct o as [v|r|e]; [| |exact I]; unfold targets_input in E.
  - apply bind_Val in E. destruct E as (d & s1 & E1 & E). apply lift_Val in E1. destruct E1 as [Ed ->]. apply nth_res_Ok in Ed.
    apply bind_Val in E. destruct E as (g & s1 & E1 & E).
    assert (Q : s1 = s /\ forall f, ~ FaultAt (s_tx s) 0 i 0 f).
    { destruct (uint256_is_null (d_asset d)) eqn:ND.
      - destruct (a_aux args) as [|a0 al] eqn:EA; [discriminate E1|]. rewrite <- EA in E1. apply bind_Val in E1. destruct E1 as (ag & s2 & E2 & E1). apply lift_Val in E2. destruct E2 as [Eg ->]. apply nth_res_Ok in Eg.
        destruct (gen_parse z ag) eqn:EG; [|discriminate E1]. apply mret_Val in E1. destruct E1 as [_ ->]. split; [reflexivity|]. intros f F. inversion F; subst; congruence.
      - apply lib_Val in E1. destruct E1 as [_ ->]. split; [reflexivity|]. assert (ND' : d_asset d <> zeros 32) by (intros X; apply u256_null in X; congruence). intros f F. inversion F; subst; congruence. }
    destruct Q as [-> Q0]. clear E1. apply bind_Val in E. destruct E as (T1 & s1 & E1 & E). assert (s1 = s) by (exact (keeps_eq _ _ _ _ (keeps_add_target _ _ _ _) E1)). subst s1. clear E1.
    apply bind_Val in E. destruct E as (t & s1 & E1 & E). apply get_Val in E1. destruct E1 as [-> ->].
    apply bind_Val in E. destruct E as (inp0 & s1 & E1 & E). apply lift_Val in E1. destruct E1 as [E1 ->]. apply nth_res_Ok in E1. assert (inp0 = inp) by congruence. subst inp0. clear E1. cbv zeta in E.
    assert (Q12 : ~ Committed (is_amount (assetIssuance inp)) /\ ~ Committed (is_keys (assetIssuance inp))).
    { destruct (issuance_is_null (assetIssuance inp)) eqn:IN.
      - apply issuance_null in IN. destruct IN as [-> ->]. split; intros (b & x & X & _); discriminate X.
      - destruct (conf_is_commitment CConfValue (is_amount (assetIssuance inp))) eqn:C1; [discriminate E|]. destruct (conf_is_commitment CConfValue (is_keys (assetIssuance inp))) eqn:C2; [discriminate E|].
        split; [exact (proj1 (not_true _ _ (comm_value _)) C1)|exact (proj1 (not_true _ _ (comm_value _)) C2)]. }
    intros k f F. assert (F' := F). inversion F; subst; try (exact (Q0 _ F')).
    + assert (inp0 = inp) by congruence. subst inp0. tauto.
    + assert (inp0 = inp) by congruence. subst inp0. tauto.
  - apply bind_Ret in E. destruct E as [E|(d & s1 & E1 & E)]; [exfalso; exact (lift_Ret _ _ _ _ E)|]. apply lift_Val in E1. destruct E1 as [Ed ->]. apply nth_res_Ok in Ed.
    apply bind_Ret in E. destruct E as [E|(g & s1 & E1 & E)].
    + destruct (uint256_is_null (d_asset d)) eqn:ND; [|exfalso; exact (lib_Ret _ _ _ _ E)]. apply u256_null in ND.
      destruct (a_aux args) as [|a0 al] eqn:EA.
      * apply mreturn_Ret in E. destruct E as [-> _]. exists 0%nat, (F_asset_empty i). split; [reflexivity|]. split; [eapply FA_asset_empty; eauto|]. intros; lia.
      * rewrite <- EA in E. apply bind_Ret in E. destruct E as [E|(ag & s2 & E2 & E)]; [exfalso; exact (lift_Ret _ _ _ _ E)|]. apply lift_Val in E2. destruct E2 as [Eg ->]. apply nth_res_Ok in Eg.
        destruct (gen_parse z ag) eqn:EG; [discriminate E|]. apply mreturn_Ret in E. destruct E as [-> _]. exists 0%nat, (F_aux_invalid i). split; [reflexivity|]. split; [eapply FA_aux; eauto|]. intros; lia.
    + assert (Q : s1 = s /\ forall f, ~ FaultAt (s_tx s) 0 i 0 f).
      { destruct (uint256_is_null (d_asset d)) eqn:ND.
        - destruct (a_aux args) as [|a0 al] eqn:EA; [discriminate E1|]. rewrite <- EA in E1. apply bind_Val in E1. destruct E1 as (ag & s2 & E2 & E1). apply lift_Val in E2. destruct E2 as [Eg ->]. apply nth_res_Ok in Eg.
          destruct (gen_parse z ag) eqn:EG; [|discriminate E1]. apply mret_Val in E1. destruct E1 as [_ ->]. split; [reflexivity|]. intros f F. inversion F; subst; congruence.
        - apply lib_Val in E1. destruct E1 as [_ ->]. split; [reflexivity|]. assert (ND' : d_asset d <> zeros 32) by (intros X; apply u256_null in X; congruence). intros f F. inversion F; subst; congruence. }
      destruct Q as [-> Q0]. clear E1. apply bind_Ret in E. destruct E as [E|(T1 & s1 & E1 & E)]; [exfalso; exact (add_target_noret _ _ _ _ _ _ _ E)|]. assert (s1 = s) by (exact (keeps_eq _ _ _ _ (keeps_add_target _ _ _ _) E1)). subst s1. clear E1.
      apply bind_Ret in E. destruct E as [E|(t & s1 & E1 & E)]; [discriminate E|]. apply get_Val in E1. destruct E1 as [-> ->].
      apply bind_Ret in E. destruct E as [E|(inp0 & s1 & E1 & E)]; [exfalso; exact (lift_Ret _ _ _ _ E)|]. apply lift_Val in E1. destruct E1 as [E1 ->]. apply nth_res_Ok in E1. assert (inp0 = inp) by congruence. subst inp0. clear E1. cbv zeta in E.
      destruct (issuance_is_null (assetIssuance inp)); [discriminate E|].
      destruct (conf_is_commitment CConfValue (is_amount (assetIssuance inp))) eqn:C1.
      { apply mreturn_Ret in E. destruct E as [-> _]. apply comm_value in C1. exists 1%nat, F_amount_commitment. split; [reflexivity|]. split; [eapply FA_amount_confidential; eauto|].
        intros k' f' F. assert (k' <> 0)%nat by (intros ->; exact (Q0 _ F)). lia. }
      destruct (conf_is_commitment CConfValue (is_keys (assetIssuance inp))) eqn:C2.
      { apply mreturn_Ret in E. destruct E as [-> _]. apply comm_value in C2. exists 2%nat, F_keys_commitment. split; [reflexivity|]. split; [eapply FA_keys_confidential; eauto|].
        intros k' f' F. assert (k' <> 0)%nat by (intros ->; exact (Q0 _ F)). assert (k' <> 1)%nat; [|lia]. intros ->. inversion F; subst. assert (inp0 = inp) by congruence. subst inp0. apply (proj1 (not_true _ _ (comm_value _)) C1). assumption. }
      exfalso. apply bind_Ret in E. destruct E as [E|([asset T2] & s1 & _ & E)].
      { destruct (uint256_is_null (is_nonce (assetIssuance inp))); repeat (apply bind_Ret in E; destruct E as [E|(? & ? & _ & E)]; [exact (lift_Ret _ _ _ _ E)|]); discriminate E. }
      apply bind_Ret in E. destruct E as [E|(T3 & s2 & _ & E)].
      { destruct (conf_is_null (is_amount (assetIssuance inp))); [discriminate E|]. apply bind_Ret in E. destruct E as [E|(? & ? & _ & E)]; [exact (lib_Ret _ _ _ _ E)|exact (add_target_noret _ _ _ _ _ _ _ E)]. }
      destruct (conf_is_null (is_keys (assetIssuance inp))); [discriminate E|]. destruct (t_token T3); [|discriminate E].
      apply bind_Ret in E. destruct E as [E|(? & ? & _ & E)]; [exact (lift_Ret _ _ _ _ E)|]. apply bind_Ret in E. destruct E as [E|(? & ? & _ & E)]; [exact (lib_Ret _ _ _ _ E)|exact (add_target_noret _ _ _ _ _ _ _ E)].
Qed.
Lemma targets_aux_ends n ag T s o s' : (length (vin (s_tx s)) <= n)%nat -> nth_error (a_aux args) n = Some ag -> targets_aux z (n, ag) T s = (o, s') ->
  match o with Val _ => Clean (s_tx s) 1 n | Ret r => Stops (s_tx s) 1 n r | Exc _ => True end.
Proof.
  intros LE EA E. unfold targets_aux in E. destruct (gen_parse z ag) eqn:EG.
  - destruct o as [v|r|e]; [|exfalso; exact (add_target_noret _ _ _ _ _ _ _ E)|exact I]. intros k f F. inversion F; subst; congruence.
  - injection E as <- <-. exists 0%nat, (F_aux_invalid n). split; [reflexivity|]. split; [eapply FA_spare; eauto|]. intros; lia.
Qed.

Lemma in_place ws i f : proof_in_place ws i f = true <-> exists w, nth_error ws i = Some w /\ f w <> [].
Proof.
  unfold proof_in_place. destruct (nth_error ws i) as [w|].
  - rewrite blen0. split; [eauto|]. intros (w' & E & N). assert (w' = w) by congruence. subst w'. exact N.
  - split; [discriminate|]. intros (w & E & _). discriminate E.
Qed.
Lemma key_nth (l : list (option bytes)) i : key_at l i = nth i l None.
Proof. apply key_at_nth. Qed.
Ltac same := repeat match goal with H : nth_error ?l ?i = Some ?x, H' : nth_error ?l ?i = Some ?y |- _ => assert (y = x) by congruence; subst y; clear H' end.
Lemma count_keys i L s inp o s' : nth_error (vin (s_tx s)) i = Some inp -> issues inp -> (forall k f, FaultAt (s_tx s) 2 i k f -> (k < 3)%nat -> False) ->
  match nth i (a_token_keys args) None with
  | None => mret L
  | Some _ => if negb (conf_is_explicit CConfValue (is_keys (assetIssuance inp))) then mreturn (BFailure (F_keys_not_explicit i))
              else if proof_in_place (vtxinwit (wit (s_tx s))) i iw_keysproof then mreturn (BFailure (F_keys_proof_in_place i)) else mret (inc_toblind L)
  end s = (o, s') ->
  match o with Val _ => Clean (s_tx s) 2 i | Ret r => Stops (s_tx s) 2 i r | Exc _ => True end.
Proof.
  intros EI IN Q E.
  assert (D : forall k f, FaultAt (s_tx s) 2 i k f -> (k < 3 \/ k = 3 \/ k = 4)%nat) by (intros k f F; inversion F; lia).
  assert (Q' : forall k f, FaultAt (s_tx s) 2 i k f -> (3 <= k)%nat).
  { intros k f F. destruct (D _ _ F) as [X|X]; [exfalso; exact (Q _ _ F X)|lia]. }
  destruct (nth i (a_token_keys args) None) as [key|] eqn:KT.
  2:{ injection E as <- <-. intros k f F. assert (X := Q' _ _ F). inversion F; subst; try lia; congruence. }
  destruct (conf_is_explicit CConfValue (is_keys (assetIssuance inp))) eqn:X1; cbn [negb] in E.
  2:{ injection E as <- <-. apply (not_true _ _ (expl_value _)) in X1. exists 3%nat, (F_keys_not_explicit i). split; [reflexivity|]. split; [eapply FA_keys; eauto|exact Q']. }
  apply expl_value in X1. assert (Q3 : forall f, ~ FaultAt (s_tx s) 2 i 3 f) by (intros f F; inversion F; subst; same; tauto).
  destruct (proof_in_place (vtxinwit (wit (s_tx s))) i iw_keysproof) eqn:P1.
  { injection E as <- <-. apply in_place in P1. destruct P1 as (w & Ew & Nw). exists 4%nat, (F_keys_proof_in_place i). split; [reflexivity|]. split; [eapply FA_keys_proof; eauto|].
    intros k' f' F. assert (k' <> 3)%nat by (intros ->; exact (Q3 _ F)). assert (X := Q' _ _ F). lia. }
  injection E as <- <-. apply (not_true _ _ (in_place _ _ _)) in P1. intros k f F. assert (X := Q' _ _ F). assert (F' := F). inversion F; subst; try lia; same; [exact (Q3 _ F')|eauto].
Qed.
Lemma count_input_ends i L s inp o s' : nth_error (vin (s_tx s)) i = Some inp -> count_input args i L s = (o, s') ->
  match o with Val _ => Clean (s_tx s) 2 i | Ret r => Stops (s_tx s) 2 i r | Exc _ => True end.
Proof.
  intros EI E. assert (LT : (i < length (vin (s_tx s)))%nat) by (apply nth_error_Some; congruence).
  unfold count_input in E. unfold mbind at 1 in E. destruct (nth_res (a_descs args) i) as [d|e] eqn:Ed; cbn [lift mret mraise] in E; [|injection E as <- <-; exact I]. apply nth_res_Ok in Ed.
  unfold mbind at 1 in E. cbn [get_tx] in E. unfold mbind at 1 in E.
  set (c := negb (uint256_is_null (d_bf d)) || negb (uint256_is_null (d_abf d))) in E.
  assert (CI : c = true <-> d_bf d <> zeros 32 \/ d_abf d <> zeros 32).
  { unfold c. rewrite orb_true_iff, !negb_true_iff, !(not_true _ _ (u256_null _)). reflexivity. }
  clearbody c.
  assert (N0 : c = false \/ 0 <= d_amount d -> forall f, ~ FaultAt (s_tx s) 2 i 0 f).
  { intros H f F. inversion F; subst. same. destruct H as [-> |H]; [|lia]. assert (false = true) by (apply CI; assumption). discriminate. }
  destruct ((if c then if d_amount d <? 0 then mreturn (BFailure (F_negative_amount i)) else mret (add_input (d_bf d) (d_abf d) (d_amount d) L) else mret L) s) as [[L1|r|e] s1] eqn:E1.
  2:{ destruct c; [|discriminate E1]. destruct (Z.ltb_spec (d_amount d) 0); [|discriminate E1]. apply mreturn_Ret in E1. destruct E1 as [-> ->]. injection E as <- <-.
      exists 0%nat, (F_negative_amount i). split; [reflexivity|]. split; [eapply FA_negative; eauto; apply CI; reflexivity|]. intros; lia. }
  2:{ destruct c; [destruct (d_amount d <? 0)|]; discriminate E1. }
  assert (Q0 : s1 = s /\ forall f, ~ FaultAt (s_tx s) 2 i 0 f).
  { destruct c; [|apply mret_Val in E1; destruct E1 as [_ ->]; auto]. destruct (Z.ltb_spec (d_amount d) 0); [discriminate E1|]. apply mret_Val in E1. destruct E1 as [_ ->]. auto. }
  destruct Q0 as [-> Q0]. clear E1 N0. unfold mbind at 1 in E. rewrite (proj2 (nth_res_Ok _ _ _) EI) in E. cbn [lift mret] in E. cbv zeta in E.
  destruct (issuance_is_null (assetIssuance inp)) eqn:IN.
  { injection E as <- <-. assert (NI : ~ issues inp) by (intros X; apply issuance_there in X; congruence).
    intros k f F. assert (F' := F). inversion F; subst; same; try tauto. exact (Q0 _ F'). }
  apply issuance_there in IN. change (issues inp) in IN. rewrite !key_nth in E. unfold mbind in E.
  destruct (nth i (a_asset_keys args) None) as [key|] eqn:KA.
  - destruct (conf_is_explicit CConfValue (is_amount (assetIssuance inp))) eqn:X1; cbn [negb] in E.
    2:{ injection E as <- <-. apply (not_true _ _ (expl_value _)) in X1. exists 1%nat, (F_amount_not_explicit i). split; [reflexivity|]. split; [eapply FA_amount; eauto|].
        intros k' f' F. assert (k' <> 0)%nat by (intros ->; exact (Q0 _ F)). lia. }
    apply expl_value in X1. assert (Q1 : forall f, ~ FaultAt (s_tx s) 2 i 1 f) by (intros f F; inversion F; subst; same; tauto).
    destruct (proof_in_place (vtxinwit (wit (s_tx s))) i iw_issproof) eqn:P1.
    { injection E as <- <-. apply in_place in P1. destruct P1 as (w & Ew & Nw). exists 2%nat, (F_amount_proof_in_place i). split; [reflexivity|]. split; [eapply FA_amount_proof; eauto|].
      intros k' f' F. assert (k' <> 0)%nat by (intros ->; exact (Q0 _ F)). assert (k' <> 1)%nat by (intros ->; exact (Q1 _ F)). lia. }
    apply (not_true _ _ (in_place _ _ _)) in P1. assert (Q2 : forall f, ~ FaultAt (s_tx s) 2 i 2 f) by (intros f F; inversion F; subst; same; eauto).
    cbn [mret] in E. refine (count_keys _ _ _ _ _ _ EI IN _ E). intros k f F LT3. destruct k as [|[|[|k]]]; [exact (Q0 _ F)|exact (Q1 _ F)|exact (Q2 _ F)|lia].
  - cbn [mret] in E. refine (count_keys _ _ _ _ _ _ EI IN _ E). intros k f F LT3. destruct k as [|[|[|k]]]; [exact (Q0 _ F)| | |lia]; inversion F; subst; congruence.
Qed.

Lemma count_output_ends j pub L s o s' : nth_error (a_pubkeys args) j = Some pub -> count_output z (j, pub) L s = (o, s') ->
  match o with Val _ => Clean (s_tx s) 3 j | Ret r => Stops (s_tx s) 3 j r | Exc _ => True end.
Proof.
  intros EP E. unfold count_output in E. destruct (is_nonempty pub) eqn:NE; cbn [negb] in E.
  2:{ injection E as <- <-. intros k f F. assert (X : pub <> []) by (inversion F; subst; same; assumption). apply blen0 in X. unfold is_nonempty in NE. congruence. }
  unfold is_fullyvalid in E. rewrite NE in E. cbn [andb] in E. apply blen0 in NE.
  destruct (pk_fullyvalid z pub) eqn:V; cbn [negb] in E.
  2:{ injection E as <- <-. exists 0%nat, (F_pubkey_invalid j). split; [reflexivity|]. split; [eapply FA_pubkey; eauto|]. intros; lia. }
  assert (Q0 : forall f, ~ FaultAt (s_tx s) 3 j 0 f) by (intros f F; inversion F; subst; same; congruence).
  unfold mbind at 1 in E. cbn [get_tx] in E. unfold mbind at 1 in E. destruct (nth_res (vout (s_tx s)) j) as [out|e] eqn:Eo; cbn [lift mret mraise] in E; [|injection E as <- <-; exact I]. apply nth_res_Ok in Eo.
  destruct (conf_is_explicit CConfValue (nValue out)) eqn:X1; cbn [negb] in E.
  2:{ injection E as <- <-. apply (not_true _ _ (expl_value _)) in X1. exists 1%nat, (F_value_not_explicit j). split; [reflexivity|]. split; [eapply FA_value; eauto|].
      intros k' f' F. assert (k' <> 0)%nat by (intros ->; exact (Q0 _ F)). lia. }
  apply expl_value in X1. assert (Q1 : forall f, ~ FaultAt (s_tx s) 3 j 1 f) by (intros f F; inversion F; subst; same; tauto).
  destruct (conf_is_explicit CConfAsset (nAsset out)) eqn:X2; cbn [negb] in E.
  2:{ injection E as <- <-. apply (not_true _ _ (expl_asset _)) in X2. exists 2%nat, (F_asset_not_explicit j). split; [reflexivity|]. split; [eapply FA_asset; eauto|].
      intros k' f' F. assert (k' <> 0)%nat by (intros ->; exact (Q0 _ F)). assert (k' <> 1)%nat by (intros ->; exact (Q1 _ F)). lia. }
  apply expl_asset in X2. assert (Q2 : forall f, ~ FaultAt (s_tx s) 3 j 2 f) by (intros f F; inversion F; subst; same; tauto).
  destruct (match nth_error (vtxoutwit (wit (s_tx s))) j with Some w => negb (outwit_is_null w) | None => false end) eqn:X3.
  { injection E as <- <-. destruct (nth_error (vtxoutwit (wit (s_tx s))) j) as [w|] eqn:Ew; [|discriminate X3].
    exists 3%nat, (F_witness_in_place j). split; [reflexivity|]. split.
    - eapply FA_witness; eauto. unfold outwit_is_null in X3. rewrite negb_andb, orb_true_iff, !blen0 in X3. exact X3.
    - intros k' f' F. assert (k' <> 0)%nat by (intros ->; exact (Q0 _ F)). assert (k' <> 1)%nat by (intros ->; exact (Q1 _ F)). assert (k' <> 2)%nat by (intros ->; exact (Q2 _ F)). lia. }
  assert (Q3 : forall f, ~ FaultAt (s_tx s) 3 j 3 f).
  { intros f F. inversion F as [| | | | | | | | | | | | |? ? w EP' NP Ew OR|]; subst. rewrite Ew in X3. unfold outwit_is_null in X3. rewrite negb_andb in X3.
    apply orb_false_iff in X3. destruct X3 as [Y1 Y2]. destruct OR as [OR|OR]; apply blen0 in OR; congruence. }
  destruct (txout_is_fee out) eqn:X4.
  { injection E as <- <-. apply fee_iff in X4. exists 4%nat, (F_fee_output j). split; [reflexivity|]. split; [eapply FA_fee; eauto|].
    intros k' f' F. assert (k' <> 0)%nat by (intros ->; exact (Q0 _ F)). assert (k' <> 1)%nat by (intros ->; exact (Q1 _ F)). assert (k' <> 2)%nat by (intros ->; exact (Q2 _ F)). assert (k' <> 3)%nat by (intros ->; exact (Q3 _ F)). lia. }
  injection E as <- <-. apply (not_true _ _ (fee_iff _)) in X4. intros k f F. assert (F' := F). inversion F; subst; same; try tauto; eauto.
  - exact (Q0 _ F').
  - exact (Q3 _ F').
Qed.

(** * Loops *)
Definition CleanPhase (t : tx) (p : nat) : Prop := forall i k f, ~ FaultAt t p i k f.
Definition StopsPhase (t : tx) (p : nat) (r : blind_ret) : Prop := exists i k f, r = BFailure f /\ FaultAt t p i k f
  /\ forall i' k' f', FaultAt t p i' k' f' -> (i < i')%nat \/ (i = i' /\ (k <= k')%nat).
Lemma phase {A L} (p base : nat) (idx : A -> nat) (l : list A) (body : A -> L -> M L) st s o s' :
  (forall x st, keeps (body x st)) -> map idx l = seq base (length l) ->
  (forall i k f, FaultAt (s_tx s) p i k f -> (base <= i < base + length l)%nat) ->
  (forall x st o s', In x l -> body x st s = (o, s') -> match o with Val _ => Clean (s_tx s) p (idx x) | Ret r => Stops (s_tx s) p (idx x) r | Exc _ => True end) ->
  for_in l body st s = (o, s') -> match o with Val _ => CleanPhase (s_tx s) p | Ret r => StopsPhase (s_tx s) p r | Exc _ => True end.
Proof.
  intros K EI RG B E. apply (for_stop _ _ _ _ _ _ K) in E. destruct E as [-> E]. destruct o as [v|r|e]; [| |exact I].
  - intros i k f F. assert (R := RG _ _ _ F). assert (IN : In i (map idx l)) by (rewrite EI; apply in_seq; lia).
    apply in_map_iff in IN. destruct IN as (x & <- & IN). destruct (E x IN) as (st1 & st2 & EB). exact (B _ _ _ _ IN EB _ _ F).
  - destruct E as (l1 & x & l2 & st1 & -> & EB & CL). assert (Bx := B x _ _ _ (in_elt _ _ _) EB). cbv beta iota in Bx. destruct Bx as (k & f & -> & F & MIN).
    exists (idx x), k, f. split; [reflexivity|]. split; [exact F|]. intros i' k' f' F'. assert (R := RG _ _ _ F').
    assert (EX : idx x = (base + length l1)%nat).
    { assert (X : nth_error (map idx (l1 ++ x :: l2)) (length l1) = Some (idx x)) by (apply map_nth_error; rewrite nth_error_app2, Nat.sub_diag by lia; reflexivity).
      rewrite EI in X. apply nth_error_nth with (d := 0%nat) in X. rewrite seq_nth in X; [lia|]. rewrite app_length. cbn. lia. }
    destruct (Nat.lt_trichotomy i' (idx x)) as [LT|[-> |GT]]; [|right; split; [reflexivity|exact (MIN _ _ F')]|left; exact GT].
    exfalso. assert (IN : In i' (map idx l1)).
    { rewrite map_app in EI. assert (X : map idx l1 = firstn (length l1) (seq base (length (l1 ++ x :: l2)))) by (rewrite <- EI, firstn_app, map_length, Nat.sub_diag; cbn [firstn]; rewrite app_nil_r, <- (map_length idx l1) at 1; symmetry; apply firstn_all).
      rewrite X, app_length, seq_app, firstn_app, seq_length, Nat.sub_diag. cbn [firstn]. rewrite app_nil_r, firstn_all2 by (rewrite seq_length; lia). apply in_seq. lia. }
    apply in_map_iff in IN. destruct IN as (y & <- & IN). destruct (CL y IN) as (st2 & st3 & EY). exact (B y _ _ _ (in_or_app _ _ _ (or_introl IN)) EY _ _ F').
Qed.
Lemma fst_enum {A} b (l : list A) : map fst (combine (seq b (length l)) l) = seq b (length (combine (seq b (length l)) l)).
Proof. rewrite combine_length, seq_length, Nat.min_id. revert b. induction l as [|x l IH]; intros b; cbn; [reflexivity|]. rewrite IH. reflexivity. Qed.
Lemma in_enum {A} (l : list A) : forall b i x, In (i, x) (combine (seq b (length l)) l) -> (b <= i)%nat /\ nth_error l (i - b) = Some x.
Proof.
  induction l as [|y l IH]; intros b i x; cbn; [intros []|]. intros [E|IN].
  - injection E as <- <-. rewrite Nat.sub_diag. split; [lia|reflexivity].
  - apply IH in IN. destruct IN as [LE E]. split; [lia|]. replace (i - b)%nat with (S (i - S b)) by lia. exact E.
Qed.
Lemma nth_error_skip {A} (l : list A) : forall n i, nth_error (skipn n l) i = nth_error l (n + i).
Proof. induction l as [|x l IH]; intros [|n] i; cbn; try reflexivity; [destruct i; reflexivity|apply IH]. Qed.

Lemma phase0 T s o s' : for_in (seq 0 (length (vin (s_tx s)))) (targets_input z args) T s = (o, s') ->
  s' = s /\ match o with Val _ => CleanPhase (s_tx s) 0 | Ret r => StopsPhase (s_tx s) 0 r | Exc _ => True end.
Proof.
  intros E. split; [exact (proj1 (for_stop _ _ _ _ _ _ (keeps_targets_input z args) E))|].
  refine (phase 0 0 (fun i => i) _ _ _ _ _ _ (keeps_targets_input z args) _ _ _ E).
  - rewrite seq_length, map_id. reflexivity.
  - intros i k f F. rewrite seq_length. split; [lia|]. cbn. inversion F; subst; try assumption; apply nth_error_Some; congruence.
  - intros i st o0 s0 IN EB. apply in_seq in IN. destruct (nth_error (vin (s_tx s)) i) as [inp|] eqn:EI; [|apply nth_error_None in EI; lia]. exact (targets_input_ends _ _ _ _ _ _ EI EB).
Qed.
Lemma phase1 T s o s' : (match a_aux args with [] => mret T | _ => for_in (combine (seq (length (vin (s_tx s))) (length (a_aux args) - length (vin (s_tx s)))) (skipn (length (vin (s_tx s))) (a_aux args))) (targets_aux z) T end) s = (o, s') ->
  s' = s /\ match o with Val _ => CleanPhase (s_tx s) 1 | Ret r => StopsPhase (s_tx s) 1 r | Exc _ => True end.
Proof.
  set (n := length (vin (s_tx s))). intros E.
  assert (EA : a_aux args = [] \/ for_in (combine (seq n (length (skipn n (a_aux args)))) (skipn n (a_aux args))) (targets_aux z) T s = (o, s')).
  { rewrite skipn_length. destruct (a_aux args); [left; reflexivity|right; exact E]. }
  destruct EA as [EA|E'].
  - rewrite EA in E. injection E as <- <-. split; [reflexivity|]. intros i k f F. inversion F; subst. rewrite EA in *. destruct i; discriminate.
  - split; [exact (proj1 (for_stop _ _ _ _ _ _ (keeps_targets_aux z) E'))|].
    refine (phase 1 n fst _ _ _ _ _ _ (keeps_targets_aux z) (fst_enum _ _) _ _ E').
    + intros i k f F. rewrite combine_length, seq_length, Nat.min_id, skipn_length. inversion F; subst. assert (i < length (a_aux args))%nat by (apply nth_error_Some; congruence). fold n in H. lia.
    + intros [i ag] st o0 s0 IN EB. apply in_enum in IN. destruct IN as [LE EN]. rewrite nth_error_skip in EN. replace (n + (i - n))%nat with i in EN by lia. exact (targets_aux_ends _ _ _ _ _ _ LE EN EB).
Qed.
Lemma phase2 L s o s' : for_in (seq 0 (length (vin (s_tx s)))) (count_input args) L s = (o, s') ->
  s' = s /\ match o with Val _ => CleanPhase (s_tx s) 2 | Ret r => StopsPhase (s_tx s) 2 r | Exc _ => True end.
Proof.
  intros E. split; [exact (proj1 (for_stop _ _ _ _ _ _ (keeps_count_input args) E))|].
  refine (phase 2 0 (fun i => i) _ _ _ _ _ _ (keeps_count_input args) _ _ _ E).
  - rewrite seq_length, map_id. reflexivity.
  - intros i k f F. rewrite seq_length. split; [lia|]. cbn. inversion F; subst; try assumption; apply nth_error_Some; congruence.
  - intros i st o0 s0 IN EB. apply in_seq in IN. destruct (nth_error (vin (s_tx s)) i) as [inp|] eqn:EI; [|apply nth_error_None in EI; lia]. exact (count_input_ends _ _ _ _ _ _ EI EB).
Qed.
Lemma phase3 L s o s' : for_in (combine (seq 0 (length (a_pubkeys args))) (a_pubkeys args)) (count_output z) L s = (o, s') ->
  s' = s /\ match o with Val _ => CleanPhase (s_tx s) 3 | Ret r => StopsPhase (s_tx s) 3 r | Exc _ => True end.
Proof.
  intros E. split; [exact (proj1 (for_stop _ _ _ _ _ _ (keeps_count_output z) E))|].
  refine (phase 3 0 fst _ _ _ _ _ _ (keeps_count_output z) (fst_enum _ _) _ _ E).
  - intros i k f F. rewrite combine_length, seq_length, Nat.min_id. split; [lia|]. cbn. inversion F; subst; apply nth_error_Some; congruence.
  - intros [j pub] st o0 s0 IN EB. apply in_enum in IN. destruct IN as [_ EN]. rewrite Nat.sub_0_r in EN. exact (count_output_ends _ _ _ _ _ _ EN EB).
Qed.
Lemma fault_phase t p i k f : FaultAt t p i k f -> (p < 4)%nat.
Proof. intros F. inversion F; lia. Qed.
Lemma stops_first t p f : StopsPhase t p (BFailure f) -> (forall q, (q < p)%nat -> CleanPhase t q) -> FirstFault z args t f.
Proof.
  intros (i & k & f0 & E & F & MIN) CL. injection E as <-. exists p, i, k. split; [exact F|]. intros p' i' k' f' F'.
  destruct (Nat.lt_trichotomy p' p) as [LT|[-> |GT]]; [exfalso; exact (CL _ LT _ _ _ F')| |left; exact GT]. right. split; [reflexivity|]. exact (MIN _ _ _ F').
Qed.

Variable rand : nat -> bytes.
(** Either the call ended while it was looking, with an exception or the first fault; or there is no fault. *)
Theorem looks_fault k s o s' : blind_looks z args k s = (o, s') ->
  (s' = s /\ match o with Val _ => False | Ret r => exists f, r = BFailure f /\ FirstFault z args (s_tx s) f | Exc _ => True end)
  \/ (~ Faulty z args (s_tx s) /\ exists tags gens blinders L, k tags gens blinders L s = (o, s')).
Proof.
  unfold blind_looks. intros E. unfold mbind at 1 in E. destruct (check_cases args s) as [[_ C]|[_ C]]; rewrite C in E; [injection E as <- <-; left; auto|]. clear C.
  unfold mbind at 1 in E. destruct (surjection_targets z args s) as [o1 s1] eqn:ET. unfold surjection_targets in ET. unfold mbind at 1 in ET. cbn [get_tx] in ET. cbv zeta in ET. unfold mbind at 1 in ET.
  destruct (for_in (seq 0 (length (vin (s_tx s)))) (targets_input z args) _ s) as [o2 s2] eqn:E0. apply phase0 in E0. destruct E0 as [-> P0].
  destruct o2 as [T|r|e].
  2:{ injection ET as <- <-. injection E as <- <-. left. split; [reflexivity|]. assert (P := P0). destruct P as (i & q & f & -> & _). exists f. split; [reflexivity|]. apply (stops_first _ 0); [exact P0|]. intros q' LT. lia. }
  2:{ injection ET as <- <-. injection E as <- <-. left. auto. }
  unfold mbind at 1 in ET. match type of ET with (let (_, _) := ?m in _) = _ => destruct m as [o2 s2] eqn:E1 end. apply phase1 in E1. destruct E1 as [-> P1].
  destruct o2 as [T1|r|e].
  2:{ injection ET as <- <-. injection E as <- <-. left. split; [reflexivity|]. assert (P := P1). destruct P as (i & q & f & -> & _). exists f. split; [reflexivity|]. apply (stops_first _ 1); [exact P1|]. intros q' LT. replace q' with 0%nat by lia. exact P0. }
  2:{ injection ET as <- <-. injection E as <- <-. left. auto. }
  assert (Q : s1 = s /\ forall r, o1 <> Ret r).
  { clear E. repeat (unfold mbind at 1 in ET; match type of ET with context [lift ?x] => destruct x; cbn [lift mret mraise] in ET; [|injection ET as <- <-; split; [reflexivity|discriminate]] end). injection ET as <- <-. split; [reflexivity|discriminate]. }
  destruct Q as [-> Q]. clear ET. destruct o1 as [[[tags gens] blinders]|r|e]; [|exfalso; exact (Q r eq_refl)|injection E as <- <-; left; auto].
  unfold mbind at 1 in E. cbn [get_tx] in E. unfold mbind at 1 in E. match type of E with (let (_, _) := ?m in _) = _ => destruct m as [o2 s2] eqn:E2 end. apply phase2 in E2. destruct E2 as [-> P2].
  destruct o2 as [L1|r|e].
  2:{ injection E as <- <-. left. split; [reflexivity|]. assert (P := P2). destruct P as (i & q & f & -> & _). exists f. split; [reflexivity|]. apply (stops_first _ 2); [exact P2|]. intros [|[|q']] LT; [exact P0|exact P1|lia]. }
  2:{ injection E as <- <-. left. auto. }
  unfold mbind at 1 in E. match type of E with (let (_, _) := ?m in _) = _ => destruct m as [o2 s2] eqn:E3 end. apply phase3 in E3. destruct E3 as [-> P3].
  destruct o2 as [L2|r|e].
  2:{ injection E as <- <-. left. split; [reflexivity|]. assert (P := P3). destruct P as (i & q & f & -> & _). exists f. split; [reflexivity|]. apply (stops_first _ 3); [exact P3|]. intros [|[|[|q']]] LT; [exact P0|exact P1|exact P2|lia]. }
  2:{ injection E as <- <-. left. auto. }
  right. split; [|eauto 6]. intros (p & i & q & f & F). assert (LT := fault_phase _ _ _ _ _ F). destruct p as [|[|[|[|p]]]]; [exact (P0 _ _ _ F)|exact (P1 _ _ _ F)|exact (P2 _ _ _ F)|exact (P3 _ _ _ F)|lia].
Qed.
Theorem faults t o s : blind_transaction z rand args t = (o, s) ->
  (s = mkSt t 0 /\ match o with Val _ => False | Ret r => exists f, r = BFailure f /\ FirstFault z args t f | Exc _ => True end)
  \/ (~ Faulty z args t /\ forall r, o = Ret r -> exists L, r = blinding_result args L).
Proof.
  unfold blind_transaction. rewrite body_split. destruct (blind_looks z args (blind_acts z rand args) (mkSt t 0)) as [o1 s1] eqn:E. intros H.
  apply looks_fault in E. destruct E as [[-> E]|(NF & tags & gens & blinders & L & E)].
  - left. destruct o1 as [v|r|e]; [destruct E| |]; injection H as <- <-; auto.
  - right. split; [exact NF|]. intros r ->. apply (acts_Ret z rand args _ _ _ _ _ _ r _ E). destruct o1 as [v|r1|e]; injection H as H1 H2; subst; auto. 
Qed.
End F.
