(** The counting passes of blind(). *)
From Verif Require Import Base BaseFacts Serialize TxModel IssuanceModel ScriptModel MiscModel BlindModel BlindFacts SpecBlind BlindFrame BlindFails BlindSteps BlindTargets.
From Coq Require Import Lia.
Local Open Scope Z_scope.

Section C.
Variables (z : Crypto) (args : blind_args).

Definition counted (t : tx) (x : nat * bool) : bool :=
  wants_issuance args x && match nth_error (vin t) (fst x) with Some inp => negb (issuance_is_null (assetIssuance inp)) | None => false end.
Definition has_factor (d : input_desc) : bool := negb (bytes_eqb (d_bf d) (zeros 32) && bytes_eqb (d_abf d) (zeros 32)).

Definition cnt_inv (t : tx) (k : nat) (L : Loc) : Prop :=
  let bi := filter has_factor (firstn k (a_descs args)) in
  l_toblind L = length (filter (counted t) (issuance_slots k))
  /\ l_success L = 0%nat /\ l_attempts L = 0%nat /\ l_issattempts L = 0%nat
  /\ l_blindsin L = length bi /\ l_blinds L = map d_bf bi /\ l_assetblinds L = map d_abf bi /\ l_amounts L = map d_amount bi
  /\ l_bfs L = repeat None (length (vout t)) /\ l_abfs L = repeat None (length (vout t))
  /\ Forall (fun d => 0 <= d_amount d) bi
  /\ (forall i ps inp, (i < k)%nat -> nth_error (vin t) i = Some inp -> wants_issuance args (i, ps) = true ->
        issuance_is_null (assetIssuance inp) = false ->
        conf_is_explicit CConfValue (iss_field ps inp) = true /\ proof_in_place (vtxinwit (wit t)) i (iss_proof ps) = false).

Lemma slots_S k : issuance_slots (S k) = issuance_slots k ++ [(k, false); (k, true)].
Proof. unfold issuance_slots. rewrite seq_S, flat_map_app. reflexivity. Qed.

Lemma count_input_Val k L s L' s' : cnt_inv (s_tx s) k L -> count_input args k L s = (Val L', s') ->
  s' = s /\ cnt_inv (s_tx s) (S k) L'.
Proof.
  intros HI E. split; [exact (keeps_eq _ _ _ _ (keeps_count_input args k L) E)|].
  unfold count_input in E. apply bind_Val in E. destruct E as (d & s1 & E1 & E). apply lift_Val in E1. destruct E1 as [Ed ->]. apply nth_res_Ok in Ed.
  apply bind_Val in E. destruct E as (t & s1 & E1 & E). apply get_Val in E1. destruct E1 as [-> ->].
  apply bind_Val in E. destruct E as (L1 & s1 & E1 & E).
  assert (Q : s1 = s /\ let bi := filter has_factor (firstn (S k) (a_descs args)) in
    l_toblind L1 = l_toblind L /\ l_success L1 = 0%nat /\ l_attempts L1 = 0%nat /\ l_issattempts L1 = 0%nat
    /\ l_blindsin L1 = length bi /\ l_blinds L1 = map d_bf bi /\ l_assetblinds L1 = map d_abf bi /\ l_amounts L1 = map d_amount bi
    /\ l_bfs L1 = l_bfs L /\ l_abfs L1 = l_abfs L /\ Forall (fun d => 0 <= d_amount d) bi).
  { unfold cnt_inv in HI. cbv zeta in HI. destruct HI as (H1 & H2 & H3 & H4 & H5 & H6 & H7 & H8 & H9 & H10 & H11 & _).
    rewrite (firstn_S_nth _ _ _ Ed), filter_app. cbn [filter]. unfold uint256_is_null in E1.
    assert (HF : has_factor d = negb (bytes_eqb (d_bf d) (zeros 32)) || negb (bytes_eqb (d_abf d) (zeros 32))).
    { unfold has_factor. apply negb_andb. } rewrite HF. clear HF. set (c := _ || _) in *.
    destruct c.
    - destruct (Z.ltb_spec (d_amount d) 0) as [|GE]; [discriminate|]. apply mret_Val in E1. destruct E1 as [-> ->]. split; [reflexivity|].
      cbv zeta. cbn [add_input l_toblind l_success l_attempts l_issattempts l_blindsin l_blinds l_assetblinds l_amounts l_bfs l_abfs].
      rewrite app_length, !map_app, H5, H6, H7, H8. cbn [length map]. rewrite Nat.add_1_r. repeat split; auto.
      apply Forall_app. split; [exact H11|]. constructor; [lia|constructor].
    - apply mret_Val in E1. destruct E1 as [-> ->]. split; [reflexivity|]. rewrite app_nil_r. cbv zeta. repeat split; auto. }
  destruct Q as [-> Q]. clear E1. cbv zeta in Q. destruct Q as (Q1 & Q2 & Q3 & Q4 & Q5 & Q6 & Q7 & Q8 & Q9 & Q10 & Q11).
  unfold cnt_inv in HI. cbv zeta in HI. destruct HI as (H1 & _ & _ & _ & _ & _ & _ & _ & H9 & H10 & _ & H12).
  apply bind_Val in E. destruct E as (inp & s1 & E1 & E). apply lift_Val in E1. destruct E1 as [Ei ->]. apply nth_res_Ok in Ei. cbv zeta in E.
  assert (C : forall ps, counted (s_tx s) (k, ps) = wants_issuance args (k, ps) && negb (issuance_is_null (assetIssuance inp))).
  { intros ps. unfold counted. cbn [fst]. rewrite Ei. reflexivity. }
  assert (R : exists n0 n1, 
     l_toblind L' = (l_toblind L1 + n0 + n1)%nat /\ n0 = (if counted (s_tx s) (k, false) then 1 else 0)%nat
     /\ n1 = (if counted (s_tx s) (k, true) then 1 else 0)%nat
     /\ l_success L' = l_success L1 /\ l_attempts L' = l_attempts L1 /\ l_issattempts L' = l_issattempts L1 /\ l_blindsin L' = l_blindsin L1
     /\ l_blinds L' = l_blinds L1 /\ l_assetblinds L' = l_assetblinds L1 /\ l_amounts L' = l_amounts L1 /\ l_bfs L' = l_bfs L1 /\ l_abfs L' = l_abfs L1
     /\ (forall ps, counted (s_tx s) (k, ps) = true -> conf_is_explicit CConfValue (iss_field ps inp) = true
           /\ proof_in_place (vtxinwit (wit (s_tx s))) k (iss_proof ps) = false)).
  { destruct (issuance_is_null (assetIssuance inp)) eqn:IN.
    - apply mret_Val in E. destruct E as [-> _]. exists 0%nat, 0%nat. rewrite !C, !andb_false_r. repeat (split; [lia || reflexivity|]).
      intros ps. rewrite C, andb_false_r. discriminate.
    - apply bind_Val in E. destruct E as (L2 & s1 & E1 & E). cbn [negb] in C.
      assert (R0 : s1 = s /\ ((counted (s_tx s) (k, false) = false /\ L2 = L1)
              \/ (counted (s_tx s) (k, false) = true /\ L2 = inc_toblind L1 /\ conf_is_explicit CConfValue (iss_field false inp) = true
                  /\ proof_in_place (vtxinwit (wit (s_tx s))) k (iss_proof false) = false))).
      { rewrite C, andb_true_r. unfold wants_issuance. cbn [fst snd]. rewrite key_at_nth in E1.
        destruct (nth k (a_asset_keys args) None); [|apply mret_Val in E1; destruct E1 as [-> ->]; auto].
        destruct (conf_is_explicit CConfValue (is_amount (assetIssuance inp))) eqn:EX; cbn [negb] in E1; [|discriminate].
        destruct (proof_in_place _ _ _) eqn:PP; [discriminate|]. apply mret_Val in E1. destruct E1 as [-> ->]. auto 10. }
      destruct R0 as [-> R0]. clear E1.
      assert (R1 : ((counted (s_tx s) (k, true) = false /\ L' = L2)
              \/ (counted (s_tx s) (k, true) = true /\ L' = inc_toblind L2 /\ conf_is_explicit CConfValue (iss_field true inp) = true
                  /\ proof_in_place (vtxinwit (wit (s_tx s))) k (iss_proof true) = false))).
      { rewrite C, andb_true_r. unfold wants_issuance. cbn [fst snd]. rewrite key_at_nth in E.
        destruct (nth k (a_token_keys args) None); [|apply mret_Val in E; destruct E as [-> ->]; auto].
        destruct (conf_is_explicit CConfValue (is_keys (assetIssuance inp))) eqn:EX; cbn [negb] in E; [|discriminate].
        destruct (proof_in_place _ _ _) eqn:PP; [discriminate|]. apply mret_Val in E. destruct E as [-> ->]. auto 10. }
      destruct R0 as [(C0 & ->)|(C0 & -> & X0 & P0)]; destruct R1 as [(C1 & ->)|(C1 & -> & X1 & P1)]; rewrite C0, C1;
        eexists _, _; cbn [inc_toblind l_toblind l_success l_attempts l_issattempts l_blindsin l_blinds l_assetblinds l_amounts l_bfs l_abfs];
        (split; [|split; [reflexivity|split; [reflexivity|]]]; [lia|]);
        (repeat (split; [reflexivity|])); intros [|]; rewrite ?C0, ?C1; try discriminate; auto. }
  destruct R as (n0 & n1 & R1 & -> & -> & R2 & R3 & R4 & R5 & R6 & R7 & R8 & R9 & R10 & R11).
  unfold cnt_inv. cbv zeta. rewrite slots_S, filter_app, app_length. cbn [filter].
  split. { rewrite R1, Q1, H1. destruct (counted (s_tx s) (k, false)); destruct (counted (s_tx s) (k, true)); cbn [length]; lia. }
  do 9 (split; [congruence|]). split; [exact Q11|].
  intros i ps inp' Hi Ei' W NN. destruct (Nat.eq_dec i k) as [->|N].
  - rewrite Ei in Ei'. injection Ei' as <-. apply R11. rewrite C, W, NN. reflexivity.
  - apply (H12 i); auto. lia.
Qed.

Lemma cnt_init t : cnt_inv t 0 (mkL 0 0 0 0 0 [] [] [] (repeat None (length (vout t))) (repeat None (length (vout t)))).
Proof. unfold cnt_inv. cbn. repeat split; auto; try lia. all: intros; lia. Qed.

Lemma count_inputs_Val s L s' :
  for_in (seq 0 (length (vin (s_tx s)))) (count_input args)
    (mkL 0 0 0 0 0 [] [] [] (repeat None (length (vout (s_tx s)))) (repeat None (length (vout (s_tx s))))) s = (Val L, s') ->
  s' = s /\ cnt_inv (s_tx s) (length (vin (s_tx s))) L.
Proof.
  intros E. apply (for_in_inv (fun p L s0 => s0 = s /\ cnt_inv (s_tx s) (length p) L)) in E.
  - rewrite seq_length in E. exact E.
  - intros p x r st s0 st' s1 HS [-> HI] EB. apply seq_split in HS. destruct HS as [-> _]. cbn [Nat.add] in EB.
    apply count_input_Val in EB; [|exact HI]. rewrite app_length, Nat.add_1_r. exact EB.
  - split; [reflexivity|apply cnt_init].
Qed.

(** Output pass. *)
Definition out_ok (t : tx) (j : nat) (pub : bytes) : Prop :=
  is_fullyvalid z pub = true /\ exists o, nth_error (vout t) j = Some o /\ conf_is_explicit CConfValue (nValue o) = true
   /\ conf_is_explicit CConfAsset (nAsset o) = true /\ txout_is_fee o = false
   /\ (forall w, nth_error (vtxoutwit (wit t)) j = Some w -> outwit_is_null w = true).
Definition add_toblind (n : nat) (L : Loc) : Loc :=
  mkL (l_toblind L + n) (l_success L) (l_attempts L) (l_issattempts L) (l_blindsin L) (l_blinds L) (l_assetblinds L) (l_amounts L) (l_bfs L) (l_abfs L).

Lemma count_output_Val j pub L s L' s' : count_output z (j, pub) L s = (Val L', s') ->
  s' = s /\ ((is_nonempty pub = false /\ L' = L) \/ (is_nonempty pub = true /\ out_ok (s_tx s) j pub /\ L' = inc_toblind L)).
Proof.
  intros E. split; [exact (keeps_eq _ _ _ _ (keeps_count_output z (j, pub) L) E)|]. unfold count_output in E.
  destruct (is_nonempty pub); cbn [negb] in E; [|apply mret_Val in E; intuition].
  destruct (is_fullyvalid z pub) eqn:V; cbn [negb] in E; [|discriminate].
  apply bind_Val in E. destruct E as (t & s1 & E1 & E). apply get_Val in E1. destruct E1 as [-> ->].
  apply bind_Val in E. destruct E as (o & s1 & E1 & E). apply lift_Val in E1. destruct E1 as [Eo ->]. apply nth_res_Ok in Eo.
  destruct (conf_is_explicit CConfValue (nValue o)) eqn:X1; cbn [negb] in E; [|discriminate].
  destruct (conf_is_explicit CConfAsset (nAsset o)) eqn:X2; cbn [negb] in E; [|discriminate].
  destruct (match nth_error (vtxoutwit (wit (s_tx s))) j with Some w => negb (outwit_is_null w) | None => false end) eqn:X3; [discriminate|].
  destruct (txout_is_fee o) eqn:X4; [discriminate|]. apply mret_Val in E. destruct E as [-> _].
  right. split; [reflexivity|]. split; [|reflexivity]. split; [exact V|]. exists o. repeat (split; [assumption|]).
  intros w Ew. rewrite Ew in X3. apply negb_false_iff in X3. exact X3.
Qed.
Lemma count_outputs_Val L0 s L s' :
  for_in (combine (seq 0 (length (a_pubkeys args))) (a_pubkeys args)) (count_output z) L0 s = (Val L, s') ->
  s' = s /\ L = add_toblind (length (filter is_nonempty (a_pubkeys args))) L0
  /\ (forall j pub, nth_error (a_pubkeys args) j = Some pub -> is_nonempty pub = true -> out_ok (s_tx s) j pub).
Proof.
  intros E. apply (for_in_inv (fun p L s0 => s0 = s /\ L = add_toblind (length (filter is_nonempty (map snd p))) L0
    /\ (forall j pub, (j < length p)%nat -> nth_error (a_pubkeys args) j = Some pub -> is_nonempty pub = true -> out_ok (s_tx s) j pub))) in E.
  - rewrite enum_fst, enum_length in E. destruct E as (-> & -> & H). split; [reflexivity|]. split; [reflexivity|].
    intros j pub Ej. apply (H j pub); [|exact Ej]. apply nth_error_Some. congruence.
  - intros p [i x] r st s0 st' s1 HS (-> & -> & H) EB. apply enum_split in HS. destruct HS as (-> & Hx & _). cbn [Nat.add] in EB.
    apply count_output_Val in EB. destruct EB as [-> EB]. split; [reflexivity|]. rewrite map_app, filter_app, app_length. cbn [map snd filter].
    destruct EB as [[NE ->]|(NE & OK & ->)]; rewrite NE; cbn [length].
    + rewrite Nat.add_0_r. split; [reflexivity|]. intros j pub Hj Ej NP. rewrite app_length in Hj. cbn [length] in Hj.
      destruct (Nat.eq_dec j (length p)) as [->|N]; [congruence|]. apply H; auto. lia.
    + split. { unfold add_toblind, inc_toblind. cbn. rewrite !Nat.add_assoc, Nat.add_1_r. reflexivity. }
      intros j pub Hj Ej NP. rewrite app_length in Hj. cbn [length] in Hj.
      destruct (Nat.eq_dec j (length p)) as [->|N]; [congruence|]. apply H; auto. lia.
  - split; [reflexivity|]. split; [|intros j pub Hj; cbn in Hj; lia]. unfold add_toblind. cbn. rewrite Nat.add_0_r. destruct L0; reflexivity.
Qed.
End C.
