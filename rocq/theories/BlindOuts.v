(** The output pass of blind(), and the result of a complete blinding. *)
From Verif Require Import Base BaseFacts Serialize TxModel IssuanceModel ScriptModel MiscModel BlindModel BlindFacts SpecBlind BlindFrame BlindFails BlindSteps BlindTargets BlindCount BlindMain.
From Coq Require Import Lia.
Local Open Scope Z_scope.

Definition wants_out (args : blind_args) (j : nat) : bool := match nth j (a_pubkeys args) [] with [] => false | _ => true end.
Definition outs_to (args : blind_args) (m : nat) : list nat := filter (wants_out args) (seq 0 m).
Lemma outs_S args m : outs_to args (S m) = outs_to args m ++ (if wants_out args m then [m] else []).
Proof. unfold outs_to. rewrite seq_S, filter_app. reflexivity. Qed.
Lemma outs_In args m j : In j (outs_to args m) -> (j < m)%nat.
Proof. unfold outs_to. intros H. apply filter_In in H. destruct H as [H _]. apply in_seq in H. lia. Qed.
Lemma wants_nonempty args j pub : nth_error (a_pubkeys args) j = Some pub -> wants_out args j = is_nonempty pub.
Proof.
  intros H. unfold wants_out. assert (X : nth j (a_pubkeys args) [] = pub) by (apply nth_error_default; exact H). rewrite X. destruct pub as [|b p]; [reflexivity|].
  symmetry. apply nonempty_iff. discriminate.
Qed.

Section O.
Variables (z : Crypto) (rand : nat -> bytes) (args : blind_args) (t t1 : tx) (targets : list target) (La : Loc) (K : nat).
Hypothesis V1 : vout t1 = vout t.
Hypothesis PV : forall j pub, nth_error (a_pubkeys args) j = Some pub -> is_nonempty pub = true -> is_fullyvalid z pub = true.
Notation T := (l_toblind La).
Notation nb := (l_blindsin La).
Notation outs := (outs_to args).
Definition bfat (L : Loc) (j : nat) : bytes := or_zero (nth j (l_bfs L) None).
Definition abfat (L : Loc) (j : nat) : bytes := or_zero (nth j (l_abfs L) None).
Definition SumIs (L : Loc) (pre : list nat) (j : nat) (r : bytes) : Prop :=
  blind_sum z (map c_uint64 (l_amounts La) ++ map (out_amount t) (pre ++ [j]))
    (l_assetblinds La ++ map (abfat L) pre ++ [rand (K + 4 * length pre + 1)])
    (l_blinds La ++ map (bfat L) pre ++ [rand (K + 4 * length pre)])
    (S (K + length pre) + nb) (K + nb) = Some r.

Record OutDone (m : nat) (L : Loc) (s : St) : Prop := {
  od_draws : s_draws s = (K + 4 * length (outs m))%nat;
  od_vin : vin (s_tx s) = vin t1;
  od_inwit : vtxinwit (wit (s_tx s)) = vtxinwit (wit t1);
  od_nw : length (vtxoutwit (wit (s_tx s))) = length (vtxoutwit (wit t1));
  od_keep : forall j, ~ In j (outs m) -> nth_error (vout (s_tx s)) j = nth_error (vout t) j;
  od_bfl : length (l_bfs L) = length (vout t);
  od_abfl : length (l_abfs L) = length (vout t);
  od_none : forall j, (j < length (vout t))%nat -> ~ In j (outs m) -> nth_error (l_bfs L) j = Some None /\ nth_error (l_abfs L) j = Some None;
  od_blinds : l_blinds L = l_blinds La ++ map (bfat L) (outs m);
  od_ablinds : l_assetblinds L = l_assetblinds La ++ map (abfat L) (outs m);
  od_amounts : map c_uint64 (l_amounts L) = map c_uint64 (l_amounts La) ++ map (out_amount t) (outs m);
  od_out : forall k j, nth_error (outs m) k = Some j -> exists bf o o',
     nth_error (l_bfs L) j = Some (Some bf) /\ nth_error (l_abfs L) j = Some (Some (rand (K + 4 * k + 1)))
     /\ nth_error (vout t) j = Some o /\ nth_error (vout (s_tx s)) j = Some o'
     /\ (S (K + k) <> T -> bf = rand (K + 4 * k))
     /\ (S (K + k) = T -> bf <> zeros 32 /\ SumIs L (firstn k (outs m)) j bf)
     /\ BlindedOutput z args targets (nth j (a_pubkeys args) []) bf (rand (K + 4 * k + 1)) (rand (K + 4 * k + 2)) (rand (K + 4 * k + 3)) o o' (outwit_at (s_tx s) j)
}.
Definition OutInv (m : nat) (L : Loc) (s : St) : Prop :=
  l_toblind L = T /\ l_blindsin L = nb /\ l_issattempts L = K /\ l_attempts L = (K + length (outs m))%nat
  /\ (l_success L <= l_attempts L)%nat
  /\ (l_success L = l_attempts L -> OutDone m L s).

Lemma outwit_upd_same x n w' v : (n < length (vtxoutwit (wit x)))%nat ->
  outwit_at (set_outwits (set_vout x v) (upd (vtxoutwit (wit x)) n w')) n = w'.
Proof. intros H. unfold outwit_at. cbn [set_outwits wit vtxoutwit]. apply nth_error_default. apply upd_nth_same. exact H. Qed.
Lemma outwit_upd_other x n w' i v : n <> i ->
  outwit_at (set_outwits (set_vout x v) (upd (vtxoutwit (wit x)) n w')) i = outwit_at x i.
Proof. intros N. unfold outwit_at. cbn [set_outwits wit vtxoutwit]. rewrite nth_of_error, upd_nth_other by exact N. rewrite <- nth_of_error. reflexivity. Qed.


Lemma map_at_other n b ab L l : ~ In n l ->
  map (bfat (set_factors n b ab L)) l = map (bfat L) l /\ map (abfat (set_factors n b ab L)) l = map (abfat L) l.
Proof.
  intros H. split; apply map_ext_in; intros j Hj; assert (n <> j) by (intros ->; auto); unfold bfat, abfat; cbn [l_bfs l_abfs set_factors];
    rewrite !(nth_of_error _ j), upd_nth_other by assumption; reflexivity.
Qed.

Lemma out_step m pub L s L' s' : nth_error (a_pubkeys args) m = Some pub -> OutInv m L s ->
  blind_output z rand args (map tg_tag targets) (map tg_gen targets) (map tg_blind targets) (m, pub) L s = (Val L', s') -> OutInv (S m) L' s'.
Proof.
  intros HP (I1 & I2 & I3 & I4 & I5 & I6) E.
  assert (NI : ~ In m (outs m)) by (intros X; apply outs_In in X; lia).
  assert (W := wants_nonempty _ _ _ HP). assert (FA := outs_S args m).
  apply output_Val in E. destruct E as [(FV & -> & ->)|(FV & (C1 & C2 & C3 & C4) & E)].
  - assert (NE : is_nonempty pub = false).
    { destruct (is_nonempty pub) eqn:X; [|reflexivity]. rewrite (PV _ _ HP X) in FV. discriminate. }
    rewrite W, NE, app_nil_r in FA. unfold OutInv. rewrite FA. repeat (split; [assumption|]). intros EQ. specialize (I6 EQ).
    destruct I6. constructor; rewrite ?FA; auto.
  - assert (NE : is_nonempty pub = true). { unfold is_fullyvalid in FV. apply andb_prop in FV. apply FV. }
    rewrite W, NE in FA.
    assert (LEN : length (outs (S m)) = S (length (outs m))) by (rewrite FA, app_length; cbn; lia).
    unfold OutInv. rewrite LEN. split; [congruence|]. split; [congruence|]. split; [congruence|]. split; [lia|].
    destruct E as [SL|(o & amount & b & ab & o' & w' & Ho & Ha & Hab & Lab & Lb & HB & HL & BO & ST)].
    { split; [lia|]. intros EQ. exfalso. lia. }
    assert (SL : l_success L' = S (l_success L)) by (rewrite HL; reflexivity).
    split; [lia|]. intros EQ. assert (EQ0 : l_success L = l_attempts L) by lia. specialize (I6 EQ0).
    destruct I6 as [D1 D2 D3 DW D4 D5 D6 D7 D8 D9 D10 D11].
    unfold blinded_state in ST. cbn [s_tx s_draws] in ST. destruct ST as [Hw ->].
    assert (Ho0 : nth_error (vout t) m = Some o) by (rewrite <- D4; [exact Ho|exact NI]).
    assert (Hm : (m < length (vout (s_tx s)))%nat) by (apply nth_error_Some; congruence).
    assert (Hm0 : (m < length (vout t))%nat) by (apply nth_error_Some; congruence).
    set (Lf := add_blind b ab (add_amount amount (inc_attempts false L))) in HL.
    assert (EBF : l_bfs L' = upd (l_bfs L) m (Some b)) by (rewrite HL; reflexivity).
    assert (EABF : l_abfs L' = upd (l_abfs L) m (Some ab)) by (rewrite HL; reflexivity).
    assert (MO : forall l, ~ In m l -> map (bfat L') l = map (bfat L) l /\ map (abfat L') l = map (abfat L) l).
    { intros l Hl. destruct (map_at_other m b ab L l Hl) as [M1 M2]. split; [rewrite <- M1|rewrite <- M2]; apply map_ext; intros j; unfold bfat, abfat; cbn [set_factors l_bfs l_abfs]; congruence. }
    destruct (MO _ NI) as [MB MAB].
    assert (BM : bfat L' m = b). { unfold bfat. rewrite EBF, nth_of_error, upd_nth_same by lia. reflexivity. }
    assert (ABM : abfat L' m = ab). { unfold abfat. rewrite EABF, nth_of_error, upd_nth_same by lia. reflexivity. }
    constructor; cbn [s_tx s_draws set_outwits set_vout vin vout wit vtxinwit vtxoutwit].
    + lia.
    + exact D2.
    + exact D3.
    + rewrite upd_length. exact DW.
    + intros j Hj. rewrite FA in Hj. rewrite upd_nth_other. { apply D4. intros X. apply Hj. apply in_or_app. auto. }
      intros ->. apply Hj. apply in_or_app. right. left. reflexivity.
    + rewrite EBF, upd_length. exact D5.
    + rewrite EABF, upd_length. exact D6.
    + intros j Hj Nj. rewrite FA in Nj. assert (m <> j) by (intros ->; apply Nj; apply in_or_app; right; left; reflexivity).
      rewrite EBF, EABF, !upd_nth_other by assumption. apply D7; [exact Hj|]. intros X. apply Nj. apply in_or_app. auto.
    + rewrite FA, map_app, MB. cbn [map]. rewrite BM, app_assoc, <- D8. rewrite HL. reflexivity.
    + rewrite FA, map_app, MAB. cbn [map]. rewrite ABM, app_assoc, <- D9. rewrite HL. reflexivity.
    + rewrite FA, map_app. cbn [map]. rewrite app_assoc, <- D10. rewrite HL. cbn [inc_success set_factors l_amounts]. unfold Lf. cbn [add_blind add_amount inc_attempts l_amounts].
      rewrite map_app. f_equal. cbn [map]. f_equal. apply to_amount_explicit in Ha. destruct Ha as (d & Ed & _ & Ev). unfold out_amount. rewrite Ho0, Ed. symmetry. exact Ev.
    + intros k j Hk. rewrite FA in Hk. destruct (Nat.lt_ge_cases k (length (outs m))) as [LT|GE].
      * rewrite nth_error_app1 in Hk by exact LT. assert (Nj : m <> j) by (intros <-; apply NI; apply (nth_error_In _ _ Hk)).
        destruct (D11 k j Hk) as (bf & o1 & o1' & E1 & E2 & E3 & E4 & E5 & E6 & E7). exists bf, o1, o1'.
        rewrite EBF, EABF, !upd_nth_other by exact Nj. repeat (split; [assumption|]). split.
        { intros X. destruct (E6 X) as [X1 X2]. split; [exact X1|]. rewrite FA. rewrite firstn_app.
          replace (k - length (outs m))%nat with 0%nat by lia. cbn [firstn]. rewrite app_nil_r.
          unfold SumIs in *. destruct (MO (firstn k (outs m))) as [M1 M2]; [|rewrite M1, M2; exact X2].
          intros X3. apply NI. rewrite <- (firstn_skipn k (outs m)). apply in_or_app. auto. }
        rewrite outwit_upd_other by exact Nj. exact E7.
      * rewrite nth_error_app2 in Hk by exact GE. destruct (k - length (outs m))%nat as [|q] eqn:KM; [|destruct q; discriminate].
        cbn in Hk. injection Hk as <-. assert (HK : k = length (outs m)) by (apply nth_error_None in Hk || lia).
        exists b, o, o'. rewrite EBF, EABF, !upd_nth_same by lia. rewrite outwit_upd_same by exact Hw.
        replace (K + 4 * k + 1)%nat with (S (s_draws s)) by lia. replace (K + 4 * k + 2)%nat with (S (S (s_draws s))) by lia.
        replace (K + 4 * k + 3)%nat with (S (S (S (s_draws s)))) by lia. replace (K + 4 * k)%nat with (s_draws s) by lia.
        rewrite <- Hab. assert (XP : nth m (a_pubkeys args) [] = pub) by (apply nth_error_default; exact HP). rewrite XP.
        split; [reflexivity|]. split; [reflexivity|]. split; [exact Ho0|]. split; [reflexivity|]. split.
        { intros X. destruct HB as [[_ HB]|[HB _]]; [exact HB|]. exfalso. lia. }
        split; [|exact BO].
        intros X. destruct HB as [[HB _]|(_ & HB & NZ)]; [exfalso; lia|]. split; [exact NZ|].
        destruct HB as (F1 & F2 & F3 & _). rewrite FA, firstn_app. replace (k - length (outs m))%nat with 0%nat by lia. cbn [firstn]. rewrite app_nil_r.
        rewrite HK, firstn_all. unfold SumIs. rewrite MB, MAB. rewrite I3, I4, I2 in F3. rewrite D8, D9, map_app, D10, <- !app_assoc in F3.
        replace (K + 4 * length (outs m) + 1)%nat with (S (s_draws s)) by lia. replace (K + 4 * length (outs m))%nat with (s_draws s) by lia. rewrite <- Hab.
        rewrite map_app. cbn [map] in F3 |- *. assert (OA : c_uint64 amount = out_amount t m).
        { apply to_amount_explicit in Ha. destruct Ha as (d & Ed & _ & Ev). unfold out_amount. rewrite Ho0, Ed. symmetry. exact Ev. }
        rewrite <- OA. exact F3.
Qed.

Lemma out_init s : s_tx s = t1 -> s_draws s = K -> l_success La = K -> l_attempts La = K -> l_issattempts La = K ->
  l_bfs La = repeat None (length (vout t)) -> l_abfs La = repeat None (length (vout t)) -> OutInv 0 La s.
Proof.
  intros A B C D E F G. unfold OutInv, outs_to. cbn [seq filter length]. repeat (split; [lia || congruence|]). intros _.
  constructor; unfold outs_to; cbn [seq filter length map]; rewrite ?app_nil_r, ?A, ?F, ?G, ?repeat_length; auto.
  - lia.
  - intros j _. rewrite V1. reflexivity.
  - intros j Hj _. split; apply nth_error_repeat; exact Hj.
  - intros [|k]; discriminate.
Qed.

Notation pubs := (combine (seq 0 (length (a_pubkeys args))) (a_pubkeys args)).
Lemma outputs_phase s o s' : OutInv 0 La s -> for_in pubs (blind_output z rand args (map tg_tag targets) (map tg_gen targets) (map tg_blind targets)) La s = (o, s') ->
  match o with
  | Val L => OutInv (length (a_pubkeys args)) L s'
  | Ret r => exists m pub L s1, nth_error (a_pubkeys args) m = Some pub /\ OutInv m L s1
       /\ blind_output z rand args (map tg_tag targets) (map tg_gen targets) (map tg_blind targets) (m, pub) L s1 = (Ret r, s')
  | Exc e => True
  end.
Proof.
  intros HI E. apply (for_in_inv (fun p L s => OutInv (length p) L s)) in E.
  - destruct o as [L|r|e]; [rewrite enum_length in E; exact E| |exact I].
    destruct E as (p & [i pub] & r0 & L & s1 & HS & I & E). apply enum_split in HS. destruct HS as (-> & HP & _).
    exists (length p), pub, L, s1. auto.
  - intros p [i pub] r L s0 L' s1 HS I EB. apply enum_split in HS. destruct HS as (-> & HP & _). cbn [Nat.add] in EB.
    rewrite app_length, Nat.add_1_r. exact (out_step _ _ _ _ _ _ HP I EB).
  - exact HI.
Qed.

(** A null factor for the last output. *)
Lemma out_null m pub L s r s' : nth_error (a_pubkeys args) m = Some pub -> OutInv m L s ->
  blind_output z rand args (map tg_tag targets) (map tg_gen targets) (map tg_blind targets) (m, pub) L s = (Ret r, s') ->
  exists L1, r = blinding_result args L1 /\ outs (S m) = outs m ++ [m] /\ (S (K + length (outs m)) = T)%nat /\ l_toblind L1 = T
    /\ l_bfs L1 = l_bfs L /\ l_abfs L1 = l_abfs L
    /\ ((l_success L1 = l_success L)
        \/ (l_success L1 = S (l_success L) /\ s_tx s' = s_tx s
            /\ (l_success L = l_attempts L -> OutDone m L s /\ SumIs L (outs m) m (zeros 32) /\ (m < length (vout t))%nat))).
Proof.
  intros HP (I1 & I2 & I3 & I4 & I5 & I6) E.
  assert (NI : ~ In m (outs m)) by (intros X; apply outs_In in X; lia).
  apply output_Ret_inv in E. destruct E as (FV & -> & EQ & o & amount & L1 & Ho & Ha & -> & T1 & B1 & B2 & E).
  exists L1. split; [reflexivity|]. split.
  { rewrite outs_S, (wants_nonempty _ _ _ HP). unfold is_fullyvalid in FV. apply andb_prop in FV. destruct FV as [-> _]. reflexivity. }
  split; [lia|]. split; [congruence|]. split; [exact B1|]. split; [exact B2|].
  destruct E as [(E1 & E2 & E3)|(E1 & E2 & _)]; [left; exact E1|right]. split; [exact E1|]. split; [reflexivity|].
  intros EQS. specialize (I6 EQS). split; [exact I6|]. destruct I6 as [D1 D2 D3 DW D4 D5 D6 D7 D8 D9 D10 D11].
  assert (Ho0 : nth_error (vout t) m = Some o) by (rewrite <- D4; [exact Ho|exact NI]).
  split; [|apply nth_error_Some; congruence].
  destruct E2 as (F1 & F2 & F3 & _). unfold SumIs. rewrite I3, I4, I2 in F3. rewrite D8, D9, map_app, D10, <- !app_assoc in F3.
  replace (K + 4 * length (outs m) + 1)%nat with (S (s_draws s)) by lia. replace (K + 4 * length (outs m))%nat with (s_draws s) by lia.
  rewrite map_app. cbn [map] in F3 |- *. assert (OA : c_uint64 amount = out_amount t m).
  { apply to_amount_explicit in Ha. destruct Ha as (d & Ed & _ & Ev). unfold out_amount. rewrite Ho0, Ed. symmetry. exact Ev. }
  rewrite <- OA. exact F3.
Qed.
End O.
