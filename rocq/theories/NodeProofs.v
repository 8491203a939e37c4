(** What successive blind() calls leave, as a validating node sees it. *)
From Verif Require Import Base BaseFacts TxModel BlindModel SpecBlind SpecBalance BlindBalance BlindComplete BlindProps BlindFrame SpecUnblind SpecMulti MultiProofs SpecNode.
From Coq Require Import Lia Setoid Morphisms Permutation.
Local Open Scope Z_scope.

Lemma Forall2_of_nth {A B} (R : A -> B -> Prop) l l' : length l = length l' ->
  (forall i a b, nth_error l i = Some a -> nth_error l' i = Some b -> R a b) -> Forall2 R l l'.
Proof.
  revert l'. induction l as [|a l IH]; intros [|b l'] L H; try discriminate L; constructor; [apply (H 0%nat); reflexivity|].
  apply IH; [cbn in L; lia|]. intros i. exact (H (S i)).
Qed.
Lemma Forall2_nth_l {A B} (R : A -> B -> Prop) l l' : Forall2 R l l' -> forall i a, nth_error l i = Some a -> exists b, nth_error l' i = Some b /\ R a b.
Proof. induction 1 as [|x y l l' H F IH]; intros [|i] a E; try discriminate E; cbn in *; [exists y; split; [reflexivity|congruence]|eauto]. Qed.
Lemma Forall2_len {A B} (R : A -> B -> Prop) l l' : Forall2 R l l' -> length l = length l'.
Proof. induction 1; cbn; congruence. Qed.

(** Inputs that differ at most in the confidentiality of what they issue. *)
Definition SameIn (a b : txin) : Prop :=
  prevout b = prevout a /\ is_nonce (assetIssuance b) = is_nonce (assetIssuance a) /\ is_entropy (assetIssuance b) = is_entropy (assetIssuance a)
  /\ forall ps, iss_field ps b = [] <-> iss_field ps a = [].
Lemma SameIn_refl a : SameIn a a. Proof. split; [reflexivity|]. split; [reflexivity|]. split; [reflexivity|]. intros; reflexivity. Qed.
Lemma SameIn_sym a b : SameIn a b -> SameIn b a.
Proof. intros (A & B & C & D). split; [congruence|]. split; [congruence|]. split; [congruence|]. intros ps. rewrite D. reflexivity. Qed.
Lemma SameIn_trans a b c : SameIn a b -> SameIn b c -> SameIn a c.
Proof. intros (A & B & C & D) (A' & B' & C' & D'). split; [congruence|]. split; [congruence|]. split; [congruence|]. intros ps. rewrite D', D. reflexivity. Qed.
Lemma Same_refl l : Forall2 SameIn l l. Proof. induction l; constructor; [apply SameIn_refl|assumption]. Qed.
Lemma Same_sym l l' : Forall2 SameIn l l' -> Forall2 SameIn l' l. Proof. induction 1; constructor; [apply SameIn_sym; assumption|assumption]. Qed.
Lemma Same_trans l l' l'' : Forall2 SameIn l l' -> Forall2 SameIn l' l'' -> Forall2 SameIn l l''.
Proof.
  intros F. revert l''. induction F as [|a b l l' H F IH]; intros l'' F'; inversion F' as [|b' c lb lc H' F'']; subst; constructor; [eapply SameIn_trans; eassumption|auto].
Qed.
Lemma Same_entropy z a b e : SameIn a b -> EntropyOf z a e -> EntropyOf z b e.
Proof. intros (P & N & E & _). unfold EntropyOf. rewrite P, N, E. auto. Qed.
Lemma Same_input z args i tok a b l tok' : SameIn a b -> InputTargets z args i tok a l tok' -> InputTargets z args i tok b l tok'.
Proof.
  intros S (d & g & l1 & l2 & H1 & H2 & H3 & H4 & H5). exists d, g, l1, l2. split; [exact H1|]. split; [exact H2|]. split; [exact H3|]. split; [exact H4|].
  assert (FA := proj2 (proj2 (proj2 S)) false). assert (FK := proj2 (proj2 (proj2 S)) true). cbn [iss_field] in FA, FK.
  destruct H5 as [(A & K & X)|(e & NN & EN & T1 & T2 & A & K)].
  - left. split; [apply FA; exact A|]. split; [apply FK; exact K|]. exact X.
  - right. exists e. split; [rewrite FA, FK; exact NN|]. split; [eapply Same_entropy; eassumption|]. destruct S as (_ & N & _). rewrite N.
    split; [exact T1|]. split; [exact T2|]. rewrite FA, FK. split; [exact A|exact K].
Qed.
Lemma Same_from z args i tok ins l tok' : TargetsFrom z args i tok ins l tok' -> forall ins', Forall2 SameIn ins ins' -> TargetsFrom z args i tok ins' l tok'.
Proof.
  induction 1 as [i tok|i tok inp rest l tok' ls tok'' H T IH]; intros ins' F; inversion F as [|a b la lb S F']; subst; [constructor|].
  econstructor; [eapply Same_input; eassumption|apply IH; exact F'].
Qed.
Lemma Same_targets z args t t' l : Forall2 SameIn (vin t) (vin t') -> SurjectionTargets z args t l -> SurjectionTargets z args t' l.
Proof.
  intros F (l1 & l2 & tok & T & A & E). exists l1, l2, tok. split; [eapply Same_from; eassumption|]. rewrite <- (Forall2_len _ _ _ F). split; assumption.
Qed.
Lemma all_issuances_frame args t t' rest : Frame args t t' -> all_issuances rest t' = all_issuances rest t.
Proof. intros FR. unfold all_issuances. induction rest as [|a rest IH]; [reflexivity|]. cbn [flat_map]. rewrite IH, (frame_tasks _ _ _ _ FR). reflexivity. Qed.
Lemma task_key args t i ps inp : nth_error (vin t) i = Some inp ->
  In (i, ps) (issuance_tasks args t) <-> nth i (if ps then a_token_keys args else a_asset_keys args) None <> None.
Proof.
  intros EI. unfold issuance_tasks. rewrite filter_In. unfold wants_issuance. cbn [fst snd]. split.
  - intros [_ W]. destruct (nth i _ None); [discriminate|discriminate W].
  - intros N. split; [|destruct (nth i _ None); [reflexivity|congruence]].
    unfold issuance_slots. apply in_flat_map. exists i. split; [apply in_seq; split; [lia|cbn; apply nth_error_Some; congruence]|]. destruct ps; [right; left; reflexivity|left; reflexivity].
Qed.
Lemma frame_proof args t t' i ps inp : Frame args t t' -> nth_error (vin t) i = Some inp ->
  ~ In (i, ps) (issuance_tasks args t) -> iss_proof ps (inwit_at t' i) = iss_proof ps (inwit_at t i).
Proof.
  intros FR EI NI. destruct (fr_inwit _ _ _ _ _ FR i) as (_ & _ & FA & FK). rewrite (task_key _ _ _ _ _ EI) in NI.
  unfold iss_proof. destruct ps; [apply FK|apply FA]; intros [X _]; exact (NI X).
Qed.

Section H.
Context {z : Crypto} {order : Z}.
Hypothesis SO : SizesOk z.
Hypothesis LAW : BlindSumLaw z order.

Lemma call_full args rand n bfs abfs s t :
  blind_transaction z rand args t = (Ret (BSuccess n bfs abfs), s) ->
  a_strict args = true -> ~ stray_key args t -> output_tasks args <> [] ->
  (forall j, In j (output_tasks args) -> nth_error bfs j <> Some (zeros 32)) ->
  exists targets, SurjectionTargets z args t targets /\ Complete z rand args t targets (s_tx s) bfs abfs /\ Frame args t (s_tx s).
Proof.
  intros H ST NS NE NZ. destruct (blind_success z rand args t _ _ _ _ H) as (_ & A & B).
  assert (NB := good_of_success _ _ _ _ _ _ _ _ H). assert (FR := blind_transaction_frame z rand args t). rewrite H in FR. cbn [snd] in FR.
  assert (LP : (length (a_pubkeys args) <= length (vout t))%nat) by (apply Nat.nlt_ge; intros Q; apply NB; left; lia).
  destruct (B (A ST NS)) as (targets & TG & [C|C]); [exists targets; auto|].
  exfalso. destruct C as (pre & j & ET & AB & _).
  assert (IN : In j (output_tasks args)) by (rewrite ET; apply in_or_app; right; left; reflexivity).
  assert (ND := output_tasks_NoDup args). rewrite ET in ND. apply NoDup_remove_2 in ND. rewrite app_nil_r in ND.
  assert (LJ : (j < length (vout t))%nat). { unfold output_tasks in IN. apply filter_In in IN. destruct IN as [IN _]. apply in_seq in IN. lia. }
  destruct (ab_rest _ _ _ _ _ _ _ _ _ AB j LJ ND) as (R1 & _). exact (NZ j IN R1).
Qed.

Lemma call_same args rand t targets done t' bfs abfs : AllBlinded z rand args t targets done t' bfs abfs -> Frame args t t' -> Forall2 SameIn (vin t) (vin t').
Proof.
  intros AB FR. apply Forall2_of_nth; [symmetry; exact (fr_nin _ _ _ _ _ FR)|]. intros i a b E1 E2.
  destruct (fr_in _ _ _ _ _ FR i a b E1 E2) as (P & _ & _ & _ & N & E & _). split; [exact P|]. split; [exact N|]. split; [exact E|]. intros ps.
  destruct (in_dec (fun x y : nat * bool => ltac:(decide equality; [apply Bool.bool_dec|apply Nat.eq_dec]) : {x = y} + {x <> y}) (i, ps) (issuance_tasks args t)) as [IN|NI].
  - destruct (blinded_field _ _ _ _ _ _ _ _ _ _ SO AB IN) as (x & y & H1 & H2 & (u & d & X & _) & _). assert (x = a) by congruence. assert (y = b) by congruence. subst x y.
    apply In_nth_error in IN. destruct IN as [k Hk]. destruct (ab_iss _ _ _ _ _ _ _ _ _ AB k i ps Hk) as (key & inp & inp' & _ & H3 & H4 & BI).
    assert (inp' = b) by congruence. subst inp'. destruct BI as (u' & e & asset & gen & commit & _ & _ & _ & _ & _ & _ & ES & _).
    rewrite X. destruct (so_comser z SO _ _ ES) as (dd & _ & [E' | E']); rewrite E'; split; discriminate.
  - rewrite (frame_field _ _ _ _ _ _ _ FR E1 E2 NI). reflexivity.
Qed.

(** What became of an output, and of an issued amount. *)
Definition OutDone (calls : list blind_args) (t : tx) (o o' : txout) (w' : outwit) : Prop :=
  exists args targets pub bf abf eph seed, In args calls /\ SurjectionTargets z args t targets /\ BlindedOutput z args targets pub bf abf eph seed o o' w'.
Definition IssDone (calls : list blind_args) (ps : bool) (inp inp' : txin) (w' : inwit) : Prop :=
  exists args key bf, In args calls /\ BlindedIssuance z args ps key bf inp inp' w'.
Record History (calls : list blind_args) (t t' : tx) : Prop := {
  hi_in : Forall2 SameIn (vin t) (vin t');
  hi_nout : length (vout t') = length (vout t);
  hi_nwit : (length (vtxinwit (wit t)) <= length (vtxinwit (wit t')))%nat;
  hi_targets : forall args, In args calls -> exists targets, SurjectionTargets z args t targets;
  hi_out : forall j o, nth_error (vout t) j = Some o -> exists o', nth_error (vout t') j = Some o'
    /\ ((o' = o /\ outwit_at t' j = outwit_at t j) \/ OutDone calls t o o' (outwit_at t' j));
  hi_iss : forall i ps inp, nth_error (vin t) i = Some inp -> exists inp', nth_error (vin t') i = Some inp' /\
    ((~ In (i, ps) (all_issuances calls t) /\ iss_field ps inp' = iss_field ps inp /\ iss_proof ps (inwit_at t' i) = iss_proof ps (inwit_at t i))
     \/ (In (i, ps) (all_issuances calls t) /\ IssDone calls ps inp inp' (inwit_at t' i)))
}.
Lemma blinded_not_explicit args targets pub bf abf eph seed o o' w' : BlindedOutput z args targets pub bf abf eph seed o o' w' -> forall u, ~ ExplicitValue (nValue o') u.
Proof.
  intros (u & asset & gen & commit & sh & mv & _ & _ & _ & _ & _ & ES & _) u' (d & E & _).
  destruct (so_comser z SO _ _ ES) as (dd & _ & [E' | E']); rewrite E' in E; discriminate E.
Qed.
Lemma blinded_was_explicit args targets pub bf abf eph seed o o' w' : BlindedOutput z args targets pub bf abf eph seed o o' w' -> exists u, ExplicitValue (nValue o) u.
Proof. intros (u & asset & gen & commit & sh & mv & X & _). eauto. Qed.

Lemma history calls t t' : Blindings z calls t t' -> History calls t t'.
Proof.
  induction 1 as [t|args rest rand n bfs abfs s t t' H ST NS NE NZ BL IH].
  { constructor; [apply Same_refl|reflexivity|lia|intros args []|intros j o E; exists o; auto|].
    intros i ps inp E. exists inp. split; [exact E|]. left. split; [intros []|auto]. }
  destruct (call_full _ _ _ _ _ _ _ H ST NS NE NZ) as (targets & TG & (AB & _) & FR). set (t1 := s_tx s) in *.
  assert (SM := call_same _ _ _ _ _ _ _ _ AB FR). assert (AI := all_issuances_frame _ _ _ rest FR).
  constructor.
  - eapply Same_trans; [exact SM|apply (hi_in _ _ _ IH)].
  - rewrite (hi_nout _ _ _ IH). exact (fr_nout _ _ _ _ _ FR).
  - assert (A := hi_nwit _ _ _ IH). assert (B := fr_ninwit _ _ _ _ _ FR). lia.
  - intros a [<-|IN]; [eauto|]. destruct (hi_targets _ _ _ IH a IN) as [l T]. exists l. eapply Same_targets; [apply Same_sym, SM|exact T].
  - intros j o EO. destruct (in_dec Nat.eq_dec j (output_tasks args)) as [IN|NI].
    + assert (IN' := IN). apply In_nth_error in IN'. destruct IN' as [k Hk].
      destruct (ab_out _ _ _ _ _ _ _ _ _ AB k j Hk) as (bf & abf & o0 & o1 & _ & _ & E1 & E2 & _ & _ & BO). assert (o0 = o) by congruence. subst o0.
      destruct (hi_out _ _ _ IH j o1 E2) as (o' & EO' & [(-> & EW)|(a & tg & pub & b & ab & ep & sd & _ & _ & BO')]).
      * exists o1. split; [exact EO'|]. right. rewrite EW. exists args, targets, (nth j (a_pubkeys args) []), bf, abf, (rand (length (issuance_tasks args t) + 4 * k + 2)%nat), (rand (length (issuance_tasks args t) + 4 * k + 3)%nat).
        split; [left; reflexivity|]. split; [exact TG|exact BO].
      * exfalso. destruct (blinded_was_explicit _ _ _ _ _ _ _ _ _ _ BO') as [u X]. exact (blinded_not_explicit _ _ _ _ _ _ _ _ _ _ BO u X).
    + assert (NW : ~ wants_output args j) by (rewrite wants_output_task; exact NI).
      assert (E1 : nth_error (vout t1) j = Some o).
      { destruct (nth_error (vout t1) j) as [o1|] eqn:E1.
        - f_equal. exact (proj2 (fr_out _ _ _ _ _ FR j o o1 EO E1) NW).
        - exfalso. apply nth_error_None in E1. rewrite (fr_nout _ _ _ _ _ FR) in E1. assert (j < length (vout t))%nat by (apply nth_error_Some; congruence). lia. }
      assert (EW1 := fr_outwit _ _ _ _ _ FR j NW).
      destruct (hi_out _ _ _ IH j o E1) as (o' & EO' & [(-> & EW)|(a & tg & pub & b & ab & ep & sd & IN & TG' & BO')]).
      * exists o. split; [exact EO'|]. left. split; [reflexivity|congruence].
      * exists o'. split; [exact EO'|]. right. exists a, tg, pub, b, ab, ep, sd. split; [right; exact IN|]. split; [eapply Same_targets; [apply Same_sym, SM|exact TG']|exact BO'].
  - intros i ps inp EI. destruct (Forall2_nth_l _ _ _ SM i inp EI) as (inp1 & E1 & S1). destruct (hi_iss _ _ _ IH i ps inp1 E1) as (inp' & EI' & D). rewrite AI in D. exists inp'. split; [exact EI'|].
    unfold all_issuances in *. cbn [flat_map]. set (T1 := issuance_tasks args t) in *. set (T2 := flat_map _ rest) in *.
    destruct (in_dec (fun x y : nat * bool => ltac:(decide equality; [apply Bool.bool_dec|apply Nat.eq_dec]) : {x = y} + {x <> y}) (i, ps) T1) as [IN|NI].
    + right. split; [apply in_or_app; left; exact IN|].
      assert (IN' := IN). apply In_nth_error in IN'. destruct IN' as [k Hk]. destruct (ab_iss _ _ _ _ _ _ _ _ _ AB k i ps Hk) as (key & x & y & _ & H3 & H4 & BI).
      assert (x = inp) by congruence. assert (y = inp1) by congruence. subst x y.
      destruct D as [(NI2 & EF & EP)|(_ & a & ky & b & _ & BI')].
      * exists args, key, (rand k). split; [left; reflexivity|]. destruct BI as (u & e & asset & gen & commit & X). exists u, e, asset, gen, commit. rewrite EF, EP. exact X.
      * exfalso. destruct BI as (u & e & asset & gen & commit & _ & _ & _ & _ & _ & _ & ES & _). destruct BI' as (u' & e' & as' & g' & c' & (d' & X & _) & _).
        destruct (so_comser z SO _ _ ES) as (dd & _ & [E' | E']); rewrite E' in X; discriminate X.
    + assert (EF1 := frame_field _ _ _ _ _ _ _ FR EI E1 NI). assert (EP1 := frame_proof _ _ _ _ _ _ FR EI NI).
      destruct D as [(NI2 & EF & EP)|(IN2 & a & ky & b & INa & BI')].
      * left. split; [rewrite in_app_iff; tauto|]. split; [rewrite EF; exact EF1|rewrite EP; exact EP1].
      * right. split; [apply in_or_app; right; exact IN2|]. exists a, ky, b. split; [right; exact INa|].
        destruct BI' as (u & e & asset & gen & commit & X1 & X2 & X3 & X4). exists u, e, asset, gen, commit. rewrite <- EF1. split; [exact X1|]. split; [eapply Same_entropy; [apply SameIn_sym; exact S1|exact X2]|].
        split; [|exact X4]. intros HP. destruct S1 as (_ & N1 & _). rewrite <- N1. auto.
Qed.
End H.
