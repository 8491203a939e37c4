(** Proofs about the harness of the swap examples, continued: the step that the last wish is to undo; the asset swap. *)
From Verif Require Import Base SessionModel SpecSession SessionProofs SessionProofs2.

(** ** outside the last wish *)
Definition own (p : program) : list label := flat_map (fun i => match i with Do b => basic_labels b | SetWish _ => [] | Try b h => flat_map basic_labels b ++ flat_map basic_labels h end) p.
Definition Tame (ls : list label) (s s' : state) : Prop := exists d, seen s' = seen s ++ d /\ (wishes d = O -> about d ls).
Lemma tame_trans a b s s1 s' : Tame a s s1 -> Tame b s1 s' -> Tame (a ++ b) s s'.
Proof.
  intros (d & D & A) (e & E & B). exists (d ++ e). rewrite E, D, <- app_assoc. split; [reflexivity|]. rewrite wishes_app. intros Z. apply about_app; [apply A|apply B]; lia.
Qed.
Lemma tame_incl a b s s' : Tame a s s' -> incl a b -> Tame b s s'.
Proof. intros (d & D & A) I. exists d. split; [exact D|]. intros Z. exact (about_incl _ _ _ (A Z) I). Qed.
Lemma tame_see x ls s s' : seen s' = seen s ++ [x] -> about [x] ls -> Tame ls s s'.
Proof. intros E A. exists [x]. auto. Qed.
Lemma about_nil ls : about [] ls.
Proof. intros l [[]|[]]. Qed.
Lemma tame_id s s' : seen s' = seen s -> Tame [] s s'.
Proof. intros E. exists []. rewrite app_nil_r. split; [exact E|]. intros _. apply about_nil. Qed.
Lemma tame_wish s g s' : do_last_wish s = (g, s') -> Tame [] s s'.
Proof.
  intros E. destruct (wish s) eqn:W.
  - unfold do_last_wish in E. rewrite W in E. apply says_basics in E; [|intros a b c X; inversion X; subst; split; [apply incl_appl, incl_refl|]; exists []; rewrite app_nil_r; split; [reflexivity|apply about_nil]].
    destruct E as (_ & d & D & _). exists (WishBegins :: d). cbn [see seen] in D. rewrite D, <- app_assoc. split; [reflexivity|]. discriminate.
  - unfold do_last_wish in E. rewrite W in E. inversion E; subst. apply tame_id. reflexivity.
Qed.
Lemma tame_die x s g s' : die do_last_wish x s = (g, s') -> Tame [] s s'.
Proof. unfold die. destruct (do_last_wish s) as [g1 s1] eqn:L. apply tame_wish in L. intros D. destruct g1; inversion D; subst; exact L. Qed.
Lemma tame_basic b s g s' : run_basic do_last_wish b s = (g, s') -> Tame (basic_labels b) s s'.
Proof.
  assert (A1 : forall l, about [Begins l] [l] /\ about [Ends l] [l]) by (intros l; split; intros x [[X|[]]|[X|[]]]; inversion X; left; reflexivity).
  assert (A2 : forall t r, about [Got t] r /\ about [Unexpected t] r /\ about [Sent t] r) by (intros t r; repeat split; intros x [[X|[]]|[X|[]]]; discriminate X).
  destruct b as [l|t|t|]; cbn [run_basic basic_labels]; intros E.
  - unfold step in E. cbn [see steps inbox wish seen] in E. destruct (steps s) as [|[| |p] r].
    + inversion E; subst. apply (tame_see (Begins l)); [reflexivity|apply A1].
    + inversion E; subst. apply (tame_incl ([l] ++ [l])); [|intros x [X|[X|[]]]; left; exact X].
      eapply (tame_trans [l] [l] s (mkState r (inbox s) (wish s) (seen s ++ [Begins l]))); [apply (tame_see (Begins l))|apply (tame_see (Ends l))]; try reflexivity; apply A1.
    + inversion E; subst. apply (tame_see (Begins l)); [reflexivity|apply A1].
    + apply tame_die in E. apply (tame_incl ([l] ++ [])); [|rewrite app_nil_r; apply incl_refl]. eapply tame_trans; [|exact E]. apply (tame_see (Begins l)); [reflexivity|apply A1].
  - inversion E; subst. apply (tame_see (Sent t)); [reflexivity|apply A2].
  - unfold recv in E. destruct (inbox s) as [|[|m] r].
    + inversion E; subst. apply tame_id. reflexivity.
    + apply tame_die in E. exact E.
    + destruct (mtype_eqb m Bye); [|destruct (mtype_eqb m t)].
      * destruct (do_last_wish _) as [g1 s1] eqn:L in E. apply tame_wish in L. assert (s' = s1) as -> by (destruct g1; inversion E; reflexivity).
        refine (tame_trans [] [] s _ s1 _ L). apply (tame_see (Got m)); [reflexivity|apply A2].
      * inversion E; subst. apply (tame_see (Got m)); [reflexivity|apply A2].
      * apply tame_die in E. refine (tame_trans [] [] s _ s' _ E). apply (tame_see (Unexpected m)); [reflexivity|apply A2].
  - inversion E; subst. apply tame_id. reflexivity.
Qed.
Lemma tame_basics w : forall s g s', run_basics do_last_wish w s = (g, s') -> Tame (flat_map basic_labels w) s s'.
Proof.
  induction w as [|b w IH]; intros s g s' E; cbn [run_basics flat_map] in *.
  - inversion E; subst. apply tame_id. reflexivity.
  - destruct (run_basic _ b s) as [g1 s1] eqn:B. apply tame_basic in B. destruct g1; try (inversion E; subst; apply (tame_incl _ _ _ _ B), incl_appl, incl_refl).
    exact (tame_trans _ _ _ _ _ B (IH _ _ _ E)).
Qed.
Lemma tame_run p : forall s g s', run p s = (g, s') -> Tame (own p) s s'.
Proof.
  induction p as [|i p IH]; intros s g s' E; cbn [run] in E; unfold own; cbn [flat_map].
  - inversion E; subst. apply tame_id. reflexivity.
  - destruct (run_item i s) as [g1 s1] eqn:R. match goal with |- Tame (?x ++ _) _ _ => assert (A : Tame x s s1) end.
    { destruct i as [b|w|bd hd]; cbn [run_item] in R.
      - exact (tame_basic b s g1 s1 R).
      - inversion R; subst. apply (tame_see WishSet); [reflexivity|]. intros l [[X|[]]|[X|[]]]; discriminate X.
      - destruct (run_basics do_last_wish bd s) as [g2 s2] eqn:B. apply tame_basics in B.
        destruct g2; try (inversion R; subst; apply (tame_incl _ _ _ _ B), incl_appl, incl_refl).
        apply tame_basics in R. exact (tame_trans _ _ _ _ _ B R). }
    destruct g1; try (inversion E; subst; apply (tame_incl _ _ _ _ A), incl_appl, incl_refl).
    exact (tame_trans _ _ _ _ _ A (IH _ _ _ E)).
Qed.
(** A step that is not in the program outside its last wish is begun only in a last wish. *)
Lemma own_step p e i f s l : process p e i = (f, s) -> ~ In l (Connect :: own p) -> wishes (seen s) = O -> ~ In (Begins l) (seen s).
Proof.
  intros E N W I. unfold process, participant in E. destruct (run _ _) as [g s1] eqn:R. apply tame_run in R.
  assert (X : exists d, seen s = seen s1 ++ d /\ (wishes d = O -> about d [])).
  { destruct g; try (inversion E; subst; exists []; rewrite app_nil_r; split; [reflexivity|intros _; apply about_nil]).
    destruct (do_last_wish s1) as [g2 s2] eqn:L. apply tame_wish in L. destruct L as (d & D & A).
    destruct g2; inversion E; subst; try (exists d; solve [auto]). exists (d ++ [Sent Bye]). cbn [see seen]. rewrite D, <- app_assoc. split; [reflexivity|].
    rewrite wishes_app. cbn. intros Z. assert (Z' : wishes d = O) by lia. intros x H. apply (A Z' x). destruct H as [H|H]; apply in_app_iff in H; (destruct H as [H|[H|[]]]; [|discriminate H]); auto. }
  destruct X as (d & D & A). destruct R as (d1 & D1 & A1). cbn in D1. rewrite D, D1, wishes_app in W. rewrite D, D1 in I. apply in_app_iff in I.
  destruct I as [I|I].
  - apply N. apply (A1 ltac:(lia) l). left. exact I.
  - apply (A ltac:(lia) l). left. exact I.
Qed.

(** ** up to the step that the last wish is to undo *)
Lemma participant_seen p s0 f s : participant p s0 = (f, s) -> exists g s1 d, run p s0 = (g, s1) /\ seen s = seen s1 ++ d /\ about d (wish_labels s1).
Proof.
  unfold participant. destruct (run p s0) as [g s1]. intros E. exists g, s1.
  destruct g; try (inversion E; subst; exists []; rewrite app_nil_r; split; [reflexivity|]; split; [reflexivity|apply about_nil]).
  destruct (do_last_wish s1) as [g2 s2] eqn:L. apply says_wish in L. destruct L as (_ & d & D & A). rewrite app_nil_r in A.
  destruct g2; inversion E; subst; try (exists d; solve [auto]). exists (d ++ [Sent Bye]). cbn [see seen]. rewrite D, <- app_assoc. split; [reflexivity|]. split; [reflexivity|].
  intros x H. apply A. destruct H as [H|H]; apply in_app_iff in H; (destruct H as [H|[H|[]]]; [|discriminate H]); auto.
Qed.
Lemma reached pre l w post e i f s : ~ In l (labels (Do (Step Connect) :: pre)) -> process (pre ++ Do (Step l) :: SetWish w :: post) e i = (f, s) ->
  (In (Ends l) (seen s) /\ In WishSet (seen s)) \/ (~ In (Ends l) (seen s) /\ about (seen s) (labels (Do (Step Connect) :: pre) ++ [l])).
Proof.
  intros N E. destruct (participant_seen _ _ _ _ E) as (g & s1 & d & R & D & A). clear E.
  change (Do (Step Connect) :: pre ++ Do (Step l) :: SetWish w :: post) with ((Do (Step Connect) :: pre) ++ Do (Step l) :: SetWish w :: post) in R.
  rewrite run_app in R. set (P := Do (Step Connect) :: pre) in *. destruct (run P (start e i)) as [g0 s0] eqn:R0. apply says_run in R0. destruct R0 as (I0 & d0 & D0 & A0).
  cbn in D0, I0. change (about d0 (labels P)) in A0.
  assert (STOP : forall s2 d2, incl (wish_labels s2) (labels P) -> seen s = seen s2 ++ d2 -> about d2 (wish_labels s2) -> seen s2 = d0 \/ (exists d3, seen s2 = d0 ++ Begins l :: d3 /\ about d3 (labels P)) ->
    ~ In (Ends l) (seen s) /\ about (seen s) (labels P ++ [l])).
  { intros s2 d2 I2 D2 A2 H. assert (X : forall x, In (Ends x) (seen s) -> In x (labels P)).
    { intros x. rewrite D2. intros H1. apply in_app_iff in H1. destruct H1 as [H1|H1]; [|apply I2, A2; auto].
      destruct H as [H|(d3 & H & A3)]; rewrite H in H1; [apply A0; auto|]. apply in_app_iff in H1. destruct H1 as [H1|[H1|H1]]; [apply A0; auto|discriminate H1|apply A3; auto]. }
    split; [intros H1; exact (N (X l H1))|]. intros x [H1|H1]; [|apply in_app_iff; left; apply X; exact H1].
    rewrite D2 in H1. apply in_app_iff in H1. apply in_app_iff. destruct H1 as [H1|H1]; [|left; apply I2, A2; auto].
    destruct H as [H|(d3 & H & A3)]; rewrite H in H1; [left; apply A0; auto|]. apply in_app_iff in H1.
    destruct H1 as [H1|[H1|H1]]; [left; apply A0; auto|inversion H1; right; left; reflexivity|left; apply A3; auto]. }
  destruct g0; try (injection R as <- <-; right; apply (STOP s0 d I0 D A); left; exact D0).
  cbn [run run_item run_basic] in R. unfold step in R. cbn [see steps inbox wish seen] in R. destruct (steps s0) as [|[| |p] r].
  - injection R as <- <-. right. match type of D with _ = seen ?x ++ _ => refine (STOP x d I0 D A _) end. right. exists []. cbn [see seen]. rewrite D0. split; [reflexivity|apply about_nil].
  - left. match type of R with run post ?x = _ => set (s2 := x) in * end. apply says_run in R. destruct R as (_ & d3 & D3 & _).
    rewrite D, D3. cbn [s2 seen see]. rewrite !in_app_iff. cbn. intuition.
  - injection R as <- <-. right. match type of D with _ = seen ?x ++ _ => refine (STOP x d I0 D A _) end. right. exists []. cbn [see seen]. rewrite D0. split; [reflexivity|apply about_nil].
  - right. destruct (die _ _ _) as [g2 s2] eqn:DI in R. assert (s1 = s2) as ->.
    { unfold die in DI. destruct (do_last_wish _) as [g3 s3]. destruct g3; try destruct p; inversion DI; subst; inversion R; reflexivity. }
    unfold die in DI. destruct (do_last_wish _) as [g3 s3] eqn:L in DI. apply says_wish in L. assert (s2 = s3) as -> by (destruct g3; inversion DI; reflexivity).
    destruct L as (I3 & d3 & D3 & A3). rewrite app_nil_r in I3, A3. cbn [seen] in D3. change (about d3 (wish_labels s0)) in A3. change (incl (wish_labels s3) (wish_labels s0)) in I3.
    apply (STOP s3 d (incl_tran I3 I0) D A). right. exists d3. rewrite D3, D0, <- app_assoc. split; [reflexivity|]. exact (about_incl _ _ _ A3 I0).
Qed.

(** ** the asset swap after the partially signed transaction is sent *)
Lemma steps_suffix lw w : (forall s g s', lw s = (g, s') -> exists u, steps s = u ++ steps s') -> forall s g s', run_basics lw w s = (g, s') -> exists u, steps s = u ++ steps s'.
Proof.
  intros LW. assert (DI : forall s x g s', die lw x s = (g, s') -> exists u, steps s = u ++ steps s').
  { intros s x g s' D. unfold die in D. destruct (lw s) as [g1 s1] eqn:L. apply LW in L. destruct g1; inversion D; subst; exact L. }
  induction w as [|b w IH]; intros s g s' E; cbn [run_basics] in E.
  - inversion E; subst. exists []. reflexivity.
  - destruct (run_basic lw b s) as [g1 s1] eqn:B. assert (X : exists u, steps s = u ++ steps s1).
    { clear E. destruct b as [l|t|t|]; cbn [run_basic] in B.
      - unfold step in B. cbn [see steps inbox wish seen] in B. destruct (steps s) as [|[| |p] r] eqn:K.
        + inversion B; subst. exists []. cbn. auto.
        + inversion B; subst. exists [Fine]. reflexivity.
        + inversion B; subst. exists [Throws]. reflexivity.
        + apply DI in B. destruct B as (u & B). exists (Dies p :: u). cbn [app]. f_equal. exact B.
      - inversion B; subst. exists []. reflexivity.
      - unfold recv in B. destruct (inbox s) as [|[|m] r].
        + inversion B; subst. exists []. reflexivity.
        + apply DI in B. exact B.
        + destruct (mtype_eqb m Bye); [|destruct (mtype_eqb m t)].
          * destruct (lw _) as [g2 s2] eqn:L in B. apply LW in L. assert (s1 = s2) as -> by (destruct g2; inversion B; reflexivity). exact L.
          * inversion B; subst. exists []. reflexivity.
          * apply DI in B. exact B.
      - inversion B; subst. exists []. reflexivity. }
    destruct g1; try (inversion E; subst; exact X). apply IH in E. destruct X as (u & X), E as (v & E). exists (u ++ v). rewrite X, E, app_assoc. reflexivity.
Qed.
Lemma steps_wish s g s' : do_last_wish s = (g, s') -> exists u, steps s = u ++ steps s'.
Proof.
  unfold do_last_wish. destruct (wish s) as [w|]; intros E; [|inversion E; subst; exists []; reflexivity].
  apply steps_suffix in E; [exact E|]. intros a b c X. inversion X; subst. exists []. reflexivity.
Qed.
Lemma steps_run p : forall s g s', run p s = (g, s') -> exists u, steps s = u ++ steps s'.
Proof.
  induction p as [|i p IH]; intros s g s' E; cbn [run] in E; [inversion E; subst; exists []; reflexivity|].
  destruct (run_item i s) as [g1 s1] eqn:R. assert (X : exists u, steps s = u ++ steps s1).
  { clear E. destruct i as [b|w|bd hd]; cbn [run_item] in R.
    - apply (steps_suffix do_last_wish [b] steps_wish s g1). cbn [run_basics]. rewrite R. destruct g1; reflexivity.
    - inversion R; subst. exists []. reflexivity.
    - destruct (run_basics do_last_wish bd s) as [g2 s2] eqn:B. apply (steps_suffix _ _ steps_wish) in B.
      destruct g2; try (inversion R; subst; exact B). apply (steps_suffix _ _ steps_wish) in R. destruct B as (u & B), R as (v & R). exists (u ++ v). rewrite B, R, app_assoc. reflexivity. }
  destruct g1; try (inversion E; subst; exact X). apply IH in E. destruct X as (u & X), E as (v & E). exists (u ++ v). rewrite X, E, app_assoc. reflexivity.
Qed.
Definition asset_before : program := firstn 12 asset_alice.
Definition asset_after : program := skipn 12 asset_alice.
Lemma asset_split : asset_alice = asset_before ++ asset_after.
Proof. reflexivity. Qed.
Lemma plain_before : Plain (Do (Step Connect) :: asset_before).
Proof. intros x X. cbn in X. repeat (destruct X as [X|X]; [subst x; cbn; repeat split; discriminate|]). destruct X. Qed.
Lemma before_signed e i g s : run (Do (Step Connect) :: asset_before) (start e i) = (g, s) ->
  wish s = None /\ (~ In SignedTx (sent (seen s)) /\ ~ In Thanks (sent (seen s))) /\ about (seen s) (labels (Do (Step Connect) :: asset_before)) /\ (g = Go -> ~ In Bye (heard (seen s))) /\ exists u, e = u ++ steps s.
Proof.
  intros R. assert (SH : Shaped (Do (Step Connect) :: asset_before)) by (intros x X; assert (P := plain_before x X); destruct x; [exact P|exact P|contradiction P]).
  destruct (along _ SH (start e i) g s I R) as (_ & d & a1 & a2 & tl & S1 & A1 & N1 & H1 & _ & T1 & G & _). cbn in S1.
  assert (W : wish s = None).
  { assert (A := after_run asset_before _ plain_before (fun w X => match X with or_introl Y => ltac:(discriminate Y) | or_intror Y => Y end) (start e i) g s).
    destruct (A (conj eq_refl (conj I (fun F => F))) R) as ([(_ & _ & C)|(C & _)] & _); [|exact C].
    destruct (wish s); [|reflexivity]. exfalso. destruct C as (_ & C). cbn in C. repeat (destruct C as [C|C]; [discriminate C|]). exact C. }
  split; [exact W|]. split.
  - rewrite S1, N1. split; intros X; [assert (Y : In SignedTx (sends (acts (Do (Step Connect) :: asset_before)))) by (rewrite A1, sends_app; apply in_app_iff; left; exact X)
      |assert (Y : In Thanks (sends (acts (Do (Step Connect) :: asset_before)))) by (rewrite A1, sends_app; apply in_app_iff; left; exact X)];
    cbn in Y; repeat (destruct Y as [Y|Y]; [discriminate Y|]); exact Y.
  - split; [|split].
    + assert (R' := says_run _ _ _ _ R). destruct R' as (_ & d' & D' & A'). cbn [start seen app] in D'. rewrite D'. exact A'.
    + intros ->. rewrite S1, H1. destruct T1 as [(-> & _)|[(_ & _ & X & _)|(_ & X & _)]]; try congruence. rewrite app_nil_r. intros X.
      assert (Y : In Bye (recvs (acts (Do (Step Connect) :: asset_before)))) by (rewrite A1, recvs_app; apply in_app_iff; left; exact X).
      cbn in Y. repeat (destruct Y as [Y|Y]; [discriminate Y|]). exact Y.
    + assert (R' := steps_run _ _ _ _ R). exact R'.
Qed.
Lemma got_heard l t : In (Got t) l -> In t (heard l).
Proof. induction l as [|x l IH]; intros []; [subst x; left; reflexivity|]. destruct x; cbn; auto. Qed.
