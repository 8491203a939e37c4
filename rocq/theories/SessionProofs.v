(** Proofs about the harness of the swap examples (C94). *)
From Verif Require Import Base SessionModel SpecSession.

Lemma mtype_eqb_spec a b : reflect (a = b) (mtype_eqb a b).
Proof. destruct a, b; constructor; congruence. Qed.
Lemma sent_app a b : sent (a ++ b) = sent a ++ sent b.
Proof. induction a as [|[] a IH]; cbn; rewrite ?IH; reflexivity. Qed.
Lemma heard_app a b : heard (a ++ b) = heard a ++ heard b.
Proof. induction a as [|[] a IH]; cbn; rewrite ?IH; reflexivity. Qed.
Lemma wishes_app a b : wishes (a ++ b) = (wishes a + wishes b)%nat.
Proof. induction a as [|[] a IH]; cbn; rewrite ?IH; reflexivity. Qed.
Lemma sends_app a b : sends (a ++ b) = sends a ++ sends b.
Proof. unfold sends. rewrite filter_app, map_app. reflexivity. Qed.
Lemma recvs_app a b : recvs (a ++ b) = recvs a ++ recvs b.
Proof. unfold recvs. rewrite filter_app, map_app. reflexivity. Qed.

(** ** the last wish *)
Definition quiet (d : list effect) : Prop := forall e, In e d -> exists l, e = Begins l \/ e = Ends l.
Lemma quiet_facts d : quiet d -> sent d = [] /\ heard d = [] /\ wishes d = O /\ ~ In WishSet d /\ ~ Confused d.
Proof.
  induction d as [|e d IH]; intros Q; [repeat split; try reflexivity; [intros []|intros (t & [])]|].
  assert (Q' : quiet d) by (intros x X; apply Q; right; exact X). destruct (IH Q') as (A & B & C & D & E).
  destruct (Q e (or_introl eq_refl)) as (l & [->| ->]); cbn; repeat split; auto; try (intros [X|X]; [discriminate X|exact (D X)]);
    intros (t & [X|X]); try discriminate X; apply E; exists t; exact X.
Qed.
Lemma quiet_app a b : quiet a -> quiet b -> quiet (a ++ b).
Proof. intros A B e I. apply in_app_iff in I. destruct I; auto. Qed.
Lemma run_steps w : Steps w -> forall s g s', run_basics no_wish w s = (g, s') ->
  inbox s' = inbox s /\ wish s' = wish s /\ g <> Listening /\ exists d, seen s' = seen s ++ d /\ quiet d.
Proof.
  induction w as [|b w IH]; intros SW s g s' E; cbn [run_basics] in E.
  - inversion E; subst. repeat split; try discriminate. exists []. rewrite app_nil_r. split; [reflexivity|intros e []].
  - destruct (SW b (or_introl eq_refl)) as (l & ->). cbn [run_basic] in E. unfold step, die, no_wish in E. cbn [see steps inbox wish seen] in E.
    assert (Q1 : quiet [Begins l]) by (intros e [<-|[]]; eauto).
    destruct (steps s) as [|[| |p] r].
    + inversion E; subst. cbn [see inbox wish seen]. repeat split; try discriminate. exists [Begins l]. auto.
    + destruct (IH (fun b I => SW b (or_intror I)) _ _ _ E) as (A & B & C & d & D & Q). cbn [see inbox wish seen] in *. repeat split; auto.
      exists ([Begins l] ++ [Ends l] ++ d). rewrite D, <- !app_assoc. split; [reflexivity|]. apply quiet_app; [exact Q1|apply quiet_app; [|exact Q]]. intros e [<-|[]]; eauto.
    + inversion E; subst. cbn [see inbox wish seen]. repeat split; try discriminate. exists [Begins l]. auto.
    + destruct p; inversion E; subst; cbn [see inbox wish seen]; (split; [reflexivity|]; split; [reflexivity|]; split; [discriminate|]; exists [Begins l]; auto).
Qed.
Definition good (s : state) : Prop := match wish s with None => True | Some w => Steps w end.
Lemma do_wish s g s' : good s -> do_last_wish s = (g, s') ->
  inbox s' = inbox s /\ wish s' = None /\ g <> Listening /\
  exists d, seen s' = seen s ++ (match wish s with None => [] | Some _ => WishBegins :: d end) /\ quiet d.
Proof.
  unfold good, do_last_wish. destruct (wish s) as [w|] eqn:W; intros G E.
  - destruct (run_steps w G _ _ _ E) as (A & B & C & d & D & Q). cbn [see inbox wish seen] in *. repeat split; auto. exists d. rewrite D, <- app_assoc. auto.
  - inversion E; subst. repeat split; try discriminate; auto. exists []. rewrite app_nil_r. split; [reflexivity|intros e []].
Qed.
(** only what is heard and sent of it *)
Lemma do_wish_mute s g s' : good s -> do_last_wish s = (g, s') -> inbox s' = inbox s /\ g <> Listening /\ good s' /\
  exists d, seen s' = seen s ++ d /\ sent d = [] /\ heard d = [] /\ ~ Confused d.
Proof.
  intros G E. destruct (do_wish s g s' G E) as (A & B & C & d & D & Q). destruct (quiet_facts d Q) as (Q1 & Q2 & _ & _ & Q5).
  split; [exact A|]. split; [exact C|]. split; [unfold good; rewrite B; exact I|]. eexists. split; [exact D|]. destruct (wish s); cbn; repeat split; auto; intros (t & X); [|destruct X].
  destruct X as [X|X]; [discriminate X|apply Q5; exists t; exact X].
Qed.

(** ** messages: how far a program has come *)
(** [d]: what is seen; the acts split into those done and the others; what is heard besides *)
Definition Along (ac : list (bool * mtype)) (s : state) (g : signal) (s' : state) : Prop :=
  good s' /\ exists d a1 a2 tail, seen s' = seen s ++ d /\ ac = a1 ++ a2 /\ sent d = sends a1 /\ heard d = recvs a1 ++ tail
    /\ arrived (inbox s) = heard d ++ arrived (inbox s')
    /\ (tail = [] /\ ~ Confused d \/ tail = [Bye] /\ ~ Confused d /\ g <> Go /\ g <> Listening
        \/ (exists m t a3, tail = [m] /\ a2 = (false, t) :: a3 /\ m <> t /\ m <> Bye) /\ g <> Go /\ g <> Listening)
    /\ (g = Go -> a2 = []) /\ (g = Listening -> inbox s' = [] /\ exists t a3, a2 = (false, t) :: a3).
Lemma not_confused_app a b : ~ Confused a -> ~ Confused b -> ~ Confused (a ++ b).
Proof. intros A B (t & X). apply in_app_iff in X. destruct X as [X|X]; [apply A|apply B]; exists t; exact X. Qed.
Lemma not_confused_one e : (forall t, e <> Unexpected t) -> ~ Confused [e].
Proof. intros H (t & [X|[]]). exact (H t X). Qed.
Lemma along_go a b s s1 g s' : Along a s Go s1 -> Along b s1 g s' -> Along (a ++ b) s g s'.
Proof.
  intros (_ & d & a1 & a2 & tl & S1 & A1 & N1 & H1 & I1 & T1 & G1 & _) (GD & e & b1 & b2 & te & S2 & B1 & N2 & H2 & I2 & T2 & G2 & L2). split; [exact GD|].
  specialize (G1 eq_refl). subst a2. rewrite app_nil_r in A1. subst a1.
  destruct T1 as [(-> & C1)|[(_ & _ & X & _)|(_ & X & _)]]; try congruence. rewrite app_nil_r in H1.
  exists (d ++ e), (a ++ b1), b2, te. rewrite S2, S1, B1, !app_assoc, sent_app, heard_app, sends_app, recvs_app, N1, N2, H1, H2, I1, I2, H2, H1, !app_assoc.
  repeat (split; [reflexivity|]). split; [|split; [exact G2|exact L2]].
  destruct T2 as [(X & C2)|[(X & C2 & Y)|X]]; [left|right; left|right; right; exact X]; auto using not_confused_app.
Qed.
(** a program that stops before its acts are at their end *)
Lemma along_stop a b s g s' : g <> Go -> Along a s g s' -> Along (a ++ b) s g s'.
Proof.
  intros NG (GD & d & a1 & a2 & tl & S1 & A1 & N1 & H1 & I1 & T1 & G1 & L1). split; [exact GD|].
  exists d, a1, (a2 ++ b), tl. rewrite app_assoc, <- A1. repeat (split; [assumption || reflexivity|]).
  split; [|split; [congruence|]].
  - destruct T1 as [X|[X|((m & t & a3 & X1 & X2 & X3) & X)]]; [left; exact X|right; left; exact X|right; right]. split; [|exact X].
    exists m, t, (a3 ++ b). rewrite X2. auto.
  - intros X. destruct (L1 X) as (Y & t & a3 & Z). split; [exact Y|]. exists t, (a3 ++ b). rewrite Z. reflexivity.
Qed.
(** steps, last wishes and the like *)
Lemma along_mute a s g s' d : good s' -> inbox s' = inbox s -> seen s' = seen s ++ d -> sent d = [] -> heard d = [] -> ~ Confused d -> (g = Go -> a = []) -> g <> Listening -> Along a s g s'.
Proof.
  intros G EI ES D1 D2 D3 E L. split; [exact G|]. exists d, [], a, []. cbn. rewrite D1, D2. cbn [app]. rewrite EI. do 6 (split; [solve [auto]|]). split; [exact E|congruence].
Qed.
Lemma along_basic b s g s' : b <> SysExit -> b <> Recv Bye -> good s -> run_basic do_last_wish b s = (g, s') -> Along (basic_acts b) s g s'.
Proof.
  intros NX NB G E. destruct b as [l|t|t|]; [| | |congruence]; cbn [run_basic basic_acts] in *.
  - assert (M : ~ Confused [Begins l]) by (apply not_confused_one; discriminate).
    unfold step, die in E. cbn [see steps inbox wish seen] in E. destruct (steps s) as [|[| |p] r].
    + inversion E; subst. apply (along_mute _ _ _ _ [Begins l]); auto; discriminate.
    + inversion E; subst. apply (along_mute _ _ _ _ [Begins l; Ends l]); auto; try discriminate; [cbn [see seen]; rewrite <- app_assoc; reflexivity|].
      apply (not_confused_app [Begins l] [Ends l]); apply not_confused_one; discriminate.
    + inversion E; subst. apply (along_mute _ _ _ _ [Begins l]); auto; discriminate.
    + destruct (do_last_wish _) as [g1 s1] eqn:W in E. apply do_wish_mute in W; [|exact G]. destruct W as (A & C & GD & d & D & D1 & D2 & D3). cbn [inbox seen] in A, D.
      assert (X : s' = s1 /\ (g = Go -> False) /\ g <> Listening) by (destruct g1; try destruct p; inversion E; subst; repeat split; congruence).
      destruct X as (-> & NG & NL). apply (along_mute _ _ _ _ (Begins l :: d)); auto; [rewrite D, <- app_assoc; reflexivity|apply (not_confused_app [Begins l] d); auto].
  - inversion E; subst. split; [exact G|]. exists [Sent t], [(true, t)], [], []. cbn. do 5 (split; [solve [auto]|]). split; [left; split; [reflexivity|apply not_confused_one; discriminate]|]. split; [auto|discriminate].
  - unfold recv, die in E. destruct (inbox s) as [|[|m] r] eqn:IB.
    + inversion E; subst. split; [exact G|]. exists [], [], [(false, t)], []. rewrite app_nil_r. cbn. rewrite IB. do 5 (split; [solve [auto]|]).
      split; [left; split; [reflexivity|intros (x & [])]|]. split; [discriminate|]. intros _. split; [reflexivity || exact IB|]. eauto.
    + destruct (do_last_wish _) as [g1 s1] eqn:W in E. apply do_wish_mute in W; [|exact G]. destruct W as (A & C & GD & d & D & D1 & D2 & D3). cbn [inbox seen] in A, D.
      assert (X : s' = s1 /\ g <> Go /\ g <> Listening) by (destruct g1; inversion E; subst; repeat split; congruence). destruct X as (-> & NG & NL).
      split; [exact GD|]. exists d, [], [(false, t)], []. rewrite D, D1, D2, A, IB. cbn. do 5 (split; [solve [auto]|]). split; [left; auto|]. split; congruence.
    + destruct (mtype_eqb_spec m Bye) as [->|NY].
      * destruct (do_last_wish _) as [g1 s1] eqn:W in E. apply do_wish_mute in W; [|exact G]. destruct W as (A & C & GD & d & D & D1 & D2 & D3). cbn [see inbox seen] in A, D.
        assert (X : s' = s1 /\ g <> Go /\ g <> Listening) by (destruct g1; inversion E; subst; repeat split; congruence). destruct X as (-> & NG & NL).
        split; [exact GD|]. exists (Got Bye :: d), [], [(false, t)], [Bye]. rewrite D, <- app_assoc. cbn. rewrite D1, D2, A, IB. cbn. do 5 (split; [solve [auto]|]).
        split; [right; left; repeat split; auto; apply (not_confused_app [Got Bye] d); [apply not_confused_one; discriminate|exact D3]|]. split; congruence.
      * destruct (mtype_eqb_spec m t) as [->|NT].
        -- inversion E; subst. split; [exact G|]. exists [Got t], [(false, t)], [], []. cbn. rewrite IB. cbn. do 5 (split; [solve [auto]|]).
           split; [left; split; [reflexivity|apply not_confused_one; discriminate]|]. split; [auto|discriminate].
        -- destruct (do_last_wish _) as [g1 s1] eqn:W in E. apply do_wish_mute in W; [|exact G]. destruct W as (A & C & GD & d & D & D1 & D2 & D3). cbn [see inbox seen] in A, D.
           assert (X : s' = s1 /\ g <> Go /\ g <> Listening) by (destruct g1; inversion E; subst; repeat split; congruence). destruct X as (-> & NG & NL).
           split; [exact GD|]. exists (Unexpected m :: d), [], [(false, t)], [m]. rewrite D, <- app_assoc. cbn. rewrite D1, D2, A, IB. cbn. do 5 (split; [solve [auto]|]).
           split; [right; right; split; [|auto]; exists m, t, []; auto|]. split; congruence.
Qed.
Lemma along_nil s : good s -> Along [] s Go s.
Proof. intros G. apply (along_mute _ _ _ _ []); auto; try discriminate; [rewrite app_nil_r; reflexivity|intros (t & [])]. Qed.
Lemma along_basics l : (forall b, In b l -> b <> SysExit /\ b <> Recv Bye) -> forall s g s', good s -> run_basics do_last_wish l s = (g, s') -> Along (flat_map basic_acts l) s g s'.
Proof.
  induction l as [|b l IH]; intros H s g s' G E; cbn [run_basics flat_map] in *.
  - inversion E; subst. apply along_nil. exact G.
  - destruct (H b (or_introl eq_refl)) as (H1 & H2). destruct (run_basic do_last_wish b s) as [g1 s1] eqn:B. assert (A := along_basic _ _ _ _ H1 H2 G B).
    destruct g1; try (inversion E; subst; apply along_stop; [discriminate|exact A]).
    apply (along_go _ _ _ s1); [exact A|]. apply IH; [intros x X; apply H; right; exact X|apply A|exact E].
Qed.
Lemma handler h : Steps h -> forall s g s', good s -> run_basics do_last_wish (h ++ [SysExit]) s = (g, s') ->
  inbox s' = inbox s /\ good s' /\ g <> Go /\ g <> Listening /\ exists d, seen s' = seen s ++ d /\ sent d = [] /\ heard d = [] /\ ~ Confused d.
Proof.
  induction h as [|b h IH]; intros SH s g s' G E; cbn [app run_basics run_basic] in E.
  - inversion E; subst. repeat split; auto; try discriminate. exists []. rewrite app_nil_r. repeat split. intros (t & []).
  - destruct (SH b (or_introl eq_refl)) as (l & ->). cbn [run_basic] in E. unfold step, die in E. cbn [see steps inbox wish seen] in E.
    assert (M : ~ Confused [Begins l]) by (apply not_confused_one; discriminate).
    destruct (steps s) as [|[| |p] r].
    + inversion E; subst. repeat split; auto; try discriminate. exists [Begins l]. auto.
    + apply IH in E; [|intros x X; apply SH; right; exact X|exact G]. destruct E as (A & B & C & C2 & d & D & D1 & D2 & D3). cbn [see inbox seen] in *. repeat split; auto.
      exists ([Begins l] ++ [Ends l] ++ d). rewrite D, <- !app_assoc. split; [reflexivity|]. cbn. repeat split; auto.
      apply (not_confused_app [Begins l]); [exact M|]. apply (not_confused_app [Ends l]); [apply not_confused_one; discriminate|exact D3].
    + inversion E; subst. repeat split; auto; try discriminate. exists [Begins l]. auto.
    + destruct (do_last_wish _) as [g1 s1] eqn:W in E. apply do_wish_mute in W; [|exact G]. destruct W as (A & C & GD & d & D & D1 & D2 & D3). cbn [inbox seen] in A, D.
      assert (X : s' = s1 /\ g <> Go /\ g <> Listening) by (destruct g1; try destruct p; inversion E; subst; repeat split; congruence). destruct X as (-> & NG & NL).
      repeat split; auto. exists (Begins l :: d). rewrite D, <- app_assoc. cbn. repeat split; auto. apply (not_confused_app [Begins l] d); auto.
Qed.
Lemma along_item i s g s' : match i with
  | Do b => b <> SysExit /\ b <> Send Bye /\ b <> Recv Bye
  | SetWish w => Steps w
  | Try body handler => (forall b, In b body -> b <> SysExit /\ b <> Recv Bye /\ forall t, b <> Send t) /\ exists h, handler = h ++ [SysExit] /\ Steps h
  end -> good s -> run_item i s = (g, s') -> Along (item_acts i) s g s'.
Proof.
  intros H G E. destruct i as [b|w|body hd]; cbn [run_item item_acts] in *.
  - destruct H as (H1 & _ & H2). exact (along_basic _ _ _ _ H1 H2 G E).
  - inversion E; subst. apply (along_mute _ _ _ _ [WishSet]); auto; try discriminate; try exact H; apply not_confused_one; discriminate.
  - destruct H as (HB & h & -> & SH). destruct (run_basics do_last_wish body s) as [g1 s1] eqn:B.
    assert (A := along_basics body (fun b I => conj (proj1 (HB b I)) (proj1 (proj2 (HB b I)))) s g1 s1 G B).
    destruct g1; try (inversion E; subst; exact A).
    destruct A as (G1 & d & a1 & a2 & tl & S1 & A1 & N1 & H1 & I1 & T1 & _).
    destruct (handler h SH s1 g s' G1 E) as (I2 & G2 & NG & NL & e & S2 & E1 & E2 & E3). split; [exact G2|].
    exists (d ++ e), a1, a2, tl. rewrite S2, S1, sent_app, heard_app, E1, E2, !app_nil_r, <- app_assoc, I2. repeat (split; [assumption || reflexivity|]).
    split; [|split; congruence]. destruct T1 as [(X & Y)|[(X & Y & _)|(X & _)]]; [left|right; left|right; right]; auto using not_confused_app.
Qed.
Lemma along p : Shaped p -> forall s g s', good s -> run p s = (g, s') -> Along (acts p) s g s'.
Proof.
  induction p as [|i p IH]; intros H s g s' G E; unfold acts; cbn [run flat_map] in *.
  - inversion E; subst. apply along_nil. exact G.
  - destruct (run_item i s) as [g1 s1] eqn:R. assert (A := along_item i s g1 s1 (H i (or_introl eq_refl)) G R).
    destruct g1; try (inversion E; subst; apply along_stop; [discriminate|exact A]).
    apply (along_go _ _ _ s1); [exact A|]. apply IH; [intros x X; apply H; right; exact X|apply A|exact E].
Qed.

(** the whole process *)
Definition Progress (ac : list (bool * mtype)) (i : list incoming) (f : fate) (s : state) : Prop :=
  exists a1 a2 tail bye, ac = a1 ++ a2 /\ sent (seen s) = sends a1 ++ bye /\ heard (seen s) = recvs a1 ++ tail /\ arrived i = heard (seen s) ++ arrived (inbox s)
    /\ (tail = [] /\ ~ Confused (seen s) \/ tail = [Bye] /\ ~ Confused (seen s) /\ f <> Listens /\ f <> Returned
        \/ (exists m t a3, tail = [m] /\ a2 = (false, t) :: a3 /\ m <> t /\ m <> Bye) /\ f <> Listens /\ f <> Returned)
    /\ (bye = [] \/ bye = [Bye] /\ f = Exited)
    /\ (f = Returned -> a2 = [] /\ bye = []) /\ (f = Listens -> inbox s = [] /\ exists t a3, a2 = (false, t) :: a3).
Lemma progress p e i f s : Shaped p -> process p e i = (f, s) -> Progress (acts p) i f s.
Proof.
  intros SH E. unfold process, participant in E. destruct (run _ _) as [g s1] eqn:R.
  assert (SH' : Shaped (Do (Step Connect) :: p)) by (intros x [<-|X]; [split; [discriminate|]; split; discriminate|apply SH; exact X]).
  assert (A := along _ SH' (start e i) g s1 I R). destruct A as (G1 & d & a1 & a2 & tl & S1 & A1 & N1 & H1 & I1 & T1 & GG & GL).
  cbn [start seen app inbox] in *. change (acts p = a1 ++ a2) in A1. rewrite <- S1 in *.
  destruct g; try (inversion E; subst f s; exists a1, a2, tl, []; rewrite app_nil_r; do 4 (split; [solve [auto]|]);
    (split; [destruct T1 as [X|[(X & Y & Z1 & Z2)|(X & Z1 & Z2)]]; [left; exact X|right; left; repeat split; auto; congruence|right; right; repeat split; auto; congruence]|]);
    split; [auto|]; split; [intros X; try discriminate X; split; auto|intros X; try discriminate X; auto]; fail).
  (* an exception *)
  destruct (do_last_wish s1) as [g2 s2] eqn:W. destruct (do_wish_mute _ _ _ G1 W) as (A & C & GD & d2 & D & D1 & D2 & D3).
  assert (X : exists bye, sent (seen s) = sent (seen s2) ++ bye /\ heard (seen s) = heard (seen s2) /\ (Confused (seen s) -> Confused (seen s2)) /\ inbox s = inbox s2
     /\ (bye = [] \/ bye = [Bye] /\ f = Exited) /\ f <> Returned /\ f <> Listens).
  { destruct g2; try congruence; inversion E; subst f s; try (exists []; rewrite app_nil_r; repeat split; auto; discriminate).
    exists [Bye]. cbn [see seen inbox]. rewrite sent_app, heard_app, app_nil_r. repeat split; auto; try discriminate.
    intros (t & X). apply in_app_iff in X. destruct X as [X|[X|[]]]; [exists t; exact X|discriminate X]. }
  destruct X as (bye & X1 & X2 & X3 & X4 & X5 & X6 & X7). exists a1, a2, tl, bye. rewrite X1, X2, X4, D, sent_app, heard_app, D1, D2, !app_nil_r, A.
  split; [exact A1|]. split; [rewrite N1; reflexivity|]. split; [exact H1|]. split; [exact I1|]. split; [|split; [exact X5|split; congruence]].
  assert (NC : ~ Confused (seen s1) -> ~ Confused (seen s)).
  { intros N Y. apply X3 in Y. rewrite D in Y. revert Y. apply not_confused_app; assumption. }
  destruct T1 as [(X & Y)|[(X & Y & _)|(X & _)]]; [left; auto|right; left; repeat split; auto|right; right; repeat split; auto].
Qed.
