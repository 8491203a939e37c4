(** Proofs about the harness of the swap examples, continued: the last wish, how processes end, what the four programs do. *)
From Verif Require Import Base SessionModel SpecSession SessionProofs.

(** ** the last wish *)
Section Wish.
Variable P : program.
Definition set (s : state) : Prop := In WishSet (seen s).
Definition Clean (s : state) : Prop := wishes (seen s) = O /\ good s /\
  match wish s with Some w => set s /\ In (SetWish w) P | None => ~ set s end.


Definition Spent (s : state) : Prop := wish s = None /\ (Fulfilled P (seen s) \/ wishes (seen s) = O /\ ~ set s).
Lemma clean_wish s g s' : Clean s -> do_last_wish s = (g, s') -> Spent s'.
Proof.
  intros (C1 & C2 & C3) E. destruct (do_wish s g s' C2 E) as (_ & B & _ & d & D & Q). split; [exact B|]. destruct (wish s) as [w|] eqn:W.
  - left. destruct C3 as (C3 & C4). exists (seen s), d, w. split; [exact D|]. split; [exact C3|]. split; [exact C1|]. split; [apply (quiet_facts d Q)|]. split; [exact C4|].
    destruct w as [|[l|t|t|] r]; try exact I. unfold do_last_wish in E. rewrite W in E. cbn [run_basics run_basic] in E. unfold good in C2. rewrite W in C2.
    assert (SR : Steps r) by (intros x X; apply C2; right; exact X).
    assert (Y : exists d', seen s' = seen s ++ WishBegins :: Begins l :: d').
    { unfold step, die, no_wish in E. cbn [see steps inbox wish seen] in E. destruct (steps s) as [|[| |p] q].
      - inversion E; subst. exists []. cbn [see seen]. rewrite <- !app_assoc. reflexivity.
      - destruct (run_steps r SR _ _ _ E) as (_ & _ & _ & d' & D' & _). exists (Ends l :: d'). rewrite D'. cbn [see seen]. rewrite <- !app_assoc. reflexivity.
      - inversion E; subst. exists []. cbn [see seen]. rewrite <- !app_assoc. reflexivity.
      - exists []. destruct p; inversion E; subst; cbn [see seen]; rewrite <- !app_assoc; reflexivity. }
    destruct Y as (d' & Y). exists d'. rewrite D in Y. apply app_inv_head in Y. congruence.
  - right. rewrite app_nil_r in D. unfold set. rewrite D. auto.
Qed.
Definition After (g : signal) (s : state) : Prop := (Clean s \/ Spent s) /\ (g = Go \/ g = Listening -> Clean s) /\ (g = Exit -> Spent s).
Lemma clean_after s : Clean s -> forall g, g <> Exit -> After g s.
Proof. intros C g N. split; [left; exact C|]. split; [auto|congruence]. Qed.
Lemma spent_after s : Spent s -> forall g, g <> Go -> g <> Listening -> After g s.
Proof. intros C g N M. split; [right; exact C|]. split; [intros []; congruence|auto]. Qed.
Lemma clean_see s x e : Clean s -> x <> WishBegins -> x <> WishSet -> seen e = seen s ++ [x] -> wish e = wish s -> Clean e.
Proof.
  intros (C1 & C2 & C3) N M E W. unfold Clean, good, set in *. rewrite E, W, wishes_app, C1. split; [destruct x; try reflexivity; congruence|]. split; [exact C2|].
  destruct (wish s) as [w|].
  - destruct C3 as (C3 & C4). split; [|exact C4]. apply in_app_iff. auto.
  - intros X. apply in_app_iff in X. destruct X as [X|[X|[]]]; [exact (C3 X)|congruence].
Qed.
Lemma wish_go s : Clean s -> forall g s', do_last_wish s = (g, s') -> g <> Listening /\ Spent s'.
Proof. intros C g s' E. split; [apply (do_wish s g s'); [apply C|exact E]|apply (clean_wish s g s' C E)]. Qed.
Lemma after_basic b s g s' : b <> SysExit -> Clean s -> run_basic do_last_wish b s = (g, s') -> After g s'.
Proof.
  intros NX C E. assert (DW : forall x s1, Clean s1 -> die do_last_wish x s1 = (g, s') -> After g s').
  { intros x s1 C1 D. unfold die in D. destruct (do_last_wish s1) as [g1 s2] eqn:W. destruct (wish_go s1 C1 g1 s2 W) as (NL & SP).
    destruct g1; try congruence; try destruct x; inversion D; subst; apply spent_after; auto; discriminate. }
  destruct b as [l|t|t|]; [| | |congruence]; cbn [run_basic] in E.
  - unfold step in E. assert (C1 : Clean (see (Begins l) s)) by (apply (clean_see s (Begins l)); auto; discriminate).
    destruct (steps (see (Begins l) s)) as [|[| |p] r].
    + inversion E; subst. apply clean_after; [exact C1|discriminate].
    + inversion E; subst. apply clean_after; [|discriminate]. apply (clean_see (see (Begins l) s) (Ends l)); auto; discriminate.
    + inversion E; subst. apply clean_after; [exact C1|discriminate].
    + refine (DW p _ _ E). exact C1.
  - inversion E; subst. apply clean_after; [|discriminate]. apply (clean_see s (Sent t)); auto; discriminate.
  - unfold recv in E. destruct (inbox s) as [|[|m] r].
    + inversion E; subst. apply clean_after; [exact C|discriminate].
    + exact (DW false (mkState (steps s) r (wish s) (seen s)) C E).
    + destruct (mtype_eqb m Bye).
      * destruct (do_last_wish _) as [g1 s2] eqn:W in E.
        destruct (fun C1 => wish_go _ C1 g1 s2 W) as (NL & SP); [apply (clean_see s (Got m)); auto; discriminate|].
        destruct g1; try congruence; inversion E; subst; apply spent_after; auto; discriminate.
      * destruct (mtype_eqb m t).
        -- inversion E; subst. apply clean_after; [|discriminate]. apply (clean_see s (Got m)); auto; discriminate.
        -- refine (DW false _ _ E). apply (clean_see s (Unexpected m)); auto; discriminate.
Qed.
Lemma after_run p : Plain p -> (forall w, In (SetWish w) p -> In (SetWish w) P) -> forall s g s', Clean s -> run p s = (g, s') -> After g s'.
Proof.
  induction p as [|i p IH]; intros PL SP s g s' C E; cbn [run] in E.
  - inversion E; subst. apply clean_after; [exact C|discriminate].
  - destruct (run_item i s) as [g1 s1] eqn:R. assert (A : After g1 s1).
    { assert (PI := PL i (or_introl eq_refl)). destruct i as [b|w|]; [| |contradiction PI]; cbn [run_item] in R.
      - exact (after_basic b s g1 s1 (proj1 PI) C R).
      - inversion R; subst. apply clean_after; [|discriminate]. destruct C as (C1 & C2 & C3). split; [cbn [see seen]; rewrite wishes_app, C1; reflexivity|].
        split; [exact PI|]. cbn [see wish]. split; [apply in_app_iff; right; left; reflexivity|apply SP; left; reflexivity]. }
    destruct g1; try (inversion E; subst; exact A).
    apply (IH (fun x X => PL x (or_intror X)) (fun w X => SP w (or_intror X)) s1); [apply A; auto|exact E].
Qed.
End Wish.
Lemma wish_fate p e i f s : Plain p -> process p e i = (f, s) ->
  (f = Returned \/ f = Listens -> wishes (seen s) = O)
  /\ (f = Exited \/ f = Crashed -> Fulfilled p (seen s) \/ wishes (seen s) = O /\ ~ In WishSet (seen s))
  /\ (f = Works -> Fulfilled p (seen s) \/ wishes (seen s) = O).
Proof.
  intros PL E. unfold process, participant in E. destruct (run _ _) as [g s1] eqn:R.
  assert (PL' : Plain (Do (Step Connect) :: p)) by (intros x [<-|X]; [repeat split; discriminate|apply PL; exact X]).
  assert (C0 : Clean p (start e i)) by (split; [reflexivity|]; split; [exact I|]; intros []).
  assert (A := after_run p _ PL' (fun w X => match X with or_introl Y => ltac:(discriminate Y) | or_intror Y => Y end) (start e i) g s1 C0 R).
  assert (AS : forall s0, Spent p s0 -> Fulfilled p (seen s0) \/ wishes (seen s0) = O /\ ~ In WishSet (seen s0)) by (intros s0 (_ & H); exact H).
  assert (AW : forall s0, Clean p s0 \/ Spent p s0 -> Fulfilled p (seen s0) \/ wishes (seen s0) = O) by (intros s0 [(H & _)|(_ & [H|(H & _)])]; auto).
  destruct A as (A1 & A2 & A3). destruct g.
  - inversion E; subst. split; [intros _; apply A2; auto|]. split; [intros [X|X]; discriminate X|discriminate].
  - destruct (do_last_wish s1) as [g2 s2] eqn:W.
    assert (SP : Spent p s2).
    { destruct A1 as [C|(N & H)]; [exact (clean_wish p s1 g2 s2 C W)|]. unfold do_last_wish in W. rewrite N in W. inversion W; subst. split; [exact N|exact H]. }
    assert (NL : g2 <> Listening).
    { assert (GD : good s1) by (destruct A1 as [(_ & H & _)|(N & _)]; [exact H|unfold good; rewrite N; exact I]). apply (do_wish s1 g2 s2 GD W). }
    destruct g2; try congruence; inversion E; subst.
    + split; [intros [X|X]; discriminate X|]. split; [|discriminate]. intros _. cbn [see seen]. destruct SP as (N & [(a & d & w & H1 & H2 & H3 & H4 & H5 & H6)|(H1 & H2)]).
      * left. exists a, (d ++ [Sent Bye]), w. rewrite H1, <- app_assoc. repeat (split; [assumption || reflexivity|]). rewrite wishes_app, H4. repeat (split; [assumption || reflexivity|]).
        destruct w as [|[l|t|t|] r]; auto. destruct H6 as (d' & ->). exists (d' ++ [Sent Bye]). reflexivity.
      * right. rewrite wishes_app, H1. split; [reflexivity|]. intros X. apply in_app_iff in X. destruct X as [X|[X|[]]]; [exact (H2 X)|discriminate X].
    + split; [intros [X|X]; discriminate X|]. split; [intros _; exact (AS _ SP)|discriminate].
    + split; [intros [X|X]; discriminate X|]. split; [intros _; exact (AS _ SP)|discriminate].
    + split; [intros [X|X]; discriminate X|]. split; [intros [X|X]; discriminate X|]. intros _. apply AW. right. exact SP.
  - inversion E; subst. split; [intros [X|X]; discriminate X|]. split; [intros _; apply AS; auto|discriminate].
  - inversion E; subst. split; [intros [X|X]; discriminate X|]. split; [intros [X|X]; discriminate X|]. intros _. exact (AW _ A1).
  - inversion E; subst. split; [intros _; apply A2; auto|]. split; [intros [X|X]; discriminate X|discriminate].
Qed.

(** ** programs in parts *)
Lemma run_app p q s : run (p ++ q) s = match run p s with (Go, s') => run q s' | r => r end.
Proof. revert s. induction p as [|i p IH]; intros s; cbn [app run]; [reflexivity|]. destruct (run_item i s) as [[] s1]; try reflexivity. apply IH. Qed.
Definition basic_labels (b : basic) : list label := match b with Step l => [l] | _ => [] end.
Definition labels (p : program) : list label := flat_map (fun i => match i with Do b => basic_labels b | SetWish w => flat_map basic_labels w | Try b h => flat_map basic_labels b ++ flat_map basic_labels h end) p.
Definition wish_labels (s : state) : list label := match wish s with Some w => flat_map basic_labels w | None => [] end.
Definition about (d : list effect) (ls : list label) : Prop := forall l, In (Begins l) d \/ In (Ends l) d -> In l ls.
Lemma about_app a b x y : about a x -> about b y -> about (a ++ b) (x ++ y).
Proof. intros A B l [I|I]; apply in_app_iff in I; apply in_app_iff; destruct I as [I|I]; [left; apply A|right; apply B|left; apply A|right; apply B]; auto. Qed.
Lemma about_incl a x y : about a x -> incl x y -> about a y.
Proof. intros A I l H. apply I, A, H. Qed.
(** for a last wish that has been done *)
Definition Says (ls : list label) (s : state) (s' : state) : Prop := incl (wish_labels s') (wish_labels s ++ ls) /\ exists d, seen s' = seen s ++ d /\ about d (wish_labels s ++ ls).
Lemma says_trans a b s s1 s' : Says a s s1 -> Says b s1 s' -> Says (a ++ b) s s'.
Proof.
  intros (I1 & d & D & A) (I2 & e & E & B). assert (X : incl (wish_labels s1 ++ b) (wish_labels s ++ a ++ b)).
  { rewrite app_assoc. apply incl_app; [|apply incl_appr, incl_refl]. apply incl_appl, I1. }
  split; [exact (incl_tran I2 X)|]. exists (d ++ e). rewrite E, D, <- app_assoc. split; [reflexivity|].
  intros l H. destruct H as [H|H]; apply in_app_iff in H; (destruct H as [H|H]; [rewrite app_assoc; apply in_app_iff; left; apply A; auto|apply X, B; auto]).
Qed.
Lemma says_incl a b s s' : Says a s s' -> incl a b -> Says b s s'.
Proof.
  intros (I1 & d & D & A) I. assert (X : incl (wish_labels s ++ a) (wish_labels s ++ b)) by (apply incl_app; [apply incl_appl, incl_refl|apply incl_appr, I]).
  split; [exact (incl_tran I1 X)|]. exists d. split; [exact D|]. exact (about_incl _ _ _ A X).
Qed.
Lemma says_basics lw w : (forall s g s', lw s = (g, s') -> Says [] s s') -> forall s g s', run_basics lw w s = (g, s') -> Says (flat_map basic_labels w) s s'.
Proof.
  intros LW. assert (ID : forall s st ib x ls, about x (wish_labels s ++ ls) -> Says ls s (mkState st ib (wish s) (seen s ++ x))).
  { intros s st ib x ls A. split; [apply incl_appl, incl_refl|]. exists x. auto. }
  assert (DI : forall s x g s', die lw x s = (g, s') -> Says [] s s').
  { intros s x g s' D. unfold die in D. destruct (lw s) as [g1 s1] eqn:L. apply LW in L. destruct g1; inversion D; subst; exact L. }
  assert (A0 : forall (s : state) ls, about [] (wish_labels s ++ ls)) by (intros s ls l [[]|[]]).
  assert (A1 : forall l r, about [Begins l] (r ++ [l])) by (intros l r x [[X|[]]|[X|[]]]; [inversion X; subst; apply in_app_iff; right; left; reflexivity|discriminate X]).
  assert (A2 : forall t r, about [Got t] r /\ about [Unexpected t] r /\ about [Sent t] r) by (intros t r; repeat split; intros x [[X|[]]|[X|[]]]; discriminate X).
  assert (BA : forall b s g s', run_basic lw b s = (g, s') -> Says (basic_labels b) s s').
  { intros b s g s' E. destruct b as [l|t|t|]; cbn [run_basic basic_labels] in *.
    - unfold step in E. cbn [see steps inbox wish seen] in E. destruct (steps s) as [|[| |p] r].
      + inversion E; subst. apply ID, A1.
      + inversion E; subst. unfold see. cbn [steps inbox wish seen]. rewrite <- app_assoc. apply (ID s r (inbox s) [Begins l; Ends l] [l]).
        intros x [[X|[X|[]]]|[X|[X|[]]]]; inversion X; subst; apply in_app_iff; right; left; reflexivity.
      + inversion E; subst. apply ID, A1.
      + apply DI in E. apply (says_incl ([l] ++ [])); [|rewrite app_nil_r; apply incl_refl]. refine (says_trans [l] [] s _ s' _ E). apply ID, A1.
    - inversion E; subst. apply ID, A2.
    - unfold recv in E. destruct (inbox s) as [|[|m] r].
      + inversion E; subst. destruct s' as [a b c d]. assert (X := ID (mkState a b c d) a b [] [] (A0 _ _)). cbn [wish seen] in X. rewrite app_nil_r in X. exact X.
      + apply DI in E. exact E.
      + destruct (mtype_eqb m Bye); [|destruct (mtype_eqb m t)].
        * destruct (lw _) as [g1 s1] eqn:L in E. apply LW in L. assert (s' = s1) as -> by (destruct g1; inversion E; reflexivity).
          refine (says_trans [] [] s _ s1 _ L). exact (ID s (steps s) r [Got m] [] (proj1 (A2 m _))).
        * inversion E; subst. exact (ID s (steps s) r [Got m] [] (proj1 (A2 m _))).
        * apply DI in E. refine (says_trans [] [] s _ s' _ E). exact (ID s (steps s) r [Unexpected m] [] (proj1 (proj2 (A2 m _)))).
    - inversion E; subst. destruct s' as [a b c d]. assert (X := ID (mkState a b c d) a b [] [] (A0 _ _)). cbn [wish seen] in X. rewrite app_nil_r in X. exact X. }
  induction w as [|b w IH]; intros s g s' E; cbn [run_basics flat_map] in *.
  - inversion E; subst. destruct s' as [a b c d]. assert (X := ID (mkState a b c d) a b [] [] (A0 _ _)). cbn [wish seen] in X. rewrite app_nil_r in X. exact X.
  - destruct (run_basic lw b s) as [g1 s1] eqn:B. apply BA in B. destruct g1; try (inversion E; subst; apply (says_incl (basic_labels b)); [exact B|apply incl_appl, incl_refl]).
    exact (says_trans _ _ s s1 s' B (IH _ _ _ E)).
Qed.
Lemma says_wish s g s' : do_last_wish s = (g, s') -> Says [] s s'.
Proof.
  unfold do_last_wish. destruct (wish s) as [w|] eqn:W; intros E.
  - apply says_basics in E; [|intros a b c X; inversion X; subst; destruct c as [p q r t]; split; [apply incl_appl, incl_refl|]; exists []; rewrite app_nil_r; split; [reflexivity|]; intros l [[]|[]]].
    destruct E as (I1 & d & D & A). change (incl (wish_labels s') (flat_map basic_labels w)) in I1. change (about d (flat_map basic_labels w)) in A.
    cbn [see seen] in D. assert (WL : wish_labels s = flat_map basic_labels w) by (unfold wish_labels; rewrite W; reflexivity).
    split; [rewrite WL, app_nil_r; exact I1|]. exists (WishBegins :: d). rewrite D, <- app_assoc. split; [reflexivity|].
    rewrite WL, app_nil_r. intros l [[X|X]|[X|X]]; try discriminate X; apply A; auto.
  - inversion E; subst. split; [apply incl_appl, incl_refl|]. exists []. rewrite app_nil_r. split; [reflexivity|]. intros l [[]|[]].
Qed.
Lemma says_run p : forall s g s', run p s = (g, s') -> Says (labels p) s s'.
Proof.
  assert (ID : forall s, Says [] s s) by (intros s; split; [apply incl_appl, incl_refl|]; exists []; rewrite app_nil_r; split; [reflexivity|]; intros l [[]|[]]).
  induction p as [|i p IH]; intros s g s' E; cbn [run] in E; unfold labels; cbn [flat_map].
  - inversion E; subst. apply ID.
  - destruct (run_item i s) as [g1 s1] eqn:R. match goal with |- Says (?x ++ _) _ _ => assert (A : Says x s s1) end.
    { destruct i as [b|w|bd hd]; cbn [run_item] in R.
      - assert (X := says_basics do_last_wish [b] says_wish s g1 s1). cbn [run_basics flat_map] in X. rewrite app_nil_r in X. apply X. rewrite R. destruct g1; reflexivity.
      - inversion R; subst. split; [unfold wish_labels at 1; cbn [see wish]; apply incl_appr, incl_refl|]. exists [WishSet]. split; [reflexivity|]. intros l [[X|[]]|[X|[]]]; discriminate X.
      - destruct (run_basics do_last_wish bd s) as [g2 s2] eqn:B. apply (says_basics _ _ says_wish) in B.
        destruct g2; try (inversion R; subst; apply (says_incl _ _ _ _ B), incl_appl, incl_refl).
        apply (says_basics _ _ says_wish) in R. exact (says_trans _ _ _ _ _ B R). }
    destruct g1; try (inversion E; subst; apply (says_incl _ _ _ _ A), incl_appl, incl_refl).
    exact (says_trans _ _ _ _ _ A (IH _ _ _ E)).
Qed.
