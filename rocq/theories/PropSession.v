(** C94: the harness of the two swap examples: messages, failures and last wishes. *)
From Verif Require Import Base SessionModel SpecSession SessionProofs SessionProofs2 SessionProofs3.

(** ** The four programs *)
Definition swaps : list (program * program) := [(cross_alice, cross_bob); (asset_alice, asset_bob)].
Lemma shaped_swaps p q : In (p, q) swaps -> Shaped p /\ Shaped q /\ sends (acts p) = recvs (acts q) /\ sends (acts q) = recvs (acts p).
Proof.
  assert (ST : forall l, Steps [Step l]) by (intros l b [<-|[]]; eauto).
  intros [E|[E|[]]]; inversion E; subst; (split; [|split; [|split; reflexivity]]); intros x X; cbn in X;
    repeat (destruct X as [X|X]; [subst x; cbn; try (split; [discriminate|split; discriminate]); try apply ST|]); try contradiction X.
  split; [|exists [Step ClaimBack]; split; [reflexivity|apply ST]]. intros b [<-|[<-|[<-|[]]]]; repeat split; discriminate.
Qed.
Lemma plain_cross : Plain cross_alice /\ Plain cross_bob.
Proof.
  assert (ST : forall l, Steps [Step l]) by (intros l b [<-|[]]; eauto).
  split; intros x X; cbn in X; repeat (destruct X as [X|X]; [subst x; cbn; try (split; [discriminate|split; discriminate]); try apply ST|]); contradiction X.
Qed.

(** What a process has sent is a beginning of the messages in the text of its program, in order, and perhaps 'bye!', which is the last. *)
Theorem C94_messages : forall p e i f s, Shaped p -> process p e i = (f, s) ->
  Begun (sent (seen s)) (sends (acts p)) \/ f = Exited /\ exists l, sent (seen s) = l ++ [Bye] /\ Begun l (sends (acts p)).
Proof.
  intros p e i f s SH E. destruct (progress p e i f s SH E) as (a1 & a2 & tl & bye & A & S & _ & _ & _ & B & _ & _).
  assert (X : Begun (sends a1) (sends (acts p))) by (rewrite A, sends_app; eexists; reflexivity).
  destruct B as [->|(-> & F)]; [left; rewrite S, app_nil_r; exact X|right]. split; [exact F|]. exists (sends a1). auto.
Qed.

(** Whatever goes wrong on either side, a message of an unexpected type never comes, if each side runs its program: [arrived i'] is what has
    come of the messages sent by the other. *)
Theorem C94_no_confusion : forall p q e i f s e' i' f' s', In (p, q) swaps \/ In (q, p) swaps ->
  process p e i = (f, s) -> process q e' i' = (f', s') -> Begun (arrived i') (sent (seen s)) -> ~ Confused (seen s').
Proof.
  intros p q e i f s e' i' f' s' IN E E' (rest & B) C.
  assert (X : Shaped p /\ Shaped q /\ sends (acts p) = recvs (acts q)) by (destruct IN as [H|H]; apply shaped_swaps in H; intuition). destruct X as (SP & SQ & DU).
  destruct (progress p e i f s SP E) as (a1 & a2 & tl & bye & A & S & _ & _ & _ & BY & _ & _).
  destruct (progress q e' i' f' s' SQ E') as (b1 & b2 & tl' & bye' & A' & _ & H' & I' & T' & _).
  destruct T' as [(_ & N)|[(_ & N & _)|((m & t & b3 & -> & -> & NT & NB) & _)]]; try contradiction.
  rewrite S, I', H', <- !app_assoc in B. rewrite A, A', sends_app, recvs_app in DU. change (recvs ((false, t) :: b3)) with (t :: recvs b3) in DU.
  assert (Y : nth_error (sends a1 ++ bye) (length (recvs b1)) = Some m) by (rewrite B, nth_error_app2, Nat.sub_diag by lia; reflexivity).
  assert (Z : nth_error (sends a1 ++ sends a2) (length (recvs b1)) = Some t) by (rewrite DU, nth_error_app2, Nat.sub_diag by lia; reflexivity).
  destruct (Nat.lt_ge_cases (length (recvs b1)) (length (sends a1))) as [L|L].
  - rewrite nth_error_app1 in Y, Z by exact L. congruence.
  - rewrite nth_error_app2 in Y by exact L. apply nth_error_In in Y. destruct BY as [->|(-> & _)]; [destruct Y|]. destruct Y as [Y|[]]. congruence.
Qed.

(** The two never wait for each other; when all that was sent has come, a process listens only if the other works, or has ended without
    'bye!' before the end of its program. *)
Definition stuck (A B : list (bool * mtype)) : bool :=
  existsb (fun k => existsb (fun j => match nth_error A k, nth_error B j with
    | Some (false, _), Some (false, _) => (length (recvs (firstn k A)) =? length (sends (firstn j B)))%nat && (length (recvs (firstn j B)) =? length (sends (firstn k A)))%nat
    | _, _ => false end) (seq 0 (length B))) (seq 0 (length A)).
Lemma stuck_no A B a1 t a3 b1 u b3 : stuck A B = false -> A = a1 ++ (false, t) :: a3 -> B = b1 ++ (false, u) :: b3 -> recvs a1 = sends b1 -> recvs b1 = sends a1 -> False.
Proof.
  intros ST EA EB R1 R2. assert (X : stuck A B = true); [|congruence]. unfold stuck.
  assert (FN : forall (x y : list (bool * mtype)), firstn (length x) (x ++ y) = x) by (intros x y; rewrite firstn_app, firstn_all, Nat.sub_diag; apply app_nil_r).
  apply existsb_exists. exists (length a1). split; [apply in_seq; rewrite EA, app_length; cbn; lia|].
  apply existsb_exists. exists (length b1). split; [apply in_seq; rewrite EB, app_length; cbn; lia|].
  rewrite EA, EB, !nth_error_app2, !Nat.sub_diag, !FN by lia. cbn [nth_error]. rewrite R1, R2, !Nat.eqb_refl. reflexivity.
Qed.
Theorem C94_waiting : forall p q e i f s e' i' f' s', In (p, q) swaps \/ In (q, p) swaps ->
  process p e i = (f, s) -> process q e' i' = (f', s') -> arrived i = sent (seen s') -> arrived i' = sent (seen s) -> f = Listens ->
  f' = Works \/ (f' = Exited \/ f' = Crashed) /\ ~ In Bye (sent (seen s')).
Proof.
  intros p q e i f s e' i' f' s' IN E E' B B' FL.
  assert (X : Shaped p /\ Shaped q /\ sends (acts q) = recvs (acts p) /\ stuck (acts p) (acts q) = false).
  { destruct IN as [H|H]; destruct (shaped_swaps _ _ H) as (X1 & X2 & X3 & X4); repeat split; auto; destruct H as [H|[H|[]]]; inversion H; subst; vm_compute; reflexivity. }
  destruct X as (SP & SQ & DU & ST).
  destruct (progress p e i f s SP E) as (a1 & a2 & tl & bye & A & S & H & I & T & BY & _ & LI). destruct (LI FL) as (IE & t & a3 & EA).
  destruct (progress q e' i' f' s' SQ E') as (b1 & b2 & tl' & bye' & A' & S' & H' & I' & T' & BY' & RT & LI').
  assert (TL : tl = []) by (destruct T as [(X & _)|[(_ & _ & X & _)|(_ & X & _)]]; congruence).
  assert (BE : bye = []) by (destruct BY as [X|(_ & X)]; congruence).
  subst tl bye. rewrite app_nil_r in S, H. rewrite I, IE, H, S' in B. cbn [arrived] in B. rewrite app_nil_r in B.
  assert (NB : bye' = []).
  { destruct BY' as [X|(X & _)]; [exact X|]. exfalso. subst bye'. assert (Y : In Bye (recvs (acts p))) by (rewrite A, recvs_app, B, !in_app_iff; left; right; left; reflexivity).
    destruct IN as [Z|Z]; destruct Z as [Z|[Z|[]]]; inversion Z; subst; cbn in Y; repeat (destruct Y as [Y|Y]; [discriminate Y|]); exact Y. }
  subst bye'. rewrite app_nil_r in B, S'. subst a2.
  destruct f'.
  - exfalso. destruct (RT eq_refl) as (-> & _). rewrite app_nil_r in A'. subst b1. rewrite A, recvs_app, <- B in DU.
    assert (L := f_equal (@length _) DU). rewrite app_length in L. cbn in L. lia.
  - right. split; [auto|]. rewrite S'. intros Y.
    assert (Z : In Bye (recvs (acts p))) by (rewrite A, recvs_app, B, in_app_iff; left; exact Y).
    destruct IN as [W|W]; destruct W as [W|[W|[]]]; inversion W; subst; cbn in Z; repeat (destruct Z as [Z|Z]; [discriminate Z|]); exact Z.
  - right. split; [auto|]. rewrite S'. intros Y.
    assert (Z : In Bye (recvs (acts p))) by (rewrite A, recvs_app, B, in_app_iff; left; exact Y).
    destruct IN as [W|W]; destruct W as [W|[W|[]]]; inversion W; subst; cbn in Z; repeat (destruct Z as [Z|Z]; [discriminate Z|]); exact Z.
  - left. reflexivity.
  - exfalso. destruct (LI' eq_refl) as (IE' & u & b3 & EB). assert (TL' : tl' = []) by (destruct T' as [(X & _)|[(_ & _ & X & _)|(_ & X & _)]]; congruence).
    subst tl'. rewrite app_nil_r in H'. rewrite I', IE', H', S in B'. cbn [arrived] in B'. rewrite app_nil_r in B'. subst b2.
    exact (stuck_no _ _ _ _ _ _ _ _ ST A A' B B').
Qed.

(** ** Last wishes *)
(** For every program without try: not begun if the program comes to its end; begun once if the process ends otherwise after it was set;
    never otherwise. *)
Theorem C94_wish : forall p e i f s, Plain p -> process p e i = (f, s) ->
  (f = Returned \/ f = Listens -> wishes (seen s) = O)
  /\ (f = Exited \/ f = Crashed -> In WishSet (seen s) -> Fulfilled p (seen s))
  /\ (wishes (seen s) = O \/ Fulfilled p (seen s)).
Proof.
  intros p e i f s PL E. destruct (wish_fate p e i f s PL E) as (A & B & C). split; [exact A|]. split.
  - intros H S. destruct (B H) as [X|(_ & X)]; [exact X|contradiction].
  - destruct f; [left; apply A; auto| | | |left; apply A; auto].
    + destruct (B (or_introl eq_refl)) as [X|(X & _)]; auto.
    + destruct (B (or_intror eq_refl)) as [X|(X & _)]; auto.
    + destruct (C eq_refl) as [X|X]; auto.
Qed.
(** What the other side is told, and what becomes of the process, for every cause and every end of the last wish. *)
Theorem C94_told : forall pre b post e i s c r w, Plain pre -> run (Do (Step Connect) :: pre) (start e i) = (Go, s) ->
  Fatal b s c r -> Wished s r w ->
  let (f, s') := process (pre ++ Do b :: post) e i in
  f = (if traceback c w then Crashed else Exited) /\ (In Bye (sent (seen s')) <-> told c w = true).
Proof.
  intros pre b post e i s c r w PL R F W. unfold process, participant. change (Do (Step Connect) :: pre ++ Do b :: post) with ((Do (Step Connect) :: pre) ++ Do b :: post).
  rewrite run_app, R. cbn [run run_item].
  assert (NB : ~ In Bye (sent (seen s))).
  { assert (SH : Shaped (Do (Step Connect) :: pre)) by (intros x [<-|X]; [repeat split; discriminate|specialize (PL x X); destruct x; auto; contradiction PL]).
    destruct (along _ SH (start e i) Go s I R) as (_ & d & a1 & a2 & tl & S1 & A1 & N1 & _ & _ & _ & G & _). cbn in S1. rewrite S1, N1. specialize (G eq_refl). subst a2. rewrite app_nil_r in A1. subst a1.
    intros X. unfold sends in X. apply in_map_iff in X. destruct X as ((u & v) & X1 & X2). cbn in X1. subst v. apply filter_In in X2. destruct X2 as (X2 & X3). cbn in X3. subst u.
    unfold acts in X2. apply in_flat_map in X2. destruct X2 as (x & [<-|X] & Y); [destruct Y|]. specialize (PL x X). destruct x as [y|y|]; cbn in Y; try contradiction.
    destruct y; cbn in Y; try contradiction; destruct Y as [Y|[]]; inversion Y; subst. destruct PL as (_ & PL & _). congruence. }
  assert (WE : wish s = None /\ w = NoWish \/ exists l0 x r', wish s = Some [Step l0] /\ r = x :: r' /\ w = Wish x).
  { destruct W as [s r EW|s l0 x r EW]; [left; auto|right; exists l0, x, r; auto]. }
  clear W. assert (LW : forall st ib se, exists g s2, do_last_wish (mkState st ib (wish s) se) = (g, s2) /\ (st = r -> sent (seen s2) = sent se /\ wish s2 = None
     /\ g = match w with NoWish | Wish Fine => Go | Wish (Dies true) => Exit | _ => Exn end)).
  { intros st ib se. destruct (do_last_wish _) as [g s2] eqn:E. exists g, s2. split; [reflexivity|]. intros ->. unfold do_last_wish in E. cbn [wish] in E.
    destruct WE as [(EW & ->)|(l0 & x & r' & EW & -> & ->)]; rewrite EW in E; cbn [run_basics run_basic] in E.
    - inversion E; subst. auto.
    - unfold step, die, no_wish in E. cbn [see steps inbox wish seen] in E. destruct x as [| |[|]]; inversion E; subst; cbn [see seen wish]; rewrite !sent_app, !app_nil_r; auto. }
  assert (SEE : forall t x, sent (seen (see t x)) = sent (seen x) ++ match t with Sent m => [m] | _ => [] end) by (intros t x; cbn [see seen]; rewrite sent_app; destruct t; reflexivity).
  assert (ND : forall s2, wish s2 = None -> do_last_wish s2 = (Go, s2)) by (intros s2 H; unfold do_last_wish; rewrite H; reflexivity).
  destruct F as [l s r ES|l s p r ES|t s r EI|t s m r EI N1 N2|t s r EI]; cbn [run_basic].
  - unfold step. cbn [see steps inbox wish seen]. rewrite ES. destruct (LW r (inbox s) (seen s ++ [Begins l])) as (g & s2 & E & H). rewrite E.
    destruct (H eq_refl) as (H1 & H2 & ->). rewrite sent_app, app_nil_r in H1. destruct w as [|[| |[|]]]; cbn [traceback told]; rewrite ?SEE, H1, ?in_app_iff; cbn; intuition discriminate.
  - unfold step, die. cbn [see steps inbox wish seen]. rewrite ES. destruct (LW r (inbox s) (seen s ++ [Begins l])) as (g & s2 & E & H). rewrite E.
    destruct (H eq_refl) as (H1 & H2 & ->). rewrite sent_app, app_nil_r in H1. destruct w as [|[| |[|]]]; try destruct p; cbn [traceback told]; rewrite ?(ND s2 H2), ?SEE, ?H1, ?in_app_iff; cbn; intuition discriminate.
  - unfold recv, die. rewrite EI. destruct (LW (steps s) r (seen s)) as (g & s2 & E & H). rewrite E.
    destruct (H eq_refl) as (H1 & H2 & ->). destruct w as [|[| |[|]]]; cbn [traceback told]; rewrite ?(ND s2 H2), ?SEE, ?H1, ?in_app_iff; cbn; intuition discriminate.
  - unfold recv, die. rewrite EI. destruct (mtype_eqb_spec m Bye); [contradiction|]. destruct (mtype_eqb_spec m t); [contradiction|].
    change (see (Unexpected m) _) with (mkState (steps s) r (wish s) (seen s ++ [Unexpected m])). destruct (LW (steps s) r (seen s ++ [Unexpected m])) as (g & s2 & E & H). rewrite E.
    destruct (H eq_refl) as (H1 & H2 & ->). rewrite sent_app, app_nil_r in H1. destruct w as [|[| |[|]]]; cbn [traceback told]; rewrite ?(ND s2 H2), ?SEE, ?H1, ?in_app_iff; cbn; intuition discriminate.
  - unfold recv. rewrite EI. cbn [mtype_eqb]. change (see (Got Bye) _) with (mkState (steps s) r (wish s) (seen s ++ [Got Bye])).
    destruct (LW (steps s) r (seen s ++ [Got Bye])) as (g & s2 & E & H). rewrite E.
    destruct (H eq_refl) as (H1 & H2 & ->). rewrite sent_app, app_nil_r in H1. destruct w as [|[| |[|]]]; cbn [traceback told]; rewrite ?(ND s2 H2), ?SEE, ?H1, ?in_app_iff; cbn; intuition discriminate.
Qed.

(** Once a side of the cross-chain swap knows that it has sent, it tries to take it back if its process ends otherwise than by coming to the end
    of the program; and it tries only then. *)
Definition risks : list (program * label * label) := [(cross_alice, SendAsset, ReclaimAsset); (cross_bob, SendBitcoin, ReclaimBitcoin)].
Theorem C94_after_sending : forall p l r e i f s, In (p, l, r) risks -> process p e i = (f, s) ->
  (In (Ends l) (seen s) -> f = Exited \/ f = Crashed -> In (Begins r) (seen s))
  /\ (In (Begins r) (seen s) -> In (Ends l) (seen s) /\ f <> Returned /\ f <> Listens).
Proof.
  intros p l r e i f s IN E.
  assert (X : Plain p /\ ~ In r (Connect :: own p) /\ (forall w, In (SetWish w) p -> w = [Step r])
    /\ exists pre post, p = pre ++ Do (Step l) :: SetWish [Step r] :: post /\ ~ In l (labels (Do (Step Connect) :: pre)) /\ ~ In r (labels (Do (Step Connect) :: pre) ++ [l])).
  { destruct IN as [IN|[IN|[]]]; inversion IN; subst; (split; [apply plain_cross|]);
      (split; [cbn; intuition discriminate|]); (split; [intros w W; cbn in W; repeat (destruct W as [W|W]; [congruence|]); contradiction W|]).
    - exists (firstn 7 cross_alice), (skipn 9 cross_alice). split; [reflexivity|]. cbn. intuition discriminate.
    - exists (firstn 7 cross_bob), (skipn 9 cross_bob). split; [reflexivity|]. cbn. intuition discriminate. }
  destruct X as (PL & NO & SW & pre & post & EP & NL & NR). destruct (wish_fate p e i f s PL E) as (A & B & _).
  assert (E' := E). rewrite EP in E'. destruct (reached pre l _ post e i f s NL E') as [(H1 & H2)|(H1 & H2)].
  - split.
    + intros _ F. destruct (B F) as [(a & d & w & D & _ & _ & _ & W & Z)|(_ & Z)]; [|contradiction]. apply SW in W. subst w. destruct Z as (d' & ->). rewrite D. apply in_app_iff. right. right. left. reflexivity.
    + intros H. split; [exact H1|]. split; intros ->; exact (own_step p e i _ s r E NO (A ltac:(auto)) H).
  - split; [contradiction|]. intros H. exfalso. apply NR, H2. left. exact H.
Qed.
(** But a failure of the step that sends leaves no last wish: the answer to sendtoaddress may be lost after the transaction is made. *)
Theorem C94_sending_fails_refuted : exists e i f s, process cross_alice e i = (f, s) /\ (f = Exited \/ f = Crashed)
  /\ In (Begins SendAsset) (seen s) /\ ~ In (Begins ReclaimAsset) (seen s).
Proof.
  exists [Fine; Fine; Fine; Fine; Throws], [Arrives Pubkeys; Arrives BtcTxid]. eexists _, _. split; [vm_compute; reflexivity|]. split; [auto|]. split; [cbn; auto 20|].
  cbn. intuition discriminate.
Qed.
(** A participant that fails need not say 'bye!': an exception in the program, then another one in the last wish. *)
Theorem C94_bye_refuted : exists e i s, process cross_alice e i = (Crashed, s) /\ ~ In Bye (sent (seen s)) /\ ~ In Bye (heard (seen s)).
Proof.
  exists [Fine; Fine; Fine; Fine; Fine; Throws; Throws], [Arrives Pubkeys; Arrives BtcTxid]. eexists. split; [vm_compute; reflexivity|]. cbn. intuition discriminate.
Qed.

(** ** The asset swap: Alice's signature is given away *)
Theorem C94_claims_back : forall e i f s, Impolite e -> process asset_alice e i = (f, s) ->
  let back := In (Begins ClaimBack) (seen s) in let swapped := In (Ends Broadcast) (seen s) in let bye := In (Got Bye) (seen s) in
  (In SignedTx (sent (seen s)) -> ended f -> back \/ swapped \/ bye)
  /\ (In SignedTx (sent (seen s)) -> bye -> f = Exited /\ ~ back /\ ~ swapped)
  /\ ~ (back /\ swapped)
  /\ (back \/ swapped -> In SignedTx (sent (seen s)))
  /\ (f = Returned \/ In Thanks (sent (seen s)) -> swapped).
Proof.
  intros e i f s IM E. cbn beta zeta. unfold process in E. change (Do (Step Connect) :: asset_alice) with ((Do (Step Connect) :: asset_before) ++ asset_after) in E.
  unfold participant in E. rewrite run_app in E. destruct (run (Do (Step Connect) :: asset_before) (start e i)) as [g s1] eqn:R.
  destruct (before_signed e i g s1 R) as (W & (NS & NT) & AB & NB & u & ES).
  assert (NL : forall l, In l [ClaimBack; Broadcast] -> ~ (In (Begins l) (seen s1) \/ In (Ends l) (seen s1))).
  { intros l L X. apply AB in X. destruct L as [<-|[<-|[]]]; cbn in X; intuition discriminate. }
  assert (N1 := NL ClaimBack (or_introl eq_refl)). assert (N2 := NL Broadcast (or_intror (or_introl eq_refl))). clear NL AB R.
  assert (IM1 : Impolite (steps s1)) by (intros X; apply IM; rewrite ES; apply in_app_iff; auto). clear IM ES u e i.
  assert (ST : forall t, seen s = seen s1 ++ t -> f <> Returned -> sent t = [] \/ sent t = [Bye] -> (forall l, In (Begins l) t \/ In (Ends l) t -> False) ->
    (In SignedTx (sent (seen s)) -> ended f -> In (Begins ClaimBack) (seen s) \/ In (Ends Broadcast) (seen s) \/ In (Got Bye) (seen s))
    /\ (In SignedTx (sent (seen s)) -> In (Got Bye) (seen s) -> f = Exited /\ ~ In (Begins ClaimBack) (seen s) /\ ~ In (Ends Broadcast) (seen s))
    /\ ~ (In (Begins ClaimBack) (seen s) /\ In (Ends Broadcast) (seen s))
    /\ (In (Begins ClaimBack) (seen s) \/ In (Ends Broadcast) (seen s) -> In SignedTx (sent (seen s)))
    /\ (f = Returned \/ In Thanks (sent (seen s)) -> In (Ends Broadcast) (seen s))).
  { intros t -> NR T1 T2. assert (ZT : ~ In Thanks (sent (seen s1 ++ t))).
    { rewrite sent_app. intros X. apply in_app_iff in X. destruct X as [X|X]; [exact (NT X)|]. destruct T1 as [T1|T1]; rewrite T1 in X; [destruct X|destruct X as [X|[]]; discriminate X]. }
    assert (Z : ~ In SignedTx (sent (seen s1 ++ t))).
    { rewrite sent_app. intros X. apply in_app_iff in X. destruct X as [X|X]; [exact (NS X)|]. destruct T1 as [T1|T1]; rewrite T1 in X; [destruct X|destruct X as [X|[]]; discriminate X]. }
    assert (Y : ~ In (Begins ClaimBack) (seen s1 ++ t)) by (intros X; apply in_app_iff in X; destruct X as [X|X]; [auto|exact (T2 _ (or_introl X))]).
    assert (V : ~ In (Ends Broadcast) (seen s1 ++ t)) by (intros X; apply in_app_iff in X; destruct X as [X|X]; [auto|exact (T2 _ (or_intror X))]). tauto. }
  destruct g; [clear ST|destruct (do_last_wish s1) eqn:DW; unfold do_last_wish in DW; rewrite W in DW; inversion DW; subst; inversion E; subst; apply (ST [Sent Bye]); [reflexivity|discriminate|right; reflexivity|cbn; intuition discriminate]
   |inversion E; subst; apply (ST []); [symmetry; apply app_nil_r|discriminate|left; reflexivity|intros l [[]|[]]]..].
  specialize (NB eq_refl). assert (NG : ~ In (Got Bye) (seen s1)) by (intros X; exact (NB (got_heard _ _ X))). clear NB.
  destruct s1 as [st ib w se]. cbn [wish] in W. subst w. cbn [seen steps] in *.
  assert (FIN : forall t, s = mkState (steps s) (inbox s) (wish s) (se ++ Sent SignedTx :: t) ->
    (ended f -> In (Begins ClaimBack) t \/ In (Ends Broadcast) t \/ In (Got Bye) t) -> (In (Got Bye) t -> f = Exited /\ ~ In (Begins ClaimBack) t /\ ~ In (Ends Broadcast) t) ->
    ~ (In (Begins ClaimBack) t /\ In (Ends Broadcast) t) -> (f = Returned \/ In Thanks (sent t) -> In (Ends Broadcast) t) ->
    (In SignedTx (sent (seen s)) -> ended f -> In (Begins ClaimBack) (seen s) \/ In (Ends Broadcast) (seen s) \/ In (Got Bye) (seen s))
    /\ (In SignedTx (sent (seen s)) -> In (Got Bye) (seen s) -> f = Exited /\ ~ In (Begins ClaimBack) (seen s) /\ ~ In (Ends Broadcast) (seen s))
    /\ ~ (In (Begins ClaimBack) (seen s) /\ In (Ends Broadcast) (seen s))
    /\ (In (Begins ClaimBack) (seen s) \/ In (Ends Broadcast) (seen s) -> In SignedTx (sent (seen s)))
    /\ (f = Returned \/ In Thanks (sent (seen s)) -> In (Ends Broadcast) (seen s))).
  { intros t -> H1 H2 H3 H4. cbn [seen]. rewrite sent_app, !in_app_iff. cbn [In sent]. intuition discriminate. }
  assert (NP : forall x r, st = x ++ Dies true :: r -> False) by (intros x r ->; apply IM1; apply in_app_iff; right; left; reflexivity). clear IM1.
  unfold asset_after in E.
  Ltac ends E FIN NP := first
    [exfalso; first [exact (NP [] _ eq_refl)|exact (NP [_] _ eq_refl)|exact (NP [_; _] _ eq_refl)|exact (NP [_; _; _] _ eq_refl)]
    |unfold see in E; cbn [seen steps inbox wish] in E; injection E as <- <-; eapply FIN; [cbn [seen steps inbox wish see]; rewrite <- ?app_assoc; reflexivity|unfold ended; cbn; intuition discriminate..]].
  Ltac walks E FIN NP := cbn in E; first [ends E FIN NP|match goal with x : list ending |- _ => destruct x as [|[| |[|]] x]; walks E FIN NP end].
  destruct ib as [|[|m] ib]; [walks E FIN NP|walks E FIN NP|]. destruct m; walks E FIN NP.
Qed.
(** The comment at lines 361-365 says: "If there is any problem, including communication timeout or invalid communication [..] Alice will try to
    claim her funds back". Not if the other side says 'bye!' instead of sending the transaction that it has now signed: with Bob's own program when
    a statement after line 503 fails, and nothing lost or delayed. *)
Theorem C94_claims_back_refuted : exists ea ia fa sa eb ib fb sb, process asset_alice ea ia = (fa, sa) /\ process asset_bob eb ib = (fb, sb)
  /\ Impolite ea /\ Impolite eb /\ arrived ia = sent (seen sb) /\ arrived ib = sent (seen sa) /\ fa = Exited /\ fb = Exited
  /\ In (Got SignedTx) (seen sb) /\ ~ In (Begins ClaimBack) (seen sa) /\ ~ In (Ends Broadcast) (seen sa).
Proof.
  exists [Fine; Fine; Fine; Fine; Fine; Fine], [Arrives WaitTxid; Arrives Offer; Arrives PartialTx; Arrives AddrList; Arrives Bye]. eexists _, _.
  exists [Fine; Fine; Fine; Fine; Fine; Throws], [Arrives Ready; Arrives Offer; Arrives AddrCommitments; Arrives SignedTx]. eexists _, _.
  split; [vm_compute; reflexivity|]. split; [vm_compute; reflexivity|]. unfold Impolite. cbn. intuition discriminate.
Qed.

(** ** The hypotheses can be met *)
(** both swaps come to their end *)
Example cross_done : let a := process cross_alice (repeat Fine 8) (map Arrives [Pubkeys; BtcTxid]) in
  let b := process cross_bob (repeat Fine 8) (map Arrives [Pubkeys; BlindingKey; EltTxid]) in
  fst a = Returned /\ fst b = Returned /\ sent (seen (snd a)) = [Pubkeys; BlindingKey; EltTxid] /\ sent (seen (snd b)) = [Pubkeys; BtcTxid].
Proof. vm_compute. repeat split. Qed.
Example asset_done : let a := process asset_alice (repeat Fine 9) (map Arrives [WaitTxid; Offer; PartialTx; AddrList; FinalTx]) in
  let b := process asset_bob (repeat Fine 8) (map Arrives [Ready; Offer; AddrCommitments; SignedTx; Thanks]) in
  fst a = Returned /\ fst b = Returned /\ sent (seen (snd a)) = [Ready; Offer; AddrCommitments; SignedTx; Thanks]
  /\ sent (seen (snd b)) = [WaitTxid; Offer; PartialTx; AddrList; FinalTx].
Proof. vm_compute. repeat split. Qed.
(** C94_waiting: Bob listens for 'elt_txid' while Alice waits for confirmations, or after she has crashed *)
Example waits : let a := process cross_alice (repeat Fine 5) (map Arrives [Pubkeys; BtcTxid]) in
  let b := process cross_bob (repeat Fine 7) (map Arrives [Pubkeys; BlindingKey]) in
  fst a = Works /\ fst b = Listens /\ sent (seen (snd a)) = [Pubkeys; BlindingKey] /\ sent (seen (snd b)) = [Pubkeys; BtcTxid].
Proof. vm_compute. repeat split. Qed.
Example waits_in_vain : let a := process cross_alice (repeat Fine 5 ++ [Throws; Throws]) (map Arrives [Pubkeys; BtcTxid]) in
  let b := process cross_bob (repeat Fine 7) (map Arrives [Pubkeys; BlindingKey]) in
  fst a = Crashed /\ fst b = Listens /\ sent (seen (snd a)) = [Pubkeys; BlindingKey] /\ sent (seen (snd b)) = [Pubkeys; BtcTxid].
Proof. vm_compute. repeat split. Qed.
(** C94_wish, C94_after_sending: Bob gives up waiting for Alice and takes his bitcoin back *)
Example reclaims : let (f, s) := process cross_bob (repeat Fine 8) [Arrives Pubkeys; Arrives BlindingKey; Silence] in
  f = Exited /\ In (Ends SendBitcoin) (seen s) /\ In WishSet (seen s) /\ In (Ends ReclaimBitcoin) (seen s) /\ sent (seen s) = [Pubkeys; BtcTxid; Bye].
Proof. vm_compute. intuition. Qed.
(** C94_told: the same moment; the other side is told except if the last wish ends peacefully *)
Example tells : exists s, Plain (firstn 11 cross_bob) /\ run (Do (Step Connect) :: firstn 11 cross_bob) (start (repeat Fine 7 ++ [Throws]) [Arrives Pubkeys; Arrives BlindingKey; Silence]) = (Go, s)
  /\ Fatal (Recv EltTxid) s (Death false) [Throws] /\ Wished s [Throws] (Wish Throws).
Proof.
  eexists. split; [intros x X; apply (proj2 plain_cross); rewrite <- (firstn_skipn 11 cross_bob); apply in_app_iff; left; exact X|]. split; [vm_compute; reflexivity|].
  split; [eapply F_silence; reflexivity|eapply W_step; reflexivity].
Qed.
(** C94_claims_back: each of the three ends *)
Example claims : let run_with e m := process asset_alice (repeat Fine 6 ++ e) (map Arrives [WaitTxid; Offer; PartialTx; AddrList] ++ [m]) in
  In (Ends ClaimBack) (seen (snd (run_with [Fine] Silence))) /\ In (Begins ClaimBack) (seen (snd (run_with [Fine; Throws] (Arrives FinalTx))))
  /\ fst (run_with [Fine; Fine; Fine] (Arrives FinalTx)) = Returned /\ In (Got Bye) (seen (snd (run_with [] (Arrives Bye)))).
Proof. vm_compute. intuition. Qed.

Print Assumptions C94_messages.
Print Assumptions C94_no_confusion.
Print Assumptions C94_waiting.
Print Assumptions C94_wish.
Print Assumptions C94_told.
Print Assumptions C94_after_sending.
Print Assumptions C94_sending_fails_refuted.
Print Assumptions C94_bye_refuted.
Print Assumptions C94_claims_back.
Print Assumptions C94_claims_back_refuted.
