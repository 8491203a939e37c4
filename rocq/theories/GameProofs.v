(** Proofs for C93. *)
From Verif Require Import Base GameModel SpecGame.
Local Open Scope Z_scope.

Section Alice.
Variable TB TE hB : Z.
Variable B : bob.
Variable a : Z.
Hypothesis TE2 : 2 <= TE.
Hypothesis TB1 : 1 <= TB.
Hypothesis MS : First (message B) hB a.
Hypothesis OK6 : 6 <= a - hB + 1.
Notation e := (a + 1).

(** the bitcoin as long as Alice does not claim it *)
Inductive BobOnly (h : Z) : spent -> Prop :=
| bo_none : NotBefore (reclaims B) (hB + TB) (h + 1) -> BobOnly h None
| bo_some b : First (reclaims B) (hB + TB) b -> b <= h -> BobOnly h (Some (b, Bob)).
Lemma mine_btc h s t : BobOnly h s -> BobOnly (h + 1) (mine (h + 1) s false (reclaims B (h + 1) && (hB + TB <=? h + 1)) t).
Proof.
  intros [NB|b F L]; cbn [mine]; [|apply bo_some; [exact F|lia]].
  destruct (reclaims B (h + 1)) eqn:R; cbn [andb].
  - destruct (Z.leb_spec (hB + TB) (h + 1)) as [L|L].
    + apply bo_some; [|lia]. split; [exact L|]. split; [exact R|exact NB].
    + apply bo_none. intros x X. destruct (Z.eq_dec x (h + 1)) as [->|]; [lia|]. apply NB. lia.
  - apply bo_none. intros x X. destruct (Z.eq_dec x (h + 1)) as [->|]; [exact R|]. apply NB. lia.
Qed.

Inductive Course : game -> Prop :=
| J_wait h s : hB <= h < a -> BobOnly h s -> Course (mkGame h None s None AWaiting)
| J_sent s : BobOnly a s -> Course (mkGame a None s None ASent)
| J_conf s : BobOnly e s -> reveals B e = false -> Course (mkGame e (Some e) s None AConfirming)
| J_conf1 s : BobOnly e s -> First (reveals B) e e -> Course (mkGame e (Some e) s (Some (e, Bob)) AConfirming)
| J_watch h s : e + 1 <= h < e + TE -> BobOnly h s -> NotBefore (reveals B) e (h + 1) -> Course (mkGame h (Some e) s None AWatching)
| J_found r s : e + 1 <= r < e + TE -> BobOnly r s -> First (reveals B) e r -> Course (mkGame r (Some e) s (Some (r, Bob)) (AFound r))
| J_claim r : r < e + TE -> First (reveals B) e r -> NotBefore (reclaims B) (hB + TB) (r + 2) ->
    Course (mkGame (r + 1) (Some e) None (Some (r, Bob)) AClaiming)
| J_claimed h r : r < e + TE -> r + 2 <= h -> First (reveals B) e r -> NotBefore (reclaims B) (hB + TB) (r + 2) ->
    Course (mkGame h (Some e) (Some (r + 2, if reclaims B (r + 2) && (hB + TB <=? r + 2) && tie_btc B (r + 2) then Bob else Alice)) (Some (r, Bob)) AClaiming)
| J_robbed h r b : r < e + TE -> r + 1 <= h -> First (reveals B) e r -> First (reclaims B) (hB + TB) b -> b <= r + 1 ->
    Course (mkGame h (Some e) (Some (b, Bob)) (Some (r, Bob)) AEnded)
| J_reclaim s : BobOnly (e + TE) s -> NotBefore (reveals B) e (e + TE + 1) -> Course (mkGame (e + TE) (Some e) s None AReclaiming)
| J_reclaimed h s : e + TE + 1 <= h -> BobOnly h s -> NotBefore (reveals B) e (e + TE + 1) ->
    Course (mkGame h (Some e) s (Some (e + TE + 1, if reveals B (e + TE + 1) && tie_elt B (e + TE + 1) then Bob else Alice)) AReclaiming)
| J_late h s : e + TE <= h -> BobOnly h s -> First (reveals B) e (e + TE) -> Course (mkGame h (Some e) s (Some (e + TE, Bob)) AEnded).

Ltac tests := repeat match goal with
  | |- context [?x <? ?y] => destruct (Z.ltb_spec x y); [try lia|try lia]
  | |- context [?x <=? ?y] => destruct (Z.leb_spec x y); [try lia|try lia]
  end.

(** a free bitcoin and a block in which both may take it *)
Lemma mine_claim h t : mine h None true (reclaims B h && (hB + TB <=? h)) t
  = Some (h, if reclaims B h && (hB + TB <=? h) && t then Bob else Alice).
Proof. cbn [mine]. destruct (reclaims B h && (hB + TB <=? h)), t; reflexivity. Qed.
Lemma mine_taken h x p q t : mine h (Some x) p q t = Some x.
Proof. reflexivity. Qed.

(** what Alice does next when the spend has a confirmation more than its own *)
Lemma next_claim r s : r < e + TE -> First (reveals B) e r -> BobOnly (r + 1) s ->
  Course (mkGame (r + 1) (Some e) s (Some (r, Bob)) (if free s then AClaiming else AEnded)).
Proof.
  intros L F [NB|b Fb Lb]; cbn [free].
  - apply J_claim; [exact L|exact F|]. replace (r + 2) with (r + 1 + 1) by lia. exact NB.
  - apply J_robbed; [exact L|lia|exact F|exact Fb|exact Lb].
Qed.

Lemma course_step g : Course g -> Course (act TE hB B (block_of TB TE hB B g)).
Proof.
  intros C. destruct C as [h s L BO|s BO|s BO N|s BO F|h s L BO N|r s L BO F|r L F NB|h r L L2 F NB|h r b L L2 F Fb Lb|s BO N|h s L BO N|h s L BO F];
    unfold block_of; cbn [g_tip g_home g_btc g_elt g_alice]; unfold act; cbn [g_tip g_home g_btc g_elt g_alice act_check]; rewrite ?mine_taken.
  - (* waiting *)
    assert (BO' := mine_btc h s (tie_btc B (h + 1)) BO). destruct MS as (MA & M1 & M2). unfold act_check. cbn [g_alice g_tip].
    destruct (Z.eq_dec (h + 1) a) as [E|E].
    + rewrite E in *. rewrite M1. destruct (Z.ltb_spec (a - hB + 1) 6); [lia|]. cbn [act_confirm act_watch act_found]. apply J_sent. exact BO'.
    + rewrite (M2 (h + 1)) by lia. cbn [act_confirm act_watch act_found]. apply J_wait; [lia|exact BO'].
  - (* sent *)
    assert (BO' := mine_btc a s (tie_btc B e) BO). unfold act_check. cbn [g_alice g_tip act_confirm g_home mine].
    destruct (Z.leb_spec 2 (e - e + 1)); [lia|]. cbn [act_watch act_found].
    destruct (reveals B e) eqn:R.
    + apply J_conf1; [exact BO'|]. split; [lia|]. split; [exact R|]. intros x X. lia.
    + apply J_conf; [exact BO'|exact R].
  - (* confirming, no spend yet *)
    assert (BO' := mine_btc e s (tie_btc B (e + 1)) BO). unfold act_check. cbn [g_alice g_tip act_confirm g_home mine].
    destruct (Z.leb_spec 2 (e + 1 - e + 1)); [|lia]. unfold act_watch. cbn [g_home g_tip g_elt].
    destruct (Z.ltb_spec TE (e + 1 - e + 1)); [lia|]. destruct (reveals B (e + 1)) eqn:R.
    + unfold act_found. cbn [g_tip]. destruct (Z.leb_spec 2 (e + 1 - (e + 1) + 1)); [lia|]. apply J_found; [lia|exact BO'|].
      split; [lia|]. split; [exact R|]. intros x X. assert (x = e) by lia. subst x. exact N.
    + cbn [act_found]. apply J_watch; [lia|exact BO'|]. intros x X. destruct (Z.eq_dec x e) as [->|]; [exact N|]. assert (x = e + 1) by lia. subst x. exact R.
  - (* confirming, spent in the same block *)
    assert (BO' := mine_btc e s (tie_btc B (e + 1)) BO). unfold act_check. cbn [g_alice g_tip act_confirm g_home].
    destruct (Z.leb_spec 2 (e + 1 - e + 1)); [|lia]. unfold act_watch. cbn [g_home g_tip g_elt].
    destruct (Z.ltb_spec TE (e + 1 - e + 1)); [lia|]. unfold act_found. cbn [g_tip g_btc].
    destruct (Z.leb_spec 2 (e + 1 - e + 1)); [|lia]. apply next_claim; [lia|exact F|exact BO'].
  - (* watching *)
    assert (BO' := mine_btc h s (tie_btc B (h + 1)) BO). unfold act_check. cbn [g_alice g_tip act_confirm g_home mine].
    unfold act_watch. cbn [g_home g_tip g_elt]. destruct (Z.ltb_spec TE (h + 1 - e + 1)) as [T|T].
    + assert (h + 1 = e + TE) by lia. destruct (reveals B (h + 1)) eqn:R; cbn [free act_found].
      * replace (h + 1) with (e + TE) in * by lia. apply J_late; [lia|exact BO'|]. split; [lia|]. split; [exact R|exact N].
      * replace (h + 1) with (e + TE) in * by lia. apply J_reclaim; [exact BO'|]. intros x X. destruct (Z.eq_dec x (e + TE)) as [->|]; [exact R|]. apply N. lia.
    + destruct (reveals B (h + 1)) eqn:R; unfold act_found; cbn [g_tip].
      * destruct (Z.leb_spec 2 (h + 1 - (h + 1) + 1)); [lia|]. apply J_found; [lia|exact BO'|]. split; [lia|]. split; [exact R|exact N].
      * apply J_watch; [lia|exact BO'|]. intros x X. destruct (Z.eq_dec x (h + 1)) as [->|]; [exact R|]. apply N. lia.
  - (* found *)
    assert (BO' := mine_btc r s (tie_btc B (r + 1)) BO). unfold act_check. cbn [g_alice g_tip act_confirm act_watch]. unfold act_found. cbn [g_tip g_btc].
    destruct (Z.leb_spec 2 (r + 1 - r + 1)); [|lia]. apply next_claim; [lia|exact F|exact BO'].
  - (* claiming *)
    unfold act_check. cbn [g_alice act_confirm act_watch act_found]. rewrite mine_claim. replace (r + 1 + 1) with (r + 2) by lia. apply J_claimed; [exact L|lia|exact F|exact NB].
  - unfold act_check. cbn [g_alice act_confirm act_watch act_found]. apply J_claimed; [exact L|lia|exact F|exact NB].
  - unfold act_check. cbn [g_alice act_confirm act_watch act_found]. apply J_robbed; [exact L|lia|exact F|exact Fb|exact Lb].
  - (* taking back *)
    assert (BO' := mine_btc (e + TE) s (tie_btc B (e + TE + 1)) BO). unfold act_check. cbn [g_alice act_confirm act_watch act_found].
    destruct (Z.leb_spec (e + TE) (e + TE + 1)) as [_|]; [|lia].
    replace (mine (e + TE + 1) None true (reveals B (e + TE + 1)) (tie_elt B (e + TE + 1)))
      with (Some (e + TE + 1, if reveals B (e + TE + 1) && tie_elt B (e + TE + 1) then Bob else Alice))
      by (cbn [mine]; destruct (reveals B (e + TE + 1)), (tie_elt B (e + TE + 1)); reflexivity).
    apply J_reclaimed; [lia|exact BO'|exact N].
  - assert (BO' := mine_btc h s (tie_btc B (h + 1)) BO). unfold act_check. cbn [g_alice act_confirm act_watch act_found]. apply J_reclaimed; [lia|exact BO'|exact N].
  - assert (BO' := mine_btc h s (tie_btc B (h + 1)) BO). unfold act_check. cbn [g_alice act_confirm act_watch act_found]. apply J_late; [lia|exact BO'|exact F].
Qed.
Lemma course n : Course (play TB TE hB B n).
Proof.
  induction n as [|n IH]; cbn [play]; [|apply course_step, IH]. destruct MS as (MA & M1 & M2). unfold act, act_check. cbn [g_alice g_tip].
  rewrite (M2 hB) by lia. cbn [act_confirm act_watch act_found]. apply J_wait; [lia|]. apply bo_none. intros x X. lia.
Qed.
End Alice.

Lemma tip_at TB TE hB B n : g_tip (play TB TE hB B n) = hB + Z.of_nat n.
Proof. induction n as [|n IH]; cbn [play act g_tip]; [lia|]. cbn [block_of g_tip]. rewrite IH. lia. Qed.

(** ** Bob *)
Section Bob.
Variable TB TE patience hB hE start : Z.
Variable A : alice.
Notation play_b := (play_b TB TE patience hB hE A start).
Lemma tip_b n : b_tip (play_b n) = start + Z.of_nat n.
Proof.
  assert (X : forall g, b_tip (act_b TB patience hB hE A start g) = b_tip g).
  { intros g. unfold act_b. destruct (act_told patience hE A g start). reflexivity. }
  induction n as [|n IH]; cbn [GameModel.play_b]; rewrite X; cbn [b_tip block_of_b]; [lia|]. rewrite IH. lia.
Qed.
Lemma act_coins g : b_elt (act_b TB patience hB hE A start g) = b_elt g /\ b_btc (act_b TB patience hB hE A start g) = b_btc g.
Proof. unfold act_b. destruct (act_told patience hE A g start). auto. Qed.
Lemma elt_keeps n m x : (n <= m)%nat -> b_elt (play_b n) = Some x -> b_elt (play_b m) = Some x.
Proof.
  intros L H. induction L as [|m L IH]; [exact H|]. cbn [GameModel.play_b]. rewrite (proj1 (act_coins _)). cbn [block_of_b b_elt]. rewrite IH. reflexivity.
Qed.
Lemma btc_keeps n m x : (n <= m)%nat -> b_btc (play_b n) = Some x -> b_btc (play_b m) = Some x.
Proof.
  intros L H. induction L as [|m L IH]; [exact H|]. cbn [GameModel.play_b]. rewrite (proj2 (act_coins _)). cbn [block_of_b b_btc]. rewrite IH. reflexivity.
Qed.

Section Told.
Variable t : Z.
Hypothesis TL : First (tells A) start t.
Hypothesis PT : t < start + patience.
Hypothesis CF : hE + 1 <= t.
Hypothesis NT : forall h, h <= t -> takes_back A h && (hE + TE <=? h) = false.
Lemma idle n : start + Z.of_nat n < t -> play_b n = mkBGame (start + Z.of_nat n) false None None BIdle.
Proof.
  assert (X : forall h, start <= h < t -> act_b TB patience hB hE A start (mkBGame h false None None BIdle) = mkBGame h false None None BIdle).
  { intros h L. unfold act_b, act_told. cbn [b_bob b_tip b_known]. destruct TL as (_ & _ & T). rewrite T by lia. destruct (Z.leb_spec (start + patience) h); [lia|]. reflexivity. }
  induction n as [|n IH]; intros L; cbn [GameModel.play_b].
  - rewrite X by lia. f_equal. lia.
  - rewrite IH by lia. unfold block_of_b. cbn [b_tip b_known b_btc b_elt b_bob]. rewrite andb_false_r, NT by lia. cbn [mine].
    rewrite X by lia. f_equal. lia.
Qed.
Lemma told n : start + Z.of_nat n = t -> play_b n = mkBGame t true None None (BRevealing t).
Proof.
  assert (X : act_b TB patience hB hE A start (mkBGame t false None None BIdle) = mkBGame t true None None (BRevealing t)).
  { unfold act_b, act_told. cbn [b_bob b_tip b_known b_elt free]. destruct TL as (_ & T & _). rewrite T. destruct (Z.ltb_spec (t - hE + 1) 2); [lia|].
    unfold act_sent, act_take. cbn [b_elt b_tip b_btc]. destruct TL as (S & _). destruct (Z.leb_spec (t + patience) t); [lia|]. reflexivity. }
  intros E. destruct n as [|n]; cbn [GameModel.play_b].
  - replace start with t at 2 by lia. exact X.
  - rewrite idle by lia. unfold block_of_b. cbn [b_tip b_known b_btc b_elt b_bob]. rewrite andb_false_r, NT by lia. cbn [mine].
    replace (start + Z.of_nat n + 1) with t by lia. exact X.
Qed.
Lemma told_next n : start + Z.of_nat n = t + 1 ->
  b_elt (play_b n) = mine (t + 1) None (takes_back A (t + 1) && (hE + TE <=? t + 1)) true (atie_elt A (t + 1))
  /\ b_btc (play_b n) = mine (t + 1) None (claims A (t + 1)) false (atie_btc A (t + 1)).
Proof.
  intros E. destruct TL as (S & _). destruct n as [|n]; [lia|]. cbn [GameModel.play_b]. rewrite told by lia.
  rewrite (proj1 (act_coins _)), (proj2 (act_coins _)). cbn [block_of_b b_tip b_known b_btc b_elt b_bob]. rewrite andb_true_r. auto.
Qed.
End Told.

(** told in time: Bob's program ends and leaves the bitcoin to Alice *)
Section Safe.
Variable t : Z.
Hypothesis TL : First (tells A) start t.
Hypothesis PT : t < start + patience.
Hypothesis CF : hE + 1 <= t.
Hypothesis SF : t + 1 < hE + TE.
Lemma safe_nt h : h <= t + 1 -> takes_back A h && (hE + TE <=? h) = false.
Proof. intros H. destruct (Z.leb_spec (hE + TE) h); [lia|apply andb_false_r]. Qed.
Inductive Left : bgame -> Prop :=
| M_free h p : t + 1 <= h -> (p = BRevealing t /\ h = t + 1 \/ p = BDone) -> NotBefore (claims A) (t + 1) (h + 1) -> Left (mkBGame h true None (Some (t + 1, Bob)) p)
| M_taken h p c : t + 1 <= h -> (p = BRevealing t /\ h = t + 1 \/ p = BDone) -> First (claims A) (t + 1) c -> c <= h -> Left (mkBGame h true (Some (c, Alice)) (Some (t + 1, Bob)) p).
Lemma left_ends h p : t + 1 <= h -> (p = BRevealing t /\ h <= t + 2 \/ p = BDone) -> forall s,
  exists q, act_b TB patience hB hE A start (mkBGame h true s (Some (t + 1, Bob)) p) = mkBGame h true s (Some (t + 1, Bob)) q /\ (q = BRevealing t /\ h = t + 1 \/ q = BDone).
Proof.
  intros L [(-> & L2)| ->] s.
  - unfold act_b, act_told, act_sent. cbn [b_bob b_tip b_known b_elt b_btc]. destruct (Z.leb_spec 2 (h - (t + 1) + 1)) as [X|X]; cbn [act_take].
    + exists BDone. auto.
    + exists (BRevealing t). split; [reflexivity|]. left. split; [reflexivity|lia].
  - exists BDone. auto.
Qed.
Lemma leaves n : t + 1 <= start + Z.of_nat n -> Left (play_b n).
Proof.
  assert (T0 : start <= t) by (destruct TL; lia).
  induction n as [|n IH]; intros L; [lia|]. destruct (Z.eq_dec (start + Z.of_nat n) t) as [E|E].
  - cbn [GameModel.play_b]. rewrite (told t TL PT CF) by (try exact E; intros h H; apply safe_nt; lia).
    unfold block_of_b. cbn [b_tip b_known b_btc b_elt b_bob]. rewrite safe_nt, andb_true_r by lia. cbn [mine].
    destruct (left_ends (t + 1) (BRevealing t) ltac:(lia) ltac:(left; split; [reflexivity|lia]) (match claims A (t + 1) with true => Some (t + 1, Alice) | false => None end)) as (q & -> & Q).
    destruct (claims A (t + 1)) eqn:C; cbn [mine].
    + apply M_taken; [lia|exact Q| |lia]. split; [lia|]. split; [exact C|]. intros x X. lia.
    + apply M_free; [lia|exact Q|]. intros x X. replace x with (t + 1) by lia. exact C.
  - specialize (IH ltac:(lia)). cbn [GameModel.play_b]. destruct IH as [h p H P N|h p c H P F LC]; unfold block_of_b; cbn [b_tip b_known b_btc b_elt b_bob mine]; rewrite ?andb_true_r.
    + assert (P' : p = BRevealing t /\ h + 1 <= t + 2 \/ p = BDone) by (destruct P as [(-> & ->)| ->]; [left; split; [reflexivity|lia]|right; reflexivity]).
      assert (NR : match p with BReclaiming => hB + TB <=? h + 1 | _ => false end = false) by (destruct P as [(-> & _)| ->]; reflexivity). rewrite NR.
      destruct (left_ends (h + 1) p ltac:(lia) P' (match claims A (h + 1) with true => Some (h + 1, Alice) | false => None end)) as (q & -> & Q).
      destruct (claims A (h + 1)) eqn:C.
      * apply M_taken; [lia|exact Q| |lia]. split; [lia|]. split; [exact C|]. exact N.
      * apply M_free; [lia|exact Q|]. intros x X. destruct (Z.eq_dec x (h + 1)) as [->|]; [exact C|apply N; lia].
    + assert (P' : p = BRevealing t /\ h + 1 <= t + 2 \/ p = BDone) by (destruct P as [(-> & ->)| ->]; [left; split; [reflexivity|lia]|right; reflexivity]).
      destruct (left_ends (h + 1) p ltac:(lia) P' (Some (c, Alice))) as (q & -> & Q). apply M_taken; [lia|exact Q|exact F|lia].
Qed.
End Safe.

(** Bob gives up at tip [q]: told nothing in time, told too early, or told when the asset is gone *)
Section Untold.
Variable q : Z.
Hypothesis Q0 : start <= q <= start + patience.
Hypothesis NO : forall x, start <= x < q -> tells A x = false.
Hypothesis GU : tells A q = false /\ q = start + patience
  \/ tells A q = true /\ (q < hE + 1 \/ exists x, start < x <= q /\ takes_back A x = true /\ hE + TE <= x).
Definition sending : Z := Z.max q (hB + TB - 1).
Definition untaken (s : spent) (h : Z) : Prop := s = None -> forall x, start < x <= h -> takes_back A x && (hE + TE <=? x) = false.
Inductive Idle : bgame -> Prop :=
| K_idle h s : start <= h < q -> untaken s h -> Idle (mkBGame h false None s BIdle)
| K_take h s : q <= h < hB + TB - 1 -> Idle (mkBGame h false None s BTaking)
| K_rec s : Idle (mkBGame sending false None s BReclaiming)
| K_done h s : sending + 1 <= h -> Idle (mkBGame h false (Some (sending + 1, Bob)) s BReclaiming).
Lemma idle_take h s : q <= h <= sending -> (h < hB + TB - 1 \/ h = sending) -> Idle (mkBGame h false None s (if h - hB + 1 <? TB then BTaking else BReclaiming)).
Proof. intros L C. destruct (Z.ltb_spec (h - hB + 1) TB) as [X|X]; [apply K_take; lia|]. destruct C as [Y|Y]; [lia|]. rewrite Y. apply K_rec. Qed.
Lemma idle_act h s : start <= h <= q -> untaken s h -> Idle (act_b TB patience hB hE A start (mkBGame h false None s BIdle)).
Proof.
  intros L U. unfold act_b, act_told. cbn [b_bob b_tip b_known b_elt b_btc]. destruct (Z.eq_dec h q) as [->|N].
  - assert (T : Idle (mkBGame q false None s (if q - hB + 1 <? TB then BTaking else BReclaiming))) by (apply idle_take; unfold sending; lia).
    destruct GU as [(E & P)|(E & G)]; rewrite E.
    + destruct (Z.leb_spec (start + patience) q); [|lia]. exact T.
    + destruct (Z.ltb_spec (q - hE + 1) 2) as [_|X]; [exact T|]. destruct G as [G|(x & LX & TX & HX)]; [lia|].
      destruct s as [y|]; cbn [free]; [exact T|]. specialize (U eq_refl x LX). rewrite TX in U. destruct (Z.leb_spec (hE + TE) x); [discriminate U|lia].
  - rewrite NO by lia. destruct (Z.leb_spec (start + patience) h) as [P|P]; [lia|]. apply K_idle; [lia|exact U].
Qed.
Lemma untold n : Idle (play_b n).
Proof.
  induction n as [|n IH]; cbn [GameModel.play_b].
  - apply idle_act; [lia|]. intros _ x X. lia.
  - destruct IH as [h s L U|h s L|s|h s L]; unfold block_of_b; cbn [b_tip b_known b_btc b_elt b_bob]; rewrite ?andb_false_r; cbn [mine].
    + apply idle_act; [lia|]. intros E x X. destruct s as [y|]; [discriminate E|]. cbn [mine] in E.
      destruct (Z.eq_dec x (h + 1)) as [->|]; [|apply U; [reflexivity|lia]]. destruct (takes_back A (h + 1) && (hE + TE <=? h + 1)); [discriminate E|reflexivity].
    + unfold act_b, act_told. cbn [b_bob b_tip b_known b_elt b_btc act_sent act_take free]. apply idle_take; unfold sending; lia.
    + destruct (Z.leb_spec (hB + TB) (sending + 1)) as [_|X]; [|unfold sending in X; lia].
      unfold act_b, act_told. cbn [b_bob b_tip b_known b_elt b_btc act_sent act_take]. apply K_done. lia.
    + unfold act_b, act_told. cbn [b_bob b_tip b_known b_elt b_btc act_sent act_take]. apply K_done. lia.
Qed.
End Untold.

(** Alice has the bitcoin only after Bob's transaction was sent: he was told, and of a contract that is deep enough *)
Definition Sent (h : Z) : Prop := exists t, First (tells A) start t /\ hE + 1 <= t /\ t <= h /\ t <= Z.max start (start + patience).
Definition Key (g : bgame) : Prop :=
  (b_bob g = BIdle -> b_known g = false /\ b_tip g < Z.max start (start + patience) /\ forall x, start <= x <= b_tip g -> tells A x = false)
  /\ (b_known g = true -> Sent (b_tip g)) /\ (forall h, b_btc g = Some (h, Alice) -> exists k, k < h /\ Sent k).
Lemma key_act g : start <= b_tip g -> (b_bob g = BIdle -> b_known g = false /\ b_tip g <= Z.max start (start + patience) /\ forall x, start <= x < b_tip g -> tells A x = false) ->
  (b_known g = true -> Sent (b_tip g)) -> (forall h, b_btc g = Some (h, Alice) -> exists k, k < h /\ Sent k) -> Key (act_b TB patience hB hE A start g).
Proof.
  intros L I1 I2 I3. unfold Key. rewrite (proj2 (act_coins g)).
  assert (ET : b_tip (act_b TB patience hB hE A start g) = b_tip g) by (unfold act_b; destruct (act_told patience hE A g start); reflexivity).
  assert (NI : forall p, p <> BIdle -> act_take TB hB g (act_sent patience g p) <> BIdle).
  { intros p H. assert (X : act_sent patience g p <> BIdle).
    { destruct p; cbn [act_sent]; try exact H; try discriminate. destruct (b_elt g) as [[r [|]]|]; [|destruct (2 <=? b_tip g - r + 1)|]; try destruct (s + patience <=? b_tip g); discriminate. }
    destruct (act_sent patience g p); cbn [act_take]; try exact X; try discriminate. destruct (_ <? _); [discriminate|]. destruct (free (b_btc g)); discriminate. }
  rewrite ET. unfold act_b, act_told. destruct (b_bob g) eqn:EB; try (split; [intros X; exfalso; revert X; cbn [b_bob]; apply NI; discriminate|split; [exact I2|exact I3]]).
  destruct (I1 eq_refl) as (K & LT & N). destruct (tells A (b_tip g)) eqn:T.
  - assert (F : First (tells A) start (b_tip g)) by (split; [exact L|]; split; [exact T|exact N]).
    destruct (Z.ltb_spec (b_tip g - hE + 1) 2) as [X|X]; [|destruct (free (b_elt g))]; (split; [intros Y; exfalso; revert Y; cbn [b_bob]; apply NI; discriminate|split; [|exact I3]]); try exact I2.
    intros _. exists (b_tip g). split; [exact F|]. split; [lia|]. split; lia.
  - destruct (Z.leb_spec (start + patience) (b_tip g)) as [X|X].
    + split; [intros Y; exfalso; revert Y; cbn [b_bob]; apply NI; discriminate|split; [exact I2|exact I3]].
    + split; [|split; [exact I2|exact I3]]. cbn [b_known b_bob act_sent act_take]. intros _. split; [exact K|]. split; [lia|].
      intros x Y. destruct (Z.eq_dec x (b_tip g)) as [->|]; [exact T|apply N; lia].
Qed.
Lemma key_first n : Key (play_b n).
Proof.
  induction n as [|n IH]; cbn [GameModel.play_b].
  - apply key_act; cbn [b_tip b_bob b_known b_btc]; [lia| |discriminate|discriminate]. intros _. split; [reflexivity|]. split; [lia|]. intros x X. lia.
  - destruct IH as (I1 & I2 & I3). assert (T := tip_b n). assert (UP : forall h k, Sent h -> h <= k -> Sent k) by (intros h k (t & F & A1 & A2 & A3) H; exists t; repeat split; try apply F; lia).
    apply key_act; cbn [block_of_b b_tip b_bob b_known b_btc]; [lia| | |].
    + intros E. destruct (I1 E) as (K & L & N). split; [exact K|]. split; [lia|]. intros x X. apply N. lia.
    + intros E. apply (UP (b_tip (play_b n))); [exact (I2 E)|lia].
    + intros h E. destruct (b_btc (play_b n)) as [y|]; [exact (I3 h E)|]. cbn [mine] in E.
      destruct (b_known (play_b n)) eqn:K.
      * assert (EH : h = b_tip (play_b n) + 1) by (repeat match type of E with context [if ?x then _ else _] => destruct x end; congruence).
        exists (b_tip (play_b n)). split; [lia|exact (I2 eq_refl)].
      * rewrite andb_false_r in E. repeat match type of E with context [if ?x then _ else _] => destruct x end; discriminate E.
Qed.
End Bob.

(** Alice sends only after a message with six confirmations *)
Section Home.
Variable TB TE hB : Z.
Variable B : bob.
Notation play := (play TB TE hB B).
Definition Sane (g : game) : Prop :=
  match g_home g with
  | Some e => exists a, First (message B) hB a /\ 6 <= a - hB + 1 /\ e = a + 1
  | None => g_elt g = None /\ ~ Has Alice (g_btc g) /\
            match g_alice g with
            | AWaiting => forall x, hB <= x <= g_tip g -> message B x = false
            | ASent => First (message B) hB (g_tip g) /\ 6 <= g_tip g - hB + 1
            | AEnded => True
            | _ => False
            end
  end.
Lemma sane n : Sane (play n).
Proof.
  assert (CH : forall h s, hB <= h -> ~ Has Alice s -> (forall x, hB <= x < h -> message B x = false) -> Sane (act TE hB B (mkGame h None s None AWaiting))).
  { intros h s L NA N. unfold act, act_check, Sane. cbn [g_home g_elt g_btc g_alice g_tip]. split; [reflexivity|]. split; [exact NA|].
    destruct (message B h) eqn:M; [destruct (Z.ltb_spec (h - hB + 1) 6)|]; cbn [act_confirm act_watch act_found g_home g_tip].
    - exact I.
    - split; [|lia]. split; [lia|]. split; [exact M|exact N].
    - intros x X. destruct (Z.eq_dec x h) as [->|]; [exact M|apply N; lia]. }
  induction n as [|n IH]; cbn [GameModel.play].
  - apply CH; [lia|intros (x & E); discriminate E|]. intros x X. lia.
  - assert (T := tip_at TB TE hB B n). unfold Sane in IH. destruct (play n) as [h home s e p]. cbn [g_home g_elt g_btc g_alice g_tip] in *.
    destruct home as [e0|]; [unfold Sane, act, block_of; cbn [g_home]; exact IH|]. destruct IH as (-> & NA & P).
    assert (NA' : forall y z, ~ Has Alice (mine (h + 1) s false y z)) by (intros y z (x & E); destruct s as [w|]; cbn [mine] in E; [apply NA; exists x; exact E|destruct y; discriminate E]).
    destruct p; try contradiction P; unfold block_of; cbn [g_home g_elt g_btc g_alice g_tip].
    + apply CH; [lia|apply NA'|]. intros x X. apply P. lia.
    + unfold Sane, act. cbn [g_home]. destruct P as (F & L). exists h. auto.
    + unfold Sane, act. cbn [g_home g_elt g_btc g_alice]. split; [reflexivity|]. split; [apply NA'|exact I].
Qed.
End Home.
