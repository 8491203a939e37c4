(** Proofs for C92. *)
From Verif Require Import Base BaseFacts CrossTxModel WaitModel SpecWait.
Local Open Scope Z_scope.

(** ** wait_confirm *)
Lemma poll_confirm_spec nd num n k :
  match poll_confirm nd num n k with
  | Confirmed k' => exists i, (k <= i < k + n)%nat /\ k' = S i /\ Enough num (nd i) /\ forall j, (k <= j < i)%nat -> NotYet num (nd j)
  | TimedOut k' => k' = (k + n)%nat /\ forall j, (k <= j < k + n)%nat -> NotYet num (nd j)
  | Failed k' e => exists i, (k <= i < k + n)%nat /\ k' = S i /\ nd i = Broke e /\ forall j, (k <= j < i)%nat -> NotYet num (nd j)
  end.
Proof.
  revert k. induction n as [|n IH]; intros k; cbn [poll_confirm].
  - split; [lia|]. intros j Hj. lia.
  - assert (Go : NotYet num (nd k) ->
      match poll_confirm nd num n (S k) with
      | Confirmed k' => exists i, (k <= i < k + S n)%nat /\ k' = S i /\ Enough num (nd i) /\ forall j, (k <= j < i)%nat -> NotYet num (nd j)
      | TimedOut k' => k' = (k + S n)%nat /\ forall j, (k <= j < k + S n)%nat -> NotYet num (nd j)
      | Failed k' e => exists i, (k <= i < k + S n)%nat /\ k' = S i /\ nd i = Broke e /\ forall j, (k <= j < i)%nat -> NotYet num (nd j)
      end).
    { intros NY. assert (X : forall i, (forall j, (S k <= j < i)%nat -> NotYet num (nd j)) -> forall j, (k <= j < i)%nat -> NotYet num (nd j)).
      { intros i H j Hj. destruct (Nat.eq_dec j k) as [->|]; [exact NY|]. apply H. lia. }
      specialize (IH (S k)). destruct (poll_confirm nd num n (S k)) as [k'|k'|k' e].
      - destruct IH as (i & L & -> & E & F). exists i. split; [lia|]. split; [reflexivity|]. split; [exact E|exact (X i F)].
      - destruct IH as (-> & F). split; [lia|]. intros j Hj. apply (X (S k + n)%nat); [exact F|lia].
      - destruct IH as (i & L & -> & E & F). exists i. split; [lia|]. split; [reflexivity|]. split; [exact E|exact (X i F)]. }
    destruct (nd k) as [c|c|e] eqn:E.
    + destruct (Z.leb_spec num (confirmations c)) as [L|L].
      * exists k. split; [lia|]. split; [reflexivity|]. split; [unfold Enough; rewrite E; destruct c as [c|]; cbn [confirmations] in L; eauto|]. intros; lia.
      * apply Go. destruct c as [c|]; exact L.
    + apply Go. exact I.
    + exists k. split; [lia|]. split; [reflexivity|]. split; [exact E|]. intros; lia.
Qed.

Lemma confirm_exact : forall node num m r, poll_confirm node num m 0 = r <->
  match r with
  | Confirmed k => exists i, k = S i /\ FirstTime m (fun j => Enough num (node j)) (fun j => NotYet num (node j)) i
  | Failed k e => exists i, k = S i /\ FirstTime m (fun j => node j = Broke e) (fun j => NotYet num (node j)) i
  | TimedOut k => k = m /\ forall j, (j < m)%nat -> NotYet num (node j)
  end.
Proof.
  intros node num m r. pose proof (poll_confirm_spec node num m 0) as P. rewrite Nat.add_0_l in P.
  generalize dependent (poll_confirm node num m 0). intros w P. unfold FirstTime. split.
  - intros <-. destruct w as [k|k|k e].
    + destruct P as (i & L & -> & E & F). exists i. split; [reflexivity|]. split; [lia|]. split; [exact E|]. intros j Hj. apply F. lia.
    + destruct P as (-> & F). split; [reflexivity|]. intros j Hj. apply F. lia.
    + destruct P as (i & L & -> & E & F). exists i. split; [reflexivity|]. split; [lia|]. split; [exact E|]. intros j Hj. apply F. lia.
  - assert (X1 : forall i, Enough num (node i) -> NotYet num (node i) -> False) by (intros i [(c & E & L)|(E & L)] N; rewrite E in N; cbn in N; lia).
    assert (X2 : forall i e, node i = Broke e -> NotYet num (node i) -> False) by (intros i e E N; rewrite E in N; exact N).
    intros R. destruct w as [k|k|k e], r as [k'|k'|k' e'].
    + destruct P as (i & L & -> & E & F), R as (i' & -> & L' & E' & F'). f_equal. f_equal.
      destruct (Nat.lt_trichotomy i i') as [H|[H|H]]; [destruct (X1 i E (F' i H))|exact H|destruct (X1 i' E' (F i' ltac:(lia)))].
    + destruct P as (i & L & -> & E & F), R as (-> & F'). destruct (X1 i E (F' i ltac:(lia))).
    + destruct P as (i & L & -> & E & F), R as (i' & -> & L' & E' & F').
      destruct (Nat.lt_trichotomy i i') as [H|[H|H]]; [destruct (X1 i E (F' i H))| |destruct (X2 i' e' E' (F i' ltac:(lia)))].
      subst i'. destruct E as [(c & E & _)|(E & _)]; congruence.
    + destruct P as (-> & F), R as (i' & -> & L' & E' & F'). destruct (X1 i' E' (F i' ltac:(lia))).
    + destruct P as (-> & _), R as (-> & _). reflexivity.
    + destruct P as (-> & F), R as (i' & -> & L' & E' & F'). destruct (X2 i' e' E' (F i' ltac:(lia))).
    + destruct P as (i & L & -> & E & F), R as (i' & -> & L' & E' & F').
      destruct (Nat.lt_trichotomy i i') as [H|[H|H]]; [destruct (X2 i e E (F' i H))| |destruct (X1 i' E' (F i' ltac:(lia)))].
      subst i'. destruct E' as [(c & E' & _)|(E' & _)]; congruence.
    + destruct P as (i & L & -> & E & F), R as (-> & F'). destruct (X2 i e E (F' i ltac:(lia))).
    + destruct P as (i & L & -> & E & F), R as (i' & -> & L' & E' & F').
      destruct (Nat.lt_trichotomy i i') as [H|[H|H]]; [destruct (X2 i e E (F' i H))| |destruct (X2 i' e' E' (F i' ltac:(lia)))].
      subst i'. congruence.
Qed.

(** ** the chain *)
Section Chain.
Variable ch : nat -> chain.
Variable home : nat.
Variable contract : txid.
Variable err : nat -> option trouble.
Hypothesis GR : Grows ch.
Hypothesis UN : forall k, Unique (ch k).
Notation nd := (faulty err (honest ch home)).

Lemma grows k k' : (k <= k')%nat -> exists more, ch k' = ch k ++ more.
Proof.
  intros L. induction L as [|k' L (m & IH)]; [exists []; rewrite app_nil_r; reflexivity|].
  destruct (GR k') as (m2 & E). exists (m ++ m2). rewrite E, IH, app_assoc. reflexivity.
Qed.
Lemma grows_len k k' : (k <= k')%nat -> (length (ch k) <= length (ch k'))%nat.
Proof. intros L. destruct (grows k k' L) as (m & ->). rewrite app_length. lia. Qed.
Lemma grows_nth k k' j b : (k <= k')%nat -> nth_error (ch k) j = Some b -> nth_error (ch k') j = Some b.
Proof.
  intros L H. destruct (grows k k' L) as (m & ->). rewrite nth_error_app1; [exact H|].
  apply nth_error_Some. congruence.
Qed.
Lemma back_nth k k' j b : (k <= k')%nat -> (j < length (ch k))%nat -> nth_error (ch k') j = Some b -> nth_error (ch k) j = Some b.
Proof. intros L J H. destruct (grows k k' L) as (m & E). rewrite E, nth_error_app1 in H by exact J. exact H. Qed.

Lemma lookup_in t i l : NoDup (map fst l) -> In (t, i) l -> lookup t l = Some i.
Proof.
  induction l as [|[u v] l IH]; cbn [map fst lookup]; intros N H; [contradiction|].
  inversion N as [|? ? N1 N2]; subst. destruct H as [[= -> ->]|H]; [rewrite Z.eqb_refl; reflexivity|].
  destruct (Z.eqb_spec u t) as [->|]; [|apply IH; assumption].
  exfalso. apply N1. apply (in_map fst) in H. exact H.
Qed.
Lemma ins_of k j b x : nth_error (ch k) j = Some b -> In x b -> n_ins nd k (fst x) = fault (err k) (Got (snd x)).
Proof.
  intros H I. cbn [faulty honest n_ins]. rewrite (lookup_in (fst x) (snd x)); [reflexivity|apply UN|].
  apply in_concat. exists b. split; [eapply nth_error_In, H|]. destruct x; exact I.
Qed.

Lemma spends_iff i : spends contract i = true <-> Spends contract i.
Proof.
  unfold spends, Spends. rewrite existsb_exists. split.
  - intros ([[t n]|] & H & E); [|discriminate]. apply Z.eqb_eq in E. subst t. exists n. exact H.
  - intros (n & H). exists (Some (contract, n)). split; [exact H|apply Z.eqb_refl].
Qed.
Lemma spends_not i : spends contract i = false <-> ~ Spends contract i.
Proof. rewrite <- spends_iff. destruct (spends contract i); split; congruence. Qed.
Definition quiet (b : list (txid * ins)) : Prop := Forall (fun x => ~ Spends contract (snd x)) b.
Definition hiccup (w : trouble) (k k' : nat) : Prop := exists i, k' = S i /\ (k <= i)%nat /\ err i = Some w.

Lemma scan_spec j b : forall done rest k, b = done ++ rest -> (forall k', (k <= k')%nat -> nth_error (ch k') j = Some b) ->
  match scan nd contract k (map fst rest) with
  | (SNone, k') => quiet rest /\ k' = (k + length rest)%nat
  | (SFound t, k') => (k < k' <= k + length rest)%nat /\ exists before i after, rest = before ++ (t, i) :: after /\ Spends contract i /\ quiet before
  | (STrouble w, k') => hiccup w k k'
  end.
Proof.
  intros done rest. revert done. induction rest as [|x r IH]; intros done k E H; cbn [map scan].
  - split; [constructor|cbn; lia].
  - rewrite (ins_of k j b x); [|apply H; lia|rewrite E; apply in_elt].
    destruct (err k) as [[c|e]|] eqn:ER; cbn [fault]; [exists k; auto|exists k; auto|].
    destruct (spends contract (snd x)) eqn:S.
    + split; [cbn; lia|]. exists [], (snd x), r. split; [destruct x; reflexivity|]. split; [apply spends_iff, S|constructor].
    + specialize (IH (done ++ [x]) (Datatypes.S k)). rewrite <- app_assoc in IH. specialize (IH E).
      assert (H' : forall k', (Datatypes.S k <= k')%nat -> nth_error (ch k') j = Some b) by (intros k' L; apply H; lia).
      specialize (IH H'). apply spends_not in S.
      destruct (scan nd contract (Datatypes.S k) (map fst r)) as [[t| |w] k'].
      * destruct IH as (L & before & i & after & -> & Sp & Q). split; [cbn [length]; lia|].
        exists (x :: before), i, after. repeat split; [exact Sp|]. constructor; assumption.
      * destruct IH as (Q & ->). split; [constructor; assumption|cbn [length]; lia].
      * destruct IH as (i & -> & L & EI). exists i. repeat split; [lia|exact EI].
Qed.

Definition Quiet (k p : nat) : Prop := forall j b, (home <= j < p)%nat -> nth_error (ch k) j = Some b -> quiet b.
Lemma quiet_later k k' p : (k <= k')%nat -> (p <= length (ch k))%nat -> Quiet k p -> Quiet k' p.
Proof. intros L P Q j b J H. apply (Q j b J). apply (back_nth k k'); [exact L|lia|exact H]. Qed.
Definition InvCur (cur : option hash) (k : nat) : Prop :=
  match cur with None => True | Some h => exists p, h = Z.of_nat p /\ (home <= p < length (ch k))%nat /\ Quiet k p end.
Definition InvLast (last : option block) (k : nat) : Prop :=
  match last with
  | None => True
  | Some b => exists q blk, (home <= q)%nat /\ nth_error (ch k) q = Some blk /\ Quiet k (S q) /\ b_tx b = map fst blk
                         /\ (b_next b = None \/ b_next b = Some (Z.of_nat (S q)) /\ (S q < length (ch k))%nat)
  end.
Lemma cur_later cur k k' : (k <= k')%nat -> InvCur cur k -> InvCur cur k'.
Proof.
  intros L. destruct cur as [h|]; cbn; [|auto]. intros (p & -> & P & Q). exists p. pose proof (grows_len k k' L).
  split; [reflexivity|]. split; [lia|]. apply (quiet_later k); [exact L|lia|exact Q].
Qed.
Lemma last_later last k k' : (k <= k')%nat -> InvLast last k -> InvLast last k'.
Proof.
  intros L. destruct last as [b|]; cbn; [|auto]. intros (q & blk & Q1 & N & Q & T & X). exists q, blk.
  pose proof (grows_len k k' L). assert (q < length (ch k))%nat by (apply nth_error_Some; congruence).
  split; [exact Q1|]. split; [apply (grows_nth k); assumption|]. split; [apply (quiet_later k); [exact L|lia|exact Q]|]. split; [exact T|].
  destruct X as [X|(X & Y)]; [left; exact X|right; split; [exact X|lia]].
Qed.

(** the part of an iteration that has a block *)
Lemma look_spec q b bk k cur : (home <= q)%nat -> (forall k', (k <= k')%nat -> nth_error (ch k') q = Some b) -> Quiet k q -> b_tx bk = map fst b ->
  match look nd contract bk cur k with
  | Found t k' => FirstSpend (ch k') home contract q t /\ ~ quiet b /\ (k < k')%nat
  | Waiting cur' last' k' => quiet b /\ k' = (k + length b)%nat /\ cur' = Some (match b_next bk with None => cur | Some h => h end) /\ last' = Some bk
  | Trouble w k' => hiccup w k k'
  | GaveUp _ => False
  end.
Proof.
  intros HQ H Q T. unfold look. rewrite T. assert (QL : (q < length (ch k))%nat) by (apply nth_error_Some; rewrite H by lia; discriminate).
  pose proof (scan_spec q b [] b k eq_refl H) as S. destruct (scan nd contract k (map fst b)) as [[t| |w] k'].
  - destruct S as (L & before & i & after & E & Sp & Qb). split; [|split; [|lia]].
    + split; [exact HQ|]. split.
      * exists before, i, after. split; [rewrite <- E; apply H; lia|]. split; assumption.
      * intros j' b' J H'. apply (Q j' b'); [lia|]. apply (back_nth k k'); [lia|lia|exact H'].
    + intros X. unfold quiet in X. rewrite Forall_forall in X. apply (X (t, i)); [rewrite E; apply in_elt|exact Sp].
  - destruct S as (Qb & ->). auto.
  - exact S.
Qed.

Definition conf_at (k : nat) : Z := Z.of_nat (length (ch k)) - Z.of_nat home.
Lemma info_at k : exists i, n_info (honest ch home) k = Got i /\ (elements_timeout <? confirmations (i_conf i)) = (elements_timeout <? conf_at k)
  /\ i_block i = (if (home <? length (ch k))%nat then Some (Z.of_nat home) else None).
Proof.
  cbn [honest n_info]. destruct (Nat.ltb_spec home (length (ch k))) as [L|L]; eexists; (split; [reflexivity|]); cbn [i_conf i_block confirmations].
  - split; [|reflexivity]. unfold conf_at. f_equal. lia.
  - split; [|reflexivity]. unfold conf_at, elements_timeout. destruct (Z.ltb_spec 10 0); [lia|]. destruct (Z.ltb_spec 10 (Z.of_nat (length (ch k)) - Z.of_nat home)); [lia|reflexivity].
Qed.
Lemma block_at k p : (p < length (ch k))%nat -> exists b, (forall k', (k <= k')%nat -> nth_error (ch k') p = Some b)
  /\ n_block (honest ch home) k (Z.of_nat p) = Got (mkBlock (map fst b) (if (S p <? length (ch k))%nat then Some (Z.of_nat p + 1) else None)).
Proof.
  intros L. cbn [honest n_block]. rewrite Nat2Z.id. destruct (nth_error (ch k) p) as [b|] eqn:E; [|apply nth_error_None in E; lia].
  exists b. split; [|reflexivity]. intros k' L'. eapply grows_nth; eassumption.
Qed.

(** what an exception comes from: the last call failed *)
Definition upset (w : trouble) (k k' : nat) : Prop :=
  exists i, k' = S i /\ (k <= i)%nat /\ (err i = Some w \/ w = TOther EUnboundLocal /\ exists c, c <> -5 /\ err i = Some (TRpc c)).
Lemma hiccup_upset w k k' k0 : (k0 <= k)%nat -> hiccup w k k' -> upset w k0 k'.
Proof. intros L (i & -> & LI & E). exists i. repeat split; [lia|auto]. Qed.

(** one iteration with a block to read *)
Lemma poll_some p last k : (home <= p < length (ch k))%nat -> Quiet k p -> conf_at k <= elements_timeout -> err k = None -> err (S k) = None ->
  exists b, (forall k', (S k <= k')%nat -> nth_error (ch k') p = Some b) /\
  match poll nd contract (Some (Z.of_nat p)) last k with
  | Found t k' => FirstSpend (ch k') home contract p t /\ ~ quiet b /\ (k < k')%nat
  | Waiting cur' last' k' => quiet b /\ k' = (2 + k + length b)%nat
      /\ cur' = Some (Z.of_nat (if (S p <? length (ch (S k)))%nat then S p else p))
      /\ last' = Some (mkBlock (map fst b) (if (S p <? length (ch (S k)))%nat then Some (Z.of_nat p + 1) else None))
  | Trouble w k' => hiccup w (S (S k)) k'
  | GaveUp _ => False
  end.
Proof.
  intros P Q G E0 E1. unfold poll. cbn [faulty n_info n_block]. rewrite E0, E1. cbn [fault].
  destruct (info_at k) as (i & -> & -> & EB). cbv zeta. destruct (Z.ltb_spec elements_timeout (conf_at k)) as [G'|_]; [lia|].
  pose proof (grows_len k (S k) ltac:(lia)). pose proof (grows_len k (S (S k)) ltac:(lia)).
  destruct (block_at (S k) p ltac:(lia)) as (b & Hb & EK). rewrite EK. exists b. split; [exact Hb|].
  pose proof (look_spec p b (mkBlock (map fst b) (if (S p <? length (ch (S k)))%nat then Some (Z.of_nat p + 1) else None)) (S (S k)) (Z.of_nat p)
    ltac:(lia) ltac:(intros k' L; apply Hb; lia) ltac:(apply (quiet_later k); [lia|lia|exact Q]) eq_refl) as LS.
  destruct (look _ _ _ _ _) as [t k'|k'|w k'|cur' last' k'].
  - destruct LS as (F & NQ & L). split; [exact F|]. split; [exact NQ|lia].
  - exact LS.
  - exact LS.
  - destruct LS as (Qb & -> & -> & ->). split; [exact Qb|]. split; [lia|]. split; [|reflexivity]. cbn [b_next].
    destruct (S p <? length (ch (S k)))%nat; [|reflexivity]. do 2 f_equal. lia.
Qed.

Ltac same_poll PS :=
  match goal with |- context [poll ?a ?b ?c ?d ?e] => match type of PS with context [poll ?a' ?b' ?c' ?d' ?e'] => change (poll a b c d e) with (poll a' b' c' d' e') end end.
(** one iteration *)
Lemma poll_spec cur last k : InvCur cur k -> InvLast last k ->
  match poll nd contract cur last k with
  | Found t k' => exists j, FirstSpend (ch k') home contract j t /\ Z.of_nat j < Z.of_nat home + elements_timeout /\ (k < k')%nat
  | GaveUp k' => elements_timeout < conf_at k /\ k' = S k
  | Trouble w k' => upset w k k'
  | Waiting cur' last' k' => InvCur cur' k' /\ InvLast last' k' /\ (k < k')%nat /\ conf_at k <= elements_timeout
  end.
Proof.
  intros IC IL. destruct (err k) as [w0|] eqn:E0.
  { unfold poll. cbn [faulty n_info]. rewrite E0. destruct w0 as [c|e]; cbn [fault]; exists k; auto. }
  destruct (Z.ltb_spec elements_timeout (conf_at k)) as [G|G].
  { unfold poll. cbn [faulty n_info]. rewrite E0. cbn [fault]. destruct (info_at k) as (i & -> & -> & EB). cbv zeta.
    destruct (Z.ltb_spec elements_timeout (conf_at k)) as [_|G']; [auto|lia]. }
  destruct cur as [h|].
  - destruct IC as (p & -> & P & Q). pose proof (grows_len k (S k) ltac:(lia)).
    destruct (err (S k)) as [w0|] eqn:E1.
    + unfold poll. cbn [faulty n_info n_block]. rewrite E0, E1. cbn [fault].
      destruct (info_at k) as (i & -> & -> & EB). cbv zeta. destruct (Z.ltb_spec elements_timeout (conf_at k)) as [G'|_]; [lia|].
      destruct w0 as [c|e]; cbn [fault]; [|exists (S k); split; [reflexivity|]; split; [lia|auto]].
      destruct (Z.eqb_spec c (-5)) as [->|NC].
      * split; [exact I|]. split; [apply (last_later _ k); [lia|exact IL]|]. split; [lia|exact G].
      * destruct last as [bk|]; [|exists (S k); split; [reflexivity|]; split; [lia|]; right; split; [reflexivity|]; eauto].
        pose proof (last_later _ k (S (S k)) ltac:(lia) IL) as (q & blk & Q1 & N & QQ & T & X).
        assert (QL : (q < length (ch (S (S k))))%nat) by (apply nth_error_Some; congruence).
        pose proof (look_spec q blk bk (S (S k)) (Z.of_nat p) Q1 ltac:(intros k' L; apply (grows_nth (S (S k))); assumption)
          ltac:(intros j b J HB; apply (QQ j b); [lia|exact HB]) T) as LS.
        assert (QB : quiet blk) by (apply (QQ q blk); [lia|exact N]).
        destruct (look _ _ _ _ _) as [t k'|k'|w k'|cur' last' k'].
        -- destruct LS as (_ & NQ & _). contradiction.
        -- contradiction.
        -- apply (hiccup_upset w (S (S k))); [lia|exact LS].
        -- destruct LS as (_ & -> & -> & ->). split; [|split; [|split; [lia|exact G]]].
           ++ destruct X as [->|(-> & Y)].
              ** apply (cur_later _ k); [lia|]. exists p. auto.
              ** apply (cur_later _ (S (S k))); [lia|]. exists (S q). auto with arith.
           ++ apply (last_later (Some bk) (S (S k))); [lia|]. exists q, blk. auto.
    + destruct (poll_some p last k P Q G E0 E1) as (b & Hb & PS). same_poll PS.
      destruct (poll nd contract (Some (Z.of_nat p)) last k) as [t k'|k'|w k'|cur' last' k'].
      * destruct PS as (F & _ & L). exists p. split; [exact F|]. unfold conf_at in G. split; [lia|exact L].
      * contradiction.
      * apply (hiccup_upset w (S (S k))); [lia|exact PS].
      * destruct PS as (Qb & -> & -> & ->).
        assert (Q2 : Quiet (S k) (S p)).
        { intros j b' J HB. destruct (Nat.eq_dec j p) as [->|]; [rewrite Hb in HB by lia; injection HB as <-; exact Qb|].
          apply (Q j b'); [lia|]. apply (back_nth k (S k)); [lia|lia|exact HB]. }
        split; [|split; [|split; [lia|exact G]]].
        -- apply (cur_later _ (S k)); [lia|]. destruct (Nat.ltb_spec (S p) (length (ch (S k)))).
           ++ exists (S p). split; [reflexivity|]. split; [lia|exact Q2].
           ++ exists p. split; [reflexivity|]. split; [lia|]. apply (quiet_later k); [lia|lia|exact Q].
        -- apply (last_later _ (S k)); [lia|]. exists p, b. split; [lia|]. split; [apply Hb; lia|]. split; [exact Q2|]. split; [reflexivity|]. cbn [b_next].
           destruct (Nat.ltb_spec (S p) (length (ch (S k)))); [right|left; reflexivity]. split; [f_equal; lia|assumption].
  - unfold poll. cbn [faulty n_info n_block]. rewrite E0. cbn [fault].
    destruct (info_at k) as (i & -> & -> & EB). cbv zeta. destruct (Z.ltb_spec elements_timeout (conf_at k)) as [G'|_]; [lia|].
    rewrite EB. pose proof (last_later _ k (S k) ltac:(lia) IL) as IL1.
    destruct (Nat.ltb_spec home (length (ch k))) as [L|L]; [|split; [exact I|split; [exact IL1|split; [lia|exact G]]]].
    split; [|split; [exact IL1|split; [lia|exact G]]]. apply (cur_later _ k); [lia|]. exists home. split; [reflexivity|]. split; [lia|]. intros j b J. lia.
Qed.

Lemma polling_spec n : forall cur last k, InvCur cur k -> InvLast last k ->
  match polling nd contract n cur last k with
  | Found t k' => exists j, FirstSpend (ch k') home contract j t /\ Z.of_nat j < Z.of_nat home + elements_timeout
  | GaveUp k' => exists i, k' = S i /\ (k <= i)%nat /\ elements_timeout < conf_at i
  | Trouble w k' => upset w k k'
  | Waiting cur' last' k' => InvCur cur' k' /\ InvLast last' k' /\ (k + n <= k')%nat
  end.
Proof.
  induction n as [|n IH]; intros cur last k IC IL; cbn [polling]; [split; [exact IC|split; [exact IL|lia]]|].
  pose proof (poll_spec cur last k IC IL) as P. destruct (poll nd contract cur last k) as [t k'|k'|w k'|cur' last' k'].
  - destruct P as (j & F & L & _). exists j. auto.
  - destruct P as (G & ->). exists k. auto.
  - exact P.
  - destruct P as (IC' & IL' & L & _). specialize (IH cur' last' k' IC' IL').
    destruct (polling nd contract n cur' last' k') as [t k2|k2|w k2|c2 l2 k2]; [exact IH| | |].
    + destruct IH as (i & -> & Li & G). exists i. repeat split; [lia|exact G].
    + destruct IH as (i & -> & Li & G). exists i. repeat split; [lia|exact G].
    + destruct IH as (I2 & I3 & L2). split; [exact I2|]. split; [exact I3|lia].
Qed.
Lemma polling_S n : forall cur last k, polling nd contract (S n) cur last k =
   match polling nd contract n cur last k with Waiting c l k' => poll nd contract c l k' | r => r end.
Proof.
  induction n as [|n IH]; intros cur last k; [cbn [polling]; destruct (poll nd contract cur last k); reflexivity|].
  change (polling nd contract (S (S n)) cur last k) with
    (match poll nd contract cur last k with Waiting c l k' => polling nd contract (S n) c l k' | r => r end).
  change (polling nd contract (S n) cur last k) with
    (match poll nd contract cur last k with Waiting c l k' => polling nd contract n c l k' | r => r end).
  destruct (poll nd contract cur last k); try reflexivity. apply IH.
Qed.

(** ** it comes to an end *)
Lemma polling_ends K : (forall k, (K <= k)%nat -> elements_timeout < conf_at k) ->
  match wait_reveal nd contract (S K) with Waiting _ _ _ => False | _ => True end.
Proof.
  intros H. unfold wait_reveal. pose proof (polling_spec K None None 0 I I) as P.
  rewrite polling_S. destruct (polling nd contract K None None 0) as [t k'|k'|w k'|c l k']; auto.
  destruct P as (IC & IL & L). pose proof (poll_spec c l k' IC IL) as Q. specialize (H k' ltac:(lia)).
  destruct (poll nd contract c l k'); auto. lia.
Qed.

(** ** it finds the transaction in time *)
Lemma first_unique k k' j t j' t' : (k <= k')%nat -> FirstSpend (ch k) home contract j t -> FirstSpend (ch k') home contract j' t' -> t = t' /\ j = j'.
Proof.
  intros L (A & (b & i & a & N & S & Q) & U) (A' & (b' & i' & a' & N' & S' & Q') & U').
  assert (J : (j < length (ch k))%nat) by (apply nth_error_Some; congruence).
  apply (grows_nth k k') in N; [|exact L].
  assert (j = j').
  { destruct (Nat.lt_trichotomy j j') as [X|[X|X]]; [exfalso|exact X|exfalso].
    - specialize (U' j _ ltac:(lia) N). rewrite Forall_forall in U'. apply (U' (t, i)); [apply in_elt|exact S].
    - assert (N2 : nth_error (ch k) j' = Some (b' ++ (t', i') :: a')) by (apply (back_nth k k'); [exact L|lia|exact N']).
      specialize (U j' _ ltac:(lia) N2). rewrite Forall_forall in U. apply (U (t', i')); [apply in_elt|exact S']. }
  subst j'. split; [|reflexivity]. rewrite N in N'. injection N' as E.
  clear - E S S' Q Q'. revert b' E Q'. induction b as [|x b IH]; intros [|y b'] E Q'; cbn [app] in E.
  - injection E as -> _ _. reflexivity.
  - injection E as E1 _. subst y. inversion Q' as [|? ? X _]; subst. contradiction.
  - injection E as E1 _. subst x. inversion Q as [|? ? X _]; subst. contradiction.
  - injection E as _ E2. inversion Q; inversion Q'; subst. eapply IH; eassumption.
Qed.

Lemma effort_step c p j b : (p <= j)%nat -> nth_error c p = Some b -> effort c p j = (2 + length b + effort c (S p) j)%nat.
Proof.
  intros L N. unfold effort. replace (S j - p)%nat with (S (S j - S p)) by lia.
  assert (E : skipn p c = b :: skipn (S p) c).
  { clear L. revert p N. induction c as [|x c IH]; intros [|p] N; cbn [nth_error] in N; try discriminate N; [injection N as ->; reflexivity|].
    cbn [skipn]. rewrite (IH p N). reflexivity. }
  rewrite E. reflexivity.
Qed.
Lemma effort_mono c p q j : (p <= q)%nat -> (q <= j)%nat -> (j < length c)%nat -> (effort c q j <= effort c p j)%nat.
Proof.
  intros L. induction L as [|q L IH]; intros Q J; [lia|]. destruct (nth_error c q) as [b|] eqn:N; [|apply nth_error_None in N; lia].
  specialize (IH ltac:(lia) J). rewrite (effort_step c q j b ltac:(lia) N) in IH. lia.
Qed.

Section Prompt.
Variable K j : nat.
Variable t : txid.
Hypothesis FS : FirstSpend (ch K) home contract j t.
Hypothesis OK : forall k, err k = None.
Lemma fs_len : (j < length (ch K))%nat.
Proof. destruct FS as (_ & (b & i & a & N & _) & _). apply nth_error_Some. congruence. Qed.
Lemma fs_loud k b : nth_error (ch k) j = Some b -> ~ quiet b.
Proof.
  intros N Q. destruct FS as (_ & (b1 & i & a & N1 & S & _) & _).
  assert (b = b1 ++ (t, i) :: a).
  { destruct (Nat.le_ge_cases k K) as [L|L]; [apply (grows_nth k K) in N; [congruence|exact L]|apply (grows_nth K k) in N1; [congruence|exact L]]. }
  subst b. unfold quiet in Q. rewrite Forall_forall in Q. apply (Q (t, i)); [apply in_elt|exact S].
Qed.
Lemma cur_le k p : (p < length (ch k))%nat -> Quiet k p -> (p <= j)%nat.
Proof.
  intros P Q. destruct (Nat.le_gt_cases p j) as [L|L]; [exact L|exfalso].
  destruct (nth_error (ch k) j) as [b|] eqn:N; [|apply nth_error_None in N; lia].
  apply (fs_loud k b N). apply (Q j b); [|exact N]. destruct FS as (H & _). lia.
Qed.
Definition found (w : waited) : Prop := match w with Found _ _ => True | _ => False end.
Lemma in_time m : forall p last k, (j - p)%nat = m -> (K <= k)%nat -> (home <= p < length (ch k))%nat -> Quiet k p ->
  (forall k', (k' < k + effort (ch K) p j)%nat -> conf_at k' <= elements_timeout) ->
  exists n, found (polling nd contract n (Some (Z.of_nat p)) last k).
Proof.
  induction m as [|m IH]; intros p last k M LK P Q C; pose proof fs_len as FL; pose proof (cur_le k p (proj2 P) Q) as PJ;
    assert (NP : exists b0, nth_error (ch K) p = Some b0) by (destruct (nth_error (ch K) p) as [b0|] eqn:N; [eauto|apply nth_error_None in N; lia]);
    destruct NP as (b0 & NP); pose proof (effort_step (ch K) p j b0 PJ NP) as ES;
    (destruct (poll_some p last k P Q ltac:(apply C; lia) (OK _) (OK _)) as (b & Hb & PS));
    (assert (b = b0) by (pose proof (Hb (S k) ltac:(lia)) as X; apply (grows_nth K (S k)) in NP; [congruence|lia])); subst b0.
  - assert (p = j) by lia. subst p. exists 1%nat. cbn [polling].
    destruct (poll nd contract (Some (Z.of_nat j)) last k) as [t' k'|k'|w k'|cur' last' k'].
    + exact I.
    + contradiction.
    + destruct PS as (i & _ & _ & E). rewrite OK in E. discriminate E.
    + destruct PS as (Qb & _). exfalso. exact (fs_loud K b NP Qb).
  - destruct (poll nd contract (Some (Z.of_nat p)) last k) as [t' k'|k'|w k'|cur' last' k'] eqn:EP.
    + exists 1%nat. cbn [polling]. rewrite EP. exact I.
    + contradiction.
    + destruct PS as (i & _ & _ & E). rewrite OK in E. discriminate E.
    + destruct PS as (Qb & -> & EC & _). pose proof (grows_len K (S k) ltac:(lia)). destruct (Nat.ltb_spec (S p) (length (ch (S k)))); [|lia]. subst cur'.
      destruct (IH (S p) last' (2 + k + length b)%nat) as (n & F).
      * lia.
      * lia.
      * pose proof (grows_len K (2 + k + length b) ltac:(lia)). lia.
      * intros j' b' J HB. destruct (Nat.eq_dec j' p) as [->|]; [rewrite Hb in HB by lia; injection HB as <-; exact Qb|].
        apply (Q j' b'); [lia|]. apply (back_nth k (2 + k + length b)); [lia|lia|exact HB].
      * intros k' L. apply C. lia.
      * exists (S n). cbn [polling]. rewrite EP. exact F.
Qed.
Lemma before_time d : forall cur last k, (K <= k + d)%nat -> (k <= K + effort (ch K) home j)%nat -> InvCur cur k -> InvLast last k ->
  (forall k', (k' <= K + 2 * effort (ch K) home j)%nat -> conf_at k' <= elements_timeout) ->
  exists n, found (polling nd contract n cur last k).
Proof.
  induction d as [|d IH]; intros cur last k D B IC IL C; pose proof fs_len as FL; destruct FS as (HJ & _).
  - assert (LK : (K <= k)%nat) by lia. destruct cur as [h|].
    + destruct IC as (p & -> & P & Q). apply (in_time (j - p)%nat); [reflexivity|lia|exact P|exact Q|].
      intros k' L. apply C. pose proof (cur_le k p (proj2 P) Q). pose proof (effort_mono (ch K) home p j ltac:(lia) ltac:(lia) FL). lia.
    + destruct (in_time (j - home)%nat home last (S k)) as (n & F).
      * reflexivity.
      * lia.
      * pose proof (grows_len K (S k) ltac:(lia)). lia.
      * intros j' b' J. lia.
      * intros k' L. apply C. lia.
      * exists (S n). cbn [polling]. assert (EP : poll nd contract None last k = Waiting (Some (Z.of_nat home)) last (S k)).
        { unfold poll. cbn [faulty n_info]. rewrite OK. cbn [fault]. destruct (info_at k) as (i & -> & -> & EB). cbv zeta. pose proof (C k ltac:(lia)).
          destruct (Z.ltb_spec elements_timeout (conf_at k)) as [G'|_]; [lia|]. rewrite EB. pose proof (grows_len K k LK).
          destruct (Nat.ltb_spec home (length (ch k))); [reflexivity|lia]. }
        rewrite EP. exact F.
  - destruct (Nat.le_gt_cases K k) as [LK|LK]; [apply IH; try assumption; lia|].
    pose proof (poll_spec cur last k IC IL) as PS.
    destruct (poll nd contract cur last k) as [t' k'|k'|w k'|cur' last' k'] eqn:EP.
    + exists 1%nat. cbn [polling]. rewrite EP. exact I.
    + destruct PS as (G & _). pose proof (C k ltac:(lia)). lia.
    + destruct PS as (i & _ & _ & [E|(_ & c & _ & E)]); rewrite OK in E; discriminate E.
    + destruct PS as (IC' & IL' & L & G). destruct (IH cur' last' k') as (n & F); try assumption; [lia| |].
      * destruct cur as [h|].
        -- destruct IC as (p & -> & P & Q). pose proof (cur_le k p (proj2 P) Q) as PJ.
           destruct (poll_some p last k P Q G (OK _) (OK _)) as (b & Hb & PSS). match type of PSS with context [poll ?a ?b ?c ?d ?e] => match type of EP with ?x = _ => change (poll a b c d e) with x in PSS end end. rewrite EP in PSS. destruct PSS as (_ & -> & _).
           pose proof (effort_step (ch K) p j b PJ (Hb K ltac:(lia))). pose proof (effort_mono (ch K) home p j ltac:(lia) ltac:(lia) FL). lia.
        -- unfold poll in EP. cbn [faulty n_info] in EP. rewrite OK in EP. cbn [fault] in EP. destruct (info_at k) as (i & EI & ET & _). rewrite EI in EP. cbv zeta in EP.
           destruct (elements_timeout <? confirmations (i_conf i)); [discriminate EP|]. injection EP as _ _ <-. lia.
      * exists (S n). cbn [polling]. rewrite EP. exact F.
Qed.
Lemma prompt : (forall k', (k' <= K + 2 * effort (ch K) home j)%nat -> conf_at k' <= elements_timeout) ->
  exists n k', wait_reveal nd contract n = Found t k'.
Proof.
  intros C. destruct (before_time K None None 0 ltac:(lia) ltac:(lia) I I C) as (n & F). unfold found in F.
  pose proof (polling_spec n None None 0 I I) as PS. exists n. unfold wait_reveal.
  destruct (polling nd contract n None None 0) as [t' k'| | |]; try contradiction. exists k'. f_equal.
  destruct PS as (j' & F' & _). destruct (Nat.le_ge_cases k' K) as [L|L].
  - exact (proj1 (first_unique _ _ _ _ _ _ L F' FS)).
  - symmetry. exact (proj1 (first_unique _ _ _ _ _ _ L FS F')).
Qed.
End Prompt.
End Chain.
