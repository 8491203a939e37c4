(** C92: the waiting functions of examples/confidential-cross-chain-atomic-swap.py. *)
From Verif Require Import Base CrossTxModel WaitModel SpecWait WaitProofs.
Local Open Scope Z_scope.

(** wait_confirm: sixty answers at most; it returns at the first good one. *)
Theorem C92_confirm : forall node num r, wait_confirm node num = r <->
  match r with
  | Confirmed k => exists i, k = S i /\ FirstTime 60 (fun j => Enough num (node j)) (fun j => NotYet num (node j)) i
  | Failed k e => exists i, k = S i /\ FirstTime 60 (fun j => node j = Broke e) (fun j => NotYet num (node j)) i
  | TimedOut k => k = 60%nat /\ forall j, (j < 60)%nat -> NotYet num (node j)
  end.
Proof. intros node num r. exact (confirm_exact node num polls r). Qed.
(** An RPC error of whatever code counts as "not yet", although the code looks at the code of the error. *)
Theorem C92_any_error : forall node num, (forall k, (k < 60)%nat -> exists c, node k = RpcErr c) -> wait_confirm node num = TimedOut 60.
Proof. intros node num H. apply C92_confirm. split; [reflexivity|]. intros j L. destruct (H j L) as (c & ->). exact I. Qed.

(** wait_spend_reveal_transaction: what is returned is the first transaction of the chain that spends an output of the contract's
    transaction, and it is in one of the ten blocks from that transaction's own; also if calls fail on the way. *)
Theorem C92_found : forall ch home contract err n t k, Grows ch -> (forall k, Unique (ch k)) ->
  wait_reveal (faulty err (honest ch home)) contract n = Found t k ->
  exists j, FirstSpend (ch k) home contract j t /\ (j < home + 10)%nat.
Proof.
  intros ch home contract err n t k GR UN H. pose proof (polling_spec ch home contract err GR UN n None None 0 I I) as P. unfold wait_reveal in H. rewrite H in P.
  destruct P as (j & F & L). exists j. split; [exact F|]. unfold elements_timeout in L. lia.
Qed.
(** It gives up only when the contract has more than ten confirmations. *)
Theorem C92_gave_up : forall ch home contract err n k, Grows ch -> (forall k, Unique (ch k)) ->
  wait_reveal (faulty err (honest ch home)) contract n = GaveUp k -> exists i, k = S i /\ (home + 10 < length (ch i))%nat.
Proof.
  intros ch home contract err n k GR UN H. pose proof (polling_spec ch home contract err GR UN n None None 0 I I) as P. unfold wait_reveal in H. rewrite H in P.
  destruct P as (i & -> & _ & L). exists i. split; [reflexivity|]. unfold elements_timeout, conf_at in L. lia.
Qed.
(** It fails only if the call made last failed: with the exception of that call, or with UnboundLocalError when the first getblock
    ends in an error other than -5. *)
Theorem C92_trouble : forall ch home contract err n w k, Grows ch -> (forall k, Unique (ch k)) ->
  wait_reveal (faulty err (honest ch home)) contract n = Trouble w k ->
  exists i, k = S i /\ (err i = Some w \/ w = TOther EUnboundLocal /\ exists c, c <> -5 /\ err i = Some (TRpc c)).
Proof.
  intros ch home contract err n w k GR UN H. pose proof (polling_spec ch home contract err GR UN n None None 0 I I) as P. unfold wait_reveal in H. rewrite H in P.
  destruct P as (i & -> & _ & X). exists i. auto.
Qed.
(** It comes to an end when the chain goes on growing. *)
Theorem C92_ends : forall ch home contract err, Grows ch -> (forall k, Unique (ch k)) ->
  (exists K, forall k, (K <= k)%nat -> (home + 10 < length (ch k))%nat) ->
  exists n, forall cur last k, wait_reveal (faulty err (honest ch home)) contract n <> Waiting cur last k.
Proof.
  intros ch home contract err GR UN (K & H). exists (S K). intros cur last k E.
  pose proof (polling_ends ch home contract err GR UN K) as P. rewrite E in P. apply P. intros k' L. specialize (H k' L). unfold elements_timeout, conf_at. lia.
Qed.
(** Too late: a transaction in the eleventh block or later is never returned, however often and quickly the node is asked. *)
Theorem C92_late : forall ch home contract err k0 j t, Grows ch -> (forall k, Unique (ch k)) ->
  FirstSpend (ch k0) home contract j t -> (home + 10 <= j)%nat ->
  forall n t' k, wait_reveal (faulty err (honest ch home)) contract n <> Found t' k.
Proof.
  intros ch home contract err k0 j t GR UN F L n t' k E. destruct (C92_found _ _ _ _ _ _ _ GR UN E) as (j' & F' & L').
  destruct (Nat.le_ge_cases k k0) as [X|X].
  - destruct (first_unique ch home contract err GR UN _ _ _ _ _ _ X F' F). lia.
  - destruct (first_unique ch home contract err GR UN _ _ _ _ _ _ X F F'). lia.
Qed.
(** In time: if the transaction is in the chain from call [K] on and the contract has no more than ten confirmations until twice
    the blocks up to it could have been read, it is returned. *)
Theorem C92_prompt : forall ch home contract K j t, Grows ch -> (forall k, Unique (ch k)) ->
  FirstSpend (ch K) home contract j t ->
  (forall k, (k <= K + 2 * effort (ch K) home j)%nat -> (length (ch k) <= home + 10)%nat) ->
  exists n k, wait_reveal (honest ch home) contract n = Found t k.
Proof.
  intros ch home contract K j t GR UN F C. change (honest ch home) with (faulty (fun _ => None) (honest ch home)).
  apply (prompt ch home contract (fun _ => None) GR UN K j t F); [reflexivity|].
  intros k L. specialize (C k L). unfold conf_at, elements_timeout. lia.
Qed.
(** It waits as long as nothing happens. *)
Theorem C92_waits : forall ch home contract n, Grows ch -> (forall k, Unique (ch k)) ->
  (forall k, (length (ch k) <= home + 10)%nat) -> (forall k j b x, nth_error (ch k) j = Some b -> In x b -> ~ Spends contract (snd x)) ->
  exists cur last k, wait_reveal (honest ch home) contract n = Waiting cur last k.
Proof.
  intros ch home contract n GR UN C NS. change (honest ch home) with (faulty (fun _ => None) (honest ch home)).
  destruct (wait_reveal (faulty (fun _ => None) (honest ch home)) contract n) as [t k|k|w k|cur last k] eqn:E.
  - destruct (C92_found _ _ _ _ _ _ _ GR UN E) as (j & (_ & (b & i & a & N & S & _) & _) & _). exfalso. apply (NS k j _ (t, i) N); [apply in_elt|exact S].
  - destruct (C92_gave_up _ _ _ _ _ _ GR UN E) as (i & _ & L). specialize (C i). lia.
  - destruct (C92_trouble _ _ _ _ _ _ _ GR UN E) as (i & _ & [X|(_ & c & _ & X)]); discriminate X.
  - eauto.
Qed.

(** * Runs *)
Definition blk (l : list (txid * ins)) := l.
(** transaction 1 has the contract; 3 spends it *)
Definition ex_start : chain := [blk [(100, [None])]; blk [(101, [None]); (1, [Some (50, 0)])]; blk [(102, [None])]].
Definition ex_rest : chain := [blk [(103, [None]); (2, [Some (51, 0)])]; blk [(104, [None]); (3, [Some (52, 1); Some (1, 0)]); (4, [Some (3, 0)])]].
Definition ex_chain (k : nat) : chain := if (k <? 6)%nat then ex_start else ex_start ++ ex_rest.
Lemma ex_grows : Grows ex_chain.
Proof.
  intros k. unfold ex_chain. destruct (Nat.ltb_spec k 6), (Nat.ltb_spec (S k) 6); try lia.
  - exists []. rewrite app_nil_r. reflexivity.
  - exists ex_rest. reflexivity.
  - exists []. rewrite app_nil_r. reflexivity.
Qed.
Ltac nodup := repeat constructor; cbn; intuition discriminate.
Lemma ex_unique k : Unique (ex_chain k).
Proof. unfold Unique, ex_chain. destruct (k <? 6)%nat; cbn; nodup. Qed.
Lemma not_spends c i : spends c i = false -> ~ Spends c i.
Proof. intros E. unfold Spends. intros (n & H). unfold spends in E. rewrite <- Bool.not_true_iff_false in E. apply E, existsb_exists. exists (Some (c, n)). split; [exact H|apply Z.eqb_refl]. Qed.
Example C92_ex : FirstSpend (ex_chain 6) 1 1 4 3 /\ (forall k, (k <= 6 + 2 * effort (ex_chain 6) 1 4)%nat -> (length (ex_chain k) <= 1 + 10)%nat)
  /\ wait_reveal (honest ex_chain 1) 1 5 = Found 3 16.
Proof.
  split; [|split].
  - split; [lia|]. split.
    + exists [(104, [None])], [Some (52, 1); Some (1, 0)], [(4, [Some (3, 0)])]. split; [reflexivity|]. split; [exists 0; cbn; auto|].
      repeat constructor. apply not_spends. reflexivity.
    + intros j b J N. assert (E : j = 1%nat \/ j = 2%nat \/ j = 3%nat) by lia.
      destruct E as [->|[->| ->]]; injection N as <-; repeat constructor; apply not_spends; reflexivity.
  - intros k _. unfold ex_chain. destruct (k <? 6)%nat; cbn; lia.
  - vm_compute. reflexivity.
Qed.
(** the same with failing calls: getblock loses block 2 once, and later says that it knows no such block *)
Definition ex_err (k : nat) : option trouble := match k with 6%nat => Some (TRpc (-28)) | 13%nat => Some (TRpc (-5)) | _ => None end.
Example C92_ex2 : exists n k, wait_reveal (faulty ex_err (honest ex_chain 1)) 1 n = Found 3 k.
Proof. exists 14%nat. eexists. vm_compute. reflexivity. Qed.
(** a chain that ends it all: the spend is in the eleventh block *)
Definition ex_late (_ : nat) : chain := blk [(1, [])] :: map (fun i => blk [(Z.of_nat i + 100, [None])]) (seq 0 9) ++ [blk [(3, [Some (1, 0)])]].
Example C92_ex3 : Grows ex_late /\ (forall k, Unique (ex_late k)) /\ FirstSpend (ex_late 0) 0 1 10 3 /\ wait_reveal (honest ex_late 0) 1 1 = GaveUp 1
  /\ exists K, forall k, (K <= k)%nat -> (0 + 10 < length (ex_late k))%nat.
Proof.
  split; [intros k; exists []; rewrite app_nil_r; reflexivity|]. split; [intros k; unfold Unique, ex_late; cbn; nodup|]. split.
  - split; [lia|]. split.
    + exists [], [Some (1, 0)], []. split; [reflexivity|]. split; [exists 0; cbn; auto|constructor].
    + intros j b J N. assert (F : Forall (fun b => Forall (fun x => spends 1 (snd x) = false) b) (firstn 10 (ex_late 0))) by (repeat constructor).
      assert (N' : nth_error (firstn 10 (ex_late 0)) j = Some b).
      { rewrite <- N. rewrite <- (firstn_skipn 10 (ex_late 0)) at 2. rewrite nth_error_app1; [reflexivity|]. cbn. lia. }
      rewrite Forall_forall in F. specialize (F b (nth_error_In _ _ N')). rewrite Forall_forall in F. apply Forall_forall. intros x IN. apply not_spends, F, IN.
  - split; [vm_compute; reflexivity|]. exists 0%nat. intros k _. cbn. lia.
Qed.
Definition ex_still (_ : nat) : chain := ex_start.
Example C92_ex4 : Grows ex_still /\ (forall k, Unique (ex_still k)) /\ (forall k, (length (ex_still k) <= 1 + 10)%nat)
  /\ forall k j b x, nth_error (ex_still k) j = Some b -> In x b -> ~ Spends 1 (snd x).
Proof.
  split; [intros k; exists []; rewrite app_nil_r; reflexivity|]. split; [intros k; unfold Unique; cbn; nodup|]. split; [intros k; cbn; lia|].
  intros k j b x N IN. apply nth_error_In in N. apply not_spends.
  assert (F : Forall (fun b => Forall (fun x => spends 1 (snd x) = false) b) ex_start) by (repeat constructor).
  rewrite Forall_forall in F. specialize (F b N). rewrite Forall_forall in F. exact (F x IN).
Qed.
(** confirmations: an error, then 0, then no entry, then enough *)
Example C92_ex5 : wait_confirm (fun k => match k with 0%nat => RpcErr (-5) | 1%nat => Got (Some 0) | 2%nat => Got None | _ => Got (Some 6) end) 6 = Confirmed 4
  /\ wait_confirm (fun k => if (k <? 60)%nat then Got None else Got (Some 6)) 6 = TimedOut 60
  /\ wait_confirm (fun k => match k with 5%nat => Broke EValue | _ => RpcErr 1 end) 6 = Failed 6 EValue
  /\ wait_confirm (fun _ => RpcErr (-18)) 2 = TimedOut 60.
Proof. repeat split; vm_compute; reflexivity. Qed.

(** "The transaction returned spends the contract" is false: any output of the contract's transaction will do, such as the change,
    which is Alice's own; the transaction that spends the contract (output 0) is in the chain, in time. *)
Definition ex_change (_ : nat) : chain := [blk [(1, [])]; blk [(2, [Some (1, 1)]); (3, [Some (1, 0)])]].
Theorem C92_other_output_refuted : exists ch home contract out n t k, Grows ch /\ (forall k, Unique (ch k))
  /\ wait_reveal (honest ch home) contract n = Found t k
  /\ (exists i, lookup t (concat (ch k)) = Some i /\ ~ In (Some (contract, out)) i)
  /\ exists t' i', lookup t' (concat (ch k)) = Some i' /\ In (Some (contract, out)) i'.
Proof.
  exists ex_change, 0%nat, 1, 0, 3%nat, 2. eexists.
  split; [intros k; exists []; rewrite app_nil_r; reflexivity|]. split; [intros k; unfold Unique; cbn; nodup|].
  split; [vm_compute; reflexivity|]. split.
  - exists [Some (1, 1)]. split; [reflexivity|]. cbn. intuition discriminate.
  - exists 3, [Some (1, 0)]. split; [reflexivity|]. cbn. auto.
Qed.
(** "A getblock that fails with an error other than -5 is tried again" is false the first time, and "fails with its error" also. *)
Theorem C92_unbound_refuted : exists err ch home contract n c i, Grows ch /\ (forall k, Unique (ch k))
  /\ (forall k w, err k = Some w -> k = i /\ w = TRpc c)
  /\ wait_reveal (faulty err (honest ch home)) contract n = Trouble (TOther EUnboundLocal) (S i).
Proof.
  exists (fun k => match k with 2%nat => Some (TRpc (-28)) | _ => None end), ex_chain, 1%nat, 1, 2%nat, (-28), 2%nat.
  split; [exact ex_grows|]. split; [exact ex_unique|]. split; [|vm_compute; reflexivity].
  intros k w E. destruct k as [|[|[|k]]]; try discriminate E. injection E as <-. auto.
Qed.

Print Assumptions C92_confirm.
Print Assumptions C92_any_error.
Print Assumptions C92_found.
Print Assumptions C92_gave_up.
Print Assumptions C92_trouble.
Print Assumptions C92_ends.
Print Assumptions C92_late.
Print Assumptions C92_prompt.
Print Assumptions C92_waits.
Print Assumptions C92_other_output_refuted.
Print Assumptions C92_unbound_refuted.
