(** C98: how blind() uses its random source. *)
From Verif Require Import Base BaseFacts TxModel BlindModel SpecBlind BlindFacts BlindFrame BlindFails BlindComplete BlindMain BlindProps DrawProofs ToyCrypto ToyTx PropBlind.
From Coq Require Import Lia.
Local Open Scope nat_scope.

(** However the call ends, the random function is called at most once for each issuance key given and four times for each output to blind. *)
Theorem C98_bound : forall z rand args t o s, blind_transaction z rand args t = (o, s) -> s_draws s <= length (issuance_tasks args t) + 4 * length (output_tasks args).
Proof. intros z rand args t o s H. exact (proj1 (blind_draws rand rand z args t o s H)). Qed.
(** A refusal for a fault of the arguments draws nothing. *)
Theorem C98_refused : forall z rand args t f s, blind_transaction z rand args t = (Ret (BFailure f), s) ->
  s_draws s = 0 \/ (a_strict args = true /\ exists a b, f = F_count a b /\ a <> b).
Proof. intros z rand args t f s H. apply failure_unchanged in H. destruct H as [-> |H]; auto. Qed.
(** A success draws exactly that often, or two times less if the balancing factor of the last output is zero and the output is left as it was. *)
Theorem C98_exact : forall z rand args t n bfs abfs s, blind_transaction z rand args t = (Ret (BSuccess n bfs abfs), s) -> a_strict args = true -> ~ stray_key args t ->
  s_draws s = length (issuance_tasks args t) + 4 * length (output_tasks args)
  \/ (exists pre j, output_tasks args = pre ++ [j] /\ nth_error (vout (s_tx s)) j = nth_error (vout t) j /\ s_draws s = length (issuance_tasks args t) + 4 * length pre + 2).
Proof.
  intros z rand args t n bfs abfs s H ST NS. destruct (blind_success z rand args t _ _ _ _ H) as (_ & A & _).
  destruct (blind_success_draws z rand args t _ _ _ _ H (A ST NS)) as (targets & [[_ D]|[(pre & j & E & X & _) D]]); [left; exact D|right].
  exists pre, j. split; [exact E|]. rewrite E, app_length in D. cbn [length] in D. split; [|lia].
  assert (ND := output_tasks_NoDup args). rewrite E in ND. apply NoDup_remove_2 in ND. rewrite app_nil_r in ND.
  assert (LJ : j < length (vout t)).
  { assert (In j (output_tasks args)) as I by (rewrite E; apply in_or_app; right; left; reflexivity).
    unfold output_tasks in I. apply filter_In in I. destruct I as [I _]. apply in_seq in I.
    assert (NB := good_of_success _ _ _ _ _ _ _ _ H).
    assert (length (a_pubkeys args) <= length (vout t)) by (apply Nat.nlt_ge; intros R; apply NB; left; lia). lia. }
  apply (ab_rest _ _ _ _ _ _ _ _ _ X _ LJ ND).
Qed.
(** Nothing depends on what was not drawn: with the same draws, as many as were made, outcome and transaction are the same. *)
Theorem C98_replay : forall z rand rand' args t o s, blind_transaction z rand args t = (o, s) -> (forall i, i < s_draws s -> rand' i = rand i) ->
  blind_transaction z rand' args t = (o, s).
Proof. intros z rand rand' args t o s H A. apply (proj2 (blind_draws rand rand' z args t o s H)). intros i I. symmetry. apply A, I. Qed.

(** Each draw serves one purpose: the issuances' factors [iss], the reported value factors but that of the last output, the reported asset
    factors, the ephemeral keys [ephs] and the seeds [seeds] of the surjection proofs, for the outputs [done] that were blinded. *)
Theorem C98_fresh : forall z rand args t n bfs abfs s, blind_transaction z rand args t = (Ret (BSuccess n bfs abfs), s) -> a_strict args = true -> ~ stray_key args t ->
  (forall i j, i < s_draws s -> j < s_draws s -> rand i = rand j -> i = j) ->
  exists targets iss done ephs seeds,
    (done = output_tasks args \/ exists j, output_tasks args = done ++ [j])
    /\ length iss = length (issuance_tasks args t)
    /\ (forall k i ps, nth_error (issuance_tasks args t) k = Some (i, ps) -> exists b key inp inp', nth_error iss k = Some b
         /\ nth i (if ps : bool then a_token_keys args else a_asset_keys args) None = Some key
         /\ nth_error (vin t) i = Some inp /\ nth_error (vin (s_tx s)) i = Some inp' /\ BlindedIssuance z args ps key b inp inp' (inwit_at (s_tx s) i))
    /\ (forall k j, nth_error done k = Some j -> exists bf abf eph seed o o', nth_error bfs j = Some bf /\ nth_error abfs j = Some abf
         /\ nth_error ephs k = Some eph /\ nth_error seeds k = Some seed /\ nth_error (vout t) j = Some o /\ nth_error (vout (s_tx s)) j = Some o'
         /\ BlindedOutput z args targets (nth j (a_pubkeys args) []) bf abf eph seed o o' (outwit_at (s_tx s) j))
    /\ (let used := iss ++ map (fun j => nth j bfs []) (removelast (output_tasks args)) ++ map (fun j => nth j abfs []) done ++ ephs ++ seeds in
        NoDup used /\ incl used (map rand (seq 0 (s_draws s)))).
Proof.
  intros z rand args t n bfs abfs s H ST NS J. destruct (blind_success z rand args t _ _ _ _ H) as (_ & A & _).
  destruct (blind_success_draws z rand args t _ _ _ _ H (A ST NS)) as (targets & C). clear A H.
  set (K := length (issuance_tasks args t)) in *.
  assert (Q : exists done, AllBlinded z rand args t targets done (s_tx s) bfs abfs /\ (done = output_tasks args \/ exists j, output_tasks args = done ++ [j])
              /\ firstn (length (removelast (output_tasks args))) done = removelast (output_tasks args) /\ K + 4 * length done <= s_draws s
              /\ forall k, k < length (removelast (output_tasks args)) -> K + 4 * k < s_draws s).
  { destruct C as [[(X & _) D]|[(pre & j & E & X & _) D]].
    - exists (output_tasks args). split; [exact X|]. split; [auto|]. split.
      + destruct (output_tasks args) as [|a l] eqn:El; [reflexivity|]. rewrite (app_removelast_last 0 (l := a :: l)) at 2 by discriminate. rewrite firstn_app, firstn_all, Nat.sub_diag. cbn [firstn]. apply app_nil_r.
      + split; [lia|]. intros k L. assert (length (removelast (output_tasks args)) <= length (output_tasks args)); [|lia].
        destruct (output_tasks args) as [|a l]; [cbn; lia|]. rewrite (app_removelast_last 0 (l := a :: l)) at 2 by discriminate. rewrite app_length. lia.
    - exists pre. split; [exact X|]. split; [eauto|]. rewrite E, removelast_last, firstn_all. split; [reflexivity|]. rewrite E, app_length in D. cbn [length] in D. split; [lia|]. intros k L. lia. }
  destruct Q as (done & AB & DO & FP & DR & DP). set (pre := removelast (output_tasks args)) in *.
  assert (LP : pre = [] \/ length pre < length (output_tasks args)).
  { unfold pre. destruct (output_tasks args) as [|a l]; [left; reflexivity|right]. rewrite (app_removelast_last 0 (l := a :: l)) at 2 by discriminate. rewrite app_length. cbn [length]. lia. }
  assert (FL : map (fun j => nth j abfs []) done = map (fun k => rand (K + 4 * k + 1)) (seq 0 (length done)) /\ map (fun j => nth j bfs []) pre = map (fun k => rand (K + 4 * k)) (seq 0 (length pre))).
  { destruct LP as [E|LP]; [|exact (factor_lists _ _ _ _ _ _ _ _ _ pre AB FP LP)]. rewrite E. split; [|reflexivity].
    apply map_by_index. intros k j Ek. destruct (ab_out _ _ _ _ _ _ _ _ _ AB _ _ Ek) as (bf & abf & o & o' & E1 & E2 & _ & _ & E3 & _). fold K in E3. rewrite <- E3. apply nth_error_nth. exact E2. }
  destruct FL as [FA FB].
  exists targets, (map rand (seq 0 K)), done, (map (fun k => rand (K + 4 * k + 2)) (seq 0 (length done))), (map (fun k => rand (K + 4 * k + 3)) (seq 0 (length done))).
  split; [exact DO|]. split; [rewrite map_length, seq_length; reflexivity|].
  assert (NM : forall (f : nat -> bytes) m k, k < m -> nth_error (map f (seq 0 m)) k = Some (f k)).
  { intros f m k L. rewrite nth_error_map. rewrite (nth_error_nth' _ 0) by (rewrite seq_length; exact L). rewrite seq_nth by exact L. reflexivity. }
  split; [|split].
  - intros k i ps Ek. destruct (ab_iss _ _ _ _ _ _ _ _ _ AB _ _ _ Ek) as (key & inp & inp' & E1 & E2 & E3 & E4).
    exists (rand k), key, inp, inp'. split; [apply NM; apply nth_error_Some; unfold issuance_tasks in *; congruence|auto].
  - intros k j Ek. destruct (ab_out _ _ _ _ _ _ _ _ _ AB _ _ Ek) as (bf & abf & o & o' & E1 & E2 & E3 & E4 & _ & _ & E5). fold K in E5.
    assert (LK : k < length done) by (apply nth_error_Some; congruence).
    exists bf, abf, (rand (K + 4 * k + 2)), (rand (K + 4 * k + 3)), o, o'. rewrite !NM by exact LK. repeat (split; [assumption || reflexivity|]). exact E5.
  - cbv zeta. rewrite FA, FB.
    set (idx := seq 0 K ++ map (fun k => K + 4 * k) (seq 0 (length pre)) ++ map (fun k => K + 4 * k + 1) (seq 0 (length done))
                ++ map (fun k => K + 4 * k + 2) (seq 0 (length done)) ++ map (fun k => K + 4 * k + 3) (seq 0 (length done))).
    assert (EI : map rand (seq 0 K) ++ map (fun k => rand (K + 4 * k)) (seq 0 (length pre)) ++ map (fun k => rand (K + 4 * k + 1)) (seq 0 (length done))
                 ++ map (fun k => rand (K + 4 * k + 2)) (seq 0 (length done)) ++ map (fun k => rand (K + 4 * k + 3)) (seq 0 (length done)) = map rand idx).
    { unfold idx. rewrite !map_app, !map_map. reflexivity. }
    rewrite EI.
    assert (R : forall x, In x idx -> x < s_draws s).
    { intros x X. unfold idx in X. rewrite !in_app_iff, !in_map_iff in X.
      destruct X as [X|[(a & <- & X)|[(a & <- & X)|[(a & <- & X)|(a & <- & X)]]]]; apply in_seq in X; try (apply DP); lia. }
    split.
    + apply NoDup_map_on; [intros x y X Y; apply J; apply R; assumption|]. unfold idx.
      assert (NQ : forall c m, NoDup (map (fun k => K + 4 * k + c) (seq 0 m))) by (intros c m; apply NoDup_map_on; [intros; lia|apply seq_NoDup]).
      apply NoDup_app_disj; [apply seq_NoDup|apply NoDup_app_disj; [apply NoDup_map_on; [intros; lia|apply seq_NoDup]|apply NoDup_app_disj; [apply NQ|apply NoDup_app_disj; [apply NQ..|]|]|]|];
        clearbody K pre; clear - K pre; intros x X Y; rewrite ?in_app_iff, ?in_map_iff, ?in_seq in X; rewrite ?in_app_iff, ?in_map_iff, ?in_seq in Y; repeat match goal with H : _ \/ _ |- _ => destruct H | H : exists _, _ |- _ => destruct H | H : _ /\ _ |- _ => destruct H end; lia.
    + intros b I. apply in_map_iff in I. destruct I as (x & <- & X). apply in_map, in_seq. split; [lia|]. exact (R x X).
Qed.

(** The example transaction: one issuance of an asset and tokens, four outputs: eighteen draws. The nineteenth and later ones do not matter. *)
Example C98_ex1 : exists bfs abfs s, blind_transaction toy count_rand toy_args toy_tx = (Ret (BSuccess 6 bfs abfs), s) /\ s_draws s = 18
  /\ (forall i j, i < s_draws s -> j < s_draws s -> count_rand i = count_rand j -> i = j)
  /\ a_strict toy_args = true /\ ~ stray_key toy_args toy_tx.
Proof.
  assert (H := proj1 (proj2 C54_ex)). apply ret_is_success in H. destruct H as (bfs & abfs & H). exists bfs, abfs, (snd (blind_transaction toy count_rand toy_args toy_tx)).
  split; [exact H|]. assert (D : s_draws (snd (blind_transaction toy count_rand toy_args toy_tx)) = 18) by (vm_compute; reflexivity).
  split; [exact D|]. split; [rewrite D; exact (proj2 (proj2 C54_ex))|]. split; [reflexivity|exact toy_no_stray].
Qed.
Example C98_ex2 : exists o s, blind_transaction toy count_rand toy_args toy_tx = (o, s)
  /\ blind_transaction toy (fun i => if i <? 18 then count_rand i else []) toy_args toy_tx = (o, s).
Proof.
  destruct C98_ex1 as (bfs & abfs & s & H & D & _). exists (Ret (BSuccess 6 bfs abfs)), s. split; [exact H|]. apply (C98_replay _ _ _ _ _ _ _ H). intros i I. rewrite D in I.
  destruct (Nat.ltb_spec i 18); [reflexivity|lia].
Qed.

(** A stream for which the balancing factor is zero: the value factor of the third output is shifted by what balanced before. Sixteen draws. *)
Definition null_rand (i : nat) : bytes := if i =? 10
  then b32 (10 + match fst (blind_transaction toy count_rand toy_args toy_tx) with Ret (BSuccess _ bfs _) => be_val (nth 3 bfs []) | _ => 0 end)%Z else count_rand i.
Example C98_ex3 : ret_is (fun r => match r with BSuccess n bfs _ => (n =? 6) && bytes_eqb (nth 3 bfs []) (zeros 32) | _ => false end) (blind_transaction toy null_rand toy_args toy_tx) = true
  /\ s_draws (snd (blind_transaction toy null_rand toy_args toy_tx)) = 16.
Proof. vm_compute. split; reflexivity. Qed.
(** A refusal: the second public key is no key. *)
Example C98_ex4 : blind_transaction toy count_rand (mkArgs (a_descs toy_args) [nth 0 (a_pubkeys toy_args) []; [x00]] (a_asset_keys toy_args) (a_token_keys toy_args)
    (a_aux toy_args) (a_ct_exponent toy_args) (a_ct_bits toy_args) (a_strict toy_args)) toy_tx = (Ret (BFailure (F_pubkey_invalid 1)), mkSt toy_tx 0).
Proof. vm_compute. reflexivity. Qed.

Print Assumptions C98_bound.
Print Assumptions C98_refused.
Print Assumptions C98_exact.
Print Assumptions C98_replay.
Print Assumptions C98_fresh.
