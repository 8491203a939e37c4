(** blind() depends only on what it is asked to blind and on what is spent and issued: property C106. *)
From Verif Require Import Base BaseFacts TxModel BlindModel SpecBlind BlindFrame SpecSign SpecSame SameProofs ToyCrypto ToyTx PropBlind.
From Coq Require Import Lia.
Local Open Scope Z_scope.

(** C106. On two transactions that give it the same work blind() does the same: it ends in the same way, with the same count and factors (and zero
    factors for outputs added at the end), the same refusal or the same exception, after as many random numbers, and leaves the same blinded
    outputs, issuances and proofs. Where outputs are added, the list of keys must not be longer than the shorter transaction allows. *)
Theorem C106_same_work : forall z rand args more t t' o o' s s', SameWork args more t t' -> more = 0%nat \/ (length (a_pubkeys args) <= length (vout t))%nat ->
  blind_transaction z rand args t = (o, s) -> blind_transaction z rand args t' = (o', s') ->
  o' = MoreFactors more o /\ s_draws s' = s_draws s /\ SameWork args more (s_tx s) (s_tx s').
Proof. intros z rand args more t t' o o' s s' S X H H'. assert (Q := blind_in_step z rand args more t t' S X). rewrite H, H' in Q. exact Q. Qed.
Lemma no_more_factors o : MoreFactors 0 o = o.
Proof. destruct o as [| [n bfs abfs|f] |]; try reflexivity. unfold MoreFactors. cbn [repeat]. rewrite !app_nil_r. reflexivity. Qed.
(** With as many outputs the outcome is equal. *)
Theorem C106_same_outcome : forall z rand args t t' o o' s s', SameWork args 0 t t' ->
  blind_transaction z rand args t = (o, s) -> blind_transaction z rand args t' = (o', s') ->
  o' = o /\ s_draws s' = s_draws s /\ SameWork args 0 (s_tx s) (s_tx s').
Proof. intros z rand args t t' o o' s s' S H H'. destruct (C106_same_work _ _ _ _ _ _ _ _ _ _ S (or_introl eq_refl) H H') as (A & B). rewrite no_more_factors in A. split; assumption. Qed.
(** All of the second result is then known from the first: what is not to be blinded stays as it was. *)
Theorem C106_result : forall z rand args more t t' o o' s s', SameWork args more t t' -> more = 0%nat \/ (length (a_pubkeys args) <= length (vout t))%nat ->
  blind_transaction z rand args t = (o, s) -> blind_transaction z rand args t' = (o', s') ->
  (forall i a' b b', nth_error (vin t') i = Some a' -> nth_error (vin (s_tx s)) i = Some b -> nth_error (vin (s_tx s')) i = Some b' ->
     b' = mkTxIn (prevout a') (scriptSig a') (nSequence a') (assetIssuance b) (is_pegin a'))
  /\ (forall j, nth_error (vout (s_tx s')) j = if match nth j (a_pubkeys args) [] with [] => true | _ => false end then nth_error (vout t') j else nth_error (vout (s_tx s)) j)
  /\ (forall i, inwit_at (s_tx s') i = mkInWit (iw_script (inwit_at t' i)) (iw_issproof (inwit_at (s_tx s) i)) (iw_keysproof (inwit_at (s_tx s) i)) (iw_pegin (inwit_at t' i)))
  /\ (forall j, outwit_at (s_tx s') j = if match nth j (a_pubkeys args) [] with [] => true | _ => false end then outwit_at t' j else outwit_at (s_tx s) j)
  /\ nVersion (s_tx s') = nVersion t' /\ nLockTime (s_tx s') = nLockTime t'.
Proof.
  intros z rand args more t t' o o' s s' S HX H H'. destruct (C106_same_work _ _ _ _ _ _ _ _ _ _ S HX H H') as (_ & _ & R).
  assert (FR := blind_transaction_frame z rand args t'). rewrite H' in FR. cbn [snd] in FR. clear H H'.
  assert (D : forall j, nth j (a_pubkeys args) [] = [] \/ wants_output args j) by (intros j; unfold wants_output; destruct (nth j (a_pubkeys args) []); [left; reflexivity|right; discriminate]).
  split.
  { intros i a' b b' E1 E2 E3. destruct (fr_in _ _ _ _ _ FR i a' b' E1 E3) as (F1 & F2 & F3 & F4 & _). destruct (sw_in _ _ _ _ R i b b' E2 E3) as [_ Q].
    destruct b'. cbn in *. congruence. }
  split.
  { intros j. destruct (D j) as [E|WO].
    - rewrite E. assert (N := fr_nout _ _ _ _ _ FR). destruct (nth_error (vout t') j) as [x|] eqn:E1, (nth_error (vout (s_tx s')) j) as [y|] eqn:E2; try reflexivity.
      + f_equal. apply (proj2 (fr_out _ _ _ _ _ FR j x y E1 E2)). intros W. exact (W E).
      + exfalso. apply nth_error_None in E2. assert (j < length (vout t'))%nat by (apply nth_error_Some; congruence). lia.
      + exfalso. apply nth_error_None in E1. assert (j < length (vout (s_tx s')))%nat by (apply nth_error_Some; congruence). lia.
    - rewrite (sw_out _ _ _ _ R j WO). unfold wants_output in WO. destruct (nth j (a_pubkeys args) []); [congruence|reflexivity]. }
  split.
  { intros i. destruct (fr_inwit _ _ _ _ _ FR i) as (F1 & F2 & _). destruct (sw_inwit _ _ _ _ R i) as [Q1 Q2]. destruct (inwit_at (s_tx s') i). cbn in *. congruence. }
  split.
  { intros j. destruct (D j) as [E|WO].
    - rewrite E. apply (fr_outwit _ _ _ _ _ FR j). intros W. exact (W E).
    - rewrite (sw_outwit _ _ _ _ R j WO). unfold wants_output in WO. destruct (nth j (a_pubkeys args) []); [congruence|reflexivity]. }
  split; [apply (fr_version _ _ _ _ _ FR)|apply (fr_locktime _ _ _ _ _ FR)].
Qed.
(** Signatures put in before change nothing. *)
Theorem C106_signed : forall z rand args t t' o o' s s', OnlySigned t t' ->
  blind_transaction z rand args t = (o, s) -> blind_transaction z rand args t' = (o', s') ->
  o' = o /\ s_draws s' = s_draws s /\ vout (s_tx s') = vout (s_tx s) /\ SameWork args 0 (s_tx s) (s_tx s').
Proof.
  intros z rand args t t' o o' s s' S H H'. assert (SW : SameWork args 0 t t').
  { constructor.
    - apply (si_nin _ _ S).
    - rewrite (si_out _ _ S), Nat.add_0_r. reflexivity.
    - intros i a a' E E'. destruct (si_in _ _ S i a a' E E') as (A & _ & B & _). split; assumption.
    - intros j _. rewrite (si_out _ _ S). reflexivity.
    - intros i. destruct (si_inwit _ _ S i) as (A & B & _). split; assumption.
    - intros j _. unfold outwit_at. rewrite (si_outwit _ _ S). reflexivity. }
  destruct (C106_same_outcome _ _ _ _ _ _ _ _ _ SW H H') as (A & B & C). split; [exact A|]. split; [exact B|]. split; [|exact C].
  destruct (C106_result _ _ _ _ _ _ _ _ _ _ SW (or_introl eq_refl) H H') as (_ & Q & _).
  assert (FR := blind_transaction_frame z rand args t). rewrite H in FR. cbn [snd] in FR. clear - Q FR S.
  assert (X : forall j, nth_error (vout (s_tx s')) j = nth_error (vout (s_tx s)) j).
  { intros j. rewrite Q. destruct (nth j (a_pubkeys args) []) as [|b r] eqn:E; [|reflexivity]. rewrite (si_out _ _ S).
    assert (N := fr_nout _ _ _ _ _ FR). destruct (nth_error (vout t) j) as [x|] eqn:E1, (nth_error (vout (s_tx s)) j) as [y|] eqn:E2; try reflexivity.
    + f_equal. symmetry. apply (proj2 (fr_out _ _ _ _ _ FR j x y E1 E2)). intros W. exact (W E).
    + exfalso. apply nth_error_None in E2. assert (j < length (vout t))%nat by (apply nth_error_Some; congruence). lia.
    + exfalso. apply nth_error_None in E1. assert (j < length (vout (s_tx s)))%nat by (apply nth_error_Some; congruence). lia. }
  clear - X. revert X. generalize (vout (s_tx s')) as l, (vout (s_tx s)) as m. induction l as [|x l IH]; intros [|y m] X; [reflexivity|discriminate (X 0%nat)|discriminate (X 0%nat)|].
  assert (E := X 0%nat). injection E as ->. f_equal. apply IH. intros i. exact (X (S i)).
Qed.

(** Other scripts, sequence numbers and peg-in flags of the inputs, another fee, version, lock time, and script witnesses. *)
Definition changed_tx : tx := mkTx [mkTxIn (prevout toy_in0) [x30; x44] 7 (assetIssuance toy_in0) true; mkTxIn (prevout toy_in1) [x51] 8 (assetIssuance toy_in1) false]
  [toy_out 700 asset_A [x51]; toy_out 490 asset_A [x51; x51]; toy_out 500 asset_I [x51]; toy_out 3 asset_T [x51]; toy_out 10000 asset_I [x6a]]
  99 1 (mkTxWit [mkInWit [[x01]; [x02]] [] [] [[x03]]] [mkOutWit [] []]).
Lemma changed_same : SameWork toy_args 0 toy_tx changed_tx.
Proof.
  constructor; try reflexivity.
  - intros [|[|[|i]]] a a' E E'; cbn in E, E'; try discriminate E; injection E as <-; injection E' as <-; split; reflexivity.
  - intros [|[|[|[|j]]]] WO; try reflexivity. exfalso. apply WO. cbn [nth a_pubkeys toy_args]. destruct j; reflexivity.
  - intros [|[|i]]; split; reflexivity.
  - intros [|j] WO; [reflexivity|]. unfold outwit_at. cbn [wit changed_tx toy_tx vtxoutwit nth]. destruct j; reflexivity.
Qed.
Definition six (r : blind_ret) : bool := match r with BSuccess n _ _ => (n =? 6)%nat | _ => false end.
Lemma toy_six : ret_is six (blind_transaction toy toy_rand toy_args toy_tx) = true.
Proof. vm_compute. reflexivity. Qed.
Example C106_ex : SameWork toy_args 0 toy_tx changed_tx /\ ret_is six (blind_transaction toy toy_rand toy_args toy_tx) = true
  /\ vout (s_tx (snd (blind_transaction toy toy_rand toy_args changed_tx))) <> vout changed_tx
  /\ firstn 4 (vout (s_tx (snd (blind_transaction toy toy_rand toy_args changed_tx)))) = firstn 4 (vout (s_tx (snd (blind_transaction toy toy_rand toy_args toy_tx)))).
Proof. split; [exact changed_same|]. split; [exact toy_six|]. split; [|vm_compute; reflexivity]. intros E. apply (f_equal (fun l => map nNonce l)) in E. vm_compute in E. discriminate E. Qed.
(** A fee output added at the end, and with it another output witness. *)
Definition longer_tx : tx := mkTx (vin toy_tx) (vout toy_tx ++ [toy_out 77 asset_A []]) 5 2 (mkTxWit [] (vtxoutwit (wit toy_tx))).
Lemma longer_same args : a_pubkeys args = a_pubkeys toy_args \/ a_pubkeys args = a_pubkeys toy_args ++ [[]; []] -> SameWork args 1 toy_tx longer_tx.
Proof.
  intros K. constructor; try reflexivity.
  - intros i a a' E E'. change (vin longer_tx) with (vin toy_tx) in E'. rewrite E in E'. injection E' as <-. split; reflexivity.
  - intros j WO. destruct j as [|[|[|[|[|[|j]]]]]]; try reflexivity; exfalso; apply WO; destruct K as [-> | ->]; first [reflexivity|destruct j; reflexivity].
  - intros i. destruct i as [|[|i]]; split; reflexivity.
Qed.
Lemma longer_factors : (length (a_pubkeys toy_args) <= length (vout toy_tx))%nat.
Proof. apply Nat.leb_le. vm_compute. reflexivity. Qed.
Example C106_longer_ex : SameWork toy_args 1 toy_tx longer_tx /\ (length (a_pubkeys toy_args) <= length (vout toy_tx))%nat
  /\ ret_is six (blind_transaction toy toy_rand toy_args toy_tx) = true /\ ret_is six (blind_transaction toy toy_rand toy_args longer_tx) = true
  /\ nth_error (vout (s_tx (snd (blind_transaction toy toy_rand toy_args longer_tx)))) 5 = Some (toy_out 77 asset_A []).
Proof. split; [exact (longer_same toy_args (or_introl eq_refl))|]. split; [exact longer_factors|]. split; [exact toy_six|]. split; vm_compute; reflexivity. Qed.
(** The condition on the number of keys is needed: keys beyond the last output are refused even if they are all empty, and an output more makes them
    acceptable. *)
Definition padded_args : blind_args := mkArgs (a_descs toy_args) (a_pubkeys toy_args ++ [[]; []]) (a_asset_keys toy_args) (a_token_keys toy_args) (a_aux toy_args)
  (a_ct_exponent toy_args) (a_ct_bits toy_args) (a_strict toy_args).
Definition refused (o : outcome blind_ret) : bool := match o with Exc _ => true | _ => false end.
Lemma padded_refused : refused (fst (blind_transaction toy toy_rand padded_args toy_tx)) = true.
Proof. vm_compute. reflexivity. Qed.
Lemma padded_six : ret_is six (blind_transaction toy toy_rand padded_args longer_tx) = true.
Proof. vm_compute. reflexivity. Qed.
Theorem C106_key_list_refuted : exists z rand args t t' e n bfs abfs s s', SameWork args 1 t t'
  /\ blind_transaction z rand args t = (Exc e, s) /\ blind_transaction z rand args t' = (Ret (BSuccess n bfs abfs), s').
Proof.
  assert (R := padded_six). apply ret_is_success in R. destruct R as (bfs & abfs & R). assert (F := padded_refused).
  destruct (blind_transaction toy toy_rand padded_args toy_tx) as [[r|r|e] s] eqn:E; cbn [fst refused] in F; [discriminate F|discriminate F|].
  exists toy, toy_rand, padded_args, toy_tx, longer_tx, e, 6%nat, bfs, abfs, s, (snd (blind_transaction toy toy_rand padded_args longer_tx)).
  split; [exact (longer_same padded_args (or_intror eq_refl))|]. split; [exact E|exact R].
Qed.
(** Success does not mean that the amounts agree: blind() reports the same success and the same factors whatever the amount of an output that is
    not to be blinded. *)
Definition all_out (t : tx) : Z := fold_right Z.add 0 (map (out_amount t) (seq 0 (length (vout t)))).
Theorem C106_balance_refuted : exists z rand args t t' n bfs abfs s s', blind_transaction z rand args t = (Ret (BSuccess n bfs abfs), s)
  /\ blind_transaction z rand args t' = (Ret (BSuccess n bfs abfs), s') /\ a_strict args = true /\ vin t' = vin t /\ all_out t' <> all_out t.
Proof.
  set (u := mkTx (vin toy_tx) (vout changed_tx) 0 2 (mkTxWit [] [])). assert (S : SameWork toy_args 0 toy_tx u).
  { assert (C := changed_same). constructor; try reflexivity.
    - intros i a a' E E'. change (vin u) with (vin toy_tx) in E'. rewrite E in E'. injection E' as <-. split; reflexivity.
    - exact (sw_out _ _ _ _ C).
    - intros i. split; reflexivity. }
  assert (R := toy_six). apply ret_is_success in R. destruct R as (bfs & abfs & R).
  destruct (blind_transaction toy toy_rand toy_args u) as [o s'] eqn:E. destruct (C106_same_outcome _ _ _ _ _ _ _ _ _ S R E) as (-> & _).
  exists toy, toy_rand, toy_args, toy_tx, u, 6%nat, bfs, abfs, (snd (blind_transaction toy toy_rand toy_args toy_tx)), s'.
  split; [exact R|]. split; [exact E|]. split; [reflexivity|]. split; [reflexivity|]. clear. vm_compute. intros E. discriminate E.
Qed.

Print Assumptions C106_same_work.
Print Assumptions C106_same_outcome.
Print Assumptions C106_result.
Print Assumptions C106_signed.
Print Assumptions C106_balance_refuted.
Print Assumptions C106_key_list_refuted.
