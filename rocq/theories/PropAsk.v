(** Arguments of blind() that are written differently and ask for the same: property C107. *)
From Verif Require Import Base BaseFacts TxModel BlindModel SpecBlind SpecAsk AskProofs ToyCrypto ToyTx PropBlind SpecSame PropSame PropDraw.
From Coq Require Import Lia.
Local Open Scope Z_scope.

(** C107. For arguments that ask for the same the outcome, the transaction left behind and the number of random draws are the same. *)
Theorem C107_same_ask : forall z rand args args' t, SameAsk t args args' -> blind_transaction z rand args' t = blind_transaction z rand args t.
Proof. intros z rand args args' t S. exact (ask_same z rand t args args' S). Qed.
(** Empty entries may be added at the end of the key lists as long as there are outputs and inputs for them. *)
Lemma fill_same {A} (none : A) room l k : (length l + k <= room)%nat -> SameKeys none room l (l ++ repeat none k).
Proof.
  intros H. split; [|rewrite app_length, repeat_length; lia]. intros i. destruct (Nat.lt_ge_cases i (length l)) as [Q|Q].
  - apply app_nth1. exact Q.
  - rewrite app_nth2 by exact Q. rewrite (nth_overflow l) by exact Q. apply nth_repeat.
Qed.
Lemma desc_refl l : Forall2 SameDesc l l.
Proof. induction l as [|d l IH]; constructor; [|exact IH]. repeat split. right. reflexivity. Qed.
Theorem C107_fill : forall z rand ds pubs aks tks aux ex bits strict t j k m,
  (length pubs + j <= length (vout t))%nat -> (length aks + k <= length (vin t))%nat -> (length tks + m <= length (vin t))%nat ->
  blind_transaction z rand (mkArgs ds (pubs ++ repeat [] j) (aks ++ repeat None k) (tks ++ repeat None m) aux ex bits strict) t
  = blind_transaction z rand (mkArgs ds pubs aks tks aux ex bits strict) t.
Proof.
  intros z rand ds pubs aks tks aux ex bits strict t j k m H1 H2 H3. apply C107_same_ask.
  constructor; cbn [a_descs a_pubkeys a_asset_keys a_token_keys a_aux a_ct_exponent a_ct_bits a_strict]; try reflexivity; [apply desc_refl| | |]; apply fill_same; assumption.
Qed.
(** One key per output and one per input, empty or not, is the general case: every call that is not refused for the length of a list equals one with full lists. *)
Theorem C107_full : forall z rand args t, (length (a_pubkeys args) <= length (vout t))%nat -> (length (a_asset_keys args) <= length (vin t))%nat -> (length (a_token_keys args) <= length (vin t))%nat ->
  exists args', length (a_pubkeys args') = length (vout t) /\ length (a_asset_keys args') = length (vin t) /\ length (a_token_keys args') = length (vin t)
  /\ a_descs args' = a_descs args /\ (forall j, nth j (a_pubkeys args') [] = nth j (a_pubkeys args) [])
  /\ blind_transaction z rand args t = blind_transaction z rand args' t.
Proof.
  intros z rand [ds pubs aks tks aux ex bits strict] t H1 H2 H3. cbn [a_descs a_pubkeys a_asset_keys a_token_keys] in *.
  exists (mkArgs ds (pubs ++ repeat [] (length (vout t) - length pubs)) (aks ++ repeat None (length (vin t) - length aks)) (tks ++ repeat None (length (vin t) - length tks)) aux ex bits strict).
  cbn [a_descs a_pubkeys a_asset_keys a_token_keys]. split; [rewrite app_length, repeat_length; lia|]. split; [rewrite app_length, repeat_length; lia|]. split; [rewrite app_length, repeat_length; lia|].
  split; [reflexivity|]. split; [apply (@fill_same bytes [] (length (vout t))); clear - H1; lia|]. symmetry. apply C107_fill; clear - H1 H2 H3; unfold bytes in *; lia.
Qed.
(** With C98 and C106: what blind() returns and leaves is determined by what it is asked, by the part of the transaction it is to work on and by the
    random numbers it draws. *)
Theorem C107_determined : forall z rand rand' args args' more t t' o o' s s', SameAsk t' args args' -> SameWork args more t t' ->
  more = 0%nat \/ (length (a_pubkeys args) <= length (vout t))%nat -> (forall i, (i < s_draws s)%nat -> rand' i = rand i) ->
  blind_transaction z rand args t = (o, s) -> blind_transaction z rand' args' t' = (o', s') ->
  o' = MoreFactors more o /\ s_draws s' = s_draws s /\ SameWork args more (s_tx s) (s_tx s').
Proof.
  intros z rand rand' args args' more t t' o o' s s' A W X D H H'. rewrite (C107_same_ask _ _ _ _ _ A) in H'.
  exact (C106_same_work z rand' args more t t' o o' s s' W X (C98_replay z rand rand' args t o s H D) H').
Qed.

(** An empty key for the fee output, and a wrong, even negative, amount for the input that is not blinded. *)
Definition loose_args : blind_args := mkArgs [mkDesc asset_A 1000 (b32 12345) (b32 67890); mkDesc asset_A (-5) (zeros 32) (zeros 32)]
  (a_pubkeys toy_args ++ [[]]) [None; Some (b32 5001)] [None; Some (b32 5002)] [] None None true.
Lemma loose_same : SameAsk toy_tx toy_args loose_args.
Proof.
  constructor; try reflexivity.
  - constructor; [repeat split; right; reflexivity|]. constructor; [|constructor]. repeat split. left. split; reflexivity.
  - apply (fill_same [] 5 (a_pubkeys toy_args) 1). apply Nat.leb_le. reflexivity.
  - split; [reflexivity|tauto].
  - split; [reflexivity|tauto].
Qed.
Example C107_ex : SameAsk toy_tx toy_args loose_args /\ a_pubkeys loose_args <> a_pubkeys toy_args /\ a_descs loose_args <> a_descs toy_args
  /\ ret_is six (blind_transaction toy toy_rand toy_args toy_tx) = true.
Proof.
  split; [exact loose_same|]. split; [intros E; apply (f_equal (@length bytes)) in E; discriminate E|].
  split; [intros E; apply (f_equal (map d_amount)) in E; discriminate E|]. exact toy_six.
Qed.
(** Both at once, with another source that gives the same draws: the fee output, the scripts and the arguments changed. *)
Lemma loose_same_changed : SameAsk changed_tx toy_args loose_args.
Proof. destruct loose_same as [A B C D E F G H]. constructor; assumption. Qed.
Example C107_determined_ex : SameAsk changed_tx toy_args loose_args /\ SameWork toy_args 0 toy_tx changed_tx
  /\ (s_draws (snd (blind_transaction toy toy_rand toy_args toy_tx)) <= 100)%nat
  /\ (forall i, (i < 100)%nat -> (if (i <? 100)%nat then toy_rand i else []) = toy_rand i).
Proof.
  split; [exact loose_same_changed|]. split; [exact changed_same|]. split; [apply Nat.leb_le; vm_compute; reflexivity|].
  intros i I. apply Nat.ltb_lt in I. rewrite I. reflexivity.
Qed.
(** So blind() does not check the amounts of inputs that are not blinded: it succeeds in strict mode with a negative one. *)
Theorem C107_amount_refuted : exists z rand args t n bfs abfs s d, blind_transaction z rand args t = (Ret (BSuccess n bfs abfs), s) /\ a_strict args = true
  /\ In d (a_descs args) /\ d_amount d < 0.
Proof.
  assert (R := toy_six). apply ret_is_success in R. destruct R as (bfs & abfs & R). assert (R' := eq_trans (C107_same_ask toy toy_rand _ _ _ loose_same) R). clear R.
  exists toy, toy_rand, loose_args, toy_tx, 6%nat, bfs, abfs, (snd (blind_transaction toy toy_rand toy_args toy_tx)), (mkDesc asset_A (-5) (zeros 32) (zeros 32)).
  split; [exact R'|]. clear. split; [reflexivity|]. split; [right; left; reflexivity|]. reflexivity.
Qed.
(** More entries than outputs are refused though the entries are empty. *)
Theorem C107_too_long_refuted : exists z rand args args' t e n bfs abfs s s', (forall j, nth j (a_pubkeys args') [] = nth j (a_pubkeys args) [])
  /\ a_descs args' = a_descs args /\ a_asset_keys args' = a_asset_keys args /\ a_token_keys args' = a_token_keys args /\ a_aux args' = a_aux args
  /\ blind_transaction z rand args t = (Ret (BSuccess n bfs abfs), s) /\ blind_transaction z rand args' t = (Exc e, s').
Proof.
  assert (R := toy_six). apply ret_is_success in R. destruct R as (bfs & abfs & R). assert (F := padded_refused).
  destruct (blind_transaction toy toy_rand padded_args toy_tx) as [[r|r|e] s'] eqn:E; cbn [fst refused] in F; [discriminate F|discriminate F|].
  exists toy, toy_rand, toy_args, padded_args, toy_tx, e, 6%nat, bfs, abfs, (snd (blind_transaction toy toy_rand toy_args toy_tx)), s'.
  split; [exact (proj1 (fill_same [] 6 (a_pubkeys toy_args) 2 ltac:(apply Nat.leb_le; reflexivity)))|]. split; [reflexivity|]. split; [reflexivity|]. split; [reflexivity|]. split; [reflexivity|]. split; [exact R|exact E].
Qed.

Print Assumptions C107_same_ask.
Print Assumptions C107_fill.
Print Assumptions C107_full.
Print Assumptions C107_determined.
Print Assumptions C107_amount_refuted.
Print Assumptions C107_too_long_refuted.
