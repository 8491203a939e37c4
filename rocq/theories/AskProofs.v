(** Proofs for C107: the run of blind() is the same function of the random numbers for arguments that ask for the same. *)
From Verif Require Import Base BaseFacts TxModel IssuanceModel BlindModel SpecAsk.
From Coq Require Import Lia.
Local Open Scope Z_scope.

Definition same {A} (m m' : M A) : Prop := forall s, m' s = m s.
Lemma same_refl {A} (m : M A) : same m m.
Proof. intros s. reflexivity. Qed.
Lemma same_bind {A B} (m m' : M A) (k k' : A -> M B) : same m m' -> (forall a, same (k a) (k' a)) -> same (mbind m k) (mbind m' k').
Proof. intros H K s. unfold mbind. rewrite H. destruct (m s) as [[a|r|e] u]; [apply K|reflexivity|reflexivity]. Qed.
Lemma bind_get {B} (k : tx -> M B) s : mbind get_tx k s = k (s_tx s) s.
Proof. reflexivity. Qed.
Lemma bind_ok {A B} (a : A) (k : A -> M B) s : mbind (lift (Ok a)) k s = k a s.
Proof. reflexivity. Qed.
Lemma same_for {A L} (l : list A) (f f' : A -> L -> M L) st : (forall x L, same (f x L) (f' x L)) -> same (for_in l f st) (for_in l f' st).
Proof. intros H. revert st. induction l as [|x l IH]; intros st; cbn [for_in]; [apply same_refl|]. apply same_bind; [apply H|intros a; apply IH]. Qed.
(** entries that the body passes over may be missing at the end *)
Lemma same_pubs {L} (f f' : nat * bytes -> L -> M L) l l' k st : (forall x L, same (f x L) (f' x L)) -> (forall n L, same (f (n, []) L) (mret L)) ->
  (forall i, nth i l' [] = nth i l []) -> same (for_in (combine (seq k (length l)) l) f st) (for_in (combine (seq k (length l')) l') f' st).
Proof.
  intros H S. revert l' k st. induction l as [|x l IH]; intros l'.
  - induction l' as [|y l' IH']; intros k st E; [apply same_refl|]. cbn [length seq combine for_in]. assert (Y := E 0%nat). cbn in Y. subst y.
    intros s. unfold mbind. rewrite (H (k, []) st s). rewrite <- (S k st s). unfold mret. apply (IH' (Datatypes.S k) st). intros i. assert (Q := E (Datatypes.S i)). cbn [nth] in Q. rewrite Q. destruct i; reflexivity.
  - intros k st E. destruct l' as [|y l'].
    + cbn [length seq combine for_in]. assert (Y := E 0%nat). cbn in Y. subst x. intros s. unfold mbind. rewrite <- (S k st s). unfold mret at 2.
      apply (IH [] (Datatypes.S k) st). intros i. assert (Q := E (Datatypes.S i)). cbn [nth] in Q. rewrite <- Q. destruct i; reflexivity.
    + cbn [length seq combine for_in]. assert (Y := E 0%nat). cbn in Y. subst y. apply same_bind; [apply H|]. intros a. apply IH. intros i. exact (E (Datatypes.S i)).
Qed.
Lemma key_at_nth keys i : key_at keys i = nth i keys None.
Proof. unfold key_at. revert i. induction keys as [|k l IH]; intros [|i]; cbn; try reflexivity; [destruct k; reflexivity|apply IH]. Qed.
Lemma leb_iff n m r : ((m <= r)%nat <-> (n <= r)%nat) -> (m <=? r)%nat = (n <=? r)%nat.
Proof. intros H. destruct (Nat.leb_spec n r), (Nat.leb_spec m r); try reflexivity; lia. Qed.

Section A.
Variables (z : Crypto) (rand : nat -> bytes) (t0 : tx) (args args' : blind_args).
Hypothesis S : SameAsk t0 args args'.
Lemma asset_at i : key_at (a_asset_keys args') i = key_at (a_asset_keys args) i.
Proof. rewrite !key_at_nth. apply (sa_asset_keys _ _ _ S). Qed.
Lemma token_at i : key_at (a_token_keys args') i = key_at (a_token_keys args) i.
Proof. rewrite !key_at_nth. apply (sa_token_keys _ _ _ S). Qed.
Lemma desc_at i : match nth_res (a_descs args) i, nth_res (a_descs args') i with
  | Ok d, Ok d' => SameDesc d d' | Raise e, Raise e' => e' = e | _, _ => False end.
Proof.
  unfold nth_res. assert (Q := sa_descs _ _ _ S). revert i. induction Q as [|d d' l l' H Q IH]; intros [|i]; cbn; try reflexivity; [exact H|apply IH].
Qed.
Lemma check_same s : s_tx s = t0 -> check_arguments args' s = check_arguments args s.
Proof.
  intros E. unfold check_arguments. rewrite !bind_get, E. cbv beta.
  assert (P : (length (a_pubkeys args') <=? length (vout t0))%nat = (length (a_pubkeys args) <=? length (vout t0))%nat) by exact (leb_iff _ _ _ (proj2 (sa_pubkeys _ _ _ S))).
  assert (A : (length (a_asset_keys args') <=? length (vin t0))%nat = (length (a_asset_keys args) <=? length (vin t0))%nat) by exact (leb_iff _ _ _ (proj2 (sa_asset_keys _ _ _ S))).
  assert (T : (length (a_token_keys args') <=? length (vin t0))%nat = (length (a_token_keys args) <=? length (vin t0))%nat) by exact (leb_iff _ _ _ (proj2 (sa_token_keys _ _ _ S))).
  rewrite P, A, T, (sa_aux _ _ _ S).
  assert (D : length (a_descs args') = length (a_descs args)) by (assert (Q := sa_descs _ _ _ S); clear - Q; induction Q; cbn; congruence).
  rewrite D. reflexivity.
Qed.
Lemma targets_input_same i T : same (targets_input z args i T) (targets_input z args' i T).
Proof.
  unfold targets_input. rewrite token_at, (sa_aux _ _ _ S). assert (D := desc_at i). destruct (nth_res (a_descs args) i) as [d|e], (nth_res (a_descs args') i) as [d'|e']; try contradiction; [|subst e'; intros s; reflexivity].
  destruct D as (D1 & D2 & D3 & _). intros s. rewrite !bind_ok. cbv beta. rewrite D1, D3. reflexivity.
Qed.
Lemma targets_same : same (surjection_targets z args) (surjection_targets z args').
Proof.
  unfold surjection_targets. rewrite (sa_aux _ _ _ S). apply same_bind; [apply same_refl|intros t]. cbv zeta.
  apply same_bind; [apply same_for; exact targets_input_same|intros T]. apply same_refl.
Qed.
Lemma result_same : blinding_result args' = blinding_result args.
Proof. unfold blinding_result. rewrite (sa_strict _ _ _ S). reflexivity. Qed.
Lemma count_input_same n L : same (count_input args n L) (count_input args' n L).
Proof.
  unfold count_input. rewrite asset_at, token_at. assert (D := desc_at n). destruct (nth_res (a_descs args) n) as [d|e], (nth_res (a_descs args') n) as [d'|e']; try contradiction; [|subst e'; intros s; reflexivity].
  destruct D as (D1 & D2 & D3 & D4). intros s. rewrite !bind_ok. cbv beta. rewrite D2, D3.
  destruct D4 as [[-> ->]|D4]; [|rewrite D4; reflexivity].
  replace (negb (uint256_is_null (zeros 32)) || negb (uint256_is_null (zeros 32))) with false by reflexivity. reflexivity.
Qed.
Lemma pseudo_same n (ps : bool) L : same (blind_pseudo z rand args n ps L) (blind_pseudo z rand args' n ps L).
Proof.
  unfold blind_pseudo. rewrite result_same, (sa_exponent _ _ _ S), (sa_bits _ _ _ S).
  destruct ps; [rewrite token_at|rewrite asset_at]; apply same_refl.
Qed.
Lemma finish_same : finish_output z rand args' = finish_output z rand args.
Proof. unfold finish_output. rewrite (sa_exponent _ _ _ S), (sa_bits _ _ _ S). reflexivity. Qed.
Lemma output_same : blind_output z rand args' = blind_output z rand args.
Proof. unfold blind_output. rewrite finish_same, result_same. reflexivity. Qed.
Theorem ask_same : blind_transaction z rand args' t0 = blind_transaction z rand args t0.
Proof.
  unfold blind_transaction. replace (blind_body z rand args' (mkSt t0 0)) with (blind_body z rand args (mkSt t0 0)); [reflexivity|]. symmetry.
  unfold blind_body. unfold mbind at 1. rewrite check_same by reflexivity. symmetry. unfold mbind at 1. symmetry.
  destruct (check_arguments args (mkSt t0 0)) as [[a|r|e] u]; try reflexivity.
  match goal with |- ?f u = ?g u => assert (Q : same g f); [|exact (Q u)] end.
  rewrite output_same. apply same_bind; [exact targets_same|intros [[tags gens] bl]]. apply same_bind; [apply same_refl|intros t]. cbv zeta.
  apply same_bind; [apply same_for; exact count_input_same|intros L1].
  apply same_bind; [apply same_pubs; [intros; apply same_refl|intros n L; apply same_refl|apply (sa_pubkeys _ _ _ S)]|intros L2].
  apply same_bind; [apply same_for; intros i L; unfold blind_input; apply same_bind; [apply pseudo_same|intros L'; apply pseudo_same]|intros L3].
  apply same_bind; [apply same_refl|intros t2]. apply same_bind; [apply same_refl|intros _].
  apply same_bind; [apply same_pubs; [intros; apply same_refl|intros n L; apply same_refl|apply (sa_pubkeys _ _ _ S)]|intros L4].
  rewrite result_same. apply same_refl.
Qed.
End A.
