(** Which exceptions leave blind(): property C102. *)
From Verif Require Import Base BaseFacts TxModel BlindModel SpecBlind BlindFails SpecExc ExcProofs ToyCrypto ToyTx PropBlind.
From Coq Require Import Lia.
Local Open Scope Z_scope.

(** C102. With arguments of the documented types, no key for an input that issues nothing, and no token key for a
    reissuance, an exception of blind() is one of three. ValueError: the lists do not fit the transaction; nothing
    was changed or drawn. UnboundLocalError: a reissuance says that it makes tokens, and no new issuance comes before
    it; nothing was changed or drawn. RuntimeError: the library refused a call that blind() had to make. In particular
    no AssertionError, IndexError, TypeError or AttributeError. *)
Theorem C102_exceptions : forall z rand args t e s, SizesOk z -> IndexOk z -> RandOk z rand -> WellTyped z args t -> ~ stray_key args t -> ~ token_key_for_reissuance args t ->
  blind_transaction z rand args t = (Exc e, s) ->
  (e = EValue /\ bad_arguments args t /\ s = mkSt t 0) \/ (e = EUnboundLocal /\ TokenUnknown t /\ s = mkSt t 0) \/ (e = ERuntime /\ Refused z rand args t).
Proof. exact blind_exceptions. Qed.

(** ** The hypotheses can be met *)
Lemma toy_index : IndexOk toy.
Proof.
  intros tags n k a it seed p i. cbn [toy sp_init]. assert (H : forall n tags j i, find_chunk tags a n j = Some i -> (i < n + j)%nat).
  { clear. induction n as [|n IH]; intros tags j i E; [discriminate|]. cbn [find_chunk] in E. destruct (bytes_eqb _ _); [injection E as <-; lia|]. apply IH in E. lia. }
  destruct (find_chunk tags a n 0) as [x|] eqn:E; [|discriminate]. intros F. injection F as _ <-. apply H in E. lia.
Qed.
Definition exc_is (p : exn -> bool) (x : outcome blind_ret * St) : bool := match fst x with Exc e => p e | _ => false end.
Definition null_b (x : bytes) : bool := bytes_eqb x (zeros 32).
(** a check that can be run, for the last clause of [WellTyped] *)
Definition ids_fine (z : Crypto) (inp : txin) : bool :=
  let e := if null_b (is_nonce (assetIssuance inp)) then c_mid z (c_hash z (op_hash (prevout inp) ++ le_bytes 4 (op_n (prevout inp))) ++ is_entropy (assetIssuance inp)) else is_entropy (assetIssuance inp) in
  negb (null_b (c_mid z (e ++ tag32 x01))) && negb (null_b (c_mid z (e ++ tag32 x02)))
  && (blen (is_entropy (assetIssuance inp)) =? 32) && (blen (op_hash (prevout inp)) =? 32) && (0 <=? op_n (prevout inp)) && (op_n (prevout inp) <? 2 ^ 32).
Definition keys_fine (l : list (option bytes)) : bool := forallb (fun k => match k with Some k => blen k =? 32 | None => true end) l.
Lemma keys_fine_nth l i k : keys_fine l = true -> nth i l None = Some k -> blen k = 32.
Proof.
  intros H E. unfold keys_fine in H. rewrite forallb_forall in H. destruct (nth_in_or_default i l None) as [I|D]; [|congruence]. apply H in I. rewrite E in I. apply Z.eqb_eq. exact I.
Qed.
Lemma well_typed z args t : keys_fine (a_asset_keys args) && keys_fine (a_token_keys args) && forallb (fun d => blen (d_asset d) =? 32) (a_descs args) && forallb (ids_fine z) (vin t) = true -> WellTyped z args t.
Proof.
  intros H. apply andb_prop in H. destruct H as [H H4]. apply andb_prop in H. destruct H as [H H3]. apply andb_prop in H. destruct H as [H1 H2]. rewrite forallb_forall in H3, H4. constructor.
  - intros i k [E|E]; [exact (keys_fine_nth _ _ _ H1 E)|exact (keys_fine_nth _ _ _ H2 E)].
  - intros d I. apply Z.eqb_eq. exact (H3 d I).
  - intros inp I. apply H4 in I. unfold ids_fine in I. apply andb_prop in I. destruct I as [I I6]. apply andb_prop in I. destruct I as [I I5]. apply andb_prop in I. destruct I as [I I4]. apply andb_prop in I. destruct I as [_ I3].
    apply Z.eqb_eq in I3, I4. apply Z.leb_le in I5. apply Z.ltb_lt in I6. auto.
  - intros inp e b I EN B. apply H4 in I. unfold ids_fine in I. do 4 (apply andb_prop in I; destruct I as [I _]). apply andb_prop in I. destruct I as [I1 I2]. apply negb_true_iff in I1, I2.
    assert (EE : e = if null_b (is_nonce (assetIssuance inp)) then c_mid z (c_hash z (op_hash (prevout inp) ++ le_bytes 4 (op_n (prevout inp))) ++ is_entropy (assetIssuance inp)) else is_entropy (assetIssuance inp)).
    { destruct EN as [(U & n & L & V & ->)|(U & ->)].
      - assert (X : null_b (is_nonce (assetIssuance inp)) = true) by (apply bytes_eqb_eq; exact U). rewrite X, <- V, <- L, le_bytes_le_val. reflexivity.
      - destruct (null_b (is_nonce (assetIssuance inp))) eqn:X; [apply bytes_eqb_eq in X; contradiction|reflexivity]. }
    rewrite <- EE in I1, I2. intros X. assert (Y : null_b (c_mid z (e ++ tag32 b)) = true) by (apply bytes_eqb_eq; exact X). destruct B as [-> | ->]; congruence.
Qed.
Lemma no_token_keys args t : a_token_keys args = [] -> ~ token_key_for_reissuance args t.
Proof. intros E (i & inp & k & _ & H & _). rewrite E in H. destruct i; discriminate. Qed.

(** RuntimeError after the transaction was changed: output 0 is blinded, then output 1, which has the value 0 and can
    be spent, gets no range proof. *)
Definition zero_args : blind_args := mkArgs [mkDesc asset_A 1000 (b32 12345) (b32 67890)] [toy_pub 901; toy_pub 902; toy_pub 903] [] [] [] None None true.
Definition zero_tx : tx := mkTx [toy_in0] [toy_out 700 asset_A [x51]; toy_out 0 asset_A [x51]; toy_out 300 asset_A [x51]] 0 2 (mkTxWit [] []).
Lemma zero_hyps : SizesOk toy /\ IndexOk toy /\ RandOk toy toy_rand /\ WellTyped toy zero_args zero_tx /\ ~ stray_key zero_args zero_tx /\ ~ token_key_for_reissuance zero_args zero_tx.
Proof.
  split; [exact toy_sizes|]. split; [exact toy_index|]. split; [exact toy_rand_ok|]. split; [apply well_typed; vm_compute; reflexivity|]. split; [|apply no_token_keys; reflexivity].
  intros (i & ps & inp & H & _). exact H.
Qed.
Definition value_of (t : tx) (j : nat) : bytes := match nth_error (vout t) j with Some o => nValue o | None => [] end.
Lemma exc_found e x : exc_is (fun e' => match e, e' with ERuntime, ERuntime | EAssert, EAssert => true | _, _ => false end) x = true -> exists s, x = (Exc e, s).
Proof. destruct x as [[a|r|e'] s]; try discriminate. unfold exc_is. cbn [fst]. intros H. exists s. destruct e, e'; try discriminate H; reflexivity. Qed.
Lemma exc_changed e x t : exc_is (fun e' => match e, e' with ERuntime, ERuntime | EAssert, EAssert => true | _, _ => false end) x && negb (bytes_eqb (value_of (s_tx (snd x)) 0) (value_of t 0)) = true ->
  exists s, x = (Exc e, s) /\ vout (s_tx s) <> vout t.
Proof.
  intros H. apply andb_prop in H. destruct H as [H B]. apply exc_found in H. destruct H as [s ->]. exists s. split; [reflexivity|]. cbn [snd] in B. intros E. unfold value_of in B. rewrite E in B.
  apply negb_true_iff in B. assert (R : forall x, bytes_eqb x x = true) by (intros; apply bytes_eqb_eq; reflexivity). rewrite R in B. discriminate B.
Qed.
Lemma zero_run : exists s, blind_transaction toy toy_rand zero_args zero_tx = (Exc ERuntime, s) /\ vout (s_tx s) <> vout zero_tx.
Proof. apply exc_changed. vm_compute. reflexivity. Qed.
(** An exception need not leave the transaction as it was. *)
Theorem C102_unchanged_refuted : exists z rand args t s, SizesOk z /\ IndexOk z /\ RandOk z rand /\ WellTyped z args t /\ ~ stray_key args t /\ ~ token_key_for_reissuance args t /\ ~ bad_arguments args t
  /\ blind_transaction z rand args t = (Exc ERuntime, s) /\ vout (s_tx s) <> vout t.
Proof.
  destruct zero_hyps as (H1 & H2 & H3 & H4 & H5 & H6). destruct zero_run as (s & R & V). exists toy, toy_rand, zero_args, zero_tx, s.
  split; [exact H1|]. split; [exact H2|]. split; [exact H3|]. split; [exact H4|]. split; [exact H5|]. split; [exact H6|].
  split; [clear; intros [Q|[Q|[Q|[Q|[Q _]]]]]; cbn in Q; try lia; congruence|]. split; [exact R|exact V].
Qed.
(** A key for an input that issues nothing: AssertionError, after an issuance and an output were blinded. *)
Definition stray2_args : blind_args := mkArgs toy_descs [toy_pub 901; toy_pub 902; toy_pub 903; toy_pub 904] [Some (b32 5000); Some (b32 5001)] [None; Some (b32 5002)] [] None None true.
Lemma stray2_run : exists s, blind_transaction toy toy_rand stray2_args toy_tx = (Exc EAssert, s) /\ vout (s_tx s) <> vout toy_tx.
Proof. apply exc_changed. vm_compute. reflexivity. Qed.
Lemma toy_no_retoken args : ~ token_key_for_reissuance args toy_tx.
Proof. intros (i & inp & k & E & _ & N). destruct i as [|[|[|i]]]; try discriminate E; injection E as <-; apply N; reflexivity. Qed.
Theorem C102_stray_refuted : exists z rand args t s, SizesOk z /\ IndexOk z /\ RandOk z rand /\ WellTyped z args t /\ ~ token_key_for_reissuance args t /\ ~ bad_arguments args t
  /\ blind_transaction z rand args t = (Exc EAssert, s) /\ vout (s_tx s) <> vout t.
Proof.
  destruct stray2_run as (s & R & V). exists toy, toy_rand, stray2_args, toy_tx, s.
  split; [exact toy_sizes|]. split; [exact toy_index|]. split; [exact toy_rand_ok|]. split; [apply well_typed; vm_compute; reflexivity|]. split; [apply toy_no_retoken|].
  split; [clear; intros [Q|[Q|[Q|[Q|[Q _]]]]]; cbn in Q; try lia; congruence|]. split; [exact R|exact V].
Qed.
(** A token key for a reissuance: AssertionError. *)
Definition retoken_args : blind_args := mkArgs [mkDesc asset_A 200 (b32 12345) (b32 67890); mkDesc asset_A 200 (b32 12345) (b32 67890)] [toy_pub 901] [] [None; Some (b32 5002)] [] None None true.
Lemma retoken_run : exists s, blind_transaction toy toy_rand retoken_args reissue_tx = (Exc EAssert, s).
Proof. apply exc_found. vm_compute. reflexivity. Qed.
Theorem C102_retoken_refuted : exists z rand args t s, SizesOk z /\ IndexOk z /\ RandOk z rand /\ WellTyped z args t /\ ~ stray_key args t /\ ~ bad_arguments args t
  /\ blind_transaction z rand args t = (Exc EAssert, s).
Proof.
  destruct retoken_run as (s & R). exists toy, toy_rand, retoken_args, reissue_tx, s.
  split; [exact toy_sizes|]. split; [exact toy_index|]. split; [exact toy_rand_ok|]. split; [apply well_typed; vm_compute; reflexivity|].
  split. { clear. intros (i & ps & inp & H & E & X & Y). cbv in H. destruct H as [H|[]]. injection H as <- <-. injection E as <-. discriminate X. }
  split; [clear; intros [Q|[Q|[Q|[Q|[Q _]]]]]; cbn in Q; try lia; congruence|]. exact R.
Qed.
Example C102_ex : SizesOk toy /\ IndexOk toy /\ RandOk toy toy_rand /\ WellTyped toy toy_args toy_tx /\ ~ stray_key toy_args toy_tx /\ ~ token_key_for_reissuance toy_args toy_tx
  /\ (exists s, blind_transaction toy toy_rand zero_args zero_tx = (Exc ERuntime, s)) /\ Refused toy toy_rand zero_args zero_tx.
Proof.
  split; [exact toy_sizes|]. split; [exact toy_index|]. split; [exact toy_rand_ok|]. split; [apply well_typed; vm_compute; reflexivity|]. split; [exact toy_no_stray|].
  split; [apply toy_no_retoken|]. destruct zero_run as (s & R & _). split; [exists s; exact R|]. destruct zero_hyps as (H1 & H2 & H3 & H4 & H5 & H6).
  destruct (C102_exceptions _ _ _ _ _ _ H1 H2 H3 H4 H5 H6 R) as [(X & _)|[(X & _)|(_ & X)]]; try discriminate X. exact X.
Qed.
Print Assumptions C102_exceptions.
Print Assumptions C102_unchanged_refuted.
Print Assumptions C102_stray_refuted.
Print Assumptions C102_retoken_refuted.
