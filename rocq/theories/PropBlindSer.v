(** Serialising a transaction after blind(): property C53. *)
From Verif Require Import Base BaseFacts Serialize TxModel SpecWire TxProofs TxProofs2 PropCodec BlindModel SpecBlind BlindFrame BlindSer ToyCrypto ToyTx PropBlind.
From Coq Require Import Lia.
Local Open Scope Z_scope.

(** Field values and witnesses are representable; each list of witnesses has one entry per input/output. *)
Definition complete_witness (t : tx) : Prop :=
  length (vtxinwit (wit t)) = length (vin t) /\ length (vtxoutwit (wit t)) = length (vout t).
(** Inputs on which blind() is asked to blind an issuance amount or token amount. *)
Definition blinds_issuance (args : blind_args) (t : tx) : Prop := exists i, amount_target args t i \/ keys_target args t i.

(** C53. With complete witness lists: whatever the outcome of blind(), the transaction serialises and is read back. *)
Theorem C53_complete_roundtrip : forall z rand args t dw, SizesOk z -> SmallProofs z -> dw_null dw ->
  wf_fields t -> complete_witness t ->
  let t' := s_tx (snd (blind_transaction z rand args t)) in
  exists b t'', tx_serialize t' = Ok b /\ tx_deserialize dw b = Ok t'' /\ same_tx t' t''.
Proof.
  intros z rand args t dw SZ SP HD W [L1 L2] t'. apply C11_tx_deserialize; [exact HD|].
  assert (FR : Frame args t t') by apply blind_transaction_frame.
  assert (W' : wf_fields t') by (apply blind_wf; assumption). destruct W' as (A & B & C). split; [exact A|]. right.
  assert (A1 := fr_ninwit _ _ _ _ _ FR). assert (A2 := fr_noutwit _ _ _ _ _ FR). rewrite (fr_nin _ _ _ _ _ FR), (fr_nout _ _ _ _ _ FR).
  clearbody t'. clear rand. repeat split; [lia|lia|exact B|exact C].
Qed.
(** Empty lists: it still serialises, provided no issuance is blinded. *)
Theorem C53_serialises : forall z rand args t, SizesOk z -> SmallProofs z -> wf_fields t ->
  (length (vtxinwit (wit t)) = length (vin t) \/ (vtxinwit (wit t) = [] /\ ~ blinds_issuance args t)) ->
  (length (vtxoutwit (wit t)) = length (vout t) \/ vtxoutwit (wit t) = []) ->
  exists b, tx_serialize (s_tx (snd (blind_transaction z rand args t))) = Ok b.
Proof.
  intros z rand args t SZ SP W L1 L2.
  assert (FR : Frame args t (s_tx (snd (blind_transaction z rand args t)))) by apply blind_transaction_frame.
  assert (W' : wf_fields (s_tx (snd (blind_transaction z rand args t)))) by (apply blind_wf; assumption).
  set (t' := s_tx _) in *. clearbody t'. clear rand.
  assert (A1 := fr_ninwit _ _ _ _ _ FR). assert (A2 := fr_noutwit _ _ _ _ _ FR). assert (A3 := fr_outwits _ _ _ _ _ FR).
  assert (A4 := fr_nin _ _ _ _ _ FR). assert (A5 := fr_nout _ _ _ _ _ FR).
  apply wf_fields_ser; [exact W'|..].
  - destruct L1 as [L1|[L1 NB]]; [right; lia|]. left.
    assert (A6 := fr_lastinwit _ _ _ _ _ FR 0%nat). rewrite L1 in A6. apply length_zero_iff_nil.
    assert (forall i, (0 <= i)%nat -> ~ amount_target args t i /\ ~ keys_target args t i).
    { intros i _. split; intros H; apply NB; exists i; auto. }
    specialize (A6 H). cbn in A6. lia.
  - destruct L2 as [L2|L2]; [right; lia|]. rewrite L2 in A3. cbn [length Nat.max] in A3. destruct A3 as [A3|A3]; [left; apply length_zero_iff_nil, A3|right; lia].
Qed.

(** The toy library with its proofs cut to the size limit of real ones. *)
Definition cut (z : Crypto) : Crypto := mkCrypto (c_hash z) (c_sha z) (c_mid z) (gen_parse z) (gen_generate z) (gen_generate_blinded z)
  (gen_serialize z) (ped_commit z) (ped_serialize z) (ped_parse z) (blind_sum z)
  (fun m c b n e bits v msg x g => match rp_sign z m c b n e bits v msg x g with Some p => Some (firstn 400 p) | None => None end)
  (rp_rewind z) (sp_init z) (sp_generate z) (sp_verify z) (fun p => firstn 400 (sp_serialize z p))
  (pk_fullyvalid z) (sk_valid z) (sk_pub z) (ecdh z).
Lemma firstn_small p : small (firstn 400 p).
Proof. unfold small, blen. assert (H := firstn_le_length 400 p). lia. Qed.
Lemma cut_small z : SmallProofs (cut z).
Proof.
  split; [|intros p; apply firstn_small]. intros m c b n e bits v msg x g p H. cbn [cut rp_sign] in H.
  destruct (rp_sign z m c b n e bits v msg x g) as [q|]; [|discriminate]. assert (G : p = firstn 400 q) by congruence. rewrite G. apply firstn_small.
Qed.
Lemma cut_sizes z : SizesOk z -> SizesOk (cut z).
Proof. intros [A B C D E F G H I J K]. constructor; assumption. Qed.
Lemma cut_rand : RandOk (cut toy) toy_rand. Proof. exact toy_rand_ok. Qed.


Lemma wf_toy_in0 : wf_txin toy_in0.
Proof.
  split.
  - repeat split; try reflexivity; try apply CF_null; cbn; try lia; unfold small, blen; cbn; lia.
  - right. cbn. split; [lia|]. split; [reflexivity|]. intros (H & _). discriminate.
Qed.
Lemma wf_toy_in1 : wf_txin toy_in1.
Proof.
  split.
  - repeat split; try reflexivity; try (apply CF_explicit; reflexivity); cbn; try lia; unfold small, blen; cbn; lia.
  - right. cbn. split; [lia|]. split; [discriminate|]. intros (H & _). discriminate.
Qed.
Definition toy_outs : list txout := vout toy_tx.
Lemma wf_toy_outs : Forall wf_txout toy_outs.
Proof. repeat constructor; try reflexivity; unfold small, blen; cbn; lia. Qed.
Definition toy_complete : tx := mkTx [toy_in0; toy_in1] toy_outs 0 2 (mkTxWit (repeat inwit_null 2) (repeat outwit_null 5)).
Example C53_ex : SizesOk (cut toy) /\ SmallProofs (cut toy) /\ wf_fields toy_complete /\ complete_witness toy_complete
  /\ ret_is (fun r => match r with BSuccess n _ _ => (n =? 6)%nat | _ => false end) (blind_transaction (cut toy) toy_rand toy_args toy_complete) = true
  /\ wf_fields toy_tx /\ ~ blinds_issuance (mkArgs toy_descs [toy_pub 901; toy_pub 902] [] [] [] None None true) toy_tx.
Proof.
  split; [apply cut_sizes, toy_sizes|]. split; [apply cut_small|].
  assert (B : forall w, wf_body (mkTx [toy_in0; toy_in1] toy_outs 0 2 w)).
  { intros w. split; [cbn; lia|]. split; [cbn; lia|]. split; [cbn; lia|]. split; [cbn; lia|]. split; [|exact wf_toy_outs].
    constructor; [exact wf_toy_in0|]. constructor; [exact wf_toy_in1|constructor]. }
  split. { split; [apply B|]. split; [repeat constructor; apply inwit_null_wf|repeat constructor; apply outwit_null_wf]. }
  split; [split; reflexivity|]. split; [vm_compute; reflexivity|].
  split. { split; [apply B|]. split; constructor. }
  intros (i & [[H _]|[H _]]); destruct i; apply H; reflexivity.
Qed.

(** Transactions that can be serialised before (even read back), and not after a successful strict blind().
    Empty witness lists, an issuance blinded on the first of two inputs: AssertionError. *)
Definition short_tx : tx := mkTx [toy_in1; toy_in0] toy_outs 0 2 (mkTxWit [] []).
Definition short_args : blind_args := mkArgs (rev toy_descs)
  [toy_pub 901; toy_pub 902; toy_pub 903; toy_pub 904] [Some (b32 5001)] [Some (b32 5002)] [] None None true.
Lemma wf_short_body i o : Forall wf_txin i -> Forall wf_txout o -> (length i <= 2)%nat -> (length o <= 5)%nat -> wf_tx (mkTx i o 0 2 (mkTxWit [] [])).
Proof.
  intros A B C D. split; [|left; split; constructor]. split; [cbn; lia|]. split; [cbn; lia|]. cbn [vin vout].
  split; [clear - C; lia|]. split; [clear - D; lia|]. split; assumption.
Qed.
Theorem C53_any_serialises_refuted : exists z rand args t n bfs abfs s,
  SizesOk z /\ SmallProofs z /\ RandOk z rand /\ wf_tx t
  /\ blind_transaction z rand args t = (Ret (BSuccess n bfs abfs), s) /\ a_strict args = true
  /\ tx_serialize (s_tx s) = Raise EAssert.
Proof.
  exists (cut toy), toy_rand, short_args, short_tx, 6%nat.
  assert (H : ret_is (fun r => match r with BSuccess n _ _ => (n =? 6)%nat | _ => false end) (blind_transaction (cut toy) toy_rand short_args short_tx)
     && match tx_serialize (s_tx (snd (blind_transaction (cut toy) toy_rand short_args short_tx))) with Raise EAssert => true | _ => false end = true) by (vm_compute; reflexivity).
  apply andb_prop in H. destruct H as [H1 H2]. apply ret_is_success in H1. destruct H1 as (b & a & H1).
  exists b, a, (snd (blind_transaction (cut toy) toy_rand short_args short_tx)).
  split; [apply cut_sizes, toy_sizes|]. split; [apply cut_small|]. split; [exact cut_rand|].
  split. { apply wf_short_body; [|exact wf_toy_outs|cbn; lia|cbn; lia]. constructor; [exact wf_toy_in1|]. constructor; [exact wf_toy_in0|constructor]. }
  split; [exact H1|]. split; [reflexivity|]. clear H1. destruct (tx_serialize _) as [r|[]]; try (exfalso; exact (Bool.diff_false_true H2)). reflexivity.
Qed.
(** Empty witness lists, no issuance: bytes are produced, but they are not a transaction. *)
Definition plain_tx : tx := mkTx [toy_in0] [toy_out 700 asset_A [x51]; toy_out 300 asset_A [x51]] 0 2 (mkTxWit [] []).
Definition plain_args : blind_args := mkArgs [mkDesc asset_A 1000 (b32 12345) (b32 67890)] [toy_pub 901] [] [] [] None None true.
Lemma wf_plain_outs : Forall wf_txout (vout plain_tx).
Proof. repeat constructor; try reflexivity; unfold small, blen; cbn; lia. Qed.
Theorem C53_any_roundtrip_refuted : exists z rand args t n bfs abfs s b,
  SizesOk z /\ SmallProofs z /\ RandOk z rand /\ wf_tx t
  /\ blind_transaction z rand args t = (Ret (BSuccess n bfs abfs), s) /\ a_strict args = true
  /\ tx_serialize (s_tx s) = Ok b /\ forall dw t'', tx_deserialize dw b <> Ok t''.
Proof.
  set (run := blind_transaction (cut toy) toy_rand plain_args plain_tx).
  assert (H : ret_is (fun r => match r with BSuccess n _ _ => (n =? 1)%nat | _ => false end) run = true) by (vm_compute; reflexivity).
  apply ret_is_success in H. destruct H as (bfs & abfs & H).
  assert (K : exists b, tx_serialize (s_tx (snd run)) = Ok b /\ forall dw t'', tx_deserialize dw b <> Ok t'').
  { eexists. split; [vm_compute; reflexivity|]. intros dw t''. vm_compute. discriminate. }
  destruct K as (b & K1 & K2). exists (cut toy), toy_rand, plain_args, plain_tx, 1%nat, bfs, abfs, (snd run), b.
  split; [apply cut_sizes, toy_sizes|]. split; [apply cut_small|]. split; [exact cut_rand|].
  split. { apply wf_short_body; [|exact wf_plain_outs|cbn; lia|cbn; lia]. constructor; [exact wf_toy_in0|constructor]. }
  split; [exact H|]. split; [reflexivity|]. split; [exact K1|exact K2].
Qed.

Print Assumptions C53_complete_roundtrip.
Print Assumptions C53_serialises.
Print Assumptions C53_any_serialises_refuted.
Print Assumptions C53_any_roundtrip_refuted.
