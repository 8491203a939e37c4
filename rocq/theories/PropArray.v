(** Property C73: arguments documented as "bytes or bytearray" that only work as bytes. *)
From Coq Require Import ZArith List Bool Lia Strings.String.
From Verif Require Import Base BaseFacts TxModel MiscModel BlindModel UnblindModel ToyCrypto ToyTx ArrayModel SpecFault SpecArray ArrayProofs.
Import ListNotations.
Local Notation length := List.length (only parsing).
Local Open Scope Z_scope.

(** As long as no auxiliary generator that blind() reads is a bytearray, bytearrays do as well as bytes. *)
Theorem C73_bytes : forall z rand h aux args t, ~ ReadsArray args aux t ->
  blind_transaction_buf z rand h aux args t = blind_transaction z rand (set_aux args (frozen h aux)) t.
Proof. intros z rand h aux args t H. apply blind_bytes. exact H. Qed.
Print Assumptions C73_bytes.

(** Otherwise the transaction stays as it is, no random bytes are drawn, and blind() raises ctypes.ArgumentError, with
    nothing at fault before the bytearray, or it stops earlier, for a reason that would have stopped it with bytes as well. *)
Theorem C73_array : forall z rand h aux args t o s, let args' := set_aux args (frozen h aux) in ReadsArray args aux t -> blind_transaction_buf z rand h aux args t = (o, s) ->
  s = mkSt t 0 /\ ((o = Exc EArgument /\ exists i a, nth_error aux i = Some (PByteArray a) /\ Read args t i /\ forall p j k f, (p <= 1)%nat -> FaultAt z args' t p j k f -> (i <= j)%nat)
    \/ (blind_transaction z rand args' t = (o, s) /\ ((exists f, o = Ret (BFailure f) /\ EarlyFailure f) \/ exists e, o = Exc e))).
Proof.
  intros z rand h aux args t o s args' R E. destruct (blind_array z rand h aux args t o s R E) as (S & [->|H]); (split; [exact S|]); [left|right; exact H]. split; [reflexivity|].
  exact (blind_argument z rand h aux args t s R E).
Qed.
Print Assumptions C73_array.

(** In particular where blind() with the same bytes would succeed, or refuse for the factors, keys or outputs. *)
Theorem C73_array_raises : forall z rand h aux args t r s, ReadsArray args aux t ->
  blind_transaction z rand (set_aux args (frozen h aux)) t = (Ret r, s) -> (forall f, r = BFailure f -> ~ EarlyFailure f) ->
  blind_transaction_buf z rand h aux args t = (Exc EArgument, mkSt t 0).
Proof.
  intros z rand h aux args t r s R E NF. destruct (blind_transaction_buf z rand h aux args t) as [o s'] eqn:B. destruct (C73_array _ _ _ _ _ _ _ _ R B) as (-> & [[-> _]|(E' & C)]); [reflexivity|].
  rewrite E in E'. injection E' as <- ->. destruct C as [(f & X & F)|(e & X)]; [|discriminate X]. injection X as ->. destruct (NF f eq_refl F).
Qed.
Print Assumptions C73_array_raises.

(** Unblinding with the range proof of a witness object: as bytes the object's proof is used; kept as a bytearray
    (as the constructor does) it raises ArgumentError exactly where a library that rewinds nothing would make
    unblinding fail for that reason, and else ends in failure or exception just as with bytes. *)
Theorem C73_unblind : forall z h o key surj range, let w := new_out_witness h surj range in
  (forall b, range = PBytes b -> witness_unblind z h o key w = txout_unblind z o key b)
  /\ (forall a, range = PByteArray a ->
       (witness_unblind z h o key w = Raise EArgument /\ txout_unblind (without_rewind z) o key (h a) = Ok (Failure "unable to rewind rangeproof"))
       \/ (witness_unblind z h o key w = txout_unblind z o key (h a) /\ txout_unblind (without_rewind z) o key (h a) <> Ok (Failure "unable to rewind rangeproof")
          /\ ((exists m, witness_unblind z h o key w = Ok (Failure m)) \/ exists e, witness_unblind z h o key w = Raise e)))
  /\ (forall a asset amount bf abf, range = PByteArray a -> txout_unblind z o key (h a) = Ok (UnblindingSuccess asset amount bf abf) -> witness_unblind z h o key w = Raise EArgument).
Proof.
  intros z h o key surj range w. unfold witness_unblind, w, new_out_witness, txout_unblind. cbn [oo_range].
  assert (AR := fun a => unblind_array z h key (nValue o) (nAsset o) (nNonce o) (scriptPubKey o) a). assert (RO := fun a => rewind_only z key (nValue o) (nAsset o) (nNonce o) (scriptPubKey o) (h a)).
  split; [intros b ->; apply unblind_bytes|]. split.
  - intros a ->. rewrite AR. destruct (unblind_confidential_pair (without_rewind z) _ _ _ _ _ _) as [[m|n x y|x n y v]|e] eqn:E.
    + destruct (String.eqb m "unable to rewind rangeproof") eqn:M; [apply String.eqb_eq in M; subst m; left; auto|]. right. destruct (RO a) as [X|(X & _)]; rewrite E in X; [injection X as ->; discriminate M|].
      split; [exact X|]. split; [|left; eauto]. intros Y. injection Y as ->. discriminate M.
    + exfalso. destruct (RO a) as [X|(X & [(m & Y)|(e & Y)])]; rewrite ?Y in X; rewrite E in X; discriminate X.
    + exfalso. destruct (RO a) as [X|(X & [(m & Y)|(e & Y)])]; rewrite ?Y in X; rewrite E in X; discriminate X.
    + right. destruct (RO a) as [X|(X & _)]; rewrite E in X; [discriminate X|]. split; [exact X|]. split; [discriminate|]. right. eauto.
  - intros a asset amount bf abf -> E. rewrite AR. destruct (RO a) as [X|(X & [(m & Y)|(e & Y)])]; [rewrite X; reflexivity| |]; rewrite E in Y; discriminate Y.
Qed.
Print Assumptions C73_unblind.

(** get_rangeproof_info: the library's four numbers, or None where it finds none; ArgumentError for a witness holding a bytearray. *)
Theorem C73_info : forall rp_info h surj range, let w := new_out_witness h surj range in
  (forall b, range = PBytes b -> get_rangeproof_info rp_info w = Ok (rp_info b)) /\ (forall a, range = PByteArray a -> get_rangeproof_info rp_info w = Raise EArgument).
Proof. intros rp_info h surj range w. split; intros x ->; reflexivity. Qed.
Print Assumptions C73_info.

(** * Cases *)
Definition aux_bytes : bytes := x0a :: b32 7.
Definition toy_heap : heap := fun a => if (a =? 0)%nat then aux_bytes else [].
Definition unread_aux : list pybuf := [PByteArray 0; PByteArray 0; PBytes aux_bytes].
Definition read_aux : list pybuf := [PBytes aux_bytes; PBytes aux_bytes; PByteArray 0].
Definition succeeded {A} (x : outcome blind_ret * A) : bool := match fst x with Ret (BSuccess _ _ _) => true | _ => false end.
Lemma unread_success : succeeded (blind_transaction_buf toy toy_rand toy_heap unread_aux toy_args toy_tx) = true. Proof. vm_compute. reflexivity. Qed.
Lemma bytes_success : succeeded (blind_transaction toy toy_rand (set_aux toy_args (frozen toy_heap read_aux)) toy_tx) = true. Proof. vm_compute. reflexivity. Qed.
Lemma toy_unread : ~ ReadsArray toy_args unread_aux toy_tx.
Proof.
  intros (i & a & N & R). destruct i as [|[|[|[|i]]]]; try discriminate N; destruct R as [L|(d & D & Z0)]; try (cbn in L; lia); injection D as <-; vm_compute in Z0; discriminate Z0.
Qed.
Lemma toy_read : ReadsArray toy_args read_aux toy_tx.
Proof. exists 2%nat, 0%nat. split; [reflexivity|]. left. apply Nat.leb_le. reflexivity. Qed.
Example C73_ex_bytes : ~ ReadsArray toy_args unread_aux toy_tx /\ succeeded (blind_transaction_buf toy toy_rand toy_heap unread_aux toy_args toy_tx) = true.
Proof. split; [exact toy_unread|exact unread_success]. Qed.
Example C73_ex_array : ReadsArray toy_args read_aux toy_tx /\ succeeded (blind_transaction toy toy_rand (set_aux toy_args (frozen toy_heap read_aux)) toy_tx) = true
  /\ blind_transaction_buf toy toy_rand toy_heap read_aux toy_args toy_tx = (Exc EArgument, mkSt toy_tx 0).
Proof. split; [exact toy_read|]. split; [exact bytes_success|]. vm_compute. reflexivity. Qed.
Definition ex_proof : bytes := b32 5 ++ b32 9 ++ be_bytes 8 1 ++ b32 3 ++ b32 4.
Definition ex_out : txout := mkTxOut (x08 :: b32 16) [] (x0a :: b32 7) [].
Definition proof_heap : heap := fun _ => ex_proof.
Example C73_ex_unblind : (exists asset amount bf abf, txout_unblind toy ex_out (b32 5) ex_proof = Ok (UnblindingSuccess asset amount bf abf))
  /\ txout_unblind (without_rewind toy) ex_out (b32 5) ex_proof = Ok (Failure "unable to rewind rangeproof")
  /\ witness_unblind toy proof_heap ex_out (b32 5) (new_out_witness proof_heap (PBytes []) (PByteArray 3)) = Raise EArgument.
Proof. split; [|split; vm_compute; reflexivity]. eexists. eexists. eexists. eexists. vm_compute. reflexivity. Qed.

(** "Every documented type is accepted": the same 33 bytes blind as bytes and raise as a bytearray. *)
Theorem C73_types_accepted_refuted : exists z rand h b a args t, h a = b
  /\ succeeded (blind_transaction_buf z rand h [PBytes b; PBytes b; PBytes b] args t) = true
  /\ blind_transaction_buf z rand h [PBytes b; PBytes b; PByteArray a] args t = (Exc EArgument, mkSt t 0).
Proof.
  exists toy, toy_rand, toy_heap, aux_bytes, 0%nat, toy_args, toy_tx. split; [reflexivity|]. split; [vm_compute; reflexivity|]. vm_compute. reflexivity.
Qed.
Print Assumptions C73_types_accepted_refuted.
