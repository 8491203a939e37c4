(** C76: the commitment of an asset stands for the asset. *)
From Verif Require Import Base BaseFacts Serialize TxModel MiscModel BlindModel BlindFacts UnblindModel CommModel SpecBlind SpecUnblind SpecFault SpecNode PropFault ToyCrypto ToyTx ToyUnblind PropUnblind.
Import ListNotations.
Local Open Scope Z_scope.

(** There is a commitment, or ValueError: the library does not make a generator of the asset. *)
Theorem C76_total : forall z a, CodecLaws z ->
  (exists c, to_commitment z a = Ok c) \/ (to_commitment z a = Raise EValue /\ gen_generate z a = None).
Proof.
  intros z a CL. unfold to_commitment. destruct (gen_generate z a) as [g|] eqn:G; [|auto]. left.
  destruct (cl_ser z CL a (zeros 32) g) as [s S]; [apply (cl_zero z CL); exact G|]. rewrite S. eauto.
Qed.
(** With a library of any behaviour: the serialised generator, ValueError without a generator, RuntimeError if it is not serialised. *)
Theorem C76_exact : forall z a r, to_commitment z a = r <->
  (gen_generate z a = None /\ r = Raise EValue)
  \/ exists g, gen_generate z a = Some g /\
      ((gen_serialize z g = None /\ r = Raise ERuntime) \/ exists c, gen_serialize z g = Some c /\ r = Ok c).
Proof.
  intros z a r. unfold to_commitment. destruct (gen_generate z a) as [g|].
  - destruct (gen_serialize z g) as [c|] eqn:S; split.
    + intros <-. right. exists g. eauto 6.
    + intros [[E _]|(g' & E & [[N _]|(c' & C & ->)])]; [discriminate E| |]; injection E as <-; congruence.
    + intros <-. right. exists g. auto.
    + intros [[E _]|(g' & E & [[N ->]|(c' & C & _)])]; [discriminate E| |]; injection E as <-; congruence.
  - split; [intros <-; auto|]. intros [[_ ->]|(g & E & _)]; [reflexivity|discriminate E].
Qed.
(** It has the form of a confidential asset. *)
Theorem C76_form : forall z a c, SizesOk z -> to_commitment z a = Ok c ->
  conf_new CConfAsset c = Ok c /\ conf_is_commitment CConfAsset c = true /\ conf_is_explicit CConfAsset c = false /\ conf_is_null c = false.
Proof.
  intros z a c SZ E. unfold to_commitment in E. destruct (gen_generate z a) as [g|]; [|discriminate E]. destruct (gen_serialize z g) as [s|] eqn:S; [|discriminate E].
  injection E as ->. destruct (so_genser z SZ _ _ S) as (d & L & [-> | ->]);
    assert (L' : blen (x0a :: d) = 33 /\ blen (x0b :: d) = 33) by (unfold blen in *; cbn [length]; lia); destruct L' as [La Lb];
    unfold conf_new, conf_is_commitment, conf_is_explicit, conf_is_null; rewrite ?La, ?Lb; repeat split; reflexivity.
Qed.
(** It is what blinding with a zero factor gives. *)
Theorem C76_zero_factor : forall z a c s, SizesOk z -> CodecLaws z ->
  to_commitment z a = Ok c -> exists g, blinded_asset z a (zeros 32) s = (Val (c, g), s).
Proof.
  intros z a c s SZ CL E. destruct (C76_form z a c SZ E) as (N & K & _). unfold to_commitment in E. destruct (gen_generate z a) as [g|] eqn:G; [|discriminate E].
  destruct (gen_serialize z g) as [x|] eqn:S; [|discriminate E]. injection E as ->. exists g. unfold blinded_asset.
  apply (cl_zero z CL) in G. rewrite G. cbn. unfold mbind, mret. rewrite S. cbn [lib_call mret]. rewrite N. cbn [lift mret].
  unfold conf_is_valid. rewrite K, !orb_true_r. reflexivity.
Qed.
(** Unblinding cannot tell an output with the asset from one with its commitment. *)
Theorem C76_unblind : forall z key confValue a c confNonce script rangeproof, SizesOk z -> CodecLaws z -> length a = 32%nat ->
  to_commitment z a = Ok c ->
  unblind_confidential_pair z key confValue (x01 :: a) confNonce script rangeproof = unblind_confidential_pair z key confValue c confNonce script rangeproof.
Proof.
  intros z key confValue a c confNonce script rangeproof SZ CL LA E. destruct (C76_form z a c SZ E) as (_ & K & _).
  assert (GE : unblind_generator z (x01 :: a) = unblind_generator z c).
  { unfold to_commitment in E. destruct (gen_generate z a) as [g|] eqn:G; [|discriminate E]. destruct (gen_serialize z g) as [s|] eqn:S; [|discriminate E]. injection E as ->.
    unfold unblind_generator at 2. rewrite K. rewrite (cl_gen z CL a (zeros 32) g c (proj2 (cl_zero z CL a g) G) S).
    unfold unblind_generator, conf_is_commitment, conf_is_explicit, to_asset. assert (L : blen (x01 :: a) = 33) by (unfold blen; cbn [length]; lia).
    rewrite L. cbn. assert (L' : blen a =? 32 = true) by (apply Z.eqb_eq; unfold blen; lia). unfold uint256_new. cbn. 
    unfold conf_is_explicit; rewrite ?L; cbn. rewrite ?L'. cbn. rewrite G. reflexivity. }
  unfold unblind_confidential_pair. rewrite GE. reflexivity.
Qed.
(** As an auxiliary generator it is never refused... *)
Theorem C76_auxiliary : forall z rand args t i a c s, CodecLaws z ->
  nth_error (a_aux args) i = Some c -> to_commitment z a = Ok c ->
  blind_transaction z rand args t <> (Ret (BFailure (F_aux_invalid i)), s).
Proof.
  intros z rand args t i a c s CL AX E B. unfold to_commitment in E. destruct (gen_generate z a) as [g|] eqn:G; [|discriminate E]. destruct (gen_serialize z g) as [x|] eqn:S; [|discriminate E]. injection E as ->.
  assert (P := cl_gen z CL a (zeros 32) g c (proj2 (cl_zero z CL a g) G) S).
  destruct (C69_failure_names_first _ _ _ _ _ _ B) as [F|(_ & _ & ? & ? & X & _)]; [|discriminate X]. destruct F as (p & j & k & F & _). inversion F; subst; congruence.
Qed.
(** ... and it is what C68 asks of a party that does not describe an input whose asset is explicit. *)
Theorem C76_knows : forall z args i u a c d, nAsset u = x01 :: a -> length a = 32%nat -> to_commitment z a = Ok c ->
  nth_error (a_descs args) i = Some d -> d_asset d = zeros 32 -> nth_error (a_aux args) i = Some c -> Knows z args i u.
Proof.
  intros z args i u a c d NA LA E D DA AX. exists d. split; [exact D|]. right. split; [exact DA|]. exists c. split; [exact AX|]. right.
  unfold to_commitment in E. destruct (gen_generate z a) as [g|] eqn:G; [|discriminate E]. destruct (gen_serialize z g) as [x|] eqn:S; [|discriminate E]. injection E as ->. eauto 6.
Qed.

(** Non-vacuity: the issuance of the example of C49 read with the issued asset and with its commitment; an asset without generator. *)
Example C76_ex : SizesOk toy /\ CodecLaws toy /\ length asset_I = 32%nat
  /\ exists c, to_commitment toy asset_I = Ok c
  /\ match nth_error (vin toy_after) 1 with
     | Some i' => is_success asset_I 500 (unblind_confidential_pair toy (b32 5001) (iss_field false i') (x01 :: asset_I) [] [] (iss_proof false (inwit_at toy_after 1)))
                  && is_success asset_I 500 (unblind_confidential_pair toy (b32 5001) (iss_field false i') c [] [] (iss_proof false (inwit_at toy_after 1)))
     | None => false end = true.
Proof.
  split; [exact toy_sizes|]. split; [exact toy_codec|]. split; [reflexivity|]. exists (x0a :: b32 (be_val asset_I)). split; vm_compute; reflexivity.
Qed.
Example C76_ex2 : to_commitment toy (zeros 32) = Raise EValue.
Proof. reflexivity. Qed.
(** An input whose asset is explicit, described by the commitment of its asset alone. *)
Example C76_ex3 : exists c, to_commitment toy asset_A = Ok c
  /\ Knows toy (mkArgs [mkDesc (zeros 32) 0 (zeros 32) (zeros 32)] [] [] [] [c] None None true) 0 (toy_out 7 asset_A [x51]).
Proof. eexists. split; [vm_compute; reflexivity|]. eapply C76_knows; try reflexivity. Qed.

Print Assumptions C76_total.
Print Assumptions C76_exact.
Print Assumptions C76_form.
Print Assumptions C76_zero_factor.
Print Assumptions C76_unblind.
Print Assumptions C76_auxiliary.
Print Assumptions C76_knows.
