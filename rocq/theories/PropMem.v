(** Property C99: blind() and unblind through memory: what is read and written there. *)
From Coq Require Import ZArith List Bool Lia.
From Verif Require Import Base BaseFacts TxModel BlindModel SpecBlind UnblindModel CommModel ToyCrypto ToyTx SpecContract ContractProofs SpecMem MemModel MemProofs.
Import ListNotations.
Local Open Scope Z_scope.

(** Whatever objects there are in memory and whichever of them are handed over, whatever the library leaves in buffers when it fails, and
    whatever happened after a read or write out of bounds, a write into a bytes object or a change of an object that was there before:
    blind() has the same outcome and leaves the same transaction as with the functions computed from the values. *)
Theorem C99_blind : forall z rand args t junk m0 share ub ur ui uo, SizesOk z -> OutputsFit z ->
  (forall k, is_32 (rand k)) -> TypedArguments args -> (target_count args t <= max_targets)%nat ->
  blind_transaction (through_memory z junk m0 share ub ur ui uo) rand args t = blind_transaction z rand args t.
Proof.
  intros z rand args t junk m0 share ub ur ui uo SO OF RD TA MX. symmetry.
  exact (blind_same z _ SO (same_through_memory z junk m0 share SO OF ub ur ui uo) rand args t RD TA MX).
Qed.
Theorem C99_unblind : forall z key cv ca cn script proof junk m0 share ub ur ui uo, SizesOk z -> OutputsFit z ->
  is_32 key -> sk_valid z key = true -> (conf_is_commitment CConfAsset ca = true \/ conf_is_explicit CConfAsset ca = true) ->
  unblind_confidential_pair (through_memory z junk m0 share ub ur ui uo) key cv ca cn script proof = unblind_confidential_pair z key cv ca cn script proof.
Proof.
  intros z key cv ca cn script proof junk m0 share ub ur ui uo SO OF. intros K V A. symmetry.
  exact (unblind_same z _ SO (same_through_memory z junk m0 share SO OF ub ur ui uo) key cv ca cn script proof K V A).
Qed.
Theorem C99_commitment : forall z a junk m0 share ub ur ui uo, SizesOk z -> OutputsFit z -> is_32 a ->
  to_commitment (through_memory z junk m0 share ub ur ui uo) a = to_commitment z a.
Proof.
  intros z a junk m0 share ub ur ui uo SO OF A. assert (S := same_through_memory z junk m0 share SO OF ub ur ui uo). unfold to_commitment.
  rewrite <- (sc_gen _ _ S a A). destruct (gen_generate z a) as [g|] eqn:E; [|reflexivity]. rewrite <- (sc_genser _ _ S g); [reflexivity|]. right. left. eauto.
Qed.
(** The step that balances the factors, 1639-1680, where the library overwrites one of the factors it is given: every object keeps its
    contents, even if several factors are the same object, and the result is the factor computed. *)
Theorem C99_factors_kept : forall z junk m vs ga gs ba bs n k, SizesOk z -> Forall2 (holds m) ga gs -> Forall2 (holds m) ba bs ->
  length vs = n -> length gs = n -> length bs = n -> (k < n)%nat -> Forall is_32 gs -> Forall is_32 bs ->
  exists m', py_blind_sum z junk vs ga ba n k m = Some (blind_sum z vs gs bs n k, m') /\ forall a o, nth_error m a = Some o -> nth_error m' a = Some o.
Proof.
  intros z junk m vs ga gs ba bs n k SO HG HB LV LG LB KN FG FB.
  destruct (blind_sum_yields z junk (fun _ => true) SO m vs ga gs ba bs n k HG HB LV LG LB KN FG FB) as (m' & E & x & ->). exists (m ++ x). split; [exact E|].
  intros a o H. rewrite nth_error_app1; [exact H|]. apply nth_error_Some. congruence.
Qed.

(** The example library, with the lengths of what it writes limited *)
Definition fitting (z : Crypto) : Crypto := mkCrypto (c_hash z) (c_sha z) (c_mid z) (gen_parse z) (gen_generate z) (gen_generate_blinded z) (gen_serialize z)
  (ped_commit z) (ped_serialize z) (fun x => match ped_parse z x with Some c => if blen c =? 64 then Some c else None | None => None end) (blind_sum z)
  (fun minv c b nonce e bits v msg extra g => match rp_sign z minv c b nonce e bits v msg extra g with Some p => if blen p <=? 5134 then Some p else None | None => None end)
  (fun nonce c proof extra g => match rp_rewind z nonce c proof extra g with Some (b, v, msg) => if (blen b =? 32) && (blen msg <=? 4096) then Some (b, v, msg) else None | None => None end)
  (sp_init z) (sp_generate z) (sp_verify z) (fun p => if blen (sp_serialize z p) <? 2 ^ 31 then sp_serialize z p else [])
  (pk_fullyvalid z) (sk_valid z) (sk_pub z) (ecdh z).
Lemma fitting_fits z : OutputsFit (fitting z).
Proof.
  constructor; cbn [fitting ped_parse rp_sign rp_rewind sp_serialize].
  - intros x c. destruct (ped_parse z x) as [d|]; [|discriminate]. destruct (Z.eqb_spec (blen d) 64); [|discriminate]. congruence.
  - intros minv c b nonce e bits v msg extra g p. destruct (rp_sign _ _ _ _ _ _ _ _ _ _ _) as [q|]; [|discriminate]. destruct (Z.leb_spec (blen q) 5134); [|discriminate]. congruence.
  - intros nonce c proof extra g b v msg. destruct (rp_rewind _ _ _ _ _ _) as [[[b' v'] msg']|]; [|discriminate].
    destruct (Z.eqb_spec (blen b') 32); [|discriminate]. destruct (Z.leb_spec (blen msg') 4096); [|discriminate]. cbn [andb]. intros E. injection E as <- <- <-. auto.
  - intros p. destruct (Z.ltb_spec (blen (sp_serialize z p)) (2 ^ 31)); [assumption|reflexivity].
Qed.
Lemma fitting_sizes z : SizesOk z -> SizesOk (fitting z).
Proof. intros [S1 S2 S3 S4 S5 S6 S7 S8 S9 S10 S11]. constructor; assumption. Qed.

(** blind() of the example transaction, memory holding the null factor, everything shared, undefined results being failures *)
Example C99_ex1 : SizesOk (fitting toy) /\ OutputsFit (fitting toy) /\ (forall k, is_32 (toy_rand k)) /\ TypedArguments toy_args /\ (target_count toy_args toy_tx <= max_targets)%nat
  /\ exists s bfs abfs, blind_transaction (through_memory (fitting toy) [x05] [mkObj false (zeros 32); mkObj true (zeros 64)] (fun _ => true) None None None false) toy_rand toy_args toy_tx
     = (Ret (BSuccess 6 bfs abfs), s).
Proof.
  assert (S := fitting_sizes _ toy_sizes). assert (F := fitting_fits toy). assert (R : forall k, is_32 (toy_rand k)) by (intros k; apply b32_blen).
  assert (T : TypedArguments toy_args) by (repeat constructor; vm_compute; reflexivity).
  assert (M : (target_count toy_args toy_tx <= max_targets)%nat) by (vm_compute; repeat constructor).
  split; [exact S|]. split; [exact F|]. split; [exact R|]. split; [exact T|]. split; [exact M|].
  rewrite (C99_blind _ _ _ _ _ _ _ _ _ _ _ S F R T M). eexists. eexists. eexists. vm_compute. reflexivity.
Qed.
(** One factor twice: the object is the same, and is not overwritten *)
Example C99_ex2 : let m := [mkObj false (b32 7)] in
  py_blind_sum toy [] [5; 6; 7] [O; O; O] [O; O; O] 3 1 m = Some (blind_sum toy [5; 6; 7] [b32 7; b32 7; b32 7] [b32 7; b32 7; b32 7] 3 1, m ++ [mkObj true (b32 (-56))])
  /\ b32 (-56) <> b32 7.
Proof. split; [vm_compute; reflexivity|vm_compute; discriminate]. Qed.
(** The copy of the last factor (1644-1653) and the count of the factors (1659) matter: without the copy, or with a smaller count, the
    library would write into a bytes object. *)
Example C99_ex3 : let m := [mkObj false (b32 7); mkObj true (b32 7)] in
  c_blind_sum toy [] [5; 6; 7] [O; O; O] [O; O; O] 3 1 m = None
  /\ c_blind_sum toy [] [5; 6; 7] [O; O; O] [O; O; 1%nat] 2 1 m = None
  /\ c_blind_sum toy [] [5; 6; 7] [O; O; O] [O; O; 1%nat] 4 1 m = None
  /\ c_blind_sum toy [] [5; 6; 7] [O; O; O] [O; O; 1%nat] 3 1 m <> None.
Proof. vm_compute. repeat split; discriminate. Qed.

Print Assumptions C99_blind.
Print Assumptions C99_unblind.
Print Assumptions C99_commitment.
Print Assumptions C99_factors_kept.
