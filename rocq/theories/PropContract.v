(** Property C71: blind() and unblind only make library calls that the library defines. *)
From Coq Require Import ZArith List Bool Lia.
From Verif Require Import Base BaseFacts Serialize TxModel IssuanceModel MiscModel BlindModel BlindFacts SpecBlind BlindTargets BlindComplete BlindBalance UnblindModel ToyCrypto ToyTx SpecContract ContractProofs.
Import ListNotations.
Local Open Scope Z_scope.

(** The result of blind() and the transaction it leaves depend only on what the library answers to lawful calls:
    every other answer may be changed without effect. *)
Theorem C71_blind_lawful : forall z z' rand args t, SizesOk z -> SameInContract z z' ->
  (forall k, is_32 (rand k)) -> TypedArguments args -> (target_count args t <= max_targets)%nat ->
  blind_transaction z rand args t = blind_transaction z' rand args t.
Proof. intros z z' rand args t SO SC RD TA MX. exact (blind_same z z' SO SC rand args t RD TA MX). Qed.
Print Assumptions C71_blind_lawful.

(** The same for unblinding an output whose asset is explicit or a commitment. *)
Theorem C71_unblind_lawful : forall z z' key cv ca cn script proof, SizesOk z -> SameInContract z z' ->
  is_32 key -> sk_valid z key = true -> (conf_is_commitment CConfAsset ca = true \/ conf_is_explicit CConfAsset ca = true) ->
  unblind_confidential_pair z key cv ca cn script proof = unblind_confidential_pair z' key cv ca cn script proof.
Proof. intros z z' key cv ca cn script proof SO SC. exact (unblind_same z z' SO SC key cv ca cn script proof). Qed.
Print Assumptions C71_unblind_lawful.

(** More targets than the library takes: if it refuses them, a strict call with two or more outputs to blind never succeeds. *)
Theorem C71_too_many_targets : forall z rand args t n bfs abfs s,
  (forall tags m k a it seed, (max_targets < m)%nat -> sp_init z tags m k a it seed = None) ->
  (max_targets < target_count args t)%nat -> a_strict args = true -> ~ stray_key args t -> (2 <= length (output_tasks args))%nat ->
  blind_transaction z rand args t <> (Ret (BSuccess n bfs abfs), s).
Proof.
  intros z rand args t n bfs abfs s REF MX ST NS TWO H. destruct (blind_success z rand args t _ _ _ _ H) as (_ & A & B). destruct (B (A ST NS)) as (targets & TG & C).
  assert (LT : (max_targets < length targets)%nat) by (rewrite (targets_count z args t targets TG); exact MX).
  assert (Q : exists done j, AllBlinded z rand args t targets done (s_tx s) bfs abfs /\ nth_error done 0 = Some j).
  { destruct C as [(X & _)|(pre & j & E & X & _)].
    - destruct (output_tasks args) as [|j l] eqn:E; [cbn in TWO; lia|]. exists (j :: l), j. auto.
    - destruct pre as [|i pre]; [rewrite E in TWO; cbn in TWO; lia|]. exists (i :: pre), i. auto. }
  destruct Q as (done & j & AB & J). destruct (ab_out _ _ _ _ _ _ _ _ _ AB _ _ J) as (bf & abf & o & o' & _ & _ & _ & _ & _ & _ & u & asset & gen & commit & shared & minv & BO).
  destruct BO as (_ & _ & _ & _ & _ & _ & _ & _ & _ & _ & _ & _ & _ & p0 & idx & tg & p & SI & _). rewrite REF in SI by exact LT. discriminate SI.
Qed.
Print Assumptions C71_too_many_targets.

(** * Libraries that answer unlawful calls differently *)
Definition len_is (n : Z) (b : bytes) : bool := blen b =? n.
Definition in_int (v : Z) : bool := (- 2 ^ 31 <=? v) && (v <? 2 ^ 31).
Definition in_u64 (v : Z) : bool := (0 <=? v) && (v <? 2 ^ 64).
(** refuse every call with buffers, integers or counts outside the documented sizes and limits *)
Definition guarded (z : Crypto) : Crypto := mkCrypto (c_hash z) (c_sha z)
  (fun x => if len_is 64 x then c_mid z x else [])
  (fun x => if len_is 33 x then gen_parse z x else None)
  (fun a => if len_is 32 a then gen_generate z a else None)
  (fun a b => if len_is 32 a && len_is 32 b then gen_generate_blinded z a b else None)
  (fun g => if len_is 64 g then gen_serialize z g else None)
  (fun b v g => if len_is 32 b && in_u64 v && len_is 64 g then ped_commit z b v g else None)
  (ped_serialize z)
  (fun x => if len_is 33 x then ped_parse z x else None)
  (fun vs gs bs n k => if (length vs =? n)%nat && (length gs =? n)%nat && (length bs =? n)%nat && (k <? n)%nat && forallb in_u64 vs && forallb (len_is 32) gs && forallb (len_is 32) bs
                       then blind_sum z vs gs bs n k else None)
  (fun minv c b nonce e bits v msg extra g => if in_u64 minv && len_is 32 b && len_is 32 nonce && in_int e && in_int bits && in_u64 v && len_is 64 g
                       then rp_sign z minv c b nonce e bits v msg extra g else None)
  (fun nonce c proof extra g => if len_is 32 nonce && len_is 64 g then rp_rewind z nonce c proof extra g else None)
  (fun tags n k a it seed => if len_is (32 * Z.of_nat n) tags && (k <=? n)%nat && (n <=? max_targets)%nat && len_is 32 a && len_is 32 seed then sp_init z tags n k a it seed else None)
  (fun p buf n gen i ib ob => if len_is (64 * Z.of_nat n) buf && len_is 64 gen && len_is 32 ib && len_is 32 ob then sp_generate z p buf n gen i ib ob else None)
  (sp_verify z) (sp_serialize z) (pk_fullyvalid z)
  (fun k => len_is 32 k && sk_valid z k)
  (fun k => if len_is 32 k && sk_valid z k then sk_pub z k else [])
  (fun k p => if len_is 32 k && sk_valid z k && is_nonempty p && pk_fullyvalid z p then ecdh z k p else None).
Lemma len_is_true n b : len_is n b = true <-> blen b = n. Proof. apply Z.eqb_eq. Qed.
Lemma in_u64_true v : u64 v -> in_u64 v = true.
Proof. unfold u64, in_u64. intros [A B]. apply andb_true_intro. split; [apply Z.leb_le|apply Z.ltb_lt]; assumption. Qed.
Lemma in_int_true v : int_range v -> in_int v = true.
Proof. unfold int_range, in_int. intros [A B]. apply andb_true_intro. split; [apply Z.leb_le|apply Z.ltb_lt]; assumption. Qed.
Lemma all_true {A} (P : A -> Prop) f l : (forall x, P x -> f x = true) -> Forall P l -> forallb f l = true.
Proof. intros H F. apply forallb_forall. intros x I. rewrite Forall_forall in F. auto. Qed.
Lemma generator_len z g : SizesOk z -> LibGenerator z g -> blen g = 64.
Proof. intros SO [(x & _ & E)|[(a & _ & E)|(a & b & _ & _ & E)]]; [exact (so_parse z SO _ _ E)|exact (so_gen z SO _ _ E)|exact (so_genb z SO _ _ _ E)]. Qed.
Lemma guarded_same z : SizesOk z -> SameInContract z (guarded z).
Proof.
  intros SO. assert (GL := generator_len z). assert (L32 : forall x, is_32 x -> len_is 32 x = true) by (intros x; apply len_is_true). assert (L64 : forall g, LibGenerator z g -> len_is 64 g = true) by (intros g G; apply len_is_true; auto).
  constructor; cbn [guarded c_hash c_sha c_mid gen_parse gen_generate gen_generate_blinded gen_serialize ped_commit ped_serialize ped_parse blind_sum rp_sign rp_rewind sp_init sp_generate sp_verify sp_serialize pk_fullyvalid sk_valid sk_pub ecdh]; intros; try reflexivity.
  - rewrite (proj2 (len_is_true 64 x)) by assumption. reflexivity.
  - rewrite (proj2 (len_is_true 33 x)) by assumption. reflexivity.
  - rewrite L32 by assumption. reflexivity.
  - rewrite !L32 by assumption. reflexivity.
  - rewrite L64 by assumption. reflexivity.
  - rewrite L32, in_u64_true, L64 by assumption. reflexivity.
  - rewrite (proj2 (len_is_true 33 x)) by assumption. reflexivity.
  - rewrite (proj2 (Nat.eqb_eq (length vs) n)), (proj2 (Nat.eqb_eq (length gs) n)), (proj2 (Nat.eqb_eq (length bs) n)), (proj2 (Nat.ltb_lt k n)) by assumption.
    rewrite (all_true u64 in_u64 vs), (all_true is_32 (len_is 32) gs), (all_true is_32 (len_is 32) bs) by (assumption || apply in_u64_true). reflexivity.
  - rewrite !in_u64_true, !in_int_true, !L32, L64 by assumption. reflexivity.
  - rewrite L32, L64 by assumption. reflexivity.
  - match goal with H : LawfulInit _ _ _ _ _ _ |- _ => destruct H as (H1 & H2 & H3 & H4 & H5 & _) end. rewrite (proj2 (len_is_true _ tags) H1), (proj2 (Nat.leb_le k n) H2), (proj2 (Nat.leb_le n max_targets) H3), !L32 by assumption. reflexivity.
  - match goal with H : LawfulGenerate _ _ _ _ _ _ _ _ |- _ => destruct H as (_ & (gs & F & LN & ->) & H3 & H4 & H5) end. rewrite !L32, L64 by assumption. rewrite (proj2 (len_is_true _ (concat gs))); [reflexivity|].
    rewrite <- LN. apply concat_len. apply Forall_impl with (2 := F). auto.
  - rewrite L32 by assumption. reflexivity.
  - rewrite L32 by assumption. match goal with H : sk_valid z k = true |- _ => rewrite H end. reflexivity.
  - rewrite L32 by assumption. repeat match goal with H : _ = true |- _ => rewrite H; clear H end. unfold is_nonempty. destruct p; [contradiction|]. reflexivity.
Qed.

Example C71_ex : SizesOk toy /\ SameInContract toy (guarded toy) /\ ped_commit toy (zeros 32) (2 ^ 64) (zeros 64) <> ped_commit (guarded toy) (zeros 32) (2 ^ 64) (zeros 64)
  /\ (forall k, is_32 (toy_rand k)) /\ TypedArguments toy_args /\ target_count toy_args toy_tx = 4%nat
  /\ (exists s bfs abfs, blind_transaction (guarded toy) toy_rand toy_args toy_tx = (Ret (BSuccess 6 bfs abfs), s)).
Proof.
  split; [exact toy_sizes|]. split; [exact (guarded_same toy toy_sizes)|]. split; [vm_compute; discriminate|]. split; [intros k; apply b32_blen|]. split; [repeat constructor; vm_compute; reflexivity|]. split; [vm_compute; reflexivity|].
  eexists. eexists. eexists. vm_compute. reflexivity.
Qed.
Print Assumptions C71_ex.

(** * Calls that are not lawful *)
(** More than 256 targets (here one input and 256 further generators) are handed to the library all the same. *)
Definition many_aux : list bytes := repeat (x0a :: b32 7) 257.
Definition many_args : blind_args := mkArgs [mkDesc asset_A 1000 (b32 12345) (b32 67890)] [toy_pub 901; toy_pub 902] [] [] many_aux None None true.
Definition many_tx : tx := mkTx [toy_in0] [toy_out 700 asset_A [x51]; toy_out 290 asset_A [x51; x51]; toy_out 10 asset_A []] 0 2 (mkTxWit [] []).
(** the toy library with short surjection proofs *)
Definition toy_brief : Crypto := mkCrypto (c_hash toy) (c_sha toy) (c_mid toy) (gen_parse toy) (gen_generate toy) (gen_generate_blinded toy) (gen_serialize toy)
  (ped_commit toy) (ped_serialize toy) (ped_parse toy) (blind_sum toy) (rp_sign toy) (rp_rewind toy) (sp_init toy) (fun _ _ _ _ _ _ _ => Some [x01]) (fun _ _ _ _ => true) (sp_serialize toy)
  (pk_fullyvalid toy) (sk_valid toy) (sk_pub toy) (ecdh toy).
Lemma brief_sizes : SizesOk toy_brief.
Proof. destruct toy_sizes as [S1 S2 S3 S4 S5 S6 S7 S8 S9 S10 S11]. constructor; assumption. Qed.
Definition succeeds {A} (x : outcome blind_ret * A) : bool := match fst x with Ret (BSuccess _ _ _) => true | _ => false end.
Lemma many_brief : succeeds (blind_transaction toy_brief toy_rand many_args many_tx) = true. Proof. vm_compute. reflexivity. Qed.
Lemma many_guarded : succeeds (blind_transaction (guarded toy_brief) toy_rand many_args many_tx) = false. Proof. vm_compute. reflexivity. Qed.
Theorem C71_number_of_targets_checked_refuted : exists z z' rand args t, SizesOk z /\ SameInContract z z' /\ (forall k, is_32 (rand k)) /\ TypedArguments args
  /\ target_count args t = 257%nat /\ blind_transaction z rand args t <> blind_transaction z' rand args t.
Proof.
  exists toy_brief, (guarded toy_brief), toy_rand, many_args, many_tx. split; [exact brief_sizes|]. split; [exact (guarded_same _ brief_sizes)|]. split; [intros k; apply b32_blen|].
  split; [repeat constructor; vm_compute; reflexivity|]. split; [vm_compute; reflexivity|].
  intros E. apply (f_equal succeeds) in E. rewrite many_brief, many_guarded in E. discriminate E.
Qed.
Print Assumptions C71_number_of_targets_checked_refuted.

(** The seed of the surjection proof is not measured: a random function that comes up short there makes the library read beyond it. *)
Definition short_rand (k : nat) : bytes := if (k =? 3)%nat then [x05] else toy_rand k.
Definition plain_args : blind_args := mkArgs [mkDesc asset_A 1000 (b32 12345) (b32 67890)] [toy_pub 901; toy_pub 902] [] [] [] None None true.
Lemma short_brief : succeeds (blind_transaction toy_brief short_rand plain_args many_tx) = true. Proof. vm_compute. reflexivity. Qed.
Lemma short_guarded : succeeds (blind_transaction (guarded toy_brief) short_rand plain_args many_tx) = false. Proof. vm_compute. reflexivity. Qed.
Theorem C71_seed_checked_refuted : exists z z' rand args t, SizesOk z /\ SameInContract z z' /\ TypedArguments args /\ (target_count args t <= max_targets)%nat
  /\ blind_transaction z rand args t <> blind_transaction z' rand args t.
Proof.
  exists toy_brief, (guarded toy_brief), short_rand, plain_args, many_tx. split; [exact brief_sizes|]. split; [exact (guarded_same _ brief_sizes)|].
  split; [repeat constructor; vm_compute; reflexivity|]. split; [apply Nat.leb_le; vm_compute; reflexivity|].
  intros E. apply (f_equal succeeds) in E. rewrite short_brief, short_guarded in E. discriminate E.
Qed.
Print Assumptions C71_seed_checked_refuted.

(** An output without an asset: the library is handed 64 zero bytes as a generator, which no library function returned. *)
Definition no_zero (x : bytes) : bool := bytes_eqb (tl x) (zeros 32).
Definition toy_nz : Crypto := mkCrypto (c_hash toy) (c_sha toy) (c_mid toy) (fun x => if no_zero x then None else gen_parse toy x) (gen_generate toy) (gen_generate_blinded toy) (gen_serialize toy)
  (ped_commit toy) (ped_serialize toy) (ped_parse toy) (blind_sum toy) (rp_sign toy) (rp_rewind toy) (sp_init toy) (sp_generate toy) (sp_verify toy) (sp_serialize toy) (pk_fullyvalid toy) (sk_valid toy) (sk_pub toy) (ecdh toy).
Definition toy_nz' : Crypto := mkCrypto (c_hash toy) (c_sha toy) (c_mid toy) (fun x => if no_zero x then None else gen_parse toy x) (gen_generate toy) (gen_generate_blinded toy) (gen_serialize toy)
  (ped_commit toy) (ped_serialize toy) (ped_parse toy) (blind_sum toy) (rp_sign toy)
  (fun nonce c proof extra g => if bytes_eqb g (zeros 64) then None else rp_rewind toy nonce c proof extra g)
  (sp_init toy) (sp_generate toy) (sp_verify toy) (sp_serialize toy) (pk_fullyvalid toy) (sk_valid toy) (sk_pub toy) (ecdh toy).
Lemma nz_sizes : SizesOk toy_nz.
Proof.
  destruct toy_sizes as [S1 S2 S3 S4 S5 S6 S7 S8 S9 S10 S11].
  constructor; [exact S1|exact S2|exact S3| |exact S5|exact S6|exact S7|exact S8|exact S9|exact S10|exact S11].
  intros x g. cbn [toy_nz gen_parse]. destruct (no_zero x); [discriminate|]. apply S4.
Qed.
Lemma nz_generator g : LibGenerator toy_nz g -> bytes_eqb g (zeros 64) = false.
Proof.
  intros G. destruct (bytes_eqb g (zeros 64)) eqn:E; [|reflexivity]. exfalso. apply bytes_eqb_eq in E. subst g. change (zeros 64) with (zeros 32 ++ zeros 32) in G.
  assert (PT : forall x, toy_point x = Some (zeros 32 ++ zeros 32) -> False).
  { intros x H. apply toy_point_Some in H. destruct H as [H N]. apply app_inv_tail in H. apply (f_equal be_val) in H. rewrite b32_val, be_zeros in H. congruence. }
  destruct G as [(x & _ & H)|[(a & _ & H)|(a & b & _ & _ & H)]]; [|exact (PT _ H)|exact (PT _ H)].
  cbn [toy_nz gen_parse] in H. unfold no_zero in H. destruct (bytes_eqb (tl x) (zeros 32)) eqn:Z0; [discriminate|].
  cbn [toy gen_parse] in H. destruct x as [|c d]; [discriminate|]. destruct c; try discriminate H. destruct (_ && _); [|discriminate H]. assert (D : d ++ zeros 32 = zeros 32 ++ zeros 32) by congruence.
  apply app_inv_tail in D. cbn [tl] in Z0. rewrite D, (proj2 (bytes_eqb_eq _ _) eq_refl) in Z0. discriminate.
Qed.
Lemma nz_same : SameInContract toy_nz toy_nz'.
Proof.
  constructor; intros; try reflexivity. change (rp_rewind toy nonce c proof extra g = if bytes_eqb g (zeros 64) then None else rp_rewind toy nonce c proof extra g). rewrite nz_generator by assumption. reflexivity.
Qed.
Definition blank_proof : bytes := b32 5 ++ b32 9 ++ be_bytes 8 1 ++ zeros 64.
Theorem C71_asset_checked_refuted : exists z z' key cv cn script proof, SizesOk z /\ SameInContract z z' /\ is_32 key /\ sk_valid z key = true
  /\ unblind_confidential_pair z key cv [] cn script proof <> unblind_confidential_pair z' key cv [] cn script proof.
Proof.
  exists toy_nz, toy_nz', (b32 5), (x08 :: b32 9), [], [], blank_proof. split; [exact nz_sizes|]. split; [exact nz_same|]. split; [apply b32_blen|]. split; [vm_compute; reflexivity|]. vm_compute. discriminate.
Qed.
Print Assumptions C71_asset_checked_refuted.

Example C71_ex_unblind : exists r, unblind_confidential_pair toy_nz (b32 5) (x08 :: b32 16) (x0a :: b32 7) [] [] (b32 5 ++ b32 9 ++ be_bytes 8 1 ++ b32 3 ++ b32 4) = Ok r
  /\ unblind_confidential_pair toy_nz' (b32 5) (x08 :: b32 16) (x0a :: b32 7) [] [] (b32 5 ++ b32 9 ++ be_bytes 8 1 ++ b32 3 ++ b32 4) = Ok r /\ (forall s, r <> Failure s).
Proof. eexists. split; [vm_compute; reflexivity|]. split; [vm_compute; reflexivity|]. intros s. discriminate. Qed.
(** Two outputs and 257 targets: the guarded library refuses. *)
Example C71_ex_many : (forall tags m k a it seed, (max_targets < m)%nat -> sp_init (guarded toy) tags m k a it seed = None)
  /\ (max_targets < target_count many_args many_tx)%nat /\ ~ stray_key many_args many_tx /\ length (output_tasks many_args) = 2%nat.
Proof.
  split.
  { intros tags m k a it seed L. cbn [guarded sp_init]. destruct (Nat.leb_spec m max_targets); [lia|]. rewrite !andb_false_r. reflexivity. }
  split; [apply Nat.ltb_lt; vm_compute; reflexivity|]. split; [|vm_compute; reflexivity].
  intros (i & ps & inp & I & _). vm_compute in I. exact I.
Qed.
