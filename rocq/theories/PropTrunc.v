(** Property C72: integers given to blind() are cut to the library's integer types, never refused for their size. *)
From Coq Require Import ZArith List Bool Lia.
From Verif Require Import Base BaseFacts TxModel BlindModel SpecBlind BlindSteps ToyCrypto ToyTx SpecTrunc TruncProofs.
Import ListNotations.
Local Open Scope Z_scope.

(** Amounts are seen modulo 2^64 and range proof parameters modulo 2^32: result, transaction left behind and random draws are the same. *)
Theorem C72_wrapped : forall z rand args args' t, SameButWrapped args args' -> blind_transaction z rand args t = blind_transaction z rand args' t.
Proof. intros z rand args args' t W. exact (blind_wrapped z rand args args' W t). Qed.
Print Assumptions C72_wrapped.

(** Parameters that fit a C int reach every range proof as they are, the defaults being 0 and 52:
    what the library would do for any other parameters has no effect. *)
Theorem C72_parameters : forall z z' rand args t, - 2 ^ 31 <= given_exponent args < 2 ^ 31 -> - 2 ^ 31 <= given_bits args < 2 ^ 31 ->
  SameForParameters (given_exponent args) (given_bits args) z z' -> blind_transaction z rand args t = blind_transaction z' rand args t.
Proof.
  intros z z' rand args t E B (sign & S & ->). assert (I : forall v, - 2 ^ 31 <= v < 2 ^ 31 -> int32 v = v) by (intros v H; unfold int32; rewrite Z.mod_small; lia).
  apply sign_same. rewrite !I by assumption. exact S.
Qed.
Print Assumptions C72_parameters.

Definition wrap_descs (l : list input_desc) : list input_desc := map (fun d => mkDesc (d_asset d) (d_amount d + 2 ^ 64) (d_bf d) (d_abf d)) l.
Definition wrap_args : blind_args := mkArgs (wrap_descs (a_descs toy_args)) (a_pubkeys toy_args) (a_asset_keys toy_args) (a_token_keys toy_args) (a_aux toy_args) (Some (2 ^ 32)) (Some (52 - 2 ^ 32)) true.
Definition plain_ct_args : blind_args := mkArgs (a_descs toy_args) (a_pubkeys toy_args) (a_asset_keys toy_args) (a_token_keys toy_args) (a_aux toy_args) (Some 0) (Some 52) true.
Lemma wrap_same : SameButWrapped wrap_args plain_ct_args.
Proof.
  constructor; try reflexivity.
  - assert (F : Forall (fun d => 0 <= d_amount d) (a_descs toy_args)) by (apply Forall_forall; intros d I; apply Z.leb_le; revert d I; apply forallb_forall; vm_compute; reflexivity).
    cbn [wrap_args plain_ct_args a_descs]. revert F. generalize (a_descs toy_args). intros l F. induction F as [|d l H F IH]; [constructor|]. cbn [wrap_descs map]. constructor; [|exact IH].
    unfold SameInput. cbn [d_asset d_bf d_abf d_amount]. repeat split; try reflexivity; try lia. exists 1. lia.
  - exists 1. reflexivity.
  - exists (-1). reflexivity.
Qed.
(** the library of which the range proofs are void unless made for exponent 0 and 52 bits *)
Definition only_default : Crypto := mkCrypto (c_hash toy) (c_sha toy) (c_mid toy) (gen_parse toy) (gen_generate toy) (gen_generate_blinded toy) (gen_serialize toy) (ped_commit toy) (ped_serialize toy) (ped_parse toy) (blind_sum toy)
  (fun minv c bl nonce e b v msg extra g => if (e =? 0) && (b =? 52) then rp_sign toy minv c bl nonce e b v msg extra g else None)
  (rp_rewind toy) (sp_init toy) (sp_generate toy) (sp_verify toy) (sp_serialize toy) (pk_fullyvalid toy) (sk_valid toy) (sk_pub toy) (ecdh toy).
Definition count_of {A} (x : outcome blind_ret * A) : option nat := match fst x with Ret (BSuccess n _ _) => Some n | _ => None end.
Lemma default_success : count_of (blind_transaction only_default toy_rand toy_args toy_tx) = Some 6%nat. Proof. vm_compute. reflexivity. Qed.
Lemma plain_success : count_of (blind_transaction toy toy_rand plain_ct_args toy_tx) = Some 6%nat. Proof. vm_compute. reflexivity. Qed.
Lemma wrap_success : count_of (blind_transaction toy toy_rand wrap_args toy_tx) = Some 6%nat.
Proof. exact (eq_trans (f_equal count_of (C72_wrapped toy toy_rand wrap_args plain_ct_args toy_tx wrap_same)) plain_success). Qed.
(** the library that makes every range proof but those *)
Definition never_default : Crypto := mkCrypto (c_hash toy) (c_sha toy) (c_mid toy) (gen_parse toy) (gen_generate toy) (gen_generate_blinded toy) (gen_serialize toy) (ped_commit toy) (ped_serialize toy) (ped_parse toy) (blind_sum toy)
  (fun minv c bl nonce e b v msg extra g => if (e =? 0) && (b =? 52) then None else rp_sign toy minv c bl nonce e b v msg extra g)
  (rp_rewind toy) (sp_init toy) (sp_generate toy) (sp_verify toy) (sp_serialize toy) (pk_fullyvalid toy) (sk_valid toy) (sk_pub toy) (ecdh toy).
Lemma never_success : count_of (blind_transaction never_default toy_rand wrap_args toy_tx) = None. Proof. vm_compute. reflexivity. Qed.
Definition one_bit_args : blind_args := mkArgs (a_descs toy_args) (a_pubkeys toy_args) (a_asset_keys toy_args) (a_token_keys toy_args) (a_aux toy_args) None (Some 51) true.
Lemma other_fails : count_of (blind_transaction only_default toy_rand one_bit_args toy_tx) = None. Proof. vm_compute. reflexivity. Qed.

Example C72_ex : SameButWrapped wrap_args plain_ct_args /\ wrap_args <> plain_ct_args /\ count_of (blind_transaction toy toy_rand plain_ct_args toy_tx) = Some 6%nat.
Proof. split; [exact wrap_same|]. split; [|exact plain_success]. intros E. apply (f_equal a_ct_exponent) in E. vm_compute in E. discriminate E. Qed.
Example C72_ex_parameters : given_exponent toy_args = 0 /\ given_bits toy_args = 52 /\ SameForParameters 0 52 toy only_default
  /\ count_of (blind_transaction only_default toy_rand toy_args toy_tx) = Some 6%nat /\ count_of (blind_transaction only_default toy_rand one_bit_args toy_tx) = None.
Proof.
  split; [reflexivity|]. split; [reflexivity|]. split; [|split; [exact default_success|exact other_fails]].
  exists (rp_sign only_default). split; [|reflexivity]. intros. reflexivity.
Qed.

(** "Too large an amount is refused": inputs said to hold 2^64 more than they do are blinded with success. *)
Theorem C72_large_amount_refused_refuted : exists z rand args t n,
  (forall d, In d (a_descs args) -> 2 ^ 64 <= d_amount d) /\ a_descs args <> [] /\ count_of (blind_transaction z rand args t) = Some n /\ (0 < n)%nat.
Proof.
  exists toy, toy_rand, wrap_args, toy_tx, 6%nat. split.
  { intros d I. apply Z.leb_le. revert d I. apply forallb_forall. vm_compute. reflexivity. }
  split; [intros E; apply (f_equal (@length input_desc)) in E; vm_compute in E; discriminate E|]. split; [|lia]. exact wrap_success.
Qed.
Print Assumptions C72_large_amount_refused_refuted.
(** "The parameters reach the library as given": 2^32 and 52 - 2^32 arrive as 0 and 52. *)
Theorem C72_parameters_as_given_refuted : exists z z' rand args t,
  SameForParameters (given_exponent args) (given_bits args) z z' /\ blind_transaction z rand args t <> blind_transaction z' rand args t.
Proof.
  exists toy, never_default, toy_rand, wrap_args, toy_tx. split.
  { exists (rp_sign never_default). split; [intros; reflexivity|reflexivity]. }
  intros E. apply (f_equal count_of) in E. rewrite wrap_success, never_success in E. discriminate E.
Qed.
Print Assumptions C72_parameters_as_given_refuted.
