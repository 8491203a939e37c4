(** Property C41: asset ids, token ids and issuance entropies. *)
From Verif Require Import Base BaseFacts Serialize TxModel IssuanceModel TxProofs.
From Coq Require Import Lia.
Local Open Scope Z_scope.

(** Two different inputs of the same length with the same image. *)
Definition Collision (f : bytes -> bytes) (n : nat) : Prop := exists x y, length x = n /\ length y = n /\ x <> y /\ f x = f y.
(** The 32-byte constants: 0 for the asset, 1 and 2 for its explicit and confidential reissuance token. *)
Inductive kind := KAsset | KToken (confidential : bool).
Definition kind_tag (k : kind) : bytes := (match k with KAsset => x00 | KToken false => x01 | KToken true => x02 end) :: repeat x00 31.
(** The call that computes the id of a kind. *)
Definition id_of (mid : bytes -> bytes) (e : bytes) (k : kind) : res bytes :=
  match k with KAsset => calculate_asset mid e | KToken c => calculate_reissuance_token mid e c end.

(** Exactly what is computed: the compression of entropy and tag; ValueError for other lengths. *)
Theorem C41_id_value : forall mid e k, (forall x, length x = 64%nat -> length (mid x) = 32%nat) ->
  (length e = 32%nat -> id_of mid e k = Ok (mid (e ++ kind_tag k)))
  /\ (length e <> 32%nat -> id_of mid e k = Raise EValue).
Proof.
  intros mid e k M. split; intros L.
  - assert (U : uint256_new (mid (e ++ kind_tag k)) = Ok (mid (e ++ kind_tag k))).
    { unfold uint256_new. rewrite (proj2 (Z.eqb_eq _ _)); [reflexivity|]. unfold blen. rewrite M; [reflexivity|]. rewrite app_length, L. destruct k as [|[]]; reflexivity. }
    assert (B : blen e =? 32 = true) by (apply Z.eqb_eq; unfold blen; rewrite L; reflexivity).
    destruct k as [|[]]; cbn [id_of]; unfold calculate_asset, calculate_reissuance_token; rewrite B; exact U.
  - assert (B : blen e =? 32 = false) by (apply Z.eqb_neq; unfold blen; lia).
    destruct k as [|c]; cbn [id_of]; unfold calculate_asset, calculate_reissuance_token; rewrite B; reflexivity.
Qed.

Lemma id_inv mid e k a : id_of mid e k = Ok a -> length e = 32%nat /\ a = mid (e ++ kind_tag k).
Proof.
  intros H. assert (blen e = 32 /\ a = mid (e ++ kind_tag k)) as [L ->].
  { destruct k as [|[]]; cbn [id_of] in H; unfold calculate_asset, calculate_reissuance_token in H; destruct (Z.eqb_spec (blen e) 32) as [L|]; try discriminate;
      unfold uint256_new in H; destruct (_ =? 32) in H; try discriminate; apply Ok_inj in H; auto. }
  split; [unfold blen in L; lia|reflexivity].
Qed.

(** Equal ids: same entropy and same kind, or a collision of the compression function has been found. *)
Theorem C41_ids_bound : forall mid e1 k1 e2 k2 a,
  id_of mid e1 k1 = Ok a -> id_of mid e2 k2 = Ok a -> (e1 = e2 /\ k1 = k2) \/ Collision mid 64.
Proof.
  intros mid e1 k1 e2 k2 a H1 H2. apply id_inv in H1. apply id_inv in H2. destruct H1 as [L1 ->], H2 as [L2 E].
  destruct (bytes_eqb (e1 ++ kind_tag k1) (e2 ++ kind_tag k2)) eqn:B.
  - left. apply bytes_eqb_eq in B. assert (X : e1 = e2 /\ kind_tag k1 = kind_tag k2).
    { apply (app_inj_len) in B; [exact B|congruence]. }
    destruct X as [-> X]. split; [reflexivity|]. destruct k1 as [|[]], k2 as [|[]]; try reflexivity; discriminate.
  - right. exists (e1 ++ kind_tag k1), (e2 ++ kind_tag k2). rewrite !app_length, L1, L2.
    split; [destruct k1 as [|[]]; reflexivity|]. split; [destruct k2 as [|[]]; reflexivity|]. split; [|exact E].
    intros C. apply bytes_eqb_eq in C. congruence.
Qed.

(** Entropies: same outpoint and contract hash, or a collision of the compression function, or of Hash. *)
Theorem C41_entropy_bound : forall Hash mid p1 c1 p2 c2 e,
  (forall x, length (Hash x) = 32%nat) ->
  generate_asset_entropy Hash mid p1 c1 = Ok e -> generate_asset_entropy Hash mid p2 c2 = Ok e ->
  (op_hash p1 = op_hash p2 /\ op_n p1 = op_n p2 /\ c1 = c2) \/ Collision mid 64 \/ Collision Hash 36.
Proof.
  assert (INV : forall Hash mid p c e, generate_asset_entropy Hash mid p c = Ok e ->
    exists n, length c = 32%nat /\ length (op_hash p) = 32%nat /\ length n = 4%nat /\ le_val n = op_n p /\ e = mid (Hash (op_hash p ++ n) ++ c)).
  { intros Hash mid p c e H. unfold generate_asset_entropy in H. apply rbind_Ok in H. destruct H as ([] & H0 & H). apply rassert_Ok in H0. apply Z.eqb_eq in H0.
    apply rbind_Ok in H. destruct H as (b & Hb & H). unfold ser_outpoint in Hb. destruct (negb (blen (op_hash p) =? 32)) eqn:L; [discriminate|].
    apply negb_false_iff, Z.eqb_eq in L. apply rbind_Ok in Hb. destruct Hb as (n & Hn & Hb). apply Ok_inj in Hb. subst b.
    apply pack_le_iff in Hn. destruct Hn as [Hn1 Hn2]. unfold uint256_new in H. destruct (_ =? 32) in H; [|discriminate]. apply Ok_inj in H.
    exists n. unfold blen in *. split; [lia|]. split; [lia|]. auto. }
  intros Hash mid p1 c1 p2 c2 e HL H1 H2. apply INV in H1. apply INV in H2.
  destruct H1 as (n1 & C1 & P1 & N1 & V1 & ->), H2 as (n2 & C2 & P2 & N2 & V2 & E).
  destruct (bytes_eqb (Hash (op_hash p1 ++ n1) ++ c1) (Hash (op_hash p2 ++ n2) ++ c2)) eqn:B.
  - apply bytes_eqb_eq in B. apply app_inj_len in B; [|rewrite !HL; reflexivity]. destruct B as [B ->].
    destruct (bytes_eqb (op_hash p1 ++ n1) (op_hash p2 ++ n2)) eqn:Q.
    + apply bytes_eqb_eq in Q. apply app_inj_len in Q; [|congruence]. destruct Q as [Q ->]. left. repeat split; congruence.
    + right. right. exists (op_hash p1 ++ n1), (op_hash p2 ++ n2). rewrite !app_length, P1, P2, N1, N2. repeat split; [|exact B]. intros X. apply bytes_eqb_eq in X. congruence.
  - right. left. exists (Hash (op_hash p1 ++ n1) ++ c1), (Hash (op_hash p2 ++ n2) ++ c2). rewrite !app_length, !HL, C1, C2. repeat split; [|exact E]. intros X. apply bytes_eqb_eq in X. congruence.
Qed.
(** When generate_asset_entropy returns: 32-byte contract hash and a valid outpoint; the value is spelled out. *)
Theorem C41_entropy_value : forall Hash mid p c, (forall x, length (mid x) = 32%nat) ->
  length c = 32%nat -> length (op_hash p) = 32%nat -> 0 <= op_n p < 2 ^ 32 ->
  exists n, length n = 4%nat /\ le_val n = op_n p /\ generate_asset_entropy Hash mid p c = Ok (mid (Hash (op_hash p ++ n) ++ c)).
Proof.
  intros Hash mid p c M C P N. destruct (le_int_ex 4 (op_n p)) as [n Hn]; [exact N|]. exists n. assert (Hn' := Hn).
  destruct Hn' as [Hn1 Hn2]. split; [exact Hn1|]. split; [exact Hn2|].
  unfold generate_asset_entropy, rassert, ser_outpoint, blen. rewrite C, P. cbn [rbind negb Z.eqb Z.of_nat Pos.of_succ_nat Pos.succ Pos.eqb].
  rewrite (proj2 (pack_le_iff 4 (op_n p) n) Hn). cbn [rbind]. unfold uint256_new, blen. rewrite M. reflexivity.
Qed.
Theorem C41_contract_hash_length : forall Hash mid p c, length c <> 32%nat -> generate_asset_entropy Hash mid p c = Raise EAssert.
Proof.
  intros Hash mid p c C. unfold generate_asset_entropy, rassert. rewrite (proj2 (Z.eqb_neq _ _)) by (unfold blen; lia). reflexivity.
Qed.

(** A compression function without collisions on what is hashed below: keep the first 31 bytes and byte 33. *)
Definition mid_ex (x : bytes) : bytes := firstn 31 x ++ firstn 1 (skipn 32 x).
Example C41_ex : id_of mid_ex (repeat x07 32) KAsset = Ok (repeat x07 31 ++ [x00])
  /\ id_of mid_ex (repeat x07 32) (KToken true) = Ok (repeat x07 31 ++ [x02])
  /\ (forall x, length x = 64%nat -> length (mid_ex x) = 32%nat)
  /\ generate_asset_entropy (fun _ => repeat x05 32) mid_ex (mkOutPoint (repeat x01 32) 7) (repeat x09 32) = Ok (repeat x05 31 ++ [x09]).
Proof.
  split; [reflexivity|]. split; [reflexivity|]. split; [|reflexivity]. intros x L. unfold mid_ex. rewrite app_length, !firstn_length, skipn_length, L. reflexivity.
Qed.

Print Assumptions C41_id_value.
Print Assumptions C41_ids_bound.
Print Assumptions C41_entropy_bound.
Print Assumptions C41_entropy_value.
Print Assumptions C41_contract_hash_length.
