(** Specification: the calling contract of libsecp256k1-zkp.

    Two libraries are [SameInContract] if they give the same answers to every call that respects the documented
    sizes of buffers, ranges of integers, limits, and the rule that generators, commitments and proofs handed to the
    library were made by it. Nothing is said about other calls, whose outcome the library leaves undefined. *)
From Coq Require Import ZArith List.
From Verif Require Import Base TxModel BlindModel.
Import ListNotations.
Local Open Scope Z_scope.

Definition u64 (v : Z) : Prop := 0 <= v < 2 ^ 64.
Definition int_range (v : Z) : Prop := - 2 ^ 31 <= v < 2 ^ 31.
Definition is_32 (b : bytes) : Prop := blen b = 32.
(** SECP256K1_SURJECTIONPROOF_MAX_N_INPUTS *)
Definition max_targets : nat := 256.

Section Contract.
Variable z : Crypto.
Definition LibGenerator (g : bytes) : Prop :=
  (exists x, blen x = 33 /\ gen_parse z x = Some g)
  \/ (exists a, is_32 a /\ gen_generate z a = Some g)
  \/ (exists a b, is_32 a /\ is_32 b /\ gen_generate_blinded z a b = Some g).
Definition LibCommitment (c : bytes) : Prop :=
  (exists x, blen x = 33 /\ ped_parse z x = Some c)
  \/ (exists b v g, is_32 b /\ u64 v /\ LibGenerator g /\ ped_commit z b v g = Some c).
(** [n] generators one after the other *)
Definition PackedGenerators (buf : bytes) (n : nat) : Prop := exists gs, Forall LibGenerator gs /\ length gs = n /\ buf = concat gs.
(** Arguments of a lawful initialisation: [n] packed tags *)
Definition LawfulInit (tags : bytes) (n k : nat) (asset : bytes) (iterations : Z) (seed : bytes) : Prop :=
  blen tags = 32 * Z.of_nat n /\ (k <= n)%nat /\ (n <= max_targets)%nat /\ is_32 asset /\ is_32 seed /\ u64 iterations.
(** A proof object initialised for [n] targets with chosen input [i] *)
Definition FreshProof (p : bytes) (n i : nat) : Prop := exists tags k asset it seed,
  LawfulInit tags n k asset it seed /\ sp_init z tags n k asset it seed = Some (p, i).
Definition LawfulGenerate (p buf : bytes) (n : nat) (gen : bytes) (i : nat) (ib ob : bytes) : Prop :=
  FreshProof p n i /\ PackedGenerators buf n /\ LibGenerator gen /\ is_32 ib /\ is_32 ob.
(** ... completed for the targets [buf] and the generator [gen] *)
Definition MadeProof (p buf : bytes) (n : nat) (gen : bytes) : Prop := exists p0 i ib ob,
  LawfulGenerate p0 buf n gen i ib ob /\ sp_generate z p0 buf n gen i ib ob = Some p.
End Contract.

Record SameInContract (z z' : Crypto) : Prop := {
  sc_hash : forall x, c_hash z x = c_hash z' x;
  sc_sha : forall x, c_sha z x = c_sha z' x;
  sc_mid : forall x, blen x = 64 -> c_mid z x = c_mid z' x;
  sc_parse : forall x, blen x = 33 -> gen_parse z x = gen_parse z' x;
  sc_gen : forall a, is_32 a -> gen_generate z a = gen_generate z' a;
  sc_genb : forall a b, is_32 a -> is_32 b -> gen_generate_blinded z a b = gen_generate_blinded z' a b;
  sc_genser : forall g, LibGenerator z g -> gen_serialize z g = gen_serialize z' g;
  sc_commit : forall b v g, is_32 b -> u64 v -> LibGenerator z g -> ped_commit z b v g = ped_commit z' b v g;
  sc_comser : forall c, LibCommitment z c -> ped_serialize z c = ped_serialize z' c;
  sc_comparse : forall x, blen x = 33 -> ped_parse z x = ped_parse z' x;
  (* as many values and factors as announced, and at least one output *)
  sc_sum : forall vs gs bs n k, length vs = n -> length gs = n -> length bs = n -> (k < n)%nat ->
    Forall u64 vs -> Forall is_32 gs -> Forall is_32 bs -> blind_sum z vs gs bs n k = blind_sum z' vs gs bs n k;
  sc_sign : forall minv c b nonce e bits v msg extra g, u64 minv -> LibCommitment z c -> is_32 b -> is_32 nonce -> int_range e -> int_range bits -> u64 v -> LibGenerator z g ->
    rp_sign z minv c b nonce e bits v msg extra g = rp_sign z' minv c b nonce e bits v msg extra g;
  sc_rewind : forall nonce c proof extra g, is_32 nonce -> LibCommitment z c -> LibGenerator z g ->
    rp_rewind z nonce c proof extra g = rp_rewind z' nonce c proof extra g;
  sc_init : forall tags n k a it seed, LawfulInit tags n k a it seed -> sp_init z tags n k a it seed = sp_init z' tags n k a it seed;
  sc_spgen : forall p buf n gen i ib ob, LawfulGenerate z p buf n gen i ib ob -> sp_generate z p buf n gen i ib ob = sp_generate z' p buf n gen i ib ob;
  sc_verify : forall p buf n gen, MadeProof z p buf n gen -> sp_verify z p buf n gen = sp_verify z' p buf n gen;
  sc_spser : forall p buf n gen, MadeProof z p buf n gen -> sp_serialize z p = sp_serialize z' p;
  (* CPubKey and CKey check lengths themselves *)
  sc_pk : forall p, pk_fullyvalid z p = pk_fullyvalid z' p;
  sc_sk : forall k, is_32 k -> sk_valid z k = sk_valid z' k;
  sc_pub : forall k, is_32 k -> sk_valid z k = true -> sk_pub z k = sk_pub z' k;
  sc_ecdh : forall k p, is_32 k -> sk_valid z k = true -> p <> [] -> pk_fullyvalid z p = true -> ecdh z k p = ecdh z' k p
}.

(** Descriptors are made of Uint256 objects (BlindingInputDescriptor), draws are as long as asked for. *)
Definition TypedArguments (args : blind_args) : Prop :=
  Forall (fun d => is_32 (d_asset d) /\ is_32 (d_bf d) /\ is_32 (d_abf d)) (a_descs args).

(** The surjection targets: every spent output, every issued asset and token, every further generator. *)
Definition input_targets (i : txin) : nat :=
  (1 + (match is_amount (assetIssuance i) with [] => 0 | _ => 1 end) + (match is_keys (assetIssuance i) with [] => 0 | _ => 1 end))%nat.
Definition target_count (args : blind_args) (t : tx) : nat :=
  (list_sum (map input_targets (vin t)) + (length (a_aux args) - length (vin t)))%nat.
