(** Contract of libsecp256k1-zkp and of bitcointx keys as far as unblinding relies on it. *)
From Verif Require Import Base TxModel BlindModel.
Local Open Scope Z_scope.

(** Opaque objects survive serialisation and parsing. *)
Record CodecLaws (z : Crypto) : Prop := {
  cl_gen : forall a b g s, gen_generate_blinded z a b = Some g -> gen_serialize z g = Some s -> gen_parse z s = Some g;
  cl_gen_back : forall s g, gen_parse z s = Some g -> gen_serialize z g = Some s;
  cl_com : forall b v g c s, ped_commit z b v g = Some c -> ped_serialize z c = Some s -> ped_parse z s = Some c;
  cl_com_back : forall s c, ped_parse z s = Some c -> ped_serialize z c = Some s;
  (** a zero blinding factor changes nothing *)
  cl_zero : forall a g, gen_generate_blinded z a (zeros 32) = Some g <-> gen_generate z a = Some g;
  (** every generator object can be serialised *)
  cl_ser : forall a b g, gen_generate_blinded z a b = Some g -> exists s, gen_serialize z g = Some s
}.
(** Who knows the nonce can read the value, the factor and the 64-byte message back from the proof. *)
Definition RewindLaw (z : Crypto) : Prop :=
  forall minv commit bf nonce e bits v msg extra gen proof,
    blen nonce = 32 -> blen bf = 32 -> blen msg = 64 -> 0 <= v < 2 ^ 64 ->
    ped_commit z bf v gen = Some commit ->
    rp_sign z minv commit bf nonce e bits v msg extra gen = Some proof ->
    proof <> [] /\ rp_rewind z nonce commit proof extra gen = Some (bf, v, msg).
(** A rewind succeeds only with an opening of the commitment. *)
Definition RewindSound (z : Crypto) : Prop :=
  forall nonce commit proof extra gen bf v msg,
    rp_rewind z nonce commit proof extra gen = Some (bf, v, msg) -> ped_commit z bf v gen = Some commit.
(** Diffie-Hellman. *)
Record KeyLaws (z : Crypto) : Prop := {
  kl_sym : forall a b, sk_valid z a = true -> sk_valid z b = true -> ecdh z a (sk_pub z b) = ecdh z b (sk_pub z a);
  kl_valid : forall a, sk_valid z a = true -> pk_fullyvalid z (sk_pub z a) = true
}.
(** 64 zero bytes are not a generator. *)
Definition ZeroGen (z : Crypto) : Prop :=
  forall a b g s, gen_generate_blinded z a b = Some g -> gen_serialize z g = Some s -> gen_serialize z (zeros 64) <> Some s.
