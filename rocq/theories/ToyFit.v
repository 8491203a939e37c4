(** The toy library, refusing to make proofs that do not fit in a message: it satisfies [SmallProofs] and all the laws. *)
From Verif Require Import Base BaseFacts TxModel BlindModel SpecWire SpecBlind SpecBalance BlindBalance SpecUnblind SpecMulti SpecNode BlindSer ToyCrypto ToyTx ToyUnblind ToyNode.
From Coq Require Import Lia.
Local Open Scope Z_scope.

Definition fits (p : bytes) : bool := blen p <=? 0x02000000.
Definition fit (z : Crypto) : Crypto := mkCrypto (c_hash z) (c_sha z) (c_mid z) (gen_parse z) (gen_generate z) (gen_generate_blinded z)
  (gen_serialize z) (ped_commit z) (ped_serialize z) (ped_parse z) (blind_sum z)
  (fun m c b n e bits v msg x g => match rp_sign z m c b n e bits v msg x g with Some p => if fits p then Some p else None | None => None end)
  (rp_rewind z) (sp_init z)
  (fun p gens n g i a b => match sp_generate z p gens n g i a b with Some q => if fits (sp_serialize z q) then Some q else None | None => None end)
  (sp_verify z) (fun p => if fits (sp_serialize z p) then sp_serialize z p else []) (pk_fullyvalid z) (sk_valid z) (sk_pub z) (ecdh z).
Definition ftoy : Crypto := fit toy.
Definition fit_meaning z order (G : PointGroup order) (M : Meaning z G) : Meaning (fit z) G := mkMeaning (fit z) order G (hpt M) (base M) (gpt M) (cpt M) (m_gen _ _ M) (m_commit _ _ M).
Definition ftoy_meaning : Meaning ftoy toy_group := fit_meaning toy toy_order toy_group toy_meaning.

Lemma fits_small p : fits p = true -> small p. Proof. intros H. apply Z.leb_le in H. exact H. Qed.
Lemma fit_small z : SmallProofs (fit z).
Proof.
  split.
  - intros m c b n e bits v msg x g p H. cbn [fit rp_sign] in H. destruct (rp_sign z m c b n e bits v msg x g) as [q|]; [|discriminate H]. destruct (fits q) eqn:F; [|discriminate H].
    injection H as <-. apply fits_small. exact F.
  - intros p. cbn [fit sp_serialize]. destruct (fits (sp_serialize z p)) eqn:F; [apply fits_small; exact F|apply small_nil].
Qed.
Lemma ftoy_sizes : SizesOk ftoy. Proof. destruct toy_sizes. constructor; assumption. Qed.
Lemma ftoy_blind_sum : BlindSumLaw ftoy toy_order. Proof. exact toy_blind_sum. Qed.
Lemma ftoy_codec : CodecLaws ftoy. Proof. destruct toy_codec. constructor; assumption. Qed.
Lemma ftoy_rewind : RewindLaw ftoy.
Proof.
  intros minv commit bf nonce e bits v msg extra gen proof L1 L2 L3 R C S. cbn [ftoy fit rp_sign] in S.
  destruct (rp_sign toy minv commit bf nonce e bits v msg extra gen) as [q|] eqn:E; [|discriminate S]. destruct (fits q); [|discriminate S]. apply (f_equal (fun x => match x with Some y => y | None => [] end)) in S. subst q.
  exact (toy_rewind _ _ _ _ _ _ _ _ _ _ _ L1 L2 L3 R C E).
Qed.
Lemma ftoy_sound : RewindSound ftoy. Proof. exact toy_sound. Qed.
Lemma ftoy_keys : KeyLaws ftoy. Proof. destruct toy_keys. constructor; assumption. Qed.
Lemma ftoy_zerogen : ZeroGen ftoy. Proof. exact toy_zerogen. Qed.
Lemma ftoy_small : SmallProofs ftoy. Proof. apply fit_small. Qed.
Lemma ftoy_verifies : VerifierLaws ftoy toy_verifier ftoy_meaning.
Proof.
  destruct toy_verifies as [H1 H2 H3 H4 H5]. constructor; [| |exact H3|exact H4|exact H5].
  - intros minv commit bf nonce e bits v msg extra gen proof R C S. cbn [ftoy fit rp_sign] in S.
    destruct (rp_sign toy minv commit bf nonce e bits v msg extra gen) as [q|] eqn:E; [|discriminate S]. destruct (fits q); [|discriminate S]. apply (f_equal (fun x => match x with Some y => y | None => [] end)) in S. subst q.
    exact (H1 _ _ _ _ _ _ _ _ _ _ _ R C E).
  - intros proof0 gens n gen i inb outb proof S. cbn [ftoy fit sp_generate sp_serialize] in *. destruct (sp_generate toy proof0 gens n gen i inb outb) as [q|]; [|discriminate S].
    destruct (fits (sp_serialize toy q)) eqn:F; [|discriminate S]. apply (f_equal (fun x => match x with Some y => y | None => [] end)) in S. subst q. rewrite F. reflexivity.
Qed.
(** Randomness that is never zero. *)
Definition fit_rand (seed : Z) (k : nat) : bytes := b32 (Z.of_nat (Nat.min k 1000) * 1000003 + seed).
Lemma fit_rand_ok seed : RandOk ftoy (fit_rand seed).
Proof. intros k. unfold fit_rand. split; [apply b32_blen|]. cbn [ftoy fit toy sk_valid]. rewrite b32_length. reflexivity. Qed.
Lemma fit_rand_nonzero seed k : 0 < seed < 10 ^ 9 -> fit_rand seed k <> zeros 32.
Proof.
  intros R H. unfold fit_rand in H. apply (f_equal be_val) in H. rewrite b32_val, be_zeros in H. assert (L : (Nat.min k 1000 <= 1000)%nat) by lia.
  rewrite Z.mod_small in H; [lia|]. assert (10 ^ 15 < toy_order) by reflexivity. assert (10 ^ 15 = 1000000000000000) by reflexivity. assert (10 ^ 9 = 1000000000) by reflexivity. lia.
Qed.
