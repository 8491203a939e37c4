(** Specification: which exceptions leave blind(), and what may be blamed for them. *)
From Verif Require Import Base Serialize TxModel IssuanceModel ScriptModel MiscModel BlindModel SpecBlind.
Local Open Scope Z_scope.

(** What the types of the library's users guarantee (CAsset, Uint256, COutPoint, CKey), and that the reissuance
    token id of no input is the null id (the id is a SHA-256 midstate). *)
Record WellTyped (z : Crypto) (args : blind_args) (t : tx) : Prop := {
  wt_keys : forall i k, nth i (a_asset_keys args) None = Some k \/ nth i (a_token_keys args) None = Some k -> blen k = 32;
  wt_assets : forall d, In d (a_descs args) -> blen (d_asset d) = 32;
  wt_inputs : forall inp, In inp (vin t) -> blen (is_entropy (assetIssuance inp)) = 32
                /\ blen (op_hash (prevout inp)) = 32 /\ 0 <= op_n (prevout inp) < 2 ^ 32;
  wt_token : forall inp e b, In inp (vin t) -> EntropyOf z inp e -> b = x01 \/ b = x02 -> c_mid z (e ++ tag32 b) <> zeros 32
}.

(** The library chooses one of the targets it was given. *)
Definition IndexOk (z : Crypto) : Prop := forall tags n k a it seed p i, sp_init z tags n k a it seed = Some (p, i) -> (i < n)%nat.

(** A token key was given for a reissuance. *)
Definition token_key_for_reissuance (args : blind_args) (t : tx) : Prop := exists i inp k,
  nth_error (vin t) i = Some inp /\ nth i (a_token_keys args) None = Some k /\ is_nonce (assetIssuance inp) <> zeros 32.

(** A reissuance says that it makes tokens, and no input before it is a new issuance. *)
Definition TokenUnknown (t : tx) : Prop := exists i inp,
  nth_error (vin t) i = Some inp /\ is_nonce (assetIssuance inp) <> zeros 32 /\ is_keys (assetIssuance inp) <> []
  /\ forall k inp', (k < i)%nat -> nth_error (vin t) k = Some inp' -> is_amount (assetIssuance inp') <> [] \/ is_keys (assetIssuance inp') <> [] ->
       is_nonce (assetIssuance inp') <> zeros 32.

(** An id made by an issuance of the transaction: asset or token. *)
Definition MadeId (z : Crypto) (t : tx) (a : bytes) : Prop := exists inp e b,
  In inp (vin t) /\ EntropyOf z inp e /\ (b = x00 \/ b = x01 \/ b = x02) /\ a = c_mid z (e ++ tag32 b).
(** A number drawn by blind(): one for each issuance to be blinded, four for each output. *)
Definition draws (args : blind_args) (t : tx) : nat := (length (issuance_tasks args t) + 4 * length (output_tasks args))%nat.
Definition Drawn (rand : nat -> bytes) (args : blind_args) (t : tx) (x : bytes) : Prop := exists k, (k < draws args t)%nat /\ x = rand k.
(** Something to be hidden: amount, asset, asset blinding factor. *)
Inductive Secret (z : Crypto) (rand : nat -> bytes) (args : blind_args) (t : tx) : Z -> bytes -> bytes -> Prop :=
| Secret_output j pub o v a ab : nth_error (a_pubkeys args) j = Some pub -> pub <> [] -> nth_error (vout t) j = Some o ->
    ExplicitValue (nValue o) v -> ExplicitAsset (nAsset o) a -> Drawn rand args t ab -> Secret z rand args t v a ab
| Secret_issuance i ps inp v a : In (i, ps) (issuance_tasks args t) -> nth_error (vin t) i = Some inp ->
    ExplicitValue (iss_field ps inp) v -> MadeId z t a -> Secret z rand args t v a (zeros 32).

(** What enters the balance: the amount and the two factors of a spent output, or of something hidden. *)
Inductive Term (z : Crypto) (rand : nat -> bytes) (args : blind_args) (t : tx) : Z * bytes * bytes -> Prop :=
| Term_input d : In d (a_descs args) -> Term z rand args t (d_amount d mod 2 ^ 64, d_abf d, d_bf d)
| Term_secret v a ab b : Secret z rand args t v a ab -> Drawn rand args t b -> Term z rand args t (v, ab, b).
Definition balance_of (z : Crypto) (l : list (Z * bytes * bytes)) (i : nat) : option bytes :=
  blind_sum z (map (fun x => fst (fst x)) l) (map (fun x => snd (fst x)) l) (map snd l) (length l) i.
(** A factor for a value: a draw, or what the library returned for the balance. *)
Definition Factor (z : Crypto) (rand : nat -> bytes) (args : blind_args) (t : tx) (b : bytes) : Prop :=
  Drawn rand args t b \/ (exists l i, Forall (Term z rand args t) l /\ (i < length l)%nat /\ balance_of z l i = Some b).

(** A call of the library that blind() has to make, and that is refused. *)
Inductive Refused (z : Crypto) (rand : nat -> bytes) (args : blind_args) (t : tx) : Prop :=
| R_descriptor d : In d (a_descs args) -> d_asset d <> zeros 32 -> gen_generate_blinded z (d_asset d) (d_abf d) = None -> Refused z rand args t
| R_issued a : MadeId z t a -> gen_generate z a = None -> Refused z rand args t
| R_generator v a ab : Secret z rand args t v a ab -> gen_generate_blinded z a ab = None -> Refused z rand args t
| R_generator_bytes v a ab g : Secret z rand args t v a ab -> gen_generate_blinded z a ab = Some g -> gen_serialize z g = None -> Refused z rand args t
| R_commitment v a ab g b : Secret z rand args t v a ab -> Factor z rand args t b -> gen_generate_blinded z a ab = Some g -> ped_commit z b v g = None -> Refused z rand args t
| R_commitment_bytes v a ab g b c : Secret z rand args t v a ab -> Factor z rand args t b -> gen_generate_blinded z a ab = Some g -> ped_commit z b v g = Some c ->
    ped_serialize z c = None -> Refused z rand args t
| R_balance l i : Forall (Term z rand args t) l -> (i < length l)%nat -> balance_of z l i = None -> Refused z rand args t
| R_ecdh k pub : In pub (a_pubkeys args) -> pub <> [] -> Drawn rand args t k -> ecdh z k pub = None -> Refused z rand args t
(** the range proof of an issuance, which may be for the value 0 ... *)
| R_range_issuance i (ps : bool) key v a g b c : nth i (if ps then a_token_keys args else a_asset_keys args) None = Some key ->
    Secret z rand args t v a (zeros 32) -> Drawn rand args t b -> gen_generate_blinded z a (zeros 32) = Some g -> ped_commit z b v g = Some c ->
    rp_sign z 0 c b key (ct_exp args) (ct_bits args) v (a ++ zeros 32) [] g = None -> Refused z rand args t
(** ... and of an output, which may be for the value 0 only if the output cannot be spent *)
| R_range_output j pub o minv v a ab g b c k shared : nth_error (a_pubkeys args) j = Some pub -> pub <> [] -> nth_error (vout t) j = Some o ->
    ExplicitValue (nValue o) v -> ExplicitAsset (nAsset o) a ->
    (Unspendable (scriptPubKey o) -> minv = 0) -> (~ Unspendable (scriptPubKey o) -> minv = 1) ->
    Drawn rand args t ab -> Drawn rand args t k -> Factor z rand args t b -> gen_generate_blinded z a ab = Some g -> ped_commit z b v g = Some c -> ecdh z k pub = Some shared ->
    rp_sign z minv c b (c_sha z shared) (ct_exp args) (ct_bits args) v (a ++ ab) (scriptPubKey o) g = None -> Refused z rand args t
(** a surjection proof that was begun and cannot be finished, or is not accepted by the library itself *)
| R_surjection targets v a ab g seed p0 i tg : SurjectionTargets z args t targets -> Secret z rand args t v a ab -> Drawn rand args t seed -> gen_generate_blinded z a ab = Some g ->
    sp_init z (concat (map tg_tag targets)) (length targets) (Nat.min 3 (length targets)) a 100 seed = Some (p0, i) -> nth_error targets i = Some tg ->
    sp_generate z p0 (concat (map tg_gen targets)) (length targets) g i (tg_blind tg) ab = None -> Refused z rand args t
| R_surjection_wrong targets v a ab g seed p0 i tg p : SurjectionTargets z args t targets -> Secret z rand args t v a ab -> Drawn rand args t seed -> gen_generate_blinded z a ab = Some g ->
    sp_init z (concat (map tg_tag targets)) (length targets) (Nat.min 3 (length targets)) a 100 seed = Some (p0, i) -> nth_error targets i = Some tg ->
    sp_generate z p0 (concat (map tg_gen targets)) (length targets) g i (tg_blind tg) ab = Some p ->
    sp_verify z p (concat (map tg_gen targets)) (length targets) g = false -> Refused z rand args t.
