(** Model of the blinding code of elementstx/core/__init__.py:1184-2117.

    libsecp256k1-zkp, the hash functions and the key operations of bitcointx are the
    fields of a record [Crypto]; the random function is [rand : nat -> bytes]
    (the n-th call of [_rand_func(32)]).

    Simplifications: argument types are enforced by Coq types instead of
    [ensure_isinstance] (so the TypeError branches are absent); the transaction is mutable (the
    ValueError at 1201 is absent); the library is loaded and has the zkp functions;
    its functions return 0 or 1 (None or Some here), so the [assert ret == 0] cannot fire; the objects
    in [tx.vin], [tx.vout] and the witness lists are distinct objects (ObjModel.v and C80 drop this). Texts of BlindingFailure
    are constructors of [failure], with the interpolated numbers. *)
From Verif Require Import Base Serialize TxModel IssuanceModel ScriptModel MiscModel.
Local Open Scope Z_scope.

Record Crypto := mkCrypto {
  c_hash : bytes -> bytes;                                (* bitcointx Hash, double SHA-256 *)
  c_sha : bytes -> bytes;                                 (* hashlib.sha256 *)
  c_mid : bytes -> bytes;                                 (* SHA-256 midstate of 64 bytes *)
  gen_parse : bytes -> option bytes;                      (* secp256k1_generator_parse *)
  gen_generate : bytes -> option bytes;                   (* secp256k1_generator_generate *)
  gen_generate_blinded : bytes -> bytes -> option bytes;  (* secp256k1_generator_generate_blinded: asset, blind *)
  gen_serialize : bytes -> option bytes;                  (* secp256k1_generator_serialize *)
  ped_commit : bytes -> Z -> bytes -> option bytes;       (* secp256k1_pedersen_commit: blind, value, generator *)
  ped_serialize : bytes -> option bytes;                  (* secp256k1_pedersen_commitment_serialize *)
  ped_parse : bytes -> option bytes;                      (* secp256k1_pedersen_commitment_parse *)
  (* secp256k1_pedersen_blind_generator_blind_sum: values, generator blinds, blinds, n_total, n_inputs;
     the result is the new last blinding factor *)
  blind_sum : list Z -> list bytes -> list bytes -> nat -> nat -> option bytes;
  (* secp256k1_rangeproof_sign: min_value, commit, blind, nonce, exp, min_bits, value, message, extra_commit, gen *)
  rp_sign : Z -> bytes -> bytes -> bytes -> Z -> Z -> Z -> bytes -> bytes -> bytes -> option bytes;
  (* secp256k1_rangeproof_rewind: nonce, commit, proof, extra_commit, gen;
     the result is the blinding factor, the value and the message *)
  rp_rewind : bytes -> bytes -> bytes -> bytes -> bytes -> option (bytes * Z * bytes);
  (* secp256k1_surjectionproof_allocate_initialized: packed tags, n, n to use, output tag, iterations, seed;
     the result is the (opaque) proof object and the chosen input *)
  sp_init : bytes -> nat -> nat -> bytes -> Z -> bytes -> option (bytes * nat);
  (* secp256k1_surjectionproof_generate: proof, packed generators, n, output generator, input index, input blind, output blind *)
  sp_generate : bytes -> bytes -> nat -> bytes -> nat -> bytes -> bytes -> option bytes;
  sp_verify : bytes -> bytes -> nat -> bytes -> bool;     (* secp256k1_surjectionproof_verify *)
  sp_serialize : bytes -> bytes;                          (* secp256k1_surjectionproof_serialize *)
  pk_fullyvalid : bytes -> bool;                          (* CPubKey.is_fullyvalid for a non-empty key *)
  sk_valid : bytes -> bool;                               (* CKey.from_secret_bytes accepts 32 bytes *)
  sk_pub : bytes -> bytes;                                (* CKey.pub *)
  ecdh : bytes -> bytes -> option bytes                   (* CKey.ECDH(pubkey); None: it raises *)
}.

(** CPubKey: its bytes. [is_nonempty], [is_fullyvalid]. *)
Definition is_nonempty (p : bytes) : bool := negb (blen p =? 0).
Definition is_fullyvalid (z : Crypto) (p : bytes) : bool := is_nonempty p && pk_fullyvalid z p.

(** core/__init__.py:85-89 [BlindingInputDescriptor] *)
Record input_desc := mkDesc { d_asset : bytes; d_amount : Z; d_bf : bytes; d_abf : bytes }.

(** Keyword arguments of blind(). A CKeyBase is its secret. *)
Record blind_args := mkArgs {
  a_descs : list input_desc;
  a_pubkeys : list bytes;
  a_asset_keys : list (option bytes);
  a_token_keys : list (option bytes);
  a_aux : list bytes;
  a_ct_exponent : option Z;
  a_ct_bits : option Z;
  a_strict : bool
}.

(** The texts given to BlindingFailure, in source order. *)
Inductive failure :=
| F_aux_invalid (i : nat)               (* 1322, 1403 *)
| F_asset_empty (i : nat)               (* 1325 *)
| F_amount_commitment                   (* 1348 *)
| F_keys_commitment                     (* 1351 *)
| F_negative_amount (i : nat)           (* 1439 *)
| F_amount_not_explicit (i : nat)       (* 1454 *)
| F_amount_proof_in_place (i : nat)     (* 1462 *)
| F_keys_not_explicit (i : nat)         (* 1468 *)
| F_keys_proof_in_place (i : nat)       (* 1475 *)
| F_pubkey_invalid (i : nat)            (* 1483 *)
| F_value_not_explicit (i : nat)        (* 1486 *)
| F_asset_not_explicit (i : nat)        (* 1490 *)
| F_witness_in_place (i : nat)          (* 1494 *)
| F_fee_output (i : nat)                (* 1498 *)
| F_count (blinded expected : nat).     (* 1247 *)

Inductive blind_ret :=
| BSuccess (n : nat) (bfs abfs : list bytes)
| BFailure (f : failure).

(** * State, exceptions and early return *)
(** The mutable transaction and the number of [_rand_func] calls made so far: both survive
    exceptions and early returns. *)
Record St := mkSt { s_tx : tx; s_draws : nat }.
Inductive outcome (A : Type) :=
| Val (a : A)           (* normal completion *)
| Ret (r : blind_ret)   (* [return r] from blind_transaction *)
| Exc (e : exn).
Arguments Val {A} _.
Arguments Ret {A} _.
Arguments Exc {A} _.
Definition M (A : Type) : Type := St -> outcome A * St.
Definition mret {A} (a : A) : M A := fun s => (Val a, s).
Definition mreturn {A} (r : blind_ret) : M A := fun s => (Ret r, s).
Definition mraise {A} (e : exn) : M A := fun s => (Exc e, s).
Definition mbind {A B} (m : M A) (k : A -> M B) : M B := fun s =>
  match m s with
  | (Val a, s') => k a s'
  | (Ret r, s') => (Ret r, s')
  | (Exc e, s') => (Exc e, s')
  end.
Declare Scope blind_scope.
Notation "x <- m ;; k" := (mbind m (fun x => k)) (at level 100, m at next level, right associativity) : blind_scope.
Local Open Scope blind_scope.
Definition lift {A} (r : res A) : M A := match r with Ok a => mret a | Raise e => mraise e end.
Definition get_tx : M tx := fun s => (Val (s_tx s), s).
Definition put_tx (t : tx) : M unit := fun s => (Val tt, mkSt t (s_draws s)).
(** a library call that returns 0 makes the caller raise RuntimeError *)
Definition lib_call {A} (r : option A) : M A := match r with Some a => mret a | None => mraise ERuntime end.
(** [for x in l: body] *)
Fixpoint for_in {A L} (l : list A) (body : A -> L -> M L) (st : L) : M L :=
  match l with
  | [] => mret st
  | x :: l' => st' <- body x st ;; for_in l' body st'
  end.

(** Python list access [l[i]] and [l[i] = x] for a non-negative index. *)
Definition nth_res {A} (l : list A) (i : nat) : res A :=
  match nth_error l i with Some x => Ok x | None => Raise EIndex end.
Fixpoint upd {A} (l : list A) (i : nat) (x : A) : list A :=
  match l, i with
  | [], _ => []
  | _ :: l', O => x :: l'
  | y :: l', S i' => y :: upd l' i' x
  end.
Definition set_res {A} (l : list A) (i : nat) (x : A) : res (list A) :=
  if (i <? length l)%nat then Ok (upd l i x) else Raise EIndex.
(** Python [l[-1]] *)
Definition last_res {A} (l : list A) : res A := match rev l with x :: _ => Ok x | [] => Raise EIndex end.

(** Field assignments on the mutable transaction. *)
Definition set_vin (t : tx) (v : list txin) : tx := mkTx v (vout t) (nLockTime t) (nVersion t) (wit t).
Definition set_vout (t : tx) (v : list txout) : tx := mkTx (vin t) v (nLockTime t) (nVersion t) (wit t).
Definition set_inwits (t : tx) (w : list inwit) : tx := mkTx (vin t) (vout t) (nLockTime t) (nVersion t) (mkTxWit w (vtxoutwit (wit t))).
Definition set_outwits (t : tx) (w : list outwit) : tx := mkTx (vin t) (vout t) (nLockTime t) (nVersion t) (mkTxWit (vtxinwit (wit t)) w).
Definition set_issuance (i : txin) (iss : issuance) : txin := mkTxIn (prevout i) (scriptSig i) (nSequence i) iss (is_pegin i).

Definition mod_vin (n : nat) (f : txin -> txin) : M unit :=
  t <- get_tx ;; i <- lift (nth_res (vin t) n) ;; put_tx (set_vin t (upd (vin t) n (f i))).
Definition mod_vout (n : nat) (f : txout -> txout) : M unit :=
  t <- get_tx ;; o <- lift (nth_res (vout t) n) ;; put_tx (set_vout t (upd (vout t) n (f o))).
Definition mod_inwit (n : nat) (f : inwit -> inwit) : M unit :=
  t <- get_tx ;; w <- lift (nth_res (vtxinwit (wit t)) n) ;; put_tx (set_inwits t (upd (vtxinwit (wit t)) n (f w))).
Definition mod_outwit (n : nat) (f : outwit -> outwit) : M unit :=
  t <- get_tx ;; w <- lift (nth_res (vtxoutwit (wit t)) n) ;; put_tx (set_outwits t (upd (vtxoutwit (wit t)) n (f w))).

(** ctypes conversion of a Python int to c_uint64: no overflow check *)
Definition c_uint64 (a : Z) : Z := a mod 2 ^ 64.
(** ... and to c_int: the low 32 bits, as a signed number *)
Definition c_int (a : Z) : Z := let u := a mod 2 ^ 32 in if u <? 2 ^ 31 then u else u - 2 ^ 32.

Section Blind.
Variable z : Crypto.
Variable rand : nat -> bytes.

(** [_rand_func(32)] *)
Definition draw : M bytes := fun s => (Val (rand (s_draws s)), mkSt (s_tx s) (S (s_draws s))).
(** [Uint256(_rand_func(32))] *)
Definition draw_uint256 : M bytes := b <- draw ;; lift (uint256_new b).

(** core/__init__.py:1773-1796 [blinded_asset] *)
Definition blinded_asset (asset assetblind : bytes) : M (bytes * bytes) :=
  gen <- lib_call (gen_generate_blinded z asset assetblind) ;;
  rc <- lib_call (gen_serialize z gen) ;;
  confAsset <- lift (conf_new CConfAsset rc) ;;
  _ <- lift (rassert (conf_is_valid CConfAsset confAsset) EAssert) ;;
  mret (confAsset, gen).

(** core/__init__.py:1799-1818 [create_value_commitment] *)
Definition create_value_commitment (blind gen : bytes) (amount : Z) : M (bytes * bytes) :=
  commit <- lib_call (ped_commit z blind (c_uint64 amount) gen) ;;
  rc <- lib_call (ped_serialize z commit) ;;
  confValue <- lift (conf_new CConfValue rc) ;;
  _ <- lift (rassert (conf_is_valid CConfValue confValue) EAssert) ;;
  mret (confValue, commit).

(** core/__init__.py:199-200 *)
Definition CT_EXPONENT : Z := 0.
Definition CT_BITS : Z := 52.

(** core/__init__.py:1821-1893 [generate_rangeproof] *)
Definition rangeproof_min_value (script : bytes) : Z := if is_unspendable script then 0 else 1.
Definition generate_rangeproof (in_blinds : list bytes) (nonce : bytes) (amount : Z) (script commit gen asset : bytes)
    (in_assetblinds : list bytes) (custom_ct_exponent custom_ct_bits : option Z) : M bytes :=
  _ <- (if negb (blen commit =? 64) then mraise EValue else mret tt) ;;
  _ <- (if negb (blen gen =? 64) then mraise EValue else mret tt) ;;
  blind <- lift (last_res in_blinds) ;;
  assetblind <- lift (last_res in_assetblinds) ;;
  let assetsMessage := asset ++ assetblind in
  let ct_exponent := match custom_ct_exponent with Some e => e | None => CT_EXPONENT end in
  let ct_bits := match custom_ct_bits with Some b => b | None => CT_BITS end in
  lib_call (rp_sign z (rangeproof_min_value script) commit blind nonce (c_int ct_exponent) (c_int ct_bits) (c_uint64 amount)
              assetsMessage script gen).

(** core/__init__.py:1896-1907 [generate_output_rangeproof_nonce] *)
Definition generate_output_rangeproof_nonce (output_pubkey : bytes) : M (bytes * bytes) :=
  secret <- draw ;;
  _ <- (if sk_valid z secret then mret tt else mraise EValue) ;;
  let ephemeral_pubkey := sk_pub z secret in
  _ <- lift (rassert (blen ephemeral_pubkey =? committedSize) EAssert) ;;
  ecdh_result <- lib_call (ecdh z secret output_pubkey) ;;
  nonce <- lift (uint256_new (c_sha z ecdh_result)) ;;
  mret (nonce, ephemeral_pubkey).

(** core/__init__.py:1910-1975 [generate_surjectionproof]; None is [return None]. *)
Definition generate_surjectionproof (surjectionTargets targetAssetGenerators targetAssetBlinders assetblinds : list bytes)
    (gen asset : bytes) : M (option bytes) :=
  let nInputsToSelect := Nat.min 3 (length surjectionTargets) in
  randseed <- draw ;;
  tags <- lift (build_aligned_data_array surjectionTargets 32) ;;
  match sp_init z tags (length surjectionTargets) nInputsToSelect asset 100 randseed with
  | None => mret None
  | Some (proof, input_index) =>
    buf <- lift (build_aligned_data_array targetAssetGenerators 64) ;;
    inblind <- lift (nth_res targetAssetBlinders input_index) ;;
    outblind <- lift (last_res assetblinds) ;;
    proof <- lib_call (sp_generate z proof buf (length targetAssetGenerators) gen input_index inblind outblind) ;;
    _ <- (if sp_verify z proof buf (length targetAssetGenerators) gen then mret tt else mraise ERuntime) ;;
    mret (Some (sp_serialize z proof))
  end.

Variable args : blind_args.

(** [len(keys) > i and keys[i] is not None] *)
Definition key_at (keys : list (option bytes)) (i : nat) : option bytes :=
  match nth_error keys i with Some (Some k) => Some k | _ => None end.

(** core/__init__.py:1206-1222 and 1269-1283: argument checks that raise ValueError. *)
Definition check_arguments : M unit :=
  t <- get_tx ;;
  _ <- (if negb (length (a_pubkeys args) <=? length (vout t))%nat then mraise EValue else mret tt) ;;
  _ <- (if negb (length (a_asset_keys args) <=? length (vin t))%nat then mraise EValue else mret tt) ;;
  _ <- (if negb (length (a_token_keys args) <=? length (vin t))%nat then mraise EValue else mret tt) ;;
  _ <- (if negb (length (vin t) =? length (a_descs args))%nat then mraise EValue else mret tt) ;;
  match a_aux args with
  | [] => mret tt
  | _ => _ <- (if negb (length (vin t) <=? length (a_aux args))%nat then mraise EValue else mret tt) ;;
         if forallb (fun ag => blen ag =? 33) (a_aux args) then mret tt else mraise EValue
  end.

(** Local variables of the surjection target preparation, 1297-1307; [t_token] is the local
    variable [token], unbound until the first new issuance. *)
Record Targets := mkT {
  t_tags : list (option bytes);    (* surjectionTargets *)
  t_gens : list (option bytes);    (* targetAssetGenerators *)
  t_blinders : list bytes;         (* targetAssetBlinders *)
  t_total : nat;                   (* totalTargets *)
  t_token : option bytes
}.
Definition add_target (T : Targets) (tag gen blinder : bytes) : M Targets :=
  gens <- lift (set_res (t_gens T) (t_total T) (Some gen)) ;;
  tags <- lift (set_res (t_tags T) (t_total T) (Some tag)) ;;
  mret (mkT tags gens (t_blinders T ++ [blinder]) (S (t_total T)) (t_token T)).
Definition set_token (T : Targets) (tok : bytes) : Targets :=
  mkT (t_tags T) (t_gens T) (t_blinders T) (t_total T) (Some tok).

(** core/__init__.py:1311-1391, one iteration *)
Definition targets_input (i : nat) (T : Targets) : M Targets :=
  desc <- lift (nth_res (a_descs args) i) ;;
  asset_generator <-
    (if uint256_is_null (d_asset desc) then
       match a_aux args with
       | [] => mreturn (BFailure (F_asset_empty i))
       | _ => ag <- lift (nth_res (a_aux args) i) ;;
              match gen_parse z ag with
              | Some g => mret g
              | None => mreturn (BFailure (F_aux_invalid i))
              end
       end
     else lib_call (gen_generate_blinded z (d_asset desc) (d_abf desc))) ;;
  T <- add_target T (d_asset desc) asset_generator (d_abf desc) ;;
  t <- get_tx ;;
  inp <- lift (nth_res (vin t) i) ;;
  let iss := assetIssuance inp in
  if issuance_is_null iss then mret T
  else if conf_is_commitment CConfValue (is_amount iss) then mreturn (BFailure F_amount_commitment)
  else if conf_is_commitment CConfValue (is_keys iss) then mreturn (BFailure F_keys_commitment)
  else
    at_ <- (if uint256_is_null (is_nonce iss) then
             let blind_issuance := match key_at (a_token_keys args) i with Some _ => true | None => false end in
             entropy <- lift (generate_asset_entropy (c_hash z) (c_mid z) (prevout inp) (is_entropy iss)) ;;
             asset <- lift (calculate_asset (c_mid z) entropy) ;;
             token <- lift (calculate_reissuance_token (c_mid z) entropy blind_issuance) ;;
             mret (asset, set_token T token)
           else
             asset <- lift (calculate_asset (c_mid z) (is_entropy iss)) ;;
             mret (asset, T)) ;;
    let '(asset, T) := at_ in
    T <- (if conf_is_null (is_amount iss) then mret T
          else gen <- lib_call (gen_generate z asset) ;;
               add_target T asset gen (zeros 32)) ;;
    if conf_is_null (is_keys iss) then mret T
    else match t_token T with
         | None => mraise EUnboundLocal
         | Some token =>
             _ <- lift (rassert (negb (uint256_is_null token)) EAssert) ;;
             gen <- lib_call (gen_generate z token) ;;
             add_target T token gen (zeros 32)
         end.

(** core/__init__.py:1393-1409, one iteration over the extra generators; [n] is the
    position in the whole list. *)
Definition targets_aux (nag : nat * bytes) (T : Targets) : M Targets :=
  let '(n, ag) := nag in
  match gen_parse z ag with
  | None => mreturn (BFailure (F_aux_invalid n))
  | Some gen => add_target T (zeros 32) gen (zeros 32)
  end.

(** core/__init__.py:1411-1424: [assert st is not None] over the filled part *)
Definition all_some {A} (l : list (option A)) : res (list A) :=
  rmap (fun o => match o with Some a => Ok a | None => Raise EAssert end) l.
Definition is_none_b {A} (o : option A) : bool := match o with None => true | Some _ => false end.

(** core/__init__.py:1265-1424 *)
Definition surjection_targets : M (list bytes * list bytes * list bytes) :=
  t <- get_tx ;;
  let n := length (vin t) in
  let num_targets := (n * 3 + (match a_aux args with [] => 0 | _ => length (a_aux args) - n end))%nat in
  T <- for_in (seq 0 n) targets_input (mkT (repeat None num_targets) (repeat None num_targets) [] 0 None) ;;
  T <- (match a_aux args with
        | [] => mret T
        | _ => for_in (combine (seq n (length (a_aux args) - n)) (skipn n (a_aux args))) targets_aux T
        end) ;;
  _ <- lift (rassert (t_total T =? length (t_blinders T))%nat EAssert) ;;
  _ <- lift (rassert (forallb is_none_b (skipn (t_total T) (t_tags T))) EAssert) ;;
  _ <- lift (rassert (forallb is_none_b (skipn (t_total T) (t_gens T))) EAssert) ;;
  tags <- lift (all_some (firstn (t_total T) (t_tags T))) ;;
  gens <- lift (all_some (firstn (t_total T) (t_gens T))) ;;
  mret (tags, gens, t_blinders T).

(** Local variables of the rest of the function. *)
Record Loc := mkL {
  l_toblind : nat;               (* nToBlind *)
  l_success : nat;               (* nSuccessfullyBlinded *)
  l_attempts : nat;              (* nBlindAttempts *)
  l_issattempts : nat;           (* nIssuanceBlindAttempts *)
  l_blindsin : nat;              (* nBlindsIn *)
  l_blinds : list bytes;         (* blinds *)
  l_assetblinds : list bytes;    (* assetblinds *)
  l_amounts : list Z;            (* amounts_to_blind *)
  l_bfs : list (option bytes);   (* output_blinding_factors *)
  l_abfs : list (option bytes)   (* output_asset_blinding_factors *)
}.
Definition inc_toblind (L : Loc) : Loc :=
  mkL (S (l_toblind L)) (l_success L) (l_attempts L) (l_issattempts L) (l_blindsin L)
      (l_blinds L) (l_assetblinds L) (l_amounts L) (l_bfs L) (l_abfs L).
Definition inc_success (L : Loc) : Loc :=
  mkL (l_toblind L) (S (l_success L)) (l_attempts L) (l_issattempts L) (l_blindsin L)
      (l_blinds L) (l_assetblinds L) (l_amounts L) (l_bfs L) (l_abfs L).
Definition inc_attempts (iss : bool) (L : Loc) : Loc :=
  mkL (l_toblind L) (l_success L) (S (l_attempts L)) (if iss then S (l_issattempts L) else l_issattempts L) (l_blindsin L)
      (l_blinds L) (l_assetblinds L) (l_amounts L) (l_bfs L) (l_abfs L).
Definition add_input (bf abf : bytes) (amount : Z) (L : Loc) : Loc :=
  mkL (l_toblind L) (l_success L) (l_attempts L) (l_issattempts L) (S (l_blindsin L))
      (l_blinds L ++ [bf]) (l_assetblinds L ++ [abf]) (l_amounts L ++ [amount]) (l_bfs L) (l_abfs L).
Definition add_amount (amount : Z) (L : Loc) : Loc :=
  mkL (l_toblind L) (l_success L) (l_attempts L) (l_issattempts L) (l_blindsin L)
      (l_blinds L) (l_assetblinds L) (l_amounts L ++ [amount]) (l_bfs L) (l_abfs L).
Definition add_blind (bf abf : bytes) (L : Loc) : Loc :=
  mkL (l_toblind L) (l_success L) (l_attempts L) (l_issattempts L) (l_blindsin L)
      (l_blinds L ++ [bf]) (l_assetblinds L ++ [abf]) (l_amounts L) (l_bfs L) (l_abfs L).
Definition set_last_blind (bf : bytes) (L : Loc) : Loc :=
  mkL (l_toblind L) (l_success L) (l_attempts L) (l_issattempts L) (l_blindsin L)
      (removelast (l_blinds L) ++ [bf]) (l_assetblinds L) (l_amounts L) (l_bfs L) (l_abfs L).
Definition set_factors (n : nat) (bf abf : bytes) (L : Loc) : Loc :=
  mkL (l_toblind L) (l_success L) (l_attempts L) (l_issattempts L) (l_blindsin L)
      (l_blinds L) (l_assetblinds L) (l_amounts L) (upd (l_bfs L) n (Some bf)) (upd (l_abfs L) n (Some abf)).

(** core/__init__.py:1244-1263 [blinding_result] *)
Definition or_zero (o : option bytes) : bytes := match o with Some b => b | None => zeros 32 end.
Definition blinding_result (L : Loc) : blind_ret :=
  if a_strict args && negb (l_success L =? l_toblind L)%nat then BFailure (F_count (l_success L) (l_toblind L))
  else BSuccess (l_success L) (map or_zero (l_bfs L)) (map or_zero (l_abfs L)).

(** core/__init__.py:1433-1477, one iteration. The two proof checks read the witness
    list only when it is long enough. *)
Definition proof_in_place (ws : list inwit) (i : nat) (f : inwit -> bytes) : bool :=
  match nth_error ws i with Some w => negb (blen (f w) =? 0) | None => false end.
Definition count_input (nIn : nat) (L : Loc) : M Loc :=
  desc <- lift (nth_res (a_descs args) nIn) ;;
  t <- get_tx ;;
  L <- (if negb (uint256_is_null (d_bf desc)) || negb (uint256_is_null (d_abf desc)) then
          if d_amount desc <? 0 then mreturn (BFailure (F_negative_amount nIn))
          else mret (add_input (d_bf desc) (d_abf desc) (d_amount desc) L)
        else mret L) ;;
  inp <- lift (nth_res (vin t) nIn) ;;
  let iss := assetIssuance inp in
  if issuance_is_null iss then mret L
  else
    L <- (match key_at (a_asset_keys args) nIn with
          | None => mret L
          | Some _ =>
            if negb (conf_is_explicit CConfValue (is_amount iss)) then mreturn (BFailure (F_amount_not_explicit nIn))
            else if proof_in_place (vtxinwit (wit t)) nIn iw_issproof then mreturn (BFailure (F_amount_proof_in_place nIn))
            else mret (inc_toblind L)
          end) ;;
    match key_at (a_token_keys args) nIn with
    | None => mret L
    | Some _ =>
      if negb (conf_is_explicit CConfValue (is_keys iss)) then mreturn (BFailure (F_keys_not_explicit nIn))
      else if proof_in_place (vtxinwit (wit t)) nIn iw_keysproof then mreturn (BFailure (F_keys_proof_in_place nIn))
      else mret (inc_toblind L)
    end.

(** core/__init__.py:1479-1502, one iteration *)
Definition count_output (np : nat * bytes) (L : Loc) : M Loc :=
  let '(nOut, out_pub) := np in
  if negb (is_nonempty out_pub) then mret L
  else if negb (is_fullyvalid z out_pub) then mreturn (BFailure (F_pubkey_invalid nOut))
  else
    t <- get_tx ;;
    o <- lift (nth_res (vout t) nOut) ;;
    if negb (conf_is_explicit CConfValue (nValue o)) then mreturn (BFailure (F_value_not_explicit nOut))
    else if negb (conf_is_explicit CConfAsset (nAsset o)) then mreturn (BFailure (F_asset_not_explicit nOut))
    else if match nth_error (vtxoutwit (wit t)) nOut with Some w => negb (outwit_is_null w) | None => false end
    then mreturn (BFailure (F_witness_in_place nOut))
    else if txout_is_fee o then mreturn (BFailure (F_fee_output nOut))
    else mret (inc_toblind L).

(** [while len(l) <= n: l.append(x)] *)
Definition pad_to {A} (n : nat) (x : A) (l : list A) : list A := l ++ repeat x (n - length l).

(** core/__init__.py:1516-1606, one iteration of the inner loop; [pseudo = false] is the
    issued asset, [true] the inflation keys (tokens). *)
Definition blind_pseudo (nIn : nat) (pseudo : bool) (L : Loc) : M Loc :=
  match key_at (if pseudo then a_token_keys args else a_asset_keys args) nIn with
  | None => mret L
  | Some key =>
    let L := inc_attempts true L in
    t <- get_tx ;;
    inp <- lift (nth_res (vin t) nIn) ;;
    let iss := assetIssuance inp in
    let explicitValue := if pseudo then is_keys iss else is_amount iss in
    if conf_is_null explicitValue then mret L   (* continue *)
    else
    amount <- lift (to_amount explicitValue) ;;
    let L := add_amount amount L in
    ao <- (if uint256_is_null (is_nonce iss) then
             entropy <- lift (generate_asset_entropy (c_hash z) (c_mid z) (prevout inp) (is_entropy iss)) ;;
             asset <- lift (if pseudo then calculate_reissuance_token (c_mid z) entropy true
                            else calculate_asset (c_mid z) entropy) ;;
             mret (Some asset)
           else if pseudo then mret None
           else asset <- lift (calculate_asset (c_mid z) (is_entropy iss)) ;; mret (Some asset)) ;;
    match ao with
    | None => mret L   (* continue *)
    | Some asset =>
      b <- draw_uint256 ;;
      let L := add_blind b (zeros 32) L in
      if (l_attempts L =? l_toblind L)%nat then mreturn (blinding_result L)
      else
      t <- get_tx ;;
      _ <- put_tx (set_inwits t (pad_to (S nIn) inwit_null (vtxinwit (wit t)))) ;;
      ag <- blinded_asset asset (zeros 32) ;;
      let gen := snd ag in
      vc <- create_value_commitment b gen amount ;;
      let '(confValue, commit) := vc in
      _ <- mod_vin nIn (fun i => set_issuance i
             (if pseudo then mkIssuance (is_nonce iss) (is_entropy iss) (is_amount iss) confValue
              else mkIssuance (is_nonce iss) (is_entropy iss) confValue (is_keys iss))) ;;
      nonce <- lift (uint256_new key) ;;
      proof <- generate_rangeproof (l_blinds L) nonce amount [] commit gen asset (l_assetblinds L)
                 (a_ct_exponent args) (a_ct_bits args) ;;
      _ <- mod_inwit nIn (fun w =>
             if pseudo then mkInWit (iw_script w) (iw_issproof w) proof (iw_pegin w)
             else mkInWit (iw_script w) proof (iw_keysproof w) (iw_pegin w)) ;;
      mret (inc_success L)
    end
  end.

(** core/__init__.py:1505-1514: the two passes for one input *)
Definition blind_input (nIn : nat) (L : Loc) : M Loc :=
  L <- blind_pseudo nIn false L ;; blind_pseudo nIn true L.

(** core/__init__.py:1636-1692: the last output's blinding factor; [None] means "carry on" is not
    possible because the factor came out null. *)
Definition balance_last (L : Loc) : M (option bytes) :=
  let n := (l_attempts L + l_blindsin L)%nat in
  _ <- lift (rassert (length (l_blinds L) =? n)%nat EAssert) ;;
  _ <- lift (rassert (length (l_amounts L) =? length (l_blinds L))%nat EAssert) ;;
  b <- lib_call (blind_sum z (map c_uint64 (l_amounts L)) (l_assetblinds L) (l_blinds L)
                   n (l_issattempts L + l_blindsin L)) ;;
  b <- lift (uint256_new b) ;;
  mret (if uint256_is_null b then None else Some b).

(** core/__init__.py:1694-1732: blinding of output [nOut] once its factors are chosen *)
Definition finish_output (tags gens blinders : list bytes) (nOut : nat) (out_pub asset : bytes) (amount : Z) (L : Loc) : M Loc :=
  b <- lift (last_res (l_blinds L)) ;;
  ab <- lift (last_res (l_assetblinds L)) ;;
  let L := set_factors nOut b ab L in
  ag <- blinded_asset asset ab ;;
  let '(confAsset, gen) := ag in
  _ <- mod_vout nOut (fun o => mkTxOut (nValue o) (scriptPubKey o) confAsset (nNonce o)) ;;
  vc <- create_value_commitment b gen amount ;;
  let '(confValue, commit) := vc in
  _ <- mod_vout nOut (fun o => mkTxOut confValue (scriptPubKey o) (nAsset o) (nNonce o)) ;;
  ne <- generate_output_rangeproof_nonce out_pub ;;
  let '(nonce, ephemeral_pubkey) := ne in
  confNonce <- lift (conf_new CConfNonce ephemeral_pubkey) ;;
  _ <- mod_vout nOut (fun o => mkTxOut (nValue o) (scriptPubKey o) (nAsset o) confNonce) ;;
  t <- get_tx ;;
  o <- lift (nth_res (vout t) nOut) ;;
  rangeproof <- generate_rangeproof (l_blinds L) nonce amount (scriptPubKey o) commit gen asset (l_assetblinds L)
                  (a_ct_exponent args) (a_ct_bits args) ;;
  sp <- generate_surjectionproof tags gens blinders (l_assetblinds L) gen asset ;;
  match sp with
  | None | Some [] => mret L   (* continue *)
  | Some surjectionproof =>
      _ <- mod_outwit nOut (fun _ => mkOutWit surjectionproof rangeproof) ;;
      mret (inc_success L)
  end.

(** core/__init__.py:1614-1732, one iteration *)
Definition blind_output (tags gens blinders : list bytes) (np : nat * bytes) (L : Loc) : M Loc :=
  let '(nOut, out_pub) := np in
  if negb (is_fullyvalid z out_pub) then mret L
  else
    t <- get_tx ;;
    o <- lift (nth_res (vout t) nOut) ;;
    let L := inc_attempts false L in
    amount <- lift (to_amount (nValue o)) ;;
    asset <- lift (to_asset (nAsset o)) ;;
    let L := add_amount amount L in
    b <- draw_uint256 ;;
    ab <- draw_uint256 ;;
    let L := add_blind b ab L in
    if (l_attempts L =? l_toblind L)%nat then
      if (l_attempts L =? 1)%nat && (l_blindsin L =? 0)%nat then mreturn (blinding_result L)
      else
        ob <- balance_last L ;;
        match ob with
        | None => mreturn (blinding_result (inc_success L))
        | Some b => finish_output tags gens blinders nOut out_pub asset amount (set_last_blind b L)
        end
    else finish_output tags gens blinders nOut out_pub asset amount L.

(** core/__init__.py:1184-1734 [blind_transaction] *)
Definition blind_body : M blind_ret :=
  _ <- check_arguments ;;
  tgb <- surjection_targets ;;
  let '(tags, gens, blinders) := tgb in
  t <- get_tx ;;
  let nin := length (vin t) in
  let L := mkL 0 0 0 0 0 [] [] [] (repeat None (length (vout t))) (repeat None (length (vout t))) in
  L <- for_in (seq 0 nin) count_input L ;;
  let pubs := combine (seq 0 (length (a_pubkeys args))) (a_pubkeys args) in
  L <- for_in pubs count_output L ;;
  L <- for_in (seq 0 nin) blind_input L ;;
  t <- get_tx ;;
  _ <- put_tx (set_outwits t (pad_to (length (vout t)) outwit_null (vtxoutwit (wit t)))) ;;
  L <- for_in pubs (blind_output tags gens blinders) L ;;
  mret (blinding_result L).

Definition blind_transaction (t : tx) : outcome blind_ret * St :=
  match blind_body (mkSt t 0) with
  | (Val r, s) => (Ret r, s)
  | x => x
  end.

End Blind.
