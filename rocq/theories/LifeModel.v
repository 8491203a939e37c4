(** blind_transaction with the memory of the library. secp256k1_surjectionproof_allocate_initialized puts a proof object in
    the library's memory and gives its address; the object is filled in by generate, read by verify, serialized_size and
    serialize, and freed by destroy (core/__init__.py:1910-1975, core/secp256k1.py:146-198). Using an address that holds no
    live object is undefined behaviour of the C library: [None] here. No other function that the Python code calls allocates. *)
From Verif Require Import Base Serialize TxModel MiscModel BlindModel.
Local Open Scope Z_scope.

(** The live objects, by address. *)
Definition objs := list (nat * bytes).
Fixpoint obj_at (m : objs) (a : nat) : option bytes :=
  match m with [] => None | (b, p) :: m' => if (a =? b)%nat then Some p else obj_at m' a end.
Fixpoint obj_set (m : objs) (a : nat) (p : bytes) : objs :=
  match m with [] => [] | (b, q) :: m' => if (a =? b)%nat then (b, p) :: m' else (b, q) :: obj_set m' a p end.
Fixpoint obj_free (m : objs) (a : nat) : objs :=
  match m with [] => [] | (b, q) :: m' => if (a =? b)%nat then m' else (b, q) :: obj_free m' a end.

(** State: that of [M] and the library's memory. [None]: undefined behaviour. *)
Record HSt := mkHSt { hs_st : St; hs_mem : objs }.
Definition HM (A : Type) : Type := HSt -> option (outcome A * HSt).
Definition hret {A} (a : A) : HM A := fun s => Some (Val a, s).
Definition hraise {A} (e : exn) : HM A := fun s => Some (Exc e, s).
Definition hbind {A B} (m : HM A) (k : A -> HM B) : HM B := fun s =>
  match m s with
  | None => None
  | Some (Val a, s') => k a s'
  | Some (Ret r, s') => Some (Ret r, s')
  | Some (Exc e, s') => Some (Exc e, s')
  end.
Declare Scope heap_scope.
Notation "x <~ m ;; k" := (hbind m (fun x => k)) (at level 100, m at next level, right associativity) : heap_scope.
Local Open Scope heap_scope.
(** code that does not touch the library's memory *)
Definition pure {A} (m : M A) : HM A := fun s => let '(o, st) := m (hs_st s) in Some (o, mkHSt st (hs_mem s)).
Fixpoint hfor {A L} (l : list A) (body : A -> L -> HM L) (st : L) : HM L :=
  match l with
  | [] => hret st
  | x :: l' => st' <~ body x st ;; hfor l' body st'
  end.
(** [try: m finally: f] *)
Definition try_finally {A} (m : HM A) (f : HM unit) : HM A := fun s =>
  match m s with
  | None => None
  | Some (o, s1) =>
      match f s1 with
      | None => None
      | Some (Val _, s2) => Some (o, s2)
      | Some (Ret r, s2) => Some (Ret r, s2)
      | Some (Exc e, s2) => Some (Exc e, s2)
      end
  end.

Section Life.
Variable z : Crypto.
(** The address at which the allocator puts the next object; any. *)
Variable addr : objs -> nat.
(** secp256k1_surjectionproof_serialized_size *)
Variable sp_size : bytes -> nat.

(** secp256k1_surjectionproof_allocate_initialized: address and chosen input. When it returns 0 it has freed the object. *)
Definition sp_alloc (tags : bytes) (n k : nat) (asset : bytes) (iterations : Z) (seed : bytes) : HM (option (nat * nat)) := fun s =>
  match sp_init z tags n k asset iterations seed with
  | None => Some (Val None, s)
  | Some (p, i) => let a := addr (hs_mem s) in Some (Val (Some (a, i)), mkHSt (hs_st s) ((a, p) :: hs_mem s))
  end.
(** secp256k1_surjectionproof_generate: fills the object in; true: it returned 1 *)
Definition sp_fill (a : nat) (buf : bytes) (n : nat) (gen : bytes) (i : nat) (inblind outblind : bytes) : HM bool := fun s =>
  match obj_at (hs_mem s) a with
  | None => None
  | Some p => match sp_generate z p buf n gen i inblind outblind with
              | None => Some (Val false, s)
              | Some p' => Some (Val true, mkHSt (hs_st s) (obj_set (hs_mem s) a p'))
              end
  end.
(** reading an object *)
Definition sp_read {A} (a : nat) (f : bytes -> A) : HM A := fun s =>
  match obj_at (hs_mem s) a with None => None | Some p => Some (Val (f p), s) end.
(** secp256k1_surjectionproof_serialize into a zeroed buffer of [cap] bytes: the buffer and the new output_len. It writes
    nothing and returns 0 when the buffer is too small; the return value is not looked at (1965-1966). *)
Definition sp_write (cap : nat) (p : bytes) : bytes * nat :=
  let b := sp_serialize z p in
  if (cap <? length b)%nat then (repeat x00 cap, cap) else (b ++ repeat x00 (cap - length b), length b).
(** secp256k1_surjectionproof_destroy *)
Definition sp_destroy (a : nat) : HM unit := fun s =>
  match obj_at (hs_mem s) a with None => None | Some _ => Some (Val tt, mkHSt (hs_st s) (obj_free (hs_mem s) a)) end.

Variable rand : nat -> bytes.

(** core/__init__.py:1910-1975 [generate_surjectionproof] *)
Definition generate_surjectionproof_mem (surjectionTargets targetAssetGenerators targetAssetBlinders assetblinds : list bytes)
    (gen asset : bytes) : HM (option bytes) :=
  let nInputsToSelect := Nat.min 3 (length surjectionTargets) in
  randseed <~ pure (draw rand) ;;
  tags <~ pure (lift (build_aligned_data_array surjectionTargets 32)) ;;
  r <~ sp_alloc tags (length surjectionTargets) nInputsToSelect asset 100 randseed ;;
  match r with
  | None => hret None
  | Some (proof, input_index) =>
    try_finally
      (buf <~ pure (lift (build_aligned_data_array targetAssetGenerators 64)) ;;
       inblind <~ pure (lift (nth_res targetAssetBlinders input_index)) ;;
       outblind <~ pure (lift (last_res assetblinds)) ;;
       ok <~ sp_fill proof buf (length targetAssetGenerators) gen input_index inblind outblind ;;
       _ <~ (if ok then hret tt else hraise ERuntime) ;;
       ok <~ sp_read proof (fun p => sp_verify z p buf (length targetAssetGenerators) gen) ;;
       _ <~ (if ok : bool then hret tt else hraise ERuntime) ;;
       expected <~ sp_read proof sp_size ;;
       w <~ sp_read proof (sp_write expected) ;;
       _ <~ (if (snd w =? expected)%nat then hret tt else hraise EAssert) ;;
       hret (Some (fst w)))
      (sp_destroy proof)
  end.

Variable args : blind_args.

(** core/__init__.py:1694-1732 *)
Definition finish_output_mem (tags gens blinders : list bytes) (nOut : nat) (out_pub asset : bytes) (amount : Z) (L : Loc) : HM Loc :=
  b <~ pure (lift (last_res (l_blinds L))) ;;
  ab <~ pure (lift (last_res (l_assetblinds L))) ;;
  let L := set_factors nOut b ab L in
  ag <~ pure (blinded_asset z asset ab) ;;
  let '(confAsset, gen) := ag in
  _ <~ pure (mod_vout nOut (fun o => mkTxOut (nValue o) (scriptPubKey o) confAsset (nNonce o))) ;;
  vc <~ pure (create_value_commitment z b gen amount) ;;
  let '(confValue, commit) := vc in
  _ <~ pure (mod_vout nOut (fun o => mkTxOut confValue (scriptPubKey o) (nAsset o) (nNonce o))) ;;
  ne <~ pure (generate_output_rangeproof_nonce z rand out_pub) ;;
  let '(nonce, ephemeral_pubkey) := ne in
  confNonce <~ pure (lift (conf_new CConfNonce ephemeral_pubkey)) ;;
  _ <~ pure (mod_vout nOut (fun o => mkTxOut (nValue o) (scriptPubKey o) (nAsset o) confNonce)) ;;
  t <~ pure get_tx ;;
  o <~ pure (lift (nth_res (vout t) nOut)) ;;
  rangeproof <~ pure (generate_rangeproof z (l_blinds L) nonce amount (scriptPubKey o) commit gen asset (l_assetblinds L)
                  (a_ct_exponent args) (a_ct_bits args)) ;;
  sp <~ generate_surjectionproof_mem tags gens blinders (l_assetblinds L) gen asset ;;
  match sp with
  | None | Some [] => hret L   (* continue *)
  | Some surjectionproof =>
      _ <~ pure (mod_outwit nOut (fun _ => mkOutWit surjectionproof rangeproof)) ;;
      hret (inc_success L)
  end.

(** core/__init__.py:1614-1732, one iteration *)
Definition blind_output_mem (tags gens blinders : list bytes) (np : nat * bytes) (L : Loc) : HM Loc :=
  let '(nOut, out_pub) := np in
  if negb (is_fullyvalid z out_pub) then hret L
  else
    t <~ pure get_tx ;;
    o <~ pure (lift (nth_res (vout t) nOut)) ;;
    let L := inc_attempts false L in
    amount <~ pure (lift (to_amount (nValue o))) ;;
    asset <~ pure (lift (to_asset (nAsset o))) ;;
    let L := add_amount amount L in
    b <~ pure (draw_uint256 rand) ;;
    ab <~ pure (draw_uint256 rand) ;;
    let L := add_blind b ab L in
    if (l_attempts L =? l_toblind L)%nat then
      if (l_attempts L =? 1)%nat && (l_blindsin L =? 0)%nat then pure (mreturn (blinding_result args L))
      else
        ob <~ pure (balance_last z L) ;;
        match ob with
        | None => pure (mreturn (blinding_result args (inc_success L)))
        | Some b => finish_output_mem tags gens blinders nOut out_pub asset amount (set_last_blind b L)
        end
    else finish_output_mem tags gens blinders nOut out_pub asset amount L.

(** core/__init__.py:1184-1734; the parts before 1614 do not allocate *)
Definition blind_body_mem : HM blind_ret :=
  _ <~ pure (check_arguments args) ;;
  tgb <~ pure (surjection_targets z args) ;;
  let '(tags, gens, blinders) := tgb in
  t <~ pure get_tx ;;
  let nin := length (vin t) in
  let L := mkL 0 0 0 0 0 [] [] [] (repeat None (length (vout t))) (repeat None (length (vout t))) in
  L <~ pure (for_in (seq 0 nin) (count_input args) L) ;;
  let pubs := combine (seq 0 (length (a_pubkeys args))) (a_pubkeys args) in
  L <~ pure (for_in pubs (count_output z) L) ;;
  L <~ pure (for_in (seq 0 nin) (blind_input z rand args) L) ;;
  t <~ pure get_tx ;;
  _ <~ pure (put_tx (set_outwits t (pad_to (length (vout t)) outwit_null (vtxoutwit (wit t))))) ;;
  L <~ hfor pubs (blind_output_mem tags gens blinders) L ;;
  hret (blinding_result args L).

(** The call on transaction [t] when the library's memory holds [m]. *)
Definition blind_transaction_mem (t : tx) (m : objs) : option (outcome blind_ret * HSt) :=
  match blind_body_mem (mkHSt (mkSt t 0) m) with
  | Some (Val r, s) => Some (Ret r, s)
  | x => x
  end.
End Life.
