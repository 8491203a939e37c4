(** blind_transaction with arguments of any type: the ensure_isinstance checks of core/__init__.py:1208-1232, 1279-1283, 1864-1874, and
    what happens to objects that they let through.

    [Bad]: an object of another type than the documented one. Falsy objects given as keys (b'', 0, False, ...) are not checked
    (1213, 1218: [if k:]). Still by Coq types: the transaction is a mutable CElementsTransaction; the sequences are sequences;
    is_blind_success_strict is used for its truth value only. Auxiliary generators are bytes (bytearrays: ArrayModel.v). *)
From Verif Require Import Base Serialize TxModel IssuanceModel ScriptModel MiscModel BlindModel.
Local Open Scope Z_scope.
Local Open Scope blind_scope.

Inductive typed (A : Type) := Good (a : A) | Bad.
Arguments Good {A} _.
Arguments Bad {A}.
(** an element of blind_issuance_asset_keys or blind_issuance_token_keys: None, a CKeyBase, another object that is falsy, or
    another object *)
Inductive pykey := KNone | KKey (secret : bytes) | KFalsy | KOther.
(** custom_ct_exponent, custom_ct_bits *)
Inductive pyint := INone | IInt (n : Z) | IOther.
(** an element of input_descriptors; [NotDesc] lacks the attributes of a BlindingInputDescriptor *)
Inductive pydesc := Desc (asset : typed bytes) (amount : typed Z) (bf abf : typed bytes) | NotDesc.
Record dyn_args := mkDyn {
  y_descs : list pydesc;
  y_pubkeys : list (typed bytes);
  y_asset_keys : list pykey;
  y_token_keys : list pykey;
  y_aux : list (typed bytes);
  y_ct_exponent : pyint;
  y_ct_bits : pyint;
  y_strict : bool
}.

(** ensure_isinstance(x, T, ..) *)
Definition ensure {A} (x : typed A) : res unit := match x with Good _ => Ok tt | Bad => Raise EType end.
(** core/__init__.py:1212-1214, 1217-1219 *)
Definition ensure_key (k : pykey) : res unit := match k with KOther => Raise EType | _ => Ok tt end.
(** core/__init__.py:1224-1232 *)
Definition ensure_desc (d : pydesc) : res unit :=
  match d with
  | NotDesc => Raise EAttribute
  | Desc asset amount bf abf =>
    let! _ := ensure bf in let! _ := ensure abf in let! _ := ensure asset in ensure amount
  end.
(** core/__init__.py:1278-1283 *)
Definition ensure_aux (ag : typed bytes) : res unit :=
  match ag with Bad => Raise EType | Good b => if blen b =? 33 then Ok tt else Raise EValue end.
(** [for x in l: check(x)] *)
Fixpoint each {A} (check : A -> res unit) (l : list A) : res unit :=
  match l with [] => Ok tt | x :: l' => let! _ := check x in each check l' end.
Definition value_if (b : bool) : res unit := if b then Raise EValue else Ok tt.

(** The objects as they are used after the checks: values for what passed. *)
Definition desc_of (d : pydesc) : input_desc :=
  match d with
  | Desc (Good asset) (Good amount) (Good bf) (Good abf) => mkDesc asset amount bf abf
  | _ => mkDesc [] 0 [] []
  end.
Definition good {A} (a : A) (x : typed A) : A := match x with Good b => b | Bad => a end.
Definition int_of (x : pyint) : option Z := match x with IInt n => Some n | _ => None end.
(** [w]: stands for what is not None and not a key *)
Definition key_of (w : bytes) (k : pykey) : option bytes := match k with KKey s => Some s | KFalsy => Some w | _ => None end.
Definition args_of (w : bytes) (y : dyn_args) : blind_args :=
  mkArgs (map desc_of (y_descs y)) (map (good []) (y_pubkeys y)) (map (key_of w) (y_asset_keys y)) (map (key_of w) (y_token_keys y))
    (map (good []) (y_aux y)) (int_of (y_ct_exponent y)) (int_of (y_ct_bits y)) (y_strict y).

Section Dyn.
Variables (z : Crypto) (rand : nat -> bytes) (y : dyn_args).
(** whether a key is None, and all other arguments; the secrets of keys and the range proof parameters are taken from [y] *)
Let args := args_of [] y.

(** core/__init__.py:1206-1232, 1269-1283 *)
Definition check_dyn (t : tx) : res unit :=
  let! _ := value_if (negb (length (y_pubkeys y) <=? length (vout t))%nat) in
  let! _ := each ensure (y_pubkeys y) in
  let! _ := value_if (negb (length (y_asset_keys y) <=? length (vin t))%nat) in
  let! _ := each ensure_key (y_asset_keys y) in
  let! _ := value_if (negb (length (y_token_keys y) <=? length (vin t))%nat) in
  let! _ := each ensure_key (y_token_keys y) in
  let! _ := value_if (negb (length (vin t) =? length (y_descs y))%nat) in
  let! _ := each ensure_desc (y_descs y) in
  match y_aux y with
  | [] => Ok tt
  | _ => let! _ := value_if (negb (length (vin t) <=? length (y_aux y))%nat) in each ensure_aux (y_aux y)
  end.

(** core/__init__.py:1864-1874 *)
Definition ct_param (x : pyint) (default : Z) : res Z := match x with INone => Ok default | IInt n => Ok n | IOther => Raise EType end.
(** core/__init__.py:1821-1893 [generate_rangeproof] *)
Definition generate_rangeproof_dyn (in_blinds : list bytes) (nonce : bytes) (amount : Z) (script commit gen asset : bytes)
    (in_assetblinds : list bytes) : M bytes :=
  _ <- (if negb (blen commit =? 64) then mraise EValue else mret tt) ;;
  _ <- (if negb (blen gen =? 64) then mraise EValue else mret tt) ;;
  blind <- lift (last_res in_blinds) ;;
  assetblind <- lift (last_res in_assetblinds) ;;
  let assetsMessage := asset ++ assetblind in
  ct_exponent <- lift (ct_param (y_ct_exponent y) CT_EXPONENT) ;;
  ct_bits <- lift (ct_param (y_ct_bits y) CT_BITS) ;;
  lib_call (rp_sign z (rangeproof_min_value script) commit blind nonce (c_int ct_exponent) (c_int ct_bits) (c_uint64 amount)
              assetsMessage script gen).

(** core/__init__.py:1586-1593 [key.secret_bytes] *)
Definition secret_bytes (k : pykey) : res bytes := match k with KKey s => Ok s | _ => Raise EAttribute end.
(** core/__init__.py:1516-1606, one iteration of the inner loop *)
Definition blind_pseudo_dyn (nIn : nat) (pseudo : bool) (L : Loc) : M Loc :=
  match nth nIn (if pseudo then y_token_keys y else y_asset_keys y) KNone with
  | KNone => mret L
  | key =>
    let L := inc_attempts true L in
    t <- get_tx ;;
    inp <- lift (nth_res (vin t) nIn) ;;
    let iss := assetIssuance inp in
    let explicitValue := if pseudo then is_keys iss else is_amount iss in
    if conf_is_null explicitValue then mret L   (* continue *)
    else
    amount <- lift (to_amount explicitValue) ;;
    let L := add_amount amount L in
    ao <- (if uint256_is_null (is_nonce iss) then
             entropy <- lift (generate_asset_entropy (c_hash z) (c_mid z) (prevout inp) (is_entropy iss)) ;;
             asset <- lift (if pseudo then calculate_reissuance_token (c_mid z) entropy true
                            else calculate_asset (c_mid z) entropy) ;;
             mret (Some asset)
           else if pseudo then mret None
           else asset <- lift (calculate_asset (c_mid z) (is_entropy iss)) ;; mret (Some asset)) ;;
    match ao with
    | None => mret L   (* continue *)
    | Some asset =>
      b <- draw_uint256 rand ;;
      let L := add_blind b (zeros 32) L in
      if (l_attempts L =? l_toblind L)%nat then mreturn (blinding_result args L)
      else
      t <- get_tx ;;
      _ <- put_tx (set_inwits t (pad_to (S nIn) inwit_null (vtxinwit (wit t)))) ;;
      ag <- blinded_asset z asset (zeros 32) ;;
      let gen := snd ag in
      vc <- create_value_commitment z b gen amount ;;
      let '(confValue, commit) := vc in
      _ <- mod_vin nIn (fun i => set_issuance i
             (if pseudo then mkIssuance (is_nonce iss) (is_entropy iss) (is_amount iss) confValue
              else mkIssuance (is_nonce iss) (is_entropy iss) confValue (is_keys iss))) ;;
      secret <- lift (secret_bytes key) ;;
      nonce <- lift (uint256_new secret) ;;
      proof <- generate_rangeproof_dyn (l_blinds L) nonce amount [] commit gen asset (l_assetblinds L) ;;
      _ <- mod_inwit nIn (fun w =>
             if pseudo then mkInWit (iw_script w) (iw_issproof w) proof (iw_pegin w)
             else mkInWit (iw_script w) proof (iw_keysproof w) (iw_pegin w)) ;;
      mret (inc_success L)
    end
  end.
(** core/__init__.py:1505-1514 *)
Definition blind_input_dyn (nIn : nat) (L : Loc) : M Loc := L <- blind_pseudo_dyn nIn false L ;; blind_pseudo_dyn nIn true L.

(** core/__init__.py:1694-1732 *)
Definition finish_output_dyn (tags gens blinders : list bytes) (nOut : nat) (out_pub asset : bytes) (amount : Z) (L : Loc) : M Loc :=
  b <- lift (last_res (l_blinds L)) ;;
  ab <- lift (last_res (l_assetblinds L)) ;;
  let L := set_factors nOut b ab L in
  ag <- blinded_asset z asset ab ;;
  let '(confAsset, gen) := ag in
  _ <- mod_vout nOut (fun o => mkTxOut (nValue o) (scriptPubKey o) confAsset (nNonce o)) ;;
  vc <- create_value_commitment z b gen amount ;;
  let '(confValue, commit) := vc in
  _ <- mod_vout nOut (fun o => mkTxOut confValue (scriptPubKey o) (nAsset o) (nNonce o)) ;;
  ne <- generate_output_rangeproof_nonce z rand out_pub ;;
  let '(nonce, ephemeral_pubkey) := ne in
  confNonce <- lift (conf_new CConfNonce ephemeral_pubkey) ;;
  _ <- mod_vout nOut (fun o => mkTxOut (nValue o) (scriptPubKey o) (nAsset o) confNonce) ;;
  t <- get_tx ;;
  o <- lift (nth_res (vout t) nOut) ;;
  rangeproof <- generate_rangeproof_dyn (l_blinds L) nonce amount (scriptPubKey o) commit gen asset (l_assetblinds L) ;;
  sp <- generate_surjectionproof z rand tags gens blinders (l_assetblinds L) gen asset ;;
  match sp with
  | None | Some [] => mret L   (* continue *)
  | Some surjectionproof =>
      _ <- mod_outwit nOut (fun _ => mkOutWit surjectionproof rangeproof) ;;
      mret (inc_success L)
  end.
(** core/__init__.py:1614-1732, one iteration *)
Definition blind_output_dyn (tags gens blinders : list bytes) (np : nat * bytes) (L : Loc) : M Loc :=
  let '(nOut, out_pub) := np in
  if negb (is_fullyvalid z out_pub) then mret L
  else
    t <- get_tx ;;
    o <- lift (nth_res (vout t) nOut) ;;
    let L := inc_attempts false L in
    amount <- lift (to_amount (nValue o)) ;;
    asset <- lift (to_asset (nAsset o)) ;;
    let L := add_amount amount L in
    b <- draw_uint256 rand ;;
    ab <- draw_uint256 rand ;;
    let L := add_blind b ab L in
    if (l_attempts L =? l_toblind L)%nat then
      if (l_attempts L =? 1)%nat && (l_blindsin L =? 0)%nat then mreturn (blinding_result args L)
      else
        ob <- balance_last z L ;;
        match ob with
        | None => mreturn (blinding_result args (inc_success L))
        | Some b => finish_output_dyn tags gens blinders nOut out_pub asset amount (set_last_blind b L)
        end
    else finish_output_dyn tags gens blinders nOut out_pub asset amount L.

(** core/__init__.py:1184-1734 [blind_transaction] *)
Definition blind_body_dyn : M blind_ret :=
  t <- get_tx ;;
  _ <- lift (check_dyn t) ;;
  tgb <- surjection_targets z args ;;
  let '(tags, gens, blinders) := tgb in
  t <- get_tx ;;
  let nin := length (vin t) in
  let L := mkL 0 0 0 0 0 [] [] [] (repeat None (length (vout t))) (repeat None (length (vout t))) in
  L <- for_in (seq 0 nin) (count_input args) L ;;
  let pubs := combine (seq 0 (length (a_pubkeys args))) (a_pubkeys args) in
  L <- for_in pubs (count_output z) L ;;
  L <- for_in (seq 0 nin) blind_input_dyn L ;;
  t <- get_tx ;;
  _ <- put_tx (set_outwits t (pad_to (length (vout t)) outwit_null (vtxoutwit (wit t)))) ;;
  L <- for_in pubs (blind_output_dyn tags gens blinders) L ;;
  mret (blinding_result args L).
Definition blind_dyn (t : tx) : outcome blind_ret * St :=
  match blind_body_dyn (mkSt t 0) with
  | (Val r, s) => (Ret r, s)
  | x => x
  end.
End Dyn.
