(** Transactions as Python objects: references, mutable and immutable classes, copies, and blind_transaction writing through
    references. TxModel.v and BlindModel.v treat a transaction as a value; here [tx.vout[i]] names an object that may be shared.

    Modelled from /repo: core/__init__.py:441-459 and 489-507 (CElementsTxInWitness), 550-555 and 596-607
    (CElementsTxOutWitness), 647-664 and 709-722 (CElementsTxWitness), 821-832 and 901-915 (CElementsTxIn), 952-971 and
    1023-1036 (CElementsTxOut), the to_mutable/to_immutable declarations, and the assignments of blind_transaction.
    Taken from bitcointx, which is not in /repo: an immutable class refuses attribute assignment with AttributeError and holds
    tuples, which have no append (tests/test_elements_sidechain_transactions.py:113-117, 184-204); [cls._from_instance(x, ...)]
    returns x itself if x and cls are immutable and otherwise calls cls(...); the constructors of CTxIn and CTransaction build
    their parts with from_outpoint, from_txin, from_txout and from_witness, in the mutable class exactly when they are mutable
    themselves (tests, same file:672-742).
    Simplifications: each transaction and witness object has its own list objects; CConfidential*, CAssetIssuance, scripts,
    script witnesses, integers and bytes are immutable and so are values; a bytearray is an object. *)
From Verif Require Import Base Serialize TxModel IssuanceModel ScriptModel MiscModel BlindModel.
Local Open Scope Z_scope.

(** An object: of a mutable class or not, and its attributes. A reference is a position in the store of its class. *)
Record cell (A : Type) := mkCell { c_mut : bool; c_val : A }.
Arguments mkCell {A} _ _.
Arguments c_mut {A} _.
Arguments c_val {A} _.

(** CElementsTxIn: the outpoint is an object *)
Record txin_obj := mkInObj { io_prevout : nat; io_script : bytes; io_seq : Z; io_iss : issuance; io_pegin : bool }.
(** bytes or a reference to a bytearray *)
Inductive buf := BBytes (b : bytes) | BArray (a : nat).
(** CElementsTxOutWitness: keeps the objects it is given, core/__init__.py:550-555 *)
Record outwit_obj := mkOwObj { oo_surj : buf; oo_range : buf }.
(** CElementsTxWitness *)
Record wit_obj := mkWitObj { wo_in : list nat; wo_out : list nat }.
(** CElementsTransaction *)
Record tx_obj := mkTxObj { to_vin : list nat; to_vout : list nat; to_lock : Z; to_ver : Z; to_wit : nat }.

Record heap := mkHeap {
  h_ops : list (cell outpoint);
  h_ins : list (cell txin_obj);
  h_outs : list (cell txout);
  h_iws : list (cell inwit);
  h_ows : list (cell outwit_obj);
  h_wits : list (cell wit_obj);
  h_txs : list (cell tx_obj);
  h_arrs : list bytes
}.
Definition set_ops (h : heap) l : heap := mkHeap l (h_ins h) (h_outs h) (h_iws h) (h_ows h) (h_wits h) (h_txs h) (h_arrs h).
Definition set_ins (h : heap) l : heap := mkHeap (h_ops h) l (h_outs h) (h_iws h) (h_ows h) (h_wits h) (h_txs h) (h_arrs h).
Definition set_outs (h : heap) l : heap := mkHeap (h_ops h) (h_ins h) l (h_iws h) (h_ows h) (h_wits h) (h_txs h) (h_arrs h).
Definition set_iws (h : heap) l : heap := mkHeap (h_ops h) (h_ins h) (h_outs h) l (h_ows h) (h_wits h) (h_txs h) (h_arrs h).
Definition set_ows (h : heap) l : heap := mkHeap (h_ops h) (h_ins h) (h_outs h) (h_iws h) l (h_wits h) (h_txs h) (h_arrs h).
Definition set_wits (h : heap) l : heap := mkHeap (h_ops h) (h_ins h) (h_outs h) (h_iws h) (h_ows h) l (h_txs h) (h_arrs h).
Definition set_txs (h : heap) l : heap := mkHeap (h_ops h) (h_ins h) (h_outs h) (h_iws h) (h_ows h) (h_wits h) l (h_arrs h).
Definition set_arrs (h : heap) l : heap := mkHeap (h_ops h) (h_ins h) (h_outs h) (h_iws h) (h_ows h) (h_wits h) (h_txs h) l.

(** Following a reference. A reference to nothing does not exist in Python; here it raises. *)
Definition deref {A} (l : list A) (a : nat) : res A := match nth_error l a with Some c => Ok c | None => Raise EAttribute end.
(** Attribute assignment *)
Definition cset {A} (l : list (cell A)) (a : nat) (v : A) : res (list (cell A)) :=
  let! c := deref l a in if c_mut c then Ok (upd l a (mkCell true v)) else Raise EAttribute.

(** * Reading: the value a transaction object stands for *)
Definition view_buf (h : heap) (b : buf) : res bytes := match b with BBytes x => Ok x | BArray a => deref (h_arrs h) a end.
Definition view_in (h : heap) (a : nat) : res txin :=
  let! c := deref (h_ins h) a in
  let! p := deref (h_ops h) (io_prevout (c_val c)) in
  Ok (mkTxIn (c_val p) (io_script (c_val c)) (io_seq (c_val c)) (io_iss (c_val c)) (io_pegin (c_val c))).
Definition view_out (h : heap) (a : nat) : res txout := let! c := deref (h_outs h) a in Ok (c_val c).
Definition view_iw (h : heap) (a : nat) : res inwit := let! c := deref (h_iws h) a in Ok (c_val c).
Definition view_ow (h : heap) (a : nat) : res outwit :=
  let! c := deref (h_ows h) a in
  let! s := view_buf h (oo_surj (c_val c)) in
  let! r := view_buf h (oo_range (c_val c)) in
  Ok (mkOutWit s r).
Definition view_wit (h : heap) (a : nat) : res txwit :=
  let! c := deref (h_wits h) a in
  let! i := rmap (view_iw h) (wo_in (c_val c)) in
  let! o := rmap (view_ow h) (wo_out (c_val c)) in
  Ok (mkTxWit i o).
Definition view_tx (h : heap) (a : nat) : res tx :=
  let! c := deref (h_txs h) a in
  let! i := rmap (view_in h) (to_vin (c_val c)) in
  let! o := rmap (view_out h) (to_vout (c_val c)) in
  let! w := view_wit h (to_wit (c_val c)) in
  Ok (mkTx i o (to_lock (c_val c)) (to_ver (c_val c)) w).

(** * Construction; [m]: the class is mutable *)
Definition new_outpoint (m : bool) (v : outpoint) (h : heap) : nat * heap := (length (h_ops h), set_ops h (h_ops h ++ [mkCell m v])).
(** bitcointx COutPoint.from_outpoint *)
Definition from_outpoint (m : bool) (a : nat) (h : heap) : res (nat * heap) :=
  let! c := deref (h_ops h) a in
  if negb m && negb (c_mut c) then Ok (a, h) else Ok (new_outpoint m (c_val c) h).
(** core/__init__.py:821-832 and bitcointx CTxIn.__init__ *)
Definition new_txin (m : bool) (p : nat) (script : bytes) (seq : Z) (iss : issuance) (pegin : bool) (h : heap) : res (nat * heap) :=
  let! x := from_outpoint m p h in
  let '(p', h) := x in
  Ok (length (h_ins h), set_ins h (h_ins h ++ [mkCell m (mkInObj p' script seq iss pegin)])).
(** core/__init__.py:901-915 [from_instance], [from_txin] *)
Definition from_txin (m : bool) (a : nat) (h : heap) : res (nat * heap) :=
  let! c := deref (h_ins h) a in
  let! x := from_outpoint m (io_prevout (c_val c)) h in
  let '(p, h) := x in
  if negb m && negb (c_mut c) then Ok (a, h)
  else new_txin m p (io_script (c_val c)) (io_seq (c_val c)) (io_iss (c_val c)) (io_pegin (c_val c)) h.
(** core/__init__.py:952-971 *)
Definition new_txout (m : bool) (v : txout) (h : heap) : nat * heap := (length (h_outs h), set_outs h (h_outs h ++ [mkCell m v])).
(** core/__init__.py:1023-1036 *)
Definition from_txout (m : bool) (a : nat) (h : heap) : res (nat * heap) :=
  let! c := deref (h_outs h) a in
  if negb m && negb (c_mut c) then Ok (a, h) else Ok (new_txout m (c_val c) h).
(** core/__init__.py:441-459: copies the proofs into bytes *)
Definition new_inwit (m : bool) (v : inwit) (h : heap) : nat * heap := (length (h_iws h), set_iws h (h_iws h ++ [mkCell m v])).
(** core/__init__.py:489-507 *)
Definition from_inwit (m : bool) (a : nat) (h : heap) : res (nat * heap) :=
  let! c := deref (h_iws h) a in
  if negb m && negb (c_mut c) then Ok (a, h) else Ok (new_inwit m (c_val c) h).
(** core/__init__.py:550-555: keeps the proofs it is given *)
Definition new_outwit (m : bool) (v : outwit_obj) (h : heap) : nat * heap := (length (h_ows h), set_ows h (h_ows h ++ [mkCell m v])).
(** core/__init__.py:596-607 *)
Definition from_outwit (m : bool) (a : nat) (h : heap) : res (nat * heap) :=
  let! c := deref (h_ows h) a in
  if negb m && negb (c_mut c) then Ok (a, h) else Ok (new_outwit m (c_val c) h).
(** [[f(x) for x in l]] *)
Fixpoint map_heap (f : nat -> heap -> res (nat * heap)) (l : list nat) (h : heap) : res (list nat * heap) :=
  match l with
  | [] => Ok ([], h)
  | a :: l' => let! x := f a h in let '(b, h1) := x in
               let! y := map_heap f l' h1 in let '(bs, h2) := y in Ok (b :: bs, h2)
  end.
(** core/__init__.py:647-664 *)
Definition new_wit (m : bool) (ins outs : list nat) (h : heap) : res (nat * heap) :=
  let! x := map_heap (from_inwit m) ins h in let '(i, h) := x in
  let! y := map_heap (from_outwit m) outs h in let '(o, h) := y in
  Ok (length (h_wits h), set_wits h (h_wits h ++ [mkCell m (mkWitObj i o)])).
(** core/__init__.py:709-722 *)
Definition from_wit (m : bool) (a : nat) (h : heap) : res (nat * heap) :=
  let! c := deref (h_wits h) a in
  if negb m && negb (c_mut c) then Ok (a, h) else new_wit m (wo_in (c_val c)) (wo_out (c_val c)) h.
(** bitcointx CTransaction.__init__ *)
Definition new_tx (m : bool) (vin vout : list nat) (lock ver : Z) (wit : option nat) (h : heap) : res (nat * heap) :=
  let! x := map_heap (from_txin m) vin h in let '(i, h) := x in
  let! y := map_heap (from_txout m) vout h in let '(o, h) := y in
  let! w := match wit with Some a => from_wit m a h | None => new_wit m [] [] h end in let '(w, h) := w in
  Ok (length (h_txs h), set_txs h (h_txs h ++ [mkCell m (mkTxObj i o lock ver w)])).
(** bitcointx CTransaction.from_instance; to_mutable() and to_immutable() *)
Definition from_tx (m : bool) (a : nat) (h : heap) : res (nat * heap) :=
  let! c := deref (h_txs h) a in
  if negb m && negb (c_mut c) then Ok (a, h)
  else new_tx m (to_vin (c_val c)) (to_vout (c_val c)) (to_lock (c_val c)) (to_ver (c_val c)) (Some (to_wit (c_val c))) h.
Definition to_mutable := from_tx true.
Definition to_immutable := from_tx false.

(** * blind_transaction through references *)
Record BSt := mkBSt { b_heap : heap; b_draws : nat }.
Definition BM (A : Type) : Type := BSt -> outcome A * BSt.
Definition bret {A} (a : A) : BM A := fun s => (Val a, s).
Definition bbind {A B} (m : BM A) (k : A -> BM B) : BM B := fun s =>
  match m s with
  | (Val a, s') => k a s'
  | (Ret r, s') => (Ret r, s')
  | (Exc e, s') => (Exc e, s')
  end.
Declare Scope obj_scope.
Notation "x <== m ;; k" := (bbind m (fun x => k)) (at level 100, m at next level, right associativity) : obj_scope.
Local Open Scope obj_scope.
Fixpoint bfor {A L} (l : list A) (body : A -> L -> BM L) (st : L) : BM L :=
  match l with
  | [] => bret st
  | x :: l' => st' <== body x st ;; bfor l' body st'
  end.
(** An update of the heap that may raise *)
Definition bupd (f : heap -> res heap) : BM unit := fun s =>
  match f (b_heap s) with Ok h => (Val tt, mkBSt h (b_draws s)) | Raise e => (Exc e, s) end.
Definition index {A} (l : list A) (n : nat) : res A := nth_res l n.

Section Blind.
(** The transaction object given to blind() *)
Variable me : nat.
(** Code that reads the transaction and assigns nothing *)
Definition reading {A} (m : M A) : BM A := fun s =>
  match view_tx (b_heap s) me with
  | Ok t => let '(o, st) := m (mkSt t (b_draws s)) in (o, mkBSt (b_heap s) (s_draws st))
  | Raise e => (Exc e, s)
  end.
Definition my_tx (h : heap) : res tx_obj := let! c := deref (h_txs h) me in Ok (c_val c).
Definition my_wit (h : heap) : res wit_obj := let! t := my_tx h in let! c := deref (h_wits h) (to_wit t) in Ok (c_val c).
(** [tx.vout[n].<field> = ...] *)
Definition assign_vout (n : nat) (f : txout -> txout) : BM unit := bupd (fun h =>
  let! t := my_tx h in let! a := index (to_vout t) n in let! c := deref (h_outs h) a in
  let! l := cset (h_outs h) a (f (c_val c)) in Ok (set_outs h l)).
(** [tx.vin[n].assetIssuance = iss] *)
Definition assign_issuance (n : nat) (iss : issuance) : BM unit := bupd (fun h =>
  let! t := my_tx h in let! a := index (to_vin t) n in let! c := deref (h_ins h) a in
  let! l := cset (h_ins h) a (mkInObj (io_prevout (c_val c)) (io_script (c_val c)) (io_seq (c_val c)) iss (io_pegin (c_val c))) in
  Ok (set_ins h l)).
(** [tx.wit.vtxinwit[n].<field> = ...] *)
Definition assign_inwit (n : nat) (f : inwit -> inwit) : BM unit := bupd (fun h =>
  let! w := my_wit h in let! a := index (wo_in w) n in let! c := deref (h_iws h) a in
  let! l := cset (h_iws h) a (f (c_val c)) in Ok (set_iws h l)).
(** [tx.wit.vtxoutwit[n].rangeproof = r; tx.wit.vtxoutwit[n].surjectionproof = s] *)
Definition assign_outwit (n : nat) (s r : bytes) : BM unit := bupd (fun h =>
  let! w := my_wit h in let! a := index (wo_out w) n in
  let! l := cset (h_ows h) a (mkOwObj (BBytes s) (BBytes r)) in Ok (set_ows h l)).
(** [while len(tx.wit.vtxinwit) < n: tx.wit.vtxinwit.append(CElementsMutableTxInWitness())]: new mutable objects *)
Definition pad_inwits (n : nat) : BM unit := bupd (fun h =>
  let! t := my_tx h in let! c := deref (h_wits h) (to_wit t) in
  let w := c_val c in
  let k := (n - length (wo_in w))%nat in
  if (k =? 0)%nat then Ok h
  else
    let new := seq (length (h_iws h)) k in
    let! l := cset (h_wits h) (to_wit t) (mkWitObj (wo_in w ++ new) (wo_out w)) in
    Ok (set_wits (set_iws h (h_iws h ++ repeat (mkCell true inwit_null) k)) l)).
Definition pad_outwits (n : nat) : BM unit := bupd (fun h =>
  let! t := my_tx h in let! c := deref (h_wits h) (to_wit t) in
  let w := c_val c in
  let k := (n - length (wo_out w))%nat in
  if (k =? 0)%nat then Ok h
  else
    let new := seq (length (h_ows h)) k in
    let! l := cset (h_wits h) (to_wit t) (mkWitObj (wo_in w) (wo_out w ++ new)) in
    Ok (set_wits (set_ows h (h_ows h ++ repeat (mkCell true (mkOwObj (BBytes []) (BBytes []))) k)) l)).

Variable z : Crypto.
Variable rand : nat -> bytes.
Variable args : blind_args.

(** core/__init__.py:1516-1606 *)
Definition blind_pseudo_obj (nIn : nat) (pseudo : bool) (L : Loc) : BM Loc :=
  match key_at (if pseudo then a_token_keys args else a_asset_keys args) nIn with
  | None => bret L
  | Some key =>
    let L := inc_attempts true L in
    t <== reading get_tx ;;
    inp <== reading (lift (nth_res (vin t) nIn)) ;;
    let iss := assetIssuance inp in
    let explicitValue := if pseudo then is_keys iss else is_amount iss in
    if conf_is_null explicitValue then bret L
    else
    amount <== reading (lift (to_amount explicitValue)) ;;
    let L := add_amount amount L in
    ao <== reading (if uint256_is_null (is_nonce iss) then
             mbind (lift (generate_asset_entropy (c_hash z) (c_mid z) (prevout inp) (is_entropy iss))) (fun entropy =>
             mbind (lift (if pseudo then calculate_reissuance_token (c_mid z) entropy true else calculate_asset (c_mid z) entropy)) (fun asset =>
             mret (Some asset)))
           else if pseudo then mret None
           else mbind (lift (calculate_asset (c_mid z) (is_entropy iss))) (fun asset => mret (Some asset))) ;;
    match ao with
    | None => bret L
    | Some asset =>
      b <== reading (draw_uint256 rand) ;;
      let L := add_blind b (zeros 32) L in
      if (l_attempts L =? l_toblind L)%nat then reading (mreturn (blinding_result args L))
      else
      _ <== pad_inwits (S nIn) ;;
      ag <== reading (blinded_asset z asset (zeros 32)) ;;
      let gen := snd ag in
      vc <== reading (create_value_commitment z b gen amount) ;;
      let '(confValue, commit) := vc in
      _ <== assign_issuance nIn
             (if pseudo then mkIssuance (is_nonce iss) (is_entropy iss) (is_amount iss) confValue
              else mkIssuance (is_nonce iss) (is_entropy iss) confValue (is_keys iss)) ;;
      nonce <== reading (lift (uint256_new key)) ;;
      proof <== reading (generate_rangeproof z (l_blinds L) nonce amount [] commit gen asset (l_assetblinds L)
                 (a_ct_exponent args) (a_ct_bits args)) ;;
      _ <== assign_inwit nIn (fun w =>
             if pseudo then mkInWit (iw_script w) (iw_issproof w) proof (iw_pegin w)
             else mkInWit (iw_script w) proof (iw_keysproof w) (iw_pegin w)) ;;
      bret (inc_success L)
    end
  end.
(** core/__init__.py:1505-1514 *)
Definition blind_input_obj (nIn : nat) (L : Loc) : BM Loc :=
  L <== blind_pseudo_obj nIn false L ;; blind_pseudo_obj nIn true L.

(** core/__init__.py:1694-1732 *)
Definition finish_output_obj (tags gens blinders : list bytes) (nOut : nat) (out_pub asset : bytes) (amount : Z) (L : Loc) : BM Loc :=
  b <== reading (lift (last_res (l_blinds L))) ;;
  ab <== reading (lift (last_res (l_assetblinds L))) ;;
  let L := set_factors nOut b ab L in
  ag <== reading (blinded_asset z asset ab) ;;
  let '(confAsset, gen) := ag in
  _ <== assign_vout nOut (fun o => mkTxOut (nValue o) (scriptPubKey o) confAsset (nNonce o)) ;;
  vc <== reading (create_value_commitment z b gen amount) ;;
  let '(confValue, commit) := vc in
  _ <== assign_vout nOut (fun o => mkTxOut confValue (scriptPubKey o) (nAsset o) (nNonce o)) ;;
  ne <== reading (generate_output_rangeproof_nonce z rand out_pub) ;;
  let '(nonce, ephemeral_pubkey) := ne in
  confNonce <== reading (lift (conf_new CConfNonce ephemeral_pubkey)) ;;
  _ <== assign_vout nOut (fun o => mkTxOut (nValue o) (scriptPubKey o) (nAsset o) confNonce) ;;
  t <== reading get_tx ;;
  o <== reading (lift (nth_res (vout t) nOut)) ;;
  rangeproof <== reading (generate_rangeproof z (l_blinds L) nonce amount (scriptPubKey o) commit gen asset (l_assetblinds L)
                  (a_ct_exponent args) (a_ct_bits args)) ;;
  sp <== reading (generate_surjectionproof z rand tags gens blinders (l_assetblinds L) gen asset) ;;
  match sp with
  | None | Some [] => bret L
  | Some surjectionproof =>
      _ <== assign_outwit nOut surjectionproof rangeproof ;;
      bret (inc_success L)
  end.

(** core/__init__.py:1614-1732, one iteration *)
Definition blind_output_obj (tags gens blinders : list bytes) (np : nat * bytes) (L : Loc) : BM Loc :=
  let '(nOut, out_pub) := np in
  if negb (is_fullyvalid z out_pub) then bret L
  else
    t <== reading get_tx ;;
    o <== reading (lift (nth_res (vout t) nOut)) ;;
    let L := inc_attempts false L in
    amount <== reading (lift (to_amount (nValue o))) ;;
    asset <== reading (lift (to_asset (nAsset o))) ;;
    let L := add_amount amount L in
    b <== reading (draw_uint256 rand) ;;
    ab <== reading (draw_uint256 rand) ;;
    let L := add_blind b ab L in
    if (l_attempts L =? l_toblind L)%nat then
      if (l_attempts L =? 1)%nat && (l_blindsin L =? 0)%nat then reading (mreturn (blinding_result args L))
      else
        ob <== reading (balance_last z L) ;;
        match ob with
        | None => reading (mreturn (blinding_result args (inc_success L)))
        | Some b => finish_output_obj tags gens blinders nOut out_pub asset amount (set_last_blind b L)
        end
    else finish_output_obj tags gens blinders nOut out_pub asset amount L.

(** core/__init__.py:1206-1734 *)
Definition blind_body_obj : BM blind_ret :=
  _ <== reading (check_arguments args) ;;
  tgb <== reading (surjection_targets z args) ;;
  let '(tags, gens, blinders) := tgb in
  t <== reading get_tx ;;
  let nin := length (vin t) in
  let L := mkL 0 0 0 0 0 [] [] [] (repeat None (length (vout t))) (repeat None (length (vout t))) in
  L <== reading (for_in (seq 0 nin) (count_input args) L) ;;
  let pubs := combine (seq 0 (length (a_pubkeys args))) (a_pubkeys args) in
  L <== reading (for_in pubs (count_output z) L) ;;
  L <== bfor (seq 0 nin) blind_input_obj L ;;
  t <== reading get_tx ;;
  _ <== pad_outwits (length (vout t)) ;;
  L <== bfor pubs (blind_output_obj tags gens blinders) L ;;
  bret (blinding_result args L).

(** core/__init__.py:1184-1734 [tx.blind(...)] on the object; 1200-1201: only mutable transactions. [draws]: calls of the
    random function made so far. *)
Definition blind_obj (h : heap) (draws : nat) : outcome blind_ret * BSt :=
  match deref (h_txs h) me with
  | Raise e => (Exc e, mkBSt h draws)
  | Ok c =>
    if negb (c_mut c) then (Exc EValue, mkBSt h draws)
    else match blind_body_obj (mkBSt h draws) with
         | (Val r, s) => (Ret r, s)
         | x => x
         end
  end.
End Blind.

(** * Programs that use transactions *)
(** What a caller can do: make objects, copy them, assign attributes (any value of the right type; a list attribute is replaced,
    which covers append and item assignment), change a bytearray, blind. *)
Inductive op :=
| ONewOutPoint (m : bool) (v : outpoint)
| ONewTxIn (m : bool) (p : nat) (script : bytes) (seq : Z) (iss : issuance) (pegin : bool)
| ONewTxOut (m : bool) (v : txout)
| ONewInWit (m : bool) (v : inwit)
| ONewOutWit (m : bool) (v : outwit_obj)
| ONewWit (m : bool) (ins outs : list nat)
| ONewTx (m : bool) (vin vout : list nat) (lock ver : Z) (wit : option nat)
| ONewArray (b : bytes)
| OFromTxIn (m : bool) (a : nat)
| OFromTxOut (m : bool) (a : nat)
| OFromInWit (m : bool) (a : nat)
| OFromOutWit (m : bool) (a : nat)
| OFromWit (m : bool) (a : nat)
| OFromTx (m : bool) (a : nat)
| OSetOutPoint (a : nat) (v : outpoint)
| OSetTxIn (a : nat) (v : txin_obj)
| OSetTxOut (a : nat) (v : txout)
| OSetInWit (a : nat) (v : inwit)
| OSetOutWit (a : nat) (v : outwit_obj)
| OSetWit (a : nat) (v : wit_obj)
| OSetTx (a : nat) (v : tx_obj)
| OSetArray (a : nat) (b : bytes)
| OBlind (a : nat) (args : blind_args) (draws : nat).

(** The references a program holds are to objects. *)
Definition within {A} (l : list A) (a : nat) : bool := (a <? length l)%nat.
Definition buf_ok (h : heap) (b : buf) : bool := match b with BBytes _ => true | BArray a => within (h_arrs h) a end.
Definition names_objects (h : heap) (o : op) : bool :=
  match o with
  | ONewTxIn _ p _ _ _ _ => within (h_ops h) p
  | ONewOutWit _ v => buf_ok h (oo_surj v) && buf_ok h (oo_range v)
  | ONewWit _ i o => forallb (within (h_iws h)) i && forallb (within (h_ows h)) o
  | ONewTx _ i o _ _ w => forallb (within (h_ins h)) i && forallb (within (h_outs h)) o && match w with Some a => within (h_wits h) a | None => true end
  | OSetTxIn _ v => within (h_ops h) (io_prevout v)
  | OSetOutWit _ v => buf_ok h (oo_surj v) && buf_ok h (oo_range v)
  | OSetWit _ v => forallb (within (h_iws h)) (wo_in v) && forallb (within (h_ows h)) (wo_out v)
  | OSetTx _ v => forallb (within (h_ins h)) (to_vin v) && forallb (within (h_outs h)) (to_vout v) && within (h_wits h) (to_wit v)
  | _ => true
  end.

Section Run.
Variable z : Crypto.
Variable rand : nat -> bytes.
(** The heap after an operation that returned or raised (a raising assignment or constructor changes nothing a reference leads to). *)
Definition made (h : heap) (r : res (nat * heap)) : heap := match r with Ok (_, h') => h' | Raise _ => h end.
Definition stored (h : heap) (r : res heap) : heap := match r with Ok h' => h' | Raise _ => h end.
Definition exec (h : heap) (o : op) : heap :=
  if negb (names_objects h o) then h
  else match o with
  | ONewOutPoint m v => snd (new_outpoint m v h)
  | ONewTxIn m p s q i g => made h (new_txin m p s q i g h)
  | ONewTxOut m v => snd (new_txout m v h)
  | ONewInWit m v => snd (new_inwit m v h)
  | ONewOutWit m v => snd (new_outwit m v h)
  | ONewWit m i o => made h (new_wit m i o h)
  | ONewTx m i o l v w => made h (new_tx m i o l v w h)
  | ONewArray b => set_arrs h (h_arrs h ++ [b])
  | OFromTxIn m a => made h (from_txin m a h)
  | OFromTxOut m a => made h (from_txout m a h)
  | OFromInWit m a => made h (from_inwit m a h)
  | OFromOutWit m a => made h (from_outwit m a h)
  | OFromWit m a => made h (from_wit m a h)
  | OFromTx m a => made h (from_tx m a h)
  | OSetOutPoint a v => stored h (let! l := cset (h_ops h) a v in Ok (set_ops h l))
  | OSetTxIn a v => stored h (let! l := cset (h_ins h) a v in Ok (set_ins h l))
  | OSetTxOut a v => stored h (let! l := cset (h_outs h) a v in Ok (set_outs h l))
  | OSetInWit a v => stored h (let! l := cset (h_iws h) a v in Ok (set_iws h l))
  | OSetOutWit a v => stored h (let! l := cset (h_ows h) a v in Ok (set_ows h l))
  | OSetWit a v => stored h (let! l := cset (h_wits h) a v in Ok (set_wits h l))
  | OSetTx a v => stored h (let! l := cset (h_txs h) a v in Ok (set_txs h l))
  | OSetArray a b => if within (h_arrs h) a then set_arrs h (upd (h_arrs h) a b) else h
  | OBlind a args draws => b_heap (snd (blind_obj a z rand args h draws))
  end.
Definition run (h : heap) (p : list op) : heap := fold_left exec p h.
Definition empty_heap : heap := mkHeap [] [] [] [] [] [] [] [].
End Run.
