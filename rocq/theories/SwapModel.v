(** The program examples/asset-atomic-swap.py: what the two parties do between messages. *)
From Verif Require Import Base Serialize TxModel MiscModel IssuanceModel BlindModel UnblindModel SpendModel WalletModel SighashModel ScriptModel ExampleModel.
Local Open Scope Z_scope.

(** What a node tells of an unspent output (listunspent), with the key from dumpprivkey. Fields that the program reads; amounts in
    satoshi (coins_to_satoshi), hexadecimal texts as bytes. [u_commitment], [u_value]: 'assetcommitment' and 'amountcommitment', absent
    for outputs that are not blinded. *)
Record utxo := mkUtxo {
  u_txid : bytes; u_vout : Z; u_asset : bytes; u_amount : Z; u_bf : bytes; u_abf : bytes;
  u_commitment : option bytes; u_value : option bytes; u_addr : addr; u_pub : bytes
}.
(** line 60 *)
Record offer := mkOffer { f_asset : bytes; f_amount : Z }.
(** line 72 *)
Definition FIXED_FEE_SATOSHI : Z := 10000.

(** How a turn of a party ends. *)
Inductive reason :=
| WrongOutputs          (* lines 170-172, 513-516 *)
| NotReadable           (* lines 177-179, 529-531 *)
| WrongAsset            (* lines 181-184, 533-537 *)
| WrongAmount           (* lines 186-189, 539-543 *)
| WrongAddresses        (* lines 195-197 *)
| LastNotFee            (* lines 518-520 *)
| BlindFailed (f : failure)     (* lines 314-315, 478-479 *)
| BlindCount (n : nat).         (* lines 318-320, 482-484 *)
Inductive turn :=
| Sends (t : tx) (b : bytes)    (* the transaction, and the message with its serialisation *)
| Dies (why : reason)           (* die(), lines 688-689 *)
| Crashes (e : exn).            (* another exception, lines 717-724 *)
Definition bindT {A} (r : res A) (k : A -> turn) : turn := match r with Ok a => k a | Raise e => Crashes e end.
Notation "'get!' x := r 'in' k" := (bindT r (fun x => k)) (at level 200, x pattern, r at level 100, k at level 200, right associativity).

(** [utxo['assetcommitment']] *)
Definition key_of {A} (o : option A) : res A := match o with Some c => Ok c | None => Raise EKey end.
(** [addr.blinding_pubkey]: a property of confidential addresses only, wallet.py:143-147 *)
Definition pubkey_of (a : addr) : res bytes := if ad_conf a then Ok (blinding_pubkey a) else Raise EAttribute.
(** lines 246-251, 935-941 *)
Definition descriptor (u : utxo) : input_desc := mkDesc (u_asset u) (u_amount u) (u_bf u) (u_abf u).
(** lines 243-245, 933-934 *)
Definition input_of (u : utxo) : res txin := let! o := outpoint_new (u_txid u) (u_vout u) in Ok (plain_input o).
(** an output made from an amount, an asset and a script *)
Definition output_of (amount : Z) (asset : bytes) (script : res bytes) : res txout :=
  let! v := conf_value_of_amount amount in
  let! a := conf_asset_of_asset asset in
  let! script := script in
  Ok (mkTxOut v script a []).
Fixpoint rmap {A B} (f : A -> res B) (l : list A) : res (list B) :=
  match l with [] => Ok [] | x :: r => let! y := f x in let! ys := rmap f r in Ok (y :: ys) end.

(** lines 826-852 [find_utxo_for_fee]: the first of the outputs sorted by amount (list.sort is stable) that is big enough. The node
    was asked for outputs of the fee asset. CAsset has no method to_commitment (core/__init__.py:280-324). *)
Fixpoint insert (u : utxo) (l : list utxo) : list utxo :=
  match l with [] => [u] | x :: r => if u_amount x <? u_amount u then x :: insert u r else u :: x :: r end.
Definition sorted (l : list utxo) : list utxo := fold_right insert [] l.
Definition find_utxo_for_fee (l : list utxo) : res (option utxo) :=
  match find (fun u => FIXED_FEE_SATOSHI * 2 <=? u_amount u) (sorted l) with
  | Some u => match u_commitment u with Some _ => Ok (Some u) | None => Raise EAttribute end
  | None => Ok None                                            (* die *)
  end.

Section Swap.
Variable z : Crypto.
Variable dw : default_wit.           (* the witness of a transaction made without one, see TxModel.v *)
Variable ver : Z.                    (* CTransaction.CURRENT_VERSION of bitcointx *)
Variable legacy : bytes -> tx -> Z -> Z -> res (bytes * bool).   (* the legacy hash *)
Variable Hash160 : bytes -> bytes.
Variable sign : bytes -> bytes -> bytes.      (* key.sign of bitcointx: public key for the key, message *)

(** lines 862-911 [sign_input]. VerifyScript is bitcointx's, it changes nothing. The classes of confidential addresses are not below
    those of plain ones (wallet.py:188-270), so line 872 refuses them. *)
Definition set_input (t : tx) (i : nat) (scriptsig : bytes) (stack : option (list bytes)) : res tx :=
  let! x := nth_res (vin t) i in
  let ins := upd (vin t) i (mkTxIn (prevout x) scriptsig (nSequence x) (assetIssuance x) (is_pegin x)) in
  match stack with
  | None => Ok (mkTx ins (vout t) (nLockTime t) (nVersion t) (wit t))
  | Some st =>
    let! _ := nth_res (vtxinwit (wit t)) i in
    Ok (mkTx ins (vout t) (nLockTime t) (nVersion t) (mkTxWit (upd (vtxinwit (wit t)) i (mkInWit st [] [] [])) (vtxoutwit (wit t))))
  end.
Definition sign_input (t : tx) (i : nat) (u : utxo) : res tx :=
  let h := Hash160 (u_pub u) in
  let script := [x76; xa9; x14] ++ h ++ [x88; xac] in
  let k := ad_kind (u_addr u) in
  let! _ := rassert (negb (ad_conf (u_addr u)) && (kind_eqb k P2PKH || kind_eqb k P2SH || kind_eqb k P2WPKH)) EAssert in
  let! amount := match u_value u with Some b => conf_new CConfValue b | None => conf_value_of_amount (u_amount u) end in
  let! hash := sighash legacy (c_hash z) script t (Z.of_nat i) SIGHASH_ALL (Some amount) (if kind_eqb k P2PKH then SIGVERSION_BASE else SIGVERSION_WITNESS_V0) in
  let sig := sign (u_pub u) hash ++ [zb SIGHASH_ALL] in
  match k with
  | P2PKH => let! a := encode_op_pushdata sig in let! b := encode_op_pushdata (u_pub u) in set_input t i (a ++ b) None
  | P2WPKH => set_input t i [] (Some [sig; u_pub u])
  | _ => let! a := encode_op_pushdata ([x00; x14] ++ h) in set_input t i a (Some [sig; u_pub u])
  end.
Fixpoint sign_all (t : tx) (i : nat) (us : list utxo) : res tx :=
  match us with [] => Ok t | u :: r => let! t := sign_input t i u in sign_all t (S i) r end.

(** blind, with what both parties do when it does not succeed; [strict] is the default *)
Definition blinds (rand : nat -> bytes) (descs : list input_desc) (pubs gens : list bytes) (expected : nat) (t : tx) (k : tx -> turn) : turn :=
  match blind_transaction z rand (mkArgs descs pubs [] [] gens None None true) t with
  | (Exc e, _) => Crashes e
  | (Val _, _) => Crashes EAssert   (* not an outcome of blind_transaction *)
  | (Ret (BFailure f), _) => Dies (BlindFailed f)
  | (Ret (BSuccess n bfs abfs), s) => if (n =? expected)%nat then k (s_tx s) else Dies (BlindCount n)
  end.

(** lines 426-488: Bob, from Alice's address and asset commitments to the message 'partial_blinded_tx' *)
Definition bob_offers (rand : nat -> bytes) (me : utxo) (alice_addr : addr) (alice_commitments : list bytes) : turn :=
  get! mine := key_of (u_commitment me) in
  get! i := input_of me in
  get! o := output_of (u_amount me) (u_asset me) (to_scriptPubKey alice_addr) in
  get! pub := pubkey_of alice_addr in
  let t := mkTx [i] [o] 0 ver (dw [i] [o]) in
  blinds rand [descriptor me] [pub] (mine :: alice_commitments) 1 t (fun t =>
  get! b := tx_serialize t in
  Sends t b).

(** lines 157-159: what Alice tells Bob of her outputs *)
Definition alice_commitments (a1 a2 fee : utxo) : res (list bytes) := rmap (fun u => key_of (u_commitment u)) [a1; a2; fee].

(** lines 165-189: Alice reads Bob's transaction *)
Definition alice_reads (bkey : bytes) (bob_offer : offer) (partial : tx) (k : turn) : turn :=
  match vout partial with
  | [o] =>
    get! w := nth_res (vtxoutwit (wit partial)) 0 in
    get! r := txout_unblind z o bkey (ow_range w) in
    match get_descriptor r with
    | None => Dies NotReadable
    | Some d => if negb (bytes_eqb (d_asset d) (f_asset bob_offer)) then Dies WrongAsset
                else if negb (d_amount d =? f_amount bob_offer) then Dies WrongAmount
                else k
    end
  | _ => Dies WrongOutputs
  end.
Definition no_input : input_desc := mkDesc (zeros 32) (-1) (zeros 32) (zeros 32).
(** lines 163-331: Alice, from Bob's messages 'partial_blinded_tx' and 'addr_list_and_assetcommitment' (and 'offer' before) to
    'partially_signed_tx'. [a1], [a2], [fee]: her outputs; [change]: her own address for the change; [bkey]: the blinding key of the
    address that she gave to Bob. *)
Definition alice_signs (rand : nat -> bytes) (a1 a2 fee : utxo) (fee_asset : bytes) (change : addr) (bkey : bytes)
    (bob_offer : offer) (partial_bytes : bytes) (bob_addrs : list addr) (bob_commitment : bytes) : turn :=
  get! partial := tx_deserialize dw partial_bytes in
  alice_reads bkey bob_offer partial (
  match bob_addrs with
  | [b1; b2] =>
    get! ins := rmap input_of [a1; a2; fee] in
    get! o1 := output_of (u_amount a1) (u_asset a1) (to_scriptPubKey b1) in
    get! k1 := pubkey_of b1 in
    get! o2 := output_of (u_amount a2) (u_asset a2) (to_scriptPubKey b2) in
    get! k2 := pubkey_of b2 in
    get! o3 := output_of (u_amount fee - FIXED_FEE_SATOSHI) fee_asset (to_scriptPubKey change) in
    get! k3 := pubkey_of change in
    get! o4 := output_of FIXED_FEE_SATOSHI fee_asset (Ok []) in
    let t := mkTx (vin partial ++ ins) (vout partial ++ [o1; o2; o3; o4]) (nLockTime partial) (nVersion partial)
                  (mkTxWit (vtxinwit (wit partial) ++ repeat inwit_null 3) (vtxoutwit (wit partial) ++ repeat outwit_null 4)) in
    blinds rand (no_input :: map descriptor [a1; a2; fee]) [[]; k1; k2; k3; []] (bob_commitment :: repeat (zeros 33) 3) 3 t (fun t =>
    get! t := sign_all t 1 [a1; a2; fee] in
    get! b := tx_serialize t in
    Sends t b)
  | _ => Dies WrongAddresses
  end).

(** lines 504-577: Bob, from 'partially_signed_tx' to 'final-signed-tx'. [keys]: the blinding keys of the addresses he gave. *)
Fixpoint bob_reads (t : tx) (n : nat) (keys : list bytes) (offers : list offer) (k : turn) : turn :=
  match offers with
  | [] => k
  | f :: offers =>
    get! o := nth_res (vout t) (n + 1) in
    get! key := nth_res keys n in
    get! w := nth_res (vtxoutwit (wit t)) (n + 1) in
    get! r := txout_unblind z o key (ow_range w) in
    match get_descriptor r with
    | None => Dies NotReadable
    | Some d => if negb (bytes_eqb (d_asset d) (f_asset f)) then Dies WrongAsset
                else if negb (d_amount d =? f_amount f) then Dies WrongAmount
                else bob_reads t (S n) keys offers k
    end
  end.
Definition bob_signs (me : utxo) (keys : list bytes) (alice_offers : list offer) (semi_signed : bytes) : turn :=
  get! t := tx_deserialize dw semi_signed in
  if negb (length (vout t) =? length alice_offers + 3)%nat then Dies WrongOutputs
  else
    get! o := nth_res (rev (vout t)) 0 in
    if negb (txout_is_fee o) then Dies LastNotFee
    else bob_reads t 0 keys alice_offers (
      get! t := sign_input t 0 me in
      get! b := tx_serialize t in
      Sends t b).

(** lines 350-371: Alice gets the signed transaction. True: she broadcasts it; false: she claims her funds back. *)
Fixpoint same_prevouts (l mine : list txin) : bool :=
  match l, mine with
  | [], _ => true
  | x :: l, y :: mine => bytes_eqb (op_hash (prevout x)) (op_hash (prevout y)) && (op_n (prevout x) =? op_n (prevout y)) && same_prevouts l mine
  | _ :: _, [] => false              (* IndexError, caught at line 361 *)
  end.
Definition alice_broadcasts (mine : tx) (final : bytes) : option tx :=
  match tx_deserialize dw final with
  | Ok t => if same_prevouts (vin t) (vin mine) then Some t else None
  | Raise _ => None
  end.
End Swap.
