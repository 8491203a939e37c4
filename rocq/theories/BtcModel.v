(** The program examples/confidential-cross-chain-atomic-swap.py: the transactions that spend the contract on the side of Bitcoin.
    Transactions of Bitcoin, their serialisation and the hash that is signed are bitcointx's (assumed, see DESIGN.md). *)
From Verif Require Import Base Serialize TxModel SighashModel CrossTxModel WaitModel.
Local Open Scope Z_scope.

(** CTxIn, CTxOut, CTransaction of bitcointx; the witness is one stack for each input. *)
Record btxin := mkBIn { bi_prev : outpoint; bi_script : bytes; bi_seq : Z }.
Record btxout := mkBOut { bo_value : Z; bo_script : bytes }.
Record btx := mkBtx { b_vin : list btxin; b_vout : list btxout; b_lock : Z; b_ver : Z; b_wit : list (list bytes) }.

(** stream_serialize of the three classes *)
Definition ser_bin (i : btxin) : res bytes :=
  let! p := ser_outpoint (bi_prev i) in let! s := ser_bytes (bi_script i) in let! q := pack_le 4 (bi_seq i) in Ok (p ++ s ++ q).
Definition ser_bout (o : btxout) : res bytes := let! v := pack_le_signed 8 (bo_value o) in let! s := ser_bytes (bo_script o) in Ok (v ++ s).
Definition btx_serialize (t : btx) : res bytes :=
  let! v := pack_le_signed 4 (b_ver t) in
  let! i := ser_vector ser_bin (b_vin t) in
  let! o := ser_vector ser_bout (b_vout t) in
  let! w := (if forallb (fun st => match st with [] => true | _ => false end) (b_wit t) then Ok None
             else let! w := ser_list ser_scriptwitness (b_wit t) in Ok (Some w)) in
  let! l := pack_le 4 (b_lock t) in
  Ok match w with None => v ++ i ++ o ++ l | Some w => v ++ [x00; x01] ++ i ++ o ++ w ++ l end.

Section Btc.
Variable Hash sha : bytes -> bytes.      (* double and single SHA-256 *)
Variable ver : Z.                        (* CTransaction.CURRENT_VERSION of bitcointx *)

(** RawBitcoinSignatureHash of bitcointx for SIGVERSION_WITNESS_V0 and SIGHASH_ALL *)
Definition btc_sighash (script : bytes) (t : btx) (inIdx : Z) (amount : Z) : res bytes :=
  let! p := ser_list (fun i => ser_outpoint (bi_prev i)) (b_vin t) in
  let! s := ser_list (fun i => pack_le 4 (bi_seq i)) (b_vin t) in
  let! o := ser_list ser_bout (b_vout t) in
  let! f1 := pack_le_signed 4 (b_ver t) in
  let! inp := py_nth (b_vin t) inIdx in
  let! f2 := ser_outpoint (bi_prev inp) in
  let! f3 := ser_bytes script in
  let! f4 := pack_le_signed 8 amount in
  let! f5 := pack_le 4 (bi_seq inp) in
  let! f6 := pack_le_signed 4 (b_lock t) in
  let! f7 := pack_le_signed 4 SIGHASH_ALL in
  Ok (Hash (f1 ++ Hash p ++ Hash s ++ f2 ++ f3 ++ f4 ++ f5 ++ Hash o ++ f6 ++ f7)).

(** line 103 *)
Definition bitcoin_timeout : Z := 15.
(** lines 602-646 [create_btc_spend_tx]; [dst] is dst_addr.to_scriptPubKey(), [reclaim] that branch_condition is not True, [sign]
    spend_key.sign; CTxIn has sequence number 0xffffffff unless given, CMutableTransaction lock time 0 and an empty stack for each input *)
Definition create_btc_spend_tx (dst txid : bytes) (n : Z) (contract : bytes) (reclaim : bool) (sign : bytes -> bytes) : res btx :=
  let! prev := outpoint_new txid n in
  let outs := [mkBOut (agreed - fixed_fee) dst] in
  let seq := if reclaim then bitcoin_timeout else 0xffffffff in
  let cond := if reclaim then [] else [x01] in
  let! hash := btc_sighash contract (mkBtx [mkBIn prev [] seq] outs 0 ver [[]]) 0 agreed in
  Ok (mkBtx [mkBIn prev [] seq] outs 0 ver [[sign hash ++ [zb SIGHASH_ALL]; cond; contract]]).

(** P2WSHCoinAddress.from_redeemScript(contract).to_scriptPubKey() *)
Definition witness_script (contract : bytes) : bytes := [x00; x20] ++ sha contract.

Inductive spent :=
| BSent (t : btx) (b : bytes)   (* sendrawtransaction *)
| BYoung                        (* lines 185-186 *)
| BNoOutput                     (* lines 209-210, 531-533: die() *)
| BOtherAmount                  (* lines 212-215 *)
| BWaits                        (* still in the loop of lines 521-523 *)
| BBroken (e : exn)
| BRpc (code : Z).              (* JSONRPCError *)
Definition bindB {A} (r : res A) (k : A -> spent) : spent := match r with Ok a => k a | Raise e => BBroken e end.

(** lines 176-215, Alice looks for the contract in Bob's transaction; [conf] and [hex] are the entries 'confirmations' and 'hex' of what the
    node says; [read] is CBitcoinTransaction.deserialize. What follows is [k]. *)
Fixpoint find_output (script : bytes) (n : Z) (outs : list btxout) : option (Z * btxout) :=
  match outs with [] => None | o :: outs => if bytes_eqb (bo_script o) script then Some (n, o) else find_output script (n + 1) outs end.
Definition alice_looks (read : bytes -> res btx) (conf : option Z) (hex contract : bytes) (k : Z -> spent) : spent :=
  match conf with
  | None => BBroken EKey
  | Some c =>
    if c <? 6 then BYoung
    else bindB (read hex) (fun from =>
      match find_output (witness_script contract) 0 (b_vout from) with
      | None => BNoOutput
      | Some (n, o) => if negb (bo_value o =? agreed) then BOtherAmount else k n
      end)
  end.
Definition send_tx (r : res btx) : spent := bindB r (fun t => bindB (btx_serialize t) (fun b => BSent t b)).
(** lines 290-297 *)
Definition alice_claims (dst txid : bytes) (n : Z) (contract : bytes) (sign : bytes -> bytes) : spent :=
  send_tx (create_btc_spend_tx dst txid n contract false sign).

(** lines 502-551 [try_reclaim_btc]; what the node says: 'confirmations', and for each output 'n' and scriptPubKey.addresses, if there *)
Record jout := mkJOut { jo_n : Z; jo_addresses : option (list bytes) }.
Record jtx := mkJTx { j_conf : option Z; j_vout : list jout }.
Fixpoint find_address (a : bytes) (outs : list jout) : res (option Z) :=
  match outs with
  | [] => Ok None
  | o :: outs => match jo_addresses o with
                 | None => Raise EKey
                 | Some l => if existsb (bytes_eqb a) l then Ok (Some (jo_n o)) else find_address a outs
                 end
  end.
(** [node k] answers the k-th call; [n] calls of the loop are followed, the first one counted *)
Fixpoint wait_age (node : nat -> reply jtx) (n k : nat) (done : jtx -> spent) : spent :=
  match n with
  | O => BWaits
  | S n => match node k with
           | RpcErr c => BRpc c
           | Broke e => BBroken e
           | Got j => match j_conf j with
                      | None => BBroken EKey
                      | Some c => if c <? bitcoin_timeout then wait_age node n (S k) done else done j
                      end
           end
  end.
Definition bob_reclaims (node : nat -> reply jtx) (n : nat) (from_addr dst txid contract : bytes) (sign : bytes -> bytes) : spent :=
  wait_age node n 0 (fun j =>
  bindB (find_address from_addr (j_vout j)) (fun r =>
  match r with
  | None => BNoOutput
  | Some vout_n => send_tx (create_btc_spend_tx dst txid vout_n contract true sign)
  end)).
End Btc.
