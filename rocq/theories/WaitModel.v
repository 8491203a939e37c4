(** The program examples/confidential-cross-chain-atomic-swap.py: waiting for confirmations and for the transaction that
    makes the key public.  What the node answers depends on when it is asked: an answer is a function of the number of calls
    made before.  time.sleep and say have no effect that is modelled. *)
From Verif Require Import Base CrossTxModel.
Local Open Scope Z_scope.

(** What an RPC call ends in: a result, JSONRPCError with its code, or any other exception. *)
Inductive reply (A : Type) := Got (a : A) | RpcErr (code : Z) | Broke (e : exn).
Arguments Got {A}. Arguments RpcErr {A}. Arguments Broke {A}.

(** ** lines 1012-1030 [wait_confirm]; the answer to getrawtransaction(txid, 1) is its entry 'confirmations', if there is one *)
Inductive confirm := Confirmed (calls : nat) | TimedOut (calls : nat) | Failed (calls : nat) (e : exn).
Definition confirmations (c : option Z) : Z := match c with Some n => n | None => 0 end.      (* .get('confirmations', 0) *)
Fixpoint poll_confirm (node : nat -> reply (option Z)) (num : Z) (n : nat) (k : nat) : confirm :=
  match n with
  | O => TimedOut k                                       (* return die('timed out waiting for confirmation') *)
  | S n => match node k with
              | Got c => if num <=? confirmations c then Confirmed (S k) else poll_confirm node num n (S k)
              | RpcErr _ => poll_confirm node num n (S k)      (* -5: pass; any other code: nothing either *)
              | Broke e => Failed (S k) e
              end
  end.
Definition polls : nat := 60.
Definition wait_confirm (node : nat -> reply (option Z)) (num : Z) : confirm := poll_confirm node num polls 0.

(** ** lines 966-1009 [wait_spend_reveal_transaction] *)
Definition txid := Z.
Definition hash := Z.
(** entries of getrawtransaction(txid, 1) of the contract's transaction: 'confirmations', 'blockhash' *)
Record info := mkInfo { i_conf : option Z; i_block : option hash }.
(** getblock: 'tx', 'nextblockhash' *)
Record block := mkBlock { b_tx : list txid; b_next : option hash }.
(** getrawtransaction of another transaction: 'txid' and 'vout' of its inputs; an input that makes new coins has neither *)
Definition ins := list (option (txid * Z)).
Record node := mkNode {
  n_info : nat -> reply info;
  n_block : nat -> hash -> reply block;
  n_ins : nat -> txid -> reply ins
}.

Inductive trouble := TRpc (code : Z) | TOther (e : exn).
Inductive seen := SFound (t : txid) | SNone | STrouble (w : trouble).
(** lines 996-1000 *)
Definition spends (contract : txid) (i : ins) : bool :=
  existsb (fun v => match v with Some (t, _) => t =? contract | None => false end) i.
Fixpoint scan (nd : node) (contract : txid) (k : nat) (l : list txid) : seen * nat :=
  match l with
  | [] => (SNone, k)
  | t :: r => match n_ins nd k t with
              | Got i => if spends contract i then (SFound t, S k) else scan nd contract (S k) r
              | RpcErr c => (STrouble (TRpc c), S k)
              | Broke e => (STrouble (TOther e), S k)
              end
  end.

(** [GaveUp] is die(..., peacefully=True); [Waiting] is the loop after the iterations asked for *)
Inductive waited := Found (t : txid) (calls : nat) | GaveUp (calls : nat) | Trouble (w : trouble) (calls : nat)
                  | Waiting (cur : option hash) (last : option block) (calls : nat).
Section Loop.
Variable nd : node.
Variable contract : txid.
(** the part of the body from line 996, with the variable [blk] *)
Definition look (b : block) (cur : hash) (k : nat) : waited :=
  match scan nd contract k (b_tx b) with
  | (SFound t, k) => Found t k
  | (STrouble w, k) => Trouble w k
  | (SNone, k) => Waiting (Some match b_next b with None => cur | Some h => h end) (Some b) k
  end.
(** one iteration; [cur] is current_blockhash, [last] is the variable [blk] as the iteration before left it *)
Definition poll (cur : option hash) (last : option block) (k : nat) : waited :=
  match n_info nd k with
  | RpcErr c => Trouble (TRpc c) (S k)
  | Broke e => Trouble (TOther e) (S k)
  | Got i =>
    let k := S k in
    if elements_timeout <? confirmations (i_conf i) then GaveUp k
    else match cur with
         | None => Waiting (i_block i) last k
         | Some h => match n_block nd k h with
                     | Got b => look b h (S k)
                     | Broke e => Trouble (TOther e) (S k)
                     | RpcErr c => if c =? -5 then Waiting None last (S k)
                                   else match last with
                                        | Some b => look b h (S k)           (* line 996 reads the old [blk] *)
                                        | None => Trouble (TOther EUnboundLocal) (S k)
                                        end
                     end
         end
  end.
Fixpoint polling (n : nat) (cur : option hash) (last : option block) (k : nat) : waited :=
  match n with
  | O => Waiting cur last k
  | S n => match poll cur last k with Waiting cur last k => polling n cur last k | r => r end
  end.
(** after [n] iterations *)
Definition wait_reveal (n : nat) : waited := polling n None None 0.
End Loop.
