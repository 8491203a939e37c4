(** Specification for C92, separate from the model of the waiting functions: a node that tells what is in its chain. *)
From Verif Require Import Base WaitModel.
Local Open Scope Z_scope.

(** A chain of blocks with their transactions and the inputs of these. *)
Definition chain := list (list (txid * ins)).
Fixpoint lookup (t : txid) (l : list (txid * ins)) : option ins :=
  match l with [] => None | (u, i) :: r => if u =? t then Some i else lookup t r end.

(** The chain as it is when the node is called for the [k]-th time; it only grows. *)
Definition Grows (ch : nat -> chain) : Prop := forall k, exists more, ch (S k) = ch k ++ more.
Definition Unique (c : chain) : Prop := NoDup (map fst (concat c)).

(** The number of a block stands for its hash. *)
Definition honest (ch : nat -> chain) (home : nat) : node := mkNode
  (fun k => if (home <? length (ch k))%nat
            then Got (mkInfo (Some (Z.of_nat (length (ch k) - home))) (Some (Z.of_nat home)))
            else Got (mkInfo None None))
  (fun k h => match nth_error (ch k) (Z.to_nat h) with
              | Some b => Got (mkBlock (map fst b) (if (S (Z.to_nat h) <? length (ch k))%nat then Some (h + 1) else None))
              | None => RpcErr (-5)
              end)
  (fun k t => match lookup t (concat (ch k)) with Some i => Got i | None => RpcErr (-5) end).

(** A node some of whose calls fail. *)
Definition fault (A : Type) (err : option trouble) (r : reply A) : reply A :=
  match err with None => r | Some (TRpc c) => RpcErr c | Some (TOther e) => Broke e end.
Arguments fault {A}.
Definition faulty (err : nat -> option trouble) (nd : node) : node := mkNode
  (fun k => fault (err k) (n_info nd k)) (fun k h => fault (err k) (n_block nd k h)) (fun k t => fault (err k) (n_ins nd k t)).

(** Some input takes an output of [contract], whichever output. *)
Definition Spends (contract : txid) (i : ins) : Prop := exists n, In (Some (contract, n)) i.
(** [t] is the first transaction, in block [j], that spends an output of [contract], from block [home] on. *)
Definition FirstSpend (c : chain) (home : nat) (contract : txid) (j : nat) (t : txid) : Prop :=
  (home <= j)%nat
  /\ (exists before i after, nth_error c j = Some (before ++ (t, i) :: after) /\ Spends contract i
                          /\ Forall (fun x => ~ Spends contract (snd x)) before)
  /\ forall j' b, (home <= j' < j)%nat -> nth_error c j' = Some b -> Forall (fun x => ~ Spends contract (snd x)) b.

(** Calls that reading the blocks from [home] to [j] takes: two for each block, one for each transaction in them. *)
Fixpoint calls_for (l : chain) : nat := match l with [] => 0 | b :: r => 2 + length b + calls_for r end.
Definition effort (c : chain) (home j : nat) : nat := calls_for (firstn (S j - home) (skipn home c)).

(** Waiting for confirmations: an answer that is good, one after which to ask again. An answer without the entry means zero. *)
Definition Enough (num : Z) (r : reply (option Z)) : Prop := (exists n, r = Got (Some n) /\ num <= n) \/ (r = Got None /\ num <= 0).
Definition NotYet (num : Z) (r : reply (option Z)) : Prop :=
  match r with Got (Some n) => n < num | Got None => 0 < num | RpcErr _ => True | Broke _ => False end.
Definition FirstTime (limit : nat) (ok no : nat -> Prop) (i : nat) : Prop := (i < limit)%nat /\ ok i /\ forall j, (j < i)%nat -> no j.
