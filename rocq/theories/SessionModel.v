(** The harness [participant] of the two swap examples, and the order of messages and steps in the four functions it runs:
    examples/confidential-cross-chain-atomic-swap.py (lines of "cross" below) and examples/asset-atomic-swap.py ("asset").
    Only the flow of control: a step is any code between messages, it ends as the environment decides. *)
From Verif Require Import Base.

(** message types *)
Inductive mtype :=
| Bye                                                                   (* 'bye!', cross 896 and 931, asset 696 and 723 *)
| Pubkeys | BlindingKey | BtcTxid | EltTxid                             (* cross *)
| Ready | WaitTxid | Offer | AddrCommitments | PartialTx | AddrList | SignedTx | FinalTx | Thanks. (* asset *)
Definition mtype_eqb (a b : mtype) : bool :=
  match a, b with
  | Bye, Bye | Pubkeys, Pubkeys | BlindingKey, BlindingKey | BtcTxid, BtcTxid | EltTxid, EltTxid | Ready, Ready | WaitTxid, WaitTxid
  | Offer, Offer | AddrCommitments, AddrCommitments | PartialTx, PartialTx | AddrList, AddrList | SignedTx, SignedTx | FinalTx, FinalTx
  | Thanks, Thanks => true
  | _, _ => false
  end.
(** the steps that the claims speak of; [Work n]: other code, by its first line *)
Inductive label := Work (line : Z) | Connect | SendAsset | SendBitcoin | Broadcast | ClaimBack | ReclaimAsset | ReclaimBitcoin.
(** how a step ends: it goes on, an exception (not SystemExit) leaves it, it calls die *)
Inductive ending := Fine | Throws | Dies (peacefully : bool).
(** what pipe.poll and pipe.recv give *)
Inductive incoming := Silence | Arrives (t : mtype).

(** statements; [Try body handler]: try .. except Exception *)
Inductive basic := Step (l : label) | Send (t : mtype) | Recv (t : mtype) | SysExit.
Inductive item := Do (b : basic) | SetWish (w : list basic) | Try (body handler : list basic).
Definition program := list item.

(** what is to be seen *)
Inductive effect := Begins (l : label) | Ends (l : label) | Sent (t : mtype) | Got (t : mtype) | Unexpected (t : mtype) | WishSet | WishBegins.
Record state := mkState { steps : list ending; inbox : list incoming; wish : option (list basic); seen : list effect }.
Definition see (e : effect) (s : state) : state := mkState (steps s) (inbox s) (wish s) (seen s ++ [e]).
(** goes on; an exception; SystemExit; waits for a step to end or for a message *)
Inductive signal := Go | Exn | Exit | Working | Listening.

Section Harness.
(** do_last_wish *)
Variable last_wish : state -> signal * state.
(** cross 885-889; asset 688-689 without last wish *)
Definition die (peacefully : bool) (s : state) : signal * state :=
  match last_wish s with
  | (Go, s) => (if peacefully then Exit else Exn, s)
  | r => r
  end.
(** cross 891-906; asset 691-704 *)
Definition recv (t : mtype) (s : state) : signal * state :=
  match inbox s with
  | [] => (Listening, s)
  | Silence :: r => die false (mkState (steps s) r (wish s) (seen s))
  | Arrives m :: r =>
      let s := mkState (steps s) r (wish s) (seen s) in
      if mtype_eqb m Bye then
        match last_wish (see (Got m) s) with
        | (Go, s) => (Exit, s)
        | r => r
        end
      else if mtype_eqb m t then (Go, see (Got m) s)
      else die false (see (Unexpected m) s)
  end.
Definition step (l : label) (s : state) : signal * state :=
  let s := see (Begins l) s in
  match steps s with
  | [] => (Working, s)
  | e :: r =>
      let s := mkState r (inbox s) (wish s) (seen s) in
      match e with
      | Fine => (Go, see (Ends l) s)
      | Throws => (Exn, s)
      | Dies p => die p s
      end
  end.
Definition run_basic (b : basic) (s : state) : signal * state :=
  match b with
  | Step l => step l s
  | Send t => (Go, see (Sent t) s)        (* cross 908-909; asset 706-707 *)
  | Recv t => recv t s
  | SysExit => (Exit, s)
  end.
Fixpoint run_basics (l : list basic) (s : state) : signal * state :=
  match l with
  | [] => (Go, s)
  | b :: l => match run_basic b s with (Go, s) => run_basics l s | r => r end
  end.
End Harness.
(** cross 875-883 when there is none: no effect *)
Definition no_wish (s : state) : signal * state := (Go, s).
(** cross 875-883: last_wish_func is None while it runs *)
Definition do_last_wish (s : state) : signal * state :=
  match wish s with
  | None => (Go, s)
  | Some w => run_basics no_wish w (see WishBegins (mkState (steps s) (inbox s) None (seen s)))
  end.
Definition run_item (i : item) (s : state) : signal * state :=
  match i with
  | Do b => run_basic do_last_wish b s
  | SetWish w => (Go, see WishSet (mkState (steps s) (inbox s) (Some w) (seen s)))
  | Try body handler => match run_basics do_last_wish body s with
                        | (Exn, s) => run_basics do_last_wish handler s
                        | r => r
                        end
  end.
Fixpoint run (p : program) (s : state) : signal * state :=
  match p with
  | [] => (Go, s)
  | i :: p => match run_item i s with (Go, s) => run p s | r => r end
  end.
(** how the process ends: the function returned; sys.exit; a traceback; not yet *)
Inductive fate := Returned | Exited | Crashed | Works | Listens.
(** cross 914-932; asset 712-724, where there is never a last wish *)
Definition participant (p : program) (s : state) : fate * state :=
  match run p s with
  | (Go, s) => (Returned, s)
  | (Exit, s) => (Exited, s)
  | (Exn, s) => match do_last_wish s with
                | (Go, s) => (Exited, see (Sent Bye) s)
                | (Exn, s) => (Crashed, s)
                | (Exit, s) => (Exited, s)
                | (Working, s) => (Works, s)
                | (Listening, s) => (Listens, s)
                end
  | (Working, s) => (Works, s)
  | (Listening, s) => (Listens, s)
  end.
Definition start (steps : list ending) (inbox : list incoming) : state := mkState steps inbox None [].
Definition process (p : program) (e : list ending) (i : list incoming) : fate * state := participant (Do (Step Connect) :: p) (start e i).

Local Open Scope Z_scope.
(** cross 123-301 *)
Definition cross_alice : program :=
  [Do (Step (Work 135)); Do (Send Pubkeys); Do (Send BlindingKey); Do (Recv Pubkeys); Do (Step (Work 154)); Do (Recv BtcTxid);
   Do (Step (Work 178)); Do (Step SendAsset); SetWish [Step ReclaimAsset]; Do (Step (Work 230)); Do (Send EltTxid); Do (Step (Work 235));
   Do (Step (Work 237))].
(** cross 304-420 *)
Definition cross_bob : program :=
  [Do (Step (Work 315)); Do (Recv Pubkeys); Do (Step (Work 318)); Do (Recv BlindingKey); Do (Step (Work 320)); Do (Send Pubkeys);
   Do (Step (Work 338)); Do (Step SendBitcoin); SetWish [Step ReclaimBitcoin]; Do (Step (Work 360)); Do (Send BtcTxid); Do (Recv EltTxid);
   Do (Step (Work 365))].
(** asset 93-389 *)
Definition asset_alice : program :=
  [Do (Step (Work 98)); Do (Send Ready); Do (Recv WaitTxid); Do (Step (Work 124)); Do (Send Offer); Do (Recv Offer); Do (Step (Work 142));
   Do (Send AddrCommitments); Do (Recv PartialTx); Do (Step (Work 165)); Do (Recv AddrList); Do (Step (Work 193)); Do (Send SignedTx);
   Try [Recv FinalTx; Step (Work 352); Step Broadcast] [Step ClaimBack; SysExit];
   Do (Step (Work 374)); Do (Send Thanks)].
(** asset 392-594 *)
Definition asset_bob : program :=
  [Do (Step (Work 397)); Do (Recv Ready); Do (Send WaitTxid); Do (Recv Offer); Do (Step (Work 416)); Do (Send Offer); Do (Recv AddrCommitments);
   Do (Step (Work 424)); Do (Send PartialTx); Do (Step (Work 490)); Do (Send AddrList); Do (Recv SignedTx); Do (Step (Work 506)); Do (Send FinalTx);
   Do (Step Broadcast); Do (Recv Thanks); Do (Step (Work 585))].
