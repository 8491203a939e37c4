(** Specification for C94: what is to be seen of a process, and what the text of a program says about messages. *)
From Verif Require Import Base SessionModel.

(** types of the messages sent; of those received, expected or not; of those that the other side had sent *)
Fixpoint sent (l : list effect) : list mtype := match l with [] => [] | Sent t :: r => t :: sent r | _ :: r => sent r end.
Fixpoint heard (l : list effect) : list mtype := match l with [] => [] | Got t :: r | Unexpected t :: r => t :: heard r | _ :: r => heard r end.
Fixpoint arrived (l : list incoming) : list mtype := match l with [] => [] | Arrives t :: r => t :: arrived r | Silence :: r => arrived r end.
Definition Begun (o : list mtype) (l : list mtype) : Prop := exists r, l = o ++ r.       (* [o] is a beginning of [l] *)
Fixpoint wishes (l : list effect) : nat := match l with [] => O | WishBegins :: r => S (wishes r) | _ :: r => wishes r end.
Definition Confused (l : list effect) : Prop := exists t, In (Unexpected t) l.

(** the messages of a program in order: true to send, false to receive *)
Definition basic_acts (b : basic) : list (bool * mtype) := match b with Send t => [(true, t)] | Recv t => [(false, t)] | _ => [] end.
Definition item_acts (i : item) : list (bool * mtype) := match i with Do b => basic_acts b | SetWish _ => [] | Try body _ => flat_map basic_acts body end.
Definition acts (p : program) : list (bool * mtype) := flat_map item_acts p.
Definition sends (l : list (bool * mtype)) : list mtype := map snd (filter fst l).
Definition recvs (l : list (bool * mtype)) : list mtype := map snd (filter (fun x => negb (fst x)) l).

(** steps only *)
Definition Steps (w : list basic) : Prop := forall b, In b w -> exists l, b = Step l.
(** No try, no sys.exit; the last wish has no messages; nobody sends or expects 'bye!' of its own. *)
Definition Plain (p : program) : Prop := forall i, In i p ->
  match i with Do b => b <> SysExit /\ b <> Send Bye /\ b <> Recv Bye | SetWish w => Steps w | Try _ _ => False end.
(** As before, but with try: its body receives and does not send, its handler has steps only and then sys.exit. *)
Definition Shaped (p : program) : Prop := forall i, In i p ->
  match i with
  | Do b => b <> SysExit /\ b <> Send Bye /\ b <> Recv Bye
  | SetWish w => Steps w
  | Try body handler => (forall b, In b body -> b <> SysExit /\ b <> Recv Bye /\ forall t, b <> Send t) /\ exists h, handler = h ++ [SysExit] /\ Steps h
  end.

Definition ended (f : fate) : Prop := f = Returned \/ f = Exited \/ f = Crashed.

(** A last wish of [p] was begun once, after it was set. *)
Definition Fulfilled (p : program) (l : list effect) : Prop := exists a d w, l = a ++ WishBegins :: d /\ In WishSet a /\ wishes a = O /\ wishes d = O
  /\ In (SetWish w) p /\ match w with Step l :: _ => exists d', d = Begins l :: d' | _ => True end.

(** Why a process ends, and how its last wish ends: is the other side told 'bye!', and does the process end with a traceback? *)
Inductive cause := Exception | Death (peacefully : bool) | PeerBye.
Inductive wished := NoWish | Wish (e : ending).
Definition told (c : cause) (w : wished) : bool :=
  match c, w with
  | Exception, (NoWish | Wish Fine) | Death false, (NoWish | Wish Fine) => true
  | _, Wish (Dies true) => false
  | Exception, Wish _ => false
  | _, Wish (Throws | Dies false) => true
  | Death true, _ | PeerBye, _ => false
  end.
Definition traceback (c : cause) (w : wished) : bool := match c, w with Exception, Wish (Throws | Dies false) => true | _, _ => false end.
(** The next statement ends the program: for which cause, and which endings of steps are left for the last wish. *)
Inductive Fatal : basic -> state -> cause -> list ending -> Prop :=
| F_throws l s r : steps s = Throws :: r -> Fatal (Step l) s Exception r
| F_dies l s p r : steps s = Dies p :: r -> Fatal (Step l) s (Death p) r
| F_silence t s r : inbox s = Silence :: r -> Fatal (Recv t) s (Death false) (steps s)
| F_other t s m r : inbox s = Arrives m :: r -> m <> Bye -> m <> t -> Fatal (Recv t) s (Death false) (steps s)
| F_bye t s r : inbox s = Arrives Bye :: r -> Fatal (Recv t) s PeerBye (steps s).
Inductive Wished : state -> list ending -> wished -> Prop :=
| W_none s r : wish s = None -> Wished s r NoWish
| W_step s l e r : wish s = Some [Step l] -> Wished s (e :: r) (Wish e).
(** asset: die always raises ProtocolFailure *)
Definition Impolite (e : list ending) : Prop := ~ In (Dies true) e.
