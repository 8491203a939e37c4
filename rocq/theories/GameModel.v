(** The program examples/confidential-cross-chain-atomic-swap.py as a game: each party's program against the other's choices.
    Time is counted in blocks: the miner process (lines 423-430) makes one block in each chain, in turn, with all that is valid
    and waiting to be mined; between two blocks a party does all that it can do.  What the scripts of the contracts allow is as
    proved for C88 and C89; here each spending of the Elements contract by Bob makes the key public. *)
From Verif Require Import Base CrossTxModel.
Local Open Scope Z_scope.

(** line 103 *)
Definition bitcoin_timeout : Z := 15.
Inductive who := Alice | Bob.
(** in which block, by whom an output was spent *)
Definition spent := option (Z * who).
Definition free (s : spent) : bool := match s with None => true | Some _ => false end.
(** who gets an output in block [h]; [tie] decides between two *)
Definition mine (h : Z) (s : spent) (alice bob tie : bool) : spent :=
  match s with
  | Some _ => s
  | None => match alice, bob with
            | true, true => Some (h, if tie then Bob else Alice)
            | true, false => Some (h, Alice)
            | false, true => Some (h, Bob)
            | false, false => None
            end
  end.

(** ** Alice's program, lines 124-301, against any Bob *)
(** By tip or block: Bob's message 'btc_txid' is there; Bob's transaction that takes the Elements asset (reveals), Bob's that takes
    back the bitcoin (reclaims) is valid for the block as far as he can make it; who is first if both parties' are there. *)
Record bob := mkBob { message : Z -> bool; reveals : Z -> bool; reclaims : Z -> bool; tie_btc : Z -> bool; tie_elt : Z -> bool }.
(** recv('btc_txid') | contract sent, not mined | wait_confirm of it | wait_spend_reveal_transaction | spend seen in block r,
    wait_confirm of it | bitcoin claimed | asset taken back | sys.exit *)
Inductive phase := AWaiting | ASent | AConfirming | AWatching | AFound (r : Z) | AClaiming | AReclaiming | AEnded.
Record game := mkGame { g_tip : Z; g_home : option Z; g_btc : spent; g_elt : spent; g_alice : phase }.

Section Alice.
Variable btc_timeout elt_timeout : Z.
Variable hB : Z.                       (* block of Bob's bitcoin contract *)
Variable B : bob.
(** the next block in both chains *)
Definition block_of (g : game) : game :=
  let h := g_tip g + 1 in
  let home := match g_home g with Some e => Some e | None => match g_alice g with ASent => Some h | _ => None end end in
  mkGame h home
    (mine h (g_btc g) (match g_alice g with AClaiming => true | _ => false end) (reclaims B h && (hB + btc_timeout <=? h)) (tie_btc B h))
    (match home with
     | None => None
     | Some e => mine h (g_elt g) (match g_alice g with AReclaiming => e + elt_timeout <=? h | _ => false end) (reveals B h) (tie_elt B h)
     end)
    (match g_alice g with ASent => AConfirming | p => p end).
(** lines 176-228 *)
Definition act_check (g : game) : phase :=
  match g_alice g with
  | AWaiting => if message B (g_tip g) then if g_tip g - hB + 1 <? 6 then AEnded else ASent else AWaiting
  | p => p
  end.
(** lines 230-233 *)
Definition act_confirm (g : game) (p : phase) : phase :=
  match p, g_home g with
  | AConfirming, Some e => if 2 <=? g_tip g - e + 1 then AWatching else p
  | _, _ => p
  end.
(** lines 966-1009 as in C92; line 971 with the last wish, lines 224-228 and 554-599: sendrawtransaction refuses if the output is spent *)
Definition act_watch (g : game) (p : phase) : phase :=
  match p, g_home g with
  | AWatching, Some e =>
      if elt_timeout <? g_tip g - e + 1 then (if free (g_elt g) then AReclaiming else AEnded)
      else match g_elt g with Some (r, _) => AFound r | None => AWatching end
  | _, _ => p
  end.
(** lines 237-301; if the bitcoin is gone: JSONRPCError, then the last wish, which fails as the asset is gone *)
Definition act_found (g : game) (p : phase) : phase :=
  match p with
  | AFound r => if 2 <=? g_tip g - r + 1 then (if free (g_btc g) then AClaiming else AEnded) else p
  | _ => p
  end.
Definition act (g : game) : game :=
  mkGame (g_tip g) (g_home g) (g_btc g) (g_elt g) (act_found g (act_watch g (act_confirm g (act_check g)))).
Fixpoint play (n : nat) : game :=
  match n with
  | O => act (mkGame hB None None None AWaiting)
  | S n => act (block_of (play n))
  end.
End Alice.

(** ** Bob's program from recv('elt_txid') on, lines 363-419, against any Alice *)
(** By tip or block: Alice's message 'elt_txid'; her transaction that takes back the asset; hers that takes the bitcoin, which needs
    the key; who is first. *)
Record alice := mkAlice { tells : Z -> bool; takes_back : Z -> bool; claims : Z -> bool; atie_btc : Z -> bool; atie_elt : Z -> bool }.
(** recv('elt_txid') | transaction sent at tip s, wait_confirm of it | end of the program | try_reclaim_btc before, after sending | sys.exit *)
Inductive bphase := BIdle | BRevealing (s : Z) | BDone | BTaking | BReclaiming | BEnded.
Record bgame := mkBGame { b_tip : Z; b_known : bool; b_btc : spent; b_elt : spent; b_bob : bphase }.
Section Bob.
Variable btc_timeout elt_timeout : Z.
Variable patience : Z.                 (* blocks in 60 seconds: lines 891, 1018 *)
Variable hB hE : Z.                    (* blocks of the two contracts *)
Variable A : alice.
Definition block_of_b (g : bgame) : bgame :=
  let h := b_tip g + 1 in
  mkBGame h (b_known g)
    (mine h (b_btc g) (claims A h && b_known g) (match b_bob g with BReclaiming => hB + btc_timeout <=? h | _ => false end) (atie_btc A h))
    (mine h (b_elt g) (takes_back A h && (hE + elt_timeout <=? h)) (match b_bob g with BRevealing _ => true | _ => false end) (atie_elt A h))
    (b_bob g).
(** lines 365-415: the confirmations are looked at, sendrawtransaction refuses if the asset is gone *)
Definition act_told (g : bgame) (start : Z) : bphase * bool :=
  match b_bob g with
  | BIdle => if tells A (b_tip g) then
               if b_tip g - hE + 1 <? 2 then (BTaking, b_known g)
               else if free (b_elt g) then (BRevealing (b_tip g), true) else (BTaking, b_known g)
             else if start + patience <=? b_tip g then (BTaking, b_known g) else (BIdle, b_known g)
  | p => (p, b_known g)
  end.
(** line 417 *)
Definition act_sent (g : bgame) (p : bphase) : bphase :=
  match p with
  | BRevealing s => match b_elt g with
                    | Some (r, Bob) => if 2 <=? b_tip g - r + 1 then BDone else p
                    | _ => if s + patience <=? b_tip g then BTaking else p
                    end
  | _ => p
  end.
(** lines 502-551 *)
Definition act_take (g : bgame) (p : bphase) : bphase :=
  match p with
  | BTaking => if b_tip g - hB + 1 <? btc_timeout then BTaking else if free (b_btc g) then BReclaiming else BEnded
  | _ => p
  end.
Definition act_b (start : Z) (g : bgame) : bgame :=
  let (p, k) := act_told g start in
  mkBGame (b_tip g) k (b_btc g) (b_elt g) (act_take g (act_sent g p)).
(** from tip [start], at which Bob begins to wait for the message; a tip before [hE] has no contract of Alice's *)
Fixpoint play_b (start : Z) (n : nat) : bgame :=
  match n with
  | O => act_b start (mkBGame start false None None BIdle)
  | S n => act_b start (block_of_b (play_b start n))
  end.
End Bob.
