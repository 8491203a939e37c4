(** Specification: validity of scripts as a node sees it, signatures on an elliptic curve (for
    examples/confidential-cross-chain-atomic-swap.py). *)
From Verif Require Import Base Serialize ScriptModel CrossModel.
Local Open Scope Z_scope.

(** * The curve: a group of prime order, cofactor 1 *)
Record CurveLaws (E : Curve) (field : Z) : Prop := {
  el_order : 2 < ec_order E;
  el_odd : ec_order E mod 2 = 1;
  el_inv : forall a, a mod ec_order E <> 0 -> (a * ec_inv E a) mod ec_order E = 1;
  el_comm : forall p q, ec_add E p q = ec_add E q p;
  el_assoc : forall p q r, ec_add E p (ec_add E q r) = ec_add E (ec_add E p q) r;
  el_zero : forall p, ec_add E p (ec_zero E) = p;
  el_is_zero : forall p, ec_is_zero E p = true <-> p = ec_zero E;
  el_mul1 : forall p, ec_mul E 1 p = p;
  el_mul_add : forall a b p, ec_mul E (a + b) p = ec_add E (ec_mul E a p) (ec_mul E b p);
  el_mul_mul : forall a b p, ec_mul E (a * b) p = ec_mul E a (ec_mul E b p);
  el_mul_dist : forall a p q, ec_mul E a (ec_add E p q) = ec_add E (ec_mul E a p) (ec_mul E a q);
  el_mul_order : forall p, ec_mul E (ec_order E) p = ec_zero E;
  el_gen : ec_gen E <> ec_zero E;
  el_x_range : forall p, 0 <= ec_x E p < field;
  el_x : forall p q, p <> ec_zero E -> q <> ec_zero E -> ec_x E p = ec_x E q -> p = q \/ p = ec_mul E (-1) q;
  el_x_neg : forall p, ec_x E (ec_mul E (-1) p) = ec_x E p;
  el_parse : forall p, p <> ec_zero E -> ec_parse E (ec_ser E p) = Some p;
  el_parsed : forall b p, ec_parse E b = Some p -> p <> ec_zero E;
  el_ser : forall p, blen (ec_ser E p) < 76;
  el_len : ec_order E <= 256 ^ Z.of_nat (ec_len E) /\ (ec_len E <= 32)%nat
}.
(** What is special about the point that the program uses: its coordinate r is positive, less than the order, its first byte
    is below 128, and r + order is no coordinate. *)
Record KnownPoint (E : Curve) (field : Z) : Prop := {
  kp_range : 0 < known_r E < ec_order E;
  kp_only : field <= ec_order E + known_r E;
  kp_byte : exists b c, r_bytes E = b :: c /\ bz b < 128
}.

(** * ECDSA *)
Definition Verifies (E : Curve) (P : point E) (hash r s : Z) : Prop :=
  0 < r < ec_order E /\ 0 < s < ec_order E /\ exists R, R <> ec_zero E
  /\ ec_mul E s R = ec_add E (ec_mul E hash (ec_gen E)) (ec_mul E r P) /\ ec_x E R mod ec_order E = r.
(** strict encoding of signatures (BIP 66), without the byte for the kind of hash *)
Definition StrictInt (b : bytes) (v : Z) : Prop :=
  exists c d, b = c :: d /\ bz c < 128 /\ be_val b = v /\ (c = x00 -> d <> [] -> exists e f, d = e :: f /\ 128 <= bz e).
Definition Der (sig : bytes) (r s : Z) : Prop :=
  exists a b, sig = x30 :: zb (4 + blen a + blen b) :: (x02 :: zb (blen a) :: a) ++ x02 :: zb (blen b) :: b
  /\ StrictInt a r /\ StrictInt b s /\ blen sig <= 72.
(** OP_CHECKSIGFROMSTACKVERIFY (key, message, signature) *)
Definition FromStack (E : Curve) (sha : bytes -> bytes) (key msg sig : bytes) : Prop :=
  exists P r s, ec_parse E key = Some P /\ Der sig r s /\ Verifies E P (be_val (sha msg)) r s.

(** * Scripts *)
Definition truthy (b : bytes) : bool :=
  match rev b with [] => false | l :: r => negb (forallb (Byte.eqb x00) r && (Byte.eqb l x00 || Byte.eqb l x80)) end.
Fixpoint ops_of (fuel s : bytes) : option (list (Z * option bytes)) :=
  match raw_next s with
  | NextStop => Some []
  | NextErr _ => None
  | NextOp op d rest => match fuel with [] => None | _ :: fuel => match ops_of fuel rest with Some l => Some ((op, d) :: l) | None => None end end
  end.
Definition ops (s : bytes) : option (list (Z * option bytes)) := ops_of s s.
Section Runs.
Variable csfs : bytes -> bytes -> bytes -> Prop.      (* key, message, signature *)
Variable chk : bytes -> bytes -> Prop.                (* signature of the transaction, key *)
Variable csv : Z -> Prop.                             (* the input is old enough *)
(** The instructions run and end with a stack (top first) that satisfies [k]. Instructions that the contracts do not use fail. A
    signature that does not check counts as false. *)
Fixpoint runs (l : list (Z * option bytes)) (conds : list bool) (st : list bytes) (k : list bytes -> Prop) {struct l} : Prop :=
  match l with
  | [] => conds = [] /\ k st
  | (op, d) :: l =>
    let live := forallb (fun b => b) conds in
    if op =? 0x63 then (* IF *)
      if live then match st with c :: st => runs l (truthy c :: conds) st k | [] => False end else runs l (false :: conds) st k
    else if op =? 0x67 then (* ELSE *) match conds with b :: cs => runs l (negb b :: cs) st k | [] => False end
    else if op =? 0x68 then (* ENDIF *) match conds with _ :: cs => runs l cs st k | [] => False end
    else if negb live then runs l conds st k
    else match d with
    | Some b => blen b <= 520 /\ runs l conds (b :: st) k
    | None =>
      if (0x51 <=? op) && (op <=? 0x60) then runs l conds ([zb (op - 0x50)] :: st) k
      else if op =? 0x75 then (* DROP *) match st with _ :: st => runs l conds st k | [] => False end
      else if op =? 0x7c then (* SWAP *) match st with a :: b :: st => runs l conds (b :: a :: st) k | _ => False end
      else if op =? 0x7e then (* CAT *) match st with a :: b :: st => blen (b ++ a) <= 520 /\ runs l conds ((b ++ a) :: st) k | _ => False end
      else if op =? 0xac then (* CHECKSIG *)
        match st with key :: sig :: st => (chk sig key /\ runs l conds ([x01] :: st) k) \/ (~ chk sig key /\ runs l conds ([] :: st) k) | _ => False end
      else if op =? 0xb2 then (* CHECKSEQUENCEVERIFY *) match st with n :: _ => csv (le_val n) /\ runs l conds st k | [] => False end
      else if op =? 0xc2 then (* CHECKSIGFROMSTACKVERIFY *)
        match st with key :: msg :: sig :: st => csfs key msg sig /\ runs l conds st k | _ => False end
      else False
    end
  end.
(** [script], run on the stack, leaves something true on top. *)
Definition Accepts (script : bytes) (st : list bytes) : Prop :=
  exists l, ops script = Some l /\ runs l [] st (fun st => exists top rest, st = top :: rest /\ truthy top = true).
(** The scriptSig, pushes only, leaves the contract on top of a stack on which the contract is run. The script with the hash of the
    contract is taken to be the contract. *)
Definition Spends (contract scriptsig : bytes) : Prop :=
  exists l, ops scriptsig = Some l /\ Forall (fun o => fst o <= 0x60) l
  /\ runs l [] [] (fun st => exists rest, st = contract :: rest /\ Accepts contract rest).
End Runs.
