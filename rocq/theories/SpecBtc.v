(** Specification: transactions of Bitcoin, what is signed (BIP 143) and when an output is unlocked (BIP 68, 112, 141). *)
From Verif Require Import Base Serialize TxModel ScriptModel SpecWire SpecCross CrossModel BtcModel WaitModel.
Local Open Scope Z_scope.

(** * Bytes *)
Definition le_sint64 (z : Z) (b : bytes) : Prop := - 2 ^ 63 <= z < 2 ^ 63 /\ le_int 8 (if z <? 0 then z + 2 ^ 64 else z) b.
Definition W_prev (o : outpoint) (b : bytes) : Prop := exists n, blen (op_hash o) = 32 /\ le_int 4 (op_n o) n /\ b = op_hash o ++ n.
Definition W_bin (i : btxin) (b : bytes) : Prop :=
  exists p s q, W_prev (bi_prev i) p /\ W_bytes (bi_script i) s /\ le_int 4 (bi_seq i) q /\ b = p ++ s ++ q.
Definition W_bout (o : btxout) (b : bytes) : Prop := exists v s, le_sint64 (bo_value o) v /\ W_bytes (bo_script o) s /\ b = v ++ s.
(** with a witness *)
Definition W_btx (t : btx) (b : bytes) : Prop :=
  exists v i o w l, le_sint32 (b_ver t) v /\ W_vec W_bin (b_vin t) i /\ W_vec W_bout (b_vout t) o
  /\ W_seq (W_vec W_bytes) (b_wit t) w /\ le_int 4 (b_lock t) l /\ b = v ++ [x00; x01] ++ i ++ o ++ w ++ l.

(** * What is signed for the first input, with hash type ALL: it spends [amount] locked by [script] *)
Definition BtcSigned (Hash : bytes -> bytes) (script : bytes) (t : btx) (amount : Z) (h : bytes) : Prop :=
  exists i p q o v bp bs ba bq l, nth_error (b_vin t) 0 = Some i
  /\ W_seq W_prev (map bi_prev (b_vin t)) p /\ W_seq (le_int 4) (map bi_seq (b_vin t)) q /\ W_seq W_bout (b_vout t) o
  /\ le_sint32 (b_ver t) v /\ W_prev (bi_prev i) bp /\ W_bytes script bs /\ le_sint64 amount ba /\ le_int 4 (bi_seq i) bq /\ le_int 4 (b_lock t) l
  /\ h = Hash (v ++ Hash p ++ Hash q ++ bp ++ bs ++ ba ++ bq ++ Hash o ++ l ++ [x01; x00; x00; x00]).
(** OP_CHECKSIG, for signatures with hash type ALL; [verify]: key, hash, signature *)
Definition BtcChecks (Hash : bytes -> bytes) (verify : bytes -> bytes -> bytes -> Prop) (script : bytes) (t : btx) (amount : Z) (sig key : bytes) : Prop :=
  exists s h, sig = s ++ [x01] /\ BtcSigned Hash script t amount h /\ verify key h s.
(** OP_CHECKSEQUENCEVERIFY in the script of the first input *)
Definition BtcOld (t : btx) (n : Z) : Prop :=
  exists i, nth_error (b_vin t) 0 = Some i /\ 2 <= b_ver t /\ Z.testbit (bi_seq i) 31 = false
  /\ Z.testbit n 22 = Z.testbit (bi_seq i) 22 /\ Z.land n 0xffff <= Z.land (bi_seq i) 0xffff.
(** The first input may be spent in the next block if the output spent has [conf] confirmations (lock times in blocks). *)
Definition Mature (t : btx) (conf : Z) : Prop :=
  exists i, nth_error (b_vin t) 0 = Some i
  /\ (b_ver t < 2 \/ Z.testbit (bi_seq i) 31 = true \/ Z.testbit (bi_seq i) 22 = false /\ Z.land (bi_seq i) 0xffff <= conf).

(** * Pay to witness script hash: the stack (the last element is the script) unlocks the output script; nothing else is left *)
Definition Unlocks (sha : bytes -> bytes) (chk : bytes -> bytes -> Prop) (csv : Z -> Prop) (locked : bytes) (stack : list bytes) : Prop :=
  exists args script l, stack = args ++ [script] /\ locked = [x00; x20] ++ sha script /\ blen script <= 10000 /\ Forall (fun a => blen a <= 520) args
  /\ ops script = Some l /\ runs (fun _ _ _ => False) chk csv l [] (rev args) (fun st => exists top, st = [top] /\ truthy top = true).
(** The first input of [t] may spend the output [o] of [conf] confirmations in the next block. *)
Definition Valid (Hash sha : bytes -> bytes) (verify : bytes -> bytes -> bytes -> Prop) (t : btx) (o : btxout) (conf : Z) : Prop :=
  exists i stack script, nth_error (b_vin t) 0 = Some i /\ bi_script i = [] /\ nth_error (b_wit t) 0 = Some stack /\ (exists args, stack = args ++ [script])
  /\ Unlocks sha (BtcChecks Hash verify script t (bo_value o)) (BtcOld t) (bo_script o) stack /\ Mature t conf.

(** * Outputs *)
(** the first of [outs] with the script is number [n] *)
Definition FirstLocked (outs : list btxout) (script : bytes) (n : Z) (o : btxout) : Prop :=
  exists pre post, outs = pre ++ o :: post /\ Forall (fun p => bo_script p <> script) pre /\ bo_script o = script /\ n = Z.of_nat (length pre).
(** [js] is what a node says of the outputs: the number and, for scripts that have an address, a list with this address *)
Inductive Tells (address : bytes -> option bytes) : Z -> list btxout -> list jout -> Prop :=
| T_nil n : Tells address n [] []
| T_cons n o outs js : Tells address (n + 1) outs js ->
    Tells address n (o :: outs) (mkJOut n (match address (bo_script o) with Some a => Some [a] | None => None end) :: js).
(** [t] spends output [n] of [txid] alone, to [dst], except for the fee of 0.01 *)
Record SpendsAll (txid : bytes) (n sequence : Z) (dst : bytes) (version : Z) (t : btx) : Prop := {
  sa_in : b_vin t = [mkBIn (mkOutPoint txid n) [] sequence];
  sa_out : b_vout t = [mkBOut 100000000 dst];
  sa_lock : b_lock t = 0;
  sa_ver : b_ver t = version
}.
