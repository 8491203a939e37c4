(** Python values used by the model: bytes, integers, exceptions, streams.

    Nothing in this file models elementstx code: it models the parts of the
    Python language and of the [struct] module the code relies on.  *)
From Coq Require Export ZArith List Bool Lia.
From Coq Require Export ZifyBool ZifyNat ZifyN.
From Coq Require Import Init.Byte.
From Coq Require Export Strings.Byte.
Export ListNotations.
Local Open Scope Z_scope.

Ltac Zify.zify_post_hook ::= Z.div_mod_to_equations.

(** Python [bytes]: every element is a [Byte.byte], so the 0..255 range is
    guaranteed by the type. *)
Definition bytes := list byte.

(** Value of a byte, and the byte with a given value (mod 256). *)
Definition bz (b : byte) : Z := Z.of_N (Byte.to_N b).
Definition zb (z : Z) : byte :=
  match Byte.of_N (Z.to_N (Z.land z 255)) with Some b => b | None => x00 end.

Definition blen (s : bytes) : Z := Z.of_nat (length s).

(** Exceptions raised by the modelled code, one constructor per Python class
    (message strings are not modelled). *)
Inductive exn :=
| ETruncation          (* SerializationTruncationError *)
| ESerialization       (* SerializationError *)
| EWitnessSerialization(* elementstx.core.WitnessSerializationError *)
| ETxInSerialization   (* elementstx.core.TxInSerializationError *)
| EExtraData           (* DeserializationExtraDataError *)
| EValue               (* ValueError *)
| EType                (* TypeError *)
| EStruct              (* struct.error *)
| EIndex               (* IndexError *)
| EAssert              (* AssertionError *)
| ERuntime             (* RuntimeError *)
| EUnboundLocal        (* UnboundLocalError *)
| EScript              (* CScriptInvalidError and subclasses *)
| EBlech32             (* elementstx.blech32.Blech32Error *)
| EBase58              (* bitcointx.base58.Base58Error and subclasses *)
| ENotImplemented      (* NotImplementedError *)
| EOverflow            (* OverflowError *)
| EAttribute           (* AttributeError *)
| EAddress             (* bitcointx.wallet.CCoinAddressError *)
| EKey                 (* KeyError *)
| EZeroDivision        (* ZeroDivisionError *)
| EOS                  (* OSError, ImportError: a library could not be loaded *)
| EArgument            (* ctypes.ArgumentError *).

Definition exn_eq_dec (a b : exn) : {a = b} + {a <> b}.
Proof. decide equality. Defined.

(** Result of a Python call: a value or an exception. *)
Inductive res (A : Type) :=
| Ok (a : A)
| Raise (e : exn).
Arguments Ok {A} a.
Arguments Raise {A} e.

Definition rbind {A B} (m : res A) (k : A -> res B) : res B :=
  match m with Ok a => k a | Raise e => Raise e end.

Notation "'let!' x ':=' m 'in' k" := (rbind m (fun x => k))
  (at level 200, x pattern, m at level 100, k at level 200, right associativity).

Definition rassert (b : bool) (e : exn) : res unit := if b then Ok tt else Raise e.

Fixpoint rmap {A B} (f : A -> res B) (l : list A) : res (list B) :=
  match l with
  | [] => Ok []
  | x :: r => let! y := f x in let! ys := rmap f r in Ok (y :: ys)
  end.

Definition is_ok {A} (m : res A) : bool := match m with Ok _ => true | Raise _ => false end.

(** * Integers to bytes ([struct.pack]/[struct.unpack]) *)

Fixpoint le_bytes (n : nat) (z : Z) : bytes :=
  match n with
  | O => []
  | S k => zb z :: le_bytes k (Z.shiftr z 8)
  end.

Fixpoint le_val (s : bytes) : Z :=
  match s with
  | [] => 0
  | b :: r => bz b + 256 * le_val r
  end.

Definition be_bytes (n : nat) (z : Z) : bytes := rev (le_bytes n z).
Definition be_val (s : bytes) : Z := le_val (rev_append s []).

(** [struct.pack("<H"/"<I"/"<Q", z)] for n = 2/4/8: struct.error out of range. *)
Definition pack_le (n : nat) (z : Z) : res bytes :=
  if (0 <=? z) && (z <? 256 ^ Z.of_nat n) then Ok (le_bytes n z) else Raise EStruct.

(** [struct.pack("<i"/"<q", z)]: two's complement. *)
Definition pack_le_signed (n : nat) (z : Z) : res bytes :=
  if (- (256 ^ Z.of_nat n / 2) <=? z) && (z <? 256 ^ Z.of_nat n / 2)
  then Ok (le_bytes n z) else Raise EStruct.

(** [struct.pack(">q", z)] *)
Definition pack_be_signed (n : nat) (z : Z) : res bytes :=
  if (- (256 ^ Z.of_nat n / 2) <=? z) && (z <? 256 ^ Z.of_nat n / 2)
  then Ok (be_bytes n z) else Raise EStruct.

(** [struct.unpack] of a signed integer, from the unsigned value [u]. *)
Definition to_signed (n : nat) (u : Z) : Z :=
  if u <? 256 ^ Z.of_nat n / 2 then u else u - 256 ^ Z.of_nat n.

(** Python equality of byte strings. *)
Fixpoint bytes_eqb (a b : bytes) : bool :=
  match a, b with
  | [], [] => true
  | x :: a', y :: b' => Byte.eqb x y && bytes_eqb a' b'
  | _, _ => false
  end.

(** [b'\x00' * n] *)
Definition zeros (n : nat) : bytes := repeat x00 n.
