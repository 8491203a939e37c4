(** RFC 2104 for a key of at most one block. *)
From Verif Require Import Base.
Local Open Scope Z_scope.

(** [p] is the 64-byte block of [key], padded with zeros, every byte combined with [k]. *)
Definition PaddedKey (k : Z) (key p : bytes) : Prop :=
  length p = 64%nat
  /\ (forall i, (i < length key)%nat -> bz (nth i p x00) = Z.lxor (bz (nth i key x00)) k)
  /\ (forall i, (length key <= i < 64)%nat -> bz (nth i p x00) = k).
Definition Hmac (H : bytes -> bytes) (key msg d : bytes) : Prop :=
  exists ipad opad, PaddedKey 0x36 key ipad /\ PaddedKey 0x5c key opad /\ d = H (opad ++ H (ipad ++ msg)).
