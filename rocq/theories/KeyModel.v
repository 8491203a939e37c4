(** Derivation of blinding keys from scripts. *)
From Verif Require Import Base.
Local Open Scope Z_scope.

(** Python's [hmac.new(key, msg, hashlib.sha256).digest()]: block size 64, [H] is SHA-256. *)
Definition xor_with (k : Z) (b : byte) : byte := zb (Z.lxor (bz b) k).
Definition hmac (H : bytes -> bytes) (key msg : bytes) : bytes :=
  let key := if 64 <? blen key then H key else key in
  let key := key ++ zeros (64 - length key) in
  H (map (xor_with 0x5c) key ++ H (map (xor_with 0x36) key ++ msg)).

(** The [script] argument: bytes or bytearray; a CElementsScript; another CScript; anything else. *)
Inductive script_arg := SBytes (b : bytes) | SElementsScript (b : bytes) | SOtherScript (b : bytes) | SNotBytes.
(** core/__init__.py:2120-2135 [derive_blinding_key] (and script.py:383-385, which passes [self]). [key] is the
    secret of a CKeyBase, [None] any other object; [CKey(d)] raises ValueError unless [valid d]. *)
Definition derive_blinding_key (H : bytes -> bytes) (valid : bytes -> bool) (key : option bytes) (script : script_arg) : res bytes :=
  match key with
  | None => Raise EType
  | Some secret =>
      let! s := match script with
                | SOtherScript _ => Raise EType
                | SNotBytes => Raise EType
                | SBytes b | SElementsScript b => Ok b
                end in
      let d := hmac H secret s in
      if valid d then Ok d else Raise EValue
  end.
