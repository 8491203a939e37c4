(** Specification of the text of a blech32 address, independent of the model:
    human-readable part, separator, and the symbols of version, program and
    checksum.  The checksum is stated with polynomials over the field with 32
    elements, not with the code's shift register. *)
From Coq Require Import Strings.String.
From Coq Require Import ZArith List Bool.
From Verif Require Import Base PyStr SpecBits.
Import ListNotations.
Local Open Scope Z_scope.

(** The 32 characters, in order of the 5-bit value they stand for. *)
Definition alphabet : list Z := str "qpzry9x8gf2tvdw0s3jn54khce6mua7l".
Definition symbol (d : Z) : Z := nth (Z.to_nat d) alphabet 0.

(** The field with 32 elements: 5-bit numbers as polynomials in [a] over GF(2),
    modulo a^5 + a^3 + 1. *)
Definition gf_add (a b : Z) : Z := Z.lxor a b.
(** [a] times the field's generator [a] = 2. *)
Definition gf_double (a : Z) : Z := if 16 <=? a then Z.lxor (2 * a) 41 else 2 * a.
(** Horner's rule on the bits of [b]. *)
Definition gf_mul (a b : Z) : Z :=
  fold_left (fun acc bit => gf_add (gf_double acc) (if bit : bool then a else 0)) (bits_msb 5 b) 0.

(** Polynomials over that field: the list of coefficients, constant term first. *)
Fixpoint p_add (a b : list Z) : list Z :=
  match a, b with
  | [], _ => b
  | _, [] => a
  | x :: a', y :: b' => gf_add x y :: p_add a' b'
  end.
Definition p_scale (k : Z) (a : list Z) : list Z := map (gf_mul k) a.
Fixpoint p_mul (a b : list Z) : list Z :=
  match a with [] => [] | x :: a' => p_add (p_scale x b) (0 :: p_mul a' b) end.
Definition same_poly (a b : list Z) : Prop := forall n, nth n a 0 = nth n b 0.

(** The generator of the code:
    x^12 + 31x^10 + 10x^9 + 18x^8 + 31x^7 + 14x^6 + 18x^5 + 23x^3 + 22x^2 + 4x + 6. *)
Definition gen_poly : list Z := [6; 4; 22; 23; 0; 18; 14; 31; 18; 10; 31; 0; 1].

(** The residue: 1 for version 0, and for later versions the constant
    0x455972a3350f7a1, its base-32 digits being the coefficients. *)
Definition digit32 (z : Z) (i : Z) : Z := (z / 32 ^ i) mod 32.
Definition residue (version : Z) : list Z :=
  map (digit32 (if version =? 0 then 1 else 0x455972a3350f7a1)) [0;1;2;3;4;5;6;7;8;9;10;11].

(** The human-readable part as symbols: high bits, zero, low bits. *)
Definition hrp_symbols (hrp : list Z) : list Z :=
  map (fun c => c / 32) hrp ++ [0] ++ map (fun c => c mod 32) hrp.

(** [chk] are the 12 checksum symbols: the polynomial whose coefficients are, from
    the highest, 1, the human-readable part, the data and [chk] leaves the residue
    on division by the generator. *)
Definition Checksum (hrp : list Z) (version : Z) (data chk : list Z) : Prop :=
  length chk = 12%nat /\ words 5 chk /\
  exists q, words 5 q /\
    same_poly (rev (1 :: hrp_symbols hrp ++ data ++ chk)) (p_add (p_mul q gen_poly) (residue version)).

(** The bytes of [prog] cut into groups of 5 bits, the last one filled up with zeros. *)
Definition FiveBitGroups (prog : bytes) (groups : list Z) : Prop :=
  words 5 groups /\
  exists fill, (fill < 5)%nat /\
    bitstring 5 groups = bitstring 8 (map bz prog) ++ repeat false fill.

(** The text of an address. *)
Definition AddressText (hrp : list Z) (version : Z) (prog : bytes) (s : list Z) : Prop :=
  exists groups chk,
    FiveBitGroups prog groups /\
    Checksum hrp version (version :: groups) chk /\
    s = hrp ++ str "1" ++ map symbol (version :: groups ++ chk).

(** Letter case of ASCII text. *)
Definition is_capital (c : Z) : Prop := 65 <= c <= 90.
Definition is_small (c : Z) : Prop := 97 <= c <= 122.
Definition small_form (s t : list Z) : Prop :=
  Forall2 (fun c d => (is_capital c /\ d = c + 32) \/ (~ is_capital c /\ d = c)) s t.
Definition OneCase (s : list Z) : Prop := Forall (fun c => ~ is_capital c) s \/ Forall (fun c => ~ is_small c) s.
