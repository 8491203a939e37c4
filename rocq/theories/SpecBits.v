(** Specification of bit regrouping: a list of w-bit numbers read as one bit
    string, most significant bit first.  Independent of the model. *)
From Coq Require Import ZArith List Bool.
Import ListNotations.
Local Open Scope Z_scope.

(** The [n] low bits of [a], most significant first. *)
Fixpoint bits_msb (n : nat) (a : Z) : list bool :=
  match n with
  | O => []
  | S k => Z.testbit a (Z.of_nat k) :: bits_msb k a
  end.

(** A sequence of [w]-bit words as a bit string. *)
Definition bitstring (w : nat) (l : list Z) : list bool := flat_map (bits_msb w) l.

(** All words fit in [w] bits. *)
Definition words (w : nat) (l : list Z) : Prop := Forall (fun z => 0 <= z < 2 ^ Z.of_nat w) l.
