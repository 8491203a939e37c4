(** Specification: Base58 and Base58Check. *)
From Coq Require Import ZArith List Bool.
From Verif Require Import Base.
Import ListNotations.
Local Open Scope Z_scope.

Definition interval (a b : Z) : list Z := map (fun i => a + Z.of_nat i) (seq 0 (Z.to_nat (b - a + 1))).
(** 0-9, A-Z, a-z without 0, O, I and l *)
Definition alphabet : list Z := filter (fun c => negb (existsb (Z.eqb c) [48; 79; 73; 108])) (interval 48 57 ++ interval 65 90 ++ interval 97 122).
Definition letter (d : Z) : Z := nth (Z.to_nat d) alphabet 0.

(** the number written with digits [l] in base [B], most significant first *)
Fixpoint value (B : Z) (l : list Z) : Z := match l with [] => 0 | d :: l' => d * B ^ Z.of_nat (length l') + value B l' end.
Definition Digits (B : Z) (l : list Z) : Prop := Forall (fun d => 0 <= d < B) l.
Definition no_zero_first (l : list Z) : Prop := nth_error l 0 <> Some 0.

(** Leading zero bytes are leading '1's; the rest is the same number in bases 256 and 58. *)
Definition Base58Text (b : bytes) (s : list Z) : Prop := exists k rest ds,
  map bz b = repeat 0 k ++ rest /\ no_zero_first rest /\
  s = repeat 49 k ++ map letter ds /\ Digits 58 ds /\ no_zero_first ds /\ value 58 ds = value 256 rest.
Definition Base58CheckText (H : bytes -> bytes) (data : bytes) (s : list Z) : Prop := Base58Text (data ++ firstn 4 (H data)) s.
