(** Specification: the numbers that a text contains, and where a fault is. *)
From Coq Require Import Strings.String Strings.Ascii.
From Verif Require Import Base BlindModel.
Import ListNotations.

Definition is_digit (c : ascii) : bool := let n := N_of_ascii c in (48 <=? n)%N && (n <=? 57)%N.
(** The maximal runs of decimal digits of a text, from left to right. *)
Fixpoint numbers (s : string) : list string :=
  match s with
  | EmptyString => []
  | String c r =>
      if is_digit c then
        match r with
        | EmptyString => [String c EmptyString]
        | String c' _ => if is_digit c' then match numbers r with h :: t => String c h :: t | [] => [] end
                         else String c EmptyString :: numbers r
        end
      else numbers r
  end.
(** The value of a run of digits. *)
Fixpoint decimal (acc : N) (s : string) : N :=
  match s with
  | EmptyString => acc
  | String c r => decimal (acc * 10 + (N_of_ascii c - 48))%N r
  end.

(** The position of the input, output or auxiliary generator at fault, for the failures whose text is meant to give it;
    for the final count, what was done and what was asked. *)
Definition position (f : failure) : list nat :=
  match f with
  | F_aux_invalid i | F_asset_empty i | F_negative_amount i | F_amount_not_explicit i | F_keys_not_explicit i | F_pubkey_invalid i
  | F_value_not_explicit i | F_asset_not_explicit i | F_witness_in_place i | F_fee_output i => [i]
  | F_count a b => [a; b]
  | F_amount_proof_in_place _ | F_keys_proof_in_place _ => []   (* the source forgets to put it in *)
  | F_amount_commitment | F_keys_commitment => []               (* the text is not meant to give it *)
  end.
(** The same check. *)
Definition SameFault (f g : failure) : Prop :=
  f = g \/ (exists i j, f = F_amount_proof_in_place i /\ g = F_amount_proof_in_place j)
        \/ (exists i j, f = F_keys_proof_in_place i /\ g = F_keys_proof_in_place j).
