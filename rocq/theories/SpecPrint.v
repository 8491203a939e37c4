(** Specification: what evaluating a printed field builds, and what the printed form of an issuance keeps. *)
From Coq Require Import Strings.String Strings.Ascii ZArith.
From Verif Require Import Base TxModel SpecText.
Import ListNotations.
Local Open Scope string_scope.

(** The value of a hexadecimal digit; the bytes that a text of hexadecimal digits stands for. *)
Definition digit_value (c : ascii) : option Z :=
  let n := Z.of_N (N_of_ascii c) in
  if ((48 <=? n) && (n <=? 57))%Z then Some (n - 48)%Z
  else if ((97 <=? n) && (n <=? 102))%Z then Some (n - 87)%Z
  else None.
Fixpoint unhex (s : string) : option bytes :=
  match s with
  | EmptyString => Some []
  | String a (String b r) =>
      match digit_value a, digit_value b, unhex r with
      | Some i, Some j, Some t => Some (zb (16 * i + j) :: t)
      | _, _, _ => None
      end
  | _ => None
  end.
(** The int that a Python literal stands for: digits, perhaps after a minus sign. *)
Definition literal (s : string) : Z :=
  match s with
  | String "-" r => (- Z.of_N (decimal 0 r))%Z
  | _ => Z.of_N (decimal 0 s)
  end.

Fixpoint all_digits (s : string) : bool := match s with EmptyString => true | String c r => is_digit c && all_digits r end.
Definition is_literal (s : string) : bool :=
  match s with
  | EmptyString => false
  | String c r => if Ascii.eqb c "-" then match r with EmptyString => false | _ => all_digits r end else all_digits s
  end.

(** Evaluating the text gives the field: [CConfidentialValue(12)] calls the constructor with an int,
    [CConfidentialAsset(x('0a..'))] with bytes. *)
Inductive Evaluates : cclass -> string -> bytes -> Prop :=
| Ev_int l f : is_literal l = true -> conf_value_of_amount (literal l) = Ok f ->
    Evaluates CConfValue ("CConfidentialValue(" ++ l ++ ")") f
| Ev_bytes c n h b f : n = (match c with CConfAsset => "CConfidentialAsset" | CConfValue => "CConfidentialValue" | CConfNonce => "CConfidentialNonce" end) ->
    unhex h = Some b -> conf_new c b = Ok f -> Evaluates c (n ++ "(x('" ++ h ++ "'))") f.

(** The fields of an issuance that are not zero or null, in order, without their names. *)
Inductive shown := Data (d : bytes) | Amount (f : bytes).
Definition Zeros (d : bytes) : Prop := forall b, In b d -> b = x00.
Inductive Shown (i : issuance) : list shown -> Prop :=
| shown_intro a b c d :
    (Zeros (is_nonce i) /\ a = [] \/ ~ Zeros (is_nonce i) /\ a = [Data (is_nonce i)]) ->
    (Zeros (is_entropy i) /\ b = [] \/ ~ Zeros (is_entropy i) /\ b = [Data (is_entropy i)]) ->
    (is_amount i = [] /\ c = [] \/ is_amount i <> [] /\ c = [Amount (is_amount i)]) ->
    (is_keys i = [] /\ d = [] \/ is_keys i <> [] /\ d = [Amount (is_keys i)]) ->
    Shown i (a ++ b ++ c ++ d).
(** Two issuances of which the same is shown. *)
Definition ShownAlike (i j : issuance) : Prop := exists l, Shown i l /\ Shown j l.
