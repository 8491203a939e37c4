(** From an unblinded output to the description of an input, core/__init__.py:182-186. *)
From Verif Require Import Base MiscModel BlindModel.

(** core/__init__.py:182-186 [UnblindingSuccess.get_descriptor]; other results have no such method *)
Definition get_descriptor (r : result) : option input_desc :=
  match r with
  | UnblindingSuccess asset amount blinding_factor asset_blinding_factor => Some (mkDesc asset amount blinding_factor asset_blinding_factor)
  | _ => None
  end.
