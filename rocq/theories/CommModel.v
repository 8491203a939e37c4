(** The commitment of an asset that is not blinded, core/__init__.py:311-324. *)
From Verif Require Import Base BlindModel.

(** core/__init__.py:311-324 [CAsset.to_comm_secp256k1itment] on asset [a] *)
Definition to_commitment (z : Crypto) (a : bytes) : res bytes :=
  match gen_generate z a with
  | None => Raise EValue
  | Some gen =>
      match gen_serialize z gen with
      | None => Raise ERuntime
      | Some result_commitment => Ok result_commitment
      end
  end.
