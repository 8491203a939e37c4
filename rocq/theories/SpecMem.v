(** Specification: what is assumed of the sizes of what the library writes, beyond [SizesOk]. *)
From Coq Require Import ZArith List.
From Verif Require Import Base TxModel BlindModel MemModel.
Local Open Scope Z_scope.
Record OutputsFit (z : Crypto) : Prop := {
  of_parse : forall x c, ped_parse z x = Some c -> blen c = 64;
  (* the longest range proof *)
  of_sign : forall minv c b nonce e bits v msg extra g p, rp_sign z minv c b nonce e bits v msg extra g = Some p -> blen p <= 5134;
  (* the longest message in a range proof *)
  of_rewind : forall nonce c proof extra g b v msg, rp_rewind z nonce c proof extra g = Some (b, v, msg) -> blen b = 32 /\ blen msg <= 4096;
  of_surj : forall p, blen (sp_serialize z p) < 2 ^ 31
}.
(** At address [a] is a bytes object with contents [b]. *)
Definition holds (m : mem) (a : nat) (b : bytes) : Prop := nth_error m a = Some (mkObj false b).
