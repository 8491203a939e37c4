(** A transaction with confidential input, issuance and outputs, over the toy library: used by the examples. *)
From Verif Require Import Base TxModel BlindModel SpecBlind ToyCrypto.
Local Open Scope Z_scope.

Definition toy_rand (k : nat) : bytes := b32 (Z.of_nat k * 1000003 + 77).
Definition expl (v : Z) : bytes := x01 :: be_bytes 8 v.
Definition asset_A : bytes := repeat x11 32.
(** prevout of input 1 and its issuance's ids *)
Definition op1 : outpoint := mkOutPoint (repeat x22 32) 1.
Definition contract : bytes := repeat x33 32.
Definition ent1 : bytes := c_mid toy (c_hash toy (repeat x22 32 ++ [x01; x00; x00; x00]) ++ contract).
Definition asset_I : bytes := Eval vm_compute in c_mid toy (ent1 ++ tag32 x00).
Definition asset_T : bytes := Eval vm_compute in c_mid toy (ent1 ++ tag32 x02).

Definition no_issuance : issuance := mkIssuance (zeros 32) (zeros 32) [] [].
Definition toy_in0 : txin := mkTxIn (mkOutPoint (repeat x44 32) 0) [] 0xffffffff no_issuance false.
Definition toy_in1 : txin := mkTxIn op1 [] 0xffffffff (mkIssuance (zeros 32) contract (expl 500) (expl 3)) false.
Definition toy_out (v : Z) (a : bytes) (s : bytes) : txout := mkTxOut (expl v) s (x01 :: a) [].
Definition toy_tx : tx := mkTx [toy_in0; toy_in1]
  [toy_out 700 asset_A [x51]; toy_out 490 asset_A [x51; x51]; toy_out 500 asset_I [x51]; toy_out 3 asset_T [x51]; toy_out 10 asset_A []]
  0 2 (mkTxWit [] []).
Definition toy_pub (k : Z) : bytes := sk_pub toy (b32 k).
Definition toy_descs : list input_desc :=
  [mkDesc asset_A 1000 (b32 12345) (b32 67890); mkDesc asset_A 200 (zeros 32) (zeros 32)].
Definition toy_args : blind_args := mkArgs toy_descs
  [toy_pub 901; toy_pub 902; toy_pub 903; toy_pub 904] [None; Some (b32 5001)] [None; Some (b32 5002)] [] None None true.

