(** Generated by tools/mkvectors.py from elementstx/tests/data/elements_txs.json: the transaction model run on
    transactions of the reference node. Tests, not proofs: they check the model, not the code. *)
From Coq Require Import Strings.String Strings.Ascii.
From Verif Require Import Base Serialize TxModel IssuanceModel ScriptModel Sha256.
From Coq Require Import ZArith List Bool.
Import ListNotations.
Local Open Scope Z_scope.

Definition hexdigit (c : ascii) : Z := let n := Z.of_N (N_of_ascii c) in if n <? 58 then n - 48 else n - 87.
Fixpoint hex (s : string) : bytes :=
  match s with String a (String b r) => zb (16 * hexdigit a + hexdigit b) :: hex r | _ => [] end.
Definition no_wit : default_wit := fun _ _ => mkTxWit [] [].
Definition out_is (p : txout -> bool) (t : tx) (n : nat) : bool := match nth_error (vout t) n with Some o => p o | None => false end.
Definition in_is (p : txin -> bool) (t : tx) (n : nat) : bool := match nth_error (vin t) n with Some i => p i | None => false end.
Definition out_script t n s := out_is (fun o => bytes_eqb (scriptPubKey o) s) t n.
Definition out_field (f : txout -> bytes) t n s := out_is (fun o => bytes_eqb (f o) s) t n.
Definition amount_is (x : bytes) (v : Z) : bool := match to_amount x with Ok a => a =? v | Raise _ => false end.
Definition out_amount_is t n v := out_is (fun o => amount_is (nValue o) v) t n.
Definition res_is (r : res bytes) (b : bytes) : bool := match r with Ok a => bytes_eqb a b | Raise _ => false end.
Definition out_asset_is t n a := out_is (fun o => res_is (to_asset (nAsset o)) a) t n.
Definition pegout_is t n g s := out_is (fun o => match get_pegout_data (scriptPubKey o) with Ok (Some (g', s')) => bytes_eqb g g' && bytes_eqb s s' | _ => false end) t n.
Definition issue_ok (i : txin) (e a k : bytes) : bool :=
  match generate_asset_entropy sha256d sha_midstate (prevout i) (is_entropy (assetIssuance i)) with
  | Ok e' => bytes_eqb e e' && res_is (calculate_asset sha_midstate e') a
             && res_is (calculate_reissuance_token sha_midstate e' (conf_is_commitment CConfValue (is_amount (assetIssuance i)))) k
  | Raise _ => false
  end.
Definition reissue_ok (i : txin) (e a : bytes) : bool :=
  bytes_eqb (is_entropy (assetIssuance i)) e && res_is (calculate_asset sha_midstate (is_entropy (assetIssuance i))) a.
(** parse, compare fields, serialise back, hash and id *)
Definition vector (raw hash txid : bytes) (p : tx -> bool) : bool :=
  match tx_deserialize no_wit raw with
  | Ok t => p t && res_is (tx_serialize t) raw && bytes_eqb (sha256d raw) hash
            && match ser_tx false false t with Ok b => bytes_eqb (sha256d b) txid | Raise _ => false end
  | Raise _ => false
  end.
Example vector_00 : vector (hex "0100000000010000000000000000000000000000000000000000000000000000000000000000ffffffff212078fdfddeafc3bac34abe63efee0d64f7d817cee508ded08746ba4ae6df5349cbffffffff0101000000000000000000000000000000000000000000000000000000000000000001000000000000000000016a00000000")
  (hex "a1115ef053ab32201a3656f0298d74026689c6de13953126fb4b6c7c9fe17296") (hex "a1115ef053ab32201a3656f0298d74026689c6de13953126fb4b6c7c9fe17296") (fun t => (nVersion t =? 1)
  && (nLockTime t =? 0)
  && (length (vin t) =? 1)%nat
  && (length (vout t) =? 1)%nat
  && out_script t 0 (hex "6a")
  && out_amount_is t 0 0
  && out_asset_is t 0 (hex "0000000000000000000000000000000000000000000000000000000000000000")
  && in_is (fun i => nSequence i =? 4294967295) t 0) = true.
Proof. vm_compute. reflexivity. Qed.
Example vector_02 : vector (hex "020000000001c906492d7663d6c935098e7fbd690b922179810dac748a2e9984e4e5f3ca4c320000000000ffffffff0401230f4f5d4b7c6fa845806ee4f67713459e1b69e8e60fcee2e4940c7a0d5de1b2010000000000002710000001230f4f5d4b7c6fa845806ee4f67713459e1b69e8e60fcee2e4940c7a0d5de1b201000775efbf0d6e94035359bd02be12b2d071e1c75889b8fdcafa549f8503f04b7fa2d735ef86b829161976a9141f56c53ae6274babe6ae64ed8e2575330844149b88ac01230f4f5d4b7c6fa845806ee4f67713459e1b69e8e60fcee2e4940c7a0d5de1b2010000000029b92700001976a914e10cd4f9756ba918594b44a6692591ef430b100c88ac01230f4f5d4b7c6fa845806ee4f67713459e1b69e8e60fcee2e4940c7a0d5de1b201000000004190ab0002405ef0bd75d517ca7304588ece1ffd8cb93378608cfc8bc6726f3372c4a0407a1976a914c86c599e93ef3ca7d7ecfc1849603b617b708e4688ac00000000")
  (hex "ace5bbd9a90d7847746db689ebdf560275e157cd0f05e0f557de98e8edb349ae") (hex "ace5bbd9a90d7847746db689ebdf560275e157cd0f05e0f557de98e8edb349ae") (fun t => (nVersion t =? 2)
  && (nLockTime t =? 0)
  && (length (vin t) =? 1)%nat
  && (length (vout t) =? 4)%nat
  && out_script t 0 (hex "")
  && out_amount_is t 0 10000
  && out_asset_is t 0 (hex "230f4f5d4b7c6fa845806ee4f67713459e1b69e8e60fcee2e4940c7a0d5de1b2")
  && out_script t 1 (hex "76a9141f56c53ae6274babe6ae64ed8e2575330844149b88ac")
  && out_amount_is t 1 2099997399936660
  && out_asset_is t 1 (hex "230f4f5d4b7c6fa845806ee4f67713459e1b69e8e60fcee2e4940c7a0d5de1b2")
  && out_script t 2 (hex "76a914e10cd4f9756ba918594b44a6692591ef430b100c88ac")
  && out_amount_is t 2 700000000
  && out_asset_is t 2 (hex "230f4f5d4b7c6fa845806ee4f67713459e1b69e8e60fcee2e4940c7a0d5de1b2")
  && out_script t 3 (hex "76a914c86c599e93ef3ca7d7ecfc1849603b617b708e4688ac")
  && out_amount_is t 3 1100000000
  && out_asset_is t 3 (hex "230f4f5d4b7c6fa845806ee4f67713459e1b69e8e60fcee2e4940c7a0d5de1b2")
  && in_is (fun i => bytes_eqb (scriptSig i) (hex "")) t 0
  && in_is (fun i => bytes_eqb (op_hash (prevout i)) (hex "c906492d7663d6c935098e7fbd690b922179810dac748a2e9984e4e5f3ca4c32")) t 0
  && in_is (fun i => op_n (prevout i) =? 0) t 0
  && in_is (fun i => nSequence i =? 4294967295) t 0
  && in_is (fun i => eqb (is_pegin i) false) t 0) = true.
Proof. vm_compute. reflexivity. Qed.
Example vector_05 : vector (hex "020000000001fa6e02db745fd293bf16ee0e32434e051db4c557575c5cdb97bb5e12a4196bc80100000000ffffffff0201230f4f5d4b7c6fa845806ee4f67713459e1b69e8e60fcee2e4940c7a0d5de1b2010000000000002710000001230f4f5d4b7c6fa845806ee4f67713459e1b69e8e60fcee2e4940c7a0d5de1b201000775efbf0d4784001976a914e10cd4f9756ba918594b44a6692591ef430b100c88ac00000000")
  (hex "d1b7f519914fcb0b4e43c5e0d3eb08007f199436928327010e5e4341d34d39f1") (hex "d1b7f519914fcb0b4e43c5e0d3eb08007f199436928327010e5e4341d34d39f1") (fun t => (nVersion t =? 2)
  && (nLockTime t =? 0)
  && (length (vin t) =? 1)%nat
  && (length (vout t) =? 2)%nat
  && out_script t 0 (hex "")
  && out_amount_is t 0 10000
  && out_asset_is t 0 (hex "230f4f5d4b7c6fa845806ee4f67713459e1b69e8e60fcee2e4940c7a0d5de1b2")
  && out_script t 1 (hex "76a914e10cd4f9756ba918594b44a6692591ef430b100c88ac")
  && out_amount_is t 1 2099997399926660
  && out_asset_is t 1 (hex "230f4f5d4b7c6fa845806ee4f67713459e1b69e8e60fcee2e4940c7a0d5de1b2")
  && in_is (fun i => bytes_eqb (scriptSig i) (hex "")) t 0
  && in_is (fun i => bytes_eqb (op_hash (prevout i)) (hex "fa6e02db745fd293bf16ee0e32434e051db4c557575c5cdb97bb5e12a4196bc8")) t 0
  && in_is (fun i => op_n (prevout i) =? 1) t 0
  && in_is (fun i => nSequence i =? 4294967295) t 0
  && in_is (fun i => eqb (is_pegin i) false) t 0) = true.
Proof. vm_compute. reflexivity. Qed.
Example vector_07 : vector (hex "020000000001fa6e02db745fd293bf16ee0e32434e051db4c557575c5cdb97bb5e12a4196bc80100000000ffffffff0301230f4f5d4b7c6fa845806ee4f67713459e1b69e8e60fcee2e4940c7a0d5de1b201000775ef59b9568402717d64c2574120fc178c5c15cab717b7eff849153affae465be60438e5737bcf1976a914ef686417dfea6af5a4f7f57af34f71da8c828f9f88ac01230f4f5d4b7c6fa845806ee4f67713459e1b69e8e60fcee2e4940c7a0d5de1b2010000000000002710000001230f4f5d4b7c6fa845806ee4f67713459e1b69e8e60fcee2e4940c7a0d5de1b201000000006553f100001976a914e10cd4f9756ba918594b44a6692591ef430b100c88ac00000000")
  (hex "3e4148ab264a15ccdbc465a3d8adbfdf04843e213249663e70fe4b64a3c0686d") (hex "3e4148ab264a15ccdbc465a3d8adbfdf04843e213249663e70fe4b64a3c0686d") (fun t => (nVersion t =? 2)
  && (nLockTime t =? 0)
  && (length (vin t) =? 1)%nat
  && (length (vout t) =? 3)%nat
  && out_script t 0 (hex "76a914ef686417dfea6af5a4f7f57af34f71da8c828f9f88ac")
  && out_amount_is t 0 2099995699926660
  && out_asset_is t 0 (hex "230f4f5d4b7c6fa845806ee4f67713459e1b69e8e60fcee2e4940c7a0d5de1b2")
  && out_script t 1 (hex "")
  && out_amount_is t 1 10000
  && out_asset_is t 1 (hex "230f4f5d4b7c6fa845806ee4f67713459e1b69e8e60fcee2e4940c7a0d5de1b2")
  && out_script t 2 (hex "76a914e10cd4f9756ba918594b44a6692591ef430b100c88ac")
  && out_amount_is t 2 1700000000
  && out_asset_is t 2 (hex "230f4f5d4b7c6fa845806ee4f67713459e1b69e8e60fcee2e4940c7a0d5de1b2")
  && in_is (fun i => bytes_eqb (scriptSig i) (hex "")) t 0
  && in_is (fun i => bytes_eqb (op_hash (prevout i)) (hex "fa6e02db745fd293bf16ee0e32434e051db4c557575c5cdb97bb5e12a4196bc8")) t 0
  && in_is (fun i => op_n (prevout i) =? 1) t 0
  && in_is (fun i => nSequence i =? 4294967295) t 0
  && in_is (fun i => eqb (is_pegin i) false) t 0) = true.
Proof. vm_compute. reflexivity. Qed.
Example vector_10 : vector (hex "0200000000000201230f4f5d4b7c6fa845806ee4f67713459e1b69e8e60fcee2e4940c7a0d5de1b2010000000005f5e100023ac79cf52ef1029525b6343705fc56385ea152f1d7cba1945f0d89b4becee3521976a914cc759be7ef3fc46efc7c280b0d54aacb2ff8387a88ac01230f4f5d4b7c6fa845806ee4f67713459e1b69e8e60fcee2e4940c7a0d5de1b20100000000068e7780026e627da8dfc29d10b4cac4e6efa2a6ab87161d6bea625dd692e4603ca3c5c11c1976a914c3e01785a02bf81aca8a6868b1a72c9e1e801a6d88ac00000000")
  (hex "8c0b1fcce0e89add758ab83366e9d778282d35fced2053be965063a794243aa9") (hex "8c0b1fcce0e89add758ab83366e9d778282d35fced2053be965063a794243aa9") (fun t => (nVersion t =? 2)
  && (nLockTime t =? 0)
  && (length (vin t) =? 0)%nat
  && (length (vout t) =? 2)%nat
  && out_script t 0 (hex "76a914cc759be7ef3fc46efc7c280b0d54aacb2ff8387a88ac")
  && out_amount_is t 0 100000000
  && out_asset_is t 0 (hex "230f4f5d4b7c6fa845806ee4f67713459e1b69e8e60fcee2e4940c7a0d5de1b2")
  && out_script t 1 (hex "76a914c3e01785a02bf81aca8a6868b1a72c9e1e801a6d88ac")
  && out_amount_is t 1 110000000
  && out_asset_is t 1 (hex "230f4f5d4b7c6fa845806ee4f67713459e1b69e8e60fcee2e4940c7a0d5de1b2")) = true.
Proof. vm_compute. reflexivity. Qed.
Example vector_11 : vector (hex "020000000001e5991842fc8abe85c14459d6d8cc8161741466233fed2f69e444241601d6a3bb0000000000feffffff0401230f4f5d4b7c6fa845806ee4f67713459e1b69e8e60fcee2e4940c7a0d5de1b2010000000005f5e100023ac79cf52ef1029525b6343705fc56385ea152f1d7cba1945f0d89b4becee3521976a914cc759be7ef3fc46efc7c280b0d54aacb2ff8387a88ac01230f4f5d4b7c6fa845806ee4f67713459e1b69e8e60fcee2e4940c7a0d5de1b20100000000068e7780026e627da8dfc29d10b4cac4e6efa2a6ab87161d6bea625dd692e4603ca3c5c11c1976a914c3e01785a02bf81aca8a6868b1a72c9e1e801a6d88ac01230f4f5d4b7c6fa845806ee4f67713459e1b69e8e60fcee2e4940c7a0d5de1b201000775ef4d3417c8029c245e08d3122850512c7768aaed48b5d82ffc67d6b4d625b4f27850bae433491976a914906dee49b1bd8bf8fb5ef69096976a53aad5827388ac01230f4f5d4b7c6fa845806ee4f67713459e1b69e8e60fcee2e4940c7a0d5de1b201000000000000e63c000000000000")
  (hex "f77339dedc008c39fa0de28d4e6a330d1dfb3b6c1ecefbe420b0ee22bcad6b93") (hex "f77339dedc008c39fa0de28d4e6a330d1dfb3b6c1ecefbe420b0ee22bcad6b93") (fun t => (nVersion t =? 2)
  && (nLockTime t =? 0)
  && (length (vin t) =? 1)%nat
  && (length (vout t) =? 4)%nat
  && out_script t 0 (hex "76a914cc759be7ef3fc46efc7c280b0d54aacb2ff8387a88ac")
  && out_amount_is t 0 100000000
  && out_asset_is t 0 (hex "230f4f5d4b7c6fa845806ee4f67713459e1b69e8e60fcee2e4940c7a0d5de1b2")
  && out_script t 1 (hex "76a914c3e01785a02bf81aca8a6868b1a72c9e1e801a6d88ac")
  && out_amount_is t 1 110000000
  && out_asset_is t 1 (hex "230f4f5d4b7c6fa845806ee4f67713459e1b69e8e60fcee2e4940c7a0d5de1b2")
  && out_script t 2 (hex "76a914906dee49b1bd8bf8fb5ef69096976a53aad5827388ac")
  && out_amount_is t 2 2099995489867720
  && out_asset_is t 2 (hex "230f4f5d4b7c6fa845806ee4f67713459e1b69e8e60fcee2e4940c7a0d5de1b2")
  && out_script t 3 (hex "")
  && out_amount_is t 3 58940
  && out_asset_is t 3 (hex "230f4f5d4b7c6fa845806ee4f67713459e1b69e8e60fcee2e4940c7a0d5de1b2")
  && in_is (fun i => bytes_eqb (scriptSig i) (hex "")) t 0
  && in_is (fun i => bytes_eqb (op_hash (prevout i)) (hex "e5991842fc8abe85c14459d6d8cc8161741466233fed2f69e444241601d6a3bb")) t 0
  && in_is (fun i => op_n (prevout i) =? 0) t 0
  && in_is (fun i => nSequence i =? 4294967294) t 0
  && in_is (fun i => eqb (is_pegin i) false) t 0) = true.
Proof. vm_compute. reflexivity. Qed.
Example vector_16 : vector (hex "020000000003af9734d26f8767b35b13d756b73c7301451f4ef3da3e17be3719af524ae241c40100000000ffffffffe0ab52c2fcdaab59d91c9b6e368b47fe38fcd74d817fc89ded8ba3385967c7a80100000000ffffffffaf9734d26f8767b35b13d756b73c7301451f4ef3da3e17be3719af524ae241c40200000000ffffffff0301230f4f5d4b7c6fa845806ee4f67713459e1b69e8e60fcee2e4940c7a0d5de1b20100000000000f4240000001230f4f5d4b7c6fa845806ee4f67713459e1b69e8e60fcee2e4940c7a0d5de1b201000000006b3a8fc003f076010b7d46422907ba58e578e00c42de99869f46e5102dd0a2300880e1f2d41976a91414923202a76948408b8304e3e2a077421596c9cb88ac01a449158ae055cb859cf6a055ff63f493c1ba333cc5a451c8c3fc22d52809be10010000000005f5e10002e5a881bec5ad1f1af2e3c0209b250bf2fee7ccf4bff1c7ce3f6a9c35118decd31976a9148ab76c6e9adc7aae19a3a7d68df107ada66ae99988ac00000000")
  (hex "8e1f22a6a4ac91c2758b9baffb7e807c9bcbc763a7971cf35c5cb48d1a84a61d") (hex "8e1f22a6a4ac91c2758b9baffb7e807c9bcbc763a7971cf35c5cb48d1a84a61d") (fun t => (nVersion t =? 2)
  && (nLockTime t =? 0)
  && (length (vin t) =? 3)%nat
  && (length (vout t) =? 3)%nat
  && out_script t 0 (hex "")
  && out_amount_is t 0 1000000
  && out_asset_is t 0 (hex "230f4f5d4b7c6fa845806ee4f67713459e1b69e8e60fcee2e4940c7a0d5de1b2")
  && out_script t 1 (hex "76a91414923202a76948408b8304e3e2a077421596c9cb88ac")
  && out_amount_is t 1 1799000000
  && out_asset_is t 1 (hex "230f4f5d4b7c6fa845806ee4f67713459e1b69e8e60fcee2e4940c7a0d5de1b2")
  && out_script t 2 (hex "76a9148ab76c6e9adc7aae19a3a7d68df107ada66ae99988ac")
  && out_amount_is t 2 100000000
  && out_asset_is t 2 (hex "a449158ae055cb859cf6a055ff63f493c1ba333cc5a451c8c3fc22d52809be10")
  && in_is (fun i => bytes_eqb (scriptSig i) (hex "")) t 0
  && in_is (fun i => bytes_eqb (op_hash (prevout i)) (hex "af9734d26f8767b35b13d756b73c7301451f4ef3da3e17be3719af524ae241c4")) t 0
  && in_is (fun i => op_n (prevout i) =? 1) t 0
  && in_is (fun i => nSequence i =? 4294967295) t 0
  && in_is (fun i => eqb (is_pegin i) false) t 0
  && in_is (fun i => bytes_eqb (scriptSig i) (hex "")) t 1
  && in_is (fun i => bytes_eqb (op_hash (prevout i)) (hex "e0ab52c2fcdaab59d91c9b6e368b47fe38fcd74d817fc89ded8ba3385967c7a8")) t 1
  && in_is (fun i => op_n (prevout i) =? 1) t 1
  && in_is (fun i => nSequence i =? 4294967295) t 1
  && in_is (fun i => eqb (is_pegin i) false) t 1
  && in_is (fun i => bytes_eqb (scriptSig i) (hex "")) t 2
  && in_is (fun i => bytes_eqb (op_hash (prevout i)) (hex "af9734d26f8767b35b13d756b73c7301451f4ef3da3e17be3719af524ae241c4")) t 2
  && in_is (fun i => op_n (prevout i) =? 2) t 2
  && in_is (fun i => nSequence i =? 4294967295) t 2
  && in_is (fun i => eqb (is_pegin i) false) t 2) = true.
Proof. vm_compute. reflexivity. Qed.
Example vector_24 : vector (hex "0200000000021884c0de2bffd695ca533fddc10e9657e900eb7bb0721a8b7f88209b2541a1d30000000000ffffffff1884c0de2bffd695ca533fddc10e9657e900eb7bb0721a8b7f88209b2541a1d30100000000ffffffff0201230f4f5d4b7c6fa845806ee4f67713459e1b69e8e60fcee2e4940c7a0d5de1b2010000000000030d40000001230f4f5d4b7c6fa845806ee4f67713459e1b69e8e60fcee2e4940c7a0d5de1b20100000000068adf8003207e995c44b69eb62fe19e7a4b1674ad363247d7f8068a0a0624a95ca349b2ad1976a91404c947a6075f57d8fda8d9a9738fe44196c90b3c88ac00000000")
  (hex "0e86f0313773f46163403c035e523080f66106af278b0bc3a7713144d477c8bf") (hex "0e86f0313773f46163403c035e523080f66106af278b0bc3a7713144d477c8bf") (fun t => (nVersion t =? 2)
  && (nLockTime t =? 0)
  && (length (vin t) =? 2)%nat
  && (length (vout t) =? 2)%nat
  && out_script t 0 (hex "")
  && out_amount_is t 0 200000
  && out_asset_is t 0 (hex "230f4f5d4b7c6fa845806ee4f67713459e1b69e8e60fcee2e4940c7a0d5de1b2")
  && out_script t 1 (hex "76a91404c947a6075f57d8fda8d9a9738fe44196c90b3c88ac")
  && out_amount_is t 1 109764480
  && out_asset_is t 1 (hex "230f4f5d4b7c6fa845806ee4f67713459e1b69e8e60fcee2e4940c7a0d5de1b2")
  && in_is (fun i => bytes_eqb (scriptSig i) (hex "")) t 0
  && in_is (fun i => bytes_eqb (op_hash (prevout i)) (hex "1884c0de2bffd695ca533fddc10e9657e900eb7bb0721a8b7f88209b2541a1d3")) t 0
  && in_is (fun i => op_n (prevout i) =? 0) t 0
  && in_is (fun i => nSequence i =? 4294967295) t 0
  && in_is (fun i => eqb (is_pegin i) false) t 0
  && in_is (fun i => bytes_eqb (scriptSig i) (hex "")) t 1
  && in_is (fun i => bytes_eqb (op_hash (prevout i)) (hex "1884c0de2bffd695ca533fddc10e9657e900eb7bb0721a8b7f88209b2541a1d3")) t 1
  && in_is (fun i => op_n (prevout i) =? 1) t 1
  && in_is (fun i => nSequence i =? 4294967295) t 1
  && in_is (fun i => eqb (is_pegin i) false) t 1) = true.
Proof. vm_compute. reflexivity. Qed.
Example vector_28 : vector (hex "0200000000000201230f4f5d4b7c6fa845806ee4f67713459e1b69e8e60fcee2e4940c7a0d5de1b201000000000bebc200033be2306ab11244714797d4956f53aa494b09e01d87e8303c3ccddeabfcbe8e381976a914e3c21d6122f9f1b2d3c05ceac7cf134219da02ed88ac013ba98d9a759ce4a11d0795625a465413aa27dcf6d213ef710398cef6239f7f8e010000000005f5e10002c5a94b551a0e4cc65b0d1e5a5a2fc30d025c031aac8165ae274dffa349fedf411976a9140914e0e18e2cf02025a9aed0e08d13f01823c63688ac00000000")
  (hex "b50e4e52e4e07311c1918565e15904f352760dfdf7f31535bd0cadd5c450dc1a") (hex "b50e4e52e4e07311c1918565e15904f352760dfdf7f31535bd0cadd5c450dc1a") (fun t => (nVersion t =? 2)
  && (nLockTime t =? 0)
  && (length (vin t) =? 0)%nat
  && (length (vout t) =? 2)%nat
  && out_script t 0 (hex "76a914e3c21d6122f9f1b2d3c05ceac7cf134219da02ed88ac")
  && out_amount_is t 0 200000000
  && out_asset_is t 0 (hex "230f4f5d4b7c6fa845806ee4f67713459e1b69e8e60fcee2e4940c7a0d5de1b2")
  && out_script t 1 (hex "76a9140914e0e18e2cf02025a9aed0e08d13f01823c63688ac")
  && out_amount_is t 1 100000000
  && out_asset_is t 1 (hex "3ba98d9a759ce4a11d0795625a465413aa27dcf6d213ef710398cef6239f7f8e")) = true.
Proof. vm_compute. reflexivity. Qed.
Example vector_32 : vector (hex "020000000002b74d8daf7f87d8b73c624fc041f22dc6f1293d251a563db5011f039604024c180000000000ffffffffb74d8daf7f87d8b73c624fc041f22dc6f1293d251a563db5011f039604024c180100000000ffffffff0101230f4f5d4b7c6fa845806ee4f67713459e1b69e8e60fcee2e4940c7a0d5de1b201000000001dcd650003241166b896f9e1e385453464033c8d17638527b33621d4a000cbf812ef3fd5d31976a91457db5bbf13e69241cde042645e6744470bb17db488ac00000000")
  (hex "64e5e01f96e1aae49a9989fff4628bee21b5849e76f4146af16d61d416f27c73") (hex "64e5e01f96e1aae49a9989fff4628bee21b5849e76f4146af16d61d416f27c73") (fun t => (nVersion t =? 2)
  && (nLockTime t =? 0)
  && (length (vin t) =? 2)%nat
  && (length (vout t) =? 1)%nat
  && out_script t 0 (hex "76a91457db5bbf13e69241cde042645e6744470bb17db488ac")
  && out_amount_is t 0 500000000
  && out_asset_is t 0 (hex "230f4f5d4b7c6fa845806ee4f67713459e1b69e8e60fcee2e4940c7a0d5de1b2")
  && in_is (fun i => bytes_eqb (scriptSig i) (hex "")) t 0
  && in_is (fun i => bytes_eqb (op_hash (prevout i)) (hex "b74d8daf7f87d8b73c624fc041f22dc6f1293d251a563db5011f039604024c18")) t 0
  && in_is (fun i => op_n (prevout i) =? 0) t 0
  && in_is (fun i => nSequence i =? 4294967295) t 0
  && in_is (fun i => eqb (is_pegin i) false) t 0
  && in_is (fun i => bytes_eqb (scriptSig i) (hex "")) t 1
  && in_is (fun i => bytes_eqb (op_hash (prevout i)) (hex "b74d8daf7f87d8b73c624fc041f22dc6f1293d251a563db5011f039604024c18")) t 1
  && in_is (fun i => op_n (prevout i) =? 1) t 1
  && in_is (fun i => nSequence i =? 4294967295) t 1
  && in_is (fun i => eqb (is_pegin i) false) t 1) = true.
Proof. vm_compute. reflexivity. Qed.
Example vector_43 : vector (hex "02000000000113561cd6d3fc91c52c7924a9b42454714775ec3623339bffef0c008e63423816000000006a4730440220151278c61b342ac7ffbd3fdf326f0e54bd061a515b8cc2d4b31a7c16b4c6436402202667296b4229edad59a51f95bc06af42b81798ea3f9e4679a7d29e8f44421e1b012102ec6bc487dc4e2f8996a1b8b1a7bdf3348836ac7c57f34cc4f060082258d0c851feffffff0301d4623d74cccc3551d03e8f94008987d810a44a96f6ca0ed54596319565a0c17a01000000008916fca4001976a9147df5d5f80d13831a394a3b5876bf781df4943de988ac01d4623d74cccc3551d03e8f94008987d810a44a96f6ca0ed54596319565a0c17a010000000005f5e100003c6a20e4eba224d3e2775e3400a71f18b8d31b0f378416bcf1e92864f3c89151989b0a1976a9148fa678460ad67f4613b5ef3eff69c884f629ac5b88ac01d4623d74cccc3551d03e8f94008987d810a44a96f6ca0ed54596319565a0c17a010000000000001d600000d1000000")
  (hex "725d0d8942b0e8b41cf2d4bee9ae12874b23d54ec3e87996eadf002b40c721a7") (hex "725d0d8942b0e8b41cf2d4bee9ae12874b23d54ec3e87996eadf002b40c721a7") (fun t => (nVersion t =? 2)
  && (nLockTime t =? 209)
  && (length (vin t) =? 1)%nat
  && (length (vout t) =? 3)%nat
  && out_script t 0 (hex "76a9147df5d5f80d13831a394a3b5876bf781df4943de988ac")
  && out_amount_is t 0 2299985060
  && out_asset_is t 0 (hex "d4623d74cccc3551d03e8f94008987d810a44a96f6ca0ed54596319565a0c17a")
  && out_script t 1 (hex "6a20e4eba224d3e2775e3400a71f18b8d31b0f378416bcf1e92864f3c89151989b0a1976a9148fa678460ad67f4613b5ef3eff69c884f629ac5b88ac")
  && out_amount_is t 1 100000000
  && out_asset_is t 1 (hex "d4623d74cccc3551d03e8f94008987d810a44a96f6ca0ed54596319565a0c17a")
  && pegout_is t 1 (hex "e4eba224d3e2775e3400a71f18b8d31b0f378416bcf1e92864f3c89151989b0a") (hex "76a9148fa678460ad67f4613b5ef3eff69c884f629ac5b88ac")
  && out_script t 2 (hex "")
  && out_amount_is t 2 7520
  && out_asset_is t 2 (hex "d4623d74cccc3551d03e8f94008987d810a44a96f6ca0ed54596319565a0c17a")
  && in_is (fun i => bytes_eqb (scriptSig i) (hex "4730440220151278c61b342ac7ffbd3fdf326f0e54bd061a515b8cc2d4b31a7c16b4c6436402202667296b4229edad59a51f95bc06af42b81798ea3f9e4679a7d29e8f44421e1b012102ec6bc487dc4e2f8996a1b8b1a7bdf3348836ac7c57f34cc4f060082258d0c851")) t 0
  && in_is (fun i => bytes_eqb (op_hash (prevout i)) (hex "13561cd6d3fc91c52c7924a9b42454714775ec3623339bffef0c008e63423816")) t 0
  && in_is (fun i => op_n (prevout i) =? 0) t 0
  && in_is (fun i => nSequence i =? 4294967294) t 0
  && in_is (fun i => eqb (is_pegin i) false) t 0) = true.
Proof. vm_compute. reflexivity. Qed.
Example vector_46 : vector (hex "02000000000154df3511de3caa9298e39c7a1a0553fe95a53f4c020164ee6c63dc0aef47fe800000000000ffffffff0101d4623d74cccc3551d03e8f94008987d810a44a96f6ca0ed54596319565a0c17a01000000000000000000fd1e016a20aaaaaaaaaaaaaaaaaaaaaaaaaaaaaaaaaaaaaaaaaaaaaaaaaaaaaaaaaaaaaaaa4cfabbbbbbbbbbbbbbbbbbbbbbbbbbbbbbbbbbbbbbbbbbbbbbbbbbbbbbbbbbbbbbbbbbbbbbbbbbbbbbbbbbbbbbbbbbbbbbbbbbbbbbbbbbbbbbbbbbbbbbbbbbbbbbbbbbbbbbbbbbbbbbbbbbbbbbbbbbbbbbbbbbbbbbbbbbbbbbbbbbbbbbbbbbbbbbbbbbbbbbbbbbbbbbbbbbbbbbbbbbbbbbbbbbbbbbbbbbbbbbbbbbbbbbbbbbbbbbbbbbbbbbbbbbbbbbbbbbbbbbbbbbbbbbbbbbbbbbbbbbbbbbbbbbbbbbbbbbbbbbbbbbbbbbbbbbbbbbbbbbbbbbbbbbbbbbbbbbbbbbbbbbbbbbbbbbbbbbbbbbbbbbbbbbbbbbbbbbbbbbbbbbbbbbbbbbbbbbbbbbbbbbbbbbbbbbbbbbbbbbbbbbbbbbbbbbbbbbbbbbbbbbbbbbbbbbbbbbbbbbbbbbbbbbbbbbbbbbbbbbbb00000000")
  (hex "4c0888d0a62e8e8efafd1b751f3fffab536832c3c88575362b712d23daeaf0f5") (hex "4c0888d0a62e8e8efafd1b751f3fffab536832c3c88575362b712d23daeaf0f5") (fun t => (nVersion t =? 2)
  && (nLockTime t =? 0)
  && (length (vin t) =? 1)%nat
  && (length (vout t) =? 1)%nat
  && out_script t 0 (hex "6a20aaaaaaaaaaaaaaaaaaaaaaaaaaaaaaaaaaaaaaaaaaaaaaaaaaaaaaaaaaaaaaaa4cfabbbbbbbbbbbbbbbbbbbbbbbbbbbbbbbbbbbbbbbbbbbbbbbbbbbbbbbbbbbbbbbbbbbbbbbbbbbbbbbbbbbbbbbbbbbbbbbbbbbbbbbbbbbbbbbbbbbbbbbbbbbbbbbbbbbbbbbbbbbbbbbbbbbbbbbbbbbbbbbbbbbbbbbbbbbbbbbbbbbbbbbbbbbbbbbbbbbbbbbbbbbbbbbbbbbbbbbbbbbbbbbbbbbbbbbbbbbbbbbbbbbbbbbbbbbbbbbbbbbbbbbbbbbbbbbbbbbbbbbbbbbbbbbbbbbbbbbbbbbbbbbbbbbbbbbbbbbbbbbbbbbbbbbbbbbbbbbbbbbbbbbbbbbbbbbbbbbbbbbbbbbbbbbbbbbbbbbbbbbbbbbbbbbbbbbbbbbbbbbbbbbbbbbbbbbbbbbbbbbbbbbbbbbbbbbbbbbbbbbbbbbbbbbbbbbbbbbbbbbbbbbbbbbbbbbbbbbbbbbbbbbbbbbbbbbbbbbbbbbb")
  && out_amount_is t 0 0
  && out_asset_is t 0 (hex "d4623d74cccc3551d03e8f94008987d810a44a96f6ca0ed54596319565a0c17a")
  && pegout_is t 0 (hex "aaaaaaaaaaaaaaaaaaaaaaaaaaaaaaaaaaaaaaaaaaaaaaaaaaaaaaaaaaaaaaaa") (hex "bbbbbbbbbbbbbbbbbbbbbbbbbbbbbbbbbbbbbbbbbbbbbbbbbbbbbbbbbbbbbbbbbbbbbbbbbbbbbbbbbbbbbbbbbbbbbbbbbbbbbbbbbbbbbbbbbbbbbbbbbbbbbbbbbbbbbbbbbbbbbbbbbbbbbbbbbbbbbbbbbbbbbbbbbbbbbbbbbbbbbbbbbbbbbbbbbbbbbbbbbbbbbbbbbbbbbbbbbbbbbbbbbbbbbbbbbbbbbbbbbbbbbbbbbbbbbbbbbbbbbbbbbbbbbbbbbbbbbbbbbbbbbbbbbbbbbbbbbbbbbbbbbbbbbbbbbbbbbbbbbbbbbbbbbbbbbbbbbbbbbbbbbbbbbbbbbbbbbbbbbbbbbbbbbbbbbbbbbbbbbbbbbbbbbbbbbbbbbbbbbbbbbbbbbbbbbbbbbbbbbbbbbbbbbbbbbbbbbbbbbbbbbbbbbbbbbbbbbbbbbbbbbbbbbbbbbbbbbbbbbbbbbbbbbbbbbbbbbbbb")
  && in_is (fun i => bytes_eqb (scriptSig i) (hex "")) t 0
  && in_is (fun i => bytes_eqb (op_hash (prevout i)) (hex "54df3511de3caa9298e39c7a1a0553fe95a53f4c020164ee6c63dc0aef47fe80")) t 0
  && in_is (fun i => op_n (prevout i) =? 0) t 0
  && in_is (fun i => nSequence i =? 4294967295) t 0
  && in_is (fun i => eqb (is_pegin i) false) t 0) = true.
Proof. vm_compute. reflexivity. Qed.
