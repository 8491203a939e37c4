(** The verifying half of the toy library, and transactions for the examples of C68. *)
From Verif Require Import Base BaseFacts TxModel BlindModel SpecBlind SpecBalance BlindBalance SpecUnblind SpecMulti SpecNode ToyCrypto ToyTx ToyUnblind.
From Coq Require Import Lia.
Local Open Scope Z_scope.

Definition toy_verifier : Verifier := mkVerifier
  (fun commit proof extra gen =>
     let v := be_val (firstn 8 (skipn 64 proof)) in
     let b := firstn 32 (skipn 32 proof) in
     if bytes_eqb (skipn 136 proof) extra && bytes_eqb commit (b32 (v * val32 gen + be_val b) ++ zeros 32) then Some v else None)
  (fun p => Some p)
  (fun cs cs' => tmod (zsum (map val32 cs)) =? tmod (zsum (map val32 cs'))).

Lemma toy_points cs ss : Forall2 (fun c s => ped_serialize toy c = Some s) cs ss ->
  psum (G := toy_group) (map (cpt toy_meaning) ss) mod toy_order = zsum (map val32 cs) mod toy_order.
Proof.
  induction 1 as [|c s cs ss E F IH]; [reflexivity|]. cbn [map]. change (psum (G := toy_group) (cpt toy_meaning s :: map (cpt toy_meaning) ss)) with (be_val (tl s) + psum (G := toy_group) (map (cpt toy_meaning) ss)).
  change (zsum (val32 c :: map val32 cs)) with (val32 c + zsum (map val32 cs)).
  cbn [toy ped_serialize] in E. assert (ES : s = x08 :: b32 (val32 c)) by congruence. rewrite ES. cbn [tl]. rewrite b32_val, Zplus_mod_idemp_l. rewrite <- Zplus_mod_idemp_r, IH, Zplus_mod_idemp_r. reflexivity.
Qed.
Lemma toy_verifies : VerifierLaws toy toy_verifier toy_meaning.
Proof.
  constructor.
  - intros minv commit bf nonce e bits v msg extra gen proof V C R. exists v. cbn [toy toy_verifier rp_sign rp_verify ped_commit] in *.
    destruct (Z.leb_spec minv v) as [LE|]; [|discriminate R]. cbn [andb] in R. split; [|exact LE].
    destruct (Nat.eqb_spec (length nonce) 32) as [LN|]; [|discriminate R]. destruct (Nat.eqb_spec (length bf) 32) as [LB|]; [|discriminate R]. destruct (Nat.eqb_spec (length msg) 64) as [LM|]; [|discriminate R]. cbn [andb] in R.
    assert (E : proof = nonce ++ bf ++ be_bytes 8 v ++ msg ++ extra) by congruence. clear R. rewrite E.
    assert (L8 : length (be_bytes 8 v) = 8%nat) by apply be_bytes_length.
    assert (S64 : skipn 64 (nonce ++ bf ++ be_bytes 8 v ++ msg ++ extra) = be_bytes 8 v ++ msg ++ extra).
    { rewrite (app_assoc nonce). apply skipn_at. rewrite app_length, LN, LB. reflexivity. }
    assert (S136 : skipn 136 (nonce ++ bf ++ be_bytes 8 v ++ msg ++ extra) = extra).
    { rewrite (app_assoc (be_bytes 8 v)), (app_assoc bf), (app_assoc nonce). apply skipn_at. rewrite !app_length, LN, LB, L8, LM. reflexivity. }
    cbv zeta. rewrite S64, S136, (skipn_at 32), (firstn_at 32), (firstn_at 8) by assumption.
    rewrite be_val_be_bytes. change (256 ^ Z.of_nat 8) with (2 ^ 64). rewrite Z.mod_small by exact V.
    assert (EC : commit = b32 (v * val32 gen + be_val bf) ++ zeros 32) by congruence. rewrite EC.
    assert (BE : forall x, bytes_eqb x x = true) by (intros x; apply bytes_eqb_eq; reflexivity). rewrite !BE. reflexivity.
  - intros. reflexivity.
  - intros. eexists. reflexivity.
  - intros. eexists. reflexivity.
  - intros cs cs' ss ss' F F' E. cbn [toy_verifier tally]. apply Z.eqb_eq. rewrite !tmod_eq, <- (toy_points _ _ F), <- (toy_points _ _ F'). exact E.
Qed.

(** Spent outputs. *)
Definition conf_utxo (d : input_desc) : txout :=
  mkTxOut (x08 :: b32 (d_amount d * (be_val (d_asset d) + be_val (d_abf d)) + be_val (d_bf d))) [x51] (x0a :: b32 (be_val (d_asset d) + be_val (d_abf d))) [].
Definition plain_utxo (d : input_desc) : txout := mkTxOut (expl (d_amount d)) [x51] (x01 :: d_asset d) [].

Lemma conf_asset d : (be_val (d_asset d) + be_val (d_abf d)) mod toy_order <> 0 -> AssetAs toy (conf_utxo d) (d_asset d) (d_abf d).
Proof.
  intros N. right. exists (b32 (be_val (d_asset d) + be_val (d_abf d)) ++ zeros 32). split.
  - cbn [toy gen_generate_blinded]. rewrite toy_point_eq. destruct (Z.eqb_spec ((be_val (d_asset d) + be_val (d_abf d)) mod toy_order) 0); [contradiction|reflexivity].
  - cbn [toy gen_serialize conf_utxo nAsset]. rewrite val32_app, b32_mod. reflexivity.
Qed.
Lemma conf_spent d : (be_val (d_asset d) + be_val (d_abf d)) mod toy_order <> 0 -> 0 <= d_amount d < 2 ^ 64 -> SpentAs toy (conf_utxo d) d.
Proof.
  intros N R. split; [apply conf_asset; exact N|]. exists (b32 (be_val (d_asset d) + be_val (d_abf d)) ++ zeros 32). split.
  - cbn [toy gen_generate_blinded]. rewrite toy_point_eq. destruct (Z.eqb_spec ((be_val (d_asset d) + be_val (d_abf d)) mod toy_order) 0); [contradiction|reflexivity].
  - right. eexists. split; [exact R|]. split; [reflexivity|]. cbn [toy ped_serialize conf_utxo nValue]. rewrite !val32_app, b32_mod. do 2 f_equal.
    rewrite !b32_eq. f_equal. rewrite (Z.add_mod (d_amount d * _)), Z.mul_mod_idemp_r, <- Z.add_mod by discriminate. reflexivity.
Qed.
Lemma plain_spent d : (be_val (d_asset d)) mod toy_order <> 0 -> length (d_asset d) = 32%nat -> 0 < d_amount d <= money -> d_abf d = zeros 32 -> d_bf d = zeros 32 -> SpentAs toy (plain_utxo d) d.
Proof.
  intros N L R EA EB. split; [left; split; [reflexivity|]; split; assumption|]. exists (b32 (be_val (d_asset d) + be_val (d_abf d)) ++ zeros 32). rewrite EA, be_zeros, Z.add_0_r. split.
  - cbn [toy gen_generate_blinded]. rewrite be_zeros, Z.add_0_r. rewrite toy_point_eq. destruct (Z.eqb_spec (be_val (d_asset d) mod toy_order) 0); [contradiction|reflexivity].
  - left. split; [|split; [exact R|exact EB]]. exists (be_bytes 8 (d_amount d)). split; [reflexivity|]. split; [apply be_bytes_length|]. rewrite be_val_be_bytes. apply Z.mod_small. unfold money in R. change (256 ^ Z.of_nat 8) with (2 ^ 64). lia.
Qed.
