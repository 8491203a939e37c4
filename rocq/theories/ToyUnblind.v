(** The toy library satisfies the unblinding contract. *)
From Verif Require Import Base BaseFacts TxModel BlindModel SpecBlind SpecBalance BlindBalance SpecUnblind ToyCrypto.
From Coq Require Import Lia.
Local Open Scope Z_scope.

Lemma b32_mod x : b32 (x mod toy_order) = b32 x.
Proof. rewrite !b32_eq. rewrite Z.mod_mod by discriminate. reflexivity. Qed.
Lemma b32_back d : length d = 32%nat -> be_val d < toy_order -> b32 (be_val d) = d.
Proof.
  intros L B. rewrite !b32_eq. rewrite Z.mod_small by (assert (H := be_val_range d); lia). rewrite <- L at 1. apply be_bytes_be_val.
Qed.
Lemma val32_at d l : length d = 32%nat -> val32 (d ++ l) = be_val d.
Proof. intros L. unfold val32. rewrite (firstn_at 32) by exact L. reflexivity. Qed.

Lemma toy_codec : CodecLaws toy.
Proof.
  constructor; cbn [toy gen_parse gen_generate gen_generate_blinded gen_serialize ped_commit ped_serialize ped_parse].
  - intros a b g s G S. apply toy_point_Some in G. destruct G as [-> _]. rewrite val32_app, b32_mod in S. assert (E : s = x0a :: b32 (be_val a + be_val b)) by congruence. rewrite E, b32_length, b32_val. cbn [Nat.eqb andb].
    assert (B := Z.mod_pos_bound (be_val a + be_val b) toy_order toy_order_pos). destruct (Z.ltb_spec ((be_val a + be_val b) mod toy_order) toy_order); [reflexivity|lia].
  - intros s g P. destruct s as [|[] d]; try discriminate P. destruct (Nat.eqb_spec (length d) 32) as [L|]; cbn [andb] in P; [|discriminate P].
    destruct (Z.ltb_spec (be_val d) toy_order) as [B|]; [|discriminate P]. assert (E : g = d ++ zeros 32) by congruence. rewrite E, val32_at, b32_back by assumption. reflexivity.
  - intros b v g c s G S. assert (EC : c = b32 (v * val32 g + be_val b) ++ zeros 32) by congruence. rewrite EC in *. rewrite val32_app, b32_mod in S. set (x := v * val32 g + be_val b) in *. assert (E : s = x08 :: b32 x) by congruence. rewrite E, b32_length, b32_val. cbn [Nat.eqb andb].
    assert (B := Z.mod_pos_bound x toy_order toy_order_pos). destruct (Z.ltb_spec (x mod toy_order) toy_order); [reflexivity|lia].
  - intros s g P. destruct s as [|[] d]; try discriminate P. destruct (Nat.eqb_spec (length d) 32) as [L|]; cbn [andb] in P; [|discriminate P].
    destruct (Z.ltb_spec (be_val d) toy_order) as [B|]; [|discriminate P]. assert (E : g = d ++ zeros 32) by congruence. rewrite E, val32_at, b32_back by assumption. reflexivity.
  - intros a g. rewrite be_zeros, Z.add_0_r. reflexivity.
  - intros. eauto.
Qed.
Lemma len_of x n : blen x = Z.of_nat n -> length x = n. Proof. unfold blen. lia. Qed.
Lemma toy_rewind : RewindLaw toy.
Proof.
  intros minv commit bf nonce e bits v msg extra gen proof LN LB LM V C R. cbn [toy rp_sign ped_commit rp_rewind] in *.
  apply (len_of _ 32) in LN. apply (len_of _ 32) in LB. apply (len_of _ 64) in LM.
  rewrite LN, LB, LM in R. cbn [Nat.eqb] in R. rewrite !andb_true_r in R. destruct (minv <=? v); [|discriminate R]. assert (E : proof = nonce ++ bf ++ be_bytes 8 v ++ msg ++ extra) by congruence. clear R. rewrite E.
  assert (L8 : length (be_bytes 8 v) = 8%nat) by apply be_bytes_length.
  split. { intros X. apply (f_equal (@length _)) in X. rewrite app_length, LN in X. discriminate X. }
  assert (S64 : skipn 64 (nonce ++ bf ++ be_bytes 8 v ++ msg ++ extra) = be_bytes 8 v ++ msg ++ extra).
  { rewrite (app_assoc nonce). apply skipn_at. rewrite app_length, LN, LB. reflexivity. }
  assert (S72 : skipn 72 (nonce ++ bf ++ be_bytes 8 v ++ msg ++ extra) = msg ++ extra).
  { rewrite (app_assoc bf), (app_assoc nonce). apply skipn_at. rewrite !app_length, LN, LB, L8. reflexivity. }
  assert (S136 : skipn 136 (nonce ++ bf ++ be_bytes 8 v ++ msg ++ extra) = extra).
  { rewrite (app_assoc (be_bytes 8 v)), (app_assoc bf), (app_assoc nonce). apply skipn_at. rewrite !app_length, LN, LB, L8, LM. reflexivity. }
  cbv zeta. rewrite S64, S72, S136, (firstn_at 32), (skipn_at 32), (firstn_at 32), (firstn_at 8), (firstn_at 64) by assumption.
  rewrite be_val_be_bytes. change (256 ^ Z.of_nat 8) with (2 ^ 64). rewrite Z.mod_small by exact V.
  assert (EC : commit = b32 (v * val32 gen + be_val bf) ++ zeros 32) by congruence. rewrite EC.
  assert (BE : forall x, bytes_eqb x x = true) by (intros x; apply bytes_eqb_eq; reflexivity). rewrite !BE. reflexivity.
Qed.
Lemma toy_sound : RewindSound toy.
Proof.
  intros nonce commit proof extra gen bf v msg H. cbn [toy rp_rewind ped_commit] in *. cbv zeta in H.
  destruct (_ && _) eqn:E; [|discriminate H]. apply andb_prop in E. destruct E as [_ E]. apply bytes_eqb_eq in E. rewrite E.
  set (x := be_val (firstn 8 (skipn 64 proof))) in *. set (y := firstn 32 (skipn 32 proof)) in *. assert (v = x) by congruence. assert (bf = y) by congruence. subst v bf. reflexivity.
Qed.
Lemma toy_keys : KeyLaws toy.
Proof.
  constructor; cbn [toy ecdh sk_pub sk_valid pk_fullyvalid].
  - intros a b _ _. rewrite !b32_val. f_equal. rewrite !b32_eq. f_equal. rewrite !Z.mul_mod_idemp_r by discriminate. f_equal. lia.
  - intros a _. rewrite b32_length. reflexivity.
Qed.
Lemma toy_gen_ser g : gen_serialize toy g = Some (x0a :: b32 (val32 g)). Proof. reflexivity. Qed.
Lemma toy_gen_point a b : gen_generate_blinded toy a b = toy_point (be_val a + be_val b). Proof. reflexivity. Qed.
Lemma toy_zerogen : ZeroGen toy.
Proof.
  intros a b g s G S E. rewrite toy_gen_point in G. rewrite toy_gen_ser in S, E. apply toy_point_Some in G. destruct G as [G N]. subst g. rewrite val32_app in S.
  assert (Q : forall p q : bytes, Some (x0a :: p) = Some s -> Some (x0a :: q) = Some s -> be_val p = be_val q) by (intros p q Y1 Y2; congruence).
  assert (X := Q _ _ E S). rewrite !b32_val, Z.mod_mod in X by discriminate. apply N. rewrite <- X. vm_compute. reflexivity.
Qed.
