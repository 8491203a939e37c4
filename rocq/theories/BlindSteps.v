(** Exact effect of one step of each loop of blind(). *)
From Verif Require Import Base BaseFacts Serialize TxModel IssuanceModel ScriptModel MiscModel BlindModel BlindFacts SpecBlind BlindFrame BlindFails.
From Coq Require Import Lia.
Local Open Scope Z_scope.

Lemma last_res_Ok {A} (l : list A) x : last_res l = Ok x <-> exists l', l = l' ++ [x].
Proof.
  unfold last_res. split.
  - destruct (rev l) as [|y r] eqn:E; [discriminate|]. intros H. apply Ok_inj in H. subst y.
    exists (rev r). rewrite <- (rev_involutive l), E. reflexivity.
  - intros [l' ->]. rewrite rev_app_distr. reflexivity.
Qed.
Lemma last_res_snoc {A} (l : list A) x y : last_res (l ++ [x]) = Ok y -> y = x.
Proof. rewrite last_res_Ok. intros [l' E]. apply app_inj_tail in E. symmetry. apply E. Qed.

Lemma le32_tag : uint256_from_int 0 = tag32 x00 /\ uint256_from_int 1 = tag32 x01 /\ uint256_from_int 2 = tag32 x02.
Proof. vm_compute. auto. Qed.

Lemma to_amount_explicit x a : to_amount x = Ok a -> ExplicitValue x (c_uint64 a).
Proof.
  unfold to_amount. destruct (conf_is_explicit CConfValue x) eqn:E; [|discriminate]. intros H. apply Ok_inj in H. subst a.
  unfold conf_is_explicit in E. apply andb_prop in E. destruct E as [E1 E2]. apply Z.eqb_eq in E1.
  destruct x as [|b d]; [discriminate|]. apply Z.eqb_eq in E2. rewrite blen_cons in E1. change (explicitSize CConfValue) with 9 in E1.
  exists d. split; [f_equal; apply bz_inj; rewrite E2; reflexivity|]. assert (L : length d = 8%nat) by (unfold blen in E1; lia).
  split; [exact L|]. cbn [tl]. pose proof (be_val_range d) as R. unfold blen in R. rewrite L in R.
  unfold c_uint64. symmetry. exact (proj2 (to_signed_range 7 _ R)).
Qed.
Lemma to_asset_explicit x a : to_asset x = Ok a -> ExplicitAsset x a.
Proof.
  unfold to_asset. destruct (conf_is_explicit CConfAsset x) eqn:E; [|discriminate]. intros H.
  unfold conf_is_explicit in E. apply andb_prop in E. destruct E as [E1 E2]. apply Z.eqb_eq in E1.
  destruct x as [|b d]; [discriminate|]. apply Z.eqb_eq in E2. cbn [tl] in H. unfold uint256_new in H.
  destruct (Z.eqb_spec (blen d) 32) as [L|]; [|discriminate]. apply Ok_inj in H. subst a.
  split; [f_equal; apply bz_inj; rewrite E2; reflexivity|]. unfold blen in L. lia.
Qed.
Lemma min_value_spec s : (Unspendable s -> rangeproof_min_value s = 0) /\ (~ Unspendable s -> rangeproof_min_value s = 1).
Proof.
  unfold rangeproof_min_value, is_unspendable, base_is_unspendable, Unspendable. destruct s as [|o s].
  - cbn. split; [reflexivity|]. intros N. exfalso. apply N. auto.
  - rewrite blen_cons. pose proof (blen_nonneg s). destruct (Z.eqb_spec (1 + blen s) 0); [lia|].
    destruct (Z.eqb_spec (bz o) OP_RETURN) as [E|E].
    + split; [reflexivity|]. intros N. exfalso. apply N. right. exists s. f_equal. apply bz_inj. exact E.
    + split; [|reflexivity]. intros [X|(r & X)]; [discriminate|]. injection X as -> _. exfalso. apply E. reflexivity.
Qed.

Lemma c_int_eq v : c_int v = int32 v.
Proof.
  unfold c_int, int32. cbv zeta. assert (B := Z.mod_pos_bound v (2 ^ 32) eq_refl). assert (D := Z.div_mod v (2 ^ 32) ltac:(discriminate)).
  destruct (Z.ltb_spec (v mod 2 ^ 32) (2 ^ 31)) as [L|L].
  - assert (E : (v + 2 ^ 31) mod 2 ^ 32 = v mod 2 ^ 32 + 2 ^ 31) by (symmetry; apply Z.mod_unique with (v / 2 ^ 32); [left; change (2 ^ 32) with (2 ^ 31 + 2 ^ 31) at 2; lia|lia]). lia.
  - assert (E : (v + 2 ^ 31) mod 2 ^ 32 = v mod 2 ^ 32 - 2 ^ 31) by (symmetry; apply Z.mod_unique with (v / 2 ^ 32 + 1); [left|]; change (2 ^ 32) with (2 ^ 31 + 2 ^ 31) in *; lia). change (2 ^ 32) with (2 ^ 31 + 2 ^ 31) in *. lia.
Qed.

Section S.
Variables (z : Crypto) (rand : nat -> bytes) (args : blind_args).

Lemma rangeproof_Val bl n v sc c g a abl e b s pr s' : generate_rangeproof z bl n v sc c g a abl e b s = (Val pr, s') ->
  exists bf abf, s' = s /\ last_res bl = Ok bf /\ last_res abl = Ok abf
    /\ rp_sign z (rangeproof_min_value sc) c bf n (int32 (match e with Some e => e | None => 0 end)) (int32 (match b with Some b => b | None => 52 end))
         (c_uint64 v) (a ++ abf) sc g = Some pr.
Proof.
  unfold generate_rangeproof. cbv zeta. intros E.
  apply bind_Val in E. destruct E as (u & s1 & E1 & E). destruct (negb _); [discriminate|]. apply mret_Val in E1. destruct E1 as [_ ->].
  apply bind_Val in E. destruct E as (u2 & s1 & E1 & E). destruct (negb _); [discriminate|]. apply mret_Val in E1. destruct E1 as [_ ->].
  apply bind_Val in E. destruct E as (bf & s1 & E1 & E). apply lift_Val in E1. destruct E1 as [E1 ->].
  apply bind_Val in E. destruct E as (abf & s1 & E2 & E). apply lift_Val in E2. destruct E2 as [E2 ->].
  apply lib_Val in E. destruct E as [E ->]. rewrite !c_int_eq in E. exists bf, abf. auto.
Qed.

(** The asset computed for an issuance field. *)
Lemma issued_asset_Val (ps : bool) inp s ao s' :
  (if uint256_is_null (is_nonce (assetIssuance inp)) then
     mbind (lift (generate_asset_entropy (c_hash z) (c_mid z) (prevout inp) (is_entropy (assetIssuance inp)))) (fun entropy =>
     mbind (lift (if ps then calculate_reissuance_token (c_mid z) entropy true else calculate_asset (c_mid z) entropy)) (fun asset =>
     mret (Some asset)))
   else if ps then mret None
   else mbind (lift (calculate_asset (c_mid z) (is_entropy (assetIssuance inp)))) (fun asset => mret (Some asset))) s = (Val ao, s') ->
  s' = s /\ match ao with
            | None => ps = true /\ is_nonce (assetIssuance inp) <> zeros 32
            | Some asset => (ps = true -> is_nonce (assetIssuance inp) = zeros 32)
                 /\ exists e, EntropyOf z inp e /\ asset = c_mid z (e ++ tag32 (if ps then x02 else x00))
            end.
Proof.
  intros E. destruct le32_tag as (T0 & _ & T2).
  destruct (uint256_is_null (is_nonce (assetIssuance inp))) eqn:U.
  - apply null_eq in U. apply bind_Val in E. destruct E as (e & s1 & E1 & E). apply lift_Val in E1. destruct E1 as [E1 ->].
    apply bind_Val in E. destruct E as (a & s1 & E2 & E). apply lift_Val in E2. destruct E2 as [E2 ->].
    apply mret_Val in E. destruct E as [-> ->]. split; [reflexivity|]. split; [auto|]. exists e. split.
    + left. split; [exact U|]. unfold generate_asset_entropy in E1.
      apply rbind_Ok in E1. destruct E1 as (u & _ & E1). apply rbind_Ok in E1. destruct E1 as (p & E3 & E1).
      unfold ser_outpoint in E3. destruct (negb _); [discriminate|]. apply rbind_Ok in E3. destruct E3 as (n & E4 & E3).
      apply Ok_inj in E3. subst p. unfold pack_le in E4. destruct (_ && _) eqn:R; [|discriminate]. apply Ok_inj in E4. subst n.
      apply andb_prop in R. destruct R as [R1 R2]. apply Z.leb_le in R1. apply Z.ltb_lt in R2.
      exists (le_bytes 4 (op_n (prevout inp))). split; [apply le_bytes_length|]. split.
      * rewrite le_val_le_bytes. apply Z.mod_small. lia.
      * unfold uint256_new in E1. destruct (_ =? _); [|discriminate]. apply Ok_inj in E1. auto.
    + destruct ps; [unfold calculate_reissuance_token in E2|unfold calculate_asset in E2]; destruct (negb _); try discriminate; cbv zeta in E2;
        unfold uint256_new in E2; destruct (_ =? _); try discriminate; apply Ok_inj in E2; rewrite ?T0, ?T2 in E2; auto.
  - assert (U' : is_nonce (assetIssuance inp) <> zeros 32) by (intros X; apply null_eq in X; congruence).
    destruct ps.
    + apply mret_Val in E. destruct E as [-> ->]. auto.
    + apply bind_Val in E. destruct E as (a & s1 & E2 & E). apply lift_Val in E2. destruct E2 as [E2 ->].
      apply mret_Val in E. destruct E as [-> ->]. split; [reflexivity|]. split; [discriminate|]. exists (is_entropy (assetIssuance inp)).
      split; [right; auto|]. unfold calculate_asset in E2. destruct (negb _); [discriminate|].
      unfold uint256_new in E2; destruct (_ =? _); try discriminate; apply Ok_inj in E2. rewrite T0 in E2. auto.
Qed.

(** Issuance step that completes normally. *)
Definition pseudo_counts (L L' : Loc) : Prop :=
  l_attempts L' = S (l_attempts L) /\ l_issattempts L' = S (l_issattempts L) /\ l_toblind L' = l_toblind L
  /\ l_blindsin L' = l_blindsin L /\ l_bfs L' = l_bfs L /\ l_abfs L' = l_abfs L.

Lemma pseudo_Val n ps L s L' s' : blind_pseudo z rand args n ps L s = (Val L', s') ->
  (wants_issuance args (n, ps) = false /\ L' = L /\ s' = s)
  \/ (wants_issuance args (n, ps) = true /\ pseudo_counts L L'
      /\ (l_success L' = l_success L
          \/ exists key inp amount b cv proof w,
              nth n (if ps then a_token_keys args else a_asset_keys args) None = Some key
              /\ nth_error (vin (s_tx s)) n = Some inp
              /\ to_amount (iss_field ps inp) = Ok amount
              /\ b = rand (s_draws s) /\ blen b = 32
              /\ S (l_attempts L) <> l_toblind L
              /\ L' = inc_success (add_blind b (zeros 32) (add_amount amount (inc_attempts true L)))
              /\ nth_error (pad_to (S n) inwit_null (vtxinwit (wit (s_tx s)))) n = Some w
              /\ (let iss := assetIssuance inp in
                  let inp' := set_issuance inp (if ps then mkIssuance (is_nonce iss) (is_entropy iss) (is_amount iss) cv
                                                else mkIssuance (is_nonce iss) (is_entropy iss) cv (is_keys iss)) in
                  let w' := if ps then mkInWit (iw_script w) (iw_issproof w) proof (iw_pegin w)
                            else mkInWit (iw_script w) proof (iw_keysproof w) (iw_pegin w) in
                  s' = mkSt (set_inwits (set_vin (s_tx s) (upd (vin (s_tx s)) n inp'))
                              (upd (pad_to (S n) inwit_null (vtxinwit (wit (s_tx s)))) n w')) (S (s_draws s))
                  /\ BlindedIssuance z args ps key b inp inp' w'))).
Proof.
  unfold blind_pseudo. rewrite key_at_nth. unfold wants_issuance. cbn [fst snd].
  destruct (nth n _ None) as [key|] eqn:K; intros E; [|left; apply mret_Val in E; intuition].
  right. split; [reflexivity|]. cbv zeta in E.
  apply bind_Val in E. destruct E as (t & s1 & E1 & E). apply get_Val in E1. destruct E1 as [-> ->].
  apply bind_Val in E. destruct E as (inp & s1 & E1 & E). apply lift_Val in E1. destruct E1 as [Ei ->]. apply nth_res_Ok in Ei.
  destruct (conf_is_null _); [apply mret_Val in E; destruct E as [-> _]; unfold pseudo_counts; cbn; auto 10|].
  apply bind_Val in E. destruct E as (amount & s1 & E1 & E). apply lift_Val in E1. destruct E1 as [Ea ->].
  apply bind_Val in E. destruct E as (ao & s1 & E1 & E). apply issued_asset_Val in E1. destruct E1 as [-> Hao].
  destruct ao as [asset|]; [|apply mret_Val in E; destruct E as [-> _]; unfold pseudo_counts; cbn; auto 10].
  destruct Hao as (Hn & e & He & Has).
  apply bind_Val in E. destruct E as (b & s1 & E1 & E). apply draw256_Val in E1. destruct E1 as (-> & Lb & ->).
  cbn [l_attempts l_toblind add_blind add_amount inc_attempts] in E.
  destruct (Nat.eqb_spec (S (l_attempts L)) (l_toblind L)) as [|NE]; [discriminate|].
  apply bind_Val in E. destruct E as (t & s1 & E1 & E). apply get_Val in E1. destruct E1 as [-> ->].
  apply bind_Val in E. destruct E as (u & s1 & E1 & E). apply put_Val in E1. subst s1.
  apply bind_Val in E. destruct E as ([ca g] & s1 & E1 & E). apply blinded_asset_Val in E1. destruct E1 as (-> & Eg & _ & _).
  apply bind_Val in E. destruct E as ([cv c] & s1 & E1 & E). apply cvc_Val in E1. destruct E1 as (-> & Ec & Es & _). cbn [snd] in *.
  apply bind_Val in E. destruct E as (u1 & s1 & E1 & E). apply mod_vin_Val in E1. destruct E1 as (i1 & E1 & ->).
  cbn [s_tx s_draws set_inwits vin] in E1, E. rewrite Ei in E1. injection E1 as <-.
  apply bind_Val in E. destruct E as (nonce & s1 & E1 & E). apply lift_Val in E1. destruct E1 as [E1 ->].
  assert (nonce = key). { unfold uint256_new in E1. destruct (_ =? _); [|discriminate]. apply Ok_inj in E1. auto. } subst nonce.
  apply bind_Val in E. destruct E as (proof & s1 & E2 & E). apply rangeproof_Val in E2. destruct E2 as (bf & abf & -> & Lb1 & Lb2 & Ep).
  cbn [l_blinds l_assetblinds add_blind] in Lb1, Lb2. apply last_res_snoc in Lb1. apply last_res_snoc in Lb2. subst bf abf.
  apply bind_Val in E. destruct E as (u2 & s1 & E2 & E). apply mod_inwit_Val in E2. destruct E2 as (w & Ew & ->).
  apply mret_Val in E. destruct E as [-> ->].
  cbn [s_tx s_draws set_inwits set_vin vin wit vtxinwit] in Ew |- *.
  split; [unfold pseudo_counts; cbn; auto 10|]. right. exists key, inp, amount, (rand (s_draws s)), cv, proof, w.
  split; [first [reflexivity|exact K]|]. split; [exact Ei|]. split; [exact Ea|]. split; [reflexivity|]. split; [exact Lb|].
  split; [exact NE|]. split; [reflexivity|]. split; [exact Ew|]. cbv zeta. split; [reflexivity|].
  exists (c_uint64 amount), e, asset, g, c. split; [apply to_amount_explicit; exact Ea|]. split; [exact He|]. split; [exact Hn|].
  split; [exact Has|]. split; [exact Eg|]. split; [exact Ec|]. split; [destruct ps; exact Es|].
  unfold ct_exp, ct_bits. destruct ps; cbn; exact Ep.
Qed.

Lemma pseudo_Ret_inv n ps L s r s' : blind_pseudo z rand args n ps L s = (Ret r, s') ->
  wants_issuance args (n, ps) = true /\ exists L1, r = blinding_result args L1 /\ l_success L1 = l_success L
    /\ l_toblind L1 = l_toblind L /\ S (l_attempts L) = l_toblind L.
Proof.
  unfold blind_pseudo. rewrite key_at_nth. unfold wants_issuance. cbn [fst snd].
  destruct (nth n _ None) as [key|] eqn:K; [|intros E; discriminate]. cbv zeta. intros E. split; [reflexivity|].
  apply bind_Ret in E. destruct E as [E|(t & s1 & _ & E)]; [discriminate|].
  apply bind_Ret in E. destruct E as [E|(inp & s2 & _ & E)]; [exfalso; exact (lift_Ret _ _ _ _ E)|].
  destruct (conf_is_null _); [discriminate|].
  apply bind_Ret in E. destruct E as [E|(amount & s3 & _ & E)]; [exfalso; exact (lift_Ret _ _ _ _ E)|].
  apply bind_Ret in E. destruct E as [E|(ao & s4 & _ & E)].
  { exfalso. revert E. match goal with |- ?m s3 = _ -> _ => assert (N : noret m) by noret end. apply N. }
  destruct ao as [asset|]; [|discriminate].
  apply bind_Ret in E. destruct E as [E|(b & s5 & _ & E)]; [exfalso; exact (draw256_Ret _ _ _ _ E)|].
  cbn [l_attempts l_toblind add_blind add_amount inc_attempts] in E.
  destruct (Nat.eqb_spec (S (l_attempts L)) (l_toblind L)) as [EQ|NE].
  - apply mreturn_Ret in E. destruct E as [-> _]. eexists. split; [reflexivity|]. cbn. auto.
  - exfalso. revert E. match goal with |- ?m s5 = _ -> _ => assert (N : noret m) end; [|apply N].
    noret; try apply noret_blinded_asset; try apply noret_cvc; try apply noret_mod_vin; try apply noret_rangeproof; apply noret_mod_inwit.
Qed.

Lemma aligned_Ok l n buf : build_aligned_data_array l n = Ok buf -> buf = concat l.
Proof.
  unfold build_aligned_data_array. intros E. apply rbind_Ok in E. destruct E as (u & _ & E).
  apply rbind_Ok in E. destruct E as (u1 & _ & E). apply rbind_Ok in E. destruct E as (u2 & _ & E).
  apply rbind_Ok in E. destruct E as (u3 & _ & E). apply Ok_inj in E. auto.
Qed.
Lemma surj_Val targets abl gen asset s o s' :
  generate_surjectionproof z rand (map tg_tag targets) (map tg_gen targets) (map tg_blind targets) abl gen asset s = (Val o, s') ->
  s' = mkSt (s_tx s) (S (s_draws s)) /\
  match o with
  | None => True
  | Some sp => exists proof0 idx tg proof abf,
      last_res abl = Ok abf
      /\ sp_init z (concat (map tg_tag targets)) (length targets) (Nat.min 3 (length targets)) asset 100 (rand (s_draws s)) = Some (proof0, idx)
      /\ nth_error targets idx = Some tg
      /\ sp_generate z proof0 (concat (map tg_gen targets)) (length targets) gen idx (tg_blind tg) abf = Some proof
      /\ sp_verify z proof (concat (map tg_gen targets)) (length targets) gen = true
      /\ sp = sp_serialize z proof
  end.
Proof.
  unfold generate_surjectionproof. cbv zeta. rewrite !map_length. intros E.
  apply bind_Val in E. destruct E as (sd & s1 & E1 & E). apply draw_Val in E1. destruct E1 as [-> ->].
  apply bind_Val in E. destruct E as (tags & s1 & E1 & E). apply lift_Val in E1. destruct E1 as [E1 ->]. apply aligned_Ok in E1. subst tags.
  destruct (sp_init _ _ _ _ _ _ _) as [[pr ix]|] eqn:EI; [|apply mret_Val in E; destruct E as [-> ->]; auto].
  apply bind_Val in E. destruct E as (buf & s1 & E1 & E). apply lift_Val in E1. destruct E1 as [E1 ->]. apply aligned_Ok in E1. subst buf.
  apply bind_Val in E. destruct E as (ib & s1 & E1 & E). apply lift_Val in E1. destruct E1 as [E1 ->]. apply nth_res_Ok in E1.
  rewrite nth_error_map in E1. destruct (nth_error targets ix) as [tg|] eqn:ET; [|discriminate]. injection E1 as <-.
  apply bind_Val in E. destruct E as (ob & s1 & E1 & E). apply lift_Val in E1. destruct E1 as [E1 ->].
  apply bind_Val in E. destruct E as (pf & s1 & E2 & E). apply lib_Val in E2. destruct E2 as [E2 ->].
  apply bind_Val in E. destruct E as (u & s1 & E3 & E). destruct (sp_verify _ _ _ _ _) eqn:EV; [|discriminate].
  apply mret_Val in E3. destruct E3 as [_ ->]. apply mret_Val in E. destruct E as [-> ->]. split; [reflexivity|].
  exists pr, ix, tg, pf, ob. auto 10.
Qed.

(** What finish_output leaves behind when it blinds output [n]. *)
Definition blinded_state (s : St) (n : nat) (o' : txout) (w' : outwit) (s' : St) : Prop :=
  (n < length (vtxoutwit (wit (s_tx s))))%nat
  /\ s' = mkSt (set_outwits (set_vout (s_tx s) (upd (vout (s_tx s)) n o')) (upd (vtxoutwit (wit (s_tx s))) n w')) (S (S (s_draws s))).

Lemma finish_Val targets n pub asset amount L s L' s' o :
  nth_error (vout (s_tx s)) n = Some o -> to_amount (nValue o) = Ok amount -> to_asset (nAsset o) = Ok asset ->
  finish_output z rand args (map tg_tag targets) (map tg_gen targets) (map tg_blind targets) n pub asset amount L s = (Val L', s') ->
  exists b ab, last_res (l_blinds L) = Ok b /\ last_res (l_assetblinds L) = Ok ab /\
  ((L' = set_factors n b ab L)
   \/ (L' = inc_success (set_factors n b ab L) /\ exists o' w', blinded_state s n o' w' s'
        /\ BlindedOutput z args targets pub b ab (rand (s_draws s)) (rand (S (s_draws s))) o o' w')).
Proof.
  intros Eo Ea Es. unfold finish_output. cbv zeta. intros E.
  apply bind_Val in E. destruct E as (b & s1 & E1 & E). apply lift_Val in E1. destruct E1 as [Lb ->].
  apply bind_Val in E. destruct E as (ab & s1 & E1 & E). apply lift_Val in E1. destruct E1 as [Lab ->].
  exists b, ab. split; [exact Lb|]. split; [exact Lab|].
  apply bind_Val in E. destruct E as ([ca g] & s1 & E1 & E). apply blinded_asset_Val in E1. destruct E1 as (-> & Eg & Egs & _).
  apply bind_Val in E. destruct E as (u1 & s1 & E1 & E). apply mod_vout_Val in E1. destruct E1 as (o1 & E1 & ->).
  rewrite Eo in E1. injection E1 as <-.
  assert (Hn : (n < length (vout (s_tx s)))%nat) by (apply nth_error_Some; congruence).
  apply bind_Val in E. destruct E as ([cv c] & s1 & E1 & E). apply cvc_Val in E1. destruct E1 as (-> & Ec & Ecs & _).
  apply bind_Val in E. destruct E as (u2 & s1 & E1 & E). apply mod_vout_Val in E1. destruct E1 as (o2 & E1 & ->).
  cbn [s_tx s_draws set_vout vout] in E1, E. rewrite upd_nth_same in E1 by exact Hn. injection E1 as <-. rewrite upd_upd in E.
  cbn [nValue scriptPubKey nAsset nNonce] in E.
  apply bind_Val in E. destruct E as ([no eph] & s1 & E1 & E). apply nonce_Val in E1.
  cbn [s_tx s_draws] in E1. destruct E1 as (sh & -> & Sk & -> & _ & Eh & ->).
  apply bind_Val in E. destruct E as (cn & s1 & E1 & E). apply lift_Val in E1. destruct E1 as [E1 ->].
  assert (cn = sk_pub z (rand (s_draws s))). { unfold conf_new in E1. destruct (_ || _); [|discriminate]. apply Ok_inj in E1. auto. } subst cn. clear E1.
  apply bind_Val in E. destruct E as (u3 & s1 & E1 & E). apply mod_vout_Val in E1. destruct E1 as (o3 & E1 & ->).
  cbn [s_tx s_draws set_vout vout] in E1, E. rewrite upd_nth_same in E1 by exact Hn. injection E1 as <-. rewrite upd_upd in E.
  cbn [nValue scriptPubKey nAsset nNonce] in E.
  apply bind_Val in E. destruct E as (t & s1 & E1 & E). apply get_Val in E1. destruct E1 as [-> ->].
  cbn [s_tx set_vout vout] in E.
  apply bind_Val in E. destruct E as (o4 & s1 & E1 & E). apply lift_Val in E1. destruct E1 as [E1 ->]. apply nth_res_Ok in E1.
  rewrite upd_nth_same in E1 by exact Hn. injection E1 as <-. cbn [scriptPubKey] in E.
  apply bind_Val in E. destruct E as (rp & s1 & E1 & E). apply rangeproof_Val in E1. destruct E1 as (bf & abf & -> & L1 & L2 & Er).
  cbn [l_blinds l_assetblinds set_factors] in L1, L2. rewrite Lb in L1. rewrite Lab in L2. apply Ok_inj in L1. apply Ok_inj in L2. subst bf abf.
  apply bind_Val in E. destruct E as (sp & s1 & E1 & E). apply surj_Val in E1. cbn [s_tx s_draws] in E1. destruct E1 as [-> Hsp].
  destruct sp as [[|sp0 sp]|]; [left; apply mret_Val in E; apply E| |left; apply mret_Val in E; apply E].
  right. apply bind_Val in E. destruct E as (u4 & s1 & E1 & E). apply mod_outwit_Val in E1. destruct E1 as (w & Ew & ->).
  cbn [s_tx s_draws set_vout wit vtxoutwit] in Ew, E. apply mret_Val in E. destruct E as [-> ->].
  split; [reflexivity|]. eexists _, _. split; [split; [apply nth_error_Some; congruence|reflexivity]|].
  destruct Hsp as (p0 & ix & tg & pf & abf & L2 & H1 & H2 & H3 & H4 & H5).
  cbn [l_assetblinds set_factors] in L2. rewrite Lab in L2. apply Ok_inj in L2. subst abf.
  destruct (min_value_spec (scriptPubKey o)) as [MV1 MV2].
  exists (c_uint64 amount), asset, g, c, sh, (rangeproof_min_value (scriptPubKey o)).
  split; [apply to_amount_explicit; exact Ea|]. split; [apply to_asset_explicit; exact Es|].
  split; [exact Eg|]. split; [exact Egs|]. split; [exact Ec|]. split; [exact Ecs|]. split; [exact Sk|]. split; [reflexivity|].
  split; [exact Eh|]. split; [reflexivity|]. split; [exact MV1|]. split; [exact MV2|]. split; [exact Er|].
  exists p0, ix, tg, pf. split; [exact H1|]. split; [exact H2|]. split; [exact H3|]. split; [exact H4|]. cbn [ow_surj].
  split; [exact H5|discriminate].
Qed.

(** Counters after an output step. *)
Definition output_counts (L L' : Loc) : Prop :=
  l_attempts L' = S (l_attempts L) /\ l_issattempts L' = l_issattempts L /\ l_toblind L' = l_toblind L /\ l_blindsin L' = l_blindsin L.

(** The factor computed by the library for the last output. *)
Definition last_factor (L : Loc) (amount : Z) (b ab r : bytes) : Prop :=
  length (l_blinds L) = (l_attempts L + l_blindsin L)%nat /\ length (l_amounts L) = length (l_blinds L)
  /\ blind_sum z (map c_uint64 (l_amounts L ++ [amount])) (l_assetblinds L ++ [ab]) (l_blinds L ++ [b])
       (S (l_attempts L) + l_blindsin L) (l_issattempts L + l_blindsin L) = Some r /\ blen r = 32.

Lemma balance_Val L s ob s' : balance_last z L s = (Val ob, s') ->
  s' = s /\ exists r, length (l_blinds L) = (l_attempts L + l_blindsin L)%nat /\ length (l_amounts L) = length (l_blinds L)
  /\ blind_sum z (map c_uint64 (l_amounts L)) (l_assetblinds L) (l_blinds L) (l_attempts L + l_blindsin L) (l_issattempts L + l_blindsin L) = Some r
  /\ blen r = 32 /\ ((r = zeros 32 /\ ob = None) \/ (r <> zeros 32 /\ ob = Some r)).
Proof.
  unfold balance_last. cbv zeta. intros E.
  apply bind_Val in E. destruct E as (u & s1 & E1 & E). apply lift_Val in E1. destruct E1 as [E1 ->]. apply rassert_Ok in E1. apply Nat.eqb_eq in E1.
  apply bind_Val in E. destruct E as (u2 & s1 & E2 & E). apply lift_Val in E2. destruct E2 as [E2 ->]. apply rassert_Ok in E2. apply Nat.eqb_eq in E2.
  apply bind_Val in E. destruct E as (b & s1 & E3 & E). apply lib_Val in E3. destruct E3 as [E3 ->].
  apply bind_Val in E. destruct E as (b2 & s1 & E4 & E). apply lift_Val in E4. destruct E4 as [E4 ->].
  unfold uint256_new in E4. destruct (Z.eqb_spec (blen b) 32) as [L32|]; [|discriminate]. apply Ok_inj in E4. subst b2.
  apply mret_Val in E. destruct E as [-> ->]. split; [reflexivity|]. exists b. repeat (split; [assumption|]).
  destruct (uint256_is_null b) eqn:U.
  - left. apply null_eq in U. auto.
  - right. split; [intros X; apply null_eq in X; congruence|reflexivity].
Qed.

Lemma output_Val targets n pub L s L' s' :
  blind_output z rand args (map tg_tag targets) (map tg_gen targets) (map tg_blind targets) (n, pub) L s = (Val L', s') ->
  (is_fullyvalid z pub = false /\ L' = L /\ s' = s)
  \/ (is_fullyvalid z pub = true /\ output_counts L L'
      /\ (l_success L' = l_success L
          \/ exists o amount b ab o' w',
              nth_error (vout (s_tx s)) n = Some o
              /\ to_amount (nValue o) = Ok amount
              /\ ab = rand (S (s_draws s)) /\ blen ab = 32 /\ blen b = 32
              /\ ((S (l_attempts L) <> l_toblind L /\ b = rand (s_draws s))
                  \/ (S (l_attempts L) = l_toblind L /\ last_factor L amount (rand (s_draws s)) ab b /\ b <> zeros 32))
              /\ L' = inc_success (set_factors n b ab (add_blind b ab (add_amount amount (inc_attempts false L))))
              /\ BlindedOutput z args targets pub b ab (rand (S (S (s_draws s)))) (rand (S (S (S (s_draws s))))) o o' w'
              /\ blinded_state (mkSt (s_tx s) (S (S (s_draws s)))) n o' w' s')).
Proof.
  unfold blind_output. destruct (is_fullyvalid z pub); cbn [negb]; intros E; [|left; apply mret_Val in E; intuition].
  right. split; [reflexivity|].
  apply bind_Val in E. destruct E as (t & s1 & E1 & E). apply get_Val in E1. destruct E1 as [-> ->].
  apply bind_Val in E. destruct E as (o & s1 & E1 & E). apply lift_Val in E1. destruct E1 as [Eo ->]. apply nth_res_Ok in Eo. cbv zeta in E.
  apply bind_Val in E. destruct E as (amount & s1 & E1 & E). apply lift_Val in E1. destruct E1 as [Ea ->].
  apply bind_Val in E. destruct E as (asset & s1 & E1 & E). apply lift_Val in E1. destruct E1 as [Es ->].
  apply bind_Val in E. destruct E as (b & s1 & E1 & E). apply draw256_Val in E1. destruct E1 as (-> & Lb & ->).
  apply bind_Val in E. destruct E as (ab & s1 & E1 & E). apply draw256_Val in E1. cbn [s_draws s_tx] in E1. destruct E1 as (-> & Lab & ->).
  cbn [l_attempts l_toblind add_blind add_amount inc_attempts] in E.
  destruct (Nat.eqb_spec (S (l_attempts L)) (l_toblind L)) as [EQ|NE].
  - destruct (_ && _); [discriminate|].
    apply bind_Val in E. destruct E as (ob & s1 & E1 & E). apply balance_Val in E1. destruct E1 as (-> & r & H1 & H2 & H3 & H4 & H5).
    destruct ob as [b|]; [|discriminate]. destruct H5 as [[_ X]|[NZ X]]; [discriminate|]. injection X as ->.
    apply (finish_Val targets n pub asset amount _ _ _ _ o) in E; [|exact Eo|exact Ea|exact Es].
    cbn [l_blinds l_assetblinds set_last_blind add_blind add_amount inc_attempts l_blindsin l_issattempts l_attempts l_amounts] in E, H1, H2, H3.
    rewrite removelast_last in E. destruct E as (b1 & ab1 & L1 & L2 & E). apply last_res_snoc in L1. apply last_res_snoc in L2. subst b1 ab1.
    destruct E as [-> |(-> & o' & w' & ST & BO)].
    + split; [unfold output_counts; cbn; auto|]. left. reflexivity.
    + split; [unfold output_counts; cbn; auto|]. right. exists o, amount, r, (rand (S (s_draws s))), o', w'.
      split; [exact Eo|]. split; [exact Ea|]. split; [reflexivity|]. split; [exact Lab|]. split; [exact H4|]. split.
      { right. split; [exact EQ|]. split; [|exact NZ]. rewrite app_length in H1, H2. cbn [length] in H1, H2. rewrite app_length in H2. cbn [length] in H2.
        unfold last_factor. split; [lia|]. split; [lia|]. split; [exact H3|exact H4]. }
      split. { unfold inc_success, set_factors, set_last_blind. cbn. rewrite removelast_last. reflexivity. }
      split; [exact BO|exact ST].
  - apply (finish_Val targets n pub asset amount _ _ _ _ o) in E; [|exact Eo|exact Ea|exact Es].
    cbn [l_blinds l_assetblinds add_blind] in E. destruct E as (b1 & ab1 & L1 & L2 & E). apply last_res_snoc in L1. apply last_res_snoc in L2. subst b1 ab1.
    destruct E as [-> |(-> & o' & w' & ST & BO)].
    + split; [unfold output_counts; cbn; auto|]. left. reflexivity.
    + split; [unfold output_counts; cbn; auto|]. right. exists o, amount, (rand (s_draws s)), (rand (S (s_draws s))), o', w'.
      split; [exact Eo|]. split; [exact Ea|]. split; [reflexivity|]. split; [exact Lab|]. split; [exact Lb|]. split; [left; auto|].
      split; [reflexivity|]. split; [exact BO|exact ST].
Qed.

Lemma output_Ret_inv tags gens blinders n pub L s r s' :
  blind_output z rand args tags gens blinders (n, pub) L s = (Ret r, s') ->
  is_fullyvalid z pub = true /\ s' = mkSt (s_tx s) (S (S (s_draws s))) /\ S (l_attempts L) = l_toblind L
  /\ exists o amount L1, nth_error (vout (s_tx s)) n = Some o /\ to_amount (nValue o) = Ok amount
      /\ r = blinding_result args L1 /\ l_toblind L1 = l_toblind L /\ l_bfs L1 = l_bfs L /\ l_abfs L1 = l_abfs L
      /\ ((l_success L1 = l_success L /\ l_attempts L = 0%nat /\ l_blindsin L = 0%nat)
          \/ (l_success L1 = S (l_success L) /\ last_factor L amount (rand (s_draws s)) (rand (S (s_draws s))) (zeros 32)
              /\ blen (rand (S (s_draws s))) = 32)).
Proof.
  unfold blind_output. destruct (is_fullyvalid z pub); cbn [negb]; [|discriminate]. intros E. split; [reflexivity|].
  apply bind_Ret in E. destruct E as [E|(t & s1 & E1 & E)]; [discriminate|]. apply get_Val in E1. destruct E1 as [-> ->].
  apply bind_Ret in E. destruct E as [E|(o & s2 & E1 & E)]; [exfalso; exact (lift_Ret _ _ _ _ E)|].
  apply lift_Val in E1. destruct E1 as [Eo ->]. apply nth_res_Ok in Eo. cbv zeta in E.
  apply bind_Ret in E. destruct E as [E|(amount & s3 & E1 & E)]; [exfalso; exact (lift_Ret _ _ _ _ E)|].
  apply lift_Val in E1. destruct E1 as [Ea ->].
  apply bind_Ret in E. destruct E as [E|(asset & s4 & E1 & E)]; [exfalso; exact (lift_Ret _ _ _ _ E)|].
  apply lift_Val in E1. destruct E1 as [_ ->].
  apply bind_Ret in E. destruct E as [E|(b & s5 & E1 & E)]; [exfalso; exact (draw256_Ret _ _ _ _ E)|].
  apply draw256_Val in E1. destruct E1 as (-> & Lb & ->).
  apply bind_Ret in E. destruct E as [E|(ab & s6 & E1 & E)]; [exfalso; exact (draw256_Ret _ _ _ _ E)|].
  apply draw256_Val in E1. cbn [s_draws s_tx] in E1. destruct E1 as (-> & Lab & ->).
  cbn [l_attempts l_toblind add_blind add_amount inc_attempts l_blindsin] in E.
  destruct (Nat.eqb_spec (S (l_attempts L)) (l_toblind L)) as [EQ|NE];
    [|exfalso; exact (noret_finish _ _ _ _ _ _ _ _ _ _ _ _ _ _ E)].
  destruct ((S (l_attempts L) =? 1)%nat && (l_blindsin L =? 0)%nat) eqn:C1.
  - apply mreturn_Ret in E. destruct E as [-> ->]. apply andb_prop in C1. destruct C1 as [C1 C2]. apply Nat.eqb_eq in C1, C2.
    split; [reflexivity|]. split; [exact EQ|]. eexists o, amount, _. split; [exact Eo|]. split; [exact Ea|]. split; [reflexivity|].
    cbn. repeat (split; [reflexivity|]). left. split; [reflexivity|]. split; [lia|exact C2].
  - apply bind_Ret in E. destruct E as [E|(ob & s7 & E1 & E)]; [exfalso; exact (noret_balance _ _ _ _ _ E)|].
    apply balance_Val in E1. destruct E1 as (-> & r0 & H1 & H2 & H3 & H4 & H5).
    destruct ob as [b1|]; [exfalso; exact (noret_finish _ _ _ _ _ _ _ _ _ _ _ _ _ _ E)|].
    destruct H5 as [[-> _]|[_ X]]; [|discriminate].
    apply mreturn_Ret in E. destruct E as [-> ->]. split; [reflexivity|]. split; [exact EQ|].
    eexists o, amount, _. split; [exact Eo|]. split; [exact Ea|]. split; [reflexivity|].
    cbn. repeat (split; [reflexivity|]). right. split; [reflexivity|]. split; [|exact Lab].
    cbn [l_blinds l_assetblinds add_blind add_amount inc_attempts l_blindsin l_issattempts l_attempts l_amounts] in H1, H2, H3.
    rewrite app_length in H1, H2. cbn [length] in H1, H2. rewrite app_length in H2. cbn [length] in H2.
    unfold last_factor. split; [lia|]. split; [lia|]. split; [exact H3|exact H4].
Qed.
End S.
