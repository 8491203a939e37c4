(** The surjection targets of blind(). *)
From Verif Require Import Base BaseFacts Serialize TxModel IssuanceModel ScriptModel MiscModel BlindModel BlindFacts SpecBlind BlindFrame BlindFails BlindSteps.
From Coq Require Import Lia.
Local Open Scope Z_scope.

Section T.
Variables (z : Crypto) (args : blind_args).

Lemma TF_snoc i tok p l tok1 inp l' tok2 : TargetsFrom z args i tok p l tok1 ->
  InputTargets z args (i + length p) tok1 inp l' tok2 -> TargetsFrom z args i tok (p ++ [inp]) (l ++ l') tok2.
Proof.
  intros H. induction H as [i tok|i tok a rest l tok1 ls tok3 HI HT IH]; intros K.
  - cbn in *. rewrite Nat.add_0_r in K. rewrite <- (app_nil_r l'). econstructor; [exact K|constructor].
  - cbn [length app] in *. rewrite <- app_assoc. econstructor; [exact HI|]. apply IH. rewrite Nat.add_succ_r in K. exact K.
Qed.
Lemma TF_bound i tok p l tok' : TargetsFrom z args i tok p l tok' -> (length p <= length l <= 3 * length p)%nat.
Proof.
  intros H. induction H as [|i tok a rest l tok1 ls tok3 HI HT IH]; [cbn; lia|].
  destruct HI as (d & g & l1 & l2 & _ & _ & _ & -> & HI). rewrite !app_length. cbn [length]. rewrite app_length.
  assert (length l1 <= 1 /\ length l2 <= 1)%nat.
  { destruct HI as [(_ & _ & -> & -> & _)|(e & _ & _ & _ & _ & H1 & H2)]; [cbn; lia|].
    destruct H1 as [[_ ->]|(_ & gi & _ & ->)]; destruct H2 as [[_ ->]|(_ & tk & gt & _ & _ & ->)]; cbn; lia. }
  lia.
Qed.

(** The local variables hold the targets [l]. *)
Definition holds (num : nat) (l : list target) (tok : option bytes) (T : Targets) : Prop :=
  t_total T = length l /\ t_token T = tok /\ t_blinders T = map tg_blind l
  /\ t_tags T = map Some (map tg_tag l) ++ repeat None (num - length l)
  /\ t_gens T = map Some (map tg_gen l) ++ repeat None (num - length l)
  /\ (length l <= num)%nat.

Lemma set_res_slot num (A : Type) (pre : list A) x l' :
  (length pre <= num)%nat ->
  set_res (map Some pre ++ repeat None (num - length pre)) (length pre) (Some x) = Ok l' ->
  (S (length pre) <= num)%nat /\ l' = map Some (pre ++ [x]) ++ repeat None (num - S (length pre)).
Proof.
  intros Hn. unfold set_res. rewrite app_length, map_length, repeat_length.
  destruct (Nat.ltb_spec (length pre) (length pre + (num - length pre))) as [Hl|]; [|discriminate]. intros E. apply Ok_inj in E. subst l'.
  split; [lia|]. replace (num - length pre)%nat with (S (num - S (length pre))) by lia. cbn [repeat].
  pose proof (upd_at (map Some pre) (repeat None (num - S (length pre))) (Some x) None) as Q. rewrite map_length in Q. rewrite Q.
  rewrite map_app, <- app_assoc. reflexivity.
Qed.
Lemma add_target_Val num l tok T tag g bl s T' s' : holds num l tok T -> add_target T tag g bl s = (Val T', s') ->
  s' = s /\ holds num (l ++ [mkTarget tag g bl]) tok T'.
Proof.
  intros (H1 & H2 & H3 & H4 & H5 & H6) E. unfold add_target in E.
  apply bind_Val in E. destruct E as (gs & s1 & E1 & E). apply lift_Val in E1. destruct E1 as [E1 ->].
  apply bind_Val in E. destruct E as (ts & s1 & E2 & E). apply lift_Val in E2. destruct E2 as [E2 ->].
  apply mret_Val in E. destruct E as [-> ->]. split; [reflexivity|].
  rewrite H5, H1 in E1. rewrite H4, H1 in E2.
  rewrite <- (map_length tg_gen l) in E1. rewrite <- (map_length tg_tag l) in E2.
  apply set_res_slot in E1; [|rewrite map_length; exact H6]. apply set_res_slot in E2; [|rewrite map_length; exact H6].
  rewrite map_length in E1, E2. destruct E1 as [E0 E1]. destruct E2 as [_ E2].
  unfold holds. cbn [t_total t_token t_blinders t_tags t_gens]. rewrite app_length, H1, H3, E1, E2. cbn [length]. rewrite !map_app, Nat.add_1_r.
  repeat split; auto.
Qed.

Lemma issuance_not_null inp : issuance_is_null (assetIssuance inp) = false ->
  is_amount (assetIssuance inp) <> [] \/ is_keys (assetIssuance inp) <> [].
Proof.
  unfold issuance_is_null. intros H. apply andb_false_iff in H. destruct H as [H|H]; apply conf_null_neq in H; auto.
Qed.
Lemma issuance_null inp : issuance_is_null (assetIssuance inp) = true <->
  is_amount (assetIssuance inp) = [] /\ is_keys (assetIssuance inp) = [].
Proof. unfold issuance_is_null. rewrite andb_true_iff, !conf_null_eq. reflexivity. Qed.

Lemma gae_entropy inp e : is_nonce (assetIssuance inp) = zeros 32 ->
  generate_asset_entropy (c_hash z) (c_mid z) (prevout inp) (is_entropy (assetIssuance inp)) = Ok e -> EntropyOf z inp e.
Proof.
  intros U E1. left. split; [exact U|]. unfold generate_asset_entropy in E1.
  apply rbind_Ok in E1. destruct E1 as (u & _ & E1). apply rbind_Ok in E1. destruct E1 as (p & E3 & E1).
  unfold ser_outpoint in E3. destruct (negb _); [discriminate|]. apply rbind_Ok in E3. destruct E3 as (n & E4 & E3).
  apply Ok_inj in E3. subst p. unfold pack_le in E4. destruct (_ && _) eqn:R; [|discriminate]. apply Ok_inj in E4. subst n.
  apply andb_prop in R. destruct R as [R1 R2]. apply Z.leb_le in R1. apply Z.ltb_lt in R2.
  exists (le_bytes 4 (op_n (prevout inp))). split; [apply le_bytes_length|]. split.
  - rewrite le_val_le_bytes. apply Z.mod_small. lia.
  - unfold uint256_new in E1. destruct (_ =? _); [|discriminate]. apply Ok_inj in E1. auto.
Qed.
Lemma calc_asset_Ok e a : calculate_asset (c_mid z) e = Ok a -> a = c_mid z (e ++ tag32 x00).
Proof.
  unfold calculate_asset. destruct (negb _); [discriminate|]. unfold uint256_new. destruct (_ =? _); [|discriminate].
  intros E. apply Ok_inj in E. destruct le32_tag as (<- & _ & _). auto.
Qed.
Lemma calc_token_Ok e c a : calculate_reissuance_token (c_mid z) e c = Ok a -> a = c_mid z (e ++ tag32 (if c then x02 else x01)).
Proof.
  unfold calculate_reissuance_token. destruct (negb _); [discriminate|]. cbv zeta. unfold uint256_new. destruct (_ =? _); [|discriminate].
  intros E. apply Ok_inj in E. destruct le32_tag as (_ & T1 & T2). destruct c; [rewrite <- T2|rewrite <- T1]; auto.
Qed.

Lemma targets_input_Val num i l tok T s T' s' inp : nth_error (vin (s_tx s)) i = Some inp -> holds num l tok T ->
  targets_input z args i T s = (Val T', s') ->
  s' = s /\ conf_is_commitment CConfValue (is_amount (assetIssuance inp)) = false /\ conf_is_commitment CConfValue (is_keys (assetIssuance inp)) = false
  /\ exists l' tok', InputTargets z args i tok inp l' tok' /\ holds num (l ++ l') tok' T'.
Proof.
  intros Ei HT E. unfold targets_input in E.
  apply bind_Val in E. destruct E as (d & s1 & E1 & E). apply lift_Val in E1. destruct E1 as [Ed ->]. apply nth_res_Ok in Ed.
  apply bind_Val in E. destruct E as (g & s1 & E1 & E).
  assert (G : s1 = s /\ (d_asset d <> zeros 32 -> gen_generate_blinded z (d_asset d) (d_abf d) = Some g)
    /\ (d_asset d = zeros 32 -> exists ag, nth_error (a_aux args) i = Some ag /\ gen_parse z ag = Some g)).
  { destruct (uint256_is_null (d_asset d)) eqn:U.
    - apply null_eq in U. destruct (a_aux args) as [|a0 al] eqn:EA; [discriminate|].
      apply bind_Val in E1. destruct E1 as (ag & s2 & E2 & E1). apply lift_Val in E2. destruct E2 as [E2 ->]. apply nth_res_Ok in E2.
      destruct (gen_parse z ag) as [g'|] eqn:EP; [|discriminate]. apply mret_Val in E1. destruct E1 as [-> ->].
      split; [reflexivity|]. split; [contradiction|]. intros _. exists ag. auto.
    - apply lib_Val in E1. destruct E1 as [E1 ->]. split; [reflexivity|]. split; [auto|]. intros X. apply null_eq in X. congruence. }
  destruct G as (-> & G1 & G2). clear E1.
  apply bind_Val in E. destruct E as (T1 & s1 & E1 & E). apply (add_target_Val _ _ _ _ _ _ _ _ _ _ HT) in E1. destruct E1 as [-> HT1].
  apply bind_Val in E. destruct E as (t & s1 & E1 & E). apply get_Val in E1. destruct E1 as [-> ->].
  apply bind_Val in E. destruct E as (inp' & s1 & E1 & E). apply lift_Val in E1. destruct E1 as [E1 ->]. apply nth_res_Ok in E1.
  rewrite Ei in E1. injection E1 as <-. cbv zeta in E.
  destruct (issuance_is_null (assetIssuance inp)) eqn:IN.
  { apply mret_Val in E. destruct E as [-> ->]. apply issuance_null in IN. destruct IN as [IN1 IN2]. rewrite IN1, IN2.
    repeat (split; [reflexivity|]). exists [mkTarget (d_asset d) g (d_abf d)], tok. split; [|exact HT1].
    exists d, g, [], []. repeat (split; [assumption || reflexivity|]). left. auto. }
  destruct (conf_is_commitment CConfValue (is_amount (assetIssuance inp))); [discriminate|].
  destruct (conf_is_commitment CConfValue (is_keys (assetIssuance inp))); [discriminate|].
  apply bind_Val in E. destruct E as ([asset T2] & s1 & E1 & E).
  assert (Q : s1 = s /\ exists e tok', EntropyOf z inp e /\ asset = c_mid z (e ++ tag32 x00)
    /\ (is_nonce (assetIssuance inp) <> zeros 32 -> tok' = tok)
    /\ (is_nonce (assetIssuance inp) = zeros 32 ->
          tok' = Some (c_mid z (e ++ tag32 (match nth i (a_token_keys args) None with Some _ => x02 | None => x01 end))))
    /\ holds num (l ++ [mkTarget (d_asset d) g (d_abf d)]) tok' T2).
  { destruct (uint256_is_null (is_nonce (assetIssuance inp))) eqn:U.
    - apply null_eq in U.
      apply bind_Val in E1. destruct E1 as (e & s2 & E2 & E1). apply lift_Val in E2. destruct E2 as [E2 ->].
      apply bind_Val in E1. destruct E1 as (a & s2 & E3 & E1). apply lift_Val in E3. destruct E3 as [E3 ->].
      apply bind_Val in E1. destruct E1 as (tk & s2 & E4 & E1). apply lift_Val in E4. destruct E4 as [E4 ->].
      apply mret_Val in E1. destruct E1 as [E1 ->]. injection E1 as -> ->. split; [reflexivity|].
      apply calc_asset_Ok in E3. apply calc_token_Ok in E4. rewrite key_at_nth in E4.
      exists e, (Some tk). split; [apply gae_entropy; assumption|]. split; [exact E3|]. split; [contradiction|].
      split; [intros _; rewrite E4; destruct (nth i (a_token_keys args) None); reflexivity|].
      destruct HT1 as (H1 & H2 & H3 & H4 & H5 & H6). unfold holds, set_token. cbn. auto 10.
    - assert (U' : is_nonce (assetIssuance inp) <> zeros 32) by (intros X; apply null_eq in X; congruence).
      apply bind_Val in E1. destruct E1 as (a & s2 & E3 & E1). apply lift_Val in E3. destruct E3 as [E3 ->].
      apply mret_Val in E1. destruct E1 as [E1 ->]. injection E1 as -> ->. split; [reflexivity|]. apply calc_asset_Ok in E3.
      exists (is_entropy (assetIssuance inp)), tok. split; [right; auto|]. split; [exact E3|]. split; [reflexivity|]. split; [contradiction|exact HT1]. }
  destruct Q as (-> & e & tok' & He & Has & Ht1 & Ht2 & HT2). clear E1.
  apply bind_Val in E. destruct E as (T3 & s1 & E1 & E).
  assert (Q : s1 = s /\ exists l1, ((is_amount (assetIssuance inp) = [] /\ l1 = [])
                \/ (is_amount (assetIssuance inp) <> [] /\ exists gi, gen_generate z (c_mid z (e ++ tag32 x00)) = Some gi
                    /\ l1 = [mkTarget (c_mid z (e ++ tag32 x00)) gi (zeros 32)]))
              /\ holds num ((l ++ [mkTarget (d_asset d) g (d_abf d)]) ++ l1) tok' T3).
  { destruct (conf_is_null (is_amount (assetIssuance inp))) eqn:NA.
    - apply mret_Val in E1. destruct E1 as [-> ->]. apply conf_null_eq in NA. split; [reflexivity|]. exists []. rewrite app_nil_r. auto.
    - apply conf_null_neq in NA. apply bind_Val in E1. destruct E1 as (gi & s2 & E2 & E1). apply lib_Val in E2. destruct E2 as [E2 ->].
      apply (add_target_Val _ _ _ _ _ _ _ _ _ _ HT2) in E1. destruct E1 as [-> HT3]. split; [reflexivity|]. rewrite Has in E2, HT3.
      eexists. split; [right; split; [exact NA|exists gi; split; [exact E2|reflexivity]]|exact HT3]. }
  destruct Q as (-> & l1 & Hl1 & HT3). clear E1.
  assert (Q : s' = s /\ exists l2, ((is_keys (assetIssuance inp) = [] /\ l2 = [])
                \/ (is_keys (assetIssuance inp) <> [] /\ exists token gt, tok' = Some token /\ gen_generate z token = Some gt
                    /\ l2 = [mkTarget token gt (zeros 32)]))
              /\ holds num (((l ++ [mkTarget (d_asset d) g (d_abf d)]) ++ l1) ++ l2) tok' T').
  { destruct (conf_is_null (is_keys (assetIssuance inp))) eqn:NK.
    - apply mret_Val in E. destruct E as [-> ->]. apply conf_null_eq in NK. split; [reflexivity|]. exists []. rewrite app_nil_r. auto.
    - apply conf_null_neq in NK. destruct (t_token T3) as [token|] eqn:TK; [|discriminate].
      apply bind_Val in E. destruct E as (u & s2 & E2 & E). apply lift_Val in E2. destruct E2 as [_ ->].
      apply bind_Val in E. destruct E as (gt & s2 & E2 & E). apply lib_Val in E2. destruct E2 as [E2 ->].
      apply (add_target_Val _ _ _ _ _ _ _ _ _ _ HT3) in E. destruct E as [-> HT4]. split; [reflexivity|].
      eexists. split; [right; split; [exact NK|exists token, gt; split; [|split; [exact E2|reflexivity]]]|exact HT4].
      destruct HT3 as (_ & HT3 & _). congruence. }
  destruct Q as (-> & l2 & Hl2 & HT4). repeat (split; [reflexivity|]).
  exists (mkTarget (d_asset d) g (d_abf d) :: l1 ++ l2), tok'. split.
  - exists d, g, l1, l2. repeat (split; [assumption || reflexivity|]). right. exists e.
    split; [apply issuance_not_null; exact IN|]. auto.
  - replace (l ++ mkTarget (d_asset d) g (d_abf d) :: l1 ++ l2) with (((l ++ [mkTarget (d_asset d) g (d_abf d)]) ++ l1) ++ l2);
      [exact HT4|]. rewrite <- !app_assoc. reflexivity.
Qed.

Lemma firstn_S_nth {A} (l : list A) n x : nth_error l n = Some x -> firstn (S n) l = firstn n l ++ [x].
Proof. revert n. induction l as [|y l IH]; intros [|n] E; try discriminate; cbn in *; [congruence|]. f_equal. apply IH. exact E. Qed.

Lemma all_some_map {A} (l : list A) l' : all_some (map Some l) = Ok l' -> l' = l.
Proof.
  unfold all_some. revert l'. induction l as [|x l IH]; intros l' E; cbn in E; [apply Ok_inj in E; auto|].
  destruct (rmap _ (map Some l)) as [r|e]; cbn [rbind] in E; [|discriminate]. apply Ok_inj in E. subst l'. f_equal. apply IH. reflexivity.
Qed.
Lemma firstn_holds {A} num (l : list A) : firstn (length l) (map Some l ++ repeat None (num - length l)) = map Some l.
Proof. rewrite <- (map_length Some l) at 1. rewrite firstn_app, Nat.sub_diag, firstn_all. cbn. apply app_nil_r. Qed.

Lemma fold_tags_inputs num s T s' : 
  for_in (seq 0 (length (vin (s_tx s)))) (targets_input z args) (mkT (repeat None num) (repeat None num) [] 0 None) s = (Val T, s') ->
  s' = s /\ exists l tok, TargetsFrom z args 0 None (vin (s_tx s)) l tok /\ holds num l tok T
    /\ (forall i inp, nth_error (vin (s_tx s)) i = Some inp -> conf_is_commitment CConfValue (is_amount (assetIssuance inp)) = false
          /\ conf_is_commitment CConfValue (is_keys (assetIssuance inp)) = false).
Proof.
  intros E.
  apply (for_in_inv (fun p T s0 => s0 = s /\ exists l tok, TargetsFrom z args 0 None (firstn (length p) (vin (s_tx s))) l tok /\ holds num l tok T
     /\ (forall i inp, (i < length p)%nat -> nth_error (vin (s_tx s)) i = Some inp -> conf_is_commitment CConfValue (is_amount (assetIssuance inp)) = false
          /\ conf_is_commitment CConfValue (is_keys (assetIssuance inp)) = false))) in E.
  - rewrite seq_length, firstn_all in E. destruct E as (-> & l & tok & E1 & E2 & E3). split; [reflexivity|]. exists l, tok.
    split; [exact E1|]. split; [exact E2|]. intros i inp Ei. apply (E3 i); [|exact Ei]. apply nth_error_Some. congruence.
  - intros p x r st s0 st' s1 HS (-> & l & tok & HF & HH & HC) EB. apply seq_split in HS. destruct HS as [-> HL]. cbn [Nat.add] in EB.
    destruct (nth_error (vin (s_tx s)) (length p)) as [inp|] eqn:Ei; [|apply nth_error_None in Ei; lia].
    apply (targets_input_Val num _ l tok _ _ _ _ inp Ei HH) in EB. destruct EB as (-> & C1 & C2 & l' & tok' & HI & HH').
    split; [reflexivity|]. exists (l ++ l'), tok'. rewrite app_length. cbn [length]. rewrite Nat.add_1_r.
    rewrite (firstn_S_nth _ _ _ Ei). split; [|split; [exact HH'|]].
    + eapply TF_snoc; [exact HF|]. rewrite firstn_length_le by lia. exact HI.
    + intros i inp' Hi Ei'. destruct (Nat.eq_dec i (length p)) as [->|N]; [|apply (HC i); [lia|exact Ei']].
      rewrite Ei in Ei'. injection Ei' as <-. auto.
  - split; [reflexivity|]. exists [], None. cbn. split; [constructor|]. split; [|intros; lia]. unfold holds. cbn. rewrite Nat.sub_0_r. repeat split; auto. lia.
Qed.

Theorem targets_Val s tags gens blinders s' : surjection_targets z args s = (Val (tags, gens, blinders), s') ->
  s' = s /\ (forall i inp, nth_error (vin (s_tx s)) i = Some inp -> conf_is_commitment CConfValue (is_amount (assetIssuance inp)) = false
          /\ conf_is_commitment CConfValue (is_keys (assetIssuance inp)) = false)
  /\ exists targets, SurjectionTargets z args (s_tx s) targets
    /\ tags = map tg_tag targets /\ gens = map tg_gen targets /\ blinders = map tg_blind targets.
Proof.
  unfold surjection_targets. intros E.
  apply bind_Val in E. destruct E as (t & s1 & E1 & E). apply get_Val in E1. destruct E1 as [-> ->]. cbv zeta in E.
  apply bind_Val in E. destruct E as (T & s1 & E1 & E). apply fold_tags_inputs in E1. destruct E1 as (-> & l & tok & HF & HH & HC).
  set (num := (length (vin (s_tx s)) * 3 + _)%nat) in *.
  apply bind_Val in E. destruct E as (T2 & s1 & E1 & E).
  assert (Q : s1 = s /\ exists l2, Forall2 (AuxTarget z) (skipn (length (vin (s_tx s))) (a_aux args)) l2 /\ holds num (l ++ l2) tok T2).
  { destruct (a_aux args) as [|a0 al] eqn:EA.
    - apply mret_Val in E1. destruct E1 as [-> ->]. split; [reflexivity|]. exists []. rewrite app_nil_r. split; [|exact HH].
      rewrite skipn_nil. constructor.
    - set (aux := a0 :: al) in *. set (n := length (vin (s_tx s))) in *.
      replace (length aux - n)%nat with (length (skipn n aux)) in E1 by apply skipn_length.
      apply (for_in_inv (fun p T s0 => s0 = s /\ exists l2, Forall2 (AuxTarget z) (map snd p) l2 /\ holds num (l ++ l2) tok T)) in E1.
      + rewrite enum_fst in E1. exact E1.
      + intros p [i x] r st s0 st' s2 HS (-> & l2 & HF2 & HH2) EB. unfold targets_aux in EB.
        destruct (gen_parse z x) as [g|] eqn:EP; [|discriminate].
        apply (add_target_Val _ _ _ _ _ _ _ _ _ _ HH2) in EB. destruct EB as [-> HH3]. split; [reflexivity|].
        eexists. rewrite <- app_assoc in HH3. split; [|exact HH3]. rewrite map_app. apply Forall2_app; [exact HF2|].
        constructor; [|constructor]. exists g. auto.
      + split; [reflexivity|]. exists []. rewrite app_nil_r. split; [constructor|exact HH]. }
  destruct Q as (-> & l2 & HF2 & HH2). clear E1.
  apply bind_Val in E. destruct E as (u1 & s1 & E1 & E). apply lift_Val in E1. destruct E1 as [_ ->].
  apply bind_Val in E. destruct E as (u2 & s1 & E1 & E). apply lift_Val in E1. destruct E1 as [_ ->].
  apply bind_Val in E. destruct E as (u3 & s1 & E1 & E). apply lift_Val in E1. destruct E1 as [_ ->].
  apply bind_Val in E. destruct E as (tg & s1 & E1 & E). apply lift_Val in E1. destruct E1 as [E1 ->].
  apply bind_Val in E. destruct E as (gn & s1 & E2 & E). apply lift_Val in E2. destruct E2 as [E2 ->].
  apply mret_Val in E. destruct E as [E ->]. injection E as -> -> ->.
  destruct HH2 as (H1 & H2 & H3 & H4 & H5 & H6).
  rewrite H1, H4 in E1. rewrite H1, H5 in E2.
  rewrite <- (map_length tg_tag (l ++ l2)), firstn_holds in E1. rewrite <- (map_length tg_gen (l ++ l2)), firstn_holds in E2.
  apply all_some_map in E1. apply all_some_map in E2.
  split; [reflexivity|]. split; [exact HC|]. exists (l ++ l2). split; [exists l, l2, tok; auto|]. auto.
Qed.

(** No index error and no failing alignment assertion: what can go wrong. *)
Lemma add_target_Exc num l tok T tag g bl s e s' : holds num l tok T -> (length l < num)%nat -> add_target T tag g bl s <> (Exc e, s').
Proof.
  intros (H1 & H2 & H3 & H4 & H5 & H6) HN E. unfold add_target in E. apply bind_Exc in E.
  destruct E as [E|(gs & s1 & _ & E)].
  - apply lift_Exc in E. destruct E as [E _]. unfold set_res in E. rewrite H5, app_length, !map_length, repeat_length, H1 in E.
    destruct (Nat.ltb_spec (length l) (length l + (num - length l))); [discriminate|lia].
  - apply bind_Exc in E. destruct E as [E|(ts & s2 & _ & E)]; [|discriminate].
    apply lift_Exc in E. destruct E as [E _]. unfold set_res in E. rewrite H4, app_length, !map_length, repeat_length, H1 in E.
    destruct (Nat.ltb_spec (length l) (length l + (num - length l))); [discriminate|lia].
Qed.
End T.
