(** blind() and unblind() only make lawful library calls. *)
From Coq Require Import ZArith List Bool Lia.
From Verif Require Import Base BaseFacts Serialize TxModel IssuanceModel ScriptModel MiscModel BlindModel BlindFacts SpecBlind BlindTargets SpecContract UnblindModel.
Import ListNotations.
Local Open Scope Z_scope.

(** * Two runs *)
Definition same {A} (m m' : M A) (P : A -> Prop) : Prop := forall s, m s = m' s /\ match fst (m s) with Val a => P a | _ => True end.
Lemma same_bind {A B} (m m' : M A) (k k' : A -> M B) P Q : same m m' P -> (forall a, P a -> same (k a) (k' a) Q) -> same (mbind m k) (mbind m' k') Q.
Proof.
  intros S K s. unfold mbind. destruct (S s) as [E V]. rewrite <- E. destruct (m s) as [[a|r|e] s']; cbn [fst] in *; [apply K; exact V|auto|auto].
Qed.
Lemma same_ret {A} (a : A) (P : A -> Prop) : P a -> same (mret a) (mret a) P. Proof. intros H s. cbn. auto. Qed.
Lemma same_return {A} r (P : A -> Prop) : same (mreturn r) (mreturn r) P. Proof. intros s. cbn. auto. Qed.
Lemma same_raise {A} e (P : A -> Prop) : same (mraise e) (mraise e) P. Proof. intros s. cbn. auto. Qed.
Lemma same_lift {A} (r : res A) (P : A -> Prop) : (forall a, r = Ok a -> P a) -> same (lift r) (lift r) P.
Proof. intros H s. split; [reflexivity|]. destruct r; cbn; auto. Qed.
Lemma same_lift2 {A} (r r' : res A) (P : A -> Prop) : r = r' -> (forall a, r = Ok a -> P a) -> same (lift r) (lift r') P.
Proof. intros <-. apply same_lift. Qed.
Lemma same_lib {A} (r r' : option A) (P : A -> Prop) : r = r' -> (forall a, r = Some a -> P a) -> same (lib_call r) (lib_call r') P.
Proof. intros <- H s. split; [reflexivity|]. destruct r; cbn; auto. Qed.
Lemma same_any {A} (m : M A) : same m m (fun _ => True). Proof. intros s. split; [reflexivity|]. destruct (fst (m s)); auto. Qed.
Lemma same_for {A L} (l : list A) (body body' : A -> L -> M L) (Inv : L -> Prop) : (forall x st, In x l -> Inv st -> same (body x st) (body' x st) Inv) ->
  forall st, Inv st -> same (for_in l body st) (for_in l body' st) Inv.
Proof.
  induction l as [|x l IH]; intros H st I; cbn [for_in]; [apply same_ret; exact I|]. apply same_bind with (P := Inv); [apply H; [left; reflexivity|exact I]|].
  intros st' I'. apply IH; [|exact I']. intros y st'' Iy. apply H. right. exact Iy.
Qed.
Lemma same_weaken {A} (m m' : M A) (P Q : A -> Prop) : (forall a, P a -> Q a) -> same m m' P -> same m m' Q.
Proof. intros H S s. destruct (S s) as [E V]. split; [exact E|]. destruct (fst (m s)); auto. Qed.

Lemma uint256_b32 d x : uint256_new d = Ok x -> x = d /\ is_32 x.
Proof. unfold uint256_new, is_32. destruct (blen d =? 32) eqn:E; [|discriminate]. intros Q. injection Q as <-. split; [reflexivity|]. apply Z.eqb_eq. exact E. Qed.
Lemma c_uint64_u64 a : u64 (c_uint64 a). Proof. apply Z.mod_pos_bound. reflexivity. Qed.
Lemma c_int_range a : int_range (c_int a).
Proof.
  unfold c_int, int_range. cbv zeta. assert (B := Z.mod_pos_bound a (2 ^ 32) eq_refl). change (2 ^ 32) with (2 ^ 31 + 2 ^ 31) in *. destruct (Z.ltb_spec (a mod (2 ^ 31 + 2 ^ 31)) (2 ^ 31)); lia.
Qed.
Lemma is_32_zeros : is_32 (zeros 32). Proof. reflexivity. Qed.
Lemma Forall_last {A} (P : A -> Prop) l x : Forall P l -> last_res l = Ok x -> P x.
Proof.
  unfold last_res. intros F E. apply Forall_rev in F. destruct (rev l) as [|y r]; [discriminate|]. injection E as <-. inversion F. assumption.
Qed.
Lemma Forall_nth_res {A} (P : A -> Prop) l i x : Forall P l -> nth_res l i = Ok x -> P x.
Proof. unfold nth_res. intros F E. destruct (nth_error l i) as [y|] eqn:N; [|discriminate]. injection E as <-. rewrite Forall_forall in F. apply F. eapply nth_error_In. exact N. Qed.
Lemma Forall_snoc {A} (P : A -> Prop) l x : Forall P l -> P x -> Forall P (l ++ [x]).
Proof. intros F X. apply Forall_app. auto. Qed.
Lemma Forall_removelast {A} (P : A -> Prop) l : Forall P l -> Forall P (removelast l).
Proof. induction 1 as [|x l X F IH]; [constructor|]. cbn [removelast]. destruct l; [constructor|]. constructor; assumption. Qed.
Lemma removelast_len {A} (l : list A) : length (removelast l) = (length l - 1)%nat.
Proof. induction l as [|x l IH]; [reflexivity|]. destruct l; [reflexivity|]. change (removelast (x :: a :: l)) with (x :: removelast (a :: l)). cbn [length] in *. rewrite IH. lia. Qed.
Lemma concat_len l n : Forall (fun x : bytes => blen x = n) l -> blen (concat l) = n * Z.of_nat (length l).
Proof. unfold blen. induction 1 as [|x l X F IH]; cbn [concat length]; [lia|]. rewrite app_length. lia. Qed.
Lemma blen_app (a b : bytes) : blen (a ++ b) = blen a + blen b. Proof. unfold blen. rewrite app_length. lia. Qed.

Section Two.
Variables z z' : Crypto.
Hypothesis SO : SizesOk z.
Hypothesis SC : SameInContract z z'.

Lemma fullyvalid_same p : is_fullyvalid z p = is_fullyvalid z' p.
Proof. unfold is_fullyvalid. rewrite (sc_pk z z' SC). reflexivity. Qed.
Lemma entropy_same o c : generate_asset_entropy (c_hash z) (c_mid z) o c = generate_asset_entropy (c_hash z') (c_mid z') o c.
Proof.
  unfold generate_asset_entropy. destruct (blen c =? 32) eqn:E; cbn [rassert rbind]; [|reflexivity]. apply Z.eqb_eq in E. destruct (ser_outpoint o) as [p|]; cbn [rbind]; [|reflexivity].
  rewrite <- (sc_hash z z' SC), (sc_mid z z' SC); [reflexivity|]. rewrite blen_app, (so_hash z SO), E. reflexivity.
Qed.
Lemma asset_same e : calculate_asset (c_mid z) e = calculate_asset (c_mid z') e.
Proof. unfold calculate_asset. destruct (blen e =? 32) eqn:E; cbn [negb]; [|reflexivity]. apply Z.eqb_eq in E. rewrite (sc_mid z z' SC); [reflexivity|]. rewrite blen_app, E. reflexivity. Qed.
Lemma token_same e b : calculate_reissuance_token (c_mid z) e b = calculate_reissuance_token (c_mid z') e b.
Proof. unfold calculate_reissuance_token. destruct (blen e =? 32) eqn:E; cbn [negb]; [|reflexivity]. apply Z.eqb_eq in E. rewrite (sc_mid z z' SC); [reflexivity|]. rewrite blen_app, E. destruct b; reflexivity. Qed.
Lemma asset_b32 m e a : calculate_asset m e = Ok a -> is_32 a.
Proof. unfold calculate_asset. destruct (negb (blen e =? 32)); [discriminate|]. intros E. apply uint256_b32 in E. tauto. Qed.
Lemma token_b32 m e b a : calculate_reissuance_token m e b = Ok a -> is_32 a.
Proof. unfold calculate_reissuance_token. destruct (negb (blen e =? 32)); [discriminate|]. intros E. apply uint256_b32 in E. tauto. Qed.
Lemma to_asset_b32 x a : to_asset x = Ok a -> is_32 a.
Proof. unfold to_asset. destruct (conf_is_explicit CConfAsset x); [|discriminate]. intros E. apply uint256_b32 in E. tauto. Qed.

Lemma blinded_asset_same asset ab : is_32 asset -> is_32 ab ->
  same (blinded_asset z asset ab) (blinded_asset z' asset ab) (fun ag => LibGenerator z (snd ag)).
Proof.
  intros A B. unfold blinded_asset. apply same_bind with (P := LibGenerator z).
  - apply same_lib; [apply (sc_genb z z' SC); assumption|]. intros g E. right. right. exists asset, ab. auto.
  - intros g G. apply same_bind with (P := fun _ => True); [apply same_lib; [apply (sc_genser z z' SC); exact G|auto]|]. intros rc _.
    apply same_bind with (P := fun _ => True); [apply same_any|]. intros c _. apply same_bind with (P := fun _ => True); [apply same_any|]. intros _ _. apply same_ret. exact G.
Qed.
Lemma value_commitment_same b g amount : is_32 b -> LibGenerator z g ->
  same (create_value_commitment z b g amount) (create_value_commitment z' b g amount) (fun vc => LibCommitment z (snd vc)).
Proof.
  intros B G. unfold create_value_commitment. apply same_bind with (P := LibCommitment z).
  - apply same_lib; [apply (sc_commit z z' SC); [exact B|apply c_uint64_u64|exact G]|]. intros c E. right. exists b, (c_uint64 amount), g. auto using c_uint64_u64.
  - intros c G2. apply same_bind with (P := fun _ => True); [apply same_lib; [apply (sc_comser z z' SC); exact G2|auto]|]. intros rc _.
    apply same_bind with (P := fun _ => True); [apply same_any|]. intros v _. apply same_bind with (P := fun _ => True); [apply same_any|]. intros _ _. apply same_ret. exact G2.
Qed.
Lemma rangeproof_same blinds nonce amount script commit gen asset abs e bits : Forall is_32 blinds -> is_32 nonce -> LibCommitment z commit -> LibGenerator z gen ->
  same (generate_rangeproof z blinds nonce amount script commit gen asset abs e bits) (generate_rangeproof z' blinds nonce amount script commit gen asset abs e bits) (fun _ => True).
Proof.
  intros F N C G. unfold generate_rangeproof. apply same_bind with (P := fun _ => True); [apply same_any|]. intros _ _. apply same_bind with (P := fun _ => True); [apply same_any|]. intros _ _.
  apply same_bind with (P := is_32); [apply same_lift; intros x E; exact (Forall_last _ _ _ F E)|]. intros b B. apply same_bind with (P := fun _ => True); [apply same_any|]. intros ab _.
  cbv zeta. apply same_lib; [|auto]. apply (sc_sign z z' SC); try assumption; try apply c_int_range; [|apply c_uint64_u64]. unfold rangeproof_min_value, u64. destruct (is_unspendable script); lia.
Qed.

Section Rand.
Variable rand : nat -> bytes.
Hypothesis RD : forall k, is_32 (rand k).
Lemma draw_same : same (draw rand) (draw rand) is_32. Proof. intros s. cbn. auto. Qed.
Lemma draw_uint_same : same (draw_uint256 rand) (draw_uint256 rand) is_32.
Proof. apply same_bind with (P := is_32); [exact draw_same|]. intros b _. apply same_lift. intros x E. apply uint256_b32 in E. tauto. Qed.
Lemma nonce_same pub : is_fullyvalid z pub = true ->
  same (generate_output_rangeproof_nonce z rand pub) (generate_output_rangeproof_nonce z' rand pub) (fun ne => is_32 (fst ne)).
Proof.
  intros V. unfold generate_output_rangeproof_nonce. apply same_bind with (P := is_32); [exact draw_same|]. intros sec B. rewrite <- (sc_sk z z' SC sec B).
  destruct (sk_valid z sec) eqn:SV; [|intros s; cbn; auto]. apply same_bind with (P := fun _ => True); [apply same_any|]. intros _ _. cbv zeta. rewrite <- (sc_pub z z' SC sec B SV).
  apply same_bind with (P := fun _ => True); [apply same_any|]. intros _ _. apply same_bind with (P := fun _ => True).
  - apply same_lib; [|auto]. unfold is_fullyvalid in V. apply andb_prop in V. destruct V as [V1 V2]. apply (sc_ecdh z z' SC); [exact B|exact SV| |exact V2]. intros ->. discriminate V1.
  - intros sh _. rewrite <- (sc_sha z z' SC). apply same_bind with (P := is_32); [apply same_lift; intros x E; apply uint256_b32 in E; tauto|]. intros n N. apply same_ret. exact N.
Qed.
Lemma surjection_same tags gens blinders abs gen asset : Forall is_32 tags -> Forall (LibGenerator z) gens -> Forall is_32 blinders -> Forall is_32 abs -> length gens = length tags ->
  (length tags <= max_targets)%nat -> LibGenerator z gen -> is_32 asset ->
  same (generate_surjectionproof z rand tags gens blinders abs gen asset) (generate_surjectionproof z' rand tags gens blinders abs gen asset) (fun _ => True).
Proof.
  intros FT FG FB FA LG MX G A. unfold generate_surjectionproof. apply same_bind with (P := is_32); [exact draw_same|]. intros seed SD.
  apply same_bind with (P := fun b => b = concat tags).
  { apply same_lift. intros b. unfold build_aligned_data_array. destruct (rassert _ _); [|discriminate]. cbn [rbind]. destruct (32 =? 0); [discriminate|]. cbn [rbind].
    destruct (rassert _ _); [|discriminate]. cbn [rbind]. destruct (rassert _ _); [|discriminate]. cbn [rbind]. congruence. }
  intros b ->. assert (LI : LawfulInit (concat tags) (length tags) (Nat.min 3 (length tags)) asset 100 seed).
  { repeat split; try assumption; try (unfold max_targets in *; lia). apply concat_len. exact FT. }
  rewrite <- (sc_init z z' SC _ _ _ _ _ _ LI). destruct (sp_init z (concat tags) (length tags) (Nat.min 3 (length tags)) asset 100 seed) as [[p i]|] eqn:EI; [|apply same_ret; exact I].
  apply same_bind with (P := fun b => b = concat gens).
  { apply same_lift. intros b. unfold build_aligned_data_array. destruct (rassert _ _); [|discriminate]. cbn [rbind]. destruct (64 =? 0); [discriminate|]. cbn [rbind].
    destruct (rassert _ _); [|discriminate]. cbn [rbind]. destruct (rassert _ _); [|discriminate]. cbn [rbind]. congruence. }
  intros b ->. apply same_bind with (P := is_32); [apply same_lift; intros x E; exact (Forall_nth_res _ _ _ _ FB E)|]. intros ib IB.
  apply same_bind with (P := is_32); [apply same_lift; intros x E; exact (Forall_last _ _ _ FA E)|]. intros ob OB.
  assert (LW : LawfulGenerate z p (concat gens) (length gens) gen i ib ob).
  { repeat split; try assumption; [|exists gens; auto]. exists (concat tags), (Nat.min 3 (length tags)), asset, 100, seed. rewrite LG. auto. }
  apply same_bind with (P := fun q => MadeProof z q (concat gens) (length gens) gen).
  { apply same_lib; [apply (sc_spgen z z' SC); exact LW|]. intros q E. exists p, i, ib, ob. auto. }
  intros q Q. rewrite <- (sc_verify z z' SC _ _ _ _ Q), <- (sc_spser z z' SC _ _ _ _ Q). apply same_any.
Qed.

Variable args : blind_args.
Hypothesis TA : TypedArguments args.

Definition opt {A} (P : A -> Prop) (o : option A) : Prop := match o with Some a => P a | None => True end.
Definition TInv (N : nat) (T : Targets) : Prop :=
  Forall (opt is_32) (t_tags T) /\ Forall (opt (LibGenerator z)) (t_gens T) /\ Forall is_32 (t_blinders T) /\ length (t_tags T) = N /\ length (t_gens T) = N /\ (t_total T <= N)%nat /\ opt is_32 (t_token T).
Lemma Forall_upd {A} (P : A -> Prop) l i x : Forall P l -> P x -> Forall P (upd l i x).
Proof. revert i. induction l as [|y l IH]; intros [|i] F X; cbn [upd]; inversion F; subst; constructor; auto. Qed.
Lemma upd_len {A} (l : list A) i x : length (upd l i x) = length l.
Proof. revert i. induction l as [|y l IH]; intros [|i]; cbn [upd length]; auto. Qed.
Lemma add_target_same N T tag gen bl : TInv N T -> is_32 tag -> LibGenerator z gen -> is_32 bl -> same (add_target T tag gen bl) (add_target T tag gen bl) (TInv N).
Proof.
  intros (I1 & I2 & I3 & I4 & I5 & I6 & I7) BT G BB. unfold add_target. unfold set_res. rewrite I4, I5. destruct (t_total T <? N)%nat eqn:E; [|apply same_bind with (P := fun _ => False); [apply same_lift; discriminate|intros ? []]].
  apply Nat.ltb_lt in E. intros s. cbn. split; [reflexivity|]. unfold TInv. cbn [t_tags t_gens t_blinders t_total t_token]. rewrite !upd_len.
  repeat split; try assumption; try (apply Forall_upd; assumption); try lia. apply Forall_snoc; assumption.
Qed.
Lemma aux_checked t : forall s, s_tx s = t -> fst (check_arguments args s) = Val tt -> Forall (fun ag => blen ag = 33) (a_aux args).
Proof.
  intros s _ E. destruct (check_arguments args s) as [o s'] eqn:C. cbn [fst] in E. subst o. unfold check_arguments in C. apply bind_Val in C. destruct C as (t0 & s1 & _ & C).
  do 4 (apply bind_Val in C; destruct C as (? & ? & _ & C)). destruct (a_aux args) as [|a l]; [constructor|]. apply bind_Val in C. destruct C as (? & ? & _ & C).
  destruct (forallb (fun ag => blen ag =? 33) (a :: l)) eqn:F; [|discriminate]. apply Forall_forall. intros y J. rewrite forallb_forall in F. apply Z.eqb_eq. apply F. exact J.
Qed.

Hypothesis AX : Forall (fun ag => blen ag = 33) (a_aux args).
Lemma targets_input_same N i T : TInv N T -> same (targets_input z args i T) (targets_input z' args i T) (TInv N).
Proof.
  intros I. unfold targets_input. apply same_bind with (P := fun d => is_32 (d_asset d) /\ is_32 (d_bf d) /\ is_32 (d_abf d)).
  { apply same_lift. intros d E. exact (Forall_nth_res _ _ _ _ TA E). }
  intros d (D1 & D2 & D3). apply same_bind with (P := LibGenerator z).
  { destruct (uint256_is_null (d_asset d)).
    - destruct (a_aux args) as [|a l] eqn:EA; [apply same_return|]. rewrite <- EA in *. clear EA. apply same_bind with (P := fun ag => blen ag = 33); [apply same_lift; intros x E; exact (Forall_nth_res _ _ _ _ AX E)|].
      intros ag L. rewrite <- (sc_parse z z' SC ag L). destruct (gen_parse z ag) as [g|] eqn:E; [|apply same_return]. apply same_ret. left. eauto.
    - apply same_lib; [apply (sc_genb z z' SC); assumption|]. intros g E. right. right. eauto 6. }
  intros g G. apply same_bind with (P := TInv N); [apply add_target_same; assumption|]. clear T I. intros T I.
  apply same_bind with (P := fun _ => True); [apply same_any|]. intros t _. apply same_bind with (P := fun _ => True); [apply same_any|]. intros inp _. cbv zeta.
  destruct (issuance_is_null (assetIssuance inp)); [apply same_ret; exact I|]. destruct (conf_is_commitment CConfValue (is_amount (assetIssuance inp))); [apply same_return|].
  destruct (conf_is_commitment CConfValue (is_keys (assetIssuance inp))); [apply same_return|].
  apply same_bind with (P := fun at_ => is_32 (fst at_) /\ TInv N (snd at_)).
  { destruct (uint256_is_null (is_nonce (assetIssuance inp))).
    - rewrite <- entropy_same. apply same_bind with (P := fun _ => True); [apply same_any|]. intros e _. rewrite <- asset_same, <- token_same.
      apply same_bind with (P := is_32); [apply same_lift; intros x E; exact (asset_b32 _ _ _ E)|]. intros a A. apply same_bind with (P := is_32); [apply same_lift; intros x E; exact (token_b32 _ _ _ _ E)|]. intros k K.
      apply same_ret. cbn [fst snd]. split; [exact A|]. destruct I as (I1 & I2 & I3 & I4 & I5 & I6 & I7). repeat split; assumption.
    - rewrite <- asset_same. apply same_bind with (P := is_32); [apply same_lift; intros x E; exact (asset_b32 _ _ _ E)|]. intros a A. apply same_ret. auto. }
  clear T I. intros [a T] [A I]. cbn [fst snd] in A, I. apply same_bind with (P := TInv N).
  { destruct (conf_is_null (is_amount (assetIssuance inp))); [apply same_ret; exact I|]. apply same_bind with (P := LibGenerator z).
    - apply same_lib; [apply (sc_gen z z' SC); exact A|]. intros g' E. right. left. eauto.
    - intros g' G'. apply add_target_same; [exact I|exact A|exact G'|exact is_32_zeros]. }
  clear T I. intros T I. destruct (conf_is_null (is_keys (assetIssuance inp))); [apply same_ret; exact I|]. assert (TK := proj2 (proj2 (proj2 (proj2 (proj2 (proj2 I)))))). destruct (t_token T) as [k|]; [|apply same_raise].
  apply same_bind with (P := fun _ => True); [apply same_any|]. intros _ _. cbn [opt] in TK. apply same_bind with (P := LibGenerator z).
  - apply same_lib; [apply (sc_gen z z' SC); exact TK|]. intros g' E. right. left. eauto.
  - intros g' G'. apply add_target_same; [exact I|exact TK|exact G'|exact is_32_zeros].
Qed.
Lemma all_some_Forall {A} (P : A -> Prop) l r : Forall (opt P) l -> all_some l = Ok r -> Forall P r /\ length r = length l.
Proof.
  unfold all_some. revert r. induction l as [|o l IH]; intros r F; cbn [rmap]; [intros E; injection E as <-; auto|]. inversion F; subst. destruct o as [a|]; cbn [rbind]; [|discriminate].
  destruct (rmap _ l) as [r'|] eqn:E; cbn [rbind]; [|discriminate]. intros Q. injection Q as <-. destruct (IH r') as [X Y]; [assumption|reflexivity|]. split; [constructor; assumption|cbn [length]; congruence].
Qed.
Definition SInv (tgb : list bytes * list bytes * list bytes) : Prop :=
  let '(tags, gens, blinders) := tgb in Forall is_32 tags /\ Forall (LibGenerator z) gens /\ Forall is_32 blinders /\ length gens = length tags.
Lemma Forall_firstn {A} (P : A -> Prop) n l : Forall P l -> Forall P (firstn n l).
Proof. intros F. rewrite <- (firstn_skipn n l) in F. apply Forall_app in F. tauto. Qed.
Lemma repeat_none {A} (P : A -> Prop) n : Forall (opt P) (repeat None n).
Proof. induction n; constructor; cbn; auto. Qed.
Lemma targets_same : same (surjection_targets z args) (surjection_targets z' args) SInv.
Proof.
  unfold surjection_targets. apply same_bind with (P := fun _ => True); [apply same_any|]. intros t _. cbv zeta.
  set (N := (length (vin t) * 3 + _)%nat). clearbody N. apply same_bind with (P := TInv N).
  { apply same_for; [intros x st _ I; apply targets_input_same; exact I|]. unfold TInv. cbn [t_tags t_gens t_blinders t_total t_token]. rewrite !repeat_length.
    repeat split; try apply repeat_none; try constructor; lia. }
  intros T I. apply same_bind with (P := TInv N).
  { destruct (a_aux args) as [|a l] eqn:EA; [apply same_ret; exact I|]. rewrite <- EA. apply same_for; [|exact I]. intros [n ag] st IN I'. unfold targets_aux.
    assert (L : blen ag = 33).
    { apply in_combine_r in IN. assert (IN2 : In ag (a_aux args)) by (rewrite <- (firstn_skipn (length (vin t)) (a_aux args)); apply in_or_app; right; exact IN).
      rewrite Forall_forall in AX. rewrite <- EA in AX. apply AX. exact IN2. }
    rewrite <- (sc_parse z z' SC ag L). destruct (gen_parse z ag) as [g|] eqn:E; [|apply same_return]. apply add_target_same; [exact I'|exact is_32_zeros|left; eauto|exact is_32_zeros]. }
  clear T I. intros T (I1 & I2 & I3 & I4 & I5 & I6 & I7). do 3 (apply same_bind with (P := fun _ => True); [apply same_any|]; intros _ _).
  apply same_bind with (P := fun l => Forall is_32 l /\ length l = t_total T).
  { apply same_lift. intros l E. apply all_some_Forall with (P := is_32) in E; [|apply Forall_firstn; exact I1]. rewrite firstn_length_le in E by lia. exact E. }
  intros tags [F1 F2]. apply same_bind with (P := fun l => Forall (LibGenerator z) l /\ length l = t_total T).
  { apply same_lift. intros l E. apply all_some_Forall with (P := LibGenerator z) in E; [|apply Forall_firstn; exact I2]. rewrite firstn_length_le in E by lia. exact E. }
  intros gens [F3 F4]. apply same_ret. cbn. repeat split; try assumption. congruence.
Qed.

(** * Local variables *)
Definition LInv (L : Loc) : Prop :=
  Forall is_32 (l_blinds L) /\ Forall is_32 (l_assetblinds L) /\ length (l_assetblinds L) = length (l_blinds L) /\ (l_issattempts L <= l_attempts L)%nat.
Lemma count_input_same i L : LInv L -> same (count_input args i L) (count_input args i L) LInv.
Proof.
  intros I. unfold count_input. apply same_bind with (P := fun d => is_32 (d_asset d) /\ is_32 (d_bf d) /\ is_32 (d_abf d)).
  { apply same_lift. intros d E. exact (Forall_nth_res _ _ _ _ TA E). }
  intros d (D1 & D2 & D3). apply same_bind with (P := fun _ => True); [apply same_any|]. intros t _. apply same_bind with (P := LInv).
  { destruct (_ || _); [|apply same_ret; exact I]. destruct (_ <? _); [apply same_return|]. apply same_ret. destruct I as (I1 & I2 & I3 & I4).
    unfold LInv, add_input. cbn [l_blinds l_assetblinds l_issattempts l_attempts]. rewrite !app_length. repeat split; try (apply Forall_snoc; assumption); cbn [length]; lia. }
  clear L I. intros L I. apply same_bind with (P := fun _ => True); [apply same_any|]. intros inp _. cbv zeta. destruct (issuance_is_null _); [apply same_ret; exact I|].
  apply same_bind with (P := LInv).
  { destruct (key_at _ _); [|apply same_ret; exact I]. destruct (negb _); [apply same_return|]. destruct (proof_in_place _ _ _); [apply same_return|]. apply same_ret. exact I. }
  clear L I. intros L I. destruct (key_at _ _); [|apply same_ret; exact I]. destruct (negb _); [apply same_return|]. destruct (proof_in_place _ _ _); [apply same_return|]. apply same_ret. exact I.
Qed.
Lemma count_output_same np L : LInv L -> same (count_output z np L) (count_output z' np L) LInv.
Proof.
  intros I. destruct np as [n pub]. unfold count_output. rewrite <- fullyvalid_same. destruct (negb _); [apply same_ret; exact I|]. destruct (negb _); [apply same_return|].
  apply same_bind with (P := fun _ => True); [apply same_any|]. intros t _. apply same_bind with (P := fun _ => True); [apply same_any|]. intros o _.
  destruct (negb _); [apply same_return|]. destruct (negb _); [apply same_return|]. match goal with |- same (if ?b then _ else _) _ _ => destruct b; [apply same_return|] end. destruct (txout_is_fee o); [apply same_return|]. apply same_ret. exact I.
Qed.
Lemma add_blind_inv b ab L : LInv L -> is_32 b -> is_32 ab -> LInv (add_blind b ab L).
Proof.
  intros (I1 & I2 & I3 & I4) B AB. unfold LInv, add_blind. cbn [l_blinds l_assetblinds l_issattempts l_attempts]. rewrite !app_length. repeat split; try (apply Forall_snoc; assumption); cbn [length]; lia.
Qed.
Lemma inc_attempts_inv i L : LInv L -> LInv (inc_attempts i L).
Proof. intros (I1 & I2 & I3 & I4). unfold LInv, inc_attempts. cbn [l_blinds l_assetblinds l_issattempts l_attempts]. repeat split; try assumption. destruct i; lia. Qed.
Lemma blind_pseudo_same i ps L : LInv L -> same (blind_pseudo z rand args i ps L) (blind_pseudo z' rand args i ps L) LInv.
Proof.
  intros I. unfold blind_pseudo. destruct (key_at _ _) as [key|]; [|apply same_ret; exact I]. cbv zeta. apply inc_attempts_inv with (i := true) in I. revert I. generalize (inc_attempts true L). clear L. intros L I.
  apply same_bind with (P := fun _ => True); [apply same_any|]. intros t _. apply same_bind with (P := fun _ => True); [apply same_any|]. intros inp _.
  destruct (conf_is_null _); [apply same_ret; exact I|]. apply same_bind with (P := fun _ => True); [apply same_any|]. intros amount _.
  assert (IA : LInv (add_amount amount L)) by exact I. revert IA. generalize (add_amount amount L). clear L I. intros L I.
  apply same_bind with (P := opt is_32).
  { destruct (uint256_is_null _).
    - rewrite <- entropy_same. apply same_bind with (P := fun _ => True); [apply same_any|]. intros e _. apply same_bind with (P := is_32); [|intros a A; apply same_ret; exact A]. rewrite <- asset_same, <- token_same.
      apply same_lift. intros a E. destruct ps; [exact (token_b32 _ _ _ _ E)|exact (asset_b32 _ _ _ E)].
    - destruct ps; [apply same_ret; exact Logic.I|]. rewrite <- asset_same. apply same_bind with (P := is_32); [|intros a A; apply same_ret; exact A]. apply same_lift. intros a E. exact (asset_b32 _ _ _ E). }
  intros [asset|] A; [|apply same_ret; exact I]. cbn [opt] in A. apply same_bind with (P := is_32); [exact draw_uint_same|]. intros b B.
  apply add_blind_inv with (b := b) (ab := zeros 32) in I; [|exact B|exact is_32_zeros]. revert I. generalize (add_blind b (zeros 32) L). clear L. intros L I.
  destruct (_ =? _)%nat; [apply same_return|]. apply same_bind with (P := fun _ => True); [apply same_any|]. intros t1 _. apply same_bind with (P := fun _ => True); [apply same_any|]. intros _ _.
  apply same_bind with (P := fun ag => LibGenerator z (snd ag)); [apply blinded_asset_same; [exact A|exact is_32_zeros]|]. intros [ca gen] G. cbn [snd] in G |- *.
  apply same_bind with (P := fun vc => LibCommitment z (snd vc)); [apply value_commitment_same; assumption|]. intros [cv commit] C. cbn [snd] in C.
  apply same_bind with (P := fun _ => True); [apply same_any|]. intros _ _. apply same_bind with (P := is_32); [apply same_lift; intros x E; apply uint256_b32 in E; tauto|]. intros nonce N.
  apply same_bind with (P := fun _ => True); [apply rangeproof_same; try assumption; exact (proj1 I)|]. intros proof _. apply same_bind with (P := fun _ => True); [apply same_any|]. intros _ _. apply same_ret. exact I.
Qed.
Lemma blind_input_same i L : LInv L -> same (blind_input z rand args i L) (blind_input z' rand args i L) LInv.
Proof. intros I. apply same_bind with (P := LInv); [apply blind_pseudo_same; exact I|]. intros L' I'. apply blind_pseudo_same. exact I'. Qed.
Lemma balance_same L : LInv L -> (l_issattempts L < l_attempts L)%nat -> same (balance_last z L) (balance_last z' L) (opt is_32).
Proof.
  intros (I1 & I2 & I3 & I4) LT. unfold balance_last. cbv zeta. apply same_bind with (P := fun _ => length (l_blinds L) = (l_attempts L + l_blindsin L)%nat).
  { apply same_lift. intros a E. unfold rassert in E. destruct (Nat.eqb_spec (length (l_blinds L)) (l_attempts L + l_blindsin L)); [assumption|discriminate]. }
  intros _ E1. apply same_bind with (P := fun _ => length (l_amounts L) = length (l_blinds L)).
  { apply same_lift. intros a E. unfold rassert in E. destruct (Nat.eqb_spec (length (l_amounts L)) (length (l_blinds L))); [assumption|discriminate]. }
  intros _ E2. apply same_bind with (P := fun _ => True).
  { apply same_lib; [|auto]. apply (sc_sum z z' SC); try assumption; try lia; [rewrite map_length; lia|]. apply Forall_forall. intros x IN. apply in_map_iff in IN. destruct IN as (a & <- & _). apply c_uint64_u64. }
  intros b _. apply same_bind with (P := is_32); [apply same_lift; intros x E; apply uint256_b32 in E; tauto|]. intros b' B. apply same_ret. destruct (uint256_is_null b'); cbn; auto.
Qed.
Section Targets.
Variables tags gens blinders : list bytes.
Hypothesis SI : SInv (tags, gens, blinders).
Hypothesis MX : (length tags <= max_targets)%nat.
Lemma finish_same n pub asset amount L : LInv L -> is_fullyvalid z pub = true -> is_32 asset ->
  same (finish_output z rand args tags gens blinders n pub asset amount L) (finish_output z' rand args tags gens blinders n pub asset amount L) LInv.
Proof.
  intros I V A. destruct SI as (S1 & S2 & S3 & S4). unfold finish_output. apply same_bind with (P := is_32); [apply same_lift; intros x E; exact (Forall_last _ _ _ (proj1 I) E)|]. intros b B.
  apply same_bind with (P := is_32); [apply same_lift; intros x E; exact (Forall_last _ _ _ (proj1 (proj2 I)) E)|]. intros ab AB. cbv zeta.
  assert (IA : LInv (set_factors n b ab L)) by exact I. revert IA. generalize (set_factors n b ab L). clear L I. intros L I.
  apply same_bind with (P := fun ag => LibGenerator z (snd ag)); [apply blinded_asset_same; assumption|]. intros [ca gen] G. cbn [snd] in G.
  apply same_bind with (P := fun _ => True); [apply same_any|]. intros _ _.
  apply same_bind with (P := fun vc => LibCommitment z (snd vc)); [apply value_commitment_same; assumption|]. intros [cv commit] C. cbn [snd] in C.
  apply same_bind with (P := fun _ => True); [apply same_any|]. intros _ _. apply same_bind with (P := fun ne => is_32 (fst ne)); [apply nonce_same; exact V|]. intros [nonce eph] N. cbn [fst] in N.
  do 2 (apply same_bind with (P := fun _ => True); [apply same_any|]; intros ? _). apply same_bind with (P := fun _ => True); [apply same_any|]. intros t _. apply same_bind with (P := fun _ => True); [apply same_any|]. intros o _.
  apply same_bind with (P := fun _ => True); [apply rangeproof_same; try assumption; exact (proj1 I)|]. intros proof _.
  apply same_bind with (P := fun _ => True); [apply surjection_same; try assumption; exact (proj1 (proj2 I))|]. intros sp _. destruct sp as [[|x sp]|]; [apply same_ret; exact I| |apply same_ret; exact I].
  apply same_bind with (P := fun _ => True); [apply same_any|]. intros _ _. apply same_ret. exact I.
Qed.
Lemma blind_output_same np L : LInv L -> same (blind_output z rand args tags gens blinders np L) (blind_output z' rand args tags gens blinders np L) LInv.
Proof.
  intros I. destruct np as [n pub]. unfold blind_output. rewrite <- fullyvalid_same. destruct (is_fullyvalid z pub) eqn:V; cbn [negb]; [|apply same_ret; exact I].
  apply same_bind with (P := fun _ => True); [apply same_any|]. intros t _. apply same_bind with (P := fun _ => True); [apply same_any|]. intros o _. cbv zeta.
  assert (LT : (l_issattempts (inc_attempts false L) < l_attempts (inc_attempts false L))%nat) by (destruct I as (_ & _ & _ & I4); cbn; lia).
  apply inc_attempts_inv with (i := false) in I. revert I LT. generalize (inc_attempts false L). clear L. intros L I LT.
  apply same_bind with (P := fun _ => True); [apply same_any|]. intros amount _. apply same_bind with (P := is_32); [apply same_lift; intros x E; exact (to_asset_b32 _ _ E)|]. intros asset A.
  assert (IA : LInv (add_amount amount L)) by exact I. assert (LA : (l_issattempts (add_amount amount L) < l_attempts (add_amount amount L))%nat) by exact LT.
  revert IA LA. generalize (add_amount amount L). clear L I LT. intros L I LT.
  apply same_bind with (P := is_32); [exact draw_uint_same|]. intros b B. apply same_bind with (P := is_32); [exact draw_uint_same|]. intros ab AB.
  assert (NE : l_blinds (add_blind b ab L) = l_blinds L ++ [b]) by reflexivity. assert (LA : (l_issattempts (add_blind b ab L) < l_attempts (add_blind b ab L))%nat) by exact LT.
  apply add_blind_inv with (b := b) (ab := ab) in I; [|exact B|exact AB]. revert I NE LA. generalize (l_blinds L). intros l0. generalize (add_blind b ab L). clear L LT. intros L I NE LT.
  destruct (_ =? _)%nat; [|apply finish_same; assumption]. destruct (_ && _); [apply same_return|].
  apply same_bind with (P := opt is_32); [apply balance_same; assumption|]. intros [b'|] B'; [|apply same_return]. apply finish_same; [|exact V|exact A].
  destruct I as (I1 & I2 & I3 & I4). unfold LInv, set_last_blind. cbn [l_blinds l_assetblinds l_issattempts l_attempts]. rewrite NE in *. rewrite app_length, removelast_len, app_length in *. cbn [length] in *.
  repeat split; try assumption; try lia. apply Forall_snoc; [apply Forall_removelast; exact I1|exact B'].
Qed.
End Targets.
End Rand.

(** * blind() *)
Lemma inputs_count args i tok p l tok' : TargetsFrom z args i tok p l tok' -> length l = list_sum (map input_targets p).
Proof.
  intros H. induction H as [|i tok a rest l tok1 ls tok3 HI HT IH]; [reflexivity|]. rewrite app_length, IH. cbn [map list_sum fold_right]. f_equal.
  destruct HI as (d & g & l1 & l2 & _ & _ & _ & -> & HI). unfold input_targets. cbn [length]. rewrite app_length. destruct HI as [(-> & -> & -> & -> & _)|(e & _ & _ & _ & _ & H1 & H2)]; [reflexivity|].
  assert (L1 : length l1 = match is_amount (assetIssuance a) with [] => 0%nat | _ => 1%nat end) by (destruct H1 as [[-> ->]|(N & gi & _ & ->)]; [reflexivity|]; destruct (is_amount (assetIssuance a)); [contradiction|reflexivity]).
  assert (L2 : length l2 = match is_keys (assetIssuance a) with [] => 0%nat | _ => 1%nat end) by (destruct H2 as [[-> ->]|(N & tk & gt & _ & _ & ->)]; [reflexivity|]; destruct (is_keys (assetIssuance a)); [contradiction|reflexivity]).
  rewrite L1, L2. lia.
Qed.
Lemma targets_count args t targets : SurjectionTargets z args t targets -> length targets = target_count args t.
Proof.
  intros (l1 & l2 & tok & H1 & H2 & ->). unfold target_count. rewrite app_length, (inputs_count _ _ _ _ _ _ H1). f_equal. rewrite <- skipn_length. clear -H2. induction H2; cbn [length]; congruence.
Qed.
Lemma body_same rand args t : (forall k, is_32 (rand k)) -> TypedArguments args -> (target_count args t <= max_targets)%nat ->
  blind_body z rand args (mkSt t 0) = blind_body z' rand args (mkSt t 0).
Proof.
  intros RD TA MX. unfold blind_body. set (s0 := mkSt t 0).
  assert (CA : forall A (k k' : unit -> M A), (Forall (fun ag => blen ag = 33) (a_aux args) -> k tt s0 = k' tt s0) -> mbind (check_arguments args) k s0 = mbind (check_arguments args) k' s0).
  { intros A k k' H. unfold mbind. destruct (check_arguments args s0) as [[[]|r|e] s1] eqn:CA; [|reflexivity|reflexivity].
    assert (E1 : s1 = s0) by (pose proof (keeps_check args s0) as K; rewrite CA in K; exact K).
    subst s1. apply H. apply (aux_checked args t s0); [reflexivity|]. rewrite CA. reflexivity. }
  apply CA. clear CA. intros AX. destruct (targets_same rand RD args TA AX s0) as [ET VT].
  assert (CT : forall A (k k' : _ -> M A), (forall tags gens blinders, SInv (tags, gens, blinders) -> (length tags <= max_targets)%nat -> k (tags, gens, blinders) s0 = k' (tags, gens, blinders) s0) ->
    mbind (surjection_targets z args) k s0 = mbind (surjection_targets z' args) k' s0).
  { intros A k k' H. unfold mbind. rewrite <- ET. destruct (surjection_targets z args s0) as [[[[tags gens] blinders]|r|e] s1] eqn:CT; [|reflexivity|reflexivity]. cbn [fst] in VT.
    apply targets_Val in CT. destruct CT as (-> & _ & targets & HT & -> & -> & ->). apply H; [exact VT|]. rewrite map_length, (targets_count _ _ _ HT). exact MX. }
  apply CT. clear CT. intros tags gens blinders SI MT. clear ET VT. revert s0.
  assert (G : forall m m' : M blind_ret, same m m' (fun _ => True) -> forall s, m s = m' s) by (intros m m' H s; apply H).
  apply G. clear G. apply same_bind with (P := fun _ => True); [apply same_any|]. intros t1 _. cbv zeta.
  assert (I0 : LInv (mkL 0 0 0 0 0 [] [] [] (repeat None (length (vout t1))) (repeat None (length (vout t1))))) by (repeat split; constructor).
  apply same_bind with (P := LInv); [apply same_for; [|exact I0]; intros; eapply count_input_same; eassumption|]. intros L1 I1.
  apply same_bind with (P := LInv); [apply same_for; [|exact I1]; intros; eapply count_output_same; eassumption|]. intros L2 I2.
  apply same_bind with (P := LInv); [apply same_for; [|exact I2]; intros; eapply blind_input_same; eassumption|]. intros L3 I3.
  apply same_bind with (P := fun _ => True); [apply same_any|]. intros t2 _. apply same_bind with (P := fun _ => True); [apply same_any|]. intros _ _.
  apply same_bind with (P := LInv); [apply same_for; [|exact I3]; intros; eapply blind_output_same; eassumption|]. intros L4 I4. apply same_ret. exact I.
Qed.
Theorem blind_same rand args t : (forall k, is_32 (rand k)) -> TypedArguments args -> (target_count args t <= max_targets)%nat ->
  blind_transaction z rand args t = blind_transaction z' rand args t.
Proof. intros RD TA MX. unfold blind_transaction. rewrite (body_same rand args t RD TA MX). reflexivity. Qed.

(** * unblind *)
Theorem unblind_same key cv ca cn script proof : is_32 key -> sk_valid z key = true -> (conf_is_commitment CConfAsset ca = true \/ conf_is_explicit CConfAsset ca = true) ->
  unblind_confidential_pair z key cv ca cn script proof = unblind_confidential_pair z' key cv ca cn script proof.
Proof.
  intros K SK CA. unfold unblind_confidential_pair. destruct (blen proof =? 0); [reflexivity|].
  assert (EN : unblind_nonce z key cn script = unblind_nonce z' key cn script).
  { unfold unblind_nonce. rewrite <- fullyvalid_same. destruct (0 <? blen cn); [|reflexivity]. destruct (is_fullyvalid z cn) eqn:V; cbn [negb]; [|reflexivity].
    unfold is_fullyvalid in V. apply andb_prop in V. destruct V as [V1 V2]. rewrite <- (sc_ecdh z z' SC); [|exact K|exact SK|intros ->; discriminate V1|exact V2].
    destruct (ecdh z key cn); [|reflexivity]. rewrite (sc_sha z z' SC). reflexivity. }
  rewrite <- EN. destruct (unblind_nonce z key cn script) as [[f|[nonce sc]]|e] eqn:UN; [reflexivity| |reflexivity]. cbn [rbind].
  assert (NB : is_32 nonce).
  { unfold unblind_nonce in UN. destruct (0 <? blen cn); [|injection UN as <- _; exact K]. destruct (negb _); [unfold new_failure in UN; cbn in UN; discriminate UN|]. destruct (ecdh z key cn); [|discriminate]. injection UN as <- _. apply (so_sha z SO). }
  destruct (conf_is_commitment CConfValue cv) eqn:CV; cbn [negb]; [|reflexivity].
  assert (L33 : forall c x, conf_is_commitment c x = true -> blen x = 33) by (intros c x; unfold conf_is_commitment; intros E; apply andb_prop in E; destruct E as [E _]; apply Z.eqb_eq in E; exact E).
  assert (EG : unblind_generator z ca = unblind_generator z' ca).
  { unfold unblind_generator. destruct (conf_is_commitment CConfAsset ca) eqn:C1; [rewrite <- (sc_parse z z' SC); [reflexivity|exact (L33 _ _ C1)]|]. destruct (conf_is_explicit CConfAsset ca) eqn:C2; [|reflexivity].
    destruct (to_asset ca) as [a|] eqn:EA; [|reflexivity]. cbn [rbind]. rewrite <- (sc_gen z z' SC a (to_asset_b32 _ _ EA)). reflexivity. }
  rewrite <- EG. destruct (unblind_generator z ca) as [[f|g]|e] eqn:UG; [reflexivity| |reflexivity]. cbn [rbind].
  assert (G : LibGenerator z g).
  { unfold unblind_generator in UG. destruct (conf_is_commitment CConfAsset ca) eqn:C1.
    - destruct (gen_parse z ca) as [g'|] eqn:E; [|cbn in UG; discriminate]. injection UG as <-. left. exists ca. split; [exact (L33 _ _ C1)|exact E].
    - destruct CA as [X|X]; [discriminate|]. rewrite X in UG. destruct (to_asset ca) as [a|] eqn:EA; [|discriminate]. cbn [rbind] in UG. destruct (gen_generate z a) as [g'|] eqn:E; [|cbn in UG; discriminate].
      injection UG as <-. right. left. exists a. split; [exact (to_asset_b32 _ _ EA)|exact E]. }
  rewrite <- (sc_comparse z z' SC cv (L33 _ _ CV)). destruct (ped_parse z cv) as [c|] eqn:EC; [|reflexivity].
  assert (C : LibCommitment z c) by (left; exists cv; split; [exact (L33 _ _ CV)|exact EC]).
  unfold unblind_rewind. rewrite <- (sc_rewind z z' SC nonce c proof sc g NB C G). destruct (rp_rewind z nonce c proof sc g) as [[[bf amount] msg]|]; [|reflexivity].
  destruct (negb (MoneyRange amount)); [reflexivity|]. destruct (blen msg =? 64) eqn:LM; cbn [negb]; [|reflexivity]. apply Z.eqb_eq in LM. cbv zeta.
  assert (B1 : is_32 (firstn 32 msg)) by (unfold is_32, blen in *; rewrite firstn_length; lia).
  assert (B2 : is_32 (firstn 32 (skipn 32 msg))) by (unfold is_32, blen in *; rewrite firstn_length, skipn_length; lia).
  rewrite <- (sc_genb z z' SC _ _ B1 B2). destruct (gen_generate_blinded z (firstn 32 msg) (firstn 32 (skipn 32 msg))) as [g2|] eqn:E2; [|reflexivity].
  rewrite <- (sc_genser z z' SC g G), <- (sc_genser z z' SC g2); [reflexivity|]. right. right. eauto 6.
Qed.
End Two.
