(** Argument errors and failures of blind(). *)
From Verif Require Import Base BaseFacts Serialize TxModel IssuanceModel ScriptModel MiscModel BlindModel BlindFacts SpecBlind BlindFrame.
From Coq Require Import Lia.
Local Open Scope Z_scope.

Section F.
Variables (z : Crypto) (rand : nat -> bytes) (args : blind_args).

(** * After blinding has started, only the final count can fail *)
Lemma pseudo_Ret n ps L s r s' : blind_pseudo z rand args n ps L s = (Ret r, s') -> exists L', r = blinding_result args L'.
Proof.
  unfold blind_pseudo. destruct (key_at _ n) as [key|]; [|intros E; discriminate]. cbv zeta. intros E.
  apply bind_Ret in E. destruct E as [E|(t & s1 & _ & E)]; [discriminate|].
  apply bind_Ret in E. destruct E as [E|(inp & s2 & _ & E)]; [exfalso; exact (lift_Ret _ _ _ _ E)|].
  destruct (conf_is_null _); [discriminate|].
  apply bind_Ret in E. destruct E as [E|(amount & s3 & _ & E)]; [exfalso; exact (lift_Ret _ _ _ _ E)|].
  apply bind_Ret in E. destruct E as [E|(ao & s4 & _ & E)].
  { exfalso. revert E. match goal with |- ?m s3 = _ -> _ => assert (N : noret m) by noret end. apply N. }
  destruct ao as [asset|]; [|discriminate].
  apply bind_Ret in E. destruct E as [E|(b & s5 & _ & E)]; [exfalso; exact (draw256_Ret _ _ _ _ E)|].
  destruct (_ =? _)%nat.
  - apply mreturn_Ret in E. destruct E as [-> _]. eauto.
  - exfalso. revert E. match goal with |- ?m s5 = _ -> _ => assert (N : noret m) end; [|apply N].
    noret; try apply noret_blinded_asset; try apply noret_cvc; try apply noret_mod_vin; try apply noret_rangeproof; apply noret_mod_inwit.
Qed.
Lemma input_Ret n L s r s' : blind_input z rand args n L s = (Ret r, s') -> exists L', r = blinding_result args L'.
Proof.
  unfold blind_input. intros E. apply bind_Ret in E. destruct E as [E|(L1 & s1 & _ & E)]; exact (pseudo_Ret _ _ _ _ _ _ E).
Qed.
Lemma output_Ret tags gens blinders x L s r s' :
  blind_output z rand args tags gens blinders x L s = (Ret r, s') -> exists L', r = blinding_result args L'.
Proof.
  unfold blind_output. destruct x as [n pub]. destruct (is_fullyvalid z pub); cbn [negb]; [|discriminate]. intros E.
  apply bind_Ret in E. destruct E as [E|(t & s1 & _ & E)]; [discriminate|].
  apply bind_Ret in E. destruct E as [E|(o & s2 & _ & E)]; [exfalso; exact (lift_Ret _ _ _ _ E)|].
  cbv zeta in E.
  apply bind_Ret in E. destruct E as [E|(amount & s3 & _ & E)]; [exfalso; exact (lift_Ret _ _ _ _ E)|].
  apply bind_Ret in E. destruct E as [E|(asset & s4 & _ & E)]; [exfalso; exact (lift_Ret _ _ _ _ E)|].
  apply bind_Ret in E. destruct E as [E|(b & s5 & _ & E)]; [exfalso; exact (draw256_Ret _ _ _ _ E)|].
  apply bind_Ret in E. destruct E as [E|(ab & s6 & _ & E)]; [exfalso; exact (draw256_Ret _ _ _ _ E)|].
  destruct (_ =? _)%nat; [|exfalso; exact (noret_finish _ _ _ _ _ _ _ _ _ _ _ _ _ _ E)].
  destruct (_ && _).
  - apply mreturn_Ret in E. destruct E as [-> _]. eauto.
  - apply bind_Ret in E. destruct E as [E|(ob & s7 & _ & E)]; [exfalso; exact (noret_balance _ _ _ _ _ E)|].
    destruct ob as [b1|]; [exfalso; exact (noret_finish _ _ _ _ _ _ _ _ _ _ _ _ _ _ E)|].
    apply mreturn_Ret in E. destruct E as [-> _]. eauto.
Qed.

Lemma for_Ret {A L} (l : list A) (body : A -> L -> M L) st s r s' :
  for_in l body st s = (Ret r, s') -> exists x st1 s1, In x l /\ body x st1 s1 = (Ret r, s').
Proof.
  revert st s. induction l as [|x l IH]; intros st s E; cbn [for_in] in E; [discriminate|].
  apply bind_Ret in E. destruct E as [E|(st1 & s1 & _ & E)]; [exists x, st, s; split; [left; reflexivity|exact E]|].
  apply IH in E. destruct E as (y & st2 & s2 & I & E). exists y, st2, s2. split; [right; exact I|exact E].
Qed.

(** The part of blind_transaction that only looks. *)
Definition blind_looks (k : list bytes -> list bytes -> list bytes -> Loc -> M blind_ret) : M blind_ret :=
  mbind (check_arguments args) (fun _ =>
  mbind (surjection_targets z args) (fun '(tags, gens, blinders) =>
  mbind get_tx (fun t =>
  mbind (for_in (seq 0 (length (vin t))) (count_input args)
          (mkL 0 0 0 0 0 [] [] [] (repeat None (length (vout t))) (repeat None (length (vout t))))) (fun L =>
  mbind (for_in (combine (seq 0 (length (a_pubkeys args))) (a_pubkeys args)) (count_output z) L) (fun L =>
  k tags gens blinders L))))).
Definition blind_acts (tags gens blinders : list bytes) (L : Loc) : M blind_ret :=
  mbind get_tx (fun t =>
  mbind (for_in (seq 0 (length (vin t))) (blind_input z rand args) L) (fun L =>
  mbind get_tx (fun t =>
  mbind (put_tx (set_outwits t (pad_to (length (vout t)) outwit_null (vtxoutwit (wit t))))) (fun _ =>
  mbind (for_in (combine (seq 0 (length (a_pubkeys args))) (a_pubkeys args)) (blind_output z rand args tags gens blinders) L) (fun L =>
  mret (blinding_result args L)))))).

Lemma looks_cases k s o s' : blind_looks k s = (o, s') ->
  (exists tags gens blinders L, k tags gens blinders L s = (o, s')
     /\ surjection_targets z args s = (Val (tags, gens, blinders), s)
     /\ check_arguments args s = (Val tt, s)
     /\ exists L0, for_in (seq 0 (length (vin (s_tx s)))) (count_input args)
          (mkL 0 0 0 0 0 [] [] [] (repeat None (length (vout (s_tx s)))) (repeat None (length (vout (s_tx s))))) s = (Val L0, s)
        /\ for_in (combine (seq 0 (length (a_pubkeys args))) (a_pubkeys args)) (count_output z) L0 s = (Val L, s))
  \/ s' = s /\ match o with Val _ => False | Ret r => exists f, r = BFailure f | Exc _ => True end.
Proof.
  unfold blind_looks. intros E.
  unfold mbind at 1 in E.
  assert (K1 := keeps_check args s). assert (R1 := retfail_check args s). destruct (check_arguments args s) as [[[]|r|e] s1]; cbn [snd] in K1; subst s1;
    try (right; injection E as <- <-; split; [reflexivity|]; try exact I; exact (R1 _ _ eq_refl)).
  unfold mbind at 1 in E.
  assert (K1 := keeps_targets z args s). clear R1. assert (R1 := retfail_targets z args s). destruct (surjection_targets z args s) as [[[[tags gens] blinders]|r|e] s1] eqn:ET;
    cbn [snd] in K1; subst s1; try (right; injection E as <- <-; split; [reflexivity|]; try exact I; exact (R1 _ _ eq_refl)).
  unfold mbind at 1 in E. cbn [get_tx] in E.
  unfold mbind at 1 in E.
  match type of E with (let (_, _) := ?f s in _) = _ => assert (K1 := keeps_for _ _ (keeps_count_input args) _ s : snd (f s) = s);
    clear R1; assert (R1 := retfail_for _ _ (retfail_count_input args) _ s : forall r s', f s = (Ret r, s') -> _);
    destruct (f s) as [[L0|r|e] s1] eqn:E1 end; cbn [snd] in K1; subst s1; try (right; injection E as <- <-; split; [reflexivity|]; try exact I; exact (R1 _ _ eq_refl)).
  unfold mbind at 1 in E.
  match type of E with (let (_, _) := ?f s in _) = _ => assert (K1 := keeps_for _ _ (keeps_count_output z) _ s : snd (f s) = s);
    clear R1; assert (R1 := retfail_for _ _ (retfail_count_output z) _ s : forall r s', f s = (Ret r, s') -> _);
    destruct (f s) as [[L|r|e] s1] eqn:E2 end; cbn [snd] in K1; subst s1; try (right; injection E as <- <-; split; [reflexivity|]; try exact I; exact (R1 _ _ eq_refl)).
  left. exists tags, gens, blinders, L. split; [exact E|]. split; [reflexivity|]. split; [reflexivity|]. eauto.
Qed.

Lemma mbind_ext {A B} (m : M A) (k k' : A -> M B) s :
  (forall a s1, m s = (Val a, s1) -> k a s1 = k' a s1) -> mbind m k s = mbind m k' s.
Proof. intros H. unfold mbind. destruct (m s) as [[a|r|e] s1]; auto. Qed.
Lemma body_split s : blind_body z rand args s = blind_looks blind_acts s.
Proof.
  unfold blind_body, blind_looks, blind_acts.
  apply mbind_ext. intros u s1 E. apply (keeps_eq _ _ _ _ (keeps_check _)) in E. subst s1.
  apply mbind_ext. intros [[tags gens] blinders] s1 E. apply (keeps_eq _ _ _ _ (keeps_targets _ _)) in E. subst s1. cbv zeta.
  apply mbind_ext. intros t s1 E. apply get_Val in E. destruct E as [-> ->].
  apply mbind_ext. intros L1 s1 E. apply (keeps_eq _ _ _ _ (keeps_for _ _ (keeps_count_input args) _)) in E. subst s1.
  apply mbind_ext. intros L2 s1 E. apply (keeps_eq _ _ _ _ (keeps_for _ _ (keeps_count_output z) _)) in E. subst s1.
  reflexivity.
Qed.

Lemma acts_Ret tags gens blinders L s o r s' : blind_acts tags gens blinders L s = (o, s') -> (o = Val r \/ o = Ret r) ->
  exists L', r = blinding_result args L'.
Proof.
  intros E [-> | ->].
  - unfold blind_acts in E. apply bind_Val in E. destruct E as (t & s1 & _ & E).
    apply bind_Val in E. destruct E as (L1 & s2 & _ & E). apply bind_Val in E. destruct E as (t' & s3 & _ & E).
    apply bind_Val in E. destruct E as (u & s4 & _ & E). apply bind_Val in E. destruct E as (L2 & s5 & _ & E).
    apply mret_Val in E. destruct E as [-> _]. eauto.
  - unfold blind_acts in E. apply bind_Ret in E. destruct E as [E|(t & s1 & _ & E)]; [discriminate|].
    apply bind_Ret in E. destruct E as [E|(L1 & s2 & _ & E)].
    { apply for_Ret in E. destruct E as (x & st & s2 & _ & E). exact (input_Ret _ _ _ _ _ E). }
    apply bind_Ret in E. destruct E as [E|(t' & s3 & _ & E)]; [discriminate|].
    apply bind_Ret in E. destruct E as [E|(u & s4 & _ & E)]; [discriminate|].
    apply bind_Ret in E. destruct E as [E|(L2 & s5 & _ & E)].
    { apply for_Ret in E. destruct E as (x & st & s4' & _ & E). exact (output_Ret _ _ _ _ _ _ _ _ E). }
    discriminate.
Qed.

Theorem failure_unchanged t f s : blind_transaction z rand args t = (Ret (BFailure f), s) ->
  s = mkSt t 0 \/ (a_strict args = true /\ exists a b, f = F_count a b /\ a <> b).
Proof.
  unfold blind_transaction. rewrite body_split. destruct (blind_looks blind_acts (mkSt t 0)) as [o s1] eqn:E. intros H.
  apply looks_cases in E. destruct E as [(tags & gens & blinders & L & E & _)|E].
  - assert (Q : exists L', BFailure f = blinding_result args L').
    { destruct o as [r|r|e]; [| |discriminate]; injection H as Hr Hs; subst; eapply acts_Ret; eauto. }
    destruct Q as [L' Q]. unfold blinding_result in Q. destruct (a_strict args); cbn [andb] in Q; [|discriminate].
    destruct (Nat.eqb_spec (l_success L') (l_toblind L')); [discriminate|]. injection Q as ->. right. eauto.
  - left. destruct E as [-> _]. destruct o; congruence.
Qed.

(** * Argument errors *)
Lemma check_cases s : (bad_arguments args (s_tx s) /\ check_arguments args s = (Exc EValue, s))
  \/ (~ bad_arguments args (s_tx s) /\ check_arguments args s = (Val tt, s)).
Proof.
  unfold check_arguments, bad_arguments, mbind. cbn [get_tx].
  destruct (Nat.leb_spec (length (a_pubkeys args)) (length (vout (s_tx s)))); cbn [negb mraise mret]; [|left; split; [lia|reflexivity]].
  destruct (Nat.leb_spec (length (a_asset_keys args)) (length (vin (s_tx s)))); cbn [negb mraise mret]; [|left; split; [lia|reflexivity]].
  destruct (Nat.leb_spec (length (a_token_keys args)) (length (vin (s_tx s)))); cbn [negb mraise mret]; [|left; split; [lia|reflexivity]].
  destruct (Nat.eqb_spec (length (vin (s_tx s))) (length (a_descs args))); cbn [negb mraise mret]; [|left; split; [lia|reflexivity]].
  destruct (a_aux args) as [|g0 gs] eqn:Ea.
  { right. split; [|reflexivity]. intros [|[|[|[|[X _]]]]]; try lia. apply X. reflexivity. }
  rewrite <- Ea in *. assert (NE : a_aux args <> []) by congruence. clear Ea.
  destruct (Nat.leb_spec (length (vin (s_tx s))) (length (a_aux args))); cbn [negb mraise mret]; [|left; split; [auto 10|reflexivity]].
  destruct (forallb _ (a_aux args)) eqn:Ef.
  - right. split; [|reflexivity]. rewrite forallb_forall in Ef.
    intros X. destruct X as [X|[X|[X|[X|[_ [X|(g & Ig & N)]]]]]]; [lia|lia|lia|congruence|lia|]. apply Ef in Ig. apply Z.eqb_eq in Ig. contradiction.


  - left. split; [|reflexivity]. right; right; right; right. split; [exact NE|]. right.
    assert (Q : existsb (fun ag => negb (blen ag =? 33)) (a_aux args) = true).
    { clear -Ef. induction (a_aux args) as [|y l IH]; [discriminate|]. cbn in *. destruct (blen y =? 33); cbn in *; auto. }
    apply existsb_exists in Q. destruct Q as (g & I & N). exists g. split; [exact I|]. apply negb_true_iff, Z.eqb_neq in N. exact N.
Qed.

Theorem bad_arguments_refused t : bad_arguments args t -> blind_transaction z rand args t = (Exc EValue, mkSt t 0).
Proof.
  intros B. unfold blind_transaction, blind_body. unfold mbind at 1.
  destruct (check_cases (mkSt t 0)) as [[_ ->]|[N _]]; [reflexivity|contradiction].
Qed.

(** [nov m s]: running [m] from [s] does not raise ValueError. *)
Definition nov {A} (m : M A) (s : St) : Prop := forall s', m s <> (Exc EValue, s').
Lemma nov_bind {A B} (m : M A) (k : A -> M B) s : nov m s -> (forall a s', m s = (Val a, s') -> nov (k a) s') -> nov (mbind m k) s.
Proof.
  intros Hm Hk s' E. apply bind_Exc in E. destruct E as [E|(a & s1 & E1 & E)]; [exact (Hm _ E)|exact (Hk _ _ E1 _ E)].
Qed.
Lemma nov_mret {A} (a : A) s : nov (mret a) s. Proof. intros s'. discriminate. Qed.
Lemma nov_mreturn {A} r s : nov (mreturn r : M A) s. Proof. intros s'. discriminate. Qed.
Lemma nov_mraise {A} e s : e <> EValue -> nov (mraise e : M A) s. Proof. intros N s' E. injection E as E. congruence. Qed.
Lemma nov_lib {A} (o : option A) s : nov (lib_call o) s.
Proof. intros s' E. apply lib_Exc in E. destruct E as (_ & E & _). discriminate. Qed.
Lemma nov_lift {A} (r : res A) s : r <> Raise EValue -> nov (lift r) s.
Proof. intros N s' E. apply lift_Exc in E. destruct E as [E _]. contradiction. Qed.
Lemma nov_nth {A} (l : list A) i s : nov (lift (nth_res l i)) s.
Proof. apply nov_lift. unfold nth_res. destruct (nth_error l i); discriminate. Qed.
Lemma nov_last {A} (l : list A) s : nov (lift (last_res l)) s.
Proof. apply nov_lift. unfold last_res. destruct (rev l); discriminate. Qed.
Lemma nov_assert b s : nov (lift (rassert b EAssert)) s.
Proof. apply nov_lift. unfold rassert. destruct b; discriminate. Qed.
Lemma nov_get s : nov get_tx s. Proof. intros s'. discriminate. Qed.
Lemma nov_put t s : nov (put_tx t) s. Proof. intros s'. discriminate. Qed.
Lemma nov_mod_vin n f s : nov (mod_vin n f) s.
Proof. unfold mod_vin. repeat (apply nov_bind; intros); try apply nov_get; try apply nov_put. apply nov_nth. Qed.
Lemma nov_mod_vout n f s : nov (mod_vout n f) s.
Proof. unfold mod_vout. repeat (apply nov_bind; intros); try apply nov_get; try apply nov_put. apply nov_nth. Qed.
Lemma nov_mod_inwit n f s : nov (mod_inwit n f) s.
Proof. unfold mod_inwit. repeat (apply nov_bind; intros); try apply nov_get; try apply nov_put. apply nov_nth. Qed.
Lemma nov_mod_outwit n f s : nov (mod_outwit n f) s.
Proof. unfold mod_outwit. repeat (apply nov_bind; intros); try apply nov_get; try apply nov_put. apply nov_nth. Qed.
Lemma nov_for {A L} (I : St -> Prop) (l : list A) (body : A -> L -> M L) :
  (forall x st s, I s -> nov (body x st) s) -> (forall x st s o s', I s -> body x st s = (o, s') -> I s') ->
  forall st s, I s -> nov (for_in l body st) s.
Proof.
  intros Hb Hi. induction l as [|x l IH]; intros st s Hs; cbn [for_in]; [apply nov_mret|].
  apply nov_bind; [apply Hb; exact Hs|]. intros st' s' E. apply IH. eapply Hi; eauto.
Qed.

Hypothesis SZ : SizesOk z.
Hypothesis RO : RandOk z rand.

Lemma uint256_ok x : blen x = 32 -> uint256_new x = Ok x.
Proof. intros E. unfold uint256_new. rewrite (proj2 (Z.eqb_eq _ _) E). reflexivity. Qed.
Lemma nov_uint256 x s : blen x = 32 -> nov (lift (uint256_new x)) s.
Proof. intros E. rewrite uint256_ok by exact E. apply nov_mret. Qed.
Lemma nov_draw256 s : nov (draw_uint256 rand) s.
Proof.
  unfold draw_uint256. apply nov_bind; [intros s'; discriminate|]. intros b s' E. apply draw_Val in E. destruct E as [-> _].
  apply nov_uint256, RO.
Qed.
Lemma conf_new33 c x : blen x = 33 -> conf_new c x = Ok x.
Proof. intros E. unfold conf_new. rewrite E. destruct c; reflexivity. Qed.
Lemma nov_blinded_asset a b s : nov (blinded_asset z a b) s.
Proof.
  unfold blinded_asset. apply nov_bind; [apply nov_lib|intros g s1 E]. apply nov_bind; [apply nov_lib|intros rc s2 E2].
  apply lib_Val in E2. destruct E2 as [E2 _]. apply (so_genser _ SZ) in E2. destruct E2 as (d & Hd & E2).
  apply nov_bind; [apply nov_lift; rewrite conf_new33; [discriminate|destruct E2; subst; rewrite blen_cons; lia]|intros ca s3 _].
  apply nov_bind; [apply nov_assert|intros; apply nov_mret].
Qed.
Lemma nov_cvc a b c s : nov (create_value_commitment z a b c) s.
Proof.
  unfold create_value_commitment. apply nov_bind; [apply nov_lib|intros g s1 E]. apply nov_bind; [apply nov_lib|intros rc s2 E2].
  apply lib_Val in E2. destruct E2 as [E2 _]. apply (so_comser _ SZ) in E2. destruct E2 as (d & Hd & E2).
  apply nov_bind; [apply nov_lift; rewrite conf_new33; [discriminate|destruct E2; subst; rewrite blen_cons; lia]|intros ca s3 _].
  apply nov_bind; [apply nov_assert|intros; apply nov_mret].
Qed.
Lemma blinded_asset_Val a b s ca g s' : blinded_asset z a b s = (Val (ca, g), s') ->
  s' = s /\ gen_generate_blinded z a b = Some g /\ gen_serialize z g = Some ca /\ conf_is_valid CConfAsset ca = true.
Proof.
  unfold blinded_asset. intros E. apply bind_Val in E. destruct E as (g' & s1 & E1 & E). apply lib_Val in E1. destruct E1 as [E1 ->].
  apply bind_Val in E. destruct E as (rc & s1 & E2 & E). apply lib_Val in E2. destruct E2 as [E2 ->].
  apply bind_Val in E. destruct E as (ca' & s1 & E3 & E). apply lift_Val in E3. destruct E3 as [E3 ->].
  assert (ca' = rc). { unfold conf_new in E3. destruct (_ || _); [|discriminate]. apply Ok_inj in E3. auto. } subst ca'.
  apply bind_Val in E. destruct E as (u & s1 & E4 & E). apply lift_Val in E4. destruct E4 as [E4 ->].
  apply rassert_Ok in E4. apply mret_Val in E. destruct E as [E ->]. injection E as -> ->. auto.
Qed.
Lemma cvc_Val bf g v s cv c s' : create_value_commitment z bf g v s = (Val (cv, c), s') ->
  s' = s /\ ped_commit z bf (c_uint64 v) g = Some c /\ ped_serialize z c = Some cv /\ conf_is_valid CConfValue cv = true.
Proof.
  unfold create_value_commitment. intros E. apply bind_Val in E. destruct E as (g' & s1 & E1 & E). apply lib_Val in E1. destruct E1 as [E1 ->].
  apply bind_Val in E. destruct E as (rc & s1 & E2 & E). apply lib_Val in E2. destruct E2 as [E2 ->].
  apply bind_Val in E. destruct E as (ca' & s1 & E3 & E). apply lift_Val in E3. destruct E3 as [E3 ->].
  assert (ca' = rc). { unfold conf_new in E3. destruct (_ || _); [|discriminate]. apply Ok_inj in E3. auto. } subst ca'.
  apply bind_Val in E. destruct E as (u & s1 & E4 & E). apply lift_Val in E4. destruct E4 as [E4 ->].
  apply rassert_Ok in E4. apply mret_Val in E. destruct E as [E ->]. injection E as -> ->. auto.
Qed.
Lemma nov_rangeproof bl n v sc c g a abl e b s : blen c = 64 -> blen g = 64 -> nov (generate_rangeproof z bl n v sc c g a abl e b) s.
Proof.
  intros Hc Hg. unfold generate_rangeproof. cbv zeta. rewrite Hc, Hg. cbn [Z.eqb Pos.eqb negb].
  apply nov_bind; [apply nov_mret|intros]. apply nov_bind; [apply nov_mret|intros].
  apply nov_bind; [apply nov_last|intros]. apply nov_bind; [apply nov_last|intros]. apply nov_lib.
Qed.
Lemma nov_nonce p s : nov (generate_output_rangeproof_nonce z rand p) s.
Proof.
  unfold generate_output_rangeproof_nonce. cbv zeta. apply nov_bind; [intros s'; discriminate|intros sec s1 E].
  apply draw_Val in E. destruct E as [-> _]. rewrite (proj2 (RO _)).
  apply nov_bind; [apply nov_mret|intros]. apply nov_bind; [apply nov_assert|intros]. apply nov_bind; [apply nov_lib|intros].
  apply nov_bind; [apply nov_uint256, SZ|intros]. apply nov_mret.
Qed.
Lemma nonce_Val p s nonce eph s' : generate_output_rangeproof_nonce z rand p s = (Val (nonce, eph), s') ->
  exists shared, s' = mkSt (s_tx s) (S (s_draws s)) /\ sk_valid z (rand (s_draws s)) = true
    /\ eph = sk_pub z (rand (s_draws s)) /\ blen eph = 33
    /\ ecdh z (rand (s_draws s)) p = Some shared /\ nonce = c_sha z shared.
Proof.
  unfold generate_output_rangeproof_nonce. cbv zeta. intros E.
  apply bind_Val in E. destruct E as (sec & s1 & E1 & E). apply draw_Val in E1. destruct E1 as [-> ->].
  apply bind_Val in E. destruct E as (u & s1 & E1 & E).
  destruct (sk_valid z (rand (s_draws s))); [|discriminate]. apply mret_Val in E1. destruct E1 as [_ ->].
  apply bind_Val in E. destruct E as (u1 & s1 & E1 & E). apply lift_Val in E1. destruct E1 as [E1 ->]. apply rassert_Ok in E1.
  apply bind_Val in E. destruct E as (sh & s1 & E2 & E). apply lib_Val in E2. destruct E2 as [E2 ->].
  apply bind_Val in E. destruct E as (n & s1 & E3 & E). apply lift_Val in E3. destruct E3 as [E3 ->].
  apply mret_Val in E. destruct E as [E ->]. injection E as -> ->.
  unfold uint256_new in E3. destruct (blen _ =? 32); [|discriminate]. apply Ok_inj in E3. apply Z.eqb_eq in E1.
  exists sh. repeat split; auto.
Qed.
Lemma nov_aligned l n s : nov (lift (build_aligned_data_array l n)) s.
Proof.
  apply nov_lift. unfold build_aligned_data_array. unfold rassert at 1. destruct (n mod 32 =? 0); cbn [rbind]; [|discriminate].
  destruct (n =? 0); cbn [rbind]; [discriminate|]. unfold rassert. destruct (_ =? 0); cbn [rbind]; [|discriminate].
  destruct (_ =? _); cbn [rbind]; discriminate.
Qed.
Lemma nov_surj a b c d e f s : nov (generate_surjectionproof z rand a b c d e f) s.
Proof.
  unfold generate_surjectionproof. cbv zeta. apply nov_bind; [intros s'; discriminate|intros].
  apply nov_bind; [apply nov_aligned|intros]. destruct (sp_init _ _ _ _ _ _ _) as [[pr ix]|]; [|apply nov_mret].
  apply nov_bind; [apply nov_aligned|intros]. apply nov_bind; [apply nov_nth|intros]. apply nov_bind; [apply nov_last|intros].
  apply nov_bind; [apply nov_lib|intros]. apply nov_bind; [destruct (sp_verify _ _ _ _ _); [apply nov_mret|apply nov_mraise; discriminate]|intros].
  apply nov_mret.
Qed.
Lemma nov_finish tags gens blinders n pub asset amount L s : nov (finish_output z rand args tags gens blinders n pub asset amount L) s.
Proof.
  unfold finish_output. cbv zeta.
  apply nov_bind; [apply nov_last|intros]. apply nov_bind; [apply nov_last|intros].
  apply nov_bind; [apply nov_blinded_asset|intros [ca g] s1 E1]. apply blinded_asset_Val in E1. destruct E1 as (_ & Eg & _).
  apply nov_bind; [apply nov_mod_vout|intros].
  apply nov_bind; [apply nov_cvc|intros [cv c] s2 E2]. apply cvc_Val in E2. destruct E2 as (_ & Ec & _).
  apply nov_bind; [apply nov_mod_vout|intros].
  apply nov_bind; [apply nov_nonce|intros [no eph] s3 E3]. apply nonce_Val in E3. destruct E3 as (sh & _ & _ & _ & E3 & _).
  apply nov_bind; [apply nov_lift; rewrite conf_new33 by exact E3; discriminate|intros].
  apply nov_bind; [apply nov_mod_vout|intros]. apply nov_bind; [apply nov_get|intros]. apply nov_bind; [apply nov_nth|intros].
  apply nov_bind; [apply nov_rangeproof; [exact (so_commit _ SZ _ _ _ _ Ec)|exact (so_genb _ SZ _ _ _ Eg)]|intros].
  apply nov_bind; [apply nov_surj|intros sp s4 _].
  destruct sp as [[|]|]; try apply nov_mret. apply nov_bind; [apply nov_mod_outwit|intros; apply nov_mret].
Qed.
Lemma nov_output tags gens blinders x L s : nov (blind_output z rand args tags gens blinders x L) s.
Proof.
  unfold blind_output. destruct x as [n pub]. destruct (is_fullyvalid z pub); cbn [negb]; [|apply nov_mret].
  apply nov_bind; [apply nov_get|intros]. apply nov_bind; [apply nov_nth|intros]. cbv zeta.
  apply nov_bind; [apply nov_lift; unfold to_amount; destruct (conf_is_explicit _ _); discriminate|intros].
  apply nov_bind.
  { apply nov_lift. unfold to_asset. destruct (conf_is_explicit CConfAsset (nAsset a0)) eqn:Ex; [|discriminate].
    rewrite uint256_ok; [discriminate|]. unfold conf_is_explicit in Ex. apply andb_prop in Ex. destruct Ex as [Ex _].
    apply Z.eqb_eq in Ex. destruct (nAsset a0) as [|y ys]; [discriminate|]. rewrite blen_cons in Ex. cbn [tl]. change (explicitSize CConfAsset) with 33 in Ex. lia. }
  intros. apply nov_bind; [apply nov_draw256|intros]. apply nov_bind; [apply nov_draw256|intros].
  destruct (_ =? _)%nat; [|apply nov_finish]. destruct (_ && _); [apply nov_mreturn|].
  apply nov_bind.
  { unfold balance_last. cbv zeta. apply nov_bind; [apply nov_assert|intros]. apply nov_bind; [apply nov_assert|intros].
    apply nov_bind; [apply nov_lib|intros b1 s1 E1]. apply lib_Val in E1. destruct E1 as [E1 _]. apply (so_sum _ SZ) in E1.
    apply nov_bind; [apply nov_uint256; exact E1|intros; apply nov_mret]. }
  intros ob s1 _. destruct ob; [apply nov_finish|apply nov_mreturn].
Qed.

(** Fields of the transaction that its own constructors guarantee to be 32 bytes. *)
Definition entropies_ok (s : St) : Prop := forall i inp, nth_error (vin (s_tx s)) i = Some inp -> blen (is_entropy (assetIssuance inp)) = 32.
Lemma entropies_frame s s' : Frame args (s_tx s) (s_tx s') -> entropies_ok s -> entropies_ok s'.
Proof.
  intros F H i inp' E'. destruct (nth_error_same_len (vin (s_tx s')) (vin (s_tx s)) i inp') as [inp E]; [symmetry; apply F|exact E'|].
  apply (fr_in _ _ _ _ _ F i inp inp' E) in E' as Q. destruct Q as (_ & _ & _ & _ & _ & Q & _). rewrite Q. exact (H _ _ E).
Qed.
Hypothesis KO : forall i k, nth i (a_asset_keys args) None = Some k \/ nth i (a_token_keys args) None = Some k -> blen k = 32.

Lemma gae_nov p e : generate_asset_entropy (c_hash z) (c_mid z) p e <> Raise EValue.
Proof.
  unfold generate_asset_entropy. unfold rassert at 1. destruct (blen e =? 32); cbn [rbind]; [|discriminate].
  unfold ser_outpoint. destruct (negb _); cbn [rbind]; [discriminate|]. destruct (pack_le 4 (op_n p)) as [x|e0] eqn:E; cbn [rbind].
  - rewrite uint256_ok by apply SZ. discriminate.
  - unfold pack_le in E. destruct (_ && _); [discriminate|]. injection E as <-. discriminate.
Qed.
Lemma gae_32 p e x : generate_asset_entropy (c_hash z) (c_mid z) p e = Ok x -> blen x = 32.
Proof.
  unfold generate_asset_entropy. intros E. apply rbind_Ok in E. destruct E as (u & _ & E). apply rbind_Ok in E. destruct E as (y & _ & E).
  rewrite uint256_ok in E by apply SZ. apply Ok_inj in E. subst x. apply SZ.
Qed.
Lemma ca_ok e : blen e = 32 -> calculate_asset (c_mid z) e <> Raise EValue.
Proof. intros H. unfold calculate_asset. rewrite H. cbn [Z.eqb Pos.eqb negb]. rewrite uint256_ok by apply SZ. discriminate. Qed.
Lemma crt_ok e b : blen e = 32 -> calculate_reissuance_token (c_mid z) e b <> Raise EValue.
Proof. intros H. unfold calculate_reissuance_token. rewrite H. cbn [Z.eqb Pos.eqb negb]. cbv zeta. rewrite uint256_ok by apply SZ. discriminate. Qed.

Lemma nov_pseudo n ps L s : entropies_ok s -> nov (blind_pseudo z rand args n ps L) s.
Proof.
  intros EO. unfold blind_pseudo. destruct (key_at _ n) as [key|] eqn:K; [|apply nov_mret]. cbv zeta.
  rewrite key_at_nth in K.
  apply nov_bind; [apply nov_get|intros t s1 E]. apply get_Val in E. destruct E as [-> ->].
  apply nov_bind; [apply nov_nth|intros inp s1 E]. apply lift_Val in E. destruct E as [E ->]. apply nth_res_Ok in E.
  destruct (conf_is_null _); [apply nov_mret|].
  apply nov_bind; [apply nov_lift; unfold to_amount; destruct (conf_is_explicit _ _); discriminate|intros].
  apply nov_bind.
  { destruct (uint256_is_null _).
    - apply nov_bind; [apply nov_lift, gae_nov|intros e s2 E2]. apply lift_Val in E2. destruct E2 as [E2 _]. apply gae_32 in E2.
      apply nov_bind; [apply nov_lift; destruct ps; [apply crt_ok|apply ca_ok]; exact E2|intros; apply nov_mret].
    - destruct ps; [apply nov_mret|]. apply nov_bind; [apply nov_lift, ca_ok; exact (EO _ _ E)|intros; apply nov_mret]. }
  intros ao s2 _. destruct ao as [asset|]; [|apply nov_mret].
  apply nov_bind; [apply nov_draw256|intros]. destruct (_ =? _)%nat; [apply nov_mreturn|].
  apply nov_bind; [apply nov_get|intros]. apply nov_bind; [apply nov_put|intros].
  apply nov_bind; [apply nov_blinded_asset|intros [ca g] s5 E1]. apply blinded_asset_Val in E1. destruct E1 as (_ & Eg & _).
  apply nov_bind; [apply nov_cvc|intros [cv c] s6 E2]. apply cvc_Val in E2. destruct E2 as (_ & Ec & _).
  apply nov_bind; [apply nov_mod_vin|intros].
  apply nov_bind; [apply nov_uint256; apply (KO n); destruct ps; auto|intros].
  apply nov_bind; [apply nov_rangeproof; [exact (so_commit _ SZ _ _ _ _ Ec)|exact (so_genb _ SZ _ _ _ Eg)]|intros].
  apply nov_bind; [apply nov_mod_inwit|intros; apply nov_mret].
Qed.

Lemma pseudo_Frame n ps L s : Frame args (s_tx s) (s_tx (snd (blind_pseudo z rand args n ps L s))).
Proof. apply (pres_pseudo z rand args (amount_target args (s_tx s)) (keys_target args (s_tx s))); auto. Qed.
Lemma nov_input n L s : entropies_ok s -> nov (blind_input z rand args n L) s.
Proof.
  intros EO. unfold blind_input. apply nov_bind; [apply nov_pseudo; exact EO|]. intros L1 s1 E. apply nov_pseudo.
  eapply entropies_frame; [|exact EO]. pose proof (pseudo_Frame n false L s) as F. rewrite E in F. exact F.
Qed.
Lemma input_entropies n L s o s' : entropies_ok s -> blind_input z rand args n L s = (o, s') -> entropies_ok s'.
Proof.
  intros EO E. unfold blind_input, mbind in E. pose proof (pseudo_Frame n false L s) as F.
  destruct (blind_pseudo z rand args n false L s) as [[L1|r|e] s1]; cbn [snd] in F; pose proof (entropies_frame _ _ F EO) as EO1;
    try (injection E as _ <-; exact EO1).
  pose proof (pseudo_Frame n true L1 s1) as F2. rewrite E in F2. exact (entropies_frame _ _ F2 EO1).
Qed.

Lemma nov_add_target T a b c s : nov (add_target T a b c) s.
Proof.
  unfold add_target. apply nov_bind; [apply nov_lift; unfold set_res; destruct (_ <? _)%nat; discriminate|intros].
  apply nov_bind; [apply nov_lift; unfold set_res; destruct (_ <? _)%nat; discriminate|intros]. apply nov_mret.
Qed.
Lemma nov_targets_input i T s : entropies_ok s -> nov (targets_input z args i T) s.
Proof.
  intros EO. unfold targets_input. apply nov_bind; [apply nov_nth|intros d s1 E]. apply lift_Val in E. destruct E as [_ ->].
  match goal with |- nov (mbind ?m _) _ => assert (KM : keeps m) by keeps end.
  apply nov_bind.
  { destruct (uint256_is_null _); [|apply nov_lib]. destruct (a_aux args); [apply nov_mreturn|].
    apply nov_bind; [apply nov_nth|intros]. destruct (gen_parse _ _); [apply nov_mret|apply nov_mreturn]. }
  intros ag s1 E. apply (keeps_eq _ _ _ _ KM) in E. subst s1. clear KM.
  apply nov_bind; [apply nov_add_target|intros T1 s1 E]. apply (keeps_eq _ _ _ _ (keeps_add_target _ _ _ _)) in E. subst s1.
  apply nov_bind; [apply nov_get|intros t s1 E]. apply get_Val in E. destruct E as [-> ->].
  apply nov_bind; [apply nov_nth|intros inp s1 E]. apply lift_Val in E. destruct E as [E ->]. apply nth_res_Ok in E. cbv zeta.
  destruct (issuance_is_null _); [apply nov_mret|]. destruct (conf_is_commitment _ _); [apply nov_mreturn|].
  destruct (conf_is_commitment _ _); [apply nov_mreturn|].
  apply nov_bind.
  { destruct (uint256_is_null _).
    - apply nov_bind; [apply nov_lift, gae_nov|intros e s2 E2]. apply lift_Val in E2. destruct E2 as [E2 _]. apply gae_32 in E2.
      apply nov_bind; [apply nov_lift, ca_ok; exact E2|intros]. apply nov_bind; [apply nov_lift, crt_ok; exact E2|intros; apply nov_mret].
    - apply nov_bind; [apply nov_lift, ca_ok; exact (EO _ _ E)|intros; apply nov_mret]. }
  intros [asset T2] s2 _. apply nov_bind.
  { destruct (conf_is_null _); [apply nov_mret|]. apply nov_bind; [apply nov_lib|intros; apply nov_add_target]. }
  intros T3 s3 _. destruct (conf_is_null _); [apply nov_mret|]. destruct (t_token T3); [|apply nov_mraise; discriminate].
  apply nov_bind; [apply nov_assert|intros]. apply nov_bind; [apply nov_lib|intros; apply nov_add_target].
Qed.
Lemma rmap_nov {A B} (f : A -> res B) l : (forall x, f x <> Raise EValue) -> rmap f l <> Raise EValue.
Proof.
  intros H. induction l as [|x l IH]; cbn; [discriminate|]. destruct (f x) eqn:E; cbn [rbind]; [|pose proof (H x); congruence].
  destruct (rmap f l) eqn:E2; cbn [rbind]; congruence.
Qed.
Lemma nov_targets s : entropies_ok s -> nov (surjection_targets z args) s.
Proof.
  intros EO. unfold surjection_targets. apply nov_bind; [apply nov_get|intros t s1 E]. apply get_Val in E. destruct E as [-> ->]. cbv zeta.
  apply nov_bind.
  { apply (nov_for entropies_ok); auto; [intros; apply nov_targets_input; assumption|].
    intros x st s2 o s' H E. apply (keeps_eq _ _ _ _ (keeps_targets_input _ _ _ _)) in E. subst. exact H. }
  intros T s1 _. apply nov_bind.
  { destruct (a_aux args); [apply nov_mret|]. apply (nov_for (fun _ => True)); auto. intros [n ag] st s2 _. unfold targets_aux.
    destruct (gen_parse _ _); [apply nov_add_target|apply nov_mreturn]. }
  intros T2 s2 _. do 3 (apply nov_bind; [apply nov_assert|intros]).
  apply nov_bind; [apply nov_lift; unfold all_some; apply rmap_nov; intros [|]; discriminate|intros].
  apply nov_bind; [apply nov_lift; unfold all_some; apply rmap_nov; intros [|]; discriminate|intros]. apply nov_mret.
Qed.
Lemma nov_count_input n L s : nov (count_input args n L) s.
Proof.
  unfold count_input. apply nov_bind; [apply nov_nth|intros]. apply nov_bind; [apply nov_get|intros]. apply nov_bind.
  { destruct (_ || _); [|apply nov_mret]. destruct (_ <? _); [apply nov_mreturn|apply nov_mret]. }
  intros. apply nov_bind; [apply nov_nth|intros]. cbv zeta. destruct (issuance_is_null _); [apply nov_mret|].
  apply nov_bind.
  { destruct (key_at _ _); [|apply nov_mret]. destruct (conf_is_explicit _ _); cbn [negb]; [|apply nov_mreturn].
    destruct (proof_in_place _ _ _); [apply nov_mreturn|apply nov_mret]. }
  intros L2 s2 _. destruct (key_at _ _); [|apply nov_mret]. destruct (conf_is_explicit _ _); cbn [negb]; [|apply nov_mreturn].
  destruct (proof_in_place _ _ _); [apply nov_mreturn|apply nov_mret].
Qed.
Lemma nov_count_output x L s : nov (count_output z x L) s.
Proof.
  unfold count_output. destruct x as [n pub]. destruct (negb _); [apply nov_mret|]. destruct (negb _); [apply nov_mreturn|].
  apply nov_bind; [apply nov_get|intros]. apply nov_bind; [apply nov_nth|intros].
  repeat (match goal with |- nov (if ?b then _ else _) _ => destruct b end; try apply nov_mreturn). apply nov_mret.
Qed.

Theorem good_arguments_accepted t s : ~ bad_arguments args t ->
  (forall inp, In inp (vin t) -> blen (is_entropy (assetIssuance inp)) = 32) ->
  blind_transaction z rand args t <> (Exc EValue, s).
Proof.
  intros NB EN. assert (EO : entropies_ok (mkSt t 0)).
  { intros i inp E. apply EN. eapply nth_error_In; exact E. }
  unfold blind_transaction. assert (N : nov (blind_body z rand args) (mkSt t 0)).
  { intros s' E. rewrite body_split in E. revert s' E.
    change (nov (blind_looks blind_acts) (mkSt t 0)). unfold blind_looks.
    apply nov_bind.
    { destruct (check_cases (mkSt t 0)) as [[B _]|[_ E]]; [contradiction|]. intros s'. rewrite E. discriminate. }
    intros u s1 E1. apply (keeps_eq _ _ _ _ (keeps_check _)) in E1. subst s1.
    apply nov_bind; [apply nov_targets; exact EO|intros [[tags gens] blinders] s1 E1].
    apply (keeps_eq _ _ _ _ (keeps_targets _ _)) in E1. subst s1.
    apply nov_bind; [apply nov_get|intros t1 s1 E1]. apply get_Val in E1. destruct E1 as [-> ->].
    apply nov_bind; [apply (nov_for (fun _ => True)); auto; intros; apply nov_count_input|intros L1 s1 E1].
    apply (keeps_eq _ _ _ _ (keeps_for _ _ (keeps_count_input args) _)) in E1. subst s1.
    apply nov_bind; [apply (nov_for (fun _ => True)); auto; intros; apply nov_count_output|intros L2 s1 E1].
    apply (keeps_eq _ _ _ _ (keeps_for _ _ (keeps_count_output z) _)) in E1. subst s1.
    unfold blind_acts. apply nov_bind; [apply nov_get|intros t1 s1 E1]. apply get_Val in E1. destruct E1 as [-> ->].
    apply nov_bind; [apply (nov_for entropies_ok); [intros; apply nov_input; assumption|intros x st s2 o s' H E; eapply input_entropies; eauto|exact EO]|].
    intros. apply nov_bind; [apply nov_get|intros]. apply nov_bind; [apply nov_put|intros].
    apply nov_bind; [apply (nov_for (fun _ => True)); auto; intros; apply nov_output|intros; apply nov_mret]. }
  specialize (N s). destruct (blind_body z rand args (mkSt t 0)) as [[r|r|e] s1]; [discriminate|discriminate|].
  intros E. apply N. exact E.
Qed.
End F.
