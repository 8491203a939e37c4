(** Blinding and adding inputs and outputs may be exchanged. *)
From Verif Require Import Base BaseFacts Serialize TxModel IssuanceModel ScriptModel MiscModel BlindModel BlindFacts SpecBlind BlindFails SpecGrow.
From Coq Require Import Lia.
Local Open Scope Z_scope.
Local Open Scope blind_scope.

Lemma nth_res_app {A} (l l' : list A) i : (i < length l)%nat -> nth_res (l ++ l') i = nth_res l i.
Proof. intros H. unfold nth_res. rewrite nth_error_app1 by exact H. reflexivity. Qed.
Lemma seq_split n k : seq 0 (n + k) = seq 0 n ++ seq n k. Proof. apply seq_app. Qed.
Lemma for_app {A L} (body : A -> L -> M L) : forall l1 l2 st s, for_in (l1 ++ l2) body st s = mbind (for_in l1 body st) (for_in l2 body) s.
Proof.
  induction l1 as [|x l1 IH]; intros l2 st s; [reflexivity|]. cbn [app for_in]. unfold mbind. destruct (body x st s) as [[a|r|e] s1]; try reflexivity. rewrite IH. reflexivity.
Qed.
Lemma for_skip {A L} (body : A -> L -> M L) : forall l st s, (forall y st', In y l -> body y st' s = (Val st', s)) -> for_in l body st s = (Val st, s).
Proof.
  induction l as [|y l IH]; intros st s H; [reflexivity|]. cbn [for_in]. unfold mbind. rewrite (H y st) by (left; reflexivity). apply IH. intros. apply H. right. assumption.
Qed.
Lemma forallb_repeat_none {A} e : forallb (@is_none_b A) (repeat None e) = true.
Proof. induction e; [reflexivity|assumption]. Qed.

Definition isnil {A} (l : list A) : bool := match l with [] => true | _ => false end.
Lemma match_isnil {A B} (l : list A) (a b : B) : match l with [] => a | _ :: _ => b end = if isnil l then a else b. Proof. destruct l; reflexivity. Qed.
Lemma isnil_true {A} (l : list A) : isnil l = true -> l = []. Proof. destruct l; [reflexivity|discriminate]. Qed.
Lemma isnil_false {A} (l : list A) : isnil l = false -> l <> []. Proof. destruct l; discriminate. Qed.

Lemma skipn_add {A} a b (l : list A) : skipn b (skipn a l) = skipn (a + b) l.
Proof. revert l. induction a as [|a IH]; intros l; [reflexivity|]. destruct l; [destruct b; reflexivity|]. apply IH. Qed.

Section Grow.
Variables (z : Crypto) (rand : nat -> bytes) (args : blind_args) (x : more) (n m : nat).
Let k := length (m_in x).
Let q := length (m_out x).
Hypothesis IN : IssuesNothing x.
Hypothesis HD : length (a_descs args) = n.
Hypothesis HP : (length (a_pubkeys args) <= m)%nat.
Hypothesis HA : (length (a_asset_keys args) <= n)%nat.
Hypothesis HT : (length (a_token_keys args) <= n)%nat.
Hypothesis FS : m_in x = [] \/ (n + k <= length (a_aux args))%nat.
Hypothesis HX : a_aux args = [] \/ (n <= length (a_aux args))%nat.
Let args' := widen x args.

Definition Inv (t : tx) : Prop := length (vin t) = n /\ length (vout t) = m /\ length (vtxinwit (wit t)) = n /\ length (vtxoutwit (wit t)) = m.
Definition ext (s : St) : St := mkSt (extend x (s_tx s)) (s_draws s).
Definition rel {A} (R : A -> A -> Prop) (f f' : M A) : Prop := forall s, Inv (s_tx s) ->
  match f s, f' (ext s) with
  | (Val a, s1), (Val a', s2) => R a a' /\ Inv (s_tx s1) /\ s2 = ext s1
  | (Ret r, s1), (Ret r', s2) => r' = widen_ret x r /\ Inv (s_tx s1) /\ s2 = ext s1
  | (Exc e, s1), (Exc e', s2) => e' = e /\ s2 = ext s1
  | _, _ => False
  end.
Lemma rel_mret {A} (R : A -> A -> Prop) a a' : R a a' -> rel R (mret a) (mret a').
Proof. intros H s I. cbn. auto. Qed.
Lemma rel_mreturn {A} (R : A -> A -> Prop) r r' : r' = widen_ret x r -> rel R (mreturn r) (mreturn r').
Proof. intros H s I. cbn. auto. Qed.
Lemma rel_mraise {A} (R : A -> A -> Prop) e : rel R (mraise e) (mraise e).
Proof. intros s I. cbn. auto. Qed.
Lemma rel_lift {A} (R : A -> A -> Prop) r : (forall a, r = Ok a -> R a a) -> rel R (lift r) (lift r).
Proof. intros H. destruct r as [a|e]; cbn [lift]; [apply rel_mret, H; reflexivity|apply rel_mraise]. Qed.
Lemma rel_lib {A} (R : A -> A -> Prop) (r : option A) : (forall a, r = Some a -> R a a) -> rel R (lib_call r) (lib_call r).
Proof. intros H. destruct r as [a|]; cbn [lib_call]; [apply rel_mret, H; reflexivity|apply rel_mraise]. Qed.
Lemma rel_get : rel (fun t t' => t' = extend x t /\ Inv t) get_tx get_tx.
Proof. intros s I. cbn. auto. Qed.
Lemma rel_put t t' : Inv t -> t' = extend x t -> rel (fun _ _ => True) (put_tx t) (put_tx t').
Proof. intros I -> s _. cbn. auto. Qed.
Lemma rel_draw : rel eq (draw rand) (draw rand).
Proof. intros s I. cbn. auto. Qed.
Lemma rel_bind {A B} (R : A -> A -> Prop) (S : B -> B -> Prop) f f' (g g' : A -> M B) : rel R f f' -> (forall a a', R a a' -> rel S (g a) (g' a')) -> rel S (mbind f g) (mbind f' g').
Proof.
  intros F G s I. specialize (F s I). unfold mbind. destruct (f s) as [[a|r|e] s1], (f' (ext s)) as [[a'|r'|e'] s2]; try contradiction; [|exact F|exact F].
  destruct F as (H & I1 & ->). exact (G a a' H s1 I1).
Qed.
Lemma rel_weaken {A} (R S : A -> A -> Prop) f f' : rel R f f' -> (forall a a', R a a' -> S a a') -> rel S f f'.
Proof.
  intros F W s I. specialize (F s I). destruct (f s) as [[a|r|e] s1], (f' (ext s)) as [[a'|r'|e'] s2]; try contradiction; [|exact F|exact F].
  destruct F as (H & F). auto.
Qed.
Lemma rel_eq {A} (R : A -> A -> Prop) f f' g' : rel R f f' -> (forall s, g' s = f' s) -> rel R f g'.
Proof. intros F E s I. rewrite E. exact (F s I). Qed.
Lemma rel_for {A L} (R : nat -> L -> L -> Prop) (body body' : A -> L -> M L) : forall l j st st', R j st st' ->
  (forall i y, nth_error l i = Some y -> forall a a', R (j + i)%nat a a' -> rel (R (S (j + i))) (body y a) (body' y a')) ->
  rel (R (j + length l)%nat) (for_in l body st) (for_in l body' st').
Proof.
  induction l as [|y l IH]; intros j st st' H B; cbn [for_in length].
  - rewrite Nat.add_0_r. apply rel_mret. exact H.
  - eapply rel_bind; [apply (B 0%nat y eq_refl); rewrite Nat.add_0_r; exact H|]. intros a a' Ha. rewrite Nat.add_0_r in Ha.
    replace (j + S (length l))%nat with (S j + length l)%nat by lia. apply IH; [exact Ha|]. intros i y' E b b' Hb. replace (S j + i)%nat with (j + S i)%nat in Hb |- * by lia.
    apply (B (S i) y' E). exact Hb.
Qed.
Lemma rel_for' {A L} (R : L -> L -> Prop) (body body' : A -> L -> M L) : forall l st st', R st st' ->
  (forall y, In y l -> forall a a', R a a' -> rel R (body y a) (body' y a')) -> rel R (for_in l body st) (for_in l body' st').
Proof.
  intros l st st' H B. apply (rel_for (fun _ => R) body body' l 0 st st' H). intros i y E a a' Ha. apply B; [eapply nth_error_In; exact E|exact Ha].
Qed.

Lemma rel_mret_r {A B} (R : B -> B -> Prop) f (a : A) g : rel R f (g a) -> rel R f (mbind (mret a) g).
Proof. intros H. exact H. Qed.
Lemma rel_assoc_r {A B C} (R : C -> C -> Prop) f (a : M A) (g : A -> M B) (h : B -> M C) : rel R f (mbind a (fun v => mbind (g v) h)) -> rel R f (mbind (mbind a g) h).
Proof. intros H s I. specialize (H s I). unfold mbind in *. destruct (a (ext s)) as [[v|r|e] s1]; exact H. Qed.
Lemma rel_right {A} (R : A -> A -> Prop) f f' : rel R (mbind f mret) f' -> rel R f f'.
Proof. intros H s I. specialize (H s I). unfold mbind, mret in H. destruct (f s) as [[v|r|e] s1]; exact H. Qed.
Lemma rel_get_r {A} (R : A -> A -> Prop) f g : (forall s, Inv (s_tx s) -> match f s, g (extend x (s_tx s)) (ext s) with
  | (Val a, s1), (Val a', s2) => R a a' /\ Inv (s_tx s1) /\ s2 = ext s1
  | (Ret r, s1), (Ret r', s2) => r' = widen_ret x r /\ Inv (s_tx s1) /\ s2 = ext s1
  | (Exc e, s1), (Exc e', s2) => e' = e /\ s2 = ext s1
  | _, _ => False end) -> rel R f (mbind get_tx g).
Proof. intros H s I. exact (H s I). Qed.

(** ** What does not depend on the transaction *)
Lemma rel_if {A} (R : A -> A -> Prop) (b : bool) f g f' g' : rel R f f' -> rel R g g' -> rel R (if b then f else g) (if b then f' else g').
Proof. destruct b; auto. Qed.
Lemma rel_asset a b : rel eq (blinded_asset z a b) (blinded_asset z a b).
Proof.
  unfold blinded_asset. eapply rel_bind; [apply rel_lib with (R := eq); auto|]. intros g ? <-. eapply rel_bind; [apply rel_lib with (R := eq); auto|]. intros rc ? <-.
  eapply rel_bind; [apply rel_lift with (R := eq); auto|]. intros ca ? <-. eapply rel_bind; [apply rel_lift with (R := eq); auto|]. intros ? ? _. apply rel_mret. reflexivity.
Qed.
Lemma rel_value b g a : rel eq (create_value_commitment z b g a) (create_value_commitment z b g a).
Proof.
  unfold create_value_commitment. eapply rel_bind; [apply rel_lib with (R := eq); auto|]. intros c ? <-. eapply rel_bind; [apply rel_lib with (R := eq); auto|]. intros rc ? <-.
  eapply rel_bind; [apply rel_lift with (R := eq); auto|]. intros ca ? <-. eapply rel_bind; [apply rel_lift with (R := eq); auto|]. intros ? ? _. apply rel_mret. reflexivity.
Qed.
Lemma rel_unit (b : bool) e : rel (@eq unit) (if b then mraise e else mret tt) (if b then mraise e else mret tt).
Proof. destruct b; [apply rel_mraise|apply rel_mret; reflexivity]. Qed.
Lemma rel_unit' (b : bool) e : rel (@eq unit) (if b then mret tt else mraise e) (if b then mret tt else mraise e).
Proof. destruct b; [apply rel_mret; reflexivity|apply rel_mraise]. Qed.
Lemma rel_range bs no am sc co ge as_ abs e1 e2 : rel eq (generate_rangeproof z bs no am sc co ge as_ abs e1 e2) (generate_rangeproof z bs no am sc co ge as_ abs e1 e2).
Proof.
  unfold generate_rangeproof. eapply rel_bind; [apply rel_unit|]. intros _ _ _. eapply rel_bind; [apply rel_unit|]. intros _ _ _.
  eapply rel_bind; [apply rel_lift with (R := eq); auto|]. intros b ? <-. eapply rel_bind; [apply rel_lift with (R := eq); auto|]. intros ab ? <-.
  cbv zeta. apply rel_lib. auto.
Qed.
Lemma rel_nonce p : rel eq (generate_output_rangeproof_nonce z rand p) (generate_output_rangeproof_nonce z rand p).
Proof.
  unfold generate_output_rangeproof_nonce. eapply rel_bind; [apply rel_draw|]. intros sec ? <-. eapply rel_bind; [apply rel_unit'|]. intros _ _ _. cbv zeta.
  eapply rel_bind; [apply rel_lift with (R := eq); auto|]. intros _ _ _. eapply rel_bind; [apply rel_lib with (R := eq); auto|]. intros ec ? <-.
  eapply rel_bind; [apply rel_lift with (R := eq); auto|]. intros no ? <-. apply rel_mret. reflexivity.
Qed.
Lemma rel_surj a b c d e f : rel eq (generate_surjectionproof z rand a b c d e f) (generate_surjectionproof z rand a b c d e f).
Proof.
  unfold generate_surjectionproof. cbv zeta. eapply rel_bind; [apply rel_draw|]. intros sd ? <-. eapply rel_bind; [apply rel_lift with (R := eq); auto|]. intros tg ? <-.
  destruct (sp_init _ _ _ _ _ _ _) as [[pr ix]|]; [|apply rel_mret; reflexivity].
  eapply rel_bind; [apply rel_lift with (R := eq); auto|]. intros bu ? <-. eapply rel_bind; [apply rel_lift with (R := eq); auto|]. intros ib ? <-.
  eapply rel_bind; [apply rel_lift with (R := eq); auto|]. intros ob ? <-. eapply rel_bind; [apply rel_lib with (R := eq); auto|]. intros p ? <-.
  eapply rel_bind; [apply rel_unit'|]. intros _ _ _. apply rel_mret. reflexivity.
Qed.
Lemma rel_draw256 : rel eq (draw_uint256 rand) (draw_uint256 rand).
Proof. unfold draw_uint256. eapply rel_bind; [apply rel_draw|]. intros b ? <-. apply rel_lift. auto. Qed.

(** ** Modifying what was there *)
Lemma ext_vin t : vin (extend x t) = vin t ++ map fst (m_in x). Proof. reflexivity. Qed.
Lemma ext_vout t : vout (extend x t) = vout t ++ map fst (m_out x). Proof. reflexivity. Qed.
Lemma ext_inw t : vtxinwit (wit (extend x t)) = vtxinwit (wit t) ++ map snd (m_in x). Proof. reflexivity. Qed.
Lemma ext_outw t : vtxoutwit (wit (extend x t)) = vtxoutwit (wit t) ++ map snd (m_out x). Proof. reflexivity. Qed.
Lemma rel_mod_vin i f : (i < n)%nat -> rel (fun _ _ => True) (mod_vin i f) (mod_vin i f).
Proof.
  intros L. unfold mod_vin. eapply rel_bind; [apply rel_get|]. intros t t' [-> I]. rewrite ext_vin. destruct I as (I1 & I2 & I3 & I4). rewrite nth_res_app by lia.
  eapply rel_bind; [apply rel_lift with (R := eq); auto|]. intros a ? <-. apply rel_put.
  - unfold Inv, set_vin; cbn [vin vout wit]. rewrite upd_length. auto.
  - unfold set_vin, extend; cbn [vin vout wit nLockTime nVersion]. rewrite upd_app by lia. reflexivity.
Qed.
Lemma rel_mod_vout i f : (i < m)%nat -> rel (fun _ _ => True) (mod_vout i f) (mod_vout i f).
Proof.
  intros L. unfold mod_vout. eapply rel_bind; [apply rel_get|]. intros t t' [-> I]. rewrite ext_vout. destruct I as (I1 & I2 & I3 & I4). rewrite nth_res_app by lia.
  eapply rel_bind; [apply rel_lift with (R := eq); auto|]. intros a ? <-. apply rel_put.
  - unfold Inv, set_vout; cbn [vin vout wit]. rewrite upd_length. auto.
  - unfold set_vout, extend; cbn [vin vout wit nLockTime nVersion]. rewrite upd_app by lia. reflexivity.
Qed.
Lemma rel_mod_inwit i f : (i < n)%nat -> rel (fun _ _ => True) (mod_inwit i f) (mod_inwit i f).
Proof.
  intros L. unfold mod_inwit. eapply rel_bind; [apply rel_get|]. intros t t' [-> I]. rewrite ext_inw. destruct I as (I1 & I2 & I3 & I4). rewrite nth_res_app by lia.
  eapply rel_bind; [apply rel_lift with (R := eq); auto|]. intros a ? <-. apply rel_put.
  - unfold Inv, set_inwits; cbn [vin vout wit vtxinwit vtxoutwit]. rewrite upd_length. auto.
  - unfold set_inwits, extend; cbn [vin vout wit nLockTime nVersion vtxinwit vtxoutwit]. rewrite upd_app by lia. reflexivity.
Qed.
Lemma rel_mod_outwit i f : (i < m)%nat -> rel (fun _ _ => True) (mod_outwit i f) (mod_outwit i f).
Proof.
  intros L. unfold mod_outwit. eapply rel_bind; [apply rel_get|]. intros t t' [-> I]. rewrite ext_outw. destruct I as (I1 & I2 & I3 & I4). rewrite nth_res_app by lia.
  eapply rel_bind; [apply rel_lift with (R := eq); auto|]. intros a ? <-. apply rel_put.
  - unfold Inv, set_outwits; cbn [vin vout wit vtxinwit vtxoutwit]. rewrite upd_length. auto.
  - unfold set_outwits, extend; cbn [vin vout wit nLockTime nVersion vtxinwit vtxoutwit]. rewrite upd_app by lia. reflexivity.
Qed.
Lemma pad_none {A} i (w : A) l : (i <= length l)%nat -> pad_to i w l = l.
Proof. intros L. unfold pad_to. replace (i - length l)%nat with 0%nat by lia. apply app_nil_r. Qed.

(** ** Surjection targets *)
Definition N : nat := (n * 3 + (match a_aux args with [] => 0 | _ => length (a_aux args) - n end))%nat.
Definition e : nat := (2 * k)%nat.
Definition TR (b : nat) (T T' : Targets) : Prop :=
  t_tags T' = t_tags T ++ repeat None e /\ t_gens T' = t_gens T ++ repeat None e /\ t_blinders T' = t_blinders T /\ t_total T' = t_total T /\ t_token T' = t_token T
  /\ length (t_tags T) = N /\ length (t_gens T) = N /\ (t_total T <= b)%nat.
Lemma TR_le a b T T' : TR a T T' -> (a <= b)%nat -> TR b T T'.
Proof. intros (H1 & H2 & H3 & H4 & H5 & H6 & H7 & H8) L. repeat split; auto. lia. Qed.
Lemma rel_add b T T' tag gen bl : TR b T T' -> (b < N)%nat -> rel (TR (S b)) (add_target T tag gen bl) (add_target T' tag gen bl).
Proof.
  intros (H1 & H2 & H3 & H4 & H5 & H6 & H7 & H8) L. unfold add_target, set_res. rewrite H1, H2, H4, !app_length, H6, H7.
  rewrite (proj2 (Nat.ltb_lt (t_total T) N)) by lia. rewrite (proj2 (Nat.ltb_lt (t_total T) (N + _))) by lia. rewrite !upd_app by lia. cbn [lift].
  intros s I. unfold mbind, mret. cbn. split; [|auto]. unfold TR. cbn [t_tags t_gens t_blinders t_total t_token]. rewrite H3, H5, !upd_length. repeat split; auto; lia.
Qed.
Lemma TR_token b T T' tok : TR b T T' -> TR b (set_token T tok) (set_token T' tok).
Proof. intros (H1 & H2 & H3 & H4 & H5 & H6 & H7 & H8). unfold TR, set_token. cbn [t_tags t_gens t_blinders t_total t_token]. repeat split; auto. Qed.

Lemma rel_targets_input i T T' : (i < n)%nat -> TR (3 * i) T T' -> rel (TR (3 * S i)) (targets_input z args i T) (targets_input z args' i T').
Proof.
  intros L H. assert (LN : (3 * i + 3 <= N)%nat) by (unfold N; lia). unfold targets_input. unfold args', widen at 1 2 3. cbn [a_descs a_aux].
  rewrite nth_res_app by lia. eapply rel_bind; [apply rel_lift with (R := eq); auto|]. intros d ? <-.
  eapply rel_bind with (R := eq).
  { destruct (uint256_is_null _); [|apply rel_lib; auto]. destruct (a_aux args) as [|ag0 l] eqn:EA; [apply rel_mreturn; reflexivity|]. rewrite <- EA.
    eapply rel_bind; [apply rel_lift with (R := eq); auto|]. intros ag ? <-. destruct (gen_parse z ag); [apply rel_mret; reflexivity|apply rel_mreturn; reflexivity]. }
  intros g ? <-. eapply rel_bind; [apply rel_add; [exact H|lia]|]. intros T1 T1' H1. eapply rel_bind; [apply rel_get|]. intros t ? [-> (I1 & _)].
  rewrite ext_vin, nth_res_app by lia. eapply rel_bind; [apply rel_lift with (R := eq); auto|]. intros inp ? <-. cbv zeta.
  destruct (issuance_is_null _); [apply rel_mret; apply (TR_le _ _ _ _ H1); lia|]. destruct (conf_is_commitment _ (is_amount _)); [apply rel_mreturn; reflexivity|].
  destruct (conf_is_commitment _ (is_keys _)); [apply rel_mreturn; reflexivity|]. change (a_token_keys (widen x args)) with (a_token_keys args).
  eapply rel_bind with (R := fun p p' => fst p' = fst p /\ TR (3 * i + 1) (snd p) (snd p')).
  { destruct (uint256_is_null (is_nonce _)).
    - eapply rel_bind; [apply rel_lift with (R := eq); auto|]. intros en ? <-. eapply rel_bind; [apply rel_lift with (R := eq); auto|]. intros as_ ? <-.
      eapply rel_bind; [apply rel_lift with (R := eq); auto|]. intros tok ? <-. apply rel_mret. split; [reflexivity|]. apply TR_token. cbn [snd]. apply (TR_le _ _ _ _ H1). lia.
    - eapply rel_bind; [apply rel_lift with (R := eq); auto|]. intros as_ ? <-. apply rel_mret. split; [reflexivity|]. apply (TR_le _ _ _ _ H1). lia. }
  intros [as_ T2] [as' T2'] [E H2]. cbn [fst snd] in E, H2. subst as'.
  eapply rel_bind with (R := TR (3 * i + 2)).
  { destruct (conf_is_null _); [apply rel_mret; apply (TR_le _ _ _ _ H2); lia|]. eapply rel_bind; [apply rel_lib with (R := eq); auto|]. intros gn ? <-.
    eapply rel_weaken; [apply rel_add; [exact H2|lia]|]. intros ? ? X. apply (TR_le _ _ _ _ X). lia. }
  intros T3 T3' H3. destruct (conf_is_null _); [apply rel_mret; apply (TR_le _ _ _ _ H3); lia|].
  rewrite (proj1 (proj2 (proj2 (proj2 (proj2 H3))))). destruct (t_token T3) as [tok|]; [|apply rel_mraise].
  eapply rel_bind; [apply rel_lift with (R := eq); auto|]. intros ? ? _. eapply rel_bind; [apply rel_lib with (R := eq); auto|]. intros gn ? <-.
  eapply rel_weaken; [apply rel_add; [exact H3|lia]|]. intros ? ? X. apply (TR_le _ _ _ _ X). lia.
Qed.
(** A generator given for an input to be added, and the same input once added. *)
Lemma rel_targets_new i ag T T' b : (i < k)%nat -> nth_error (a_aux args) (n + i) = Some ag -> TR b T T' -> (b < N)%nat ->
  rel (TR (S b)) (targets_aux z (n + i, ag)%nat T) (targets_input z args' (n + i) T').
Proof.
  intros L E H LB. unfold targets_aux, targets_input. unfold args', widen. cbn [a_descs a_aux].
  unfold nth_res at 1. rewrite nth_error_app2 by lia. rewrite HD. replace (n + i - n)%nat with i by lia. fold k. rewrite nth_error_repeat by exact L. cbn [lift].
  destruct (a_aux args) as [|ag0 l] eqn:EA; [destruct (n + i)%nat; discriminate E|]. rewrite <- EA in *.
  apply rel_mret_r. change (uint256_is_null (d_asset unknown_input)) with true. cbv iota. unfold nth_res at 1. rewrite E. cbn [lift].
  apply rel_assoc_r. apply rel_mret_r. destruct (gen_parse z ag) as [g|]; [|intros s I; cbn; auto]. apply rel_mret_r.
  change (d_asset unknown_input) with (zeros 32). change (d_abf unknown_input) with (zeros 32). apply rel_right. eapply rel_bind; [apply rel_add; [exact H|exact LB]|]. intros T1 T1' H1.
  apply rel_get_r. intros s (I1 & I2 & I3 & I4). unfold nth_res. rewrite ext_vin. rewrite nth_error_app2 by lia. replace (n + i - length (vin (s_tx s)))%nat with i by lia.
  destruct (nth_error (m_in x) i) as [[inp w]|] eqn:EI; [|apply nth_error_None in EI; fold k in EI; lia].
  rewrite (map_nth_error fst i (m_in x) EI). cbn [fst lift]. unfold mbind at 1, mret. cbv beta iota zeta. destruct (IN inp w (nth_error_In _ _ EI)) as [A1 A2]. unfold issuance_is_null. rewrite A1, A2. cbn. repeat split; auto; apply H1.
Qed.

Lemma rel_aux nag T T' b : TR b T T' -> (b < N)%nat -> rel (TR (S b)) (targets_aux z nag T) (targets_aux z nag T').
Proof. intros H L. unfold targets_aux. destruct nag as [j ag]. destruct (gen_parse z ag); [apply rel_add; assumption|apply rel_mreturn; reflexivity]. Qed.

Lemma rel_for2 {A B L} (R : nat -> L -> L -> Prop) (body : A -> L -> M L) (body' : B -> L -> M L) : forall l l' j st st', length l = length l' -> R j st st' ->
  (forall i y y', nth_error l i = Some y -> nth_error l' i = Some y' -> forall a a', R (j + i)%nat a a' -> rel (R (S (j + i))) (body y a) (body' y' a')) ->
  rel (R (j + length l)%nat) (for_in l body st) (for_in l' body' st').
Proof.
  induction l as [|y l IH]; intros [|y' l'] j st st' LE H B0; try discriminate LE; cbn [for_in length].
  - rewrite Nat.add_0_r. apply rel_mret. exact H.
  - eapply rel_bind; [apply (B0 0%nat y y' eq_refl eq_refl); rewrite Nat.add_0_r; exact H|]. intros a a' Ha. rewrite Nat.add_0_r in Ha.
    replace (j + S (length l))%nat with (S j + length l)%nat by lia. apply IH; [cbn in LE; lia|exact Ha|]. intros i u u' E E' b b' Hb. replace (S j + i)%nat with (j + S i)%nat in Hb |- * by lia.
    apply (B0 (S i) u u' E E'). exact Hb.
Qed.
Lemma rel_assoc_l {A B C} (R : C -> C -> Prop) f (a : M A) (g : A -> M B) (h : B -> M C) : rel R (mbind a (fun v => mbind (g v) h)) f -> rel R (mbind (mbind a g) h) f.
Proof. intros H s I. specialize (H s I). unfold mbind in *. destruct (a s) as [[v|r|e1] s1]; exact H. Qed.
Lemma rel_for_app_l {A L C} (R : C -> C -> Prop) f (body : A -> L -> M L) l1 l2 st (h : L -> M C) : rel R (mbind (for_in l1 body st) (fun v => mbind (for_in l2 body v) h)) f -> rel R (mbind (for_in (l1 ++ l2) body st) h) f.
Proof. intros H. apply rel_assoc_l in H. intros s I. specialize (H s I). unfold mbind at 1 in H. unfold mbind at 1. rewrite for_app. exact H. Qed.
Lemma rel_for_app_r {A L C} (R : C -> C -> Prop) f (body : A -> L -> M L) l1 l2 st (h : L -> M C) : rel R f (mbind (for_in l1 body st) (fun v => mbind (for_in l2 body v) h)) -> rel R f (mbind (for_in (l1 ++ l2) body st) h).
Proof. intros H. apply rel_assoc_r in H. eapply rel_eq; [exact H|]. intros s. unfold mbind at 1. rewrite for_app. reflexivity. Qed.
Lemma combine_app {A B} (a a' : list A) (b b' : list B) : length a = length b -> combine (a ++ a') (b ++ b') = combine a b ++ combine a' b'.
Proof. revert b. induction a as [|y a IH]; intros [|w b] L; try discriminate L; [reflexivity|]. cbn [app combine]. rewrite IH by (cbn in L; lia). reflexivity. Qed.

(** The part after the loops. *)
Lemma rel_final T T' : TR N T T' -> rel eq
  (_ <- lift (rassert (t_total T =? length (t_blinders T))%nat EAssert) ;;
   _ <- lift (rassert (forallb is_none_b (skipn (t_total T) (t_tags T))) EAssert) ;;
   _ <- lift (rassert (forallb is_none_b (skipn (t_total T) (t_gens T))) EAssert) ;;
   tags <- lift (all_some (firstn (t_total T) (t_tags T))) ;;
   gens <- lift (all_some (firstn (t_total T) (t_gens T))) ;;
   mret (tags, gens, t_blinders T))
  (_ <- lift (rassert (t_total T' =? length (t_blinders T'))%nat EAssert) ;;
   _ <- lift (rassert (forallb is_none_b (skipn (t_total T') (t_tags T'))) EAssert) ;;
   _ <- lift (rassert (forallb is_none_b (skipn (t_total T') (t_gens T'))) EAssert) ;;
   tags <- lift (all_some (firstn (t_total T') (t_tags T'))) ;;
   gens <- lift (all_some (firstn (t_total T') (t_gens T'))) ;;
   mret (tags, gens, t_blinders T')).
Proof.
  intros (H1 & H2 & H3 & H4 & H5 & H6 & H7 & H8). rewrite H1, H2, H3, H4.
  assert (S : forall l : list (option bytes), length l = N -> forallb is_none_b (skipn (t_total T) (l ++ repeat None e)) = forallb is_none_b (skipn (t_total T) l)
    /\ firstn (t_total T) (l ++ repeat None e) = firstn (t_total T) l).
  { intros l LL. rewrite skipn_app, firstn_app. replace (t_total T - length l)%nat with 0%nat by lia. cbn [skipn firstn]. rewrite app_nil_r, forallb_app, forallb_repeat_none, andb_true_r. auto. }
  destruct (S _ H6) as [-> ->]. destruct (S _ H7) as [-> ->].
  eapply rel_bind; [apply rel_lift with (R := eq); auto|]. intros _ _ _. eapply rel_bind; [apply rel_lift with (R := eq); auto|]. intros _ _ _. eapply rel_bind; [apply rel_lift with (R := eq); auto|]. intros _ _ _.
  eapply rel_bind; [apply rel_lift with (R := eq); auto|]. intros tg ? <-. eapply rel_bind; [apply rel_lift with (R := eq); auto|]. intros gn ? <-. apply rel_mret. reflexivity.
Qed.
Lemma k_aux : a_aux args = [] -> k = 0%nat.
Proof. intros E. unfold k in *. destruct FS as [->|F]; [reflexivity|]. rewrite E in F. cbn in F. lia. Qed.
Lemma rel_targets : rel eq (surjection_targets z args) (surjection_targets z args').
Proof.
  unfold surjection_targets. eapply rel_bind; [apply rel_get|]. intros t ? [-> (I1 & _)]. cbv zeta. change (a_aux args') with (a_aux args).
  rewrite ext_vin, app_length, map_length. fold k. rewrite I1. rewrite seq_split.
  assert (EN : ((n + k) * 3 + match a_aux args with [] => 0 | _ => length (a_aux args) - (n + k) end = N + e)%nat).
  { unfold N, e. rewrite !match_isnil. destruct (isnil (a_aux args)) eqn:EA; [assert (K := k_aux (isnil_true _ EA)); lia|]. destruct FS as [F|F]; [|lia].
    assert (k = 0%nat) by (unfold k; rewrite F; reflexivity). lia. }
  rewrite EN. fold N. rewrite !repeat_app.
  apply rel_for_app_r. eapply rel_bind.
  { apply (rel_for (fun j => TR (3 * j)) _ _ (seq 0 n) 0).
    - unfold TR. cbn [t_tags t_gens t_blinders t_total t_token]. rewrite repeat_length. repeat split; lia.
    - intros i y E a a' Ha. assert (y = i /\ i < n)%nat as [-> L]. { assert (L : (i < length (seq 0 n))%nat) by (apply nth_error_Some; congruence). rewrite seq_length in L. rewrite (nth_error_nth' _ 0%nat) in E by (rewrite seq_length; exact L). rewrite seq_nth in E by exact L. injection E as <-. split; [reflexivity|exact L]. }
      cbn [Nat.add] in Ha |- *. apply rel_targets_input; assumption. }
  intros T T' HT0. cbn [Nat.add] in HT0. rewrite seq_length in HT0.
  destruct (isnil (a_aux args)) eqn:EA.
  - assert (K := k_aux (isnil_true _ EA)). rewrite (isnil_true _ EA). cbv iota. rewrite K. cbn [seq for_in]. apply rel_mret_r. eapply rel_bind with (R := TR N); [apply rel_mret; apply (TR_le _ _ _ _ HT0); unfold N; lia|]. apply rel_final.
  - apply isnil_false in EA. assert (EX : exists ag l, a_aux args = ag :: l) by (destruct (a_aux args) as [|ag l]; [congruence|eauto]). destruct EX as (ag & l & EX). rewrite EX. cbv iota. rewrite <- EX.
    assert (LA : (n + k <= length (a_aux args))%nat).
    { destruct FS as [F|F]; [|exact F]. assert (k = 0%nat) by (unfold k; rewrite F; reflexivity). destruct HX as [X|X]; [congruence|lia]. }
    assert (EN' : N = (n * 3 + (length (a_aux args) - n))%nat) by (unfold N; rewrite EX; reflexivity).
    replace (length (a_aux args) - n)%nat with (k + (length (a_aux args) - (n + k)))%nat by lia. rewrite seq_app.
    assert (ESK : skipn n (a_aux args) = firstn k (skipn n (a_aux args)) ++ skipn (n + k) (a_aux args)). { rewrite <- skipn_add. symmetry. apply firstn_skipn. }
    rewrite ESK at 1.
    assert (LF : length (firstn k (skipn n (a_aux args))) = k) by (rewrite firstn_length, skipn_length; lia).
    rewrite combine_app by (rewrite seq_length, LF; reflexivity). apply rel_for_app_l. eapply rel_bind with (R := TR (3 * n + k)).
    { assert (X := rel_for2 (fun j => TR (3 * n + j)) (targets_aux z) (targets_input z args') (combine (seq n k) (firstn k (skipn n (a_aux args)))) (seq n k) 0 T T').
      rewrite combine_length, seq_length, LF, Nat.min_id in X. apply X; [reflexivity|rewrite Nat.add_0_r; exact HT0|].
      intros i [j g] y' E E' a a' Ha. assert (L : (i < length (seq n k))%nat) by (apply nth_error_Some; congruence). rewrite seq_length in L.
      rewrite (nth_error_nth' _ 0%nat) in E' by (rewrite seq_length; exact L). rewrite seq_nth in E' by exact L. injection E' as <-.
      assert (E2 : j = (n + i)%nat /\ nth_error (firstn k (skipn n (a_aux args))) i = Some g).
      { rewrite (nth_error_nth' _ (0%nat, [] : bytes)) in E by (rewrite combine_length, seq_length, LF, Nat.min_id; exact L). rewrite combine_nth in E by (rewrite seq_length, LF; reflexivity). rewrite seq_nth in E by exact L.
        injection E as <- <-. split; [reflexivity|]. apply nth_error_nth'. rewrite LF. exact L. }
      destruct E2 as [-> E2]. assert (E3 : nth_error (a_aux args) (n + i) = Some g).
      { rewrite <- (firstn_skipn n (a_aux args)), nth_error_app2 by (rewrite firstn_length; lia). rewrite firstn_length. replace (n + i - Nat.min n (length (a_aux args)))%nat with i by lia.
        rewrite <- (firstn_skipn k (skipn n (a_aux args))), nth_error_app1 by (rewrite LF; exact L). exact E2. }
      cbn [Nat.add] in Ha |- *. replace (3 * n + S i)%nat with (S (3 * n + i)) by lia. apply rel_targets_new; [exact L|exact E3|exact Ha|lia]. }
    intros T1 T1' H1. eapply rel_bind with (R := TR N).
    { assert (X := rel_for (fun j => TR (3 * n + k + j)) (targets_aux z) (targets_aux z) (combine (seq (n + k) (length (a_aux args) - (n + k))) (skipn (n + k) (a_aux args))) 0 T1 T1').
      rewrite combine_length, seq_length, skipn_length, Nat.min_id in X. eapply rel_weaken; [apply X; [rewrite Nat.add_0_r; exact H1|]|].
      - intros i y E a a' Ha. assert (L : (i < length (combine (seq (n + k) (length (a_aux args) - (n + k))) (skipn (n + k) (a_aux args))))%nat) by (apply nth_error_Some; congruence).
        rewrite combine_length, seq_length, skipn_length, Nat.min_id in L. cbn [Nat.add] in Ha |- *. replace (3 * n + k + S i)%nat with (S (3 * n + k + i)) by lia. apply rel_aux; [exact Ha|lia].
      - intros a a' Y. apply (TR_le _ _ _ _ Y). lia. }
    apply rel_final.
Qed.

(** ** The rest of the function *)
Definition LR (L L' : Loc) : Prop :=
  L' = mkL (l_toblind L) (l_success L) (l_attempts L) (l_issattempts L) (l_blindsin L) (l_blinds L) (l_assetblinds L) (l_amounts L)
           (l_bfs L ++ repeat None q) (l_abfs L ++ repeat None q)
  /\ length (l_bfs L) = m /\ length (l_abfs L) = m.
Lemma LR_same (f : Loc -> Loc) L L' : LR L L' ->
  (forall a b, f (mkL (l_toblind L) (l_success L) (l_attempts L) (l_issattempts L) (l_blindsin L) (l_blinds L) (l_assetblinds L) (l_amounts L) a b)
    = mkL (l_toblind (f L)) (l_success (f L)) (l_attempts (f L)) (l_issattempts (f L)) (l_blindsin (f L)) (l_blinds (f L)) (l_assetblinds (f L)) (l_amounts (f L)) a b) ->
  l_bfs (f L) = l_bfs L -> l_abfs (f L) = l_abfs L -> LR (f L) (f L').
Proof. intros (-> & H1 & H2) E B A. unfold LR. rewrite E, B, A. auto. Qed.
Lemma LR_toblind L L' : LR L L' -> LR (inc_toblind L) (inc_toblind L'). Proof. intros H. apply LR_same; auto. Qed.
Lemma LR_success L L' : LR L L' -> LR (inc_success L) (inc_success L'). Proof. intros H. apply LR_same; auto. Qed.
Lemma LR_attempts b L L' : LR L L' -> LR (inc_attempts b L) (inc_attempts b L'). Proof. intros H. apply (LR_same (inc_attempts b)); auto. Qed.
Lemma LR_input a b c L L' : LR L L' -> LR (add_input a b c L) (add_input a b c L'). Proof. intros H. apply (LR_same (add_input a b c)); auto. Qed.
Lemma LR_amount a L L' : LR L L' -> LR (add_amount a L) (add_amount a L'). Proof. intros H. apply (LR_same (add_amount a)); auto. Qed.
Lemma LR_blind a b L L' : LR L L' -> LR (add_blind a b L) (add_blind a b L'). Proof. intros H. apply (LR_same (add_blind a b)); auto. Qed.
Lemma LR_last a L L' : LR L L' -> LR (set_last_blind a L) (set_last_blind a L'). Proof. intros H. apply (LR_same (set_last_blind a)); auto. Qed.
Lemma LR_factors i a b L L' : (i < m)%nat -> LR L L' -> LR (set_factors i a b L) (set_factors i a b L').
Proof.
  intros Li (-> & H1 & H2). unfold LR, set_factors. cbn [l_toblind l_success l_attempts l_issattempts l_blindsin l_blinds l_assetblinds l_amounts l_bfs l_abfs].
  rewrite !upd_length, !upd_app by lia. auto.
Qed.
Lemma map_or_zero l : map or_zero (l ++ repeat None q) = map or_zero l ++ repeat (zeros 32) q.
Proof. rewrite map_app. f_equal. induction q as [|i IH]; [reflexivity|]. cbn. f_equal. exact IH. Qed.
Lemma LR_result L L' : LR L L' -> blinding_result args' L' = widen_ret x (blinding_result args L).
Proof.
  intros (-> & _ & _). unfold blinding_result. cbn [l_toblind l_success l_bfs l_abfs]. change (a_strict args') with (a_strict args).
  destruct (a_strict args && _); [reflexivity|]. cbn [widen_ret]. rewrite !map_or_zero. reflexivity.
Qed.
Lemma LR_fields L L' : LR L L' -> l_toblind L' = l_toblind L /\ l_success L' = l_success L /\ l_attempts L' = l_attempts L /\ l_issattempts L' = l_issattempts L /\ l_blindsin L' = l_blindsin L
  /\ l_blinds L' = l_blinds L /\ l_assetblinds L' = l_assetblinds L /\ l_amounts L' = l_amounts L.
Proof. intros (-> & _ & _). repeat split. Qed.

Lemma rel_count_input i L L' : (i < n)%nat -> LR L L' -> rel LR (count_input args i L) (count_input args' i L').
Proof.
  intros Li H. unfold count_input. unfold args', widen. cbn [a_descs a_asset_keys a_token_keys]. rewrite nth_res_app by lia.
  eapply rel_bind; [apply rel_lift with (R := eq); auto|]. intros d ? <-. eapply rel_bind; [apply rel_get|]. intros t ? [-> (I1 & I2 & I3 & I4)].
  eapply rel_bind with (R := LR).
  { destruct (negb _ || negb _); [|apply rel_mret; exact H]. destruct (_ <? 0); [apply rel_mreturn; reflexivity|apply rel_mret, LR_input, H]. }
  intros L1 L1' H1. rewrite ext_vin, nth_res_app by lia. eapply rel_bind; [apply rel_lift with (R := eq); auto|]. intros inp ? <-. cbv zeta.
  assert (EP : forall f, proof_in_place (vtxinwit (wit (extend x t))) i f = proof_in_place (vtxinwit (wit t)) i f) by (intros f; unfold proof_in_place; rewrite ext_inw, nth_error_app1 by lia; reflexivity).
  rewrite !EP. destruct (issuance_is_null _); [apply rel_mret; exact H1|]. eapply rel_bind with (R := LR).
  { destruct (key_at _ i); [|apply rel_mret; exact H1]. destruct (negb _); [apply rel_mreturn; reflexivity|]. destruct (proof_in_place _ _ _); [apply rel_mreturn; reflexivity|apply rel_mret, LR_toblind, H1]. }
  intros L2 L2' H2. destruct (key_at _ i); [|apply rel_mret; exact H2]. destruct (negb _); [apply rel_mreturn; reflexivity|]. destruct (proof_in_place _ _ _); [apply rel_mreturn; reflexivity|apply rel_mret, LR_toblind, H2].
Qed.
Lemma count_new i L s : (n <= i < n + k)%nat -> Inv (s_tx s) -> count_input args' i L (ext s) = (Val L, ext s).
Proof.
  intros Li (I1 & _). unfold count_input. unfold args', widen. cbn [a_descs a_asset_keys a_token_keys]. unfold nth_res at 1. rewrite nth_error_app2 by lia. rewrite HD. fold k. rewrite nth_error_repeat by lia.
  cbn [lift]. unfold mbind at 1, mret at 1. unfold mbind at 1, get_tx. change (negb (uint256_is_null (d_bf unknown_input)) || negb (uint256_is_null (d_abf unknown_input))) with false. cbv iota. unfold mbind at 1, mret at 1.
  cbn [ext s_tx]. rewrite ext_vin. unfold nth_res. rewrite nth_error_app2 by lia. rewrite I1.
  destruct (nth_error (m_in x) (i - n)) as [[inp w]|] eqn:EI; [|apply nth_error_None in EI; fold k in EI; lia].
  rewrite (map_nth_error fst _ (m_in x) EI). cbn [fst lift]. unfold mbind at 1, mret. cbv beta iota zeta. destruct (IN inp w (nth_error_In _ _ EI)) as [A1 A2]. unfold issuance_is_null. rewrite A1, A2. reflexivity.
Qed.
Lemma rel_skip {A B} (l : list nat) (body : nat -> Loc -> M Loc) L (R : A -> A -> Prop) f (g : Loc -> M A) (y : B) :
  (forall i L s, In i l -> Inv (s_tx s) -> body i L (ext s) = (Val L, ext s)) -> rel R f (g L) -> rel R f (mbind (for_in l body L) g).
Proof.
  intros H F s I. specialize (F s I). unfold mbind. rewrite for_skip; [exact F|]. intros i L0 Hi. apply H; assumption.
Qed.

Lemma rel_count_output i p L L' : (i < m)%nat -> LR L L' -> rel LR (count_output z (i, p) L) (count_output z (i, p) L').
Proof.
  intros Li H. unfold count_output. destruct (negb _); [apply rel_mret; exact H|]. destruct (negb _); [apply rel_mreturn; reflexivity|].
  eapply rel_bind; [apply rel_get|]. intros t ? [-> (I1 & I2 & I3 & I4)]. rewrite ext_vout, nth_res_app by lia. eapply rel_bind; [apply rel_lift with (R := eq); auto|]. intros o ? <-.
  rewrite ext_outw, nth_error_app1 by lia. destruct (negb _); [apply rel_mreturn; reflexivity|]. destruct (negb _); [apply rel_mreturn; reflexivity|].
  destruct (match nth_error _ i with Some w => _ | None => _ end); [apply rel_mreturn; reflexivity|]. destruct (txout_is_fee o); [apply rel_mreturn; reflexivity|apply rel_mret, LR_toblind, H].
Qed.
Lemma key_short (l : list (option bytes)) i : (length l <= i)%nat -> key_at l i = None.
Proof. intros H. unfold key_at. rewrite (proj2 (nth_error_None l i) H). reflexivity. Qed.

Lemma rel_pseudo i ps L L' : (i < n)%nat -> LR L L' -> rel LR (blind_pseudo z rand args i ps L) (blind_pseudo z rand args' i ps L').
Proof.
  intros Li H. unfold blind_pseudo. change (if ps then a_token_keys args' else a_asset_keys args') with (if ps then a_token_keys args else a_asset_keys args).
  destruct (key_at _ i) as [key|]; [|apply rel_mret; exact H]. cbv zeta. assert (H1 := LR_attempts true _ _ H).
  eapply rel_bind; [apply rel_get|]. intros t ? [-> (I1 & I2 & I3 & I4)]. rewrite ext_vin, nth_res_app by lia. eapply rel_bind; [apply rel_lift with (R := eq); auto|]. intros inp ? <-.
  destruct (conf_is_null _); [apply rel_mret; exact H1|]. eapply rel_bind; [apply rel_lift with (R := eq); auto|]. intros amount ? <-. apply (LR_amount amount) in H1.
  eapply rel_bind with (R := eq).
  { destruct (uint256_is_null _).
    - eapply rel_bind; [apply rel_lift with (R := eq); auto|]. intros en ? <-. eapply rel_bind; [apply rel_lift with (R := eq); auto|]. intros a ? <-. apply rel_mret. reflexivity.
    - destruct ps; [apply rel_mret; reflexivity|]. eapply rel_bind; [apply rel_lift with (R := eq); auto|]. intros a ? <-. apply rel_mret. reflexivity. }
  intros ao ? <-. destruct ao as [asset|]; [|apply rel_mret; exact H1]. eapply rel_bind; [apply rel_draw256|]. intros b ? <-. apply (LR_blind b (zeros 32)) in H1.
  destruct (LR_fields _ _ H1) as (F1 & F2 & F3 & F4 & F5 & F6 & F7 & F8). rewrite F1, F3. destruct (_ =? _)%nat; [apply rel_mreturn, LR_result, H1|].
  clear t I1 I2 I3 I4. eapply rel_bind; [apply rel_get|]. intros t ? [-> (I1 & I2 & I3 & I4)].
  eapply rel_bind; [apply rel_put|].
  { rewrite pad_none by lia. unfold Inv, set_inwits. cbn [vin vout wit vtxinwit vtxoutwit]. auto. }
  { rewrite ext_inw. rewrite !pad_none by (rewrite ?app_length; lia). reflexivity. }
  intros _ _ _. eapply rel_bind; [apply rel_asset|]. intros ag ? <-. eapply rel_bind; [apply rel_value|]. intros [cv co] ? <-.
  eapply rel_bind; [apply rel_mod_vin; exact Li|]. intros _ _ _. eapply rel_bind; [apply rel_lift with (R := eq); auto|]. intros no ? <-.
  rewrite F6, F7. change (a_ct_exponent args') with (a_ct_exponent args). change (a_ct_bits args') with (a_ct_bits args).
  eapply rel_bind; [apply rel_range|]. intros pr ? <-. eapply rel_bind; [apply rel_mod_inwit; exact Li|]. intros _ _ _. apply rel_mret, LR_success, H1.
Qed.
Lemma rel_blind_input i L L' : (i < n)%nat -> LR L L' -> rel LR (blind_input z rand args i L) (blind_input z rand args' i L').
Proof. intros Li H. unfold blind_input. eapply rel_bind; [apply rel_pseudo; assumption|]. intros L1 L1' H1. apply rel_pseudo; assumption. Qed.
Lemma blind_new i L s : (n <= i)%nat -> blind_input z rand args' i L s = (Val L, s).
Proof. intros Li. unfold blind_input, blind_pseudo. change (a_asset_keys args') with (a_asset_keys args). change (a_token_keys args') with (a_token_keys args). rewrite !key_short by lia. reflexivity. Qed.

Lemma rel_balance L L' : LR L L' -> rel eq (balance_last z L) (balance_last z L').
Proof.
  intros H. destruct (LR_fields _ _ H) as (F1 & F2 & F3 & F4 & F5 & F6 & F7 & F8). unfold balance_last. rewrite F3, F4, F5, F6, F7, F8. cbv zeta.
  eapply rel_bind; [apply rel_lift with (R := eq); auto|]. intros _ _ _. eapply rel_bind; [apply rel_lift with (R := eq); auto|]. intros _ _ _.
  eapply rel_bind; [apply rel_lib with (R := eq); auto|]. intros b ? <-. eapply rel_bind; [apply rel_lift with (R := eq); auto|]. intros b' ? <-. apply rel_mret. reflexivity.
Qed.
Lemma rel_finish tags gens bls i p asset amount L L' : (i < m)%nat -> LR L L' ->
  rel LR (finish_output z rand args tags gens bls i p asset amount L) (finish_output z rand args' tags gens bls i p asset amount L').
Proof.
  intros Li H. destruct (LR_fields _ _ H) as (F1 & F2 & F3 & F4 & F5 & F6 & F7 & F8). unfold finish_output. rewrite F6, F7.
  eapply rel_bind; [apply rel_lift with (R := eq); auto|]. intros b ? <-. eapply rel_bind; [apply rel_lift with (R := eq); auto|]. intros ab ? <-. cbv zeta.
  assert (H1 := LR_factors i b ab _ _ Li H). eapply rel_bind; [apply rel_asset|]. intros [ca g] ? <-. eapply rel_bind; [apply rel_mod_vout; exact Li|]. intros _ _ _.
  eapply rel_bind; [apply rel_value|]. intros [cv co] ? <-. eapply rel_bind; [apply rel_mod_vout; exact Li|]. intros _ _ _. eapply rel_bind; [apply rel_nonce|]. intros [no ep] ? <-.
  eapply rel_bind; [apply rel_lift with (R := eq); auto|]. intros cn ? <-. eapply rel_bind; [apply rel_mod_vout; exact Li|]. intros _ _ _.
  eapply rel_bind; [apply rel_get|]. intros t ? [-> (I1 & I2 & I3 & I4)]. rewrite ext_vout, nth_res_app by lia. eapply rel_bind; [apply rel_lift with (R := eq); auto|]. intros o ? <-.
  destruct (LR_fields _ _ H1) as (G1 & G2 & G3 & G4 & G5 & G6 & G7 & G8). rewrite G6, G7. change (a_ct_exponent args') with (a_ct_exponent args). change (a_ct_bits args') with (a_ct_bits args).
  eapply rel_bind; [apply rel_range|]. intros rp ? <-. eapply rel_bind; [apply rel_surj|]. intros sp ? <-. destruct sp as [[|c sp]|]; [apply rel_mret; exact H1| |apply rel_mret; exact H1].
  eapply rel_bind; [apply rel_mod_outwit; exact Li|]. intros _ _ _. apply rel_mret, LR_success, H1.
Qed.
Lemma rel_output tags gens bls i p L L' : (i < m)%nat -> LR L L' -> rel LR (blind_output z rand args tags gens bls (i, p) L) (blind_output z rand args' tags gens bls (i, p) L').
Proof.
  intros Li H. unfold blind_output. destruct (negb _); [apply rel_mret; exact H|]. eapply rel_bind; [apply rel_get|]. intros t ? [-> (I1 & I2 & I3 & I4)].
  rewrite ext_vout, nth_res_app by lia. eapply rel_bind; [apply rel_lift with (R := eq); auto|]. intros o ? <-. cbv zeta. eapply rel_bind; [apply rel_lift with (R := eq); auto|]. intros amount ? <-.
  eapply rel_bind; [apply rel_lift with (R := eq); auto|]. intros asset ? <-. eapply rel_bind; [apply rel_draw256|]. intros b ? <-. eapply rel_bind; [apply rel_draw256|]. intros ab ? <-.
  assert (H1 := LR_blind b ab _ _ (LR_amount amount _ _ (LR_attempts false _ _ H))). destruct (LR_fields _ _ H1) as (F1 & F2 & F3 & F4 & F5 & F6 & F7 & F8). rewrite F1, F3, F5.
  destruct (_ =? _)%nat; [|apply rel_finish; assumption]. destruct (_ && _); [apply rel_mreturn, LR_result, H1|]. eapply rel_bind; [apply rel_balance; exact H1|]. intros ob ? <-.
  destruct ob as [b'|]; [apply rel_finish; [exact Li|apply LR_last; exact H1]|apply rel_mreturn, LR_result, LR_success, H1].
Qed.

Hypothesis BA : forall g, In g (a_aux args) -> blen g = 33.
Lemma good_check t : Inv t -> ~ bad_arguments args t /\ ~ bad_arguments args' (extend x t).
Proof.
  intros (I1 & I2 & I3 & I4). unfold bad_arguments. change (a_pubkeys args') with (a_pubkeys args). change (a_asset_keys args') with (a_asset_keys args). change (a_token_keys args') with (a_token_keys args).
  change (a_aux args') with (a_aux args). change (a_descs args') with (a_descs args ++ repeat unknown_input k). rewrite ext_vin, ext_vout, !app_length, !map_length, repeat_length. fold k q. split.
  - intros [X|[X|[X|[X|(NE & [X|(g & G & X)])]]]]; try lia; try (destruct HX; [contradiction|lia]); exact (X (BA g G)).
  - intros [X|[X|[X|[X|(NE & [X|(g & G & X)])]]]]; try lia; try exact (X (BA g G)). destruct FS as [F|F]; [|lia].
    assert (k = 0%nat) by (unfold k; rewrite F; reflexivity). destruct HX; [contradiction|lia].
Qed.
Lemma rel_check : rel (fun _ _ => True) (check_arguments args) (check_arguments args').
Proof.
  intros s I. destruct (good_check _ I) as [G G']. destruct (check_cases args s) as [[B _]|[_ E]]; [contradiction|]. destruct (check_cases args' (ext s)) as [[B _]|[_ E']]; [contradiction|].
  rewrite E, E'. auto.
Qed.
Lemma In_pubs i p (l : list bytes) : In (i, p) (combine (seq 0 (length l)) l) -> (i < length l)%nat.
Proof. intros H. apply in_combine_l, in_seq in H. lia. Qed.
Lemma rel_body : rel (fun r r' => r' = widen_ret x r) (blind_body z rand args) (blind_body z rand args').
Proof.
  unfold blind_body. eapply rel_bind; [apply rel_check|]. intros _ _ _. eapply rel_bind; [apply rel_targets|]. intros [[tags gens] bls] ? <-.
  eapply rel_bind; [apply rel_get|]. intros t ? [-> (I1 & I2 & I3 & I4)]. cbv zeta. rewrite ext_vin, ext_vout, !app_length, !map_length. fold k q. rewrite I1, I2, seq_split.
  apply rel_for_app_r. eapply rel_bind.
  { apply (rel_for' LR _ _ (seq 0 n)); [|intros i Hi a a' Ha; apply in_seq in Hi; apply rel_count_input; [lia|exact Ha]].
    unfold LR. cbn [l_toblind l_success l_attempts l_issattempts l_blindsin l_blinds l_assetblinds l_amounts l_bfs l_abfs]. rewrite !repeat_length, repeat_app. auto. }
  intros L L' H. apply (rel_skip (seq n k) _ L' _ _ _ tt); [intros i L0 s Hi I; apply in_seq in Hi; apply count_new; [lia|exact I]|].
  change (a_pubkeys args') with (a_pubkeys args). eapply rel_bind.
  { apply (rel_for' LR); [exact H|]. intros [i p] Hi a a' Ha. apply In_pubs in Hi. apply rel_count_output; [lia|exact Ha]. }
  intros L1 L1' H1. apply rel_for_app_r. eapply rel_bind.
  { apply (rel_for' LR _ _ (seq 0 n)); [exact H1|]. intros i Hi a a' Ha. apply in_seq in Hi. apply rel_blind_input; [lia|exact Ha]. }
  intros L2 L2' H2. apply (rel_skip (seq n k) _ L2' _ _ _ tt); [intros i L0 s Hi I; apply in_seq in Hi; apply blind_new; lia|].
  clear t I1 I2 I3 I4. eapply rel_bind; [apply rel_get|]. intros t ? [-> (I1 & I2 & I3 & I4)]. eapply rel_bind; [apply rel_put|].
  { rewrite pad_none by lia. unfold Inv, set_outwits. cbn [vin vout wit vtxinwit vtxoutwit]. auto. }
  { rewrite ext_outw, ext_vout. rewrite !pad_none by (rewrite ?app_length, ?map_length; lia). reflexivity. }
  intros _ _ _. eapply rel_bind.
  { apply (rel_for' LR); [exact H2|]. intros [i p] Hi a a' Ha. apply In_pubs in Hi. apply rel_output; [lia|exact Ha]. }
  intros L3 L3' H3. apply rel_mret. apply LR_result. exact H3.
Qed.
End Grow.

Lemma good_sizes args t : ~ bad_arguments args t -> length (a_descs args) = length (vin t) /\ (length (a_pubkeys args) <= length (vout t))%nat /\ (length (a_asset_keys args) <= length (vin t))%nat
  /\ (length (a_token_keys args) <= length (vin t))%nat /\ (a_aux args = [] \/ (length (vin t) <= length (a_aux args))%nat) /\ (forall g, In g (a_aux args) -> blen g = 33).
Proof.
  intros NB. unfold bad_arguments in NB.
  split; [destruct (Nat.eq_dec (length (a_descs args)) (length (vin t))); [assumption|exfalso; apply NB; auto]|].
  split; [destruct (le_lt_dec (length (a_pubkeys args)) (length (vout t))); [assumption|exfalso; apply NB; left; lia]|].
  split; [destruct (le_lt_dec (length (a_asset_keys args)) (length (vin t))); [assumption|exfalso; apply NB; right; left; lia]|].
  split; [destruct (le_lt_dec (length (a_token_keys args)) (length (vin t))); [assumption|exfalso; apply NB; right; right; left; lia]|].
  split.
  - destruct (a_aux args) as [|g l] eqn:EA; [left; reflexivity|right]. destruct (le_lt_dec (length (vin t)) (length (g :: l))); [assumption|]. exfalso. apply NB. do 4 right. split; [discriminate|left; lia].
  - intros g G. destruct (Z.eq_dec (blen g) 33); [assumption|]. exfalso. apply NB. do 4 right. split; [intros E; rewrite E in G; destruct G|right; eauto].
Qed.
Theorem exchange z rand args t x : Aligned t -> IssuesNothing x -> Foresees args t x -> ~ bad_arguments args t ->
  blind_transaction z rand (widen x args) (extend x t)
  = (widen_outcome x (fst (blind_transaction z rand args t)), mkSt (extend x (s_tx (snd (blind_transaction z rand args t)))) (s_draws (snd (blind_transaction z rand args t)))).
Proof.
  intros [A1 A2] IN FS NB. destruct (good_sizes _ _ NB) as (H1 & H2 & H3 & H4 & H5 & H6).
  assert (R := rel_body z rand args x (length (vin t)) (length (vout t)) IN H1 H2 H3 H4 FS H5 H6 (mkSt t 0)). unfold blind_transaction.
  specialize (R ltac:(unfold Inv; cbn [s_tx]; auto)). change (ext x (mkSt t 0)) with (mkSt (extend x t) 0) in R.
  destruct (blind_body z rand args (mkSt t 0)) as [[r|r|e] s], (blind_body z rand (widen x args) (mkSt (extend x t) 0)) as [[r'|r'|e'] s']; try contradiction; cbn [fst snd widen_outcome].
  - destruct R as (-> & _ & ->). reflexivity.
  - destruct R as (-> & _ & ->). reflexivity.
  - destruct R as (-> & ->). reflexivity.
Qed.
Lemma exchange_aligned z rand args t r s : Aligned t -> blind_transaction z rand args t = (Ret r, s) -> Aligned (s_tx s) /\ length (vin (s_tx s)) = length (vin t) /\ length (vout (s_tx s)) = length (vout t).
Proof.
  intros [A1 A2] E. assert (NB : ~ bad_arguments args t).
  { intros B. destruct (check_cases args (mkSt t 0)) as [[_ X]|[NB _]]; [|exact (NB B)]. unfold blind_transaction, blind_body, mbind in E. rewrite X in E. discriminate E. }
  destruct (good_sizes _ _ NB) as (H1 & H2 & H3 & H4 & H5 & H6). set (x := mkMore [] []).
  assert (R := rel_body z rand args x (length (vin t)) (length (vout t)) ltac:(intros i w []) H1 H2 H3 H4 (or_introl eq_refl) H5 H6 (mkSt t 0)). unfold blind_transaction in E.
  specialize (R ltac:(unfold Inv; cbn [s_tx]; auto)).
  assert (I : Inv (length (vin t)) (length (vout t)) (s_tx s)).
  { destruct (blind_body z rand args (mkSt t 0)) as [[r0|r0|e] s0], (blind_body z rand (widen x args) (ext x (mkSt t 0))) as [[r'|r'|e'] s']; try contradiction; try discriminate E; injection E as _ <-; apply R. }
  destruct I as (I1 & I2 & I3 & I4). unfold Aligned. repeat split; congruence.
Qed.
