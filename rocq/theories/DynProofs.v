(** Proofs for C83: blind_dyn against blind_transaction. *)
From Verif Require Import Base BaseFacts Serialize TxModel IssuanceModel ScriptModel MiscModel BlindModel BlindFacts SpecBlind BlindFrame BlindFails BlindSteps BlindTargets BlindCount DynModel SpecDyn.
From Coq Require Import Lia.
Local Open Scope Z_scope.

(** [m] does as [m'], or raises with [P]. *)
Definition sim {A} (P : exn -> St -> Prop) (m m' : M A) (s : St) : Prop := m s = m' s \/ exists e s', m s = (Exc e, s') /\ P e s'.
Lemma sim_refl {A} P (m : M A) s : sim P m m s. Proof. left. reflexivity. Qed.
Lemma sim_bind {A B} P (m m' : M A) (k k' : A -> M B) s : sim P m m' s -> (forall a s1, m s = (Val a, s1) -> sim P (k a) (k' a) s1) -> sim P (mbind m k) (mbind m' k') s.
Proof.
  intros [E|(e & s' & E & H)] K; unfold sim, mbind.
  - rewrite <- E. destruct (m s) as [[a|r|e] s1] eqn:EM; [|left; reflexivity|left; reflexivity]. exact (K a s1 eq_refl).
  - right. exists e, s'. rewrite E. auto.
Qed.
Lemma sim_same {A B} P (m : M A) (k k' : A -> M B) s : (forall a s1, m s = (Val a, s1) -> sim P (k a) (k' a) s1) -> sim P (mbind m k) (mbind m k') s.
Proof. apply sim_bind. apply sim_refl. Qed.
Lemma sim_weaken {A} (P Q : exn -> St -> Prop) (m m' : M A) s : sim P m m' s -> (forall e s', P e s' -> Q e s') -> sim Q m m' s.
Proof. intros [E|(e & s' & E & H)] W; [left; exact E|right; eauto]. Qed.
Lemma sim_for {A L} (P : exn -> St -> Prop) (I : list A -> St -> Prop) (body body' : A -> L -> M L) : forall l st s, I l s ->
  (forall x l st s, I (x :: l) s -> sim P (body x st) (body' x st) s /\ forall st' s', body x st s = (Val st', s') -> I l s') ->
  sim P (for_in l body st) (for_in l body' st) s.
Proof.
  induction l as [|x l IH]; intros st s HI H; cbn [for_in]; [apply sim_refl|]. destruct (H x l st s HI) as [S V].
  apply sim_bind; [exact S|]. intros st' s1 E. apply IH; [exact (V _ _ E)|exact H].
Qed.

(** ** Same presence of keys *)
Record Like (a b : blind_args) : Prop := {
  lk_descs : a_descs a = a_descs b; lk_pubs : a_pubkeys a = a_pubkeys b; lk_aux : a_aux a = a_aux b; lk_strict : a_strict a = a_strict b;
  lk_akey : forall i, key_at (a_asset_keys a) i = None <-> key_at (a_asset_keys b) i = None;
  lk_tkey : forall i, key_at (a_token_keys a) i = None <-> key_at (a_token_keys b) i = None }.
Lemma like_keys w w' l i : key_at (map (key_of w) l) i = None <-> key_at (map (key_of w') l) i = None.
Proof. unfold key_at. rewrite !nth_error_map. destruct (nth_error l i) as [[| | |]|]; cbn; split; congruence. Qed.
Lemma like_of w w' y : Like (args_of w y) (args_of w' y).
Proof. constructor; try reflexivity; intros i; apply like_keys. Qed.
Lemma for_ext {A L} (body body' : A -> L -> M L) : (forall x st s, body x st s = body' x st s) -> forall l st s, for_in l body st s = for_in l body' st s.
Proof. intros H. induction l as [|x l IH]; intros st s; cbn [for_in]; [reflexivity|]. unfold mbind. rewrite H. destruct (body' x st s) as [[a|r|e] s1]; auto. Qed.
Lemma like_targets_input z a b i T s : Like a b -> targets_input z a i T s = targets_input z b i T s.
Proof.
  intros K. unfold targets_input. rewrite (lk_descs _ _ K), (lk_aux _ _ K).
  assert (E : match key_at (a_token_keys a) i with Some _ => true | None => false end = match key_at (a_token_keys b) i with Some _ => true | None => false end).
  { assert (X := lk_tkey _ _ K i). destruct (key_at (a_token_keys a) i), (key_at (a_token_keys b) i); try reflexivity; [destruct X as [_ X]|destruct X as [X _]]; discriminate (X eq_refl). }
  rewrite E. reflexivity.
Qed.
Lemma like_targets z a b s : Like a b -> surjection_targets z a s = surjection_targets z b s.
Proof.
  intros K. unfold surjection_targets. rewrite (lk_aux _ _ K). apply mbind_ext. intros t s1 _. cbv zeta.
  match goal with |- mbind ?m1 ?k s1 = mbind ?m2 ?k' s1 => change k' with k; assert (E : m1 s1 = m2 s1) by (apply for_ext; intros; apply like_targets_input; exact K) end.
  unfold mbind at 1. rewrite E. reflexivity.
Qed.
Lemma like_count a b i L s : Like a b -> count_input a i L s = count_input b i L s.
Proof.
  intros K. unfold count_input. rewrite (lk_descs _ _ K). repeat (apply mbind_ext; intros ? ? _).
  destruct (issuance_is_null _); [reflexivity|].
  assert (X := lk_akey _ _ K i). assert (Y := lk_tkey _ _ K i).
  destruct (key_at (a_asset_keys a) i), (key_at (a_asset_keys b) i); try (destruct X as [_ X]; discriminate (X eq_refl)); try (destruct X as [X _]; discriminate (X eq_refl)); apply mbind_ext; intros ? ? _;
  destruct (key_at (a_token_keys a) i), (key_at (a_token_keys b) i); try (destruct Y as [_ Y]; discriminate (Y eq_refl)); try (destruct Y as [Y _]; discriminate (Y eq_refl)); reflexivity.
Qed.

Section Dyn.
Variables (z : Crypto) (rand : nat -> bytes) (y : dyn_args) (w : bytes).
Hypothesis SZ : SizesOk z.

Definition SameOut (t t' : tx) (j : nat) : Prop := nth_error (vout t') j = nth_error (vout t) j /\ outwit_at t' j = outwit_at t j.
Definition Only (t t' : tx) (A : nat -> bool -> Prop) (B : nat -> Prop) : Prop :=
  (forall i ps, ~ A i ps -> SameIn t t' i ps) /\ (forall j, ~ B j -> SameOut t t' j).
Lemma Only_refl t A B : Only t t A B. Proof. split; intros; split; reflexivity. Qed.
Lemma Only_trans t1 t2 t3 A B : Only t1 t2 A B -> Only t2 t3 A B -> Only t1 t3 A B.
Proof.
  intros [I1 O1] [I2 O2]. split.
  - intros i ps N. destruct (I1 i ps N), (I2 i ps N). split; congruence.
  - intros j N. destruct (O1 j N), (O2 j N). split; congruence.
Qed.
Definition loc {A} (PA : nat -> bool -> Prop) (PB : nat -> Prop) (m : M A) (s : St) : Prop := Only (s_tx s) (s_tx (snd (m s))) PA PB.
Lemma loc_bind {A B} PA PB (m : M A) (k : A -> M B) s : loc PA PB m s -> (forall a s1, m s = (Val a, s1) -> loc PA PB (k a) s1) -> loc PA PB (mbind m k) s.
Proof.
  intros H K. unfold loc, mbind in *. destruct (m s) as [[a|r|e] s1]; try exact H. apply (Only_trans _ (s_tx s1)); [exact H|]. exact (K a s1 eq_refl).
Qed.
Lemma loc_keeps {A} PA PB (m : M A) s : keeps m -> loc PA PB m s.
Proof. intros K. unfold loc. rewrite K. apply Only_refl. Qed.
Lemma loc_tx {A} PA PB (m : M A) s : s_tx (snd (m s)) = s_tx s -> loc PA PB m s.
Proof. intros K. unfold loc. rewrite K. apply Only_refl. Qed.
Lemma draw256_tx s : s_tx (snd (draw_uint256 rand s)) = s_tx s.
Proof. unfold draw_uint256, mbind, draw. cbn. unfold lift. destruct (uint256_new _); reflexivity. Qed.

Lemma nth_pad n (t : tx) i : inwit_at (set_inwits t (pad_to n inwit_null (vtxinwit (wit t)))) i = inwit_at t i.
Proof. unfold inwit_at. cbn [set_inwits wit vtxinwit]. apply (pad_to_nth n inwit_null). Qed.
Lemma nth_pado n (t : tx) i : outwit_at (set_outwits t (pad_to n outwit_null (vtxoutwit (wit t)))) i = outwit_at t i.
Proof. unfold outwit_at. cbn [set_outwits wit vtxoutwit]. apply (pad_to_nth n outwit_null). Qed.
Lemma upd_nth_def {A} (l : list A) i j x d : i <> j -> nth j (upd l i x) d = nth j l d.
Proof. intros N. rewrite <- !(nth_default_eq). unfold nth_default. rewrite upd_nth_other by exact N. reflexivity. Qed.

Definition args := args_of w y.
Lemma mod_vin_exc n f s e s' : mod_vin n f s = (Exc e, s') -> s' = s.
Proof. unfold mod_vin, mbind, get_tx, lift. cbn. destruct (nth_res _ n); [discriminate|]. intros E. injection E as _ <-. reflexivity. Qed.
Lemma mod_inwit_exc n f s e s' : mod_inwit n f s = (Exc e, s') -> s' = s.
Proof. unfold mod_inwit, mbind, get_tx, lift. cbn. destruct (nth_res _ n); [discriminate|]. intros E. injection E as _ <-. reflexivity. Qed.

Lemma loc_pseudo n ps L s : loc (fun i p => i = n /\ p = ps) (fun _ => False) (blind_pseudo z rand args n ps L) s.
Proof.
  unfold blind_pseudo. destruct (key_at _ n) as [key|]; [|apply loc_keeps, keeps_mret].
  apply loc_bind; [apply loc_keeps, keeps_get|intros t s1 E; apply get_Val in E; destruct E as [-> ->]].
  apply loc_bind; [apply loc_keeps, keeps_lift|intros inp s1 E; apply lift_Val in E; destruct E as [E ->]; apply nth_res_Ok in E]. cbv zeta.
  destruct (conf_is_null _); [apply loc_keeps, keeps_mret|].
  apply loc_bind; [apply loc_keeps, keeps_lift|intros amount s1 E1; apply lift_Val in E1; destruct E1 as [E1 ->]].
  apply loc_bind; [apply loc_keeps; keeps|intros ao s1 E2].
  assert (s1 = s) by (eapply keeps_eq; [|exact E2]; keeps). subst s1.
  destruct ao as [asset|]; [|apply loc_keeps, keeps_mret].
  apply loc_bind; [apply loc_tx, draw256_tx|intros b s1 Eb]. assert (Et := f_equal (fun x => s_tx (snd x)) Eb). cbv beta in Et. rewrite draw256_tx in Et. cbn [snd] in Et.
  rewrite Et in E. clear Et Eb.
  destruct (_ =? _)%nat; [apply loc_keeps, keeps_mreturn|].
  apply loc_bind; [apply loc_keeps, keeps_get|intros t s2 E3; apply get_Val in E3; destruct E3 as [-> ->]].
  apply loc_bind; [|intros u s2 E3; apply put_Val in E3; subst s2].
  { split; intros; split; try reflexivity. cbn [put_tx snd s_tx]. rewrite nth_pad. reflexivity. }
  apply loc_bind; [apply loc_keeps, keeps_blinded_asset|intros [ca g] s2 E3; apply (keeps_eq _ _ _ _ (keeps_blinded_asset _ _ _)) in E3; subst s2].
  apply loc_bind; [apply loc_keeps, keeps_cvc|intros [cv c] s2 E3; apply (keeps_eq _ _ _ _ (keeps_cvc _ _ _ _)) in E3; subst s2].
  apply loc_bind.
  { unfold loc. match goal with |- context [mod_vin n ?f ?s0] => destruct (mod_vin n f s0) as [[u1|r|e] s2] eqn:E3 end.
    - apply mod_vin_Val in E3. destruct E3 as (i & Ei & ->). cbn [s_tx set_inwits vin] in Ei. rewrite E in Ei. injection Ei as <-.
      split; [|intros; split; reflexivity]. intros i p N. split; [|reflexivity]. cbn [snd s_tx set_vin set_inwits vin].
      destruct (Nat.eq_dec n i) as [->|Ni]; [|rewrite upd_nth_other by exact Ni; reflexivity].
      rewrite upd_nth_same by (apply nth_error_Some; congruence). rewrite E. destruct p, ps; try (exfalso; apply N; auto; fail); reflexivity.
    - exfalso. exact (noret_mod_vin _ _ _ _ _ E3).
    - apply mod_vin_exc in E3. subst s2. apply Only_refl. }
  intros u1 s2 _. clear E.
  apply loc_bind; [apply loc_keeps, keeps_lift|intros nonce s3 E; apply lift_Val in E; destruct E as [_ ->]].
  apply loc_bind; [apply loc_keeps, keeps_rangeproof|intros pr s3 E; apply (keeps_eq _ _ _ _ (keeps_rangeproof _ _ _ _ _ _ _ _ _ _ _)) in E; subst s3].
  apply loc_bind; [|intros; apply loc_keeps, keeps_mret].
  unfold loc. match goal with |- context [mod_inwit n ?f ?s0] => destruct (mod_inwit n f s0) as [[u2|r|e] s3] eqn:E3 end.
  - apply mod_inwit_Val in E3. destruct E3 as (i & Ei & ->). split; [|intros; split; reflexivity].
    intros i0 p N. split; [reflexivity|]. unfold inwit_at. cbn [snd s_tx set_inwits wit vtxinwit].
    destruct (Nat.eq_dec n i0) as [->|Ni].
    + assert (LN : (i0 < length (vtxinwit (wit (s_tx s2))))%nat) by (apply nth_error_Some; congruence).
      rewrite (nth_error_default _ _ _ _ Ei). rewrite (nth_error_default _ _ _ _ (upd_nth_same _ _ _ LN)).
      destruct p, ps; try reflexivity; exfalso; apply N; auto.
    + rewrite upd_nth_def by exact Ni. reflexivity.
  - exfalso. exact (noret_mod_inwit _ _ _ _ _ E3).
  - apply mod_inwit_exc in E3. subst s3. apply Only_refl.
Qed.

Lemma mod_vout_exc n f s e s' : mod_vout n f s = (Exc e, s') -> s' = s.
Proof. unfold mod_vout, mbind, get_tx, lift. cbn. destruct (nth_res _ n); [discriminate|]. intros E. injection E as _ <-. reflexivity. Qed.
Lemma mod_outwit_exc n f s e s' : mod_outwit n f s = (Exc e, s') -> s' = s.
Proof. unfold mod_outwit, mbind, get_tx, lift. cbn. destruct (nth_res _ n); [discriminate|]. intros E. injection E as _ <-. reflexivity. Qed.
Lemma loc_vout n f s : loc (fun _ _ => False) (fun j => j = n) (mod_vout n f) s.
Proof.
  unfold loc. destruct (mod_vout n f s) as [[u1|r|e] s2] eqn:E3.
  - apply mod_vout_Val in E3. destruct E3 as (i & Ei & ->). split; [intros; split; reflexivity|]. intros j N. split; [|reflexivity].
    cbn [snd s_tx set_vout vout]. rewrite upd_nth_other by congruence. reflexivity.
  - exfalso. exact (noret_mod_vout _ _ _ _ _ E3).
  - apply mod_vout_exc in E3. subst s2. apply Only_refl.
Qed.
Lemma loc_outwit n f s : loc (fun _ _ => False) (fun j => j = n) (mod_outwit n f) s.
Proof.
  unfold loc. destruct (mod_outwit n f s) as [[u1|r|e] s2] eqn:E3.
  - apply mod_outwit_Val in E3. destruct E3 as (i & Ei & ->). split; [intros; split; reflexivity|]. intros j N. split; [reflexivity|].
    unfold outwit_at. cbn [snd s_tx set_outwits wit vtxoutwit]. apply upd_nth_def. congruence.
  - exfalso. exact (noret_mod_outwit _ _ _ _ _ E3).
  - apply mod_outwit_exc in E3. subst s2. apply Only_refl.
Qed.
Lemma loc_draw PA PB s : loc PA PB (draw rand) s. Proof. apply Only_refl. Qed.
Lemma loc_draw256 PA PB s : loc PA PB (draw_uint256 rand) s. Proof. apply loc_tx, draw256_tx. Qed.
Lemma loc_nonce PA PB p s : loc PA PB (generate_output_rangeproof_nonce z rand p) s.
Proof. unfold generate_output_rangeproof_nonce. cbv zeta. apply loc_bind; [apply loc_draw|intros]. apply loc_keeps. keeps. Qed.
Lemma loc_surj PA PB a b c d e f s : loc PA PB (generate_surjectionproof z rand a b c d e f) s.
Proof.
  unfold generate_surjectionproof. cbv zeta.
  repeat first [apply loc_bind; [|intros] | apply loc_draw256 | apply loc_draw | apply loc_keeps; keeps; fail
    | match goal with |- loc _ _ (if ?x then _ else _) _ => destruct x | |- loc _ _ (match ?x with _ => _ end) _ => destruct x end].
Qed.
Lemma loc_output tags gens blinders n pub L s : loc (fun _ _ => False) (fun j => j = n) (blind_output z rand args tags gens blinders (n, pub) L) s.
Proof.
  unfold blind_output, finish_output. cbv zeta.
  repeat first [apply loc_draw256 | apply loc_draw | apply loc_vout | apply loc_outwit | apply loc_nonce | apply loc_surj
    | apply loc_keeps, keeps_balance | apply loc_keeps, keeps_rangeproof | apply loc_keeps, keeps_cvc | apply loc_keeps, keeps_blinded_asset
    | apply loc_keeps, keeps_lift | apply loc_keeps, keeps_get | apply loc_keeps, keeps_mret | apply loc_keeps, keeps_mreturn | apply loc_bind; [|intros]
    | match goal with |- loc _ _ (if ?x then _ else _) _ => destruct x | |- loc _ _ (match ?x with _ => _ end) _ => destruct x end].
Qed.

(** ** The dynamic run follows the typed one, or stops late *)
Definition Late (t : tx) (e : exn) (s' : St) : Prop :=
  ((e = EType /\ WrongParameter y) \/ (e = EAttribute /\ exists x, falsy_key y x))
  /\ (HalfIssuance t (s_tx s') \/ HalfOutput t (s_tx s')).

Lemma rp_sim (P : exn -> St -> Prop) a b c d e f g h s : (WrongParameter y -> P EType s) ->
  sim P (generate_rangeproof_dyn z y a b c d e f g h) (generate_rangeproof z a b c d e f g h (a_ct_exponent args) (a_ct_bits args)) s.
Proof.
  intros H. unfold generate_rangeproof_dyn, generate_rangeproof. cbv zeta.
  apply sim_same. intros u s1 E1. assert (s1 = s) by (eapply keeps_eq; [|exact E1]; keeps). subst s1.
  apply sim_same. intros u1 s1 E2. assert (s1 = s) by (eapply keeps_eq; [|exact E2]; keeps). subst s1.
  apply sim_same. intros bl s1 E3. apply lift_Val in E3. destruct E3 as [_ ->].
  apply sim_same. intros abl s1 E4. apply lift_Val in E4. destruct E4 as [_ ->].
  unfold args, args_of. cbn [a_ct_exponent a_ct_bits]. unfold WrongParameter in H.
  destruct (y_ct_exponent y); cbn [ct_param int_of lift]; try (right; exists EType, s; split; [reflexivity|apply H; auto]);
  destruct (y_ct_bits y); cbn [ct_param int_of lift]; try (right; exists EType, s; split; [reflexivity|apply H; auto]); left; reflexivity.
Qed.

Lemma same_result L : blinding_result (args_of (@nil byte) y) L = blinding_result args L. Proof. reflexivity. Qed.
Lemma cv_committed c cv : ped_serialize z c = Some cv -> Committed cv.
Proof.
  intros E. destruct (so_comser _ SZ _ _ E) as (d & Ld & [-> | ->]); (split; [cbn; unfold blen in Ld; lia|discriminate]).
Qed.
Lemma ca_committed c cv : gen_serialize z c = Some cv -> Committed cv.
Proof.
  intros E. destruct (so_genser _ SZ _ _ E) as (d & Ld & [-> | ->]); (split; [cbn; unfold blen in Ld; lia|discriminate]).
Qed.
Lemma key_nth (ps : bool) (n : nat) : key_at (if ps then a_token_keys args else a_asset_keys args) n =
  key_of w (nth n (if ps then y_token_keys y else y_asset_keys y) KNone).
Proof. rewrite key_at_nth. unfold args, args_of. cbn. destruct ps; rewrite <- (map_nth (key_of w)); reflexivity. Qed.

Lemma pseudo_sim (t : tx) (n : nat) (ps : bool) L s : (forall k, nth n (if ps then y_token_keys y else y_asset_keys y) KNone = k -> k <> KOther) ->
  SameIn t (s_tx s) n ps ->
  sim (Late t) (blind_pseudo_dyn z rand y n ps L) (blind_pseudo z rand args n ps L) s.
Proof.
  intros NO [SF SP]. unfold blind_pseudo_dyn, blind_pseudo. rewrite key_nth.
  destruct (nth n _ KNone) as [|key| |] eqn:EK; cbn [key_of]; [apply sim_refl| | |exfalso; exact (NO _ eq_refl eq_refl)].
  all: cbv zeta.
  all: apply sim_same; intros t0 s1 E; apply get_Val in E; destruct E as [-> ->].
  all: apply sim_same; intros inp s1 E; apply lift_Val in E; destruct E as [E ->]; apply nth_res_Ok in E.
  all: destruct (conf_is_null _); [apply sim_refl|].
  all: apply sim_same; intros amount s1 E1; apply lift_Val in E1; destruct E1 as [E1 ->].
  all: apply sim_same; intros ao s1 E2; assert (s1 = s) by (eapply keeps_eq; [|exact E2]; keeps); subst s1.
  all: destruct ao as [asset|]; [|apply sim_refl].
  all: apply sim_same; intros b s1 Eb; assert (Et := f_equal (fun x => s_tx (snd x)) Eb); cbv beta in Et; rewrite draw256_tx in Et; cbn [snd] in Et; rewrite Et in *; clear Et Eb.
  all: rewrite same_result; destruct (_ =? _)%nat; [apply sim_refl|].
  all: apply sim_same; intros t0 s2 E3; apply get_Val in E3; destruct E3 as [-> ->].
  all: apply sim_same; intros u s2 E3; apply put_Val in E3; subst s2.
  all: apply sim_same; intros [ca g] s2 E3; apply blinded_asset_Val in E3; destruct E3 as (-> & _).
  all: apply sim_same; intros [cv c] s2 E3; apply cvc_Val in E3; destruct E3 as (-> & _ & E3 & _).
  all: apply sim_same; intros u1 s2 E4; apply mod_vin_Val in E4; destruct E4 as (i & Ei & ->); cbn [s_tx set_inwits vin] in Ei; rewrite E in Ei; injection Ei as <-.
  all: match goal with |- sim _ _ _ ?s2 => assert (HI : HalfIssuance t (s_tx s2)) end.
  1, 3: destruct (nth_error (vin t) n) as [inp0|] eqn:E0; rewrite E in SF; cbn [option_map] in SF; [|discriminate]; injection SF as SF;
    exists n, ps, inp0; eexists; exists (c_uint64 amount); split; [exact E0|]; split;
    [cbn [s_tx set_vin vin set_inwits]; apply upd_nth_same, nth_error_Some; congruence|]; split;
    [rewrite <- SF; unfold iss_field; apply to_amount_explicit; exact E1|]; split;
    [destruct ps; cbn; apply (cv_committed c); exact E3|];
    rewrite <- SP; f_equal; apply (nth_pad (S n) (s_tx s1) n).
  - match goal with |- sim ?P (mbind _ ?k) ?m ?s2 => change (sim P (k key) m s2) end. cbv beta.
    apply sim_same. intros nonce s3 E5. apply lift_Val in E5. destruct E5 as [_ ->].
    apply sim_bind; [|intros; apply sim_refl].
    apply rp_sim. intros WP. split; [left; auto|left; exact HI].
  - right. exists EAttribute. eexists. split; [reflexivity|]. split; [|left; exact HI]. right. split; [reflexivity|]. exists (n, ps). exact EK.
Qed.

Lemma finish_sim t tags gens blinders n pub asset amount L s o :
  SameOut t (s_tx s) n -> nth_error (vout (s_tx s)) n = Some o -> ExplicitAsset (nAsset o) asset -> ExplicitValue (nValue o) (c_uint64 amount) ->
  sim (Late t) (finish_output_dyn z rand y tags gens blinders n pub asset amount L) (finish_output z rand args tags gens blinders n pub asset amount L) s.
Proof.
  intros [SO SW] Eo XA XV. unfold finish_output_dyn, finish_output. cbv zeta.
  apply sim_same. intros b s1 E. apply lift_Val in E. destruct E as [_ ->].
  apply sim_same. intros ab s1 E. apply lift_Val in E. destruct E as [_ ->].
  apply sim_same. intros [ca g] s1 E. apply blinded_asset_Val in E. destruct E as (-> & _ & Ea & _).
  apply sim_same. intros u s1 E. apply mod_vout_Val in E. destruct E as (o1 & E1 & ->). rewrite Eo in E1. injection E1 as <-.
  apply sim_same. intros [cv c] s1 E. apply cvc_Val in E. destruct E as (-> & _ & Ev & _).
  assert (LN : (n < length (vout (s_tx s)))%nat) by (apply nth_error_Some; congruence).
  apply sim_same. intros u1 s1 E. apply mod_vout_Val in E. destruct E as (o1 & E1 & ->). cbn [s_tx set_vout vout] in E1. rewrite upd_nth_same in E1 by exact LN. injection E1 as <-.
  apply sim_same. intros [nonce eph] s1 E. assert (Et := loc_nonce (fun _ _ => False) (fun _ => False) pub (mkSt (set_vout (s_tx (mkSt (set_vout (s_tx s) (upd (vout (s_tx s)) n (mkTxOut (nValue o) (scriptPubKey o) ca (nNonce o)))) (s_draws s)))
     (upd (vout (s_tx (mkSt (set_vout (s_tx s) (upd (vout (s_tx s)) n (mkTxOut (nValue o) (scriptPubKey o) ca (nNonce o)))) (s_draws s)))) n (mkTxOut cv (scriptPubKey o) ca (nNonce o)))) (s_draws s))).
  unfold loc in Et. cbn [nValue scriptPubKey nAsset nNonce s_draws] in E. rewrite E in Et. destruct Et as [_ Et].
  destruct (Et n ltac:(tauto)) as [E1 E2]. clear Et E. cbn [s_tx set_vout vout snd] in E1, E2. rewrite upd_nth_same in E1 by (rewrite upd_length; exact LN).
  change (outwit_at (s_tx s1) n = outwit_at (s_tx s) n) in E2.
  apply sim_same. intros cn s2 E. apply lift_Val in E. destruct E as [_ ->].
  apply sim_same. intros u2 s2 E. apply mod_vout_Val in E. destruct E as (o1 & E3 & ->). rewrite E1 in E3. injection E3 as <-.
  apply sim_same. intros t0 s2 E. apply get_Val in E. destruct E as [-> ->].
  apply sim_same. intros o2 s2 E. apply lift_Val in E. destruct E as [_ ->].
  apply sim_bind; [|intros; apply sim_refl]. apply rp_sim. intros WP. split; [left; auto|]. right.
  exists n, o. eexists. exists (c_uint64 amount), asset. split; [rewrite <- SO; exact Eo|]. split; [cbn [s_tx set_vout vout]; apply upd_nth_same, nth_error_Some; congruence|].
  cbn [nValue nAsset]. split; [exact XV|]. split; [exact XA|]. split; [exact (cv_committed _ _ Ev)|]. split; [exact (ca_committed _ _ Ea)|].
  rewrite <- SW, <- E2. reflexivity.
Qed.

Lemma output_sim t tags gens blinders n pub L s : SameOut t (s_tx s) n ->
  sim (Late t) (blind_output_dyn z rand y tags gens blinders (n, pub) L) (blind_output z rand args tags gens blinders (n, pub) L) s.
Proof.
  intros SO. unfold blind_output_dyn, blind_output. destruct (negb _); [apply sim_refl|]. cbv zeta.
  apply sim_same. intros t0 s1 E. apply get_Val in E. destruct E as [-> ->].
  apply sim_same. intros o s1 E. apply lift_Val in E. destruct E as [Eo ->]. apply nth_res_Ok in Eo.
  apply sim_same. intros amount s1 E. apply lift_Val in E. destruct E as [Ea ->].
  apply sim_same. intros asset s1 E. apply lift_Val in E. destruct E as [Es ->].
  apply sim_same; intros b s1 Eb; assert (Et := f_equal (fun x => s_tx (snd x)) Eb); cbv beta in Et; rewrite draw256_tx in Et; cbn [snd] in Et; rewrite Et in *; clear Et Eb.
  apply sim_same; intros ab s2 Eb; assert (Et := f_equal (fun x => s_tx (snd x)) Eb); cbv beta in Et; rewrite draw256_tx in Et; cbn [snd] in Et; rewrite Et in *; clear Et Eb.
  apply to_amount_explicit in Ea. apply to_asset_explicit in Es.
  rewrite !same_result. destruct (_ =? _)%nat.
  - destruct (_ && _); [apply sim_refl|]. apply sim_same. intros ob s3 E. apply (keeps_eq _ _ _ _ (keeps_balance _ _)) in E. subst s3.
    destruct ob; [|apply sim_refl]. apply (finish_sim t _ _ _ _ _ _ _ _ _ o); assumption.
  - apply (finish_sim t _ _ _ _ _ _ _ _ _ o); assumption.
Qed.

Lemma sim_Val {A} P (m m' : M A) s a s1 : sim P m m' s -> m s = (Val a, s1) -> m' s = (Val a, s1).
Proof. intros [E|(e & s' & E & _)] V; congruence. Qed.
Lemma sim_Ret {A} P (m m' : M A) s a s1 : sim P m m' s -> m s = (Ret a, s1) -> m' s = (Ret a, s1).
Proof. intros [E|(e & s' & E & _)] V; congruence. Qed.
Lemma loc_Val {A} PA PB (m : M A) s o s1 : loc PA PB m s -> m s = (o, s1) -> Only (s_tx s) (s_tx s1) PA PB.
Proof. unfold loc. intros H E. rewrite E in H. exact H. Qed.

Lemma SameIn_refl t i ps : SameIn t t i ps. Proof. split; reflexivity. Qed.
Lemma SameIn_trans t1 t2 t3 i ps : SameIn t1 t2 i ps -> SameIn t2 t3 i ps -> SameIn t1 t3 i ps.
Proof. intros [A1 B1] [A2 B2]. split; congruence. Qed.
Lemma SameOut_trans t1 t2 t3 j : SameOut t1 t2 j -> SameOut t2 t3 j -> SameOut t1 t3 j.
Proof. intros [A1 B1] [A2 B2]. split; congruence. Qed.

Definition NoOther : Prop := ~ In KOther (y_asset_keys y) /\ ~ In KOther (y_token_keys y).
Lemma no_other (n : nat) (ps : bool) : NoOther -> forall k, nth n (if ps then y_token_keys y else y_asset_keys y) KNone = k -> k <> KOther.
Proof.
  intros [NA NT] k E ->. destruct ps; (destruct (nth_in_or_default n (if (true : bool) then y_token_keys y else y_asset_keys y) KNone) as [I|D]; [|]); cbn in *;
  try (rewrite E in *; first [contradiction|discriminate|tauto]).
  - destruct (nth_in_or_default n (y_asset_keys y) KNone) as [I1|D1]; rewrite E in *; [contradiction|discriminate].
  - destruct (nth_in_or_default n (y_asset_keys y) KNone) as [I1|D1]; rewrite E in *; [contradiction|discriminate].
Qed.

Lemma input_sim t n L s : NoOther -> (forall ps, SameIn t (s_tx s) n ps) ->
  sim (Late t) (blind_input_dyn z rand y n L) (blind_input z rand args n L) s.
Proof.
  intros NO H. unfold blind_input_dyn, blind_input.
  assert (S1 := pseudo_sim t n false L s (no_other n false NO) (H false)).
  apply sim_bind; [exact S1|]. intros L1 s1 E. apply pseudo_sim; [exact (no_other n true NO)|].
  apply (SameIn_trans _ (s_tx s)); [apply H|]. destruct (loc_Val _ _ _ _ _ _ (loc_pseudo n false L s) (sim_Val _ _ _ _ _ _ S1 E)) as [O _].
  apply O. intros [_ X]. discriminate.
Qed.
Lemma input_loc t n L s L1 s1 : NoOther -> (forall ps, SameIn t (s_tx s) n ps) -> blind_input_dyn z rand y n L s = (Val L1, s1) ->
  Only (s_tx s) (s_tx s1) (fun i _ => i = n) (fun _ => False).
Proof.
  intros NO H E. apply (sim_Val _ _ _ _ _ _ (input_sim t n L s NO H)) in E. unfold blind_input in E. apply bind_Val in E. destruct E as (L2 & s2 & E1 & E2).
  apply (loc_Val _ _ _ _ _ _ (loc_pseudo _ _ _ _)) in E1. apply (loc_Val _ _ _ _ _ _ (loc_pseudo _ _ _ _)) in E2.
  destruct E1 as [I1 O1], E2 as [I2 O2]. split; intros.
  - apply (SameIn_trans _ (s_tx s2)); [apply I1|apply I2]; tauto.
  - apply (SameOut_trans _ (s_tx s2)); [apply O1|apply O2]; tauto.
Qed.

Definition acts_dyn (tags gens blinders : list bytes) (L : Loc) : M blind_ret :=
  mbind get_tx (fun t =>
  mbind (for_in (seq 0 (length (vin t))) (blind_input_dyn z rand y) L) (fun L =>
  mbind get_tx (fun t =>
  mbind (put_tx (set_outwits t (pad_to (length (vout t)) outwit_null (vtxoutwit (wit t))))) (fun _ =>
  mbind (for_in (combine (seq 0 (length (a_pubkeys args))) (a_pubkeys args)) (blind_output_dyn z rand y tags gens blinders) L) (fun L =>
  mret (blinding_result args L)))))).

Lemma pubs_nodup {A} (l : list A) : forall k, NoDup (map fst (combine (seq k (length l)) l)).
Proof.
  induction l as [|x l IH]; intros k; cbn; [constructor|]. constructor; [|apply IH].
  intros I. apply in_map_iff in I. destruct I as ([i b] & E & I). cbn in E. subst i. apply in_combine_l, in_seq in I. lia.
Qed.

Lemma acts_sim t tags gens blinders L s : s_tx s = t -> NoOther -> sim (Late t) (acts_dyn tags gens blinders L) (blind_acts z rand args tags gens blinders L) s.
Proof.
  intros ET NO. unfold acts_dyn, blind_acts.
  apply sim_same. intros t0 s1 E. apply get_Val in E. destruct E as [-> ->].
  pose (I := fun (l : list nat) (s1 : St) => NoDup l /\ (forall i ps, In i l -> SameIn t (s_tx s1) i ps) /\ forall j, SameOut t (s_tx s1) j).
  assert (STEP : forall x l st s1, I (x :: l) s1 ->
    sim (Late t) (blind_input_dyn z rand y x st) (blind_input z rand args x st) s1 /\ forall st' s', blind_input_dyn z rand y x st s1 = (Val st', s') -> I l s').
  { intros x l st s1 (ND & HI & HO). assert (HX : forall ps, SameIn t (s_tx s1) x ps) by (intros; apply HI; left; reflexivity).
    split; [apply input_sim; assumption|]. intros st' s' E. apply (input_loc t) in E; [|assumption|assumption]. destruct E as [OI OO].
    inversion ND as [|? ? NX ND']; subst. split; [exact ND'|]. split.
    - intros i ps Ii. apply (SameIn_trans _ (s_tx s1)); [apply HI; right; exact Ii|]. apply OI. intros ->. contradiction.
    - intros j. apply (SameOut_trans _ (s_tx s1)); [apply HO|apply OO; tauto]. }
  apply sim_bind.
  { apply (sim_for _ I); [|exact STEP]. split; [apply seq_NoDup|]. rewrite ET. split; intros; split; reflexivity. }
  intros L1 s1 E. assert (HO : forall j, SameOut t (s_tx s1) j).
  { assert (G : forall l st s0 L2 s2, I l s0 -> for_in l (blind_input_dyn z rand y) st s0 = (Val L2, s2) -> forall j, SameOut t (s_tx s2) j).
    { induction l as [|x l IH]; intros st s0 L2 s2 HI E0; cbn [for_in] in E0; [apply mret_Val in E0; destruct E0 as [_ ->]; apply HI|].
      apply bind_Val in E0. destruct E0 as (L3 & s3 & E1 & E2). apply (IH L3 s3 L2 s2); [|exact E2]. exact (proj2 (STEP x l st s0 HI) _ _ E1). }
    apply (G _ _ _ _ _ ltac:(split; [apply seq_NoDup|rewrite ET; split; intros; split; reflexivity]) E). }
  apply sim_same. intros t1 s2 E1. apply get_Val in E1. destruct E1 as [-> ->].
  apply sim_same. intros u s2 E1. apply put_Val in E1. subst s2.
  apply sim_bind; [|intros; apply sim_refl].
  apply (sim_for _ (fun l s1 => NoDup (map fst l) /\ forall j, In j (map fst l) -> SameOut t (s_tx s1) j)).
  - split; [apply pubs_nodup|]. intros j _. apply (SameOut_trans _ (s_tx s1)); [apply HO|]. split; [reflexivity|]. apply (nth_pado _ (s_tx s1)).
  - intros [n pub] l st s2 [ND H]. assert (S1 := output_sim t tags gens blinders n pub st s2 (H n ltac:(left; reflexivity))).
    split; [exact S1|]. intros st' s' V. apply (sim_Val _ _ _ _ _ _ S1) in V. apply (loc_Val _ _ _ _ _ _ (loc_output _ _ _ _ _ _ _)) in V. destruct V as [_ O].
    cbn [map fst] in ND. inversion ND as [|? ? NX ND']; subst. split; [exact ND'|]. intros j Ij. apply (SameOut_trans _ (s_tx s2)); [apply H; right; exact Ij|].
    apply O. intros ->. contradiction.
Qed.

(** ** The checks at the start *)
Lemma each_cases {A} (check : A -> res unit) l : (each check l = Ok tt /\ forall x, In x l -> check x = Ok tt)
  \/ exists x e, In x l /\ check x = Raise e /\ each check l = Raise e.
Proof.
  induction l as [|x l IH]; cbn [each]; [left; split; [reflexivity|intros ? []]|]. destruct (check x) as [[]|e] eqn:E; cbn [rbind].
  - destruct IH as [[E1 H]|(x0 & e & I & E1 & E2)].
    + left. split; [exact E1|]. intros x0 [->|I]; [exact E|apply H; exact I].
    + right. exists x0, e. split; [right; exact I|auto].
  - right. exists x, e. split; [left; reflexivity|auto].
Qed.
Lemma ensure_desc_ok d : ensure_desc d = Ok tt <-> Sound d.
Proof.
  unfold Sound. split.
  - destruct d as [[a|] [b|] [c|] [e|]|]; cbn; try discriminate. eauto.
  - intros (a & b & c & e & ->). reflexivity.
Qed.
Lemma check_dyn_cases t : (check_dyn y t = Ok tt /\ ~ WrongType y /\ ~ WrongCount y t)
  \/ exists e, check_dyn y t = Raise e /\ ((e = EType /\ WrongType y) \/ (e = EValue /\ WrongCount y t) \/ (e = EAttribute /\ In NotDesc (y_descs y))).
Proof.
  unfold check_dyn, WrongCount, WrongType.
  assert (KO : forall l e x, In x l -> ensure_key x = Raise e -> In KOther l /\ e = EType).
  { intros l e x I E. destruct x; cbn in E; try discriminate. injection E as <-. auto. }
  destruct (Nat.leb_spec (length (y_pubkeys y)) (length (vout t))) as [L1|L1]; cbn [negb value_if rbind]; [|right; exists EValue; auto 10].
  destruct (each_cases ensure (y_pubkeys y)) as [[-> P1]|(x & e & I & E & ->)]; cbn [rbind];
    [|destruct x; [discriminate|]; injection E as <-; right; exists EType; auto 10].
  destruct (Nat.leb_spec (length (y_asset_keys y)) (length (vin t))) as [L2|L2]; cbn [negb value_if rbind]; [|right; exists EValue; auto 10].
  destruct (each_cases ensure_key (y_asset_keys y)) as [[-> P2]|(x & e & I & E & ->)]; cbn [rbind];
    [|destruct (KO _ _ _ I E) as [I1 ->]; right; exists EType; auto 10].
  destruct (Nat.leb_spec (length (y_token_keys y)) (length (vin t))) as [L3|L3]; cbn [negb value_if rbind]; [|right; exists EValue; auto 10].
  destruct (each_cases ensure_key (y_token_keys y)) as [[-> P3]|(x & e & I & E & ->)]; cbn [rbind];
    [|destruct (KO _ _ _ I E) as [I1 ->]; right; exists EType; auto 10].
  destruct (Nat.eqb_spec (length (vin t)) (length (y_descs y))) as [L4|L4]; cbn [negb value_if rbind]; [|right; exists EValue; auto 10].
  destruct (each_cases ensure_desc (y_descs y)) as [[-> P4]|(x & e & I & E & ->)]; cbn [rbind].
  2: { right. exists e. split; [reflexivity|]. assert (NS : ~ Sound x) by (intros S; apply ensure_desc_ok in S; congruence).
       destruct x as [[a|] [b|] [c|] [d|]|]; cbn in E; try discriminate; injection E as <-; [left; split; [reflexivity|]; right; right; right; left; eauto ..|auto]. }
  assert (NB : ~ In Bad (y_pubkeys y)) by (intros X; apply P1 in X; discriminate).
  assert (NA : ~ In KOther (y_asset_keys y)) by (intros X; apply P2 in X; discriminate).
  assert (NT : ~ In KOther (y_token_keys y)) by (intros X; apply P3 in X; discriminate).
  assert (ND : ~ exists d, In d (y_descs y) /\ ~ Sound d) by (intros (d & Id & S); apply S, ensure_desc_ok, P4, Id).
  destruct (y_aux y) as [|a0 al] eqn:EA.
  { left. split; [reflexivity|]. split; [intros [X|[X|[X|[X|[]]]]]; contradiction|]. intros [X|[X|[X|[X|[X _]]]]]; try lia. apply X. reflexivity. }
  rewrite <- EA in *. assert (NE : y_aux y <> []) by congruence. clear EA a0 al.
  destruct (Nat.leb_spec (length (vin t)) (length (y_aux y))) as [L5|L5]; cbn [negb value_if rbind]; [|right; exists EValue; auto 12].
  destruct (each_cases ensure_aux (y_aux y)) as [[-> P5]|(x & e & I & E & ->)].
  - left. split; [reflexivity|]. split.
    + intros [X|[X|[X|[X|X]]]]; try contradiction. apply P5 in X. discriminate.
    + intros [X|[X|[X|[X|[_ [X|(g & Ig & N)]]]]]]; try lia. apply P5 in Ig. cbn in Ig. destruct (Z.eqb_spec (blen g) 33); [contradiction|discriminate].
  - right. exists e. split; [reflexivity|]. destruct x as [g|]; cbn in E.
    + destruct (Z.eqb_spec (blen g) 33) as [|N]; [discriminate|]. injection E as <-. right; left. split; [reflexivity|]. right; right; right; right. split; [exact NE|]. right. eauto.
    + injection E as <-. left. auto 10.
Qed.
Lemma wrong_count t : ~ In Bad (y_aux y) -> ~ WrongCount y t -> ~ bad_arguments args t.
Proof.
  unfold WrongCount, bad_arguments, args, args_of. cbn. rewrite !map_length. intros NB N [X|[X|[X|[X|[X [Y|(g & Ig & Ng)]]]]]]; apply N; auto 10.
  - right; right; right; right. split; [intros E; apply X; rewrite E; reflexivity|]. left. exact Y.
  - right; right; right; right. split; [intros E; apply X; rewrite E; reflexivity|]. right. apply in_map_iff in Ig. destruct Ig as ([g'|] & Eg & Ig); [|contradiction].
    cbn in Eg. subst g'. eauto.
Qed.

(** ** The whole function *)
Lemma mbind_cong {A B} (m m' : M A) (k k' : A -> M B) s : m s = m' s -> (forall a s1, m' s = (Val a, s1) -> k a s1 = k' a s1) -> mbind m k s = mbind m' k' s.
Proof. intros E H. unfold mbind. rewrite E. destruct (m' s) as [[a|r|e] s1]; auto. Qed.
Lemma body_dyn_split s : check_dyn y (s_tx s) = Ok tt -> ~ bad_arguments args (s_tx s) -> blind_body_dyn z rand y s = blind_looks z args acts_dyn s.
Proof.
  intros C NB. unfold blind_body_dyn, blind_looks.
  match goal with |- mbind get_tx ?k s = ?r => change (k (s_tx s) s = r) end. cbv beta. rewrite C.
  assert (LK := like_of [] w y : Like (args_of [] y) args).
  destruct (check_cases args s) as [[X _]|[_ E]]; [contradiction|].
  apply mbind_cong; [rewrite E; reflexivity|]. intros u s1 E1. rewrite E in E1. injection E1 as <- <-. clear E.
  apply mbind_cong; [apply like_targets, LK|]. intros [[tags gens] blinders] s1 E. apply (keeps_eq _ _ _ _ (keeps_targets _ _)) in E. subst s1. cbv zeta.
  apply mbind_cong; [reflexivity|]. intros t s1 E. apply get_Val in E. destruct E as [-> ->].
  apply mbind_cong; [apply for_ext; intros; apply like_count, LK|]. intros L1 s1 E. apply (keeps_eq _ _ _ _ (keeps_for _ _ (keeps_count_input args) _)) in E. subst s1.
  apply mbind_cong; [reflexivity|]. intros L2 s1 E. apply (keeps_eq _ _ _ _ (keeps_for _ _ (keeps_count_output z) _)) in E. subst s1. reflexivity.
Qed.
Lemma looks_sim P k k' s : (forall tags gens blinders L, sim P (k tags gens blinders L) (k' tags gens blinders L) s) -> sim P (blind_looks z args k) (blind_looks z args k') s.
Proof.
  intros H. unfold blind_looks.
  apply sim_same. intros u s1 E. apply (keeps_eq _ _ _ _ (keeps_check _)) in E. subst s1.
  apply sim_same. intros [[tags gens] blinders] s1 E. apply (keeps_eq _ _ _ _ (keeps_targets _ _)) in E. subst s1.
  apply sim_same. intros t s1 E. apply get_Val in E. destruct E as [-> ->].
  apply sim_same. intros L1 s1 E. apply (keeps_eq _ _ _ _ (keeps_for _ _ (keeps_count_input args) _)) in E. subst s1.
  apply sim_same. intros L2 s1 E. apply (keeps_eq _ _ _ _ (keeps_for _ _ (keeps_count_output z) _)) in E. subst s1. apply H.
Qed.
Lemma not_wrong t : ~ WrongType y -> ~ WrongCount y t -> NoOther /\ check_dyn y t = Ok tt /\ ~ bad_arguments args t.
Proof.
  intros NT NC. split; [split; intros X; apply NT; unfold WrongType; auto|]. split.
  - destruct (check_dyn_cases t) as [[E _]|(e & _ & [[_ X]|[[_ X]|[_ X]]])]; [exact E|contradiction|contradiction|].
    exfalso. apply NT. right; right; right; left. exists NotDesc. split; [exact X|]. intros (a & b & c & d & Y). discriminate.
  - apply wrong_count; [|exact NC]. intros X. apply NT. unfold WrongType. auto.
Qed.
Lemma dyn_late t : ~ WrongType y -> ~ WrongCount y t ->
  blind_dyn z rand y t = blind_transaction z rand args t \/ exists e s, blind_dyn z rand y t = (Exc e, s) /\ Late t e s.
Proof.
  intros NT NC. destruct (not_wrong t NT NC) as (NO & C & NB). unfold blind_dyn, blind_transaction.
  rewrite (body_dyn_split (mkSt t 0) C NB), body_split.
  destruct (looks_sim (Late t) acts_dyn (blind_acts z rand args) (mkSt t 0)) as [-> |(e & s & E & H)].
  - intros. apply acts_sim; [reflexivity|exact NO].
  - left. reflexivity.
  - right. exists e, s. rewrite E. auto.
Qed.
Lemma dyn_early t : WrongType y \/ WrongCount y t -> exists e, blind_dyn z rand y t = (Exc e, mkSt t 0)
  /\ ((e = EType /\ WrongType y) \/ (e = EValue /\ WrongCount y t) \/ (e = EAttribute /\ In NotDesc (y_descs y))).
Proof.
  intros H. destruct (check_dyn_cases t) as [(_ & N1 & N2)|(e & E & X)]; [tauto|]. exists e. split; [|exact X].
  unfold blind_dyn, blind_body_dyn. match goal with |- context [mbind get_tx ?k ?s] => change (mbind get_tx k s) with (k (s_tx s) s) end. cbv beta. cbn [s_tx]. rewrite E. reflexivity.
Qed.

(** ** No effect *)
Lemma Still_refl t : Still t t. Proof. repeat split. Qed.
Lemma Still_trans t1 t2 t3 : Still t1 t2 -> Still t2 t3 -> Still t1 t3.
Proof. intros (A1 & B1 & C1 & D1 & E1 & F1) (A2 & B2 & C2 & D2 & E2 & F2). repeat split; try congruence. all: rewrite D2; apply D1. Qed.
Definition raises {A} (m : M A) (s : St) : Prop := exists e s', m s = (Exc e, s').
Lemma raises_bind {A B} (m : M A) (k : A -> M B) s : noret m -> (forall a s1, m s = (Val a, s1) -> raises (k a) s1) -> raises (mbind m k) s.
Proof. intros N H. unfold raises, mbind. destruct (m s) as [[a|r|e] s1] eqn:E; [exact (H a s1 eq_refl)|exfalso; exact (N _ _ _ E)|eauto]. Qed.
Lemma raises_first {A B} (m : M A) (k : A -> M B) s : raises m s -> raises (mbind m k) s.
Proof. intros (e & s' & E). exists e, s'. unfold mbind. rewrite E. reflexivity. Qed.
Lemma rp_raises a b c d e f g h s : WrongParameter y -> raises (generate_rangeproof_dyn z y a b c d e f g h) s.
Proof.
  intros W. unfold generate_rangeproof_dyn. cbv zeta.
  apply raises_bind; [noret|intros]. apply raises_bind; [noret|intros]. apply raises_bind; [noret|intros]. apply raises_bind; [noret|intros].
  destruct W as [-> | ->]; cbn [ct_param lift]; [eexists; eexists; reflexivity|]. apply raises_bind; [noret|intros]. eexists; eexists; reflexivity.
Qed.
Definition calm (n : nat) (m : M Loc) (s : St) : Prop :=
  match m s with
  | (Val L', s') => l_success L' = n /\ Still (s_tx s) (s_tx s')
  | (Ret r, s') => Still (s_tx s) (s_tx s') /\ exists L1, r = blinding_result args L1 /\ (l_success L1 <= S n)%nat
  | (Exc _, _) => True
  end.
Lemma calm_bind {A} n (m : M A) (k : A -> M Loc) s : noret m -> s_tx (snd (m s)) = s_tx s -> (forall a s1, m s = (Val a, s1) -> calm n (k a) s1) -> calm n (mbind m k) s.
Proof.
  intros N T H. unfold calm, mbind in *. destruct (m s) as [[a|r|e] s1] eqn:E; [|exfalso; exact (N _ _ _ E)|exact I].
  cbn [snd] in T. specialize (H a s1 eq_refl). rewrite T in H. exact H.
Qed.
Lemma calm_raises n m s : raises m s -> calm n m s. Proof. intros (e & s' & E). unfold calm. rewrite E. exact I. Qed.
Lemma calm_mret n L s : l_success L = n -> calm n (mret L) s. Proof. intros E. split; [exact E|apply Still_refl]. Qed.
Lemma calm_mreturn n L s : (l_success L <= S n)%nat -> calm n (mreturn (blinding_result args L)) s.
Proof. intros E. split; [apply Still_refl|eauto]. Qed.
Lemma keeps_tx {A} (m : M A) s : keeps m -> s_tx (snd (m s)) = s_tx s. Proof. intros K. rewrite K. reflexivity. Qed.

Lemma calm_pseudo n ps L s : WrongParameter y \/ falsy_key y (n, ps) -> calm (l_success L) (blind_pseudo_dyn z rand y n ps L) s.
Proof.
  intros W. unfold blind_pseudo_dyn. unfold falsy_key in W. cbn [fst snd] in W. rewrite same_result || idtac.
  destruct (nth n _ KNone) as [|key| |] eqn:EK; [apply calm_mret; reflexivity| | |]; cbv zeta.
  all: apply calm_bind; [noret|reflexivity|intros t0 s1 _].
  all: apply calm_bind; [noret|apply keeps_tx, keeps_lift|intros inp s2 _].
  all: destruct (conf_is_null _); [apply calm_mret; reflexivity|].
  all: apply calm_bind; [noret|apply keeps_tx, keeps_lift|intros amount s3 _].
  all: apply calm_bind; [noret|apply keeps_tx; keeps|intros [asset|] s4 _]; [|apply calm_mret; reflexivity].
  all: apply calm_bind; [apply noret_draw256|apply draw256_tx|intros b s5 _].
  all: destruct (_ =? _)%nat; [rewrite same_result; apply calm_mreturn; cbn; lia|].
  all: apply calm_raises.
  all: apply raises_bind; [noret|intros t1 s6 _]; apply raises_bind; [noret|intros u s7 _]; apply raises_bind; [apply noret_blinded_asset|intros ag s8 _].
  all: apply raises_bind; [apply noret_cvc|intros [cv c] s9 _]; apply raises_bind; [apply noret_mod_vin|intros u1 s10 _].
  - destruct W as [W|W]; [|discriminate]. apply raises_bind; [noret|intros]. apply raises_bind; [noret|intros]. apply raises_first, rp_raises, W.
  - eexists; eexists; reflexivity.
  - eexists; eexists; reflexivity.
Qed.
Lemma calm_finish tags gens blinders n pub asset amount L s : WrongParameter y -> raises (finish_output_dyn z rand y tags gens blinders n pub asset amount L) s.
Proof.
  intros W. unfold finish_output_dyn. cbv zeta.
  apply raises_bind; [noret|intros b s1 _]. apply raises_bind; [noret|intros ab s2 _]. apply raises_bind; [apply noret_blinded_asset|intros [ca g] s3 _].
  apply raises_bind; [apply noret_mod_vout|intros u s4 _]. apply raises_bind; [apply noret_cvc|intros [cv c] s5 _]. apply raises_bind; [apply noret_mod_vout|intros u1 s6 _].
  apply raises_bind; [apply noret_nonce|intros [nc e] s7 _]. apply raises_bind; [noret|intros]. apply raises_bind; [apply noret_mod_vout|intros]. apply raises_bind; [noret|intros].
  apply raises_bind; [noret|intros]. apply raises_first, rp_raises, W.
Qed.
Lemma calm_output tags gens blinders n pub L s : WrongParameter y -> calm (l_success L) (blind_output_dyn z rand y tags gens blinders (n, pub) L) s.
Proof.
  intros W. unfold blind_output_dyn. destruct (negb _); [apply calm_mret; reflexivity|]. cbv zeta.
  apply calm_bind; [noret|reflexivity|intros t0 s1 _].
  apply calm_bind; [noret|apply keeps_tx, keeps_lift|intros o s2 _].
  apply calm_bind; [noret|apply keeps_tx, keeps_lift|intros amount s3 _].
  apply calm_bind; [noret|apply keeps_tx, keeps_lift|intros asset s4 _].
  apply calm_bind; [apply noret_draw256|apply draw256_tx|intros b s5 _].
  apply calm_bind; [apply noret_draw256|apply draw256_tx|intros ab s6 _].
  destruct (_ =? _)%nat; [|apply calm_raises, calm_finish, W].
  destruct (_ && _); [rewrite same_result; apply calm_mreturn; cbn; lia|].
  apply calm_bind; [apply noret_balance|apply keeps_tx, keeps_balance|intros [b'|] s7 _]; [apply calm_raises, calm_finish, W|].
  rewrite same_result. apply calm_mreturn. cbn. lia.
Qed.
Lemma calm_seq (m : M Loc) (k : Loc -> M Loc) n s : calm n m s -> (forall L1 s1, l_success L1 = n -> calm n (k L1) s1) -> calm n (mbind m k) s.
Proof.
  intros H K. unfold calm, mbind in *. destruct (m s) as [[L1|r|e] s1]; try exact H. destruct H as [H1 H2]. specialize (K L1 s1 H1).
  destruct (k L1 s1) as [[L2|r|e] s2]; [|..|exact I].
  - destruct K as [K1 K2]. split; [exact K1|]. exact (Still_trans _ _ _ H2 K2).
  - destruct K as [K1 K2]. split; [|exact K2]. exact (Still_trans _ _ _ H2 K1).
Qed.
Lemma calm_for {A} (l : list A) (body : A -> Loc -> M Loc) : (forall x L s, calm (l_success L) (body x L) s) -> forall L s, calm (l_success L) (for_in l body L) s.
Proof.
  intros H. induction l as [|x l IH]; intros L s; cbn [for_in]; [apply calm_mret; reflexivity|].
  apply calm_seq; [apply H|]. intros L1 s1 <-. apply IH.
Qed.
Lemma looks_zero k s o s' : blind_looks z args k s = (o, s') ->
  (exists tags gens blinders L, l_success L = 0%nat /\ k tags gens blinders L s = (o, s'))
  \/ s' = s /\ match o with Val _ => False | Ret r => exists f, r = BFailure f | Exc _ => True end.
Proof.
  intros E. destruct (looks_cases z args k s o s' E) as [(tags & gens & blinders & L & E1 & _ & _ & L0 & C1 & C2)|X]; [left|right; exact X].
  exists tags, gens, blinders, L. split; [|exact E1]. clear E E1.
  assert (G1 : forall l L1 s1 L2 s2, for_in l (count_input args) L1 s1 = (Val L2, s2) -> l_success L2 = l_success L1).
  { induction l as [|x l IH]; intros L1 s1 L2 s2 F; cbn [for_in] in F; [apply mret_Val in F; destruct F as [-> _]; reflexivity|].
    apply bind_Val in F. destruct F as (L3 & s3 & F1 & F2). rewrite (IH _ _ _ _ F2). clear F2 IH.
    unfold count_input in F1.
    apply bind_Val in F1. destruct F1 as (d & s4 & _ & F1). apply bind_Val in F1. destruct F1 as (t & s5 & _ & F1). apply bind_Val in F1. destruct F1 as (L4 & s6 & F2 & F1).
    assert (L_4 : l_success L4 = l_success L1) by (destruct (_ || _); [destruct (_ <? _); [discriminate|]|]; apply mret_Val in F2; destruct F2 as [-> _]; reflexivity).
    apply bind_Val in F1. destruct F1 as (inp & s7 & _ & F1). cbv zeta in F1. destruct (issuance_is_null _); [apply mret_Val in F1; destruct F1 as [-> _]; exact L_4|].
    apply bind_Val in F1. destruct F1 as (L5 & s8 & F3 & F1). rewrite <- L_4.
    assert (L_5 : l_success L5 = l_success L4) by (destruct (key_at _ x) in F3; [do 2 (destruct (_ : bool) in F3; [discriminate|])|]; apply mret_Val in F3; destruct F3 as [-> _]; reflexivity).
    rewrite <- L_5. destruct (key_at _ x) in F1; [do 2 (destruct (_ : bool) in F1; [discriminate|])|]; apply mret_Val in F1; destruct F1 as [-> _]; reflexivity. }
  assert (G2 : forall l L1 s1 L2 s2, for_in l (count_output z) L1 s1 = (Val L2, s2) -> l_success L2 = l_success L1).
  { induction l as [|[n p] l IH]; intros L1 s1 L2 s2 F; cbn [for_in] in F; [apply mret_Val in F; destruct F as [-> _]; reflexivity|].
    apply bind_Val in F. destruct F as (L3 & s3 & F1 & F2). rewrite (IH _ _ _ _ F2). clear F2 IH. unfold count_output in F1.
    destruct (negb (is_nonempty _)); [apply mret_Val in F1; destruct F1 as [-> _]; reflexivity|]. destruct (negb _); [discriminate|].
    apply bind_Val in F1. destruct F1 as (t & s5 & _ & F1). apply bind_Val in F1. destruct F1 as (o1 & s6 & _ & F1).
    do 4 (destruct (_ : bool) in F1; [discriminate|]). apply mret_Val in F1. destruct F1 as [-> _]. reflexivity. }
  rewrite (G2 _ _ _ _ _ C2), (G1 _ _ _ _ _ C1). reflexivity.
Qed.

Lemma dyn_Ret_not_wrong t r s : blind_dyn z rand y t = (Ret r, s) -> ~ WrongType y /\ ~ WrongCount y t.
Proof.
  intros E. split; intros X; (destruct (dyn_early t) as (e & E1 & _); [tauto|congruence]).
Qed.
Lemma dyn_Ret_acts t r s : blind_dyn z rand y t = (Ret r, s) ->
  NoOther /\ ((s = mkSt t 0 /\ exists f, r = BFailure f)
  \/ exists tags gens blinders L, l_success L = 0%nat /\ (acts_dyn tags gens blinders L (mkSt t 0) = (Val r, s) \/ acts_dyn tags gens blinders L (mkSt t 0) = (Ret r, s))).
Proof.
  intros E. destruct (dyn_Ret_not_wrong t r s E) as [NT NC]. destruct (not_wrong t NT NC) as (NO & C & NB). split; [exact NO|].
  unfold blind_dyn in E. rewrite (body_dyn_split (mkSt t 0) C NB) in E.
  destruct (blind_looks z args acts_dyn (mkSt t 0)) as [o s1] eqn:EL. destruct (looks_zero _ _ _ _ EL) as [(tags & gens & blinders & L & Z & A)|[-> X]].
  - right. exists tags, gens, blinders, L. split; [exact Z|]. destruct o as [r0|r0|e]; [| |discriminate]; injection E as -> ->; auto.
  - left. destruct o as [r0|r0|e]; [destruct X| |discriminate]. injection E as -> <-. auto.
Qed.

Lemma dyn_no_effect t r s : WrongParameter y -> blind_dyn z rand y t = (Ret r, s) ->
  Still t (s_tx s) /\ forall n a b, r = BSuccess n a b -> (n <= 1)%nat.
Proof.
  intros W E. destruct (dyn_Ret_acts t r s E) as [NO [[-> [f ->]]|(tags & gens & blinders & L & Z & A)]]; [split; [apply Still_refl|discriminate]|].
  assert (RES : forall L1, (l_success L1 <= 1)%nat -> forall n a b, blinding_result args L1 = BSuccess n a b -> (n <= 1)%nat).
  { intros L1 H n a b X. unfold blinding_result in X. destruct (_ && _); [discriminate|]. injection X as <- _ _. exact H. }
  unfold acts_dyn in A. match type of A with mbind get_tx ?k ?s0 = _ \/ _ => change (k (s_tx s0) s0 = (Val r, s) \/ k (s_tx s0) s0 = (Ret r, s)) in A end. cbv beta in A. cbn [s_tx] in A.
  assert (CI : forall x L s, calm (l_success L) (blind_input_dyn z rand y x L) s).
  { intros x L1 s1. unfold blind_input_dyn. apply calm_seq; [apply calm_pseudo; auto|]. intros L2 s2 <-. apply calm_pseudo. auto. }
  assert (C1 := calm_for (seq 0 (length (vin t))) _ CI L (mkSt t 0)). unfold calm in C1. unfold mbind at 1 in A. unfold mbind at 4 in A.
  destruct (for_in (seq 0 (length (vin t))) (blind_input_dyn z rand y) L (mkSt t 0)) as [[L1|r1|e] s1].
  2: { destruct A as [A|A]; [discriminate|]. injection A as -> ->. destruct C1 as [ST (L1 & -> & H)]. split; [exact ST|]. apply RES. lia. }
  2: { destruct A; discriminate. }
  destruct C1 as [Z1 ST1].
  match type of A with mbind get_tx ?k ?s0 = _ \/ _ => change (k (s_tx s0) s0 = (Val r, s) \/ k (s_tx s0) s0 = (Ret r, s)) in A end. cbv beta in A.
  match type of A with mbind (put_tx ?t1) ?k ?s0 = _ \/ _ => change (k tt (mkSt t1 (s_draws s0)) = (Val r, s) \/ k tt (mkSt t1 (s_draws s0)) = (Ret r, s)) in A end. cbv beta in A.
  set (s2 := mkSt (set_outwits (s_tx s1) _) (s_draws s1)) in A.
  assert (ST2 : Still t (s_tx s2)).
  { apply (Still_trans _ _ _ ST1). unfold s2. repeat split. intros j. apply (nth_pado _ (s_tx s1)). }
  assert (CO : forall x L s, calm (l_success L) (blind_output_dyn z rand y tags gens blinders x L) s) by (intros [n p] L2 s3; apply calm_output, W).
  assert (C2 := calm_for (combine (seq 0 (length (a_pubkeys args))) (a_pubkeys args)) _ CO L1 s2). unfold calm in C2. unfold mbind at 1 2 in A.
  destruct (for_in _ (blind_output_dyn z rand y tags gens blinders) L1 s2) as [[L2|r1|e] s3].
  - destruct C2 as [Z2 ST3]. destruct A as [A|A]; [|discriminate]. unfold mret in A. injection A as <- <-. split; [exact (Still_trans _ _ _ ST2 ST3)|]. apply RES. lia.
  - destruct A as [A|A]; [discriminate|]. injection A as -> ->. destruct C2 as [ST3 (L2 & -> & H)]. split; [exact (Still_trans _ _ _ ST2 ST3)|]. apply RES. lia.
  - destruct A; discriminate.
Qed.

(** One issuance is left alone by all that returns. *)
Definition spares {A} (i : nat) (ps : bool) (m : M A) (s : St) : Prop := match m s with (Exc _, _) => True | (_, s') => SameIn (s_tx s) (s_tx s') i ps end.
Lemma spares_bind {A B} i ps (m : M A) (k : A -> M B) s : spares i ps m s -> (forall a s1, m s = (Val a, s1) -> spares i ps (k a) s1) -> spares i ps (mbind m k) s.
Proof.
  intros H K. unfold spares, mbind in *. destruct (m s) as [[a|r|e] s1] eqn:E; try exact H. specialize (K a s1 eq_refl).
  destruct (k a s1) as [[b|r|e] s2]; try exact I; exact (SameIn_trans _ _ _ _ _ H K).
Qed.
Lemma spares_for {A L} i ps (l : list A) (body : A -> L -> M L) : (forall x st s, spares i ps (body x st) s) -> forall st s, spares i ps (for_in l body st) s.
Proof.
  intros H. induction l as [|x l IH]; intros st s; cbn [for_in]; [apply SameIn_refl|]. apply spares_bind; [apply H|]. intros. apply IH.
Qed.
Lemma spares_pseudo i ps n p L s : NoOther -> falsy_key y (i, ps) -> spares i ps (blind_pseudo_dyn z rand y n p L) s.
Proof.
  intros NO F. assert (D : (n = i /\ p = ps) \/ ~ (i = n /\ ps = p)) by (destruct (Nat.eq_dec n i), (Bool.bool_dec p ps); intuition congruence).
  unfold spares. destruct D as [[-> ->]|N].
  - assert (C := calm_pseudo i ps L s (or_intror F)). unfold calm in C.
    assert (SS : forall t', Still (s_tx s) t' -> SameIn (s_tx s) t' i ps) by (intros t' (V & _ & W & _); split; [rewrite V|unfold inwit_at; rewrite W]; reflexivity).
    destruct (blind_pseudo_dyn z rand y i ps L s) as [[L1|r|e] s1]; [apply SS; tauto|apply SS; tauto|exact I].
  - assert (S := pseudo_sim (s_tx s) n p L s (no_other n p NO) (SameIn_refl _ _ _)). assert (LO := loc_pseudo n p L s). unfold loc in LO.
    destruct (blind_pseudo_dyn z rand y n p L s) as [[L1|r|e] s1] eqn:E; [|..|exact I].
    + rewrite (sim_Val _ _ _ _ _ _ S E) in LO. apply LO. exact N.
    + rewrite (sim_Ret _ _ _ _ _ _ S E) in LO. apply LO. exact N.
Qed.
Lemma spares_output i ps tags gens blinders x L s : spares i ps (blind_output_dyn z rand y tags gens blinders x L) s.
Proof.
  destruct x as [n pub]. unfold spares. assert (S := output_sim (s_tx s) tags gens blinders n pub L s (conj eq_refl eq_refl)). assert (LO := loc_output tags gens blinders n pub L s). unfold loc in LO.
  destruct (blind_output_dyn z rand y tags gens blinders (n, pub) L s) as [[L1|r|e] s1] eqn:E; [|..|exact I].
  - rewrite (sim_Val _ _ _ _ _ _ S E) in LO. apply LO. tauto.
  - rewrite (sim_Ret _ _ _ _ _ _ S E) in LO. apply LO. tauto.
Qed.
Lemma dyn_falsy t r s i ps : falsy_key y (i, ps) -> blind_dyn z rand y t = (Ret r, s) -> SameIn t (s_tx s) i ps.
Proof.
  intros F E. destruct (dyn_Ret_acts t r s E) as [NO [[-> _]|(tags & gens & blinders & L & _ & A)]]; [apply SameIn_refl|].
  assert (H : spares i ps (acts_dyn tags gens blinders L) (mkSt t 0)).
  { unfold acts_dyn. apply spares_bind; [apply SameIn_refl|intros t0 s0 _].
    apply spares_bind; [|intros L1 s1 _].
    { apply spares_for. intros x L1 s1. unfold blind_input_dyn. apply spares_bind; [apply spares_pseudo; assumption|intros; apply spares_pseudo; assumption]. }
    apply spares_bind; [apply SameIn_refl|intros t1 s2 E2]. apply get_Val in E2. destruct E2 as [-> ->].
    apply spares_bind; [split; reflexivity|intros u s3 _].
    apply spares_bind; [apply spares_for; intros; apply spares_output|intros; apply SameIn_refl]. }
  unfold spares in H. destruct A as [A|A]; rewrite A in H; exact H.
Qed.
End Dyn.

(** ** Documented types *)
Lemma args_dyn_of a w : args_of w (dyn_of a) = a.
Proof.
  destruct a as [descs pubs aks tks aux ce cb st]. unfold args_of, dyn_of. cbn.
  assert (K : forall l, map (key_of w) (map key_obj l) = l) by (intros l; rewrite map_map; rewrite <- (map_id l) at 2; apply map_ext; intros [k|]; reflexivity).
  f_equal; try apply K.
  - rewrite map_map. rewrite <- (map_id descs) at 2. apply map_ext. intros [? ? ? ?]. reflexivity.
  - rewrite map_map. apply map_id.
  - rewrite map_map. apply map_id.
  - destruct ce; reflexivity.
  - destruct cb; reflexivity.
Qed.
Lemma dyn_of_right a : ~ WrongType (dyn_of a) /\ ~ WrongParameter (dyn_of a) /\ forall x, ~ falsy_key (dyn_of a) x.
Proof.
  assert (N : forall (l : list bytes), ~ In Bad (map Good l)) by (intros l I; apply in_map_iff in I; destruct I as (? & X & _); discriminate).
  assert (K : forall l, ~ In KOther (map key_obj l)) by (intros l I; apply in_map_iff in I; destruct I as ([k|] & X & _); discriminate).
  split; [|split].
  - unfold WrongType, dyn_of. cbn. intros [X|[X|[X|[(d & I & S)|X]]]]; try (exact (N _ X)); try (exact (K _ X)).
    apply in_map_iff in I. destruct I as ([? ? ? ?] & <- & _). apply S. unfold Sound, desc_obj. eauto.
  - unfold WrongParameter, dyn_of. cbn. intros [X|X]; destruct (_ : option Z) in X; discriminate.
  - intros [i ps]. unfold falsy_key, dyn_of. cbn. assert (Q : forall l, nth i (map key_obj l) KNone <> KFalsy).
    { intros l X. change KNone with (key_obj None) in X. rewrite map_nth in X. destruct (nth i l None); discriminate. }
    destruct ps; apply Q.
Qed.
