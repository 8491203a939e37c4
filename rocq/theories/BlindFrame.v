(** The frame of blind(): proof that every path only touches what it may. *)
From Verif Require Import Base BaseFacts Serialize TxModel IssuanceModel ScriptModel MiscModel BlindModel BlindFacts SpecBlind.
From Coq Require Import Lia.
Local Open Scope Z_scope.

Lemma key_at_Some keys i k : key_at keys i = Some k -> nth i keys None = Some k.
Proof.
  unfold key_at. intros H. destruct (nth_error keys i) as [[k'|]|] eqn:E; try discriminate. injection H as ->.
  apply nth_error_nth. exact E.
Qed.
Lemma key_at_nth keys i : key_at keys i = nth i keys None.
Proof.
  unfold key_at. destruct (nth_error keys i) as [o|] eqn:E.
  - rewrite (nth_error_nth _ _ _ E). destruct o; reflexivity.
  - apply nth_error_None in E. rewrite nth_overflow by lia. reflexivity.
Qed.
Lemma null_eq u : uint256_is_null u = true <-> u = zeros 32.
Proof. unfold uint256_is_null. apply bytes_eqb_eq. Qed.
Lemma conf_null_eq x : conf_is_null x = true <-> x = [].
Proof.
  unfold conf_is_null. rewrite Z.eqb_eq. destruct x as [|b x]; [split; reflexivity|]. rewrite blen_cons. pose proof (blen_nonneg x).
  split; [lia|discriminate].
Qed.
Lemma conf_null_neq x : conf_is_null x = false <-> x <> [].
Proof. rewrite <- conf_null_eq. destruct (conf_is_null x); split; congruence. Qed.
Lemma nonempty_iff p : is_nonempty p = true <-> p <> [].
Proof. unfold is_nonempty. fold (conf_is_null p). rewrite <- conf_null_neq. destruct (conf_is_null p); cbn; split; congruence. Qed.

Section F.
Variables (z : Crypto) (rand : nat -> bytes) (args : blind_args).
Section Of.
Variables TA TK : nat -> Prop.
Notation Fr := (FrameOf args TA TK).

Lemma FrameOf_refl t : Fr t t.
Proof.
  constructor; auto; try lia.
  - intros i a a' E E'. rewrite E in E'. injection E' as <-. repeat split; reflexivity.
  - intros j o o' E E'. rewrite E in E'. injection E' as <-. split; reflexivity.
Qed.

Lemma nth_error_same_len {A B} (l : list A) (l' : list B) i x : length l' = length l -> nth_error l i = Some x ->
  exists y, nth_error l' i = Some y.
Proof.
  intros H E. assert (nth_error l i <> None) by congruence. apply nth_error_Some in H0. rewrite <- H in H0.
  apply nth_error_Some in H0. destruct (nth_error l' i); [eauto|contradiction].
Qed.

Lemma FrameOf_trans t1 t2 t3 : Fr t1 t2 -> Fr t2 t3 -> Fr t1 t3.
Proof.
  intros F G. constructor.
  - rewrite (fr_version _ _ _ _ _ G). apply F.
  - rewrite (fr_locktime _ _ _ _ _ G). apply F.
  - rewrite (fr_nin _ _ _ _ _ G). apply F.
  - rewrite (fr_nout _ _ _ _ _ G). apply F.
  - intros i a c Ea Ec. destruct (nth_error_same_len (vin t1) (vin t2) i a) as [b Eb]; [apply F|exact Ea|].
    destruct (fr_in _ _ _ _ _ F i a b Ea Eb) as (F1 & F2 & F3 & F4 & F5 & F6 & F7 & F8).
    destruct (fr_in _ _ _ _ _ G i b c Eb Ec) as (G1 & G2 & G3 & G4 & G5 & G6 & G7 & G8).
    repeat split; try congruence; intros H.
    + rewrite (G7 H). auto.
    + rewrite (G8 H). auto.
  - intros i a c Ea Ec. destruct (nth_error_same_len (vout t1) (vout t2) i a) as [b Eb]; [apply F|exact Ea|].
    destruct (fr_out _ _ _ _ _ F i a b Ea Eb) as (F1 & F2). destruct (fr_out _ _ _ _ _ G i b c Eb Ec) as (G1 & G2).
    split; [congruence|]. intros H. rewrite (G2 H). auto.
  - intros i. destruct (fr_inwit _ _ _ _ _ F i) as (F1 & F2 & F3 & F4). destruct (fr_inwit _ _ _ _ _ G i) as (G1 & G2 & G3 & G4).
    split; [congruence|]. split; [congruence|]. split; intros H.
    + rewrite (G3 H). auto.
    + rewrite (G4 H). auto.
  - intros j H. rewrite (fr_outwit _ _ _ _ _ G j H). apply (fr_outwit _ _ _ _ _ F j H).
  - pose proof (fr_ninwit _ _ _ _ _ F). pose proof (fr_ninwit _ _ _ _ _ G). pose proof (fr_nin _ _ _ _ _ F). lia.
  - intros n H. pose proof (fr_lastinwit _ _ _ _ _ F n H). pose proof (fr_lastinwit _ _ _ _ _ G n H). lia.
  - pose proof (fr_noutwit _ _ _ _ _ F). pose proof (fr_noutwit _ _ _ _ _ G). pose proof (fr_nout _ _ _ _ _ F). lia.
  - pose proof (fr_outwits _ _ _ _ _ F). pose proof (fr_outwits _ _ _ _ _ G). pose proof (fr_nout _ _ _ _ _ F). lia.
Qed.

(** Elementary steps. *)
Lemma Frame_pad_inwits t n : (n < length (vin t))%nat -> TA n \/ TK n -> Fr t (set_inwits t (pad_to (S n) inwit_null (vtxinwit (wit t)))).
Proof.
  intros Hn T. constructor; cbn [set_inwits vin vout nVersion nLockTime wit vtxinwit vtxoutwit]; auto; try lia.
  - intros i a a' E E'. rewrite E in E'. injection E' as <-. repeat split; reflexivity.
  - intros j o o' E E'. rewrite E in E'. injection E' as <-. split; reflexivity.
  - intros i. unfold inwit_at. cbn [wit vtxinwit set_inwits]. rewrite pad_to_nth. repeat split; reflexivity.
  - rewrite pad_to_length. lia.
  - intros m H. rewrite pad_to_length. destruct (Nat.le_gt_cases m n) as [L|L]; [|lia]. destruct (H n L). destruct T; contradiction.
Qed.
Lemma Frame_pad_outwits t : Fr t (set_outwits t (pad_to (length (vout t)) outwit_null (vtxoutwit (wit t)))).
Proof.
  constructor; cbn [set_outwits vin vout nVersion nLockTime wit vtxinwit vtxoutwit]; auto; try lia.
  - intros i a a' E E'. rewrite E in E'. injection E' as <-. repeat split; reflexivity.
  - intros j o o' E E'. rewrite E in E'. injection E' as <-. split; reflexivity.
  - intros j _. unfold outwit_at. cbn [wit vtxoutwit set_outwits]. apply pad_to_nth.
  - rewrite pad_to_length. lia.
  - rewrite pad_to_length. lia.
Qed.
Lemma Frame_vin t n a iss : nth_error (vin t) n = Some a ->
  is_nonce iss = is_nonce (assetIssuance a) -> is_entropy iss = is_entropy (assetIssuance a) ->
  (~ TA n -> is_amount iss = is_amount (assetIssuance a)) ->
  (~ TK n -> is_keys iss = is_keys (assetIssuance a)) ->
  Fr t (set_vin t (upd (vin t) n (set_issuance a iss))).
Proof.
  intros E H1 H2 H3 H4. constructor; cbn [set_vin vin vout nVersion nLockTime wit]; auto; try lia.
  - apply upd_length.
  - intros i b b' Eb Eb'. rewrite upd_nth in Eb'.
    destruct (Nat.eqb_spec n i) as [<-|N]; cbn [andb] in Eb'.
    + destruct (Nat.ltb_spec n (length (vin t))) as [L|L].
      * injection Eb' as <-. rewrite E in Eb. injection Eb as <-. cbn. repeat split; auto.
      * apply nth_error_None in L. congruence.
    + rewrite Eb in Eb'. injection Eb' as <-. repeat split; reflexivity.
  - intros j o o' Eo Eo'. rewrite Eo in Eo'. injection Eo' as <-. split; reflexivity.
Qed.
Lemma Frame_inwit t n w iss keys : nth_error (vtxinwit (wit t)) n = Some w ->
  (~ TA n -> iss = iw_issproof w) ->
  (~ TK n -> keys = iw_keysproof w) ->
  Fr t (set_inwits t (upd (vtxinwit (wit t)) n (mkInWit (iw_script w) iss keys (iw_pegin w)))).
Proof.
  intros E H1 H2. constructor; cbn [set_inwits vin vout nVersion nLockTime wit vtxinwit vtxoutwit]; auto; try lia.
  - intros i a a' Ea Ea'. rewrite Ea in Ea'. injection Ea' as <-. repeat split; reflexivity.
  - intros j o o' Eo Eo'. rewrite Eo in Eo'. injection Eo' as <-. split; reflexivity.
  - intros i. unfold inwit_at. cbn [wit vtxinwit set_inwits].
    destruct (Nat.eq_dec n i) as [<-|N].
    + assert (L : (n < length (vtxinwit (wit t)))%nat) by (apply nth_error_Some; congruence).
      rewrite (nth_error_nth _ _ _ (upd_nth_same _ n (mkInWit (iw_script w) iss keys (iw_pegin w)) L)).
      rewrite (nth_error_nth _ _ _ E). cbn. auto.
    + assert (Q : nth i (upd (vtxinwit (wit t)) n (mkInWit (iw_script w) iss keys (iw_pegin w))) (mkInWit [] [] [] []) =
                  nth i (vtxinwit (wit t)) (mkInWit [] [] [] [])).
      { destruct (nth_error (vtxinwit (wit t)) i) as [v|] eqn:Ev.
        - rewrite (nth_error_nth _ _ _ Ev). apply nth_error_nth. rewrite upd_nth_other; auto.
        - apply nth_error_None in Ev. rewrite !nth_overflow; [reflexivity|exact Ev|rewrite upd_length; exact Ev]. }
      rewrite Q. repeat split; reflexivity.
  - rewrite upd_length. lia.
  - intros m _. rewrite upd_length. lia.
Qed.
Lemma Frame_vout t n o o1 : nth_error (vout t) n = Some o -> wants_output args n -> scriptPubKey o1 = scriptPubKey o ->
  Fr t (set_vout t (upd (vout t) n o1)).
Proof.
  intros E W S. constructor; cbn [set_vout vin vout nVersion nLockTime wit]; auto; try lia.
  - apply upd_length.
  - intros i a a' Ea Ea'. rewrite Ea in Ea'. injection Ea' as <-. repeat split; reflexivity.
  - intros i b b' Eb Eb'. rewrite upd_nth in Eb'.
    destruct (Nat.eqb_spec n i) as [<-|N]; cbn [andb] in Eb'.
    + destruct (Nat.ltb_spec n (length (vout t))) as [L|L].
      * injection Eb' as <-. rewrite E in Eb. injection Eb as <-. split; [exact S|contradiction].
      * apply nth_error_None in L. congruence.
    + rewrite Eb in Eb'. injection Eb' as <-. split; reflexivity.
Qed.
Lemma Frame_outwit t n w : wants_output args n -> Fr t (set_outwits t (upd (vtxoutwit (wit t)) n w)).
Proof.
  intros W. constructor; cbn [set_outwits vin vout nVersion nLockTime wit vtxinwit vtxoutwit]; auto; try lia.
  - intros i a a' Ea Ea'. rewrite Ea in Ea'. injection Ea' as <-. repeat split; reflexivity.
  - intros j o o' Eo Eo'. rewrite Eo in Eo'. injection Eo' as <-. split; reflexivity.
  - intros j H. unfold outwit_at. cbn [wit vtxoutwit set_outwits].
    assert (N : n <> j) by (intros <-; contradiction).
    destruct (nth_error (vtxoutwit (wit t)) j) as [v|] eqn:Ev.
    + rewrite (nth_error_nth _ _ _ Ev). apply nth_error_nth. rewrite upd_nth_other; auto.
    + apply nth_error_None in Ev. rewrite !nth_overflow; [reflexivity|exact Ev|rewrite upd_length; exact Ev].
  - rewrite upd_length. lia.
  - rewrite upd_length. lia.
Qed.

(** Whatever [m] does from [s], it stays in the frame. *)
Definition pres {A} (m : M A) (s : St) : Prop := Fr (s_tx s) (s_tx (snd (m s))).
Lemma pres_bind {A B} (m : M A) (k : A -> M B) s :
  pres m s -> (forall a s', m s = (Val a, s') -> pres (k a) s') -> pres (mbind m k) s.
Proof.
  unfold pres, mbind. intros Hm Hk. destruct (m s) as [[a|r|e] s1]; cbn [snd] in *; auto.
  eapply FrameOf_trans; [exact Hm|]. exact (Hk a s1 eq_refl).
Qed.
Lemma pres_keeps {A} (m : M A) s : keeps m -> pres m s.
Proof. intros K. unfold pres. rewrite (K s). apply FrameOf_refl. Qed.
Lemma pres_draw s : pres (draw rand) s. Proof. apply FrameOf_refl. Qed.
Lemma pres_draw256 s : pres (draw_uint256 rand) s.
Proof. unfold draw_uint256. apply pres_bind; [apply pres_draw|]. intros a s' _. apply pres_keeps, keeps_lift. Qed.
Lemma pres_for {A L} (l : list A) (body : A -> L -> M L) :
  (forall x st s, In x l -> pres (body x st) s) -> forall st s, pres (for_in l body st) s.
Proof.
  induction l as [|x l IH]; intros H st s; cbn [for_in]; [apply pres_keeps, keeps_mret|].
  apply pres_bind; [apply H; left; reflexivity|]. intros a s' _. apply IH. intros; apply H; right; assumption.
Qed.
Lemma pres_vout n f s : wants_output args n -> (forall o, scriptPubKey (f o) = scriptPubKey o) -> pres (mod_vout n f) s.
Proof.
  intros W S. unfold pres, mod_vout, mbind, get_tx. cbn [snd]. unfold lift, nth_res.
  destruct (nth_error (vout (s_tx s)) n) as [o|] eqn:E; cbn [mret mraise snd put_tx s_tx]; [|apply FrameOf_refl].
  eapply Frame_vout; eauto.
Qed.
Lemma pres_outwit n f s : wants_output args n -> pres (mod_outwit n f) s.
Proof.
  intros W. unfold pres, mod_outwit, mbind, get_tx. cbn [snd]. unfold lift, nth_res.
  destruct (nth_error (vtxoutwit (wit (s_tx s))) n) as [o|] eqn:E; cbn [mret mraise snd put_tx s_tx]; [|apply FrameOf_refl].
  apply Frame_outwit. assumption.
Qed.
Lemma pres_nonce p s : pres (generate_output_rangeproof_nonce z rand p) s.
Proof.
  unfold generate_output_rangeproof_nonce. apply pres_bind; [apply pres_draw|]. intros a s' _. cbv zeta. apply pres_keeps. keeps.
Qed.
Lemma pres_surj a b c d e f s : pres (generate_surjectionproof z rand a b c d e f) s.
Proof.
  unfold generate_surjectionproof. cbv zeta. apply pres_bind; [apply pres_draw|]. intros x s' _. apply pres_keeps. keeps.
Qed.

Lemma pres_finish tags gens blinders n pub asset amount L s :
  wants_output args n -> pres (finish_output z rand args tags gens blinders n pub asset amount L) s.
Proof.
  intros W. unfold finish_output. cbv zeta.
  apply pres_bind; [apply pres_keeps, keeps_lift|intros b s1 _].
  apply pres_bind; [apply pres_keeps, keeps_lift|intros ab s2 _].
  apply pres_bind; [apply pres_keeps, keeps_blinded_asset|intros [ca gen] s3 _].
  apply pres_bind; [apply pres_vout; auto|intros u s4 _].
  apply pres_bind; [apply pres_keeps, keeps_cvc|intros [cv commit] s5 _].
  apply pres_bind; [apply pres_vout; auto|intros u2 s6 _].
  apply pres_bind; [apply pres_nonce|intros [nonce eph] s7 _].
  apply pres_bind; [apply pres_keeps, keeps_lift|intros cn s8 _].
  apply pres_bind; [apply pres_vout; auto|intros u3 s9 _].
  apply pres_bind; [apply pres_keeps, keeps_get|intros t s10 _].
  apply pres_bind; [apply pres_keeps, keeps_lift|intros o s11 _].
  apply pres_bind; [apply pres_keeps, keeps_rangeproof|intros rp s12 _].
  apply pres_bind; [apply pres_surj|intros sp s13 _].
  destruct sp as [[|b0 sp]|]; try (apply pres_keeps, keeps_mret).
  apply pres_bind; [apply pres_outwit; auto|intros u4 s14 _]. apply pres_keeps, keeps_mret.
Qed.
Lemma pres_output tags gens blinders n pub L s : nth n (a_pubkeys args) [] = pub ->
  pres (blind_output z rand args tags gens blinders (n, pub) L) s.
Proof.
  intros Hp. unfold blind_output. destruct (is_fullyvalid z pub) eqn:V; cbn [negb]; [|apply pres_keeps, keeps_mret].
  assert (W : wants_output args n).
  { unfold wants_output. rewrite Hp. unfold is_fullyvalid in V. apply andb_prop in V. apply nonempty_iff. apply V. }
  apply pres_bind; [apply pres_keeps, keeps_get|intros t s1 _].
  apply pres_bind; [apply pres_keeps, keeps_lift|intros o s2 _].
  apply pres_bind; [apply pres_keeps, keeps_lift|intros amount s3 _].
  apply pres_bind; [apply pres_keeps, keeps_lift|intros asset s4 _]. cbv zeta.
  apply pres_bind; [apply pres_draw256|intros b s5 _].
  apply pres_bind; [apply pres_draw256|intros ab s6 _].
  destruct (_ =? _)%nat; [|apply pres_finish; assumption].
  destruct (_ && _); [apply pres_keeps, keeps_mreturn|].
  apply pres_bind; [apply pres_keeps, keeps_balance|intros [b1|] s7 _]; [|apply pres_keeps, keeps_mreturn].
  apply pres_finish. assumption.
Qed.


Lemma pres_pseudo n ps L s :
  (forall i, amount_target args (s_tx s) i -> TA i) -> (forall i, keys_target args (s_tx s) i -> TK i) ->
  pres (blind_pseudo z rand args n ps L) s.
Proof.
  intros HA HK.
  unfold blind_pseudo. destruct (key_at _ n) as [key|] eqn:K; [|apply pres_keeps, keeps_mret]. cbv zeta.
  rewrite key_at_nth in K.
  apply pres_bind; [apply pres_keeps, keeps_get|intros t s1 E]. apply get_Val in E. destruct E as [-> ->].
  apply pres_bind; [apply pres_keeps, keeps_lift|intros inp s1 E]. apply lift_Val in E. destruct E as [E ->]. apply nth_res_Ok in E.
  destruct (conf_is_null _) eqn:NN; [apply pres_keeps, keeps_mret|]. apply conf_null_neq in NN.
  apply pres_bind; [apply pres_keeps, keeps_lift|intros amount s1 E1]. apply lift_Val in E1. destruct E1 as [_ ->].
  match goal with |- pres (mbind ?m _) _ => assert (KM : keeps m) by keeps end.
  apply pres_bind; [apply pres_keeps; exact KM|intros ao s1 E1].
  assert (T : ao = None \/ (if ps then TK n else TA n)).
  { destruct ps.
    - destruct (uint256_is_null (is_nonce (assetIssuance inp))) eqn:U.
      + right. apply HK. split; [congruence|]. exists inp. apply null_eq in U. auto.
      + left. apply mret_Val in E1. apply E1.
    - right. apply HA. split; [congruence|]. eauto. }
  apply (keeps_eq _ _ _ _ KM) in E1. subst s1. clear KM.
  destruct ao as [asset|]; [|apply pres_keeps, keeps_mret]. destruct T as [T|T]; [discriminate|].
  apply pres_bind; [apply pres_draw256|intros b s1 E1]. apply draw256_Val in E1. destruct E1 as (_ & _ & ->).
  destruct (_ =? _)%nat; [apply pres_keeps, keeps_mreturn|].
  apply pres_bind; [apply pres_keeps, keeps_get|intros t s1 E1]. apply get_Val in E1. destruct E1 as [-> ->]. cbn [s_tx].
  assert (Hn : (n < length (vin (s_tx s)))%nat) by (apply nth_error_Some; congruence).
  apply pres_bind.
  { unfold pres, put_tx. cbn [snd s_tx]. apply Frame_pad_inwits; [lia|]. destruct ps; auto. }
  intros u s1 E1. apply put_Val in E1. subst s1. cbn [s_draws].
  apply pres_bind; [apply pres_keeps, keeps_blinded_asset|intros ag s1 E1].
  apply (keeps_eq _ _ _ _ (keeps_blinded_asset _ _ _)) in E1. subst s1.
  apply pres_bind; [apply pres_keeps, keeps_cvc|intros [cv commit] s1 E1].
  apply (keeps_eq _ _ _ _ (keeps_cvc _ _ _ _)) in E1. subst s1.
  apply pres_bind.
  { unfold pres, mod_vin, mbind, get_tx. cbn [snd s_tx]. cbn [set_inwits vin]. unfold lift, nth_res. rewrite E. cbn [mret put_tx snd s_tx].
    apply (Frame_vin (set_inwits (s_tx s) (pad_to (S n) inwit_null (vtxinwit (wit (s_tx s))))) n inp); auto; destruct ps; cbn; auto; contradiction. }
  intros u2 s1 E1. apply mod_vin_Val in E1. destruct E1 as (i0 & E0 & ->). cbn [s_tx set_inwits vin] in E0.
  rewrite E in E0. injection E0 as <-.
  apply pres_bind; [apply pres_keeps, keeps_lift|intros nonce s1 E1]. apply lift_Val in E1. destruct E1 as [_ ->].
  apply pres_bind; [apply pres_keeps, keeps_rangeproof|intros proof s1 E1].
  apply (keeps_eq _ _ _ _ (keeps_rangeproof _ _ _ _ _ _ _ _ _ _ _)) in E1. subst s1.
  apply pres_bind; [|intros; apply pres_keeps, keeps_mret].
  unfold pres, mod_inwit, mbind, get_tx. cbn [snd]. unfold lift, nth_res.
  destruct (nth_error (vtxinwit (wit (s_tx _))) n) as [w|] eqn:Ew; cbn [mret mraise snd put_tx s_tx]; [|apply FrameOf_refl].
  destruct ps; (apply Frame_inwit; [exact Ew| |]); auto; contradiction.
Qed.
End Of.

Lemma Frame_amount t t' i : Frame args t t' -> amount_target args t' i -> amount_target args t i.
Proof.
  intros F [K (a' & E' & N)]. destruct (nth_error_same_len (vin t') (vin t) i a') as [a E]; [symmetry; apply F|exact E'|].
  apply (fr_in _ _ _ _ _ F i a a' E) in E' as Q. destruct Q as (_ & _ & _ & _ & _ & _ & Q & _).
  split; [exact K|]. exists a. split; [exact E|]. intros Z. apply N. rewrite Q; [exact Z|].
  intros [_ (a1 & E1 & N1)]. rewrite E in E1. injection E1 as <-. contradiction.
Qed.
Lemma Frame_keys t t' i : Frame args t t' -> keys_target args t' i -> keys_target args t i.
Proof.
  intros F [K (a' & E' & N & M)]. destruct (nth_error_same_len (vin t') (vin t) i a') as [a E]; [symmetry; apply F|exact E'|].
  apply (fr_in _ _ _ _ _ F i a a' E) in E' as Q. destruct Q as (_ & _ & _ & _ & Qn & _ & _ & Q).
  split; [exact K|]. exists a. split; [exact E|]. rewrite Qn in M. split; [|exact M]. intros Z. apply N. rewrite Q; [exact Z|].
  intros [_ (a1 & E1 & N1 & _)]. rewrite E in E1. injection E1 as <-. contradiction.
Qed.

Definition stays {A} (t0 : tx) (m : M A) : Prop := forall s, Frame args t0 (s_tx s) -> Frame args t0 (s_tx (snd (m s))).
Lemma stays_pres {A} t0 (m : M A) : (forall s, Frame args t0 (s_tx s) -> pres (amount_target args t0) (keys_target args t0) m s) -> stays t0 m.
Proof. intros H s F. exact (FrameOf_trans _ _ _ _ _ F (H s F)). Qed.
Lemma stays_bind {A B} t0 (m : M A) (k : A -> M B) : stays t0 m -> (forall a, stays t0 (k a)) -> stays t0 (mbind m k).
Proof.
  intros Hm Hk s F. specialize (Hm s F). unfold mbind. destruct (m s) as [[a|r|e] s1]; cbn [snd] in *; auto. apply Hk. exact Hm.
Qed.
Lemma stays_keeps {A} t0 (m : M A) : keeps m -> stays t0 m.
Proof. intros K s F. rewrite (K s). exact F. Qed.
Lemma stays_for {A L} t0 (l : list A) (body : A -> L -> M L) : (forall x st, In x l -> stays t0 (body x st)) -> forall st, stays t0 (for_in l body st).
Proof.
  induction l as [|x l IH]; intros H st; cbn [for_in]; [apply stays_keeps, keeps_mret|].
  apply stays_bind; [apply H; left; reflexivity|]. intros a. apply IH. intros; apply H; right; assumption.
Qed.

Lemma enum_nth (l : list bytes) i x : In (i, x) (combine (seq 0 (length l)) l) -> nth i l [] = x.
Proof.
  intros H. apply in_split in H. destruct H as (p & r & H). apply enum_split in H. destruct H as (-> & N & _).
  apply nth_error_nth. exact N.
Qed.

Theorem blind_body_frame t0 : stays t0 (blind_body z rand args).
Proof.
  unfold blind_body.
  apply stays_bind; [apply stays_keeps, keeps_check|intros _].
  apply stays_bind; [apply stays_keeps, keeps_targets|intros [[tags gens] blinders]].
  apply stays_bind; [apply stays_keeps, keeps_get|intros t]. cbv zeta.
  apply stays_bind; [apply stays_keeps, keeps_for; intros; apply keeps_count_input|intros L1].
  apply stays_bind; [apply stays_keeps, keeps_for; intros; apply keeps_count_output|intros L2].
  apply stays_bind.
  { apply stays_for. intros i L _. unfold blind_input. apply stays_bind; [|intros L3]; apply stays_pres; intros s F;
      (apply pres_pseudo; intros i0; [apply (Frame_amount _ _ _ F)|apply (Frame_keys _ _ _ F)]). }
  intros L3. intros s F. unfold mbind at 1. cbn [get_tx]. unfold mbind at 1. cbn [put_tx].
  apply stays_bind.
  - apply stays_for. intros [n pub] L H. apply stays_pres. intros s1 _. apply pres_output. apply enum_nth. exact H.
  - intros L4. apply stays_keeps, keeps_mret.
  - cbn [s_tx]. eapply FrameOf_trans; [exact F|]. apply Frame_pad_outwits.
Qed.

Theorem blind_transaction_frame t : Frame args t (s_tx (snd (blind_transaction z rand args t))).
Proof.
  pose proof (blind_body_frame t (mkSt t 0) (FrameOf_refl _ _ t)) as H. unfold blind_transaction.
  destruct (blind_body z rand args (mkSt t 0)) as [[r|r|e] s]; exact H.
Qed.
End F.
