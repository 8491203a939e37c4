(** blind() keeps the transaction well-formed, whatever the outcome. *)
From Verif Require Import Base BaseFacts Serialize TxModel SpecWire TxProofs TxProofs2 IssuanceModel BlindModel BlindFacts SpecBlind BlindFrame BlindFails BlindSteps.
From Coq Require Import Lia.
Local Open Scope Z_scope.

(** The library's proofs fit in a serialised string (MAX_SIZE of bitcointx). *)
Definition SmallProofs (z : Crypto) : Prop :=
  (forall m c b n e bits v msg x g p, rp_sign z m c b n e bits v msg x g = Some p -> small p)
  /\ forall p, small (sp_serialize z p).
(** Fields and witnesses are well-formed; nothing is said about the number of witnesses. *)
Definition wf_fields (t : tx) : Prop :=
  wf_body t /\ Forall wf_inwit (vtxinwit (wit t)) /\ Forall wf_outwit (vtxoutwit (wit t)).

Lemma Forall_upd {A} (P : A -> Prop) l n x : Forall P l -> P x -> Forall P (upd l n x).
Proof. intros H Px. revert n. induction H as [|y l Hy H IH]; intros [|n]; cbn [upd]; auto. Qed.
Lemma Forall_pad {A} (P : A -> Prop) l n x : Forall P l -> P x -> Forall P (pad_to n x l).
Proof. intros H Px. unfold pad_to. apply Forall_app. split; [exact H|]. apply Forall_forall. intros y Y. apply repeat_spec in Y. subst. exact Px. Qed.
Lemma Forall_nth_error {A} (P : A -> Prop) l n x : Forall P l -> nth_error l n = Some x -> P x.
Proof. intros H E. rewrite Forall_forall in H. apply H. eapply nth_error_In. exact E. Qed.
Lemma small_nil : small []. Proof. unfold small. cbn. lia. Qed.
Lemma inwit_null_wf : wf_inwit inwit_null.
Proof. unfold wf_inwit, inwit_null; cbn. repeat split; try exact small_nil; cbn; auto; lia. Qed.
Lemma outwit_null_wf : wf_outwit outwit_null.
Proof. split; exact small_nil. Qed.

Section S.
Variables (z : Crypto) (rand : nat -> bytes) (args : blind_args).
Hypothesis SZ : SizesOk z.
Hypothesis SP : SmallProofs z.

Definition wfp {A} (m : M A) (s : St) : Prop := wf_fields (s_tx s) -> wf_fields (s_tx (snd (m s))).
Lemma wfp_bind {A B} (m : M A) (k : A -> M B) s : wfp m s -> (forall a s', m s = (Val a, s') -> wf_fields (s_tx s) -> wf_fields (s_tx s') -> wfp (k a) s') -> wfp (mbind m k) s.
Proof.
  unfold wfp, mbind. intros Hm Hk W. specialize (Hm W). destruct (m s) as [[a|r|e] s1]; cbn [snd] in *; [|exact Hm|exact Hm]. exact (Hk a s1 eq_refl W Hm Hm).
Qed.
Lemma wfp_keeps {A} (m : M A) s : keeps m -> wfp m s.
Proof. intros K W. rewrite (K s). exact W. Qed.
Lemma wfp_draw s : wfp (draw rand) s. Proof. intros W. exact W. Qed.
Lemma wfp_draw256 s : wfp (draw_uint256 rand) s.
Proof. unfold draw_uint256. apply wfp_bind; [apply wfp_draw|]. intros. apply wfp_keeps, keeps_lift. Qed.
Lemma wfp_for {A L} (l : list A) (body : A -> L -> M L) : (forall x st s, wfp (body x st) s) -> forall st s, wfp (for_in l body st) s.
Proof.
  intros H. induction l as [|x l IH]; intros st s; cbn [for_in]; [apply wfp_keeps, keeps_mret|]. apply wfp_bind; [apply H|]. intros. apply IH.
Qed.
Lemma wfp_vout n f s : (forall o, nth_error (vout (s_tx s)) n = Some o -> wf_txout o -> wf_txout (f o)) -> wfp (mod_vout n f) s.
Proof.
  intros H W. unfold mod_vout, mbind, get_tx. cbn [snd]. unfold lift, nth_res.
  destruct (nth_error (vout (s_tx s)) n) as [o|] eqn:E; cbn [mret mraise snd put_tx s_tx]; [|exact W].
  destruct W as ((B1 & B2 & B3 & B4 & B5 & B6) & W2 & W3). split; [|split; assumption]. unfold wf_body. cbn [set_vout vin vout nVersion nLockTime]. rewrite upd_length.
  do 5 (split; [assumption|]). apply Forall_upd; [assumption|]. apply H; [reflexivity|]. eapply Forall_nth_error; eassumption.
Qed.
Lemma wfp_outwit n f s : (forall w, wf_outwit (f w)) -> wfp (mod_outwit n f) s.
Proof.
  intros H W. unfold mod_outwit, mbind, get_tx. cbn [snd]. unfold lift, nth_res.
  destruct (nth_error (vtxoutwit (wit (s_tx s))) n) as [o|] eqn:E; cbn [mret mraise snd put_tx s_tx]; [|exact W].
  destruct W as (W1 & W2 & W3). split; [exact W1|]. split; [exact W2|]. cbn. apply Forall_upd; auto.
Qed.
Lemma wfp_inwit n f s : (forall w, wf_inwit w -> wf_inwit (f w)) -> wfp (mod_inwit n f) s.
Proof.
  intros H W. unfold mod_inwit, mbind, get_tx. cbn [snd]. unfold lift, nth_res.
  destruct (nth_error (vtxinwit (wit (s_tx s))) n) as [o|] eqn:E; cbn [mret mraise snd put_tx s_tx]; [|exact W].
  destruct W as (W1 & W2 & W3). split; [exact W1|]. split; [|exact W3]. cbn. apply Forall_upd; [exact W2|]. apply H. eapply Forall_nth_error; eassumption.
Qed.
Lemma wfp_vin n f s : (forall o, nth_error (vin (s_tx s)) n = Some o -> wf_txin o -> wf_txin (f o)) -> wfp (mod_vin n f) s.
Proof.
  intros H W. unfold mod_vin, mbind, get_tx. cbn [snd]. unfold lift, nth_res.
  destruct (nth_error (vin (s_tx s)) n) as [o|] eqn:E; cbn [mret mraise snd put_tx s_tx]; [|exact W].
  destruct W as ((B1 & B2 & B3 & B4 & B5 & B6) & W2 & W3). split; [|split; assumption]. unfold wf_body. cbn [set_vin vin vout nVersion nLockTime]. rewrite upd_length.
  do 4 (split; [assumption|]). split; [|assumption]. apply Forall_upd; [assumption|]. apply H; [reflexivity|]. eapply Forall_nth_error; eassumption.
Qed.
Lemma wfp_nonce p s : wfp (generate_output_rangeproof_nonce z rand p) s.
Proof. unfold generate_output_rangeproof_nonce. apply wfp_bind; [apply wfp_draw|]. intros a s' _ _ _. cbv zeta. apply wfp_keeps. keeps. Qed.
Lemma wfp_surj a b c d e f s : wfp (generate_surjectionproof z rand a b c d e f) s.
Proof. unfold generate_surjectionproof. cbv zeta. apply wfp_bind; [apply wfp_draw|]. intros x s' _ _ _. apply wfp_keeps. keeps. Qed.
Lemma surj_small a b c d e f s p s' : generate_surjectionproof z rand a b c d e f s = (Val (Some p), s') -> small p.
Proof.
  unfold generate_surjectionproof. cbv zeta. intros E.
  apply bind_Val in E. destruct E as (x & s1 & _ & E). apply bind_Val in E. destruct E as (tags & s2 & _ & E).
  destruct (sp_init _ _ _ _ _ _ _) as [[p0 i]|]; [|discriminate].
  apply bind_Val in E. destruct E as (x1 & s3 & _ & E). apply bind_Val in E. destruct E as (x2 & s4 & _ & E). apply bind_Val in E. destruct E as (x3 & s5 & _ & E).
  apply bind_Val in E. destruct E as (x4 & s6 & _ & E). apply bind_Val in E. destruct E as (x5 & s7 & _ & E). apply mret_Val in E. destruct E as [E _].
  injection E as ->. apply SP.
Qed.

Lemma wfp_finish tags gens blinders n pub asset amount L s : wfp (finish_output z rand args tags gens blinders n pub asset amount L) s.
Proof.
  unfold finish_output. cbv zeta.
  apply wfp_bind; [apply wfp_keeps, keeps_lift|intros b s1 _ _ _].
  apply wfp_bind; [apply wfp_keeps, keeps_lift|intros ab s2 _ _ _].
  apply wfp_bind; [apply wfp_keeps, keeps_blinded_asset|intros [ca gen] s3 E _ _]. apply blinded_asset_Val in E. destruct E as (_ & _ & _ & VA). apply conf_is_valid_iff in VA.
  apply wfp_bind; [apply wfp_vout; intros o _ (A & B & C & D); repeat split; assumption|intros u s4 _ _ _].
  apply wfp_bind; [apply wfp_keeps, keeps_cvc|intros [cv commit] s5 E5 _ _]. apply cvc_Val in E5. destruct E5 as (_ & _ & _ & VV). apply conf_is_valid_iff in VV.
  apply wfp_bind; [apply wfp_vout; intros o _ (A & B & C & D); repeat split; assumption|intros u2 s6 _ _ _].
  apply wfp_bind; [apply wfp_nonce|intros [nonce eph] s7 E _ _]. apply nonce_Val in E. destruct E as (sh & _ & SK & EE & _).
  assert (VN : ConfForm CConfNonce eph).
  { rewrite EE. destruct (so_pub z SZ _ SK) as (d & Ld & [-> | ->]); apply CF_commit; cbn; auto. }
  apply wfp_bind; [apply wfp_keeps, keeps_lift|intros cn s8 E _ _]. apply lift_Val in E. destruct E as [E _].
  assert (cn = eph). { unfold conf_new in E. destruct (_ || _); [|discriminate]. apply Ok_inj in E. auto. } subst cn.
  apply wfp_bind; [apply wfp_vout; intros o _ (A & B & C & D); repeat split; assumption|intros u3 s9 _ _ _].
  apply wfp_bind; [apply wfp_keeps, keeps_get|intros t s10 _ _ _].
  apply wfp_bind; [apply wfp_keeps, keeps_lift|intros o s11 _ _ _].
  apply wfp_bind; [apply wfp_keeps, keeps_rangeproof|intros rp s12 E9 _ _]. apply rangeproof_Val in E9. destruct E9 as (bf & abf & _ & _ & _ & E9). apply (proj1 SP) in E9.
  apply wfp_bind; [apply wfp_surj|intros sp s13 E2 _ _].
  destruct sp as [[|b0 sp]|]; try (apply wfp_keeps, keeps_mret). apply surj_small in E2.
  apply wfp_bind; [apply wfp_outwit; intros w; split; assumption|intros u4 s14 _ _ _]. apply wfp_keeps, keeps_mret.
Qed.
Lemma wfp_output tags gens blinders np L s : wfp (blind_output z rand args tags gens blinders np L) s.
Proof.
  destruct np as [n pub]. unfold blind_output. destruct (is_fullyvalid z pub) eqn:V; cbn [negb]; [|apply wfp_keeps, keeps_mret].
  apply wfp_bind; [apply wfp_keeps, keeps_get|intros t s1 _ _ _].
  apply wfp_bind; [apply wfp_keeps, keeps_lift|intros o s2 _ _ _].
  apply wfp_bind; [apply wfp_keeps, keeps_lift|intros amount s3 _ _ _].
  apply wfp_bind; [apply wfp_keeps, keeps_lift|intros asset s4 _ _ _]. cbv zeta.
  apply wfp_bind; [apply wfp_draw256|intros b s5 _ _ _].
  apply wfp_bind; [apply wfp_draw256|intros ab s6 _ _ _].
  destruct (_ =? _)%nat; [|apply wfp_finish].
  destruct (_ && _); [apply wfp_keeps, keeps_mreturn|].
  apply wfp_bind; [apply wfp_keeps, keeps_balance|intros [b1|] s7 _ _ _]; [|apply wfp_keeps, keeps_mreturn].
  apply wfp_finish.
Qed.

Lemma wf_txin_blind (ps : bool) a cv : wf_txin a -> (if ps then is_keys (assetIssuance a) else is_amount (assetIssuance a)) <> [] ->
  ConfForm CConfValue cv -> cv <> [] ->
  wf_txin (set_issuance a (if ps then mkIssuance (is_nonce (assetIssuance a)) (is_entropy (assetIssuance a)) (is_amount (assetIssuance a)) cv
                           else mkIssuance (is_nonce (assetIssuance a)) (is_entropy (assetIssuance a)) cv (is_keys (assetIssuance a)))).
Proof.
  intros [(R1 & R2 & R3 & R4 & (I1 & I2 & I3 & I4)) RR] NN VC NC. split.
  - unfold txin_in_range, set_issuance; cbn. do 4 (split; [assumption|]). destruct ps; unfold wf_issuance; cbn; auto.
  - assert (H1 : has_issuance a = true).
    { unfold has_issuance. destruct ps, (is_amount (assetIssuance a)), (is_keys (assetIssuance a)); congruence. }
    unfold txin_representable in *. cbn [set_issuance prevout is_pegin].
    destruct RR as [(_ & X & _)|(X1 & _ & X3)].
    + exfalso. unfold has_issuance in H1. rewrite X in H1. discriminate.
    + right. split; [exact X1|]. split.
      * intros C. exfalso. unfold has_issuance in C. destruct ps; cbn in C; destruct cv; [congruence| |congruence|]; destruct (is_amount (assetIssuance a)); congruence.
      * intros (C1 & _ & C3). apply X3. auto.
Qed.
Lemma wfp_pseudo n ps L s : wfp (blind_pseudo z rand args n ps L) s.
Proof.
  unfold blind_pseudo. destruct (key_at _ n) as [key|] eqn:K; [|apply wfp_keeps, keeps_mret]. cbv zeta.
  apply wfp_bind; [apply wfp_keeps, keeps_get|intros t s1 E _ _]. apply get_Val in E. destruct E as [-> ->].
  apply wfp_bind; [apply wfp_keeps, keeps_lift|intros inp s1 E _ _]. apply lift_Val in E. destruct E as [E ->]. apply nth_res_Ok in E.
  destruct (conf_is_null _) eqn:NN; [apply wfp_keeps, keeps_mret|]. apply conf_null_neq in NN.
  apply wfp_bind; [apply wfp_keeps, keeps_lift|intros amount s1 E1 _ _]. apply lift_Val in E1. destruct E1 as [_ ->].
  match goal with |- wfp (mbind ?m _) _ => assert (KM : keeps m) by keeps end.
  apply wfp_bind; [apply wfp_keeps; exact KM|intros ao s1 E1 _ _].
  apply (keeps_eq _ _ _ _ KM) in E1. subst s1. clear KM.
  destruct ao as [asset|]; [|apply wfp_keeps, keeps_mret].
  apply wfp_bind; [apply wfp_draw256|intros b s1 E1 _ _]. apply draw256_Val in E1. destruct E1 as (_ & _ & ->).
  destruct (_ =? _)%nat; [apply wfp_keeps, keeps_mreturn|].
  apply wfp_bind; [apply wfp_keeps, keeps_get|intros t s1 E1 _ _]. apply get_Val in E1. destruct E1 as [-> ->]. cbn [s_tx].
  apply wfp_bind.
  { intros (W1 & W2 & W3). unfold put_tx. cbn [snd s_tx]. split; [exact W1|]. split; [|exact W3]. cbn. apply Forall_pad; [exact W2|apply inwit_null_wf]. }
  intros u s1 E1 _ _. apply put_Val in E1. subst s1. cbn [s_draws].
  apply wfp_bind; [apply wfp_keeps, keeps_blinded_asset|intros ag s1 E1 _ _].
  apply (keeps_eq _ _ _ _ (keeps_blinded_asset _ _ _)) in E1. subst s1.
  apply wfp_bind; [apply wfp_keeps, keeps_cvc|intros [cv commit] s1 E1 _ _]. apply cvc_Val in E1. destruct E1 as (-> & _ & CS & VC). apply conf_is_valid_iff in VC.
  assert (NC : cv <> []) by (destruct (so_comser z SZ _ _ CS) as (d & _ & [-> | ->]); discriminate).
  apply wfp_bind.
  { apply wfp_vin. cbn [s_tx set_inwits vin]. rewrite E. intros o Eo Wo. injection Eo as <-. apply wf_txin_blind; assumption. }
  intros u2 s1 _ _ _.
  apply wfp_bind; [apply wfp_keeps, keeps_lift|intros nonce s2 _ _ _].
  apply wfp_bind; [apply wfp_keeps, keeps_rangeproof|intros proof s3 E1 _ _]. apply rangeproof_Val in E1. destruct E1 as (bf & abf & _ & _ & _ & E1). apply (proj1 SP) in E1.
  apply wfp_bind; [|intros; apply wfp_keeps, keeps_mret].
  apply wfp_inwit. intros w (A & B & C & D). destruct ps; repeat split; cbn; try assumption; (apply C || apply D).
Qed.

Theorem blind_wf t : wf_fields t -> wf_fields (s_tx (snd (blind_transaction z rand args t))).
Proof.
  assert (H : wfp (blind_body z rand args) (mkSt t 0)).
  { unfold blind_body.
    apply wfp_bind; [apply wfp_keeps, keeps_check|intros _ s1 _ _ _].
    apply wfp_bind; [apply wfp_keeps, keeps_targets|intros [[tags gens] blinders] s2 _ _ _].
    apply wfp_bind; [apply wfp_keeps, keeps_get|intros t1 s3 _ _ _]. cbv zeta.
    apply wfp_bind; [apply wfp_keeps, keeps_for; intros; apply keeps_count_input|intros L1 s4 _ _ _].
    apply wfp_bind; [apply wfp_keeps, keeps_for; intros; apply keeps_count_output|intros L2 s5 _ _ _].
    apply wfp_bind.
    { apply wfp_for. intros i L s. unfold blind_input. apply wfp_bind; [|intros L3 s' _ _ _]; apply wfp_pseudo. }
    intros L3 s6 _ _ _. apply wfp_bind; [apply wfp_keeps, keeps_get|intros t2 s7 E _ _]. apply get_Val in E. destruct E as [-> ->].
    apply wfp_bind.
    { intros (W1 & W2 & W3). unfold put_tx. cbn [snd s_tx]. split; [exact W1|]. split; [exact W2|]. cbn. apply Forall_pad; [exact W3|apply outwit_null_wf]. }
    intros u s8 _ _ _. apply wfp_bind; [apply wfp_for; intros; apply wfp_output|intros L4 s9 _ _ _]. apply wfp_keeps, keeps_mret. }
  intros W. specialize (H W). unfold blind_transaction. destruct (blind_body z rand args (mkSt t 0)) as [[r|r|e] s]; exact H.
Qed.
End S.

(** Well-formed fields and complete (or missing) witness lists: serialisable. *)
Lemma wf_fields_ser t : wf_fields t ->
  (vtxinwit (wit t) = [] \/ length (vtxinwit (wit t)) = length (vin t)) ->
  (vtxoutwit (wit t) = [] \/ length (vtxoutwit (wit t)) = length (vout t)) -> exists b, ser_tx true false t = Ok b.
Proof.
  intros (B & F1 & F2) L1 L2. destruct B as (HV & HT & HLi & HLo & HFi & HFo).
  assert (RFi : Forall txin_readable (vin t)) by (eapply Forall_impl; [apply wf_txin_readable|exact HFi]).
  destruct (le_sint32_ex _ HV) as [v Hv]. destruct (le_int_ex 4 (nLockTime t)) as [l Hl]; [exact HT|].
  destruct (W_vec_ex (W_txin false) txin_readable (vin t) W_txin_ex RFi HLi) as [i Hi].
  destruct (W_vec_ex W_txout wf_txout (vout t) W_txout_ex HFo HLo) as [o Ho].
  destruct (W_seq_ex W_inwit wf_inwit _ W_inwit_ex F1) as [wi Hwi].
  destruct (W_seq_ex W_outwit wf_outwit _ W_outwit_ex F2) as [wo Hwo].
  assert (D : NullWit (wit t) \/ ~ NullWit (wit t)).
  { unfold NullWit. assert (D1 : {Forall NullIn (vtxinwit (wit t))} + {~ Forall NullIn (vtxinwit (wit t))}).
    { apply Forall_dec. intros [a b c d]. unfold NullIn. destruct a, b, c, d; (left; reflexivity) || (right; discriminate). }
    assert (D2 : {Forall NullOut (vtxoutwit (wit t))} + {~ Forall NullOut (vtxoutwit (wit t))}).
    { apply Forall_dec. intros [a b]. unfold NullOut. destruct a, b; (left; reflexivity) || (right; discriminate). }
    destruct D1, D2; tauto. }
  destruct D as [D|D].
  - eexists. apply ser_tx_iff. eapply W_tx_nowit; eauto.
  - eexists. apply ser_tx_iff. eapply W_tx_wit; eauto.
Qed.
