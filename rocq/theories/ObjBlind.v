(** Lemmas: what operations, and blind() in particular, do to the objects of ObjModel.v. *)
From Verif Require Import Base BaseFacts TxModel BlindModel BlindFacts ObjModel SpecObj ObjFacts.
From Coq Require Import Lia.

(** * Every operation keeps classes, immutable objects and the heap's shape *)
Lemma grows_lookup {A} (l l' : list (cell A)) a m v : grows l l' -> nth_error l a = Some (mkCell m v) -> exists v', nth_error l' a = Some (mkCell m v') /\ (m = false -> v' = v).
Proof. intros G E. destruct (G a _ E) as ([m' v'] & E' & M & I). cbn in M, I. subst m'. exists v'. split; [exact E'|]. intros F. specialize (I F). congruence. Qed.
Lemma grows_length {A} (l l' : list (cell A)) : grows l l' -> (length l <= length l')%nat.
Proof.
  intros G. destruct (Nat.le_gt_cases (length l) (length l')) as [H|H]; [exact H|]. exfalso. destruct (nth_error l (length l')) as [c|] eqn:E.
  - destruct (G _ _ E) as (c' & E' & _). assert (nth_error l' (length l') <> None) by congruence. apply nth_error_Some in H0. lia.
  - apply nth_error_None in E. lia.
Qed.
Lemma exists_evolves h h' x : Evolves h h' -> exists_in h x -> exists_in h' x.
Proof. intros [] E. destruct x; cbn in *; try (match goal with G : grows (?f h) (?f h'), L : (?a < length (?f h))%nat |- _ => assert (Q := grows_length _ _ G); lia end). lia. Qed.
Lemma cell_is_grows {A} (l l' : list (cell A)) m a : grows l l' -> cell_is l m a -> cell_is l' m a.
Proof. intros G [v E]. destruct (grows_lookup _ _ _ _ _ G E) as (v' & E' & _). exists v'. exact E'. Qed.
Lemma grows_same {A} (l l' : list (cell A)) a : grows l l' -> cell_is l false a -> nth_error l' a = nth_error l a.
Proof. intros G [v E]. destruct (grows_lookup _ _ _ _ _ G E) as (v' & E' & I). rewrite E, E', (I eq_refl). reflexivity. Qed.
Lemma class_evolves h h' m x : Evolves h h' -> of_class h m x -> of_class h' m x.
Proof. intros [] E. destruct x; cbn in *; try (eapply cell_is_grows; [|exact E]; assumption). exact E. Qed.
Lemma immutable_same h h' x : Evolves h h' -> of_class h false x -> same h h' x.
Proof. intros [] E. destruct x; cbn in *; try (eapply grows_same; [|exact E]; assumption). discriminate. Qed.
Lemma class_exists h m x : of_class h m x -> is_array x \/ exists_in h x.
Proof. intros E. destruct x; cbn in *; [..|left; exact I]; right; destruct E as [v E]; apply nth_error_Some; congruence. Qed.

(** * Parts *)
Definition ow_bufs_from (c c' : outwit_obj) : Prop :=
  forall b, (oo_surj c' = BArray b \/ oo_range c' = BArray b) -> (oo_surj c = BArray b \/ oo_range c = BArray b).
Lemma parts_back h h' a :
  nth_error (h_txs h') a = nth_error (h_txs h) a ->
  (forall i m c, nth_error (h_ins h') i = Some (mkCell m c) -> exists m0 c0, nth_error (h_ins h) i = Some (mkCell m0 c0) /\ io_prevout c0 = io_prevout c) ->
  (forall i, nth_error (h_wits h') i = nth_error (h_wits h) i) ->
  (forall i m c, nth_error (h_ows h') i = Some (mkCell m c) -> exists m0 c0, nth_error (h_ows h) i = Some (mkCell m0 c0) /\ ow_bufs_from c0 c) ->
  forall x, Part h' a x -> Part h a x.
Proof.
  intros T I W O x P. induction P as [|m t i E J|m i c P IH E|m t i E J|m t E|m w c i P IH E J|m w c i P IH E J|m i c b P IH E B|m i c b P IH E B].
  - constructor.
  - rewrite T in E. eapply PIn; eassumption.
  - destruct (I _ _ _ E) as (m0 & c0 & E0 & <-). eapply POp; eassumption.
  - rewrite T in E. eapply POut; eassumption.
  - rewrite T in E. eapply PWit; eassumption.
  - rewrite W in E. eapply PIw; eassumption.
  - rewrite W in E. eapply POw; eassumption.
  - destruct (O _ _ _ E) as (m0 & c0 & E0 & Q). destruct (Q b (or_introl B)); [eapply PSurj|eapply PRange]; eassumption.
  - destruct (O _ _ _ E) as (m0 & c0 & E0 & Q). destruct (Q b (or_intror B)); [eapply PSurj|eapply PRange]; eassumption.
Qed.
Lemma self_ins h : forall i m c, nth_error (h_ins h) i = Some (mkCell m c) -> exists m0 c0, nth_error (h_ins h) i = Some (mkCell m0 c0) /\ io_prevout c0 = io_prevout c.
Proof. intros i m c E. exists m, c. auto. Qed.
Lemma self_ows h : forall i m c, nth_error (h_ows h) i = Some (mkCell m c) -> exists m0 c0, nth_error (h_ows h) i = Some (mkCell m0 c0) /\ ow_bufs_from c0 c.
Proof. intros i m c E. exists m, c. split; [exact E|]. intros b H. exact H. Qed.

Lemma cset_inv {A} (l l' : list (cell A)) a v : cset l a v = Ok l' -> exists v0, nth_error l a = Some (mkCell true v0) /\ l' = upd l a (mkCell true v).
Proof. unfold cset, deref. destruct (nth_error l a) as [[m v0]|]; [|discriminate]. cbn [rbind c_mut]. destruct m; [|discriminate]. intros E. injection E as <-. exists v0. auto. Qed.
Lemma cset_ok {A} (l : list (cell A)) a v v0 : nth_error l a = Some (mkCell true v0) -> cset l a v = Ok (upd l a (mkCell true v)).
Proof. intros E. unfold cset. rewrite (proj2 (deref_ok _ _ _) E). reflexivity. Qed.
Lemma cset_put {A} (l l' : list (cell A)) a v : cset l a v = Ok l' -> put l a (mkCell true v) l'.
Proof. intros E. destruct (cset_inv _ _ _ _ E) as (v0 & E0 & ->). eapply PutSet. exact E0. Qed.
Lemma upd_any {A} (l : list A) i j x c : nth_error (upd l i x) j = Some c -> nth_error l j = Some c \/ (i = j /\ c = x /\ (j < length l)%nat).
Proof.
  intros E. destruct (Nat.eq_dec i j) as [->|N]; [|left; rewrite upd_other in E by exact N; exact E]. right. split; [reflexivity|].
  assert (L : (j < length (upd l j x))%nat) by (apply nth_error_Some; congruence). rewrite upd_length in L. split; [|exact L]. rewrite upd_same in E by exact L. congruence.
Qed.

Section Blind.
Variable me : nat.
Definition bstep (h h' : heap) : Prop := good h h' /\ (forall x, exists_in h x -> (Part h me x -> is_array x) -> same h h' x)
  /\ (forall x, Part h' me x -> Part h me x \/ (~ exists_in h x /\ of_class h' true x)).
Lemma bstep_refl h : bstep h h.
Proof. split; [apply good_refl|]. split; [intros x _ _; destruct x; reflexivity|auto]. Qed.
Lemma same_trans h1 h2 h3 x : same h1 h2 x -> same h2 h3 x -> same h1 h3 x.
Proof. destruct x; cbn; congruence. Qed.
Lemma bstep_trans h1 h2 h3 : bstep h1 h2 -> bstep h2 h3 -> bstep h1 h3.
Proof.
  intros (G1 & S1 & P1) (G2 & S2 & P2). split; [eapply good_trans; eassumption|]. split.
  - intros x E N. eapply same_trans; [exact (S1 x E N)|]. apply S2; [eapply exists_evolves; [apply G1|exact E]|]. intros P. destruct (P1 x P) as [Q|[Q _]]; [exact (N Q)|destruct (Q E)].
  - intros x P. destruct (P2 x P) as [Q|[Q C]].
    + destruct (P1 x Q) as [R|[R C]]; [left; exact R|]. right. split; [exact R|]. eapply class_evolves; [apply G2|exact C].
    + right. split; [|exact C]. intros E. apply Q. eapply exists_evolves; [apply G1|exact E].
Qed.
Definition bsafe {A} (m : BM A) : Prop := forall s, bstep (b_heap s) (b_heap (snd (m s))).
Lemma bsafe_ret {A} (a : A) : bsafe (bret a). Proof. intros s. apply bstep_refl. Qed.
Lemma bsafe_reading {A} (m : M A) : bsafe (reading me m).
Proof. intros s. unfold reading. destruct (view_tx (b_heap s) me) as [t|e]; [|apply bstep_refl]. destruct (m (mkSt t (b_draws s))) as [o st]. apply bstep_refl. Qed.
Lemma bsafe_bind {A B} (m : BM A) (k : A -> BM B) : bsafe m -> (forall a, bsafe (k a)) -> bsafe (bbind m k).
Proof.
  intros Hm Hk s. unfold bbind. specialize (Hm s). destruct (m s) as [[a|r|e] s1]; cbn [snd] in *; try exact Hm. eapply bstep_trans; [exact Hm|apply Hk].
Qed.
Lemma bsafe_for {A L} (l : list A) (body : A -> L -> BM L) : (forall x st, bsafe (body x st)) -> forall st, bsafe (bfor l body st).
Proof. intros H. induction l as [|x l IH]; intros st; cbn [bfor]; [apply bsafe_ret|]. apply bsafe_bind; auto. Qed.
Lemma bsafe_upd f : (forall h h', f h = Ok h' -> bstep h h') -> bsafe (bupd f).
Proof. intros H s. unfold bupd. destruct (f (b_heap s)) as [h'|e] eqn:E; [apply H; exact E|apply bstep_refl]. Qed.

Lemma my_tx_inv h t : my_tx me h = Ok t -> exists m, nth_error (h_txs h) me = Some (mkCell m t).
Proof. unfold my_tx. destruct (deref (h_txs h) me) as [[m v]|] eqn:E; [|discriminate]. cbn [rbind c_val]. intros Q. injection Q as <-. apply deref_ok in E. eauto. Qed.
Lemma my_wit_inv h w : my_wit me h = Ok w -> exists m t m', nth_error (h_txs h) me = Some (mkCell m t) /\ nth_error (h_wits h) (to_wit t) = Some (mkCell m' w).
Proof.
  unfold my_wit. destruct (my_tx me h) as [t|] eqn:E; [|discriminate]. cbn [rbind]. destruct (deref (h_wits h) (to_wit t)) as [[m' v]|] eqn:Ew; [|discriminate]. cbn [rbind c_val].
  intros Q. injection Q as <-. apply deref_ok in Ew. destruct (my_tx_inv _ _ E) as [m Em]. eauto 6.
Qed.
Lemma index_in {A} (l : list A) n a : index l n = Ok a -> In a l.
Proof. unfold index, nth_res. destruct (nth_error l n) eqn:E; [|discriminate]. intros Q. injection Q as <-. eapply nth_error_In. exact E. Qed.
Ltac ref_cases x := destruct x; cbn; try reflexivity.
Lemma safe_vout n f : bsafe (assign_vout me n f).
Proof.
  apply bsafe_upd. intros h h' E. destruct (my_tx me h) as [t|] eqn:Et; [|discriminate]. cbn [rbind] in E. destruct (index (to_vout t) n) as [a|] eqn:Ei; [|discriminate]. cbn [rbind] in E.
  destruct (deref (h_outs h) a) as [c|] eqn:Ed; [|discriminate]. cbn [rbind] in E. destruct (cset (h_outs h) a (f (c_val c))) as [l|] eqn:Ec; [|discriminate]. cbn [rbind] in E. injection E as <-.
  destruct (my_tx_inv _ _ Et) as [m Em]. apply index_in in Ei. assert (P : Part h me (ROut a)) by (eapply POut; eassumption). assert (U := cset_put _ _ _ _ Ec).
  split; [eapply good_out; exact U|]. split.
  - intros x X N. ref_cases x. eapply put_other; [exact U| |exact X]. intros ->. exact (N P).
  - intros x X. left. revert x X. apply parts_back; cbn; eauto using self_ins, self_ows.
Qed.
Lemma safe_issuance n iss : bsafe (assign_issuance me n iss).
Proof.
  apply bsafe_upd. intros h h' E. destruct (my_tx me h) as [t|] eqn:Et; [|discriminate]. cbn [rbind] in E. destruct (index (to_vin t) n) as [a|] eqn:Ei; [|discriminate]. cbn [rbind] in E.
  destruct (deref (h_ins h) a) as [[mc c]|] eqn:Ed; [|discriminate]. cbn [rbind c_val] in E. apply deref_ok in Ed. match type of E with context[cset ?s ?b ?v] => destruct (cset s b v) as [l|] eqn:Ec end; [|discriminate]. cbn [rbind] in E. injection E as <-.
  destruct (my_tx_inv _ _ Et) as [m Em]. apply index_in in Ei. assert (P : Part h me (RIn a)) by (eapply PIn; eassumption). assert (U := cset_put _ _ _ _ Ec).
  destruct (cset_inv _ _ _ _ Ec) as (v0 & E0 & ->). assert (mc = true /\ v0 = c) as [-> ->] by (split; congruence).
  split. { eapply good_in; [exact U|]. intros F. exact (ins_fine _ _ _ _ F E0). }
  split.
  - intros x X N. ref_cases x. eapply put_other; [exact U| |exact X]. intros ->. exact (N P).
  - intros x X. left. revert x X. apply parts_back; cbn; eauto using self_ows.
    intros i m' c' Q. destruct (upd_any _ _ _ _ _ Q) as [Q'|(<- & Q' & _)]; [exists m', c'; auto|]. exists true, c. split; [exact E0|]. injection Q' as -> ->. reflexivity.
Qed.
Lemma safe_inwit n f : bsafe (assign_inwit me n f).
Proof.
  apply bsafe_upd. intros h h' E. destruct (my_wit me h) as [w|] eqn:Et; [|discriminate]. cbn [rbind] in E. destruct (index (wo_in w) n) as [a|] eqn:Ei; [|discriminate]. cbn [rbind] in E.
  destruct (deref (h_iws h) a) as [c|] eqn:Ed; [|discriminate]. cbn [rbind] in E. destruct (cset (h_iws h) a (f (c_val c))) as [l|] eqn:Ec; [|discriminate]. cbn [rbind] in E. injection E as <-.
  destruct (my_wit_inv _ _ Et) as (m & t & m' & Em & Ew). apply index_in in Ei. assert (P : Part h me (RIw a)) by (eapply PIw; [eapply PWit; exact Em|exact Ew|exact Ei]). assert (U := cset_put _ _ _ _ Ec).
  split; [eapply good_iw; exact U|]. split.
  - intros x X N. ref_cases x. eapply put_other; [exact U| |exact X]. intros ->. exact (N P).
  - intros x X. left. revert x X. apply parts_back; cbn; eauto using self_ins, self_ows.
Qed.
Lemma safe_outwit n s r : bsafe (assign_outwit me n s r).
Proof.
  apply bsafe_upd. intros h h' E. destruct (my_wit me h) as [w|] eqn:Et; [|discriminate]. cbn [rbind] in E. destruct (index (wo_out w) n) as [a|] eqn:Ei; [|discriminate]. cbn [rbind] in E.
  match type of E with context[cset ?s ?b ?v] => destruct (cset s b v) as [l|] eqn:Ec end; [|discriminate]. cbn [rbind] in E. injection E as <-.
  destruct (my_wit_inv _ _ Et) as (m & t & m' & Em & Ew). apply index_in in Ei. assert (P : Part h me (ROw a)) by (eapply POw; [eapply PWit; exact Em|exact Ew|exact Ei]). assert (U := cset_put _ _ _ _ Ec).
  destruct (cset_inv _ _ _ _ Ec) as (v0 & E0 & ->).
  split; [eapply good_ow; [exact U|]; intros _; split; exact I|]. split.
  - intros x X N. ref_cases x. eapply put_other; [exact U| |exact X]. intros ->. exact (N P).
  - intros x X. left. revert x X. apply parts_back; cbn; eauto using self_ins.
    intros i m1 c' Q. destruct (upd_any _ _ _ _ _ Q) as [Q'|(<- & Q' & _)]; [exists m1, c'; split; [exact Q'|intros b H; exact H]|]. exists true, v0. split; [exact E0|]. injection Q' as -> ->.
    intros b [B|B]; discriminate.
Qed.

(** Padding: new mutable witness objects at the end of the list. *)
Lemma prefix_grows {A} (l l' : list (cell A)) : prefix l l' -> grows l l'.
Proof. intros P a c E. exists c. split; [exact (prefix_some _ _ _ _ P E)|auto]. Qed.
Lemma repeat_at {A} (l : list A) x k j : In j (seq (length l) k) -> nth_error (l ++ repeat x k) j = Some x.
Proof. intros I. apply in_seq in I. rewrite nth_error_app2 by lia. apply nth_error_repeat. lia. Qed.
Lemma pad_in_step h t w mw k : nth_error (h_txs h) me = Some t -> nth_error (h_wits h) (to_wit (c_val t)) = Some (mkCell mw w) ->
  forall l, cset (h_wits h) (to_wit (c_val t)) (mkWitObj (wo_in w ++ seq (length (h_iws h)) k) (wo_out w)) = Ok l ->
  bstep h (set_wits (set_iws h (h_iws h ++ repeat (mkCell true inwit_null) k)) l).
Proof.
  intros Et Ew l Ec. assert (U := cset_put _ _ _ _ Ec). destruct (cset_inv _ _ _ _ Ec) as (v0 & E0 & ->). assert (mw = true /\ v0 = w) as [-> ->] by (split; congruence).
  set (h1 := set_iws h (h_iws h ++ repeat (mkCell true inwit_null) k)). destruct t as [mt t]. cbn [c_val] in *.
  assert (V1 : Evolves h h1). { constructor; cbn; try apply grows_refl; [apply prefix_grows; apply prefix_app|apply le_n]. }
  assert (G1 : good h h1). { split; [exact V1|]. intros F. fine V1 F. }
  assert (G : good h1 (set_wits h1 (upd (h_wits h) (to_wit t) (mkCell true (mkWitObj (wo_in w ++ seq (length (h_iws h)) k) (wo_out w)))))).
  { eapply (good_wit h1); [exact U|]. intros F. destruct (wits_fine h1 _ _ _ F E0) as [A B]. split; cbn [c_mut c_val wo_in wo_out]; [|exact B]. apply Forall_app. split; [exact A|].
    apply Forall_forall. intros j J. exists (mkCell true inwit_null). split; [apply repeat_at; exact J|discriminate]. }
  split; [eapply good_trans; eassumption|]. split.
  - intros x X N. assert (P : Part h me (RWit (to_wit t))) by (eapply PWit; exact Et). ref_cases x.
    + apply nth_error_app1. exact X.
    + eapply put_other; [exact U| |exact X]. intros ->. exact (N P).
  - intros x X. assert (Q : Part h me x \/ (exists j, x = RIw j /\ In j (seq (length (h_iws h)) k))).
    { induction X as [|m t' i E J|m i c P IH E|m t' i E J|m t' E|m w' c i P IH E J|m w' c i P IH E J|m i c b P IH E B|m i c b P IH E B]; cbn in *.
      - left. constructor.
      - left. eapply PIn; eassumption.
      - left. destruct IH as [IH|(j & Q & _)]; [eapply POp; eassumption|discriminate].
      - left. eapply POut; eassumption.
      - left. eapply PWit; eassumption.
      - destruct IH as [IH|(j & Q & _)]; [|discriminate]. destruct (upd_any _ _ _ _ _ E) as [Q'|(<- & Q' & _)]; [left; eapply PIw; eassumption|]. injection Q' as -> ->. cbn [wo_in] in J.
        apply in_app_or in J. destruct J as [J|J]; [left; eapply PIw; eassumption|]. right. exists i. auto.
      - left. destruct IH as [IH|(j & Q & _)]; [|discriminate]. destruct (upd_any _ _ _ _ _ E) as [Q'|(<- & Q' & _)]; [eapply POw; eassumption|]. injection Q' as -> ->. cbn [wo_out] in J. eapply POw; eassumption.
      - left. destruct IH as [IH|(j & Q & _)]; [eapply PSurj; eassumption|discriminate].
      - left. destruct IH as [IH|(j & Q & _)]; [eapply PRange; eassumption|discriminate]. }
    destruct Q as [Q|(j & -> & J)]; [left; exact Q|]. right. split; [cbn; apply in_seq in J; lia|]. exists inwit_null. cbn. apply repeat_at. exact J.
Qed.
Lemma pad_out_step h t w mw k : nth_error (h_txs h) me = Some t -> nth_error (h_wits h) (to_wit (c_val t)) = Some (mkCell mw w) ->
  forall l, cset (h_wits h) (to_wit (c_val t)) (mkWitObj (wo_in w) (wo_out w ++ seq (length (h_ows h)) k)) = Ok l ->
  bstep h (set_wits (set_ows h (h_ows h ++ repeat (mkCell true (mkOwObj (BBytes []) (BBytes []))) k)) l).
Proof.
  intros Et Ew l Ec. assert (U := cset_put _ _ _ _ Ec). destruct (cset_inv _ _ _ _ Ec) as (v0 & E0 & ->). assert (mw = true /\ v0 = w) as [-> ->] by (split; congruence).
  set (nul := mkOwObj (BBytes []) (BBytes [])) in *.
  set (h1 := set_ows h (h_ows h ++ repeat (mkCell true nul) k)). destruct t as [mt t]. cbn [c_val] in *.
  assert (V1 : Evolves h h1). { constructor; cbn; try apply grows_refl; [apply prefix_grows; apply prefix_app|apply le_n]. }
  assert (G1 : good h h1).
  { split; [exact V1|]. intros F. fine V1 F. apply Forall_app. split; [exact (all_ow _ _ _ H0 V1)|]. apply Forall_forall. intros c C. apply repeat_spec in C. subst c. split; exact I. }
  assert (G : good h1 (set_wits h1 (upd (h_wits h) (to_wit t) (mkCell true (mkWitObj (wo_in w) (wo_out w ++ seq (length (h_ows h)) k)))))).
  { eapply (good_wit h1); [exact U|]. intros F. destruct (wits_fine h1 _ _ _ F E0) as [A B]. split; cbn [c_mut c_val wo_in wo_out]; [exact A|]. apply Forall_app. split; [exact B|].
    apply Forall_forall. intros j J. exists (mkCell true nul). split; [apply repeat_at; exact J|discriminate]. }
  split; [eapply good_trans; eassumption|]. split.
  - intros x X N. assert (P : Part h me (RWit (to_wit t))) by (eapply PWit; exact Et). ref_cases x.
    + apply nth_error_app1. exact X.
    + eapply put_other; [exact U| |exact X]. intros ->. exact (N P).
  - intros x X. assert (Q : Part h me x \/ (exists j, x = ROw j /\ In j (seq (length (h_ows h)) k))).
    { induction X as [|m t' i E J|m i c P IH E|m t' i E J|m t' E|m w' c i P IH E J|m w' c i P IH E J|m i c b P IH E B|m i c b P IH E B]; cbn in *.
      - left. constructor.
      - left. eapply PIn; eassumption.
      - left. destruct IH as [IH|(j & Q & _)]; [eapply POp; eassumption|discriminate].
      - left. eapply POut; eassumption.
      - left. eapply PWit; eassumption.
      - left. destruct IH as [IH|(j & Q & _)]; [|discriminate]. destruct (upd_any _ _ _ _ _ E) as [Q'|(<- & Q' & _)]; [eapply PIw; eassumption|]. injection Q' as -> ->. cbn [wo_in] in J. eapply PIw; eassumption.
      - destruct IH as [IH|(j & Q & _)]; [|discriminate]. destruct (upd_any _ _ _ _ _ E) as [Q'|(<- & Q' & _)]; [left; eapply POw; eassumption|]. injection Q' as -> ->. cbn [wo_out] in J.
        apply in_app_or in J. destruct J as [J|J]; [left; eapply POw; eassumption|]. right. exists i. auto.
      - left. assert (Z : nth_error (h_ows h ++ repeat (mkCell true nul) k) i = Some (mkCell m c) -> nth_error (h_ows h) i = Some (mkCell m c)).
        { intros Z. destruct (Nat.lt_ge_cases i (length (h_ows h))) as [L|L]; [rewrite nth_error_app1 in Z by exact L; exact Z|]. rewrite nth_error_app2 in Z by exact L.
          apply nth_error_In, repeat_spec in Z. injection Z as -> ->. discriminate. }
        specialize (Z E). destruct IH as [IH|(j & Q & J)]; [eapply PSurj; eassumption|]. injection Q as <-. apply in_seq in J. assert (nth_error (h_ows h) i <> None) by congruence. apply nth_error_Some in H. lia.
      - left. assert (Z : nth_error (h_ows h ++ repeat (mkCell true nul) k) i = Some (mkCell m c) -> nth_error (h_ows h) i = Some (mkCell m c)).
        { intros Z. destruct (Nat.lt_ge_cases i (length (h_ows h))) as [L|L]; [rewrite nth_error_app1 in Z by exact L; exact Z|]. rewrite nth_error_app2 in Z by exact L.
          apply nth_error_In, repeat_spec in Z. injection Z as -> ->. discriminate. }
        specialize (Z E). destruct IH as [IH|(j & Q & J)]; [eapply PRange; eassumption|]. injection Q as <-. apply in_seq in J. assert (nth_error (h_ows h) i <> None) by congruence. apply nth_error_Some in H. lia. }
    destruct Q as [Q|(j & -> & J)]; [left; exact Q|]. right. split; [cbn; apply in_seq in J; lia|]. exists nul. cbn. apply repeat_at. exact J.
Qed.
Lemma safe_pad_in n : bsafe (pad_inwits me n).
Proof.
  apply bsafe_upd. intros h h' E. destruct (my_tx me h) as [t|] eqn:Et; [|discriminate]. cbn [rbind] in E. destruct (deref (h_wits h) (to_wit t)) as [[mw w]|] eqn:Ed; [|discriminate].
  cbn [rbind c_val] in E. cbv zeta in E. apply deref_ok in Ed. destruct (my_tx_inv _ _ Et) as [m Em]. destruct ((n - length (wo_in w) =? 0)%nat); [injection E as <-; apply bstep_refl|].
  match type of E with context[cset ?s ?b ?v] => destruct (cset s b v) as [l|] eqn:Ec end; [|discriminate]. cbn [rbind] in E. injection E as <-. exact (pad_in_step h (mkCell m t) w mw _ Em Ed l Ec).
Qed.
Lemma safe_pad_out n : bsafe (pad_outwits me n).
Proof.
  apply bsafe_upd. intros h h' E. destruct (my_tx me h) as [t|] eqn:Et; [|discriminate]. cbn [rbind] in E. destruct (deref (h_wits h) (to_wit t)) as [[mw w]|] eqn:Ed; [|discriminate].
  cbn [rbind c_val] in E. cbv zeta in E. apply deref_ok in Ed. destruct (my_tx_inv _ _ Et) as [m Em]. destruct ((n - length (wo_out w) =? 0)%nat); [injection E as <-; apply bstep_refl|].
  match type of E with context[cset ?s ?b ?v] => destruct (cset s b v) as [l|] eqn:Ec end; [|discriminate]. cbn [rbind] in E. injection E as <-. exact (pad_out_step h (mkCell m t) w mw _ Em Ed l Ec).
Qed.

Variable z : Crypto.
Variable rand : nat -> bytes.
Variable args : blind_args.
Ltac safe := repeat first
  [ apply bsafe_bind; [|intros ?] | apply bsafe_ret | apply bsafe_reading | apply safe_vout | apply safe_issuance | apply safe_inwit | apply safe_outwit | apply safe_pad_in | apply safe_pad_out
  | match goal with |- bsafe (match ?x with _ => _ end) => destruct x end
  | match goal with |- bsafe (let '_ := ?x in _) => destruct x end ].
Lemma safe_pseudo n p L : bsafe (blind_pseudo_obj me z rand args n p L).
Proof. unfold blind_pseudo_obj. cbv zeta. safe. Qed.
Lemma safe_input n L : bsafe (blind_input_obj me z rand args n L).
Proof. unfold blind_input_obj. apply bsafe_bind; [apply safe_pseudo|intros; apply safe_pseudo]. Qed.
Lemma safe_finish a b c d e f g L : bsafe (finish_output_obj me z rand args a b c d e f g L).
Proof. unfold finish_output_obj. cbv zeta. safe. Qed.
Lemma safe_output a b c np L : bsafe (blind_output_obj me z rand args a b c np L).
Proof. unfold blind_output_obj. destruct np. cbv zeta. safe; apply safe_finish. Qed.
Lemma safe_body : bsafe (blind_body_obj me z rand args).
Proof. unfold blind_body_obj. cbv zeta. safe; apply bsafe_for; intros; [apply safe_input|apply safe_output]. Qed.
Lemma blind_obj_step h d : bstep h (b_heap (snd (blind_obj me z rand args h d))).
Proof.
  unfold blind_obj. destruct (deref (h_txs h) me) as [c|]; [|apply bstep_refl]. destruct (negb (c_mut c)); [apply bstep_refl|].
  assert (S := safe_body (mkBSt h d)). destruct (blind_body_obj me z rand args (mkBSt h d)) as [[r|r|e] s]; exact S.
Qed.
End Blind.

(** * Every operation *)
Section Ops.
Variable z : Crypto.
Variable rand : nat -> bytes.
Lemma withins {A} (store : heap -> list (cell A)) h l : forallb (within (store h)) l = true -> Forall (In_store store h) l.
Proof. intros H. apply Forall_forall. intros a I. rewrite forallb_forall in H. specialize (H a I). apply Nat.ltb_lt in H. exact H. Qed.
Lemma buf_ok_in h b : buf_ok h b = true -> buf_in h b.
Proof. destruct b; cbn; [trivial|]. intros H. apply Nat.ltb_lt in H. exact H. Qed.
Lemma deref_none {A} (l : list A) a : ~ (a < length l)%nat -> deref l a = Raise EAttribute.
Proof. intros H. unfold deref. destruct (nth_error l a) eqn:E; [|reflexivity]. exfalso. apply H. apply nth_error_Some. congruence. Qed.
Lemma within_points {A} (store : heap -> list (cell A)) h l : Forall (In_store store h) l -> Forall (points true (store h)) l.
Proof. intros F. eapply Forall_impl; [|exact F]. intros a L. destruct (in_store_some _ _ L) as [c E]. exists c. split; [exact E|discriminate]. Qed.

Definition assigns_only (h h' : heap) (o : op) : Prop := good h h' /\ forall x, exists_in h x -> ~ Assigns h o x -> same h h' x.
Lemma step_assigns h h' o : step h h' -> assigns_only h h' o.
Proof. intros [G X]. split; [exact G|]. intros x E _. apply ext_same; assumption. Qed.
Lemma refl_assigns h o : assigns_only h h o.
Proof. apply step_assigns. apply step_refl. Qed.
Lemma from_assigns {A} (store : heap -> list (cell A)) (f : nat -> heap -> res (nat * heap)) h a o :
  (In_store store h a -> exists b h', f a h = Ok (b, h') /\ step h h') -> (~ In_store store h a -> exists e, f a h = Raise e) -> assigns_only h (made h (f a h)) o.
Proof.
  intros H1 H2. destruct (Nat.lt_ge_cases a (length (store h))) as [L|L].
  - destruct (H1 L) as (b & h' & -> & S). apply step_assigns. exact S.
  - destruct (H2 ltac:(unfold In_store; lia)) as [e ->]. apply refl_assigns.
Qed.
Ltac two := match goal with H : _ && _ = true |- _ => apply andb_prop in H; destruct H end.
Lemma exec_assigns h o : Fine h -> assigns_only h (exec z rand h o) o.
Proof.
  intros F. unfold exec. destruct (names_objects h o) eqn:W; cbn [negb]; [|apply refl_assigns].
  destruct o; cbn [names_objects] in W; repeat two.
  - apply step_assigns, step_op.
  - destruct (new_txin_spec m p script seq iss pegin h F) as (b & h' & -> & S & _); [apply Nat.ltb_lt in W; exact W|]. apply step_assigns, S.
  - apply step_assigns, step_out.
  - apply step_assigns, step_iw.
  - apply step_assigns, step_ow; apply buf_ok_in; assumption.
  - destruct (new_wit_spec m ins outs h F) as (b & h' & v & -> & S & _); [apply withins; assumption|apply withins; assumption|]. apply step_assigns, S.
  - destruct (new_tx_spec m vin vout lock ver wit h F) as (b & h' & v & -> & S & _); [apply withins; assumption|apply withins; assumption| |apply step_assigns, S].
    intros a ->. apply Nat.ltb_lt in H0. exact H0.
  - apply step_assigns, step_arr.
  - apply (from_assigns h_ins).
    + intros L. destruct (from_txin_spec m h a F L) as (b & h' & E & S & _). eauto.
    + intros L. unfold from_txin. rewrite (deref_none _ _ L). cbn [rbind]. eauto.
  - apply (from_assigns h_outs).
    + intros L. destruct (from_txout_spec m h a F L) as (b & h' & E & S & _). eauto.
    + intros L. unfold from_txout. rewrite (deref_none _ _ L). cbn [rbind]. eauto.
  - apply (from_assigns h_iws).
    + intros L. destruct (from_inwit_spec m h a F L) as (b & h' & E & S & _). eauto.
    + intros L. unfold from_inwit. rewrite (deref_none _ _ L). cbn [rbind]. eauto.
  - apply (from_assigns h_ows).
    + intros L. destruct (from_outwit_spec m h a F L) as (b & h' & E & S & _). eauto.
    + intros L. unfold from_outwit. rewrite (deref_none _ _ L). cbn [rbind]. eauto.
  - apply (from_assigns h_wits).
    + intros L. destruct (from_wit_spec m h a F L) as (b & h' & E & S & _). eauto.
    + intros L. unfold from_wit. rewrite (deref_none _ _ L). cbn [rbind]. eauto.
  - apply (from_assigns h_txs).
    + intros L. destruct (from_tx_spec m h a F L) as (b & h' & E & S & _). eauto.
    + intros L. unfold from_tx. rewrite (deref_none _ _ L). cbn [rbind]. eauto.
  - destruct (cset (h_ops h) a v) as [l|] eqn:E; cbn [rbind stored]; [|apply refl_assigns]. apply cset_put in E. split; [eapply good_op; exact E|].
    intros x X N. cbn [Assigns] in N. destruct x; try reflexivity. eapply put_other; [exact E|congruence|exact X].
  - destruct (cset (h_ins h) a v) as [l|] eqn:E; cbn [rbind stored]; [|apply refl_assigns]. apply cset_put in E. split.
    + eapply good_in; [exact E|]. intros _. apply Nat.ltb_lt in W. destruct (in_store_some _ _ W) as [c C]. exists c. split; [exact C|discriminate].
    + intros x X N. cbn [Assigns] in N. destruct x; try reflexivity. eapply put_other; [exact E|congruence|exact X].
  - destruct (cset (h_outs h) a v) as [l|] eqn:E; cbn [rbind stored]; [|apply refl_assigns]. apply cset_put in E. split; [eapply good_out; exact E|].
    intros x X N. cbn [Assigns] in N. destruct x; try reflexivity. eapply put_other; [exact E|congruence|exact X].
  - destruct (cset (h_iws h) a v) as [l|] eqn:E; cbn [rbind stored]; [|apply refl_assigns]. apply cset_put in E. split; [eapply good_iw; exact E|].
    intros x X N. cbn [Assigns] in N. destruct x; try reflexivity. eapply put_other; [exact E|congruence|exact X].
  - destruct (cset (h_ows h) a v) as [l|] eqn:E; cbn [rbind stored]; [|apply refl_assigns]. apply cset_put in E. split.
    + eapply good_ow; [exact E|]. intros _. split; apply buf_ok_in; assumption.
    + intros x X N. cbn [Assigns] in N. destruct x; try reflexivity. eapply put_other; [exact E|congruence|exact X].
  - destruct (cset (h_wits h) a v) as [l|] eqn:E; cbn [rbind stored]; [|apply refl_assigns]. apply cset_put in E. split.
    + eapply good_wit; [exact E|]. intros _. split; apply within_points; apply withins; assumption.
    + intros x X N. cbn [Assigns] in N. destruct x; try reflexivity. eapply put_other; [exact E|congruence|exact X].
  - destruct (cset (h_txs h) a v) as [l|] eqn:E; cbn [rbind stored]; [|apply refl_assigns]. apply cset_put in E. split.
    + eapply good_tx; [exact E|]. intros _. split; [|split]; [apply (within_points h_ins), withins; assumption|apply (within_points h_outs), withins; assumption|].
      apply Nat.ltb_lt in H0. destruct (in_store_some _ _ H0) as [c C]. exists c. split; [exact C|discriminate].
    + intros x X N. cbn [Assigns] in N. destruct x; try reflexivity. eapply put_other; [exact E|congruence|exact X].
  - destruct (within (h_arrs h) a) eqn:E; [|apply refl_assigns]. split; [apply good_arr; rewrite upd_length; apply le_n|].
    intros x X N. cbn [Assigns] in N. destruct x; try reflexivity. cbn. apply upd_other. congruence.
  - destruct (blind_obj_step a z rand args h draws) as (G & S & _). split; [exact G|]. intros x X N. apply (S x X). intros P. destruct x; try exact I; exfalso; apply N; (split; [exact P|intros Q; exact Q]).
Qed.
Lemma exec_fine h o : Fine h -> Fine (exec z rand h o).
Proof. intros F. apply (exec_assigns h o F). exact F. Qed.
Lemma run_fine p : forall h, Fine h -> Fine (run z rand h p).
Proof. induction p as [|o p IH]; intros h F; [exact F|]. cbn. apply IH. apply exec_fine. exact F. Qed.
Lemma run_evolves p : forall h, Fine h -> Evolves h (run z rand h p).
Proof.
  induction p as [|o p IH]; intros h F; [apply Evolves_refl|]. eapply Evolves_trans; [apply (exec_assigns h o F)|]. apply IH. apply exec_fine. exact F.
Qed.
Lemma reachable_fine h : Reachable z rand h -> Fine h.
Proof. intros [p ->]. apply run_fine. constructor; constructor. Qed.
End Ops.
