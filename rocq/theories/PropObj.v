(** C79: snapshots and copies of transactions. *)
From Verif Require Import Base BaseFacts TxModel BlindModel BlindFacts ToyCrypto ToyTx ObjModel SpecObj ObjFacts ObjBlind.
From Coq Require Import Lia.

Lemma part_exists h a x : Fine h -> exists_in h (RTx a) -> Part h a x -> exists_in h x.
Proof.
  intros F X P. induction P as [|m t i E J|m i c P IH E|m t i E J|m t E|m w c i P IH E J|m w c i P IH E J|m i c b P IH E B|m i c b P IH E B]; cbn.
  - exact X.
  - eapply points_in. eapply forall_in; [apply (txs_fine _ _ _ _ F E)|exact J].
  - eapply points_in. exact (ins_fine _ _ _ _ F E).
  - eapply points_in. eapply forall_in; [apply (txs_fine _ _ _ _ F E)|exact J].
  - eapply points_in. apply (txs_fine _ _ _ _ F E).
  - eapply points_in. eapply forall_in; [apply (wits_fine _ _ _ _ F E)|exact J].
  - eapply points_in. eapply forall_in; [apply (wits_fine _ _ _ _ F E)|exact J].
  - destruct (ows_fine _ _ _ _ F E) as [Q _]. rewrite B in Q. exact Q.
  - destruct (ows_fine _ _ _ _ F E) as [_ Q]. rewrite B in Q. exact Q.
Qed.
Lemma rmap_total {A B} (f : A -> res B) l : (forall x, In x l -> exists y, f x = Ok y) -> exists ys, rmap f l = Ok ys.
Proof.
  induction l as [|x l IH]; intros H; [exists []; reflexivity|]. destruct (H x (or_introl eq_refl)) as [y E]. destruct IH as [ys Es]; [intros u U; apply H; right; exact U|].
  exists (y :: ys). cbn [rmap]. rewrite E. cbn [rbind]. rewrite Es. reflexivity.
Qed.
Lemma buf_total h b : buf_in h b -> exists x, view_buf h b = Ok x.
Proof. destruct b as [x|a]; cbn; intros H; [exists x; reflexivity|]. destruct (in_store_some _ _ H) as [c E]. exists c. apply deref_ok. exact E. Qed.
Lemma view_total h a : Fine h -> exists_in h (RTx a) -> exists t, view_tx h a = Ok t.
Proof.
  intros F X. destruct (in_store_some _ _ X) as [[m t] E]. destruct (txs_fine _ _ _ _ F E) as (Q1 & Q2 & Q3). unfold view_tx. rewrite (proj2 (deref_ok _ _ _) E). cbn [rbind c_val].
  destruct (rmap_total (view_in h) (to_vin t)) as [i Ei].
  { intros x I. destruct (forall_in _ _ _ Q1 I) as ([mi c] & Ec & _). unfold view_in. rewrite (proj2 (deref_ok _ _ _) Ec). cbn [rbind c_val]. destruct (ins_fine _ _ _ _ F Ec) as (p & Ep & _).
    rewrite (proj2 (deref_ok _ _ _) Ep). cbn [rbind]. eauto. }
  destruct (rmap_total (view_out h) (to_vout t)) as [o Eo].
  { intros x I. destruct (forall_in _ _ _ Q2 I) as (c & Ec & _). unfold view_out. rewrite (proj2 (deref_ok _ _ _) Ec). cbn [rbind]. eauto. }
  destruct Q3 as ([mw w] & Ew & _). destruct (wits_fine _ _ _ _ F Ew) as [R1 R2]. unfold view_wit. rewrite (proj2 (deref_ok _ _ _) Ew). cbn [rbind c_val].
  destruct (rmap_total (view_iw h) (wo_in w)) as [iw Eiw].
  { intros x I. destruct (forall_in _ _ _ R1 I) as (c & Ec & _). unfold view_iw. rewrite (proj2 (deref_ok _ _ _) Ec). cbn [rbind]. eauto. }
  destruct (rmap_total (view_ow h) (wo_out w)) as [ow Eow].
  { intros x I. destruct (forall_in _ _ _ R2 I) as ([mo c] & Ec & _). unfold view_ow. rewrite (proj2 (deref_ok _ _ _) Ec). cbn [rbind c_val]. destruct (ows_fine _ _ _ _ F Ec) as [B1 B2].
    destruct (buf_total _ _ B1) as [s Es]. destruct (buf_total _ _ B2) as [r Er]. rewrite Es, Er. cbn [rbind]. eauto. }
  rewrite Ei, Eo, Eiw, Eow. cbn [rbind]. eauto.
Qed.

(** to_immutable() of any transaction gives a transaction that reads the same, changes no object, is immutable in all its parts and
    reads the same after every program, whatever the program assigns, copies or blinds. *)
Theorem C79_snapshot z rand h a : Reachable z rand h -> exists_in h (RTx a) -> Plain h a ->
  exists b h', to_immutable a h = Ok (b, h') /\ (exists t, view_tx h' b = Ok t /\ view_tx h a = Ok t) /\ Frozen h' b
  /\ (forall x, exists_in h x -> same h h' x)
  /\ forall p, view_tx (run z rand h' p) b = view_tx h' b.
Proof.
  intros R X PL. assert (F := reachable_fine _ _ _ R). destruct (from_tx_spec false h a F X) as (b & h' & E & S & C).
  assert (F' := step_fine _ _ S F). assert (V := view_tx_copy _ _ _ _ _ F (proj2 S) C). assert (Z : Frozen h' b).
  { apply frozen; [exact F'|exact (copied_class _ _ _ _ _ _ _ C)|exact (plain_copy _ _ _ _ _ C PL)]. }
  exists b, h'. split; [exact E|]. split; [destruct (view_total _ _ F X) as [t Et]; exists t; rewrite V; auto|]. split; [exact Z|]. split; [intros x E'; apply ext_same; [apply S|exact E']|].
  intros p. apply view_same. intros x P. apply immutable_same; [apply run_evolves; exact F'|]. apply Z. exact P.
Qed.
Print Assumptions C79_snapshot.

(** to_mutable() gives a transaction that reads the same, whose parts are mutable, all different and all new: it shares no object
    with anything that existed before, except bytearrays. *)
Theorem C79_copy z rand h a : Reachable z rand h -> exists_in h (RTx a) ->
  exists b h', to_mutable a h = Ok (b, h') /\ (exists t, view_tx h' b = Ok t /\ view_tx h a = Ok t) /\ Owns h' b
  /\ (forall x, exists_in h x -> same h h' x)
  /\ (forall x, Part h' b x -> is_array x \/ ~ exists_in h x)
  /\ (forall c x, exists_in h (RTx c) -> Part h' c x -> Part h' b x -> is_array x).
Proof.
  intros R X. assert (F := reachable_fine _ _ _ R). destruct (from_tx_spec true h a F X) as (b & h' & E & S & C).
  assert (V := view_tx_copy _ _ _ _ _ F (proj2 S) C). assert (N := fun x => copy_parts_new _ _ _ _ x C).
  exists b, h'. split; [exact E|]. split; [destruct (view_total _ _ F X) as [t Et]; exists t; rewrite V; auto|]. split; [exact (copy_owns _ _ _ _ C)|].
  split; [intros x E'; apply ext_same; [apply S|exact E']|]. split; [exact N|].
  intros c x Xc Pc Pb. destruct (N x Pb) as [A|A]; [exact A|]. exfalso. apply A. apply (part_exists h c x F Xc).
  revert x Pc Pb A. intros x Pc _ _. revert x Pc. apply part_same. intros x P. apply ext_same; [apply S|]. exact (part_exists h c x F Xc P).
Qed.
Print Assumptions C79_copy.

(** CElementsMutableTransaction(vin, vout, ...) copies what it is given: the same object passed several times becomes several. *)
Theorem C79_constructed z rand h ins outs lock ver w : Reachable z rand h ->
  (forall i, In i ins -> exists_in h (RIn i)) -> (forall i, In i outs -> exists_in h (ROut i)) -> exists_in h (RWit w) ->
  exists b h', new_tx true ins outs lock ver (Some w) h = Ok (b, h') /\ Owns h' b
  /\ (forall x, exists_in h x -> same h h' x) /\ (forall x, Part h' b x -> is_array x \/ ~ exists_in h x)
  /\ exists vi vo vw, rmap (view_in h) ins = Ok vi /\ rmap (view_out h) outs = Ok vo /\ view_wit h w = Ok vw /\ view_tx h' b = Ok (mkTx vi vo lock ver vw).
Proof.
  intros R Xi Xo Xw. assert (F := reachable_fine _ _ _ R).
  destruct (new_tx_spec true ins outs lock ver (Some w) h F) as (b & h' & v' & E & S & L & N & R1 & R2 & R3 & R4 & R5 & R6).
  { apply Forall_forall. exact Xi. }
  { apply Forall_forall. exact Xo. }
  { intros a A. injection A as <-. exact Xw. }
  (* the same as copying a transaction holding exactly these objects *)
  set (g := set_txs h (h_txs h ++ [mkCell true (mkTxObj ins outs lock ver w)])). set (a := length (h_txs h)).
  assert (Ga : nth_error (h_txs g) a = Some (mkCell true (mkTxObj ins outs lock ver w))) by (unfold g, a; cbn [h_txs set_txs]; rewrite nth_error_app2, Nat.sub_diag by lia; reflexivity).
  assert (Sg : step h g).
  { apply step_tx; cbn [to_vin to_vout to_wit]; [apply (within_points h_ins), Forall_forall; exact Xi|apply (within_points h_outs), Forall_forall; exact Xo|].
    destruct (in_store_some _ _ Xw) as [c Ec]. exists c. split; [exact Ec|discriminate]. }
  destruct (view_total g a (step_fine _ _ Sg F)) as [t Et]; [cbn [exists_in]; apply nth_error_Some; rewrite Ga; discriminate|].
  assert (Vg : exists vi vo vw, rmap (view_in h) ins = Ok vi /\ rmap (view_out h) outs = Ok vo /\ view_wit h w = Ok vw).
  { unfold view_tx in Et. rewrite (proj2 (deref_ok _ _ _) Ga) in Et. cbn [rbind c_val to_vin to_vout to_wit] in Et.
    change (view_in g) with (view_in h) in Et. change (view_out g) with (view_out h) in Et. change (view_wit g w) with (view_wit h w) in Et.
    destruct (rmap (view_in h) ins) as [vi|]; [|discriminate]. cbn [rbind] in Et. destruct (rmap (view_out h) outs) as [vo|]; [|discriminate]. cbn [rbind] in Et.
    destruct (view_wit h w) as [vw|]; [|discriminate]. eauto 8. }
  destruct Vg as (vi & vo & vw & Evi & Evo & Evw). destruct R5 as ([mw wv] & [mw' wv'] & Nw & Nw' & Mw & Gw & (W1 & W2 & W3)). cbn [c_val c_mut] in *. subst mw'.
  destruct (R6 eq_refl) as [D1 D2]. destruct (W3 eq_refl) as [D3 D4].
  assert (PP : forall x, Part h' b x -> of_class h' true x /\ (is_array x \/ ~ exists_in h x)).
  { intros x P. assert (Q : match x with
      | RTx j => j = b | RIn j => In j (to_vin v') | ROut j => In j (to_vout v') | RWit j => j = to_wit v' | RIw j => In j (wo_in wv') | ROw j => In j (wo_out wv')
      | ROp j => exists i, OpCopy true h h' i j | RArr _ => True end).
    { destruct P as [|m t' i Et' J|m i c P Ec|m t' i Et' J|m t' Et'|m w' c i P Ec J|m w' c i P Ec J|m i c b' P Ec B|m i c b' P Ec B]; trivial.
      - assert (t' = v') by congruence. subst t'. exact J.
      - assert (J : In i (to_vin v')) by (inversion P as [|m1 t1 i1 Et1 J1| | | | | | |]; subst; assert (t1 = v') by congruence; subst t1; exact J1).
        destruct (f2_in _ _ _ _ R1 J) as (u & _ & ([mc v0] & [mc' v1] & _ & N1 & _ & _ & (_ & _ & _ & _ & K))). cbn [c_val] in *. assert (v1 = c) by congruence. subst v1. eauto.
      - assert (t' = v') by congruence. subst t'. exact J.
      - assert (t' = v') by congruence. subst t'. reflexivity.
      - assert (Ew : w' = to_wit v') by (inversion P as [| | | |m1 t1 Et1| | | |]; subst; assert (t1 = v') by congruence; subst t1; reflexivity). subst w'. assert (c = wv') by congruence. subst c. exact J.
      - assert (Ew : w' = to_wit v') by (inversion P as [| | | |m1 t1 Et1| | | |]; subst; assert (t1 = v') by congruence; subst t1; reflexivity). subst w'. assert (c = wv') by congruence. subst c. exact J. }
    destruct x as [j|j|j|j|j|j|j|j].
    - destruct Q as (i & K). split; [exact (copied_class _ _ _ _ _ _ _ K)|right; exact (copied_new _ _ _ _ _ _ K)].
    - destruct (f2_in _ _ _ _ R1 Q) as (i & _ & K). split; [exact (copied_class _ _ _ _ _ _ _ K)|right; exact (copied_new _ _ _ _ _ _ K)].
    - destruct (f2_in _ _ _ _ R2 Q) as (i & _ & K). split; [exact (copied_class _ _ _ _ _ _ _ K)|right; exact (copied_new _ _ _ _ _ _ K)].
    - destruct (f2_in _ _ _ _ W1 Q) as (i & _ & K). split; [exact (copied_class _ _ _ _ _ _ _ K)|right; exact (copied_new _ _ _ _ _ _ K)].
    - destruct (f2_in _ _ _ _ W2 Q) as (i & _ & K). split; [exact (copied_class _ _ _ _ _ _ _ K)|right; exact (copied_new _ _ _ _ _ _ K)].
    - subst j. split; [exists wv'; exact Nw'|right; cbn; specialize (Gw eq_refl); lia].
    - subst j. split; [exists v'; exact N|right; cbn; lia].
    - split; [reflexivity|left; exact I]. }
  exists b, h'. split; [exact E|]. split.
  { exists v', wv'. repeat (split; [assumption|]). intros x P. exact (proj1 (PP x P)). }
  split; [intros x E'; apply ext_same; [apply S|exact E']|]. split; [intros x P; exact (proj2 (PP x P))|].
  exists vi, vo, vw. split; [exact Evi|]. split; [exact Evo|]. split; [exact Evw|].
  unfold view_tx. rewrite (proj2 (deref_ok _ _ _) N). cbn [rbind c_val].
  rewrite (rmap_forall2 (view_in h) (view_in h') ins) by (eapply f2_impl; [|exact R1]; apply view_in_copy).
  rewrite (rmap_forall2 (view_out h) (view_out h') outs) by (eapply f2_impl; [|exact R2]; apply view_out_copy).
  rewrite (view_wit_copy true h h' w (to_wit v') F (proj2 S)); [rewrite Evi, Evo, Evw; cbn [rbind]; rewrite R3, R4; reflexivity|].
  exists (mkCell mw wv), (mkCell true wv'). split; [exact Nw|]. split; [exact Nw'|]. split; [reflexivity|]. split; [exact Gw|]. split; [exact W1|]. split; [exact W2|exact W3].
Qed.
Print Assumptions C79_constructed.

(** A transaction reads the same after any program that assigns none of its parts. *)
Theorem C79_untouched z rand p h c : Reachable z rand h -> exists_in h (RTx c) -> Spares z rand h p c -> view_tx (run z rand h p) c = view_tx h c.
Proof.
  intros R. assert (F := reachable_fine _ _ _ R). clear R. revert h F. induction p as [|o p IH]; intros h F X S; [reflexivity|]. destruct S as [S0 S]. cbn [run fold_left].
  assert (K := exec_assigns z rand h o F). destruct K as [G K]. fold (run z rand (exec z rand h o) p).
  assert (Q : forall x, Part h c x -> same h (exec z rand h o) x).
  { intros x P. apply K; [exact (part_exists _ _ _ F X P)|]. intros A. exact (S0 x A P). }
  rewrite IH; [|apply G; exact F|eapply exists_evolves; [apply G|exact X]|exact S]. apply view_same. exact Q.
Qed.
Print Assumptions C79_untouched.

(** Blinding a mutable copy leaves the original as it was, and every other transaction that was there before the copy. *)
Theorem C79_blind_copy z rand h a b h' args draws c : Reachable z rand h -> to_mutable a h = Ok (b, h') -> exists_in h (RTx a) -> exists_in h (RTx c) ->
  view_tx (b_heap (snd (blind_obj b z rand args h' draws))) c = view_tx h c.
Proof.
  intros R E X Xc. assert (F := reachable_fine _ _ _ R). destruct (from_tx_spec true h a F X) as (b0 & h0 & E0 & S & C).
  assert (b0 = b /\ h0 = h') as [-> ->] by (unfold to_mutable in E; split; congruence).
  assert (N := fun x => copy_parts_new _ _ _ _ x C). destruct (blind_obj_step b z rand args h' draws) as (_ & K & _).
  apply view_same. intros x P. assert (Xx := part_exists _ _ _ F Xc P). eapply same_trans; [apply ext_same; [apply S|exact Xx]|]. apply K; [eapply exists_evolves; [apply S|exact Xx]|].
  intros Pb. destruct (N x Pb) as [A|A]; [exact A|]. destruct (A Xx).
Qed.
Print Assumptions C79_blind_copy.

(** CElementsTxOutWitness keeps a bytearray given as a proof, so a snapshot that has one still changes. *)
Definition arr_program : list op :=
  [ONewOutPoint true (mkOutPoint (repeat x22 32) 0); ONewTxIn true 0 [] 0 no_issuance false; ONewTxOut true (toy_out 700 asset_A [x51]);
   ONewArray [x01; x02]; ONewOutWit false (mkOwObj (BBytes []) (BArray 0)); ONewWit false [] [0%nat]; ONewTx false [0%nat] [0%nat] 0 2 (Some 0%nat)].
Theorem C79_bytearray_refuted z rand : exists h a b p, Reachable z rand h /\ to_immutable a h = Ok (b, h) /\ of_class h false (RTx b)
  /\ view_tx (run z rand h p) b <> view_tx h b.
Proof.
  exists (run z rand empty_heap arr_program), 0%nat, 0%nat, [OSetArray 0 [x03]]. split; [exists arr_program; reflexivity|]. split; [vm_compute; reflexivity|]. split; [vm_compute; eexists; reflexivity|].
  vm_compute. discriminate.
Qed.
Print Assumptions C79_bytearray_refuted.

(** A program that makes a transaction with the same output object passed twice, and its snapshot. *)
Definition demo_program : list op :=
  [ONewOutPoint false (mkOutPoint (repeat x44 32) 0); ONewTxIn true 0 [] 0 no_issuance false; ONewTxOut true (toy_out 490 asset_A [x51]); ONewTxOut true (toy_out 20 asset_A []);
   ONewInWit true inwit_null; ONewOutWit true (mkOwObj (BBytes []) (BBytes [])); ONewWit true [0%nat] [0%nat; 0%nat; 0%nat];
   ONewTx true [0%nat] [0%nat; 0%nat; 1%nat] 0 2 (Some 0%nat)].
Definition demo (z : Crypto) (rand : nat -> bytes) : heap := run z rand empty_heap demo_program.
Lemma demo_reachable z rand : Reachable z rand (demo z rand). Proof. exists demo_program. reflexivity. Qed.
Lemma demo_shape z rand : h_arrs (demo z rand) = [] /\ length (h_txs (demo z rand)) = 1%nat.
Proof. vm_compute. split; reflexivity. Qed.
Lemma demo_tx z rand : exists_in (demo z rand) (RTx 0).
Proof. cbn [exists_in]. rewrite (proj2 (demo_shape z rand)). lia. Qed.
Lemma demo_plain z rand : Plain (demo z rand) 0.
Proof.
  intros b P. apply part_exists in P; [|exact (reachable_fine _ _ _ (demo_reachable z rand))|apply demo_tx]. cbn [exists_in] in P. rewrite (proj1 (demo_shape z rand)) in P. cbn in P. lia.
Qed.
(** The copies that the constructor made of the output passed twice are outputs 2 and 3; assigning one of them changes the
    transaction, and assigning the object that was passed does not. *)
Definition demo_snapshot (z : Crypto) (rand : nat -> bytes) : heap := made (demo z rand) (to_immutable 0 (demo z rand)).
Lemma demo_vouts z rand : match nth_error (h_txs (demo_snapshot z rand)) 0 with Some c => to_vout (c_val c) = [2%nat; 3%nat; 4%nat] | None => False end.
Proof. vm_compute. reflexivity. Qed.
Example C79_ex : forall z rand,
  Reachable z rand (demo z rand) /\ exists_in (demo z rand) (RTx 0) /\ Plain (demo z rand) 0
  /\ to_immutable 0 (demo z rand) = Ok (1%nat, demo_snapshot z rand)
  /\ view_tx (run z rand (demo_snapshot z rand) [OSetTxOut 3 (toy_out 1 asset_A [])]) 0 <> view_tx (demo_snapshot z rand) 0
  /\ Spares z rand (demo_snapshot z rand) [OSetTxOut 0 (toy_out 1 asset_A [])] 0.
Proof.
  intros z rand. split; [apply demo_reachable|]. split; [apply demo_tx|]. split; [apply demo_plain|]. split; [vm_compute; reflexivity|]. split; [vm_compute; discriminate|].
  split; [|exact I]. cbn [Assigns]. intros x ->. intros P. inversion P as [| | |m t i E J| | | | |]; subst. assert (V := demo_vouts z rand). rewrite E in V. cbn [c_val] in V. rewrite V in J.
  repeat (destruct J as [J|J]; [discriminate|]). exact J.
Qed.
