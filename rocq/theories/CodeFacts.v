(** Soundness of the search of [CodeSearch]. *)
From Coq Require Import ZArith List Bool Lia Ring.
From Verif Require Import GF32 CodeSearch.
Import ListNotations.

Definition vz (d : nat) : vec := repeat F0 d.

(** [sum k_i * c_i], in dimension [d]. *)
Fixpoint lincomb (d : nat) (ks : list f32) (cs : list vec) : vec :=
  match ks, cs with
  | k :: ks', c :: cs' => vaxpy k c (lincomb d ks' cs')
  | _, _ => vz d
  end.

(** Number of non-zero entries. *)
Fixpoint weight (l : list f32) : nat :=
  match l with [] => O | F0 :: r => weight r | _ :: r => S (weight r) end.

Lemma weight_cons x l : weight (x :: l) = if f32_nz x then S (weight l) else weight l.
Proof. destruct x; reflexivity. Qed.

Lemma weight_app a b : weight (a ++ b) = (weight a + weight b)%nat.
Proof.
  induction a; [reflexivity|]. cbn [app]. rewrite !weight_cons, IHa. destruct (f32_nz a); lia.
Qed.

Lemma weight_rev l : weight (rev l) = weight l.
Proof.
  induction l; [reflexivity|]. cbn [rev]. rewrite weight_app, IHl, !weight_cons.
  destruct (f32_nz a); cbn; lia.
Qed.

Lemma weight0 l : weight l = O -> l = vz (length l).
Proof.
  induction l; intros H; [reflexivity|]. rewrite weight_cons in H.
  destruct (f32_nz a) eqn:E; [discriminate|].
  destruct a; try discriminate E. cbn. f_equal. auto.
Qed.

Lemma vaxpy_length k c v d : length c = d -> length v = d -> length (vaxpy k c v) = d.
Proof.
  revert c v. induction d; intros [|x c] [|y v]; simpl; intros H1 H2; try discriminate; auto.
Qed.

Lemma lincomb_length d ks cs :
  Forall (fun c => length c = d) cs -> length (lincomb d ks cs) = d.
Proof.
  revert cs. induction ks; intros [|c cs] H; cbn; try (apply repeat_length).
  inversion H; subst. apply vaxpy_length; auto.
Qed.

Lemma vzero_spec v : vzero v = true <-> v = vz (length v).
Proof.
  induction v as [|x v IH]; cbn; [tauto|].
  destruct x; split; intros H; try discriminate H.
  - f_equal. tauto.
  - injection H as H. tauto.
Qed.

Lemma vaxpy_0 c v : length c = length v -> vaxpy F0 c v = v.
Proof.
  revert v. induction c; intros [|y v]; cbn [vaxpy length]; intros H; try discriminate; auto.
  rewrite f32_mul_0_l, f32_add_0_r. f_equal. auto.
Qed.

Lemma vaxpy_z k d : vaxpy k (vz d) (vz d) = vz d.
Proof. induction d; [reflexivity|]. change (vz (S d)) with (F0 :: vz d). cbn [vaxpy]. rewrite IHd, f32_mul_0_r. reflexivity. Qed.

Lemma vaxpy_vaxpy k f c u v :
  length c = length u -> length u = length v ->
  (* projections with factors fu, fv *)
  forall fu fv, f = f32_add fv (f32_mul k fu) ->
  vaxpy f c (vaxpy k u v) = vaxpy k (vaxpy fu c u) (vaxpy fv c v).
Proof.
  intros H1 H2 fu fv ->. revert u v H1 H2.
  induction c; intros [|x u] [|y v]; simpl; intros H1 H2; try discriminate; auto.
  f_equal; [ring|]. apply IHc; congruence.
Qed.

Lemma proj_nz x c' y v' : x <> F0 ->
  proj (x :: c') (y :: v') = vaxpy (f32_mul y (f32_inv x)) c' v'.
Proof. destruct x; intros H; try reflexivity. contradiction H; reflexivity. Qed.

Lemma proj_vaxpy k c u v :
  length c = length u -> length u = length v ->
  proj c (vaxpy k u v) = vaxpy k (proj c u) (proj c v).
Proof.
  revert u v. induction c as [|x c IH]; intros [|a u] [|b v]; simpl length; intros H1 H2;
    try discriminate; auto.
  destruct (f32_eq_dec x F0) as [->|Hx].
  - cbn [proj vaxpy]. f_equal. apply IH; congruence.
  - cbn [vaxpy]. rewrite !proj_nz by assumption.
    apply vaxpy_vaxpy; try congruence. ring.
Qed.

Lemma proj_z c d : length c = S d -> c <> vz (S d) -> proj c (vz (S d)) = vz d.
Proof.
  revert d. induction c as [|x c IH]; intros d HL Hne; [discriminate|].
  change (vz (S d)) with (F0 :: vz d).
  destruct (f32_eq_dec x F0) as [->|Hx].
  - cbn [proj]. destruct d as [|d].
    + destruct c; [|discriminate]. contradiction Hne; reflexivity.
    + change (vz (S d)) with (F0 :: vz d) at 2. f_equal.
      rewrite IH; auto. intros E. apply Hne. cbn. f_equal. exact E.
  - rewrite proj_nz by assumption. rewrite f32_mul_0_l. apply vaxpy_0.
    unfold vz. rewrite repeat_length. simpl in HL. congruence.
Qed.

Lemma vaxpy_self c : vaxpy F1 c c = vz (length c).
Proof. induction c; [reflexivity|]. cbn [vaxpy]. rewrite IHc. cbn. f_equal. destruct a; reflexivity. Qed.

Lemma proj_self c d : length c = S d -> c <> vz (S d) -> proj c c = vz d.
Proof.
  revert d. induction c as [|x c IH]; intros d HL Hne; [discriminate|].
  destruct (f32_eq_dec x F0) as [->|Hx].
  - cbn [proj]. destruct d as [|d].
    + destruct c; [|discriminate]. contradiction Hne; reflexivity.
    + change (vz (S d)) with (F0 :: vz d) at 1. f_equal.
      apply IH; auto. intros E. apply Hne. cbn. f_equal. exact E.
  - rewrite proj_nz by assumption. rewrite f32_mul_comm, f32_inv_l by assumption.
    rewrite vaxpy_self. simpl in HL. f_equal. congruence.
Qed.

Lemma proj_length c v d : length c = S d -> length v = S d -> c <> vz (S d) -> length (proj c v) = d.
Proof.
  revert v d. induction c as [|x c IH]; intros [|y v] d H1 H2 Hne; try discriminate.
  destruct (f32_eq_dec x F0) as [->|Hx].
  - cbn [proj length]. destruct d as [|d].
    + destruct c; [|discriminate]. contradiction Hne; reflexivity.
    + f_equal. apply IH; auto. intros E. apply Hne. cbn. f_equal. exact E.
  - rewrite proj_nz by assumption. apply vaxpy_length; simpl in *; congruence.
Qed.

Lemma proj_lincomb d c ks cs :
  length c = S d -> c <> vz (S d) -> Forall (fun v => length v = S d) cs ->
  proj c (lincomb (S d) ks cs) = lincomb d ks (map (proj c) cs).
Proof.
  intros HL Hne. revert cs. induction ks; intros [|v cs] HF; cbn [lincomb map];
    try (apply proj_z; assumption).
  inversion HF; subst. rewrite proj_vaxpy.
  - rewrite IHks by assumption. reflexivity.
  - congruence.
  - rewrite lincomb_length; auto.
Qed.

Lemma map_proj_length d c cs :
  length c = S d -> c <> vz (S d) -> Forall (fun v => length v = S d) cs ->
  Forall (fun v => length v = d) (map (proj c) cs).
Proof.
  intros HL Hne HF. rewrite Forall_map. eapply Forall_impl; [|exact HF].
  intros v Hv. apply proj_length; auto.
Qed.

Lemma vscale_axpy k v d : length v = d -> vaxpy k v (vz d) = vscale k v.
Proof.
  revert d. induction v; intros [|d] H; try discriminate; auto.
  change (vz (S d)) with (F0 :: vz d). cbn [vaxpy vscale]. rewrite f32_add_0_l. f_equal. apply IHv. simpl in H. congruence.
Qed.

Lemma lincomb_zeros d ks cs :
  weight ks = O -> Forall (fun v => length v = d) cs -> lincomb d ks cs = vz d.
Proof.
  revert cs. induction ks as [|k ks IH]; intros [|c cs] Hw HF; try reflexivity.
  rewrite weight_cons in Hw. destruct (f32_nz k) eqn:E; [discriminate|].
  destruct k; try discriminate E. cbn [lincomb]. inversion HF; subst.
  rewrite IH by auto. apply vaxpy_0. unfold vz. rewrite repeat_length. reflexivity.
Qed.

Lemma lincomb_one d ks cs :
  (weight ks <= 1)%nat -> Forall (fun v => length v = d) cs ->
  lincomb d ks cs = vz d \/
  exists k c, k <> F0 /\ In c cs /\ lincomb d ks cs = vscale k c.
Proof.
  revert cs. induction ks as [|k ks IH]; intros [|c cs] Hw HF; try (left; reflexivity).
  rewrite weight_cons in Hw. inversion HF as [|? ? HFc HFcs]; subst. destruct (f32_nz k) eqn:E.
  - right. exists k, c. apply f32_nz_spec in E.
    split; [assumption|]. split; [left; reflexivity|].
    cbn [lincomb]. rewrite lincomb_zeros by (auto; lia). apply vscale_axpy. reflexivity.
  - destruct k; try discriminate E. cbn [lincomb].
    rewrite vaxpy_0 by (rewrite lincomb_length; auto).
    destruct (IH cs Hw HFcs) as [H|(k & c' & H1 & H2 & H3)]; [left; assumption|].
    right. exists k, c'. split; [assumption|]. split; [right; assumption|assumption].
Qed.

Lemma vscale_vscale a b v : vscale a (vscale b v) = vscale (f32_mul a b) v.
Proof. induction v; cbn; [reflexivity|]. rewrite IHv, f32_mul_assoc. reflexivity. Qed.

Lemma f32_inv_mul k x : k <> F0 -> x <> F0 -> f32_mul (f32_inv (f32_mul k x)) k = f32_inv x.
Proof. intros Hk Hx. destruct k; try (contradiction Hk; reflexivity); destruct x; try reflexivity; contradiction Hx; reflexivity. Qed.

Lemma vnorm_nz x r : x <> F0 -> vnorm (x :: r) = vscale (f32_inv x) (x :: r).
Proof. destruct x; intros H; try reflexivity. contradiction H; reflexivity. Qed.

Lemma vnorm_scale k v : k <> F0 -> vnorm (vscale k v) = vnorm v.
Proof.
  intros Hk. induction v as [|x v IH]; [reflexivity|].
  destruct (f32_eq_dec x F0) as [->|Hx].
  - cbn [vscale]. rewrite f32_mul_0_r. cbn [vnorm]. f_equal. exact IH.
  - cbn [vscale]. rewrite vnorm_nz.
    2:{ intros E. apply f32_mul_eq0 in E. tauto. }
    rewrite (vnorm_nz x v) by assumption.
    change (f32_mul k x :: vscale k v) with (vscale k (x :: v)).
    rewrite vscale_vscale, f32_inv_mul by assumption. reflexivity.
Qed.

Lemma veqb_refl v : veqb v v = true.
Proof. induction v; [reflexivity|]. cbn. rewrite f32_add_self. assumption. Qed.

Lemma vmem_in x l : In x l -> vmem x l = true.
Proof.
  induction l; intros []; cbn.
  - subst. rewrite veqb_refl. reflexivity.
  - destruct (veqb x a); auto.
Qed.

Lemma vaxpy_eq0 k c w d :
  length c = d -> length w = d -> vaxpy k c w = vz d -> vscale k c = w.
Proof.
  revert w d. induction c as [|x c IH]; intros [|y w] d H1 H2; simpl in *; subst; try discriminate; auto.
  intros E. cbn in E. injection E as E1 E2. injection H2 as H2.
  f_equal.
  - replace (f32_mul k x) with (f32_add (f32_add y (f32_mul k x)) y)
      by (rewrite (f32_add_comm y), <- f32_add_assoc, f32_add_self; apply f32_add_0_r).
    rewrite E1. apply f32_add_0_l.
  - eapply IH; eauto.
Qed.

Lemma vscale_nz k c d : k <> F0 -> length c = d -> vscale k c = vz d -> c = vz d.
Proof.
  intros Hk. revert d. induction c as [|x c IH]; intros d H1 E; simpl in *; subst; auto.
  cbn in E. injection E as E1 E2. apply f32_mul_eq0 in E1. destruct E1 as [| ->]; [contradiction|].
  cbn. f_equal. auto.
Qed.

Lemma vnorm_zero_iff v : vzero (vnorm v) = vzero v.
Proof.
  induction v as [|x v IH]; [reflexivity|].
  destruct (f32_eq_dec x F0) as [->|Hx]; [exact IH|].
  rewrite vnorm_nz by assumption. cbn [vscale]. rewrite f32_inv_l by assumption.
  destruct x; try reflexivity. contradiction Hx; reflexivity.
Qed.

Lemma distinct_sound d us :
  Forall (fun v => length v = d) us ->
  distinct_nz (map vnorm us) = true ->
  forall ks, length ks = length us -> (weight ks <= 2)%nat ->
  lincomb d ks us = vz d -> weight ks = O.
Proof.
  induction us as [|u us IH]; intros HF HD [|k ks] HL Hw E; try discriminate HL; try reflexivity.
  inversion HF as [|? ? Hu HFus]; subst.
  cbn [map distinct_nz] in HD.
  rewrite vnorm_zero_iff in HD. destruct (vzero u) eqn:Ez; [discriminate|].
  destruct (vmem (vnorm u) (map vnorm us)) eqn:Em; [discriminate|].
  rewrite weight_cons in *. destruct (f32_nz k) eqn:Ek.
  - exfalso. apply f32_nz_spec in Ek. cbn [lincomb] in E.
    apply vaxpy_eq0 in E; [|reflexivity|apply lincomb_length; assumption].
    destruct (lincomb_one (length u) ks us) as [H|(k' & c & H1 & H2 & H3)]; [lia|assumption| |].
    + rewrite H in E. apply vscale_nz in E; auto.
      assert (vzero u = true) by (apply vzero_spec; assumption). congruence.
    + rewrite H3 in E.
      assert (vnorm u = vnorm c) by (rewrite <- (vnorm_scale k u), E by assumption; apply vnorm_scale; assumption).
      rewrite H, vmem_in in Em; [discriminate|]. apply in_map. assumption.
  - apply IH; auto. destruct k; try discriminate Ek. cbn [lincomb] in E.
    rewrite vaxpy_0 in E; [assumption|]. rewrite lincomb_length; auto.
Qed.

Lemma nz_ne d v : length v = d -> vzero v = false -> v <> vz d.
Proof. intros HL Hz E. assert (vzero v = true) by (apply vzero_spec; congruence). congruence. Qed.

Lemma pair_ok_sound d t cols :
  pair_ok t cols = true -> length t = S d -> Forall (fun v => length v = S d) cols ->
  forall ks, length ks = length cols -> (weight ks <= 2)%nat -> lincomb (S d) ks cols <> t.
Proof.
  intros H HL HF ks HK Hw E. unfold pair_ok in H.
  destruct (vzero t) eqn:Ez; [discriminate|].
  pose proof (nz_ne _ _ HL Ez) as Hne.
  rewrite <- map_map in H.
  pose proof (f_equal (proj t) E) as E2.
  rewrite proj_lincomb, (proj_self t d) in E2 by assumption.
  apply (distinct_sound d) in E2; auto.
  - apply Hne. rewrite <- E. apply lincomb_zeros; assumption.
  - apply map_proj_length; assumption.
  - rewrite map_length. assumption.
Qed.

(** A combination of at most [n + 2] columns is never the target. *)
Theorem search_sound n : forall d t cols,
  search n t cols = true -> length t = (n + S d)%nat -> Forall (fun v => length v = (n + S d)%nat) cols ->
  forall ks, length ks = length cols -> (weight ks <= n + 2)%nat -> lincomb (n + S d) ks cols <> t.
Proof.
  induction n as [|n IH]; intros d t cols H HL HF ks HK Hw.
  - apply (pair_ok_sound d); auto.
  - cbn [search] in H. destruct (vzero t) eqn:Ez; [discriminate|].
    pose proof (nz_ne _ _ HL Ez) as Hne.
    revert ks HK Hw. induction cols as [|c cols IHc]; intros [|k ks] HK Hw; try discriminate HK.
    + cbn [lincomb]. congruence.
    + destruct (vzero c) eqn:Ec; [discriminate|].
      destruct (search n (proj c t) (map (proj c) cols)) eqn:Es; [|discriminate].
      inversion HF as [|? ? Hc HFc]; subst.
      pose proof (nz_ne _ _ Hc Ec) as Hcne.
      rewrite weight_cons in Hw. destruct (f32_nz k) eqn:Ek.
      * intros E. cbn [Nat.add] in *.
        pose proof (f_equal (proj c) E) as E2.
        rewrite proj_lincomb in E2 by assumption.
        cbn [map lincomb] in E2. rewrite (proj_self c (n + S d)) in E2 by assumption.
        assert (HFp : Forall (fun v => length v = (n + S d)%nat) (map (proj c) cols))
          by (apply map_proj_length; assumption).
        assert (Hlin : vaxpy k (vz (n + S d)) (lincomb (n + S d) ks (map (proj c) cols))
                       = lincomb (n + S d) ks (map (proj c) cols)).
        { generalize (lincomb_length (n + S d) ks _ HFp).
          generalize (lincomb (n + S d) ks (map (proj c) cols)). clear.
          intros v. revert v. induction (n + S d)%nat; intros [|y v] Hv; try discriminate Hv; [reflexivity|].
          cbn. rewrite f32_mul_0_r, f32_add_0_r. f_equal. apply IHn0. simpl in Hv; congruence. }
        rewrite Hlin in E2.
        refine (IH d _ _ Es _ HFp ks _ _ E2).
        -- apply proj_length; assumption.
        -- rewrite map_length. cbn [length] in HK. congruence.
        -- lia.
      * destruct k; try discriminate Ek. cbn [lincomb].
        rewrite vaxpy_0 by (rewrite lincomb_length; auto).
        apply IHc; auto.
Qed.
