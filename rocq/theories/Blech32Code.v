(** The blech32 checksum as a linear code over GF(32). *)
From Coq Require Import ZArith List Bool Lia Ring.
From Verif Require Import Base BaseFacts GF32 GF1024 CodeSearch CodeFacts Blech32Model ConvertFacts.
Import ListNotations.
Local Open Scope Z_scope.

(** Symbols packed into an integer, first symbol most significant. *)
Fixpoint pack (l : vec) : Z :=
  match l with [] => 0 | s :: r => f32_z s * 2 ^ (5 * Z.of_nat (length r)) + pack r end.

Lemma pow5 n : 2 ^ (5 * Z.of_nat (S n)) = 32 * 2 ^ (5 * Z.of_nat n).
Proof. rewrite Nat2Z.inj_succ, Z.mul_succ_r, Z.pow_add_r by lia. lia. Qed.

Lemma pack_range l : 0 <= pack l < 2 ^ (5 * Z.of_nat (length l)).
Proof.
  induction l as [|s l IH]; [cbn; lia|].
  cbn [pack length]. rewrite pow5. pose proof (f32_z_range s). nia.
Qed.

Lemma pack_inj a b : length a = length b -> pack a = pack b -> a = b.
Proof.
  revert b. induction a as [|x a IH]; intros [|y b] HL E; try discriminate HL; [reflexivity|].
  cbn [pack length] in *. injection HL as HL. rewrite HL in E.
  pose proof (pack_range a) as Ra. pose proof (pack_range b) as Rb. rewrite HL in Ra.
  pose proof (f32_z_range x). pose proof (f32_z_range y).
  assert (Hxy : f32_z x = f32_z y) by nia.
  f_equal; [apply f32_z_inj; exact Hxy|apply IH; [exact HL|]].
  rewrite Hxy in E. lia.
Qed.

Lemma block_lxor a b k : 0 <= k -> 0 <= b < 2 ^ k -> a * 2 ^ k + b = Z.lxor (Z.shiftl a k) b.
Proof.
  intros Hk Hb. rewrite <- Z.shiftl_mul_pow2 by lia. apply Z.add_nocarry_lxor.
  apply Z.bits_inj'. intros i Hi. rewrite Z.land_spec, Z.bits_0, Z.shiftl_spec by lia.
  destruct (Z_lt_le_dec i k).
  - rewrite Z.testbit_neg_r by lia. reflexivity.
  - rewrite (testbit_high b k) by lia. apply andb_false_r.
Qed.

Lemma lxor_lt a b k : 0 <= k -> 0 <= a < 2 ^ k -> 0 <= b < 2 ^ k -> 0 <= Z.lxor a b < 2 ^ k.
Proof.
  intros Hk Ha Hb. assert (0 <= Z.lxor a b) by (apply Z.lxor_nonneg; lia).
  split; [assumption|].
  destruct (Z.eq_dec (Z.lxor a b) 0) as [->|Hne]; [apply Z.pow_pos_nonneg; lia|].
  apply Z.log2_lt_pow2; [lia|].
  destruct (Z_lt_le_dec (Z.log2 (Z.lxor a b)) k); [assumption|exfalso].
  assert (Ht : Z.testbit (Z.lxor a b) (Z.log2 (Z.lxor a b)) = true) by (apply Z.bit_log2; lia).
  rewrite Z.lxor_spec, (testbit_high a k), (testbit_high b k) in Ht by lia. discriminate.
Qed.

Lemma block_lxor2 a b c d k : 0 <= k -> 0 <= b < 2 ^ k -> 0 <= d < 2 ^ k ->
  Z.lxor (a * 2 ^ k + b) (c * 2 ^ k + d) = Z.lxor a c * 2 ^ k + Z.lxor b d.
Proof.
  intros Hk Hb Hd. rewrite !block_lxor by (auto using lxor_lt).
  rewrite Z.shiftl_lxor, <- !Z.lxor_assoc. f_equal.
  rewrite !Z.lxor_assoc. f_equal. apply Z.lxor_comm.
Qed.

Lemma vadd_length a b d : length a = d -> length b = d -> length (vadd a b) = d.
Proof.
  revert a b. induction d; intros [|x a] [|y b]; simpl; intros; try discriminate; auto.
Qed.

Lemma vscale_length k v : length (vscale k v) = length v.
Proof. induction v; simpl; auto. Qed.

Lemma pack_vadd a b : length a = length b -> pack (vadd a b) = Z.lxor (pack a) (pack b).
Proof.
  revert b. induction a as [|x a IH]; intros [|y b] HL; try discriminate HL; [reflexivity|].
  injection HL as HL. cbn [vadd pack]. rewrite (vadd_length a b (length b)) by congruence.
  rewrite HL, IH, f32_add_z by assumption. symmetry. apply block_lxor2; [lia| |apply pack_range].
  rewrite <- HL. apply pack_range.
Qed.

Lemma pack_snoc l v : pack (l ++ [v]) = pack l * 32 + f32_z v.
Proof.
  induction l as [|s l IH]; [cbn; lia|].
  cbn [app pack]. rewrite IH, app_length. cbn [length]. rewrite Nat.add_1_r, pow5. lia.
Qed.

(** The generator polynomial x^12 + ..., as the 12 low coefficients. *)
Definition gcoef : vec := [F0;F31;F10;F18;F31;F14;F18;F0;F23;F22;F4;F6].

(** One checksum step on symbols: multiply by x modulo the generator, add [v]. *)
Definition symstep (st : vec) (v : f32) : vec :=
  vadd (tl st ++ [v]) (vscale (hd F0 st) gcoef).

Definition symrun (st : vec) (vs : list f32) : vec := fold_left symstep vs st.

Definition c0 : vec := [F0;F0;F0;F0;F0;F0;F0;F0;F0;F0;F0;F1].

Lemma polymod_gen_lxor gens top i chk :
  polymod_gen gens top i chk = Z.lxor chk (polymod_gen gens top i 0).
Proof.
  revert i chk. induction gens as [|g gens IH]; intros i chk; cbn [polymod_gen].
  - rewrite Z.lxor_0_r. reflexivity.
  - rewrite (IH (i + 1) (Z.lxor chk _)), (IH (i + 1) (Z.lxor 0 _)).
    rewrite Z.lxor_0_l, Z.lxor_assoc. reflexivity.
Qed.

Lemma polymod_gen_sym s :
  polymod_gen generator (f32_z s) 0 0 = pack (vscale s gcoef).
Proof. destruct s; vm_compute; reflexivity. Qed.

Lemma polymod_step_sym st v :
  length st = 12%nat ->
  polymod_step (pack st) (f32_z v) = pack (symstep st v).
Proof.
  intros HL. destruct st as [|s ss]; [discriminate|]. injection HL as HL.
  pose proof (pack_range ss) as Hr. rewrite HL in Hr.
  pose proof (f32_z_range s) as Hs. pose proof (f32_z_range v) as Hv.
  change (5 * Z.of_nat 11) with 55 in Hr.
  unfold polymod_step. cbv zeta. cbn [pack]. rewrite HL. change (5 * Z.of_nat 11) with 55.
  rewrite Z.shiftr_div_pow2 by lia.
  replace ((f32_z s * 2 ^ 55 + pack ss) / 2 ^ 55) with (f32_z s).
  2:{ rewrite Z.div_add_l by lia. rewrite Z.div_small by lia. lia. }
  change 0x7fffffffffffff with (Z.ones 55). rewrite Z.land_ones by lia.
  replace ((f32_z s * 2 ^ 55 + pack ss) mod 2 ^ 55) with (pack ss).
  2:{ rewrite Z.add_comm, Z.mod_add by lia. symmetry. apply Z.mod_small. lia. }
  rewrite polymod_gen_lxor, polymod_gen_sym.
  unfold symstep. cbn [tl hd]. rewrite pack_vadd.
  2:{ rewrite app_length, vscale_length, HL. reflexivity. }
  f_equal. rewrite pack_snoc. change 32 with (2 ^ 5). rewrite block_lxor by lia. reflexivity.
Qed.

Lemma symstep_length st v : length st = 12%nat -> length (symstep st v) = 12%nat.
Proof.
  intros H. destruct st; [discriminate|]. injection H as H. unfold symstep. cbn [tl hd].
  apply vadd_length; [rewrite app_length, H; reflexivity|rewrite vscale_length; reflexivity].
Qed.

Lemma symrun_length st vs : length st = 12%nat -> length (symrun st vs) = 12%nat.
Proof.
  revert st. induction vs; intros st H; [assumption|]. cbn. apply IHvs. apply symstep_length. assumption.
Qed.

Lemma polymod_sym st vs :
  length st = 12%nat ->
  fold_left polymod_step (map f32_z vs) (pack st) = pack (symrun st vs).
Proof.
  revert st. induction vs as [|v vs IH]; intros st H; [reflexivity|].
  cbn [map fold_left symrun]. rewrite polymod_step_sym by assumption.
  apply IH. apply symstep_length. assumption.
Qed.

Lemma blech32_polymod_sym vs : blech32_polymod (map f32_z vs) = pack (symrun c0 vs).
Proof. unfold blech32_polymod. change 1 with (pack c0). apply polymod_sym. reflexivity. Qed.

(** ** Linearity *)

Lemma vadd_app a b c d : length a = length b -> vadd (a ++ c) (b ++ d) = vadd a b ++ vadd c d.
Proof.
  revert b. induction a; intros [|y b] H; try discriminate H; [reflexivity|].
  cbn. f_equal. apply IHa. simpl in H; congruence.
Qed.

Lemma vadd_mid a b c d n : length a = n -> length b = n -> length c = n -> length d = n ->
  vadd (vadd a b) (vadd c d) = vadd (vadd a c) (vadd b d).
Proof.
  revert a b c d. induction n; intros [|x a] [|y b] [|z c] [|w d]; simpl length; intros;
    try discriminate; auto.
  cbn [vadd]. f_equal; [ring|]. apply IHn; congruence.
Qed.

Lemma vscale_add a b v : vscale (f32_add a b) v = vadd (vscale a v) (vscale b v).
Proof. induction v; cbn [vscale vadd]; [reflexivity|]. rewrite IHv. f_equal. ring. Qed.

Lemma symstep_add a b v w : length a = 12%nat -> length b = 12%nat ->
  symstep (vadd a b) (f32_add v w) = vadd (symstep a v) (symstep b w).
Proof.
  intros Ha Hb. destruct a as [|x a]; [discriminate|]. destruct b as [|y b]; [discriminate|].
  injection Ha as Ha. injection Hb as Hb.
  unfold symstep. cbn [vadd tl hd]. rewrite vscale_add.
  change ([f32_add v w]) with (vadd [v] [w]).
  rewrite <- vadd_app by congruence.
  apply (vadd_mid _ _ _ _ 12); rewrite ?app_length, ?vscale_length, ?Ha, ?Hb; reflexivity.
Qed.

Lemma symrun_add vs : forall ws a b, length vs = length ws -> length a = 12%nat -> length b = 12%nat ->
  symrun (vadd a b) (vadd vs ws) = vadd (symrun a vs) (symrun b ws).
Proof.
  induction vs as [|v vs IH]; intros [|w ws] a b HL Ha Hb; try discriminate HL; [reflexivity|].
  injection HL as HL.
  cbn [vadd]. unfold symrun. cbn [fold_left].
  rewrite symstep_add by assumption.
  apply (IH ws); auto using symstep_length.
Qed.

Lemma vadd_self v : vadd v v = vz (length v).
Proof. induction v; [reflexivity|]. cbn [vadd length]. rewrite IHv, f32_add_self. reflexivity. Qed.

(** Difference of two runs = run of the difference from zero. *)
Lemma symrun_diff st vs ws : length vs = length ws -> length st = 12%nat ->
  vadd (symrun st vs) (symrun st ws) = symrun (vz 12) (vadd vs ws).
Proof.
  intros HL Hs. rewrite <- (symrun_add vs ws st st) by assumption.
  rewrite vadd_self, Hs. reflexivity.
Qed.

Lemma vadd_eq0 a b : length a = length b -> vadd a b = vz (length a) -> a = b.
Proof.
  revert b. induction a as [|x a IH]; intros [|y b] HL E; try discriminate HL; [reflexivity|].
  cbn [vadd length] in E. change (vz (S (length a))) with (F0 :: vz (length a)) in E.
  assert (E1 : f32_add x y = F0) by congruence.
  assert (E2 : vadd a b = vz (length a)) by congruence.
  f_equal.
  - rewrite <- (f32_add_0_r x), <- (f32_add_self y), f32_add_assoc, E1. apply f32_add_0_l.
  - apply IH; [simpl in HL; congruence|assumption].
Qed.

Lemma vadd_cancel a b c : length a = length b -> vadd a b = c -> b = vadd a c.
Proof.
  intros HL <-. revert b HL. induction a as [|x a IH]; intros [|y b] HL; try discriminate HL; [reflexivity|].
  cbn [vadd]. f_equal.
  - rewrite f32_add_assoc, f32_add_self, f32_add_0_l. reflexivity.
  - apply IH. simpl in HL; congruence.
Qed.

(** ** Columns of the code *)

Definition Mx (v : vec) : vec := symstep v F0.

Fixpoint columns (n : nat) (c : vec) : list vec :=
  match n with O => [] | S k => c :: columns k (Mx c) end.

Lemma map_Mx_columns n c : map Mx (columns n c) = columns n (Mx c).
Proof. revert c. induction n; intros c; [reflexivity|]. cbn. f_equal. apply IHn. Qed.

Lemma columns_length n c : length (columns n c) = n.
Proof. revert c. induction n; intros c; [reflexivity|]. cbn. f_equal. apply IHn. Qed.

Lemma columns_dim n c : length c = 12%nat -> Forall (fun v => length v = 12%nat) (columns n c).
Proof.
  revert c. induction n; intros c H; constructor; auto. apply IHn. apply symstep_length. assumption.
Qed.

Lemma columns_app n m c : exists c', columns (n + m) c = columns n c ++ columns m c' .
Proof.
  revert c. induction n; intros c; [exists c; reflexivity|].
  destruct (IHn (Mx c)) as [c' E]. exists c'. cbn. f_equal. exact E.
Qed.

Lemma vaxpy_add k c v d : length c = d -> length v = d -> vaxpy k c v = vadd v (vscale k c).
Proof.
  revert v d. induction c as [|x c IH]; intros [|y v] d H1 H2; simpl in *; subst; try discriminate; auto.
  f_equal. injection H2 as H2. eapply IH; eauto.
Qed.

Lemma symstep_scale k v : length v = 12%nat -> Mx (vscale k v) = vscale k (Mx v).
Proof.
  intros H. destruct v as [|x v]; [discriminate|]. injection H as H.
  unfold Mx, symstep. cbn [vscale tl hd].
  assert (A : forall a b, vscale k (vadd a b) = vadd (vscale k a) (vscale k b)).
  { induction a; intros [|b0 b]; try reflexivity. cbn [vscale vadd]. rewrite IHa. f_equal. ring. }
  rewrite A. f_equal.
  - clear. induction v; cbn [vscale app]; [rewrite f32_mul_0_r; reflexivity|]. f_equal. assumption.
  - rewrite vscale_vscale. reflexivity.
Qed.

Lemma Mx_vaxpy k c v : length c = 12%nat -> length v = 12%nat ->
  Mx (vaxpy k c v) = vaxpy k (Mx c) (Mx v).
Proof.
  intros Hc Hv. rewrite (vaxpy_add k c v 12), (vaxpy_add k (Mx c) (Mx v) 12)
    by (assumption || (apply symstep_length; assumption)).
  unfold Mx at 1. rewrite <- (f32_add_0_l F0) at 1.
  rewrite symstep_add by (rewrite ?vscale_length; assumption).
  f_equal. apply symstep_scale. assumption.
Qed.

Lemma Mx_z : Mx (vz 12) = vz 12. Proof. reflexivity. Qed.

Lemma Mx_lincomb ks cs : Forall (fun v => length v = 12%nat) cs ->
  Mx (lincomb 12 ks cs) = lincomb 12 ks (map Mx cs).
Proof.
  revert cs. induction ks; intros [|c cs] H; cbn [lincomb map]; try apply Mx_z.
  inversion H; subst. rewrite Mx_vaxpy, IHks; auto. apply lincomb_length. assumption.
Qed.

(** A run from zero is the combination of the columns, last symbol first. *)
Lemma symrun_lincomb e : symrun (vz 12) e = lincomb 12 (rev e) (columns (length e) c0).
Proof.
  induction e as [|x e IH] using rev_ind; [reflexivity|].
  unfold symrun in *. rewrite fold_left_app. cbn [fold_left]. rewrite IH.
  rewrite rev_app_distr, app_length, Nat.add_comm. cbn [rev app length Nat.add columns lincomb].
  rewrite <- map_Mx_columns, <- Mx_lincomb by (apply columns_dim; reflexivity).
  set (w := lincomb 12 (rev e) (columns (length e) c0)).
  assert (Hw : length w = 12%nat) by (apply lincomb_length, columns_dim; reflexivity).
  rewrite (vaxpy_add _ _ _ 12); [|reflexivity|apply symstep_length; assumption].
  assert (Hc : vscale x c0 = symstep (vz 12) x)
    by (destruct x; reflexivity).
  rewrite Hc. unfold Mx. rewrite <- symstep_add by (try assumption; reflexivity).
  rewrite f32_add_0_l. f_equal.
  clear -Hw. revert Hw. generalize w. intros v Hv.
  change 12%nat with (length c0) in Hv |- *. revert Hv. generalize c0. induction v; intros [|c l] H; try discriminate H; [reflexivity|].
  cbn. rewrite f32_add_0_r. f_equal. apply IHv. simpl in H; congruence.
Qed.

(** ** BCH bound: six or fewer errors are never a codeword *)

Definition gamma : f1k := (F30, F1).

Fixpoint horner (r : f1k) (acc : f1k) (l : list f32) : f1k :=
  match l with [] => acc | s :: t => horner r (kadd (kmul acc r) (kemb s)) t end.

(** Value at [r] of the polynomial with coefficients [l], first symbol leading. *)
Definition evp (r : f1k) (l : list f32) : f1k := horner r k0 l.

Lemma horner_acc r l : forall acc, horner r acc l = kadd (kmul acc (kpow r (length l))) (evp r l).
Proof.
  unfold evp. induction l as [|s l IH]; intros acc; cbn [horner length kpow]; [ring|].
  rewrite IH, (IH (kadd _ _)). ring.
Qed.

Lemma evp_cons r s l : evp r (s :: l) = kadd (kmul (kemb s) (kpow r (length l))) (evp r l).
Proof.
  unfold evp at 1. cbn [horner]. rewrite horner_acc.
  replace (kadd (kmul k0 r) (kemb s)) with (kemb s) by ring. reflexivity.
Qed.

Lemma evp_snoc r l v : evp r (l ++ [v]) = kadd (kmul (evp r l) r) (kemb v).
Proof.
  induction l as [|s l IH].
  - cbn [app]. rewrite evp_cons. cbn [length kpow]. unfold evp. cbn [horner]. ring.
  - cbn [app]. rewrite !evp_cons, IH, app_length, Nat.add_comm. cbn [length Nat.add kpow]. ring.
Qed.

Lemma kemb_add a b : kemb (f32_add a b) = kadd (kemb a) (kemb b).
Proof. unfold kemb, kadd; cbn [fst snd]. rewrite f32_add_self. reflexivity. Qed.

Lemma kemb_mul a b : kemb (f32_mul a b) = kmul (kemb a) (kemb b).
Proof. unfold kemb, kmul. rewrite !f32_mul_0_r, !f32_mul_0_l, !f32_add_0_r. reflexivity. Qed.

Lemma evp_vadd r a b : length a = length b -> evp r (vadd a b) = kadd (evp r a) (evp r b).
Proof.
  revert b. induction a as [|x a IH]; intros [|y b] HL; try discriminate HL.
  - unfold evp; cbn [vadd horner]. ring.
  - injection HL as HL. cbn [vadd]. rewrite !evp_cons, IH by assumption.
    rewrite (vadd_length a b (length b)) by congruence. rewrite HL, kemb_add. ring.
Qed.

Lemma evp_vscale r k v : evp r (vscale k v) = kmul (kemb k) (evp r v).
Proof.
  induction v as [|x v IH]; [unfold evp; cbn [vscale horner]; ring|].
  cbn [vscale]. rewrite !evp_cons, IH, vscale_length, kemb_mul. ring.
Qed.

(** [r] is a root of the generator polynomial. *)
Definition root (r : f1k) : Prop := evp r gcoef = kpow r 12.

Lemma evp_symstep r st v : root r -> length st = 12%nat ->
  evp r (symstep st v) = kadd (kmul (evp r st) r) (kemb v).
Proof.
  intros Hr HL. destruct st as [|s ss]; [discriminate|]. injection HL as HL.
  unfold symstep. cbn [tl hd]. rewrite evp_vadd.
  2:{ rewrite app_length, vscale_length, HL. reflexivity. }
  rewrite evp_snoc, evp_vscale, Hr, evp_cons, HL. 
  change 12%nat with (S 11). cbn [kpow]. ring.
Qed.

Lemma evp_vz r n : evp r (vz n) = k0.
Proof.
  induction n; [reflexivity|]. change (vz (S n)) with (F0 :: vz n).
  rewrite evp_cons, IHn. change (kemb F0) with k0. ring.
Qed.

Lemma evp_symrun r e : root r -> evp r (symrun (vz 12) e) = evp r e.
Proof.
  intros Hr. induction e as [|x e IH] using rev_ind.
  - change (symrun (vz 12) []) with (vz 12). rewrite evp_vz. reflexivity.
  - unfold symrun. rewrite fold_left_app. cbn [fold_left].
    fold (symrun (vz 12) e).
    rewrite evp_symstep by (try assumption; apply symrun_length; reflexivity).
    rewrite IH, evp_snoc. reflexivity.
Qed.

Lemma roots6 m : (1 <= m <= 6)%nat -> root (kpow gamma m).
Proof.
  intros H. unfold root.
  assert (m = 1 \/ m = 2 \/ m = 3 \/ m = 4 \/ m = 5 \/ m = 6)%nat as D by lia.
  destruct D as [->|[->|[->|[->|[->| ->]]]]]; vm_compute; reflexivity.
Qed.

Lemma gamma_nz : gamma <> k0. Proof. discriminate. Qed.

(** Order of gamma: no smaller power is one. *)
Fixpoint no_one (n : nat) (x : f1k) : bool :=
  match n with O => true | S k => if keqb x k1 then false else no_one k (kmul gamma x) end.

Lemma no_one_spec n : forall x, no_one n x = true ->
  forall i, (i < n)%nat -> kmul (kpow gamma i) x <> k1.
Proof.
  induction n; intros x H i Hi; [lia|].
  cbn [no_one] in H. destruct (keqb x k1) eqn:E; [discriminate|].
  destruct i as [|i].
  - cbn [kpow]. intros HH. assert (x = k1) by (rewrite <- HH; ring). subst x. discriminate E.
  - specialize (IHn _ H i ltac:(lia)). cbn [kpow]. intros HH. apply IHn. rewrite <- HH. ring.
Qed.

Lemma gamma_order i : (0 < i < 1023)%nat -> kpow gamma i <> k1.
Proof.
  intros H. destruct i as [|i]; [lia|].
  assert (E : no_one (N.to_nat 1022) gamma = true) by (vm_compute; reflexivity).
  pose proof (no_one_spec _ _ E i ltac:(lia)) as HH. cbn [kpow]. intros HE. apply HH. rewrite <- HE. ring.
Qed.

Lemma gamma_distinct i j : (i < j < 1023)%nat -> kpow gamma i <> kpow gamma j.
Proof.
  intros H E. apply (gamma_order (j - i)); [lia|].
  replace j with (i + (j - i))%nat in E by lia. rewrite kpow_add in E.
  assert (E2 : kmul (kpow gamma i) (kadd (kpow gamma (j - i)) k1) = k0).
  { transitivity (kadd (kmul (kpow gamma i) (kpow gamma (j - i))) (kpow gamma i)); [ring|].
    rewrite <- E. apply kadd_self. }
  apply kmul_eq0 in E2. destruct E2 as [E2|E2].
  - exfalso. exact (kpow_nz _ _ gamma_nz E2).
  - apply kadd_eq0 in E2. assumption.
Qed.

(** Locators and values of the non-zero symbols. *)
Fixpoint locs (e : list f32) : list (f1k * f1k) :=
  match e with
  | [] => []
  | x :: r => if f32_nz x then (kpow gamma (length r), kemb x) :: locs r else locs r
  end.

Lemma locs_length e : length (locs e) = weight e.
Proof. induction e; [reflexivity|]. rewrite weight_cons. cbn [locs]. destruct (f32_nz a); cbn; congruence. Qed.

Lemma psum_locs m e : psum m (locs e) = evp (kpow gamma m) e.
Proof.
  induction e as [|x e IH]; [reflexivity|].
  rewrite evp_cons, <- IH. cbn [locs]. destruct (f32_nz x) eqn:E.
  - cbn [psum]. rewrite !kpow_mul, (Nat.mul_comm m). reflexivity.
  - destruct x; try discriminate E. change (kemb F0) with k0. ring.
Qed.

Lemma locs_fst e : forall z, In z (map fst (locs e)) -> exists i, (i < length e)%nat /\ z = kpow gamma i.
Proof.
  induction e as [|x e IH]; cbn [locs]; intros z H; [destruct H|].
  destruct (f32_nz x).
  - cbn [map fst] in H. destruct H as [<-|H].
    + exists (length e). split; [cbn [length]; lia|reflexivity].
    + destruct (IH z H) as (i & Hi & ->). exists i. split; [cbn [length]; lia|reflexivity].
  - destruct (IH z H) as (i & Hi & ->). exists i. split; [cbn [length]; lia|reflexivity].
Qed.

Lemma locs_nodup e : (length e <= 1023)%nat -> NoDup (map fst (locs e)).
Proof.
  induction e as [|x e IH]; intros H; cbn [locs]; [constructor|]. cbn [length] in H.
  destruct (f32_nz x); [|apply IH; lia].
  cbn [map fst]. constructor; [|apply IH; lia].
  intros Hin. destruct (locs_fst _ _ Hin) as (i & Hi & E).
  apply (gamma_distinct i (length e)); [lia|auto].
Qed.

(** Six or fewer non-zero symbols among at most 1023 never cancel. *)
Theorem bch6 e :
  (length e <= 1023)%nat -> (weight e <= 6)%nat -> symrun (vz 12) e = vz 12 -> weight e = 0%nat.
Proof.
  intros HL Hw E.
  assert (HV : Forall (fun p => snd p = k0) (locs e)).
  { apply (vandermonde 6).
    - rewrite locs_length. assumption.
    - apply locs_nodup. assumption.
    - apply Forall_forall. intros p Hp.
      destruct (locs_fst e (fst p)) as (i & _ & Ei); [apply in_map; assumption|].
      rewrite Ei. apply kpow_nz, gamma_nz.
    - intros m Hm. rewrite psum_locs, <- (evp_symrun _ e (roots6 m Hm)), E.
      apply evp_vz. }
  clear -HV. induction e as [|x e IH]; [reflexivity|].
  rewrite weight_cons. cbn [locs] in HV. destruct (f32_nz x) eqn:E; [|auto].
  inversion HV as [|? ? H]; subst. cbn [snd] in H. exfalso.
  unfold kemb, k0 in H. injection H as H. subst x. discriminate E.
Qed.

(** ** Changing between version zero and non-zero (the two checksum constants) *)

Definition const_diff : vec :=
  map (fun i => f32_of (Z.land (Z.shiftr (Z.lxor BECH32_CONST BECH32M_CONST) (5 * (11 - i))) 31)) range12.

Lemma const_diff_pack : pack const_diff = Z.lxor BECH32_CONST BECH32M_CONST.
Proof. vm_compute. reflexivity. Qed.

Definition cross_ok (k : nat) : bool :=
  let cols := columns (S k) c0 in
  let ck := nth k cols [] in
  search 2 (proj ck const_diff) (map (proj ck) (firstn k cols)).

Lemma cross_ok_97 : cross_ok 97 = true. Proof. vm_cast_no_check (@eq_refl bool true). Qed.
Lemma cross_ok_116 : cross_ok 116 = true. Proof. vm_cast_no_check (@eq_refl bool true). Qed.

Lemma vaxpy_comm a u b v w d : length u = d -> length v = d -> length w = d ->
  vaxpy a u (vaxpy b v w) = vaxpy b v (vaxpy a u w).
Proof.
  revert u v w. induction d; intros [|x u] [|y v] [|z w]; simpl length; intros; try discriminate; auto.
  cbn [vaxpy]. f_equal; [ring|]. apply IHd; congruence.
Qed.

Lemma vaxpy_zl k v d : length v = d -> vaxpy k (vz d) v = v.
Proof.
  revert v. induction d; intros [|y v] H; try discriminate H; [reflexivity|].
  change (vz (S d)) with (F0 :: vz d). cbn [vaxpy]. rewrite f32_mul_0_r, f32_add_0_r. f_equal.
  apply IHd. simpl in H; congruence.
Qed.

(** Multiplication by x is injective. *)
Lemma Mx_inj0 v : length v = 12%nat -> Mx v = vz 12 -> v = vz 12.
Proof.
  intros HL H. destruct v as [|s v]; [discriminate|]. injection HL as HL.
  unfold Mx, symstep in H. cbn [tl hd] in H.
  assert (Hs : s = F0).
  { destruct (f32_eq_dec s F0) as [|Hs]; [assumption|exfalso].
    pose proof (f_equal (fun l => nth 11 l F1) H) as E.
    do 11 (destruct v as [|? v]; [discriminate HL|]). destruct v; [|discriminate HL].
    unfold gcoef in E. cbn [app vscale vadd nth vz repeat] in E. rewrite f32_add_0_l in E.
    apply f32_mul_eq0 in E. destruct E as [E|E]; [contradiction|discriminate E]. }
  subst s. change (vz 12) with (F0 :: vz 11). f_equal.
  do 11 (destruct v as [|? v]; [discriminate HL|]). destruct v; [|discriminate HL].
  unfold gcoef in H. cbn [app vscale vadd vz repeat] in H. rewrite !f32_mul_0_l, !f32_add_0_r in H.
  unfold vz. cbn [repeat]. congruence.
Qed.

Lemma columns_nz_from n : forall c, length c = 12%nat -> c <> vz 12 ->
  Forall (fun v => v <> vz 12) (columns n c).
Proof.
  induction n; intros c HL Hc; constructor; [assumption|].
  apply IHn; [apply symstep_length; assumption|]. intros E. apply Hc. apply Mx_inj0; assumption.
Qed.

Lemma columns_nz n : Forall (fun v => v <> vz 12) (columns n c0).
Proof. apply columns_nz_from; [reflexivity|discriminate]. Qed.

Lemma cross5 k e0 e :
  cross_ok k = true ->
  length e = k -> e0 <> F0 -> (weight e <= 4)%nat ->
  symrun (vz 12) (e0 :: e) <> const_diff.
Proof.
  intros Hc HL He Hw E. rewrite symrun_lincomb in E. cbn [rev length] in E. rewrite HL in E.
  unfold cross_ok in Hc. cbv zeta in Hc.
  destruct (columns_app k 1 c0) as [ck Eck]. rewrite Nat.add_1_r in Eck. cbn [columns] in Eck.
  change (c0 :: columns k (Mx c0)) with (columns (S k) c0) in Eck. rewrite Eck in E, Hc.
  rewrite app_nth2 in Hc by (rewrite columns_length; lia).
  rewrite columns_length, Nat.sub_diag in Hc. cbn [nth] in Hc.
  rewrite firstn_app, columns_length, Nat.sub_diag, firstn_O, app_nil_r in Hc.
  rewrite firstn_all2 in Hc by (rewrite columns_length; lia).
  pose proof (columns_dim (S k) c0 eq_refl) as HF. rewrite Eck in HF.
  apply Forall_app in HF. destruct HF as [HF1 HF2].
  assert (Hck : length ck = 12%nat) by (inversion HF2; assumption).
  assert (Hlin : forall ks cs, length ks = length cs -> Forall (fun v => length v = 12%nat) cs ->
            lincomb 12 (ks ++ [e0]) (cs ++ [ck]) = vaxpy e0 ck (lincomb 12 ks cs)).
  { induction ks as [|y ks IH]; intros [|c cs] Hlen HF; try discriminate Hlen; [reflexivity|].
    inversion HF; subst. cbn [app lincomb]. rewrite IH by (auto; simpl in Hlen; congruence).
    apply (vaxpy_comm _ _ _ _ _ 12); auto. apply lincomb_length; assumption. }
  rewrite Hlin in E; [|rewrite rev_length, columns_length; assumption|assumption].
  assert (Hne : ck <> vz 12).
  { intros ->. clear -Eck. revert Eck. 
    pose proof (columns_nz (S k)) as H. rewrite Forall_forall in H. intros E.
    apply (H (vz 12)); [rewrite E; apply in_or_app; right; left; reflexivity|reflexivity]. }
  pose proof (f_equal (proj ck) E) as E2.
  rewrite proj_vaxpy in E2; [|congruence|rewrite lincomb_length; auto].
  rewrite (proj_self ck 11), (proj_lincomb 11) in E2 by assumption.
  assert (HFp : Forall (fun v => length v = 11%nat) (map (proj ck) (columns k c0)))
    by (apply map_proj_length; assumption).
  rewrite vaxpy_zl in E2 by (apply lincomb_length; assumption).
  refine (search_sound 2 8 _ _ Hc _ HFp (rev e) _ _ E2).
  - apply proj_length; [assumption|reflexivity|assumption].
  - rewrite map_length, rev_length, columns_length. assumption.
  - rewrite weight_rev. exact Hw.
Qed.
