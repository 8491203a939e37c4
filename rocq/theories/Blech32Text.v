(** Proofs relating [encode]/[decode] to the text specification SpecBlech32. *)
From Coq Require Import Strings.String.
From Coq Require Import ZArith List Bool Lia Ring.
From Verif Require Import Base BaseFacts PyStr GF32 CodeSearch CodeFacts Blech32Model SpecBits ConvertFacts
  Blech32Code Blech32Facts Blech32Proofs SpecBlech32.
Import ListNotations.
Local Open Scope Z_scope.

Add Ring f32ring : f32_ring.

(** ** Polynomials over [f32] *)

Fixpoint fp_add (a b : list f32) : list f32 :=
  match a, b with
  | [], _ => b
  | _, [] => a
  | x :: a', y :: b' => f32_add x y :: fp_add a' b'
  end.
Fixpoint fp_mul (a b : list f32) : list f32 :=
  match a with [] => [] | x :: a' => fp_add (vscale x b) (F0 :: fp_mul a' b) end.
Definition fp_eq (a b : list f32) : Prop := forall n, nth n a F0 = nth n b F0.

Lemma gf_mul_z a b : gf_mul (f32_z a) (f32_z b) = f32_z (f32_mul a b).
Proof. destruct a; destruct b; vm_compute; reflexivity. Qed.

Lemma p_add_z a : forall b, p_add (map f32_z a) (map f32_z b) = map f32_z (fp_add a b).
Proof.
  induction a as [|x a IH]; intros [|y b]; try reflexivity.
  cbn [map p_add fp_add]. unfold gf_add. rewrite <- f32_add_z, IH. reflexivity.
Qed.

Lemma p_scale_z k b : p_scale (f32_z k) (map f32_z b) = map f32_z (vscale k b).
Proof.
  unfold p_scale. induction b as [|y b IH]; [reflexivity|].
  cbn [map vscale]. rewrite gf_mul_z, IH. reflexivity.
Qed.

Lemma p_mul_z a b : p_mul (map f32_z a) (map f32_z b) = map f32_z (fp_mul a b).
Proof.
  induction a as [|x a IH]; [reflexivity|]. cbn [map p_mul fp_mul].
  rewrite p_scale_z, IH. change (0 :: map f32_z (fp_mul a b)) with (map f32_z (F0 :: fp_mul a b)).
  apply p_add_z.
Qed.

Lemma same_poly_z a b : same_poly (map f32_z a) (map f32_z b) <-> fp_eq a b.
Proof.
  unfold same_poly, fp_eq. split; intros H n; specialize (H n).
  - change 0 with (f32_z F0) in H. rewrite !map_nth in H. apply f32_z_inj. exact H.
  - change 0 with (f32_z F0). rewrite !map_nth, H. reflexivity.
Qed.

Lemma nth_fp_add a : forall b n, nth n (fp_add a b) F0 = f32_add (nth n a F0) (nth n b F0).
Proof.
  induction a as [|x a IH]; intros b n.
  - cbn [fp_add]. destruct n; cbn [nth]; rewrite f32_add_0_l; reflexivity.
  - destruct b as [|y b]; cbn [fp_add].
    + destruct n; cbn [nth]; rewrite f32_add_0_r; reflexivity.
    + destruct n; cbn [nth]; [reflexivity|apply IH].
Qed.

Lemma nth_vscale k a n : nth n (vscale k a) F0 = f32_mul k (nth n a F0).
Proof.
  revert n. induction a as [|x a IH]; intros [|n]; cbn [vscale nth]; rewrite ?f32_mul_0_r; auto.
Qed.

(** The generator, constant term first. *)
Definition fgen : list f32 := rev gcoef ++ [F1].

Lemma fgen_z : map f32_z fgen = gen_poly.
Proof. reflexivity. Qed.

Lemma nth_fgen_12 : nth 12 fgen F0 = F1. Proof. reflexivity. Qed.
Lemma nth_fgen_high n : (12 < n)%nat -> nth n fgen F0 = F0.
Proof. intros H. apply nth_overflow. cbn [fgen rev gcoef app length]. lia. Qed.

(** ** Division *)

Lemma nth_vadd a : forall b n, length a = length b ->
  nth n (vadd a b) F0 = f32_add (nth n a F0) (nth n b F0).
Proof.
  induction a as [|x a IH]; intros [|y b] n HL; try discriminate HL.
  - destruct n; reflexivity.
  - injection HL as HL. destruct n; cbn [vadd nth]; [reflexivity|apply IH; assumption].
Qed.

Lemma add_flip a b : a = f32_add b (f32_add a b).
Proof. destruct a; destruct b; reflexivity. Qed.

(** One step of the shift register, constant term first. *)
Lemma step_poly st v : length st = 12%nat ->
  fp_eq (v :: rev st) (fp_add (vscale (hd F0 st) fgen) (rev (symstep st v))).
Proof.
  intros H. do 12 (destruct st as [|? st]; [discriminate H|]). destruct st; [|discriminate H].
  intros n. do 13 (destruct n as [|n];
    [unfold symstep; cbn [hd tl app vadd vscale gcoef rev fgen fp_add nth]; first [apply add_flip | ring]|]).
  cbn [rev symstep hd tl app vadd vscale gcoef fgen fp_add nth]. destruct n; reflexivity.
Qed.

Lemma nth_cons_mul n v p : nth n (v :: p) F0 = f32_add (nth n [v] F0) (nth n (F0 :: p) F0).
Proof. destruct n; cbn [nth]; [rewrite f32_add_0_r|destruct n; rewrite f32_add_0_l]; reflexivity. Qed.

Lemma divide_ex vs : exists q, fp_eq (rev (F1 :: vs)) (fp_add (fp_mul q fgen) (rev (symrun c0 vs))).
Proof.
  induction vs as [|v vs [q IH]] using rev_ind.
  - exists []. intros n. cbn [fp_mul fp_add]. change (symrun c0 []) with c0.
    do 13 (destruct n as [|n]; [reflexivity|]). destruct n; reflexivity.
  - exists (hd F0 (symrun c0 vs) :: q). intros n.
    change (F1 :: vs ++ [v]) with ((F1 :: vs) ++ [v]). rewrite rev_unit.
    assert (HS : symrun c0 (vs ++ [v]) = symstep (symrun c0 vs) v)
      by (unfold symrun; rewrite fold_left_app; reflexivity).
    rewrite HS. cbn [fp_mul]. rewrite !nth_fp_add.
    pose proof (step_poly (symrun c0 vs) v (symrun_length c0 vs eq_refl) n) as S.
    rewrite nth_fp_add in S.
    set (X := nth n (vscale (hd F0 (symrun c0 vs)) fgen) F0) in *.
    set (Y := nth n (rev (symstep (symrun c0 vs) v)) F0) in *.
    destruct n as [|n].
    + cbn [nth] in *. rewrite S. ring.
    + cbn [nth] in *. rewrite (IH n), nth_fp_add, S. ring.
Qed.

(** Multiples of the generator of degree below 12 are zero. *)
Lemma nth_mul_snoc d a : forall n,
  nth n (fp_mul (d ++ [a]) fgen) F0
  = f32_add (nth n (fp_mul d fgen) F0) (if (length d <=? n)%nat then f32_mul a (nth (n - length d) fgen F0) else F0).
Proof.
  induction d as [|x d IH]; intros n; cbn [app fp_mul].
  - rewrite nth_fp_add, nth_vscale. cbn [length Nat.leb]. rewrite Nat.sub_0_r.
    replace (nth n [F0] F0) with F0 by (destruct n as [|[|n]]; reflexivity).
    destruct n; cbn [nth]; ring.
  - rewrite !nth_fp_add. destruct n as [|n]; cbn [nth length Nat.leb Nat.sub].
    + ring.
    + rewrite IH. ring.
Qed.

Lemma nth_mul_high d : forall n, (length d + 12 <= n)%nat -> nth n (fp_mul d fgen) F0 = F0.
Proof.
  induction d as [|x d IH]; intros n Hn; [destruct n; reflexivity|].
  cbn [fp_mul length] in *. rewrite nth_fp_add, nth_vscale, nth_fgen_high by lia.
  destruct n; [lia|]. cbn [nth]. rewrite IH by lia. ring.
Qed.

Lemma small_multiple d : (forall n, (12 <= n)%nat -> nth n (fp_mul d fgen) F0 = F0) ->
  forall n, nth n (fp_mul d fgen) F0 = F0.
Proof.
  induction d as [|a d IH] using rev_ind; intros H n; [destruct n; reflexivity|].
  assert (Ha : a = F0).
  { pose proof (H (length d + 12)%nat ltac:(lia)) as E. rewrite nth_mul_snoc in E.
    rewrite nth_mul_high in E by lia. assert ((length d <=? length d + 12)%nat = true) as L by (apply Nat.leb_le; lia).
    rewrite L in E. replace (length d + 12 - length d)%nat with 12%nat in E by lia.
    rewrite nth_fgen_12 in E. rewrite <- E. ring. }
  subst a.
  assert (Z : forall m, nth m (fp_mul (d ++ [F0]) fgen) F0 = nth m (fp_mul d fgen) F0).
  { intros m. rewrite nth_mul_snoc. destruct (_ <=? _)%nat; ring. }
  rewrite Z. apply IH. intros m Hm. rewrite <- Z. apply H. exact Hm.
Qed.

Lemma nth_mul_add a : forall b n,
  f32_add (nth n (fp_mul a fgen) F0) (nth n (fp_mul b fgen) F0) = nth n (fp_mul (fp_add a b) fgen) F0.
Proof.
  induction a as [|x a IH]; intros b n; cbn [fp_mul fp_add].
  - destruct n; cbn [nth]; ring.
  - destruct b as [|y b]; cbn [fp_mul].
    + destruct n; cbn [nth]; ring.
    + rewrite !nth_fp_add, !nth_vscale. destruct n; cbn [nth]; [ring|].
      rewrite <- IH. ring.
Qed.

Lemma add_cancel a b c d : f32_add a b = f32_add c d -> f32_add a c = f32_add d b.
Proof.
  intros H. transitivity (f32_add (f32_add a b) (f32_add b c)); [|rewrite H].
  - replace (f32_add (f32_add a b) (f32_add b c)) with (f32_add (f32_add a c) (f32_add b b)) by ring.
    rewrite f32_add_self. ring.
  - replace (f32_add (f32_add c d) (f32_add b c)) with (f32_add (f32_add d b) (f32_add c c)) by ring.
    rewrite f32_add_self. ring.
Qed.

Lemma add_zero_eq a b : f32_add a b = F0 -> a = b.
Proof. destruct a; destruct b; intros H; (reflexivity || discriminate H). Qed.

Lemma divide_iff vs c : length c = 12%nat ->
  symrun c0 vs = c <-> exists q, fp_eq (rev (F1 :: vs)) (fp_add (fp_mul q fgen) (rev c)).
Proof.
  intros HL. split; [intros <-; apply divide_ex|].
  intros [q Hq]. destruct (divide_ex vs) as [q0 H0].
  assert (E : forall n, nth n (fp_mul (fp_add q0 q) fgen) F0
                        = f32_add (nth n (rev c) F0) (nth n (rev (symrun c0 vs)) F0)).
  { intros n. rewrite <- nth_mul_add. apply add_cancel.
    pose proof (H0 n) as A. pose proof (Hq n) as B. rewrite nth_fp_add in A, B. congruence. }
  assert (Zr : forall n, nth n (fp_mul (fp_add q0 q) fgen) F0 = F0).
  { apply small_multiple. intros n Hn. rewrite E. rewrite !nth_overflow; [reflexivity| |];
      rewrite rev_length, ?HL, ?(symrun_length c0 vs eq_refl); exact Hn. }
  assert (EQ : rev c = rev (symrun c0 vs)).
  { apply (nth_ext _ _ F0 F0); [rewrite !rev_length, (symrun_length c0 vs eq_refl); exact HL|].
    intros n _. apply add_zero_eq. rewrite <- E. apply Zr. }
  apply (f_equal (@rev _)) in EQ. rewrite !rev_involutive in EQ. auto.
Qed.

(** ** The checksum *)

Lemma residue_z v : exists c, length c = 12%nat /\ pack c = const_of (enc_of v) /\ residue v = map f32_z (rev c).
Proof.
  unfold residue, enc_of. destruct (v =? 0).
  - exists c0. repeat split.
  - exists (unpack 0x455972a3350f7a1). split; [reflexivity|]. split; vm_compute; reflexivity.
Qed.

Lemma hrp_symbols_expand h : hrp_symbols h = blech32_hrp_expand h.
Proof.
  unfold hrp_symbols, blech32_hrp_expand. f_equal; [|f_equal]; apply map_ext; intros c.
  - rewrite Z.shiftr_div_pow2 by lia. reflexivity.
  - change 31 with (Z.ones 5). rewrite Z.land_ones by lia. reflexivity.
Qed.

Lemma hrp_symbols_words h : printable h -> words 5 (hrp_symbols h).
Proof.
  intros H. unfold hrp_symbols, words. change (2 ^ Z.of_nat 5) with 32.
  apply Forall_app. split; [|constructor; [lia|]]; rewrite Forall_map; eapply Forall_impl; try exact H; cbn beta; intros c Hc;
    Z.to_euclidean_division_equations; lia.
Qed.

Lemma Checksum_iff h v data chk : printable h ->
  Checksum h v (map f32_z data) chk <->
  exists k, length k = 12%nat /\ chk = map f32_z k /\
            blech32_polymod (blech32_hrp_expand h ++ map f32_z (data ++ k)) = const_of (enc_of v).
Proof.
  intros Hh. destruct (words5_f32 _ (hrp_symbols_words h Hh)) as [hs Hs].
  destruct (residue_z v) as (c & Lc & Pc & Rc).
  assert (M : forall k, length k = 12%nat ->
    (exists q, words 5 q /\ same_poly (rev (1 :: hrp_symbols h ++ map f32_z data ++ map f32_z k))
                              (p_add (p_mul q gen_poly) (residue v))) <->
    blech32_polymod (blech32_hrp_expand h ++ map f32_z (data ++ k)) = const_of (enc_of v)).
  { intros k Lk. rewrite <- hrp_symbols_expand, Hs, <- map_app, <- map_app.
    change (1 :: map f32_z (hs ++ data ++ k)) with (map f32_z (F1 :: hs ++ data ++ k)).
    rewrite <- map_rev, blech32_polymod_sym, <- Pc, <- fgen_z, Rc.
    split.
    - intros (q & Wq & Hq). destruct (words5_f32 _ Wq) as [q' ->].
      rewrite p_mul_z, p_add_z, same_poly_z in Hq. f_equal. apply (divide_iff _ _ Lc). exists q'. exact Hq.
    - intros E. apply pack_inj in E; [|rewrite (symrun_length c0 _ eq_refl); auto].
      apply (divide_iff _ _ Lc) in E. destruct E as [q Hq]. exists (map f32_z q). split; [apply f32_words5|].
      rewrite p_mul_z, p_add_z, same_poly_z. exact Hq. }
  unfold Checksum. split.
  - intros (L & W & Q). destruct (words5_f32 _ W) as [k ->]. rewrite map_length in L.
    exists k. split; [exact L|]. split; [reflexivity|]. apply M; assumption.
  - intros (k & L & -> & E). split; [rewrite map_length; exact L|]. split; [apply f32_words5|].
    apply M; assumption.
Qed.

Lemma groups_iff p l : FiveBitGroups p l <-> convertbits (map bz p) 8 5 true = Some l.
Proof.
  destruct (to5_exists p) as (out & E & Hw & f & Hf & HB).
  split.
  - intros (W & f' & Hf' & HB'). rewrite E. f_equal.
    pose proof (f_equal (@length _) HB) as L1. pose proof (f_equal (@length _) HB') as L2.
    rewrite !app_length, !bitstring_length, !repeat_length in L1, L2.
    assert (f = f') by lia. subst f'. rewrite <- HB' in HB.
    apply (bitstring_inj 5); auto. lia.
  - rewrite E. intros [= <-]. split; [exact Hw|]. exists f. auto.
Qed.

Lemma symbol_chr s : symbol (f32_z s) = chr s.
Proof. destruct s; reflexivity. Qed.

Lemma text_iff h v p s : printable h -> 0 <= v < 32 ->
  AddressText h v p s <->
  exists v5 syms chk,
    v = f32_z v5 /\ convertbits (map bz p) 8 5 true = Some (map f32_z syms) /\
    length chk = 12%nat /\ s = h ++ 49 :: map chr (v5 :: syms ++ chk) /\
    blech32_polymod (blech32_hrp_expand h ++ map f32_z (v5 :: syms ++ chk)) = const_of (enc_of v).
Proof.
  intros Hh Hv.
  assert (SY : forall l, map symbol (map f32_z l) = map chr l).
  { intros l. rewrite map_map. apply map_ext. exact symbol_chr. }
  split.
  - intros (g & chk & G & C & ->). apply groups_iff in G. pose proof G as G0.
    destruct (to5_syms p) as [syms Hs]. rewrite Hs in G. injection G as <-.
    rewrite <- (f32_z_of v Hv) in C at 2. change (f32_z (f32_of v) :: map f32_z syms) with (map f32_z (f32_of v :: syms)) in C.
    apply (Checksum_iff h v _ _ Hh) in C. destruct C as (k & L & -> & E).
    exists (f32_of v), syms, k. split; [symmetry; apply f32_z_of; exact Hv|]. split; [exact Hs|].
    split; [exact L|]. split; [|exact E].
    cbn [map]. rewrite <- map_app, SY. rewrite <- (f32_z_of v Hv) at 1. rewrite symbol_chr. reflexivity.
  - intros (v5 & syms & k & -> & Hs & L & -> & E).
    exists (map f32_z syms), (map f32_z k). split; [apply groups_iff; exact Hs|].
    split.
    + change (f32_z v5 :: map f32_z syms) with (map f32_z (v5 :: syms)).
      apply (Checksum_iff h (f32_z v5) _ _ Hh). exists k. auto.
    + cbn [map]. rewrite <- map_app, SY, symbol_chr. reflexivity.
Qed.
