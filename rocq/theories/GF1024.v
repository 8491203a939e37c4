(** The field with 1024 elements, as pairs over [f32] with z^2 = z + 1, and the
    Vandermonde argument used for the BCH bound.  Used in proofs only. *)
From Coq Require Import ZArith List Bool Lia Ring.
From Verif Require Import GF32.
Import ListNotations.

Definition f1k := (f32 * f32)%type.

Definition k0 : f1k := (F0, F0).
Definition k1 : f1k := (F1, F0).
Definition kadd (a b : f1k) : f1k := (f32_add (fst a) (fst b), f32_add (snd a) (snd b)).
(** (a0 + a1 z)(b0 + b1 z) with z^2 = z + 1 *)
Definition kmul (a b : f1k) : f1k :=
  let '(a0, a1) := a in let '(b0, b1) := b in
  let h := f32_mul a1 b1 in
  (f32_add (f32_mul a0 b0) h, f32_add (f32_add (f32_mul a0 b1) (f32_mul a1 b0)) h).
Definition kemb (a : f32) : f1k := (a, F0).

Lemma kadd_self a : kadd a a = k0.
Proof. destruct a. unfold kadd; cbn [fst snd]. rewrite !f32_add_self. reflexivity. Qed.

Lemma k_ring : ring_theory k0 k1 kadd kmul kadd (fun a => a) (@eq f1k).
Proof.
  constructor; intros;
    repeat match goal with x : f1k |- _ => destruct x end;
    unfold kadd, kmul, k0, k1; cbn [fst snd]; try (f_equal; ring).
  rewrite !f32_add_self. reflexivity.
Qed.
Add Ring k_ring_inst : k_ring.

Definition keqb (a b : f1k) : bool := f32_eqb (fst a) (fst b) && f32_eqb (snd a) (snd b).

Lemma keqb_eq a b : keqb a b = true -> a = b.
Proof.
  destruct a, b. unfold keqb; cbn [fst snd]. intros H. apply andb_prop in H. destruct H as [H1 H2].
  apply f32_eqb_eq in H1. apply f32_eqb_eq in H2. congruence.
Qed.

Definition k_eq_dec (a b : f1k) : {a = b} + {a <> b}.
Proof. decide equality; apply f32_eq_dec. Defined.

(** Norm to the subfield: non-zero for non-zero elements. *)
Definition knorm (a : f1k) : f32 :=
  f32_add (f32_add (f32_mul (fst a) (fst a)) (f32_mul (fst a) (snd a))) (f32_mul (snd a) (snd a)).
Definition kconj (a : f1k) : f1k := (f32_add (fst a) (snd a), snd a).

Lemma f32_add_cancel a b : f32_add a (f32_add a b) = b.
Proof. rewrite f32_add_assoc, f32_add_self. apply f32_add_0_l. Qed.

Lemma kconj_norm a : kmul (kconj a) a = kemb (knorm a).
Proof.
  destruct a as [a0 a1]. unfold kmul, kconj, kemb, knorm; cbn [fst snd].
  f_equal; [ring|].
  transitivity (f32_add (f32_add (f32_mul a0 a1) (f32_mul a0 a1)) (f32_add (f32_mul a1 a1) (f32_mul a1 a1))); [ring|].
  rewrite !f32_add_self. reflexivity.
Qed.

Lemma knorm_nz a : knorm a = F0 -> a = k0.
Proof.
  assert (H : forallb (fun x => forallb (fun y => f32_nz (knorm (x, y)) || (negb (f32_nz x) && negb (f32_nz y))) all32) all32 = true)
    by (vm_compute; reflexivity).
  destruct a as [x y]. intros E.
  rewrite forallb_forall in H. specialize (H x (all32_all x)). cbv beta in H.
  rewrite forallb_forall in H. specialize (H y (all32_all y)). cbv beta in H.
  rewrite E in H. cbn in H. apply andb_prop in H. destruct H as [H1 H2].
  destruct x; try discriminate H1. destruct y; try discriminate H2. reflexivity.
Qed.

Lemma kmul_eq0 a b : kmul a b = k0 -> a = k0 \/ b = k0.
Proof.
  intros H. destruct (k_eq_dec a k0) as [|Ha]; [left; assumption|right].
  assert (E : kmul (kemb (knorm a)) b = k0).
  { rewrite <- kconj_norm. transitivity (kmul (kconj a) (kmul a b)); [ring|]. rewrite H. ring. }
  destruct b as [b0 b1]. unfold kmul, kemb, k0 in E. pose proof (f_equal fst E) as E1. pose proof (f_equal snd E) as E2.
  cbn [fst snd] in E1, E2.
  rewrite ?f32_mul_0_l, ?f32_add_0_r in E1. rewrite ?f32_mul_0_l, ?f32_add_0_r in E2.
  assert (knorm a <> F0) by (intros E3; apply Ha, knorm_nz, E3).
  apply f32_mul_eq0 in E1. apply f32_mul_eq0 in E2.
  destruct E1; [contradiction|]. destruct E2; [contradiction|]. subst. reflexivity.
Qed.

Lemma kadd_eq0 a b : kadd a b = k0 -> a = b.
Proof.
  intros H. transitivity (kadd (kadd a b) b).
  - transitivity (kadd a (kadd b b)); [rewrite kadd_self; ring|ring].
  - rewrite H. ring.
Qed.

Lemma k1_k0 : k1 <> k0. Proof. intros H. discriminate H. Qed.

Fixpoint kpow (x : f1k) (n : nat) : f1k :=
  match n with O => k1 | S m => kmul x (kpow x m) end.

Lemma kpow_add x a b : kpow x (a + b) = kmul (kpow x a) (kpow x b).
Proof. induction a; cbn [kpow Nat.add]; [ring|]. rewrite IHa. ring. Qed.

Lemma kpow_mul x a b : kpow (kpow x a) b = kpow x (a * b).
Proof.
  induction b; [rewrite Nat.mul_0_r; reflexivity|].
  cbn [kpow]. rewrite IHb, Nat.mul_succ_r, Nat.add_comm, kpow_add. reflexivity.
Qed.

Lemma kpow_nz x n : x <> k0 -> kpow x n <> k0.
Proof.
  intros Hx. induction n; cbn [kpow]; [exact k1_k0|].
  intros H. apply kmul_eq0 in H. tauto.
Qed.

(** Power sums over (locator, value) pairs. *)
Fixpoint psum (m : nat) (L : list (f1k * f1k)) : f1k :=
  match L with [] => k0 | (x, y) :: r => kadd (kmul y (kpow x m)) (psum m r) end.

Lemma psum_shift x L m :
  psum m (map (fun p => (fst p, kmul (snd p) (kadd (fst p) x))) L)
  = kadd (psum (S m) L) (kmul x (psum m L)).
Proof.
  induction L as [|[a b] L IH]; cbn [map psum fst snd]; [ring|].
  rewrite IH. cbn [kpow]. ring.
Qed.

(** If the power sums 1..N vanish, at most N distinct non-zero locators carry
    only zero values. *)
Lemma vandermonde : forall N L,
  (length L <= N)%nat ->
  NoDup (map fst L) ->
  Forall (fun p => fst p <> k0) L ->
  (forall m, (1 <= m <= N)%nat -> psum m L = k0) ->
  Forall (fun p => snd p = k0) L.
Proof.
  induction N; intros L HL HN HX HS.
  - destruct L; [constructor|simpl in HL; lia].
  - destruct L as [|[x y] L]; [constructor|].
    cbn [map fst] in HN. inversion HN as [|? ? Hnin HN']; subst.
    inversion HX as [|? ? Hx HX']; subst. cbn [fst] in Hx.
    set (L' := map (fun p => (fst p, kmul (snd p) (kadd (fst p) x))) L).
    assert (HL' : Forall (fun p => snd p = k0) L').
    { apply IHN.
      - unfold L'. rewrite map_length. simpl in HL. lia.
      - unfold L'. rewrite map_map. cbn [fst]. exact HN'.
      - unfold L'. rewrite Forall_map. cbn [fst]. exact HX'.
      - intros m Hm. unfold L'. rewrite psum_shift.
        pose proof (HS m ltac:(lia)) as E1. pose proof (HS (S m) ltac:(lia)) as E2.
        cbn [psum] in E1, E2. apply kadd_eq0 in E1. apply kadd_eq0 in E2.
        rewrite <- E1, <- E2. cbn [kpow].
        transitivity (kadd (kmul (kmul y (kmul x (kpow x m))) k1) (kmul (kmul y (kmul x (kpow x m))) k1)); [ring|].
        apply kadd_self. }
    assert (HLz : Forall (fun p => snd p = k0) L).
    { apply Forall_forall. intros [a b] Hin. cbn [snd].
      unfold L' in HL'. rewrite Forall_map in HL'. cbn [snd] in HL'.
      rewrite Forall_forall in HL'. specialize (HL' _ Hin). cbn [fst snd] in HL'.
      apply kmul_eq0 in HL'. destruct HL' as [|H]; [assumption|].
      apply kadd_eq0 in H. subst a. exfalso. apply Hnin.
      apply in_map_iff. exists (x, b). auto. }
    constructor; [|exact HLz]. cbn [snd].
    pose proof (HS 1%nat ltac:(lia)) as E1. cbn [psum] in E1.
    assert (Hz : psum 1 L = k0).
    { clear -HLz. induction HLz as [|[a b] L H HH IH]; [reflexivity|].
      cbn [psum]. cbn [snd] in H. rewrite H, IH. ring. }
    rewrite Hz in E1.
    assert (E3 : kmul y (kpow x 1) = k0) by (rewrite <- E1; ring).
    apply kmul_eq0 in E3. destruct E3 as [|E3]; [assumption|].
    exfalso. exact (kpow_nz x 1 Hx E3).
Qed.
