(** Facts about [Base.v]. *)
From Verif Require Import Base.
Local Open Scope Z_scope.

Lemma bz_range b : 0 <= bz b < 256.
Proof.
  unfold bz. pose proof (Byte.to_N_bounded b). lia.
Qed.

Lemma zb_eq z : zb z = match Byte.of_N (Z.to_N (z mod 256)) with Some b => b | None => x00 end.
Proof. unfold zb. change 255 with (Z.ones 8). rewrite Z.land_ones by lia. reflexivity. Qed.

Lemma zb_bz b : zb (bz b) = b.
Proof.
  rewrite zb_eq. rewrite Z.mod_small by apply bz_range.
  unfold bz. rewrite N2Z.id, Byte.of_to_N. reflexivity.
Qed.

Lemma bz_zb z : bz (zb z) = z mod 256.
Proof.
  rewrite zb_eq. unfold bz. destruct (Byte.of_N _) eqn:E.
  - apply Byte.to_of_N in E. rewrite E. rewrite Z2N.id; [reflexivity|]. apply Z.mod_pos_bound; lia.
  - apply Byte.of_N_None_iff in E. pose proof (Z.mod_pos_bound z 256 ltac:(lia)). lia.
Qed.

Lemma bz_inj a b : bz a = bz b -> a = b.
Proof. intros H. rewrite <- (zb_bz a), <- (zb_bz b), H. reflexivity. Qed.

Lemma zb_mod z : zb (z mod 256) = zb z.
Proof. apply bz_inj. rewrite !bz_zb. apply Z.mod_mod. lia. Qed.

Lemma bz_x00 : bz x00 = 0. Proof. reflexivity. Qed.
Lemma bz_x01 : bz x01 = 1. Proof. reflexivity. Qed.

Lemma Byte_eqb_eq a b : Byte.eqb a b = true <-> a = b.
Proof. split; [apply Byte.byte_dec_bl | apply Byte.byte_dec_lb]. Qed.

Lemma bytes_eqb_eq a b : bytes_eqb a b = true <-> a = b.
Proof.
  revert b; induction a as [|x a IH]; intros [|y b]; simpl; try (split; congruence).
  rewrite andb_true_iff, Byte_eqb_eq, IH. split; [intros [-> ->]; reflexivity | intros H; inversion H; auto].
Qed.

Lemma bytes_eqb_refl a : bytes_eqb a a = true.
Proof. apply bytes_eqb_eq. reflexivity. Qed.

Lemma bytes_eqb_neq a b : bytes_eqb a b = false <-> a <> b.
Proof.
  rewrite <- not_true_iff_false, bytes_eqb_eq. reflexivity.
Qed.

Definition bytes_eq_dec (a b : bytes) : {a = b} + {a <> b}.
Proof.
  destruct (bytes_eqb a b) eqn:E.
  - left. apply bytes_eqb_eq, E.
  - right. apply bytes_eqb_neq, E.
Defined.

Lemma blen_nonneg s : 0 <= blen s. Proof. unfold blen; lia. Qed.
Lemma blen_app a b : blen (a ++ b) = blen a + blen b.
Proof. unfold blen. rewrite app_length. lia. Qed.
Lemma blen_nil : blen [] = 0. Proof. reflexivity. Qed.
Lemma blen_cons x s : blen (x :: s) = 1 + blen s.
Proof. unfold blen. simpl length. lia. Qed.

(** ** Little-endian *)
Lemma le_bytes_S n z : le_bytes (S n) z = zb z :: le_bytes n (z / 256).
Proof. cbn [le_bytes]. rewrite Z.shiftr_div_pow2 by lia. reflexivity. Qed.
Lemma be_val_eq s : be_val s = le_val (rev s).
Proof. unfold be_val. rewrite rev_alt. reflexivity. Qed.
Lemma le_bytes_length n z : length (le_bytes n z) = n.
Proof. revert z; induction n; intros; simpl; auto. Qed.

Lemma pow256_pos n : 0 < 256 ^ Z.of_nat n.
Proof. apply Z.pow_pos_nonneg; lia. Qed.

Lemma pow256_S n : 256 ^ Z.of_nat (S n) = 256 * 256 ^ Z.of_nat n.
Proof. rewrite Nat2Z.inj_succ, Z.pow_succ_r by lia. reflexivity. Qed.

Lemma le_val_range s : 0 <= le_val s < 256 ^ blen s.
Proof.
  unfold blen. induction s as [|b s IH]; [simpl; lia|].
  change (length (b :: s)) with (S (length s)). rewrite pow256_S.
  cbn [le_val]. pose proof (bz_range b). lia.
Qed.

Lemma le_val_le_bytes n z : le_val (le_bytes n z) = z mod 256 ^ Z.of_nat n.
Proof.
  revert z; induction n as [|n IH]; intros z.
  - simpl. rewrite Z.mod_1_r. reflexivity.
  - rewrite le_bytes_S. cbn [le_val]. rewrite IH, bz_zb, pow256_S.
    pose proof (pow256_pos n). rewrite Z.rem_mul_r by lia. reflexivity.
Qed.

Lemma le_bytes_le_val s : le_bytes (length s) (le_val s) = s.
Proof.
  induction s as [|b s IH]; [reflexivity|].
  cbn [length le_val]. rewrite le_bytes_S. pose proof (bz_range b).
  f_equal.
  - apply bz_inj. rewrite bz_zb. rewrite Z.mul_comm, Z.mod_add by lia. apply Z.mod_small; lia.
  - replace ((bz b + 256 * le_val s) / 256) with (le_val s); [exact IH|].
    rewrite Z.mul_comm, Z.div_add by lia. rewrite Z.div_small by lia. lia.
Qed.

Lemma le_bytes_mod n z : le_bytes n (z mod 256 ^ Z.of_nat n) = le_bytes n z.
Proof.
  rewrite <- (le_bytes_le_val (le_bytes n z)). rewrite le_bytes_length, le_val_le_bytes. reflexivity.
Qed.

Lemma le_bytes_inj n a b :
  0 <= a < 256 ^ Z.of_nat n -> 0 <= b < 256 ^ Z.of_nat n -> le_bytes n a = le_bytes n b -> a = b.
Proof.
  intros Ha Hb H. apply (f_equal le_val) in H. rewrite !le_val_le_bytes in H.
  rewrite !Z.mod_small in H by assumption. exact H.
Qed.

Lemma le_val_inj a b : length a = length b -> le_val a = le_val b -> a = b.
Proof.
  intros HL HV. rewrite <- (le_bytes_le_val a), <- (le_bytes_le_val b), HL, HV. reflexivity.
Qed.

Lemma be_bytes_length n z : length (be_bytes n z) = n.
Proof. unfold be_bytes. rewrite rev_length. apply le_bytes_length. Qed.

Lemma be_val_be_bytes n z : be_val (be_bytes n z) = z mod 256 ^ Z.of_nat n.
Proof. rewrite be_val_eq. unfold be_bytes. rewrite rev_involutive. apply le_val_le_bytes. Qed.

Lemma be_bytes_be_val s : be_bytes (length s) (be_val s) = s.
Proof.
  rewrite be_val_eq. unfold be_bytes. rewrite <- (rev_length s), le_bytes_le_val. apply rev_involutive.
Qed.

Lemma be_val_range s : 0 <= be_val s < 256 ^ blen s.
Proof. rewrite be_val_eq. unfold blen. rewrite <- rev_length. apply le_val_range. Qed.

Lemma to_signed_mod n z :
  - (256 ^ Z.of_nat (S n) / 2) <= z < 256 ^ Z.of_nat (S n) / 2 ->
  to_signed (S n) (z mod 256 ^ Z.of_nat (S n)) = z.
Proof.
  rewrite pow256_S. pose proof (pow256_pos n).
  replace (256 * 256 ^ Z.of_nat n / 2) with (128 * 256 ^ Z.of_nat n)
    by (replace (256 * 256 ^ Z.of_nat n) with ((128 * 256 ^ Z.of_nat n) * 2) by ring;
        rewrite Z.div_mul by lia; reflexivity).
  intros Hz. unfold to_signed. rewrite pow256_S.
  replace (256 * 256 ^ Z.of_nat n / 2) with (128 * 256 ^ Z.of_nat n)
    by (replace (256 * 256 ^ Z.of_nat n) with ((128 * 256 ^ Z.of_nat n) * 2) by ring;
        rewrite Z.div_mul by lia; reflexivity).
  set (M := 256 ^ Z.of_nat n) in *.
  destruct (Z_lt_le_dec z 0).
  - assert (z mod (256 * M) = z + 256 * M) as ->.
    { rewrite <- (Z.mod_add z 1 (256*M)) by lia. rewrite Z.mod_small; lia. }
    destruct (Z.ltb_spec (z + 256 * M) (128 * M)); lia.
  - rewrite Z.mod_small by lia. destruct (Z.ltb_spec z (128 * M)); lia.
Qed.

Lemma to_signed_range n u :
  0 <= u < 256 ^ Z.of_nat (S n) ->
  - (256 ^ Z.of_nat (S n) / 2) <= to_signed (S n) u < 256 ^ Z.of_nat (S n) / 2
  /\ to_signed (S n) u mod 256 ^ Z.of_nat (S n) = u.
Proof.
  rewrite pow256_S. pose proof (pow256_pos n).
  intros Hu. unfold to_signed. rewrite pow256_S.
  replace (256 * 256 ^ Z.of_nat n / 2) with (128 * 256 ^ Z.of_nat n)
    by (replace (256 * 256 ^ Z.of_nat n) with ((128 * 256 ^ Z.of_nat n) * 2) by ring;
        rewrite Z.div_mul by lia; reflexivity).
  set (M := 256 ^ Z.of_nat n) in *.
  destruct (Z.ltb_spec u (128 * M)).
  - split; [lia|]. apply Z.mod_small; lia.
  - split; [lia|]. rewrite <- (Z.mod_add _ 1 (256*M)) by lia. rewrite Z.mod_small; lia.
Qed.

(** ** Monad *)
Lemma rbind_Ok {A B} (m : res A) (k : A -> res B) b :
  rbind m k = Ok b <-> exists a, m = Ok a /\ k a = Ok b.
Proof.
  destruct m; simpl; split.
  - eauto.
  - intros (a' & H & ?). inversion H; subst; auto.
  - discriminate.
  - intros (? & ? & ?); discriminate.
Qed.

Lemma rbind_Raise {A B} (m : res A) (k : A -> res B) e :
  rbind m k = Raise e <-> m = Raise e \/ exists a, m = Ok a /\ k a = Raise e.
Proof.
  destruct m; simpl; split.
  - eauto.
  - intros [H|(a' & H & ?)]; inversion H; subst; auto.
  - intros H; inversion H; auto.
  - intros [H|(a' & H & ?)]; inversion H; subst; auto.
Qed.

Lemma rassert_Ok b e u : rassert b e = Ok u <-> b = true.
Proof. destruct b, u; simpl; split; congruence. Qed.

Lemma rmap_Ok {A B} (f : A -> res B) l ys :
  rmap f l = Ok ys <-> Forall2 (fun x y => f x = Ok y) l ys.
Proof.
  revert ys; induction l as [|x l IH]; intros ys; simpl.
  - split; intros H; inversion H; constructor.
  - rewrite rbind_Ok. split.
    + intros (y & Hy & H). rewrite rbind_Ok in H. destruct H as (ys' & H1 & H2). inversion H2; subst.
      constructor; [assumption|]. apply IH. assumption.
    + intros H; inversion H; subst. exists y. split; [assumption|].
      rewrite rbind_Ok. exists l'. split; [apply IH; assumption|reflexivity].
Qed.

Lemma Ok_inj {A} (a b : A) : Ok a = Ok b -> a = b.
Proof. congruence. Qed.
Lemma Ok_pair_inj {A B} (a a' : A) (b b' : B) : Ok (a, b) = Ok (a', b') -> a = a' /\ b = b'.
Proof. intros H; split; congruence. Qed.

(** Inversion tactic: peel binds of hypothesis [H : (let! ..) = Ok _]. *)
Ltac rinv H :=
  repeat match type of H with
  | rbind _ _ = Ok _ =>
      let a := fresh "a" in let E := fresh "E" in
      apply rbind_Ok in H; destruct H as (a & E & H)
  | rassert _ _ = Ok _ => apply rassert_Ok in H
  | Ok _ = Ok _ => apply Ok_inj in H; try subst
  | Raise _ = Ok _ => discriminate H
  end.

(** ** Lists *)
Lemma app_inj_len {A} (a b c d : list A) :
  length a = length c -> a ++ b = c ++ d -> a = c /\ b = d.
Proof.
  revert c; induction a as [|x a IH]; intros [|y c] HL H; simpl in *; try discriminate; [auto|].
  inversion H; subst. destruct (IH c) as [-> ->]; auto.
Qed.

Lemma firstn_len_app {A} (a b : list A) : firstn (length a) (a ++ b) = a.
Proof. rewrite firstn_app, firstn_all, Nat.sub_diag. simpl. apply app_nil_r. Qed.

Lemma skipn_len_app {A} (a b : list A) : skipn (length a) (a ++ b) = b.
Proof. rewrite skipn_app, skipn_all, Nat.sub_diag. reflexivity. Qed.

Lemma zeros_length n : length (zeros n) = n.
Proof. apply repeat_length. Qed.
