(** A small group that satisfies the laws of SpecCross.v: numbers modulo 521. The coordinate of u is the lesser of u and - u, with 260 and
    1 exchanged, so that the half of the generator has the coordinate 1. *)
From Verif Require Import Base BaseFacts Serialize BlindFacts CrossModel SpecCross.
From Coq Require Import Lia Eqdep_dec Bool.
Local Open Scope Z_scope.

Definition tn : Z := 521.
Record tpoint := mkT { tv : Z; tok : (0 <=? tv) && (tv <? tn) = true }.
Lemma tmk_ok z : (0 <=? z mod tn) && (z mod tn <? tn) = true.
Proof. assert (B := Z.mod_pos_bound z tn ltac:(reflexivity)). apply andb_true_intro. split; [apply Z.leb_le|apply Z.ltb_lt]; lia. Qed.
Definition tmk (z : Z) : tpoint := mkT (z mod tn) (tmk_ok z).
Lemma t_eq p q : tv p = tv q -> p = q.
Proof. destruct p as [v a], q as [w b]. cbn [tv]. intros ->. f_equal. apply UIP_dec. apply bool_dec. Qed.
Lemma t_range p : 0 <= tv p < tn.
Proof. destruct p as [v a]. cbn [tv]. apply andb_prop in a. destruct a as [A B]. apply Z.leb_le in A. apply Z.ltb_lt in B. lia. Qed.
Lemma tv_tmk z : tv (tmk z) = z mod tn. Proof. reflexivity. Qed.
Fixpoint tpow (e : positive) (b : Z) : Z :=
  match e with xH => b mod tn | xO e => let h := tpow e b in (h * h) mod tn | xI e => let h := tpow e b in (((h * h) mod tn) * b) mod tn end.
Definition tinv (a : Z) : Z := tpow 519 (a mod tn).
Definition tx (p : tpoint) : Z := let m := Z.min (tv p) (tn - tv p) in if m =? 260 then 1 else if m =? 1 then 260 else m.
Definition tparse (b : bytes) : option tpoint :=
  match b with [_; _] => if (0 <? be_val b) && (be_val b <? tn) then Some (tmk (be_val b)) else None | _ => None end.
Definition tcurve : Curve := mkCurve tpoint tn (tmk 0) (fun p => tv p =? 0) (fun p q => tmk (tv p + tv q)) (fun a p => tmk (a * tv p)) (tmk 1) tx tinv 2
  (fun p => be_bytes 2 (tv p)) tparse.
Lemma tinv_all : forallb (fun i => (Z.of_nat i * tinv (Z.of_nat i)) mod tn =? 1) (seq 1 520) = true.
Proof. vm_compute. reflexivity. Qed.
Lemma tinv_ok a : a mod tn <> 0 -> (a * tinv a) mod tn = 1.
Proof.
  intros H. assert (B := Z.mod_pos_bound a tn ltac:(reflexivity)). assert (A := proj1 (forallb_forall _ _) tinv_all (Z.to_nat (a mod tn))). cbv beta in A. rewrite Z2Nat.id in A by lia.
  rewrite <- Z.mul_mod_idemp_l by discriminate. apply Z.eqb_eq. replace (tinv a) with (tinv (a mod tn)); [|unfold tinv; rewrite Z.mod_mod by discriminate; reflexivity]. apply A. apply in_seq. change tn with 521 in *. lia.
Qed.
Lemma tcurve_laws : CurveLaws tcurve tn.
Proof.
  constructor; cbn [tcurve point ec_order ec_zero ec_is_zero ec_add ec_mul ec_gen ec_x ec_inv ec_len ec_ser ec_parse].
  - reflexivity.
  - reflexivity.
  - exact tinv_ok.
  - intros p q. rewrite Z.add_comm. reflexivity.
  - intros p q r. apply t_eq. rewrite !tv_tmk. rewrite Z.add_mod_idemp_l, Z.add_mod_idemp_r by discriminate. f_equal. lia.
  - intros p. apply t_eq. rewrite !tv_tmk. change (0 mod tn) with 0. rewrite Z.add_0_r. apply Z.mod_small. apply t_range.
  - intros p. rewrite Z.eqb_eq. split; [intros H; apply t_eq; rewrite H; reflexivity|intros ->; reflexivity].
  - intros p. apply t_eq. rewrite tv_tmk, Z.mul_1_l. apply Z.mod_small. apply t_range.
  - intros a b p. apply t_eq. rewrite !tv_tmk. rewrite <- Z.add_mod by discriminate. f_equal. lia.
  - intros a b p. apply t_eq. rewrite !tv_tmk. rewrite Z.mul_mod_idemp_r by discriminate. f_equal. lia.
  - intros a p q. apply t_eq. rewrite !tv_tmk. rewrite Z.mul_mod_idemp_r, <- Z.add_mod by discriminate. f_equal. lia.
  - intros p. apply t_eq. rewrite !tv_tmk. change (0 mod tn) with 0. rewrite Z.mul_comm. apply Z.mod_mul. discriminate.
  - intros H. apply (f_equal tv) in H. discriminate H.
  - intros p. assert (B := t_range p). unfold tx. change tn with 521 in *. destruct (Z.eqb_spec (Z.min (tv p) (521 - tv p)) 260); [lia|]. destruct (Z.eqb_spec (Z.min (tv p) (521 - tv p)) 1); lia.
  - intros p q P Q H. assert (BP := t_range p). assert (BQ := t_range q).
    assert (P0 : tv p <> 0) by (intros H0; apply P, t_eq; rewrite H0; reflexivity). assert (Q0 : tv q <> 0) by (intros H0; apply Q, t_eq; rewrite H0; reflexivity).
    assert (X : tv p = tv q \/ tv p = tn - tv q).
    { unfold tx in H. change tn with 521 in *. destruct (Z.eqb_spec (Z.min (tv p) (521 - tv p)) 260), (Z.eqb_spec (Z.min (tv q) (521 - tv q)) 260), (Z.eqb_spec (Z.min (tv p) (521 - tv p)) 1), (Z.eqb_spec (Z.min (tv q) (521 - tv q)) 1); lia. }
    destruct X as [X|X]; [left; apply t_eq; exact X|right]. apply t_eq. rewrite tv_tmk. replace (-1 * tv q) with (tn - tv q + (-1) * tn) by lia. rewrite Z.mod_add by discriminate. rewrite Z.mod_small by lia. exact X.
  - intros p. assert (B := t_range p). unfold tx. rewrite tv_tmk. destruct (Z.eq_dec (tv p) 0) as [->|N]; [reflexivity|].
    replace (-1 * tv p) with (tn - tv p + (-1) * tn) by lia. rewrite Z.mod_add by discriminate. rewrite (Z.mod_small (tn - tv p)) by lia. replace (tn - (tn - tv p)) with (tv p) by lia. rewrite Z.min_comm. reflexivity.
  - intros p P. assert (B := t_range p). assert (P0 : tv p <> 0) by (intros H0; apply P, t_eq; rewrite H0; reflexivity).
    assert (V : be_val (be_bytes 2 (tv p)) = tv p) by (rewrite be_val_be_bytes; apply Z.mod_small; change tn with 521 in *; change (256 ^ Z.of_nat 2) with 65536; lia).
    unfold tparse. destruct (be_bytes 2 (tv p)) as [|c [|d [|e f]]] eqn:EB; try (apply (f_equal (@length byte)) in EB; rewrite be_bytes_length in EB; discriminate EB).
    rewrite V. replace (0 <? tv p) with true by (symmetry; apply Z.ltb_lt; lia). replace (tv p <? tn) with true by (symmetry; apply Z.ltb_lt; lia). cbn [andb]. f_equal. apply t_eq. rewrite tv_tmk. apply Z.mod_small. exact B.
  - intros b p. unfold tparse. destruct b as [|c [|d [|e f]]]; try discriminate. destruct (0 <? be_val [c; d]) eqn:E1; cbn [andb]; [|discriminate]. destruct (be_val [c; d] <? tn) eqn:E2; [|discriminate]. intros H. injection H as <-.
    apply Z.ltb_lt in E1. apply Z.ltb_lt in E2. intros H. apply (f_equal tv) in H. rewrite !tv_tmk, Z.mod_small in H by lia. change (0 mod tn) with 0 in H. lia.
  - intros p. unfold blen. rewrite be_bytes_length. reflexivity.
  - split; [discriminate|lia].
Qed.
Lemma tcurve_known : KnownPoint tcurve tn.
Proof. constructor; [vm_compute; split; reflexivity|vm_compute; discriminate|]. exists x01, []. split; vm_compute; reflexivity. Qed.
