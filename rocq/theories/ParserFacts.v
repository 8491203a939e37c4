(** Generic facts about deserializers. *)
From Verif Require Import Base BaseFacts Serialize.
Local Open Scope Z_scope.

(** A parser is [local] if what it reads is a prefix of the stream and the
    result does not depend on what follows; errors other than truncation do not
    depend on what follows either. *)
Record local {A} (p : parser A) : Prop := {
  local_ok : forall s x r, p s = Ok (x, r) ->
      exists c, s = c ++ r /\ forall r', p (c ++ r') = Ok (x, r');
  local_err : forall s e, p s = Raise e -> e <> ETruncation -> forall t, p (s ++ t) = Raise e
}.

Lemma local_ext {A} (p : parser A) s x r t :
  local p -> p s = Ok (x, r) -> p (s ++ t) = Ok (x, r ++ t).
Proof.
  intros L H. destruct (local_ok _ L _ _ _ H) as (c & -> & Hc).
  rewrite <- app_assoc. apply Hc.
Qed.

Lemma local_trunc {A} (p : parser A) c x r c1 c2 :
  local p -> p (c ++ r) = Ok (x, r) -> c = c1 ++ c2 -> c2 <> [] -> p c1 = Raise ETruncation.
Proof.
  intros L H -> Hne.
  destruct (local_ok _ L _ _ _ H) as (c' & E & Hc).
  apply app_inv_tail in E. subst c'.
  specialize (Hc []). rewrite app_nil_r in Hc.
  destruct (p c1) as [[x' r']|e] eqn:E.
  - apply (local_ext p _ _ _ c2 L) in E. rewrite E in Hc. inversion Hc as [[H1 H2]].
    apply app_eq_nil in H2. destruct H2; contradiction.
  - destruct (exn_eq_dec e ETruncation) as [->|Ne]; [reflexivity|].
    rewrite (local_err _ L _ _ E Ne c2) in Hc. discriminate.
Qed.

Lemma local_pret {A} (a : A) : local (pret a).
Proof.
  split; unfold pret.
  - intros s x r H; inversion H; subst. exists []. split; reflexivity.
  - intros; discriminate.
Qed.

Lemma local_pfail {A} e : local (@pfail A e).
Proof.
  split; unfold pfail; intros; [discriminate|]. congruence.
Qed.

Lemma local_lift {A} (m : res A) : local (fun s => match m with Ok x => Ok (x, s) | Raise e => Raise e end).
Proof.
  destruct m; [apply (local_pret a) | apply (local_pfail e)].
Qed.

Lemma local_pbind {A B} (p : parser A) (k : A -> parser B) :
  local p -> (forall a, local (k a)) -> local (pbind p k).
Proof.
  intros Lp Lk. split; unfold pbind.
  - intros s x r H. destruct (p s) as [[a r1]|] eqn:E; [|discriminate].
    destruct (local_ok _ Lp _ _ _ E) as (c & -> & Hc).
    destruct (local_ok _ (Lk a) _ _ _ H) as (c' & -> & Hc').
    exists (c ++ c'). split; [apply app_assoc|]. intros r'. rewrite <- app_assoc, Hc. apply Hc'.
  - intros s e H Ne t. destruct (p s) as [[a r1]|e1] eqn:E.
    + rewrite (local_ext p _ _ _ t Lp E). apply (local_err _ (Lk a)); assumption.
    + inversion H; subst. rewrite (local_err _ Lp _ _ E Ne t). reflexivity.
Qed.

Lemma ser_read_app n a r : blen a = n -> n <= MAX_SIZE -> ser_read n (a ++ r) = Ok (a, r).
Proof.
  intros <- Hm. unfold ser_read. rewrite blen_app. pose proof (blen_nonneg r).
  destruct (Z.ltb_spec MAX_SIZE (blen a)); [lia|].
  destruct (Z.ltb_spec (blen a + blen r) (blen a)); [lia|].
  unfold blen. rewrite Nat2Z.id, firstn_len_app, skipn_len_app. reflexivity.
Qed.

Lemma ser_read_inv n s a r : 0 <= n -> ser_read n s = Ok (a, r) -> s = a ++ r /\ blen a = n /\ n <= MAX_SIZE.
Proof.
  unfold ser_read. intros Hn H.
  destruct (Z.ltb_spec MAX_SIZE n); [discriminate|].
  destruct (Z.ltb_spec (blen s) n); [discriminate|].
  inversion H; subst. split; [symmetry; apply firstn_skipn|]. split; [|assumption].
  unfold blen in *. rewrite firstn_length. lia.
Qed.

Lemma local_ser_read n : 0 <= n -> local (ser_read n).
Proof.
  intros Hn. split.
  - intros s x r H. destruct (ser_read_inv _ _ _ _ Hn H) as (-> & HL & HM).
    exists x. split; [reflexivity|]. intros r'. apply ser_read_app; assumption.
  - intros s e H Ne t. unfold ser_read in *.
    destruct (Z.ltb_spec MAX_SIZE n); [assumption|].
    destruct (Z.ltb_spec (blen s) n); [inversion H; congruence|discriminate].
Qed.

Lemma local_read_le n : local (read_le n).
Proof.
  apply local_pbind; [apply local_ser_read; lia|]. intros; apply local_pret.
Qed.

Lemma read_le_app n a r : length a = n -> Z.of_nat n <= MAX_SIZE -> read_le n (a ++ r) = Ok (le_val a, r).
Proof.
  intros HL HM. unfold read_le, pbind. rewrite ser_read_app; [reflexivity| |assumption].
  unfold blen. lia.
Qed.

Lemma read_le_inv n s z r : read_le n s = Ok (z, r) ->
  exists a, s = a ++ r /\ length a = n /\ z = le_val a.
Proof.
  unfold read_le, pbind. destruct (ser_read _ s) as [[a r1]|] eqn:E; [|discriminate].
  unfold pret. intros H; inversion H; subst. apply ser_read_inv in E; [|lia].
  destruct E as (-> & HL & _). exists a. unfold blen in HL. repeat split. lia.
Qed.

Lemma read_le_range n s z r : read_le n s = Ok (z, r) -> 0 <= z < 256 ^ Z.of_nat n.
Proof.
  intros H. apply read_le_inv in H. destruct H as (a & -> & HL & ->).
  pose proof (le_val_range a). unfold blen in *. rewrite HL in *. assumption.
Qed.

Lemma local_deser_varint : local deser_varint.
Proof.
  apply local_pbind; [apply local_ser_read; lia|]. intros c. cbv zeta.
  repeat match goal with |- context [if ?b then _ else _] => destruct b end;
    first [apply local_pret | apply local_read_le].
Qed.

Lemma deser_varint_nonneg s n r : deser_varint s = Ok (n, r) -> 0 <= n < 2 ^ 64.
Proof.
  unfold deser_varint, pbind. destruct (ser_read 1 s) as [[c r1]|] eqn:E; [|discriminate].
  pose proof (le_val_range c).
  apply ser_read_inv in E; [|lia]. destruct E as (-> & HL & _). rewrite HL in *.
  assert (H64 : 2 ^ 64 = 256 ^ 8) by reflexivity.
  assert (256 ^ 1 = 256) by reflexivity.
  intros H1.
  destruct (le_val c <? 0xfd) eqn:?; [unfold pret in H1; inversion H1; subst; lia|].
  destruct (le_val c =? 0xfd) eqn:?; [apply read_le_range in H1; change (256 ^ Z.of_nat 2) with 65536 in *; lia|].
  destruct (le_val c =? 0xfe) eqn:?; [apply read_le_range in H1; change (256 ^ Z.of_nat 4) with 4294967296 in *; lia|].
  apply read_le_range in H1. change (256 ^ Z.of_nat 8) with (2^64) in *; lia.
Qed.

Lemma local_deser_bytes : local deser_bytes.
Proof.
  (* the count of [ser_read] must be non-negative, so not a plain bind *)
  split.
  - unfold deser_bytes, pbind. intros s x r H.
    destruct (deser_varint s) as [[n r1]|] eqn:E; [|discriminate].
    pose proof (deser_varint_nonneg _ _ _ E) as Hn.
    destruct (local_ok _ local_deser_varint _ _ _ E) as (c & -> & Hc).
    destruct (local_ok _ (local_ser_read n (proj1 Hn)) _ _ _ H) as (c' & -> & Hc').
    exists (c ++ c'). split; [apply app_assoc|]. intros r'. rewrite <- app_assoc, Hc. apply Hc'.
  - unfold deser_bytes, pbind. intros s e H Ne t.
    destruct (deser_varint s) as [[n r1]|e1] eqn:E.
    + pose proof (deser_varint_nonneg _ _ _ E) as Hn.
      rewrite (local_ext _ _ _ _ t local_deser_varint E).
      apply (local_err _ (local_ser_read n (proj1 Hn))); assumption.
    + inversion H; subst. rewrite (local_err _ local_deser_varint _ _ E Ne t). reflexivity.
Qed.

(** ** Repetition *)
Lemma pbind_ext {A B} (p q : parser A) (f g : A -> parser B) s :
  (forall s, p s = q s) -> (forall a s, f a s = g a s) -> pbind p f s = pbind q g s.
Proof. intros H1 H2. unfold pbind. rewrite H1. destruct (q s) as [[? ?]|]; auto. Qed.

Lemma pbind_assoc {A B C} (p : parser A) (f : A -> parser B) (g : B -> parser C) s :
  pbind (pbind p f) g s = pbind p (fun a => pbind (f a) g) s.
Proof. unfold pbind. destruct (p s) as [[? ?]|]; reflexivity. Qed.

Lemma pbind_pret_l {A B} (a : A) (f : A -> parser B) s : pbind (pret a) f s = f a s.
Proof. reflexivity. Qed.

Lemma prep_nat_add {A} (p : parser A) a b s :
  prep_nat p (a + b) s = pbind (prep_nat p a) (fun l1 => pbind (prep_nat p b) (fun l2 => pret (l1 ++ l2))) s.
Proof.
  revert s; induction a as [|a IH]; intros s.
  - simpl. unfold pbind, pret. destruct (prep_nat p b s) as [[? ?]|]; reflexivity.
  - simpl. rewrite pbind_assoc. apply pbind_ext; [reflexivity|]. intros x s1. cbv beta.
    rewrite pbind_assoc. unfold pbind at 1. rewrite IH.
    unfold pbind, pret. destruct (prep_nat p a s1) as [[l1 r1]|]; [|reflexivity].
    destruct (prep_nat p b r1) as [[l2 r2]|]; reflexivity.
Qed.

Lemma prep_pos_nat {A} (p : parser A) k s : prep_pos p k s = prep_nat p (Pos.to_nat k) s.
Proof.
  revert s; induction k as [k IH|k IH|]; intros s.
  - rewrite Pos2Nat.inj_xI. replace (S (2 * Pos.to_nat k)) with (S (Pos.to_nat k + Pos.to_nat k)) by lia.
    simpl prep_pos. cbn [prep_nat]. unfold pbind.
    destruct (p s) as [[x r]|]; [|reflexivity].
    rewrite prep_nat_add.
    unfold pbind, pret. rewrite IH. destruct (prep_nat p (Pos.to_nat k) r) as [[l1 r1]|]; [|reflexivity].
    rewrite IH. destruct (prep_nat p (Pos.to_nat k) r1) as [[l2 r2]|]; reflexivity.
  - rewrite Pos2Nat.inj_xO. replace (2 * Pos.to_nat k)%nat with (Pos.to_nat k + Pos.to_nat k)%nat by lia.
    rewrite prep_nat_add. simpl prep_pos. apply pbind_ext; [exact IH|]. intros l1 s1.
    apply pbind_ext; [exact IH|]. reflexivity.
  - reflexivity.
Qed.

Lemma prep_nat_Z {A} (p : parser A) n s : 0 <= n -> prep p n s = prep_nat p (Z.to_nat n) s.
Proof.
  intros Hn. destruct n; try lia; [reflexivity|]. unfold prep. rewrite prep_pos_nat. reflexivity.
Qed.

Lemma local_prep_nat {A} (p : parser A) k : local p -> local (prep_nat p k).
Proof.
  intros L. induction k; simpl; [apply local_pret|].
  apply local_pbind; [assumption|]. intros a. apply local_pbind; [assumption|]. intros; apply local_pret.
Qed.

Lemma local_ext_eq {A} (p q : parser A) : (forall s, p s = q s) -> local q -> local p.
Proof.
  intros E L. split; intros.
  - rewrite E in H. destruct (local_ok _ L _ _ _ H) as (c & -> & Hc). exists c. split; [reflexivity|].
    intros. rewrite E. apply Hc.
  - rewrite E in *. apply (local_err _ L); assumption.
Qed.

Lemma local_prep {A} (p : parser A) n : local p -> local (prep p n).
Proof.
  intros L. destruct n; [apply local_pret| |apply local_pret].
  apply (local_ext_eq _ (prep_nat p (Pos.to_nat p0))); [apply prep_pos_nat|]. apply local_prep_nat, L.
Qed.

Lemma local_deser_vector {A} (p : parser A) : local p -> local (deser_vector p).
Proof.
  intros L. apply local_pbind; [apply local_deser_varint|]. intros; apply local_prep, L.
Qed.

Lemma local_scriptwitness : local deser_scriptwitness.
Proof. apply local_deser_vector, local_deser_bytes. Qed.

(** Inversion of a repetition: every element was parsed. *)
Lemma prep_nat_inv {A} (p : parser A) (P : A -> Prop) k s l r :
  (forall s x r, p s = Ok (x, r) -> P x) ->
  prep_nat p k s = Ok (l, r) -> length l = k /\ Forall P l.
Proof.
  intros HP. revert s l r; induction k as [|k IH]; intros s l r; simpl; unfold pbind, pret.
  - intros H; inversion H; subst. split; constructor.
  - destruct (p s) as [[x r1]|] eqn:E1; [|discriminate].
    destruct (prep_nat p k r1) as [[l1 r2]|] eqn:E2; [|discriminate].
    intros H; inversion H; subst. destruct (IH _ _ _ E2) as [HL HF].
    split; [simpl; congruence|]. constructor; eauto.
Qed.

Lemma deser_vector_inv {A} (p : parser A) (P : A -> Prop) s l r :
  (forall s x r, p s = Ok (x, r) -> P x) ->
  deser_vector p s = Ok (l, r) -> Z.of_nat (length l) < 2 ^ 64 /\ Forall P l.
Proof.
  intros HP. unfold deser_vector, pbind.
  destruct (deser_varint s) as [[n r1]|] eqn:E; [|discriminate].
  pose proof (deser_varint_nonneg _ _ _ E) as Hn.
  rewrite prep_nat_Z by lia. intros H.
  destruct (prep_nat_inv _ P _ _ _ _ HP H) as [HL HF]. split; [lia|assumption].
Qed.

Lemma deser_bytes_inv s x r : deser_bytes s = Ok (x, r) -> blen x <= MAX_SIZE.
Proof.
  unfold deser_bytes, pbind. destruct (deser_varint s) as [[n r1]|] eqn:E; [|discriminate].
  pose proof (deser_varint_nonneg _ _ _ E). intros H1. apply ser_read_inv in H1; [|lia]. lia.
Qed.

(** Peel binds of [H : p s = Ok (x, r)] where [p] is a [do!] block. *)
Ltac pinv H :=
  repeat match type of H with
  | pbind ?p ?k ?s = Ok (?x, ?r) =>
      unfold pbind at 1 in H;
      let a := fresh "v" in let r1 := fresh "rest" in let E := fresh "E" in
      destruct (p s) as [[a r1]|] eqn:E; [|discriminate H]
  | pret _ _ = Ok _ => unfold pret in H; apply Ok_pair_inj in H;
      let H1 := fresh "H" in let H2 := fresh "H" in destruct H as [H1 H2]; subst
  | pfail _ _ = Ok _ => discriminate H
  end.
