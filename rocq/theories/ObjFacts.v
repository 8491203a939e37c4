(** Lemmas on the objects of ObjModel.v. *)
From Verif Require Import Base BaseFacts TxModel BlindModel BlindFacts ObjModel SpecObj.
From Coq Require Import Lia.

Lemma rmap_ext_in {A B} (f g : A -> res B) l : (forall x, In x l -> f x = g x) -> rmap f l = rmap g l.
Proof. induction l as [|x l IH]; intros H; [reflexivity|]. cbn [rmap]. rewrite (H x (or_introl eq_refl)), IH; [reflexivity|]. intros y Y. apply H. right. exact Y. Qed.
Lemma deref_ok {A} (l : list A) a c : deref l a = Ok c <-> nth_error l a = Some c.
Proof. unfold deref. destruct (nth_error l a); split; intros H; try discriminate; congruence. Qed.
Lemma deref_eq {A} (l l' : list A) a : nth_error l' a = nth_error l a -> deref l' a = deref l a.
Proof. unfold deref. intros ->. reflexivity. Qed.

(** A transaction reads the same in two heaps that have the same parts of it. *)
Lemma view_same h h' a : (forall x, Part h a x -> same h h' x) -> view_tx h' a = view_tx h a.
Proof.
  intros H. unfold view_tx. rewrite (deref_eq _ _ _ (H _ (PTx h a))). destruct (deref (h_txs h) a) as [[m t]|] eqn:Et; [|reflexivity]. apply deref_ok in Et. cbn [rbind c_val].
  rewrite (rmap_ext_in (view_in h') (view_in h)).
  2: { intros i Hi. assert (P := PIn h a m t i Et Hi). unfold view_in. rewrite (deref_eq _ _ _ (H _ P)). destruct (deref (h_ins h) i) as [[mi c]|] eqn:Ei; [|reflexivity].
       apply deref_ok in Ei. cbn [rbind c_val]. rewrite (deref_eq _ _ _ (H _ (POp h a mi i c P Ei))). reflexivity. }
  rewrite (rmap_ext_in (view_out h') (view_out h)).
  2: { intros i Hi. unfold view_out. rewrite (deref_eq _ _ _ (H _ (POut h a m t i Et Hi))). reflexivity. }
  assert (W : view_wit h' (to_wit t) = view_wit h (to_wit t)); [|rewrite W; reflexivity].
  assert (P := PWit h a m t Et). unfold view_wit. rewrite (deref_eq _ _ _ (H _ P)). destruct (deref (h_wits h) (to_wit t)) as [[mw w]|] eqn:Ew; [|reflexivity].
  apply deref_ok in Ew. cbn [rbind c_val]. rewrite (rmap_ext_in (view_iw h') (view_iw h)).
  2: { intros i Hi. unfold view_iw. rewrite (deref_eq _ _ _ (H _ (PIw h a mw (to_wit t) w i P Ew Hi))). reflexivity. }
  rewrite (rmap_ext_in (view_ow h') (view_ow h)); [reflexivity|].
  intros i Hi. assert (Q := POw h a mw (to_wit t) w i P Ew Hi). unfold view_ow. rewrite (deref_eq _ _ _ (H _ Q)). destruct (deref (h_ows h) i) as [[mo c]|] eqn:Eo; [|reflexivity].
  apply deref_ok in Eo. cbn [rbind c_val].
  assert (B1 : view_buf h' (oo_surj c) = view_buf h (oo_surj c)).
  { destruct (oo_surj c) as [b|b] eqn:E; [reflexivity|]. apply deref_eq. apply (H (RArr b)). eapply PSurj; eassumption. }
  assert (B2 : view_buf h' (oo_range c) = view_buf h (oo_range c)).
  { destruct (oo_range c) as [b|b] eqn:E; [reflexivity|]. apply deref_eq. apply (H (RArr b)). eapply PRange; eassumption. }
  rewrite B1, B2. reflexivity.
Qed.
Lemma part_same h h' a : (forall x, Part h a x -> same h h' x) -> forall x, Part h' a x -> Part h a x.
Proof.
  intros H x P. induction P as [|m t i E I|m i c P IH E|m t i E I|m t E|m w c i P IH E I|m w c i P IH E I|m i c b P IH E B|m i c b P IH E B].
  - constructor.
  - rewrite (H _ (PTx h a)) in E. eapply PIn; eassumption.
  - rewrite (H _ IH) in E. eapply POp; eassumption.
  - rewrite (H _ (PTx h a)) in E. eapply POut; eassumption.
  - rewrite (H _ (PTx h a)) in E. eapply PWit; eassumption.
  - rewrite (H _ IH) in E. eapply PIw; eassumption.
  - rewrite (H _ IH) in E. eapply POw; eassumption.
  - rewrite (H _ IH) in E. eapply PSurj; eassumption.
  - rewrite (H _ IH) in E. eapply PRange; eassumption.
Qed.
Lemma part_same' h h' a : (forall x, Part h a x -> same h h' x) -> forall x, Part h a x -> Part h' a x.
Proof.
  intros H x P. induction P as [|m t i E I|m i c P IH E|m t i E I|m t E|m w c i P IH E I|m w c i P IH E I|m i c b P IH E B|m i c b P IH E B].
  - constructor.
  - rewrite <- (H _ (PTx h a)) in E. eapply PIn; eassumption.
  - rewrite <- (H _ P) in E. eapply POp; eassumption.
  - rewrite <- (H _ (PTx h a)) in E. eapply POut; eassumption.
  - rewrite <- (H _ (PTx h a)) in E. eapply PWit; eassumption.
  - rewrite <- (H _ P) in E. eapply PIw; eassumption.
  - rewrite <- (H _ P) in E. eapply POw; eassumption.
  - rewrite <- (H _ P) in E. eapply PSurj; eassumption.
  - rewrite <- (H _ P) in E. eapply PRange; eassumption.
Qed.

(** * Heaps without dangling references, whose immutable objects hold immutable objects *)
Definition points {A} (m : bool) (l : list (cell A)) (a : nat) : Prop := exists c, nth_error l a = Some c /\ (m = false -> c_mut c = false).
Definition buf_in (h : heap) (b : buf) : Prop := match b with BBytes _ => True | BArray a => (a < length (h_arrs h))%nat end.
Definition in_fine (h : heap) (c : cell txin_obj) : Prop := points (c_mut c) (h_ops h) (io_prevout (c_val c)).
Definition ow_fine (h : heap) (c : cell outwit_obj) : Prop := buf_in h (oo_surj (c_val c)) /\ buf_in h (oo_range (c_val c)).
Definition wit_fine (h : heap) (c : cell wit_obj) : Prop :=
  Forall (points (c_mut c) (h_iws h)) (wo_in (c_val c)) /\ Forall (points (c_mut c) (h_ows h)) (wo_out (c_val c)).
Definition tx_fine (h : heap) (c : cell tx_obj) : Prop :=
  Forall (points (c_mut c) (h_ins h)) (to_vin (c_val c)) /\ Forall (points (c_mut c) (h_outs h)) (to_vout (c_val c))
  /\ points (c_mut c) (h_wits h) (to_wit (c_val c)).
Record Fine (h : heap) : Prop := {
  f_ins : Forall (in_fine h) (h_ins h);
  f_ows : Forall (ow_fine h) (h_ows h);
  f_wits : Forall (wit_fine h) (h_wits h);
  f_txs : Forall (tx_fine h) (h_txs h)
}.

(** Stores only grow, classes stay, immutable objects stay. *)
Definition grows {A} (l l' : list (cell A)) : Prop := forall a c, nth_error l a = Some c ->
  exists c', nth_error l' a = Some c' /\ c_mut c' = c_mut c /\ (c_mut c = false -> c' = c).
Record Evolves (h h' : heap) : Prop := {
  e_ops : grows (h_ops h) (h_ops h'); e_ins : grows (h_ins h) (h_ins h'); e_outs : grows (h_outs h) (h_outs h');
  e_iws : grows (h_iws h) (h_iws h'); e_ows : grows (h_ows h) (h_ows h'); e_wits : grows (h_wits h) (h_wits h');
  e_txs : grows (h_txs h) (h_txs h'); e_arrs : (length (h_arrs h) <= length (h_arrs h'))%nat
}.
Lemma grows_refl {A} (l : list (cell A)) : grows l l.
Proof. intros a c H. exists c. auto. Qed.
Lemma grows_trans {A} (l1 l2 l3 : list (cell A)) : grows l1 l2 -> grows l2 l3 -> grows l1 l3.
Proof.
  intros H K a c E. destruct (H a c E) as (c1 & E1 & M1 & I1). destruct (K a c1 E1) as (c2 & E2 & M2 & I2). exists c2. split; [exact E2|]. split; [congruence|].
  intros F. specialize (I1 F). subst c1. apply I2. exact F.
Qed.
Lemma Evolves_refl h : Evolves h h.
Proof. constructor; try apply grows_refl. apply le_n. Qed.
Lemma Evolves_trans h1 h2 h3 : Evolves h1 h2 -> Evolves h2 h3 -> Evolves h1 h3.
Proof. intros [] []. constructor; try (eapply grows_trans; eassumption). lia. Qed.
Lemma points_grows {A} m (l l' : list (cell A)) a : points m l a -> grows l l' -> points m l' a.
Proof. intros (c & E & M) G. destruct (G a c E) as (c' & E' & M' & _). exists c'. split; [exact E'|]. rewrite M'. exact M. Qed.
Lemma points_all_grows {A} m (l l' : list (cell A)) xs : Forall (points m l) xs -> grows l l' -> Forall (points m l') xs.
Proof. intros H G. eapply Forall_impl; [|exact H]. intros x P. eapply points_grows; eassumption. Qed.
Lemma buf_in_evolves h h' b : buf_in h b -> Evolves h h' -> buf_in h' b.
Proof. intros B [ ]. destruct b; cbn in *; [trivial|lia]. Qed.
Lemma in_fine_evolves h h' c : in_fine h c -> Evolves h h' -> in_fine h' c.
Proof. intros H E. eapply points_grows; [exact H|apply E]. Qed.
Lemma ow_fine_evolves h h' c : ow_fine h c -> Evolves h h' -> ow_fine h' c.
Proof. intros [H K] E. split; eapply buf_in_evolves; eassumption. Qed.
Lemma wit_fine_evolves h h' c : wit_fine h c -> Evolves h h' -> wit_fine h' c.
Proof. intros [H K] E. split; eapply points_all_grows; eauto; apply E. Qed.
Lemma tx_fine_evolves h h' c : tx_fine h c -> Evolves h h' -> tx_fine h' c.
Proof. intros (H & K & L) E. split; [|split]; [eapply points_all_grows; eauto; apply E|eapply points_all_grows; eauto; apply E|eapply points_grows; eauto; apply E]. Qed.

(** A store got one more object, or one of its mutable objects new attributes. *)
Inductive put {A} : list (cell A) -> nat -> cell A -> list (cell A) -> Prop :=
| PutNew l c : put l (length l) c (l ++ [c])
| PutSet l a v v' : nth_error l a = Some (mkCell true v) -> put l a (mkCell true v') (upd l a (mkCell true v')).
Lemma upd_length {A} (l : list A) i x : length (upd l i x) = length l.
Proof. revert i; induction l as [|y l IH]; intros [|i]; cbn; auto. Qed.
Lemma upd_same {A} (l : list A) i x : (i < length l)%nat -> nth_error (upd l i x) i = Some x.
Proof. revert i; induction l as [|y l IH]; intros [|i]; cbn; intros H; try lia; [reflexivity|]. apply IH. lia. Qed.
Lemma upd_other {A} (l : list A) i j x : i <> j -> nth_error (upd l i x) j = nth_error l j.
Proof. revert i j; induction l as [|y l IH]; intros [|i] [|j]; cbn; intros H; try reflexivity; try congruence. apply IH. congruence. Qed.
Lemma put_grows {A} (l l' : list (cell A)) a c : put l a c l' -> grows l l'.
Proof.
  intros [l0 c0|l0 a0 v v' E] b d D.
  - exists d. split; [|auto]. rewrite nth_error_app1; [exact D|]. apply nth_error_Some. congruence.
  - destruct (Nat.eq_dec a0 b) as [<-|N].
    + exists (mkCell true v'). split; [apply upd_same; apply nth_error_Some; congruence|]. assert (d = mkCell true v) by congruence. subst d. split; [reflexivity|discriminate].
    + exists d. rewrite upd_other by exact N. auto.
Qed.
Lemma put_forall {A} (P : cell A -> Prop) (l l' : list (cell A)) a c : put l a c l' -> Forall P l -> P c -> Forall P l'.
Proof.
  intros [l0 c0|l0 a0 v v' E] F PC; [apply Forall_app; split; [exact F|constructor; [exact PC|constructor]]|].
  clear E. revert a0. induction F as [|y ll Y F IH]; intros [|i]; cbn; constructor; auto.
Qed.
Lemma put_at {A} (l l' : list (cell A)) a c : put l a c l' -> nth_error l' a = Some c.
Proof. intros [l0 c0|l0 a0 v v' E]; [rewrite nth_error_app2, Nat.sub_diag by lia; reflexivity|apply upd_same; apply nth_error_Some; congruence]. Qed.
Lemma put_other {A} (l l' : list (cell A)) a c b : put l a c l' -> b <> a -> (b < length l)%nat -> nth_error l' b = nth_error l b.
Proof. intros [l0 c0|l0 a0 v v' E] N L; [apply nth_error_app1; exact L|apply upd_other; congruence]. Qed.

Lemma fine_put h h' : Fine h -> Evolves h h' ->
  Forall (in_fine h') (h_ins h') -> Forall (ow_fine h') (h_ows h') -> Forall (wit_fine h') (h_wits h') -> Forall (tx_fine h') (h_txs h') -> Fine h'.
Proof. intros _ _. constructor; assumption. Qed.
Lemma all_in h h' l : Forall (in_fine h) l -> Evolves h h' -> Forall (in_fine h') l.
Proof. intros H E. eapply Forall_impl; [|exact H]. intros c C. eapply in_fine_evolves; eassumption. Qed.
Lemma all_ow h h' l : Forall (ow_fine h) l -> Evolves h h' -> Forall (ow_fine h') l.
Proof. intros H E. eapply Forall_impl; [|exact H]. intros c C. eapply ow_fine_evolves; eassumption. Qed.
Lemma all_wit h h' l : Forall (wit_fine h) l -> Evolves h h' -> Forall (wit_fine h') l.
Proof. intros H E. eapply Forall_impl; [|exact H]. intros c C. eapply wit_fine_evolves; eassumption. Qed.
Lemma all_tx h h' l : Forall (tx_fine h) l -> Evolves h h' -> Forall (tx_fine h') l.
Proof. intros H E. eapply Forall_impl; [|exact H]. intros c C. eapply tx_fine_evolves; eassumption. Qed.

(** One lemma per store: what a [put] into it does. *)
Definition good (h h' : heap) : Prop := Evolves h h' /\ (Fine h -> Fine h').
Lemma good_refl h : good h h. Proof. split; [apply Evolves_refl|auto]. Qed.
Lemma good_trans h1 h2 h3 : good h1 h2 -> good h2 h3 -> good h1 h3.
Proof. intros [A B] [C D]. split; [eapply Evolves_trans; eassumption|auto]. Qed.
Ltac evo := constructor; cbn [h_ops h_ins h_outs h_iws h_ows h_wits h_txs h_arrs set_ops set_ins set_outs set_iws set_ows set_wits set_txs set_arrs]; try apply grows_refl; try (eapply put_grows; eassumption); try apply le_n.
Ltac fine E F := let f1 := fresh in let f2 := fresh in let f3 := fresh in let f4 := fresh in
  destruct F as [f1 f2 f3 f4]; constructor; cbn [h_ops h_ins h_outs h_iws h_ows h_wits h_txs h_arrs set_ops set_ins set_outs set_iws set_ows set_wits set_txs set_arrs];
  [try exact (all_in _ _ _ f1 E)|try exact (all_ow _ _ _ f2 E)|try exact (all_wit _ _ _ f3 E)|try exact (all_tx _ _ _ f4 E)].
Lemma good_op h a c l : put (h_ops h) a c l -> good h (set_ops h l).
Proof. intros P. assert (E : Evolves h (set_ops h l)) by evo. split; [exact E|]. intros F. fine E F. Qed.
Lemma good_in h a c l : put (h_ins h) a c l -> (Fine h -> in_fine h c) -> good h (set_ins h l).
Proof.
  intros P C. assert (E : Evolves h (set_ins h l)) by evo. split; [exact E|]. intros F. specialize (C F). fine E F.
  eapply put_forall; [exact P| |]; [exact (all_in _ _ _ H E)|eapply in_fine_evolves; eassumption].
Qed.
Lemma good_out h a c l : put (h_outs h) a c l -> good h (set_outs h l).
Proof. intros P. assert (E : Evolves h (set_outs h l)) by evo. split; [exact E|]. intros F. fine E F. Qed.
Lemma good_iw h a c l : put (h_iws h) a c l -> good h (set_iws h l).
Proof. intros P. assert (E : Evolves h (set_iws h l)) by evo. split; [exact E|]. intros F. fine E F. Qed.
Lemma good_ow h a c l : put (h_ows h) a c l -> (Fine h -> ow_fine h c) -> good h (set_ows h l).
Proof.
  intros P C. assert (E : Evolves h (set_ows h l)) by evo. split; [exact E|]. intros F. specialize (C F). fine E F.
  eapply put_forall; [exact P| |]; [exact (all_ow _ _ _ H0 E)|eapply ow_fine_evolves; eassumption].
Qed.
Lemma good_wit h a c l : put (h_wits h) a c l -> (Fine h -> wit_fine h c) -> good h (set_wits h l).
Proof.
  intros P C. assert (E : Evolves h (set_wits h l)) by evo. split; [exact E|]. intros F. specialize (C F). fine E F.
  eapply put_forall; [exact P| |]; [exact (all_wit _ _ _ H1 E)|eapply wit_fine_evolves; eassumption].
Qed.
Lemma good_tx h a c l : put (h_txs h) a c l -> (Fine h -> tx_fine h c) -> good h (set_txs h l).
Proof.
  intros P C. assert (E : Evolves h (set_txs h l)) by evo. split; [exact E|]. intros F. specialize (C F). fine E F.
  eapply put_forall; [exact P| |]; [exact (all_tx _ _ _ H2 E)|eapply tx_fine_evolves; eassumption].
Qed.
Lemma good_arr h l : (length (h_arrs h) <= length l)%nat -> good h (set_arrs h l).
Proof. intros P. assert (E : Evolves h (set_arrs h l)) by (evo; exact P). split; [exact E|]. intros F. fine E F. Qed.

(** * Construction only adds objects *)
Definition prefix {A} (l l' : list A) : Prop := exists x, l' = l ++ x.
Lemma prefix_refl {A} (l : list A) : prefix l l. Proof. exists []. rewrite app_nil_r. reflexivity. Qed.
Lemma prefix_trans {A} (a b c : list A) : prefix a b -> prefix b c -> prefix a c.
Proof. intros [x ->] [y ->]. exists (x ++ y). rewrite app_assoc. reflexivity. Qed.
Lemma prefix_app {A} (l x : list A) : prefix l (l ++ x). Proof. exists x. reflexivity. Qed.
Lemma prefix_at {A} (l l' : list A) a : prefix l l' -> (a < length l)%nat -> nth_error l' a = nth_error l a.
Proof. intros [x ->] H. apply nth_error_app1. exact H. Qed.
Lemma prefix_some {A} (l l' : list A) a c : prefix l l' -> nth_error l a = Some c -> nth_error l' a = Some c.
Proof. intros P E. rewrite (prefix_at _ _ _ P); [exact E|]. apply nth_error_Some. congruence. Qed.
Lemma prefix_length {A} (l l' : list A) : prefix l l' -> (length l <= length l')%nat.
Proof. intros [x ->]. rewrite app_length. lia. Qed.
Record ext (h h' : heap) : Prop := {
  x_ops : prefix (h_ops h) (h_ops h'); x_ins : prefix (h_ins h) (h_ins h'); x_outs : prefix (h_outs h) (h_outs h');
  x_iws : prefix (h_iws h) (h_iws h'); x_ows : prefix (h_ows h) (h_ows h'); x_wits : prefix (h_wits h) (h_wits h');
  x_txs : prefix (h_txs h) (h_txs h'); x_arrs : prefix (h_arrs h) (h_arrs h')
}.
Lemma ext_refl h : ext h h. Proof. constructor; apply prefix_refl. Qed.
Lemma ext_trans a b c : ext a b -> ext b c -> ext a c.
Proof. intros [] []. constructor; eapply prefix_trans; eassumption. Qed.
Lemma ext_same h h' x : ext h h' -> exists_in h x -> same h h' x.
Proof. intros [] E. destruct x; cbn in *; apply prefix_at; assumption. Qed.
Ltac ex := constructor; cbn [h_ops h_ins h_outs h_iws h_ows h_wits h_txs h_arrs set_ops set_ins set_outs set_iws set_ows set_wits set_txs set_arrs]; try apply prefix_refl; apply prefix_app.
Definition step (h h' : heap) : Prop := good h h' /\ ext h h'.
Lemma step_refl h : step h h. Proof. split; [apply good_refl|apply ext_refl]. Qed.
Lemma step_trans a b c : step a b -> step b c -> step a c.
Proof. intros [] []. split; [eapply good_trans|eapply ext_trans]; eassumption. Qed.
Lemma step_fine h h' : step h h' -> Fine h -> Fine h'. Proof. intros [[_ F] _]. exact F. Qed.

(** [b] in [h'] is a copy, of class [m], of [a] in [h]; [R]: how the attributes are related. *)
Definition Copied {A} (store : heap -> list (cell A)) (R : heap -> heap -> A -> A -> Prop) (m : bool) (h h' : heap) (a b : nat) : Prop :=
  exists c c', nth_error (store h) a = Some c /\ nth_error (store h') b = Some c' /\ c_mut c' = m
  /\ (m = true -> (length (store h) <= b)%nat) /\ R h h' (c_val c) (c_val c').
Definition SameVal {A} (h h' : heap) (v v' : A) : Prop := v' = v.
Definition stable {A} (R : heap -> heap -> A -> A -> Prop) : Prop :=
  (forall h h' h'' v v', ext h' h'' -> R h h' v v' -> R h h'' v v').
Section Copies.
Context {A : Type} (store : heap -> list (cell A)) (R : heap -> heap -> A -> A -> Prop) (m : bool).
Hypothesis St : forall h h', ext h h' -> prefix (store h) (store h').
Lemma copied_later h h' h'' a b : stable R -> ext h' h'' -> Copied store R m h h' a b -> Copied store R m h h'' a b.
Proof.
  intros S E (c & c' & N & N' & M & G & V). exists c, c'. split; [exact N|]. split; [exact (prefix_some _ _ _ _ (St _ _ E) N')|]. split; [exact M|]. split; [exact G|].
  eapply S; eassumption.
Qed.
Variable f : nat -> heap -> res (nat * heap).
Variable dom : heap -> nat -> Prop.
Hypothesis domst : forall h h' a, ext h h' -> dom h a -> dom h' a.
Hypothesis dom_in : forall h a, dom h a -> (a < length (store h))%nat.
Hypothesis Rearly : forall h0 h h' v v' a, ext h0 h -> Fine h0 -> dom h0 a -> (exists mm, nth_error (store h0) a = Some (mkCell mm v)) -> R h h' v v' -> R h0 h' v v'.
Lemma copied_early h0 h h' a b : ext h0 h -> Fine h0 -> dom h0 a -> Copied store R m h h' a b -> Copied store R m h0 h' a b.
Proof.
  intros E F D (c & c' & N & N' & M & G & V). rewrite (prefix_at _ _ _ (St _ _ E) (dom_in _ _ D)) in N. exists c, c'. split; [exact N|]. split; [exact N'|]. split; [exact M|].
  split; [intros T; specialize (G T); assert (H := prefix_length _ _ (St _ _ E)); lia|]. eapply Rearly; eauto. destruct c as [mm v]. exists mm. exact N.
Qed.
Hypothesis fspec : forall h a, Fine h -> dom h a -> exists b h', f a h = Ok (b, h') /\ step h h' /\ Copied store R m h h' a b.
Lemma map_heap_spec l : stable R -> forall h, Fine h -> Forall (dom h) l ->
  exists bs h', map_heap f l h = Ok (bs, h') /\ step h h' /\ Forall2 (Copied store R m h h') l bs /\ (m = true -> NoDup bs).
Proof.
  intros SR. induction l as [|a l IH]; intros h F D.
  - exists [], h. split; [reflexivity|]. split; [apply step_refl|]. split; [constructor|]. intros _. constructor.
  - inversion D as [|? ? Da Dl]; subst. destruct (fspec h a F Da) as (b & h1 & E1 & S1 & C1).
    assert (D1 : Forall (dom h1) l). { eapply Forall_impl; [|exact Dl]. intros y Y. eapply domst; [apply S1|exact Y]. }
    destruct (IH h1 (step_fine _ _ S1 F) D1) as (bs & h2 & E2 & S2 & C2 & N2).
    exists (b :: bs), h2. cbn [map_heap]. rewrite E1. cbn [rbind]. rewrite E2. cbn [rbind]. split; [reflexivity|]. split; [eapply step_trans; eassumption|]. split.
    + constructor; [eapply copied_later; [exact SR|apply S2|exact C1]|].
      assert (G : forall xs ys, Forall (dom h) xs -> Forall2 (Copied store R m h1 h2) xs ys -> Forall2 (Copied store R m h h2) xs ys).
      { induction xs as [|x xs IHx]; intros ys DX Q; inversion Q; subst; constructor; inversion DX; subst; [eapply copied_early; [apply S1|exact F|assumption|assumption]|apply IHx; assumption]. }
      apply G; assumption.
    + intros T. constructor; [|exact (N2 T)]. intros I. destruct C1 as (c & c' & _ & N' & _). assert (L : (b < length (store h1))%nat) by (apply nth_error_Some; congruence).
      clear - C2 I T L. induction C2 as [|x y xs ys Q _ IHq]; [exact I|]. destruct I as [->|I]; [|exact (IHq I)]. destruct Q as (d & d' & _ & _ & _ & G & _). specialize (G T). lia.
Qed.
End Copies.

(** Leaves *)
Lemma stable_val {A} : stable (@SameVal A). Proof. intros h h' h'' v v' _ E. exact E. Qed.
Definition In_store {A} (store : heap -> list (cell A)) (h : heap) (a : nat) : Prop := (a < length (store h))%nat.
Lemma in_store_some {A} (l : list A) a : (a < length l)%nat -> exists c, nth_error l a = Some c.
Proof. intros H. destruct (nth_error l a) as [c|] eqn:E; [exists c; reflexivity|]. apply nth_error_None in E. lia. Qed.
Lemma leaf_spec {A} (store : heap -> list (cell A)) (put_store : heap -> list (cell A) -> heap)
  (Sput : forall h l, store (put_store h l) = l) (G : forall h m v, Fine h -> (exists a m', nth_error (store h) a = Some (mkCell m' v)) -> step h (put_store h (store h ++ [mkCell m v])))
  m h a : Fine h -> In_store store h a ->
  exists b h', (let! c := deref (store h) a in if negb m && negb (c_mut c) then Ok (a, h) else Ok (length (store h), put_store h (store h ++ [mkCell m (c_val c)]))) = Ok (b, h')
  /\ step h h' /\ Copied store SameVal m h h' a b.
Proof.
  intros F D. destruct (in_store_some _ _ D) as [[mc v] E]. rewrite (proj2 (deref_ok _ _ _) E). cbn [rbind c_mut c_val].
  destruct (negb m && negb mc) eqn:Q.
  - apply andb_prop in Q. destruct Q as [Q1 Q2]. apply Bool.negb_true_iff in Q1, Q2. subst m mc. exists a, h. split; [reflexivity|]. split; [apply step_refl|].
    exists (mkCell false v), (mkCell false v). repeat split; auto; discriminate.
  - exists (length (store h)), (put_store h (store h ++ [mkCell m v])). split; [reflexivity|]. split; [apply G; [exact F|exists a, mc; exact E]|].
    exists (mkCell mc v), (mkCell m v). split; [exact E|]. split; [rewrite Sput, nth_error_app2, Nat.sub_diag by lia; reflexivity|]. repeat split. intros _. lia.
Qed.
Lemma step_op h m v : step h (set_ops h (h_ops h ++ [mkCell m v])).
Proof. split; [eapply good_op; apply PutNew|ex]. Qed.
Lemma step_out h m v : step h (set_outs h (h_outs h ++ [mkCell m v])).
Proof. split; [eapply good_out; apply PutNew|ex]. Qed.
Lemma step_iw h m v : step h (set_iws h (h_iws h ++ [mkCell m v])).
Proof. split; [eapply good_iw; apply PutNew|ex]. Qed.
Lemma step_ow h m v : buf_in h (oo_surj v) -> buf_in h (oo_range v) -> step h (set_ows h (h_ows h ++ [mkCell m v])).
Proof. intros A B. split; [eapply good_ow; [apply PutNew|]|ex]. intros _. split; assumption. Qed.
Lemma step_in h m v : points m (h_ops h) (io_prevout v) -> step h (set_ins h (h_ins h ++ [mkCell m v])).
Proof. intros A. split; [eapply good_in; [apply PutNew|]|ex]. intros _. exact A. Qed.
Lemma step_wit h m v : Forall (points m (h_iws h)) (wo_in v) -> Forall (points m (h_ows h)) (wo_out v) -> step h (set_wits h (h_wits h ++ [mkCell m v])).
Proof. intros A B. split; [eapply good_wit; [apply PutNew|]|ex]. intros _. split; assumption. Qed.
Lemma step_tx h m v : Forall (points m (h_ins h)) (to_vin v) -> Forall (points m (h_outs h)) (to_vout v) -> points m (h_wits h) (to_wit v) ->
  step h (set_txs h (h_txs h ++ [mkCell m v])).
Proof. intros A B C. split; [eapply good_tx; [apply PutNew|]|ex]. intros _. split; [|split]; assumption. Qed.
Lemma step_arr h b : step h (set_arrs h (h_arrs h ++ [b])).
Proof. split; [apply good_arr; rewrite app_length; lia|ex]. Qed.

Definition OpCopy := Copied h_ops SameVal.
Definition OutCopy := Copied h_outs SameVal.
Definition IwCopy := Copied h_iws SameVal.
Definition OwCopy := Copied h_ows SameVal.
Lemma from_outpoint_spec m h a : Fine h -> In_store h_ops h a -> exists b h', from_outpoint m a h = Ok (b, h') /\ step h h' /\ OpCopy m h h' a b.
Proof. apply (leaf_spec h_ops set_ops); [reflexivity|]. intros. apply step_op. Qed.
Lemma from_txout_spec m h a : Fine h -> In_store h_outs h a -> exists b h', from_txout m a h = Ok (b, h') /\ step h h' /\ OutCopy m h h' a b.
Proof. apply (leaf_spec h_outs set_outs); [reflexivity|]. intros. apply step_out. Qed.
Lemma from_inwit_spec m h a : Fine h -> In_store h_iws h a -> exists b h', from_inwit m a h = Ok (b, h') /\ step h h' /\ IwCopy m h h' a b.
Proof. apply (leaf_spec h_iws set_iws); [reflexivity|]. intros. apply step_iw. Qed.
Lemma from_outwit_spec m h a : Fine h -> In_store h_ows h a -> exists b h', from_outwit m a h = Ok (b, h') /\ step h h' /\ OwCopy m h h' a b.
Proof.
  apply (leaf_spec h_ows set_ows); [reflexivity|]. intros h0 m0 v F (i & m' & E). assert (Q := proj1 (Forall_forall _ _) (f_ows _ F) _ (nth_error_In _ _ E)). destruct Q. apply step_ow; assumption.
Qed.

Definition InRel (m : bool) (h h' : heap) (v v' : txin_obj) : Prop :=
  io_script v' = io_script v /\ io_seq v' = io_seq v /\ io_iss v' = io_iss v /\ io_pegin v' = io_pegin v /\ OpCopy m h h' (io_prevout v) (io_prevout v').
Definition InCopy (m : bool) := Copied h_ins (InRel m) m.
Lemma opcopy_later m h h' h'' a b : ext h' h'' -> OpCopy m h h' a b -> OpCopy m h h'' a b.
Proof. intros E. apply copied_later; [intros ? ? X; apply X|apply stable_val|exact E]. Qed.
Lemma copied_points {A} (store : heap -> list (cell A)) R m h h' a b : Copied store R m h h' a b -> points m (store h') b.
Proof. intros (c & c' & _ & N & M & _). exists c'. split; [exact N|]. intros ->. exact M. Qed.
Lemma copied_two m h h1 h2 a b c : ext h h1 -> OpCopy m h h1 a b -> OpCopy m h1 h2 b c -> OpCopy m h h2 a c.
Proof.
  intros X (c1 & c2 & N1 & N2 & M & G & V) (d1 & d2 & P1 & P2 & M' & G' & V'). assert (d1 = c2) by congruence. subst d1. exists c1, d2. split; [exact N1|]. split; [exact P2|]. split; [exact M'|].
  split; [intros T; specialize (G' T); assert (L := prefix_length _ _ (x_ops _ _ X)); lia|]. unfold SameVal in *. congruence.
Qed.
Lemma points_in {A} m (l : list (cell A)) a : points m l a -> (a < length l)%nat.
Proof. intros (c & E & _). apply nth_error_Some. congruence. Qed.
Lemma new_txin_spec m p s q i g h : Fine h -> In_store h_ops h p ->
  exists b h', new_txin m p s q i g h = Ok (b, h') /\ step h h' /\ (length (h_ins h) <= b)%nat
  /\ exists p', nth_error (h_ins h') b = Some (mkCell m (mkInObj p' s q i g)) /\ OpCopy m h h' p p'.
Proof.
  intros F D. unfold new_txin. destruct (from_outpoint_spec m h p F D) as (p' & h1 & E & S & C). rewrite E. cbn [rbind].
  eexists _, _. split; [reflexivity|]. assert (S2 : step h1 (set_ins h1 (h_ins h1 ++ [mkCell m (mkInObj p' s q i g)]))).
  { apply step_in. cbn [io_prevout]. eapply copied_points. exact C. }
  split; [eapply step_trans; eassumption|]. split; [apply prefix_length; apply S|]. exists p'. split; [cbn [h_ins set_ins]; rewrite nth_error_app2, Nat.sub_diag by lia; reflexivity|].
  eapply opcopy_later; [apply S2|exact C].
Qed.
Lemma from_txin_spec m h a : Fine h -> In_store h_ins h a -> exists b h', from_txin m a h = Ok (b, h') /\ step h h' /\ InCopy m h h' a b.
Proof.
  intros F D. destruct (in_store_some _ _ D) as [[mc v] E]. unfold from_txin. rewrite (proj2 (deref_ok _ _ _) E). cbn [rbind c_mut c_val].
  assert (Q := proj1 (Forall_forall _ _) (f_ins _ F) _ (nth_error_In _ _ E)). unfold in_fine in Q. cbn [c_mut c_val] in Q.
  destruct (from_outpoint_spec m h (io_prevout v) F (points_in _ _ _ Q)) as (p & h1 & E1 & S1 & C1). rewrite E1. cbn [rbind].
  destruct (negb m && negb mc) eqn:B.
  - apply andb_prop in B. destruct B as [Q1 Q2]. apply Bool.negb_true_iff in Q1, Q2. subst m mc. exists a, h1. split; [reflexivity|]. split; [exact S1|].
    destruct Q as (cp & Ep & Mp). specialize (Mp eq_refl).
    exists (mkCell false v), (mkCell false v). split; [exact E|]. split; [exact (prefix_some _ _ _ _ (x_ins _ _ (proj2 S1)) E)|]. split; [reflexivity|]. split; [discriminate|].
    repeat split. exists cp, cp. split; [exact Ep|]. split; [exact (prefix_some _ _ _ _ (x_ops _ _ (proj2 S1)) Ep)|]. repeat split; [exact Mp|discriminate].
  - destruct (new_txin_spec m p (io_script v) (io_seq v) (io_iss v) (io_pegin v) h1 (step_fine _ _ S1 F)) as (b & h2 & E2 & S2 & L2 & p' & N2 & C2).
    { eapply points_in. eapply copied_points. exact C1. }
    exists b, h2. split; [exact E2|]. split; [eapply step_trans; eassumption|]. eexists _, _. split; [exact E|]. split; [exact N2|]. split; [reflexivity|].
    split; [intros _; assert (L := prefix_length _ _ (x_ins _ _ (proj2 S1))); lia|]. repeat split. cbn [io_prevout c_val]. eapply copied_two; [apply S1|exact C1|exact C2].
Qed.

Lemma forall2_points {A} (store : heap -> list (cell A)) R m h h' l bs : Forall2 (Copied store R m h h') l bs -> Forall (points m (store h')) bs.
Proof. induction 1; constructor; [eapply copied_points; eassumption|assumption]. Qed.
Lemma map_out_spec m l h : Fine h -> Forall (In_store h_outs h) l ->
  exists bs h', map_heap (from_txout m) l h = Ok (bs, h') /\ step h h' /\ Forall2 (OutCopy m h h') l bs /\ (m = true -> NoDup bs).
Proof.
  apply (map_heap_spec h_outs SameVal m (fun _ _ X => x_outs _ _ X) (from_txout m) (In_store h_outs)); try apply stable_val; try (intros; exact (from_txout_spec _ _ _ H H0)).
  - intros h1 h2 a X D. assert (L := prefix_length _ _ (x_outs _ _ X)). unfold In_store in *. lia.
  - auto.
  - intros. assumption.
Qed.
Lemma map_iw_spec m l h : Fine h -> Forall (In_store h_iws h) l ->
  exists bs h', map_heap (from_inwit m) l h = Ok (bs, h') /\ step h h' /\ Forall2 (IwCopy m h h') l bs /\ (m = true -> NoDup bs).
Proof.
  apply (map_heap_spec h_iws SameVal m (fun _ _ X => x_iws _ _ X) (from_inwit m) (In_store h_iws)); try apply stable_val; try (intros; exact (from_inwit_spec _ _ _ H H0)).
  - intros h1 h2 a X D. assert (L := prefix_length _ _ (x_iws _ _ X)). unfold In_store in *. lia.
  - auto.
  - intros. assumption.
Qed.
Lemma map_ow_spec m l h : Fine h -> Forall (In_store h_ows h) l ->
  exists bs h', map_heap (from_outwit m) l h = Ok (bs, h') /\ step h h' /\ Forall2 (OwCopy m h h') l bs /\ (m = true -> NoDup bs).
Proof.
  apply (map_heap_spec h_ows SameVal m (fun _ _ X => x_ows _ _ X) (from_outwit m) (In_store h_ows)); try apply stable_val; try (intros; exact (from_outwit_spec _ _ _ H H0)).
  - intros h1 h2 a X D. assert (L := prefix_length _ _ (x_ows _ _ X)). unfold In_store in *. lia.
  - auto.
  - intros. assumption.
Qed.
Lemma inrel_later m : stable (InRel m).
Proof. intros h h' h'' v v' X (A & B & C & D & E). repeat split; try assumption. eapply opcopy_later; eassumption. Qed.
Lemma map_in_spec m l h : Fine h -> Forall (In_store h_ins h) l ->
  exists bs h', map_heap (from_txin m) l h = Ok (bs, h') /\ step h h' /\ Forall2 (InCopy m h h') l bs /\ (m = true -> NoDup bs).
Proof.
  apply (map_heap_spec h_ins (InRel m) m (fun _ _ X => x_ins _ _ X) (from_txin m) (In_store h_ins)); try apply inrel_later; try (intros; exact (from_txin_spec _ _ _ H H0)).
  - intros h1 h2 a X D. assert (L := prefix_length _ _ (x_ins _ _ X)). unfold In_store in *. lia.
  - auto.
  - intros h0 h1 h2 v v' a X F D (mm & E) (A1 & A2 & A3 & A4 & A5). repeat split; try assumption.
    assert (Q := proj1 (Forall_forall _ _) (f_ins _ F) _ (nth_error_In _ _ E)). destruct Q as (cp & Ep & _). cbn [c_val] in Ep.
    destruct A5 as (c & c' & N & N' & M & G & V). exists c, c'. rewrite (prefix_some _ _ _ _ (x_ops _ _ X) Ep) in N. injection N as <-.
    split; [exact Ep|]. split; [exact N'|]. split; [exact M|]. split; [|exact V]. intros T. specialize (G T). assert (L := prefix_length _ _ (x_ops _ _ X)). lia.
Qed.

(** Early/late versions of the copy relations, on lists *)
Lemma f2_later {A} (store : heap -> list (cell A)) R m h h' h'' l bs : (forall a b, ext a b -> prefix (store a) (store b)) -> stable R -> ext h' h'' ->
  Forall2 (Copied store R m h h') l bs -> Forall2 (Copied store R m h h'') l bs.
Proof. intros St SR X. induction 1; constructor; [eapply copied_later; eassumption|assumption]. Qed.
Lemma copied_early_val {A} (store : heap -> list (cell A)) m h0 h h' a b : prefix (store h0) (store h) -> (a < length (store h0))%nat ->
  Copied store SameVal m h h' a b -> Copied store SameVal m h0 h' a b.
Proof.
  intros P L (c & c' & N & N' & M & G & V). rewrite (prefix_at _ _ _ P L) in N. exists c, c'. repeat split; try assumption. intros T. specialize (G T). assert (Q := prefix_length _ _ P). lia.
Qed.
Lemma f2_early {A} (store : heap -> list (cell A)) m h0 h h' l bs : prefix (store h0) (store h) -> Forall (fun a => (a < length (store h0))%nat) l ->
  Forall2 (Copied store SameVal m h h') l bs -> Forall2 (Copied store SameVal m h0 h') l bs.
Proof. intros P D Q. induction Q; constructor; inversion D; subst; [eapply copied_early_val; eassumption|auto]. Qed.
Lemma in_store_ext {A} (store : heap -> list (cell A)) h h' l : prefix (store h) (store h') -> Forall (In_store store h) l -> Forall (In_store store h') l.
Proof. intros P D. eapply Forall_impl; [|exact D]. intros a L. unfold In_store in *. assert (Q := prefix_length _ _ P). lia. Qed.
Lemma points_in_all {A} (store : heap -> list (cell A)) m h l : Forall (points m (store h)) l -> Forall (In_store store h) l.
Proof. intros D. eapply Forall_impl; [|exact D]. intros a P. exact (points_in _ _ _ P). Qed.

Definition WitRel (m : bool) (h h' : heap) (v v' : wit_obj) : Prop :=
  Forall2 (IwCopy m h h') (wo_in v) (wo_in v') /\ Forall2 (OwCopy m h h') (wo_out v) (wo_out v') /\ (m = true -> NoDup (wo_in v') /\ NoDup (wo_out v')).
Definition WitCopy (m : bool) := Copied h_wits (WitRel m) m.
Lemma witrel_later m : stable (WitRel m).
Proof.
  intros h h' h'' v v' X (A & B & C). split; [|split; [|exact C]].
  - eapply (f2_later h_iws); [intros ? ? Y; apply Y|apply stable_val|exact X|exact A].
  - eapply (f2_later h_ows); [intros ? ? Y; apply Y|apply stable_val|exact X|exact B].
Qed.
Lemma new_wit_spec m ins outs h : Fine h -> Forall (In_store h_iws h) ins -> Forall (In_store h_ows h) outs ->
  exists b h' v', new_wit m ins outs h = Ok (b, h') /\ step h h' /\ b = length (h_wits h) /\ nth_error (h_wits h') b = Some (mkCell m v')
  /\ WitRel m h h' (mkWitObj ins outs) v'.
Proof.
  intros F D1 D2. unfold new_wit. destruct (map_iw_spec m ins h F D1) as (i & h1 & E1 & S1 & C1 & N1). rewrite E1. cbn [rbind].
  destruct (map_ow_spec m outs h1 (step_fine _ _ S1 F) (in_store_ext _ _ _ _ (x_ows _ _ (proj2 S1)) D2)) as (o & h2 & E2 & S2 & C2 & N2). rewrite E2. cbn [rbind].
  assert (C1' : Forall2 (IwCopy m h h2) ins i) by (eapply (f2_later h_iws); [intros ? ? Y; apply Y|apply stable_val|apply S2|exact C1]).
  assert (C2' : Forall2 (OwCopy m h h2) outs o) by (eapply (f2_early h_ows); [apply S1|exact D2|exact C2]).
  assert (W : h_wits h2 = h_wits h).
  { assert (W1 : forall l g bs g', map_heap (from_inwit m) l g = Ok (bs, g') -> h_wits g' = h_wits g).
    { induction l as [|x l IH]; intros g bs g' E; cbn [map_heap] in E; [injection E as <- <-; reflexivity|].
      destruct (from_inwit m x g) as [[b g1]|] eqn:Ef; [|discriminate]. cbn [rbind] in E. destruct (map_heap (from_inwit m) l g1) as [[bs1 g2]|] eqn:Em; [|discriminate].
      cbn [rbind] in E. injection E as <- <-. rewrite (IH _ _ _ Em). unfold from_inwit in Ef. destruct (deref (h_iws g) x) as [c|]; [|discriminate]. cbn [rbind] in Ef.
      destruct (negb m && negb (c_mut c)); injection Ef as <- <-; reflexivity. }
    assert (W2 : forall l g bs g', map_heap (from_outwit m) l g = Ok (bs, g') -> h_wits g' = h_wits g).
    { induction l as [|x l IH]; intros g bs g' E; cbn [map_heap] in E; [injection E as <- <-; reflexivity|].
      destruct (from_outwit m x g) as [[b g1]|] eqn:Ef; [|discriminate]. cbn [rbind] in E. destruct (map_heap (from_outwit m) l g1) as [[bs1 g2]|] eqn:Em; [|discriminate].
      cbn [rbind] in E. injection E as <- <-. rewrite (IH _ _ _ Em). unfold from_outwit in Ef. destruct (deref (h_ows g) x) as [c|]; [|discriminate]. cbn [rbind] in Ef.
      destruct (negb m && negb (c_mut c)); injection Ef as <- <-; reflexivity. }
    rewrite (W2 _ _ _ _ E2). exact (W1 _ _ _ _ E1). }
  assert (S3 : step h2 (set_wits h2 (h_wits h2 ++ [mkCell m (mkWitObj i o)]))).
  { apply step_wit; cbn [wo_in wo_out]; eapply forall2_points; eassumption. }
  eexists _, _, _. split; [reflexivity|]. split; [eapply step_trans; [exact S1|]; eapply step_trans; eassumption|]. split; [rewrite W; reflexivity|].
  split; [cbn [h_wits set_wits]; rewrite nth_error_app2, Nat.sub_diag by lia; reflexivity|].
  apply (witrel_later m h h2 _ _ _ (proj2 S3)). split; [exact C1'|]. split; [exact C2'|]. intros T. split; auto.
Qed.
Lemma self_copies {A} (store : heap -> list (cell A)) h l : Forall (points false (store h)) l -> Forall2 (Copied store SameVal false h h) l l.
Proof.
  induction 1 as [|a l (c & E & M) _ IH]; constructor; [|exact IH]. exists c, c. repeat split; try assumption; [exact (M eq_refl)|discriminate].
Qed.
Lemma wits_fine h a m v : Fine h -> nth_error (h_wits h) a = Some (mkCell m v) -> Forall (points m (h_iws h)) (wo_in v) /\ Forall (points m (h_ows h)) (wo_out v).
Proof. intros F E. exact (proj1 (Forall_forall _ _) (f_wits _ F) _ (nth_error_In _ _ E)). Qed.
Lemma txs_fine h a m v : Fine h -> nth_error (h_txs h) a = Some (mkCell m v) ->
  Forall (points m (h_ins h)) (to_vin v) /\ Forall (points m (h_outs h)) (to_vout v) /\ points m (h_wits h) (to_wit v).
Proof. intros F E. exact (proj1 (Forall_forall _ _) (f_txs _ F) _ (nth_error_In _ _ E)). Qed.
Lemma ins_fine h a m v : Fine h -> nth_error (h_ins h) a = Some (mkCell m v) -> points m (h_ops h) (io_prevout v).
Proof. intros F E. exact (proj1 (Forall_forall _ _) (f_ins _ F) _ (nth_error_In _ _ E)). Qed.
Lemma from_wit_spec m h a : Fine h -> In_store h_wits h a -> exists b h', from_wit m a h = Ok (b, h') /\ step h h' /\ WitCopy m h h' a b.
Proof.
  intros F D. destruct (in_store_some _ _ D) as [[mc v] E]. unfold from_wit. rewrite (proj2 (deref_ok _ _ _) E). cbn [rbind c_mut c_val].
  destruct (wits_fine _ _ _ _ F E) as [Q1 Q2].
  destruct (negb m && negb mc) eqn:B.
  - apply andb_prop in B. destruct B as [B1 B2]. apply Bool.negb_true_iff in B1, B2. subst m mc. exists a, h. split; [reflexivity|]. split; [apply step_refl|].
    exists (mkCell false v), (mkCell false v). split; [exact E|]. split; [exact E|]. split; [reflexivity|]. split; [discriminate|]. cbn [c_val].
    split; [apply (self_copies h_iws); exact Q1|]. split; [apply (self_copies h_ows); exact Q2|discriminate].
  - destruct (new_wit_spec m (wo_in v) (wo_out v) h F (points_in_all h_iws _ _ _ Q1) (points_in_all h_ows _ _ _ Q2)) as (b & h' & v' & En & S & L & N & R).
    exists b, h'. split; [exact En|]. split; [exact S|]. eexists _, _. split; [exact E|]. split; [exact N|]. split; [reflexivity|]. split; [intros _; lia|exact R].
Qed.

Definition TxRel (m : bool) (h h' : heap) (v v' : tx_obj) : Prop :=
  Forall2 (InCopy m h h') (to_vin v) (to_vin v') /\ Forall2 (OutCopy m h h') (to_vout v) (to_vout v') /\ to_lock v' = to_lock v /\ to_ver v' = to_ver v
  /\ WitCopy m h h' (to_wit v) (to_wit v') /\ (m = true -> NoDup (to_vin v') /\ NoDup (to_vout v')).
Definition TxCopy (m : bool) := Copied h_txs (TxRel m) m.
Definition WitNew (m : bool) (h h' : heap) (w : option nat) (b : nat) : Prop :=
  match w with
  | Some a => WitCopy m h h' a b
  | None => (length (h_wits h) <= b)%nat /\ nth_error (h_wits h') b = Some (mkCell m (mkWitObj [] []))
  end.
Lemma copied_early_wit m h0 h h' a b : ext h0 h -> Fine h0 -> In_store h_wits h0 a -> WitCopy m h h' a b -> WitCopy m h0 h' a b.
Proof.
  intros X F D (c & c' & N & N' & M & G & (V1 & V2 & V3)). rewrite (prefix_at _ _ _ (x_wits _ _ X) D) in N. exists c, c'. split; [exact N|]. split; [exact N'|]. split; [exact M|].
  split; [intros T; specialize (G T); assert (Q := prefix_length _ _ (x_wits _ _ X)); lia|]. destruct c as [mc v]. destruct (wits_fine _ _ _ _ F N) as [Q1 Q2].
  split; [eapply (f2_early h_iws); [apply X|exact (points_in_all h_iws _ _ _ Q1)|exact V1]|]. split; [|exact V3].
  eapply (f2_early h_ows); [apply X|exact (points_in_all h_ows _ _ _ Q2)|exact V2].
Qed.
Lemma new_tx_spec m ins outs lock ver wit h : Fine h -> Forall (In_store h_ins h) ins -> Forall (In_store h_outs h) outs ->
  (forall a, wit = Some a -> In_store h_wits h a) ->
  exists b h' v', new_tx m ins outs lock ver wit h = Ok (b, h') /\ step h h' /\ (length (h_txs h) <= b)%nat /\ nth_error (h_txs h') b = Some (mkCell m v')
  /\ Forall2 (InCopy m h h') ins (to_vin v') /\ Forall2 (OutCopy m h h') outs (to_vout v') /\ to_lock v' = lock /\ to_ver v' = ver
  /\ WitNew m h h' wit (to_wit v') /\ (m = true -> NoDup (to_vin v') /\ NoDup (to_vout v')).
Proof.
  intros F D1 D2 D3. unfold new_tx. destruct (map_in_spec m ins h F D1) as (i & h1 & E1 & S1 & C1 & N1). rewrite E1. cbn [rbind].
  destruct (map_out_spec m outs h1 (step_fine _ _ S1 F) (in_store_ext _ _ _ _ (x_outs _ _ (proj2 S1)) D2)) as (o & h2 & E2 & S2 & C2 & N2). rewrite E2. cbn [rbind].
  assert (S12 := step_trans _ _ _ S1 S2).
  assert (W : exists w h3, match wit with Some a => from_wit m a h2 | None => new_wit m [] [] h2 end = Ok (w, h3) /\ step h2 h3 /\ WitNew m h h3 wit w).
  { destruct wit as [a|].
    - assert (D := D3 a eq_refl). assert (D' : In_store h_wits h2 a) by (assert (Q := prefix_length _ _ (x_wits _ _ (proj2 S12))); unfold In_store in *; lia).
      destruct (from_wit_spec m h2 a (step_fine _ _ S12 F) D') as (w & h3 & E & S & C). exists w, h3. split; [exact E|]. split; [exact S|]. cbn [WitNew].
      eapply copied_early_wit; [apply S12|exact F|exact D|exact C].
    - destruct (new_wit_spec m [] [] h2 (step_fine _ _ S12 F) (Forall_nil _) (Forall_nil _)) as (w & h3 & v' & E & S & L & N & (R1 & R2 & _)). exists w, h3. split; [exact E|]. split; [exact S|]. cbn [WitNew].
      split; [assert (Q := prefix_length _ _ (x_wits _ _ (proj2 S12))); lia|]. rewrite N. cbn [wo_in wo_out] in R1, R2. destruct v' as [vi vo]. inversion R1; inversion R2; cbn in *; subst. reflexivity. }
  destruct W as (w & h3 & E3 & S3 & C3). rewrite E3. cbn [rbind].
  assert (C1' : Forall2 (InCopy m h h3) ins i) by (eapply (f2_later h_ins); [intros ? ? Y; apply Y|apply inrel_later|eapply ext_trans; [apply S2|apply S3]|exact C1]).
  assert (C2' : Forall2 (OutCopy m h h3) outs o).
  { eapply (f2_later h_outs); [intros ? ? Y; apply Y|apply stable_val|apply S3|]. eapply (f2_early h_outs); [apply S1|exact D2|exact C2]. }
  assert (P3 : points m (h_wits h3) w).
  { destruct wit as [a|]; [eapply copied_points; exact C3|]. destruct C3 as [_ N]. exists (mkCell m (mkWitObj [] [])). split; [exact N|]. auto. }
  assert (S4 : step h3 (set_txs h3 (h_txs h3 ++ [mkCell m (mkTxObj i o lock ver w)]))).
  { apply step_tx; cbn [to_vin to_vout to_wit]; [eapply forall2_points; exact C1'|eapply forall2_points; exact C2'|exact P3]. }
  assert (S123 := step_trans _ _ _ S12 S3).
  eexists _, _, (mkTxObj i o lock ver w). split; [reflexivity|]. split; [eapply step_trans; eassumption|]. split; [apply prefix_length; apply S123|].
  split; [cbn [h_txs set_txs]; rewrite nth_error_app2, Nat.sub_diag by lia; reflexivity|]. cbn [to_vin to_vout to_lock to_ver to_wit].
  split; [eapply (f2_later h_ins); [intros ? ? Y; apply Y|apply inrel_later|apply S4|exact C1']|].
  split; [eapply (f2_later h_outs); [intros ? ? Y; apply Y|apply stable_val|apply S4|exact C2']|].
  split; [reflexivity|]. split; [reflexivity|]. split; [|intros T; split; auto].
  destruct wit as [a|]; [eapply (copied_later h_wits); [intros ? ? Y; apply Y|apply witrel_later|apply S4|exact C3]|]. exact C3.
Qed.
Lemma self_in h l : Fine h -> Forall (points false (h_ins h)) l -> Forall2 (InCopy false h h) l l.
Proof.
  intros F. induction 1 as [|a l (c & E & M) _ IH]; constructor; [|exact IH]. specialize (M eq_refl). destruct c as [mc v]. cbn in M. subst mc. exists (mkCell false v), (mkCell false v).
  split; [exact E|]. split; [exact E|]. split; [reflexivity|]. split; [discriminate|]. repeat split. destruct (ins_fine _ _ _ _ F E) as (c & Ec & Mc). exists c, c. repeat split; try assumption; [exact (Mc eq_refl)|discriminate].
Qed.
Lemma from_tx_spec m h a : Fine h -> In_store h_txs h a -> exists b h', from_tx m a h = Ok (b, h') /\ step h h' /\ TxCopy m h h' a b.
Proof.
  intros F D. destruct (in_store_some _ _ D) as [[mc v] E]. unfold from_tx. rewrite (proj2 (deref_ok _ _ _) E). cbn [rbind c_mut c_val].
  destruct (txs_fine _ _ _ _ F E) as (Q1 & Q2 & Q3).
  destruct (negb m && negb mc) eqn:B.
  - apply andb_prop in B. destruct B as [B1 B2]. apply Bool.negb_true_iff in B1, B2. subst m mc. exists a, h. split; [reflexivity|]. split; [apply step_refl|].
    exists (mkCell false v), (mkCell false v). split; [exact E|]. split; [exact E|]. split; [reflexivity|]. split; [discriminate|]. cbn [c_val].
    split; [apply self_in; assumption|]. split; [apply (self_copies h_outs); exact Q2|]. split; [reflexivity|]. split; [reflexivity|]. split; [|discriminate].
    destruct Q3 as ([mw w] & Ew & Mw). specialize (Mw eq_refl). cbn in Mw. subst mw. exists (mkCell false w), (mkCell false w). split; [exact Ew|]. split; [exact Ew|]. split; [reflexivity|]. split; [discriminate|].
    destruct (wits_fine _ _ _ _ F Ew) as [R1 R2]. split; [apply (self_copies h_iws); exact R1|]. split; [apply (self_copies h_ows); exact R2|discriminate].
  - destruct (new_tx_spec m (to_vin v) (to_vout v) (to_lock v) (to_ver v) (Some (to_wit v)) h F (points_in_all h_ins _ _ _ Q1) (points_in_all h_outs _ _ _ Q2))
      as (b & h' & v' & En & S & L & N & R1 & R2 & R3 & R4 & R5 & R6).
    { intros w W. injection W as <-. exact (points_in _ _ _ Q3). }
    exists b, h'. split; [exact En|]. split; [exact S|]. eexists _, _. split; [exact E|]. split; [exact N|]. split; [reflexivity|]. split; [intros _; exact L|].
    split; [exact R1|]. split; [exact R2|]. split; [exact R3|]. split; [exact R4|]. split; [exact R5|exact R6].
Qed.

(** * What copies give *)
Lemma rmap_forall2 {A B C} (f : A -> res C) (g : B -> res C) l l' : Forall2 (fun x y => g y = f x) l l' -> rmap g l' = rmap f l.
Proof. induction 1 as [|x y l l' E _ IH]; [reflexivity|]. cbn [rmap]. rewrite E, IH. reflexivity. Qed.
Lemma view_in_copy m h h' a b : InCopy m h h' a b -> view_in h' b = view_in h a.
Proof.
  intros ([mc v] & [mc' v'] & N & N' & _ & _ & (E1 & E2 & E3 & E4 & (p & p' & P & P' & _ & _ & V))). cbn [c_val] in *. unfold view_in.
  rewrite (proj2 (deref_ok _ _ _) N), (proj2 (deref_ok _ _ _) N'). cbn [rbind c_val]. rewrite (proj2 (deref_ok _ _ _) P), (proj2 (deref_ok _ _ _) P'). cbn [rbind].
  rewrite V, E1, E2, E3, E4. reflexivity.
Qed.
Lemma view_out_copy m h h' a b : OutCopy m h h' a b -> view_out h' b = view_out h a.
Proof. intros (c & c' & N & N' & _ & _ & V). unfold view_out. rewrite (proj2 (deref_ok _ _ _) N), (proj2 (deref_ok _ _ _) N'). cbn [rbind]. rewrite V. reflexivity. Qed.
Lemma view_iw_copy m h h' a b : IwCopy m h h' a b -> view_iw h' b = view_iw h a.
Proof. intros (c & c' & N & N' & _ & _ & V). unfold view_iw. rewrite (proj2 (deref_ok _ _ _) N), (proj2 (deref_ok _ _ _) N'). cbn [rbind]. rewrite V. reflexivity. Qed.
Lemma ows_fine h a m v : Fine h -> nth_error (h_ows h) a = Some (mkCell m v) -> buf_in h (oo_surj v) /\ buf_in h (oo_range v).
Proof. intros F E. exact (proj1 (Forall_forall _ _) (f_ows _ F) _ (nth_error_In _ _ E)). Qed.
Lemma view_buf_ext h h' b : ext h h' -> buf_in h b -> view_buf h' b = view_buf h b.
Proof. intros X I. destruct b as [x|a]; [reflexivity|]. apply deref_eq. apply prefix_at; [apply X|exact I]. Qed.
Lemma view_ow_copy m h h' a b : Fine h -> ext h h' -> OwCopy m h h' a b -> view_ow h' b = view_ow h a.
Proof.
  intros F X ([mc v] & [mc' v'] & N & N' & _ & _ & V). unfold SameVal in V. cbn [c_val] in V. subst v'. unfold view_ow. rewrite (proj2 (deref_ok _ _ _) N), (proj2 (deref_ok _ _ _) N'). cbn [rbind c_val].
  destruct (ows_fine _ _ _ _ F N) as [A B]. rewrite (view_buf_ext _ _ _ X A), (view_buf_ext _ _ _ X B). reflexivity.
Qed.
Lemma f2_impl {A B} (P Q : A -> B -> Prop) l l' : (forall x y, P x y -> Q x y) -> Forall2 P l l' -> Forall2 Q l l'.
Proof. intros H. induction 1; constructor; auto. Qed.
Lemma view_wit_copy m h h' a b : Fine h -> ext h h' -> WitCopy m h h' a b -> view_wit h' b = view_wit h a.
Proof.
  intros F X ([mc v] & [mc' v'] & N & N' & _ & _ & (V1 & V2 & _)). cbn [c_val] in *. unfold view_wit. rewrite (proj2 (deref_ok _ _ _) N), (proj2 (deref_ok _ _ _) N'). cbn [rbind c_val].
  rewrite (rmap_forall2 (view_iw h) (view_iw h') (wo_in v)) by (eapply f2_impl; [|exact V1]; apply view_iw_copy).
  rewrite (rmap_forall2 (view_ow h) (view_ow h') (wo_out v)) by (eapply f2_impl; [|exact V2]; intros x y; apply view_ow_copy; assumption). reflexivity.
Qed.
Lemma view_tx_copy m h h' a b : Fine h -> ext h h' -> TxCopy m h h' a b -> view_tx h' b = view_tx h a.
Proof.
  intros F X ([mc v] & [mc' v'] & N & N' & _ & _ & (V1 & V2 & V3 & V4 & V5 & _)). cbn [c_val] in *. unfold view_tx. rewrite (proj2 (deref_ok _ _ _) N), (proj2 (deref_ok _ _ _) N'). cbn [rbind c_val].
  rewrite (rmap_forall2 (view_in h) (view_in h') (to_vin v)) by (eapply f2_impl; [|exact V1]; apply view_in_copy).
  rewrite (rmap_forall2 (view_out h) (view_out h') (to_vout v)) by (eapply f2_impl; [|exact V2]; apply view_out_copy).
  rewrite (view_wit_copy _ _ _ _ _ F X V5), V3, V4. reflexivity.
Qed.

(** Immutable transactions are immutable all the way down. *)
Lemma points_false {A} (l : list (cell A)) a : points false l a -> cell_is l false a.
Proof. intros ([m v] & E & M). specialize (M eq_refl). cbn in M. subst m. exists v. exact E. Qed.
Lemma forall_in {A} (P : A -> Prop) l x : Forall P l -> In x l -> P x.
Proof. intros F. exact (proj1 (Forall_forall _ _) F x). Qed.
Lemma frozen h a : Fine h -> cell_is (h_txs h) false a -> Plain h a -> Frozen h a.
Proof.
  intros F T PL x P. induction P as [|m t i E I|m i c P IH E|m t i E I|m t E|m w c i P IH E I|m w c i P IH E I|m i c b P IH E B|m i c b P IH E B].
  - exact T.
  - destruct T as [t' T]. assert (mkCell m t = mkCell false t') by congruence. injection H as -> ->. apply points_false. eapply forall_in; [apply (txs_fine _ _ _ _ F T)|exact I].
  - destruct IH as [c' T']. assert (mkCell m c = mkCell false c') by congruence. injection H as -> ->. apply points_false. exact (ins_fine _ _ _ _ F T').
  - destruct T as [t' T]. assert (mkCell m t = mkCell false t') by congruence. injection H as -> ->. apply points_false. eapply forall_in; [apply (txs_fine _ _ _ _ F T)|exact I].
  - destruct T as [t' T]. assert (mkCell m t = mkCell false t') by congruence. injection H as -> ->. apply points_false. apply (txs_fine _ _ _ _ F T).
  - destruct IH as [c' T']. assert (mkCell m c = mkCell false c') by congruence. injection H as -> ->. apply points_false. eapply forall_in; [apply (wits_fine _ _ _ _ F T')|exact I].
  - destruct IH as [c' T']. assert (mkCell m c = mkCell false c') by congruence. injection H as -> ->. apply points_false. eapply forall_in; [apply (wits_fine _ _ _ _ F T')|exact I].
  - exfalso. exact (PL b (PSurj h a m i c b P E B)).
  - exfalso. exact (PL b (PRange h a m i c b P E B)).
Qed.

(** The parts of a copy are copies of the parts. *)
Definition part_of (m : bool) (h h' : heap) (a : nat) (x : ref) : Prop :=
  match x with
  | ROp j => exists i, Part h a (ROp i) /\ OpCopy m h h' i j
  | RIn j => exists i, Part h a (RIn i) /\ InCopy m h h' i j
  | ROut j => exists i, Part h a (ROut i) /\ OutCopy m h h' i j
  | RIw j => exists i, Part h a (RIw i) /\ IwCopy m h h' i j
  | ROw j => exists i, Part h a (ROw i) /\ OwCopy m h h' i j
  | RWit j => exists i, Part h a (RWit i) /\ WitCopy m h h' i j
  | RTx j => TxCopy m h h' a j
  | RArr j => Part h a (RArr j)
  end.
Lemma f2_in {A B} (P : A -> B -> Prop) l l' y : Forall2 P l l' -> In y l' -> exists x, In x l /\ P x y.
Proof. induction 1 as [|x z l l' H _ IH]; intros I; [destruct I|]. destruct I as [->|I]; [exists x; split; [left; reflexivity|exact H]|]. destruct (IH I) as (u & U & V). exists u. split; [right; exact U|exact V]. Qed.
Lemma parts_of_copy m h h' a b x : TxCopy m h h' a b -> Part h' b x -> part_of m h h' a x.
Proof.
  intros C P. induction P as [|m' t i E I|m' i c P IH E|m' t i E I|m' t E|m' w c i P IH E I|m' w c i P IH E I|m' i c b' P IH E B|m' i c b' P IH E B].
  - exact C.
  - destruct C as ([mc v] & [mc' v'] & N & N' & _ & _ & (V1 & V2 & V3 & V4 & V5 & _)). cbn [c_val] in *. assert (v' = t) by congruence. subst v'.
    destruct (f2_in _ _ _ _ V1 I) as (u & U & W). exists u. split; [eapply PIn; eassumption|exact W].
  - destruct IH as (u & U & ([mc v] & [mc' v'] & N & N' & _ & _ & (E1 & E2 & E3 & E4 & W))). cbn [c_val] in *. assert (v' = c) by congruence. subst v'.
    exists (io_prevout v). split; [eapply POp; eassumption|exact W].
  - destruct C as ([mc v] & [mc' v'] & N & N' & _ & _ & (V1 & V2 & V3 & V4 & V5 & _)). cbn [c_val] in *. assert (v' = t) by congruence. subst v'.
    destruct (f2_in _ _ _ _ V2 I) as (u & U & W). exists u. split; [eapply POut; eassumption|exact W].
  - destruct C as ([mc v] & [mc' v'] & N & N' & _ & _ & (V1 & V2 & V3 & V4 & V5 & _)). cbn [c_val] in *. assert (v' = t) by congruence. subst v'.
    exists (to_wit v). split; [eapply PWit; eassumption|exact V5].
  - destruct IH as (u & U & ([mc v] & [mc' v'] & N & N' & _ & _ & (V1 & V2 & _))). cbn [c_val] in *. assert (v' = c) by congruence. subst v'.
    destruct (f2_in _ _ _ _ V1 I) as (y & Y & W). exists y. split; [eapply PIw; eassumption|exact W].
  - destruct IH as (u & U & ([mc v] & [mc' v'] & N & N' & _ & _ & (V1 & V2 & _))). cbn [c_val] in *. assert (v' = c) by congruence. subst v'.
    destruct (f2_in _ _ _ _ V2 I) as (y & Y & W). exists y. split; [eapply POw; eassumption|exact W].
  - destruct IH as (u & U & ([mc v] & [mc' v'] & N & N' & _ & _ & V)). unfold SameVal in V. cbn [c_val] in *. assert (v' = c) by congruence. subst v' v.
    eapply PSurj; eassumption.
  - destruct IH as (u & U & ([mc v] & [mc' v'] & N & N' & _ & _ & V)). unfold SameVal in V. cbn [c_val] in *. assert (v' = c) by congruence. subst v' v.
    eapply PRange; eassumption.
Qed.
Lemma plain_copy m h h' a b : TxCopy m h h' a b -> Plain h a -> Plain h' b.
Proof. intros C P x X. exact (P x (parts_of_copy _ _ _ _ _ _ C X)). Qed.
Lemma copied_class {A} (store : heap -> list (cell A)) R m h h' a b : Copied store R m h h' a b -> cell_is (store h') m b.
Proof. intros (c & [m' v] & _ & N & M & _). cbn in M. subst m'. exists v. exact N. Qed.
Lemma copied_new {A} (store : heap -> list (cell A)) R h h' a b : Copied store R true h h' a b -> ~ (b < length (store h))%nat.
Proof. intros (c & c' & _ & _ & _ & G & _). specialize (G eq_refl). lia. Qed.
Lemma copy_parts_new h h' a b x : TxCopy true h h' a b -> Part h' b x -> is_array x \/ ~ exists_in h x.
Proof.
  intros C P. assert (Q := parts_of_copy _ _ _ _ _ _ C P). destruct x; cbn [part_of] in Q; try (destruct Q as (i & _ & Q)); [..|left; exact I]; right; exact (copied_new _ _ _ _ _ _ Q).
Qed.
Lemma copy_owns h h' a b : TxCopy true h h' a b -> Owns h' b.
Proof.
  intros C. assert (C0 := C). destruct C0 as ([mc v] & [mc' v'] & N & N' & M & _ & (V1 & V2 & V3 & V4 & V5 & V6)). cbn [c_val c_mut] in *. subst mc'.
  destruct V5 as ([mw w] & [mw' w'] & Nw & Nw' & Mw & _ & (W1 & W2 & W3)). cbn [c_val c_mut] in *. subst mw'.
  exists v', w'. split; [exact N'|]. split; [exact Nw'|]. destruct (V6 eq_refl) as [A1 A2]. destruct (W3 eq_refl) as [A3 A4]. repeat (split; [assumption|]).
  intros x P. assert (Q := parts_of_copy _ _ _ _ _ _ C P). destruct x; cbn [part_of] in Q; try (destruct Q as (i & _ & Q)); try (exact (copied_class _ _ _ _ _ _ _ Q)). reflexivity.
Qed.
