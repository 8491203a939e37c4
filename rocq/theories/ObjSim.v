(** blind() through references computes what BlindModel.v computes on values, when the objects are distinct. *)
From Verif Require Import Base BaseFacts TxModel BlindModel BlindFacts ObjModel SpecObj ObjFacts ObjBlind.
From Coq Require Import Lia.

Lemma rmap_nth {A B} (f : A -> res B) l vs n : rmap f l = Ok vs ->
  match nth_error l n with Some a => exists v, nth_error vs n = Some v /\ f a = Ok v | None => nth_error vs n = None end.
Proof.
  revert vs n. induction l as [|x l IH]; intros vs n E; cbn [rmap] in E.
  - injection E as <-. destruct n; reflexivity.
  - destruct (f x) as [y|] eqn:Ef; [|discriminate]. cbn [rbind] in E. destruct (rmap f l) as [ys|] eqn:Er; [|discriminate]. cbn [rbind] in E. injection E as <-.
    destruct n as [|n]; cbn [nth_error]; [exists y; auto|]. apply IH. reflexivity.
Qed.
Lemma rmap_len {A B} (f : A -> res B) l vs : rmap f l = Ok vs -> length vs = length l.
Proof.
  revert vs. induction l as [|x l IH]; intros vs E; cbn [rmap] in E; [injection E as <-; reflexivity|].
  destruct (f x) as [y|]; [|discriminate]. cbn [rbind] in E. destruct (rmap f l) as [ys|]; [|discriminate]. cbn [rbind] in E. injection E as <-. cbn. f_equal. apply IH. reflexivity.
Qed.
Lemma rmap_upd {A B} (f g : A -> res B) l vs n a v : rmap f l = Ok vs -> NoDup l -> nth_error l n = Some a -> (forall b, b <> a -> g b = f b) -> g a = Ok v ->
  rmap g l = Ok (upd vs n v).
Proof.
  revert vs n. induction l as [|x l IH]; intros vs n E N Hn G Ga; [destruct n; discriminate|]. cbn [rmap] in E |- *.
  destruct (f x) as [y|] eqn:Ef; [|discriminate]. cbn [rbind] in E. destruct (rmap f l) as [ys|] eqn:Er; [|discriminate]. cbn [rbind] in E. injection E as <-.
  inversion N as [|? ? Nx Nl]; subst. destruct n as [|n]; cbn [nth_error] in Hn.
  - injection Hn as ->. rewrite Ga. cbn [rbind]. rewrite (rmap_ext_in g f l), Er; [reflexivity|]. intros b Bi. apply G. intros ->. exact (Nx Bi).
  - rewrite G; [|intros ->; apply Nx; eapply nth_error_In; exact Hn]. rewrite Ef. cbn [rbind]. rewrite (IH ys n eq_refl Nl Hn G Ga). reflexivity.
Qed.
Lemma rmap_snoc {A B} (f : A -> res B) l l' vs vs' : rmap f l = Ok vs -> rmap f l' = Ok vs' -> rmap f (l ++ l') = Ok (vs ++ vs').
Proof.
  revert vs. induction l as [|x l IH]; intros vs E E'; cbn [rmap app] in *; [injection E as <-; exact E'|].
  destruct (f x) as [y|]; [|discriminate]. cbn [rbind] in *. destruct (rmap f l) as [ys|]; [|discriminate]. cbn [rbind] in E. injection E as <-. rewrite (IH ys eq_refl E'). reflexivity.
Qed.
Lemma rmap_const {A B} (f : A -> res B) l v : (forall x, In x l -> f x = Ok v) -> rmap f l = Ok (repeat v (length l)).
Proof.
  induction l as [|x l IH]; intros H; [reflexivity|]. cbn [rmap]. rewrite (H x (or_introl eq_refl)). cbn [rbind]. rewrite IH; [reflexivity|]. intros y Y. apply H. right. exact Y.
Qed.

Section Sim.
Variable me : nat.
Definition Inv (h : heap) : Prop := Fine h /\ Owns h me.
Lemma owns_step h h' : bstep me h h' -> Inv h -> (exists t w, nth_error (h_txs h') me = Some (mkCell true t) /\ nth_error (h_wits h') (to_wit t) = Some (mkCell true w)
  /\ NoDup (to_vin t) /\ NoDup (to_vout t) /\ NoDup (wo_in w) /\ NoDup (wo_out w)) -> Inv h'.
Proof.
  intros (G & _ & P) [F O] (t & w & E1 & E2 & N1 & N2 & N3 & N4). split; [apply G; exact F|]. exists t, w. repeat (split; [assumption|]). intros x X.
  destruct O as (_ & _ & _ & _ & _ & _ & _ & _ & C). destruct (P x X) as [Q|[_ Q]]; [|exact Q]. eapply class_evolves; [apply G|]. apply C. exact Q.
Qed.

Definition sim {A} (m : M A) (b : BM A) : Prop := forall h d t, Inv h -> view_tx h me = Ok t ->
  exists o t' d' h', m (mkSt t d) = (o, mkSt t' d') /\ b (mkBSt h d) = (o, mkBSt h' d') /\ Inv h' /\ view_tx h' me = Ok t'.
(** Code that leaves the transaction alone *)
Definition reads {A} (m : M A) : Prop := forall s, s_tx (snd (m s)) = s_tx s.
Lemma keeps_reads {A} (m : M A) : keeps m -> reads m. Proof. intros K s. rewrite (K s). reflexivity. Qed.
Lemma reads_bind {A B} (m : M A) (k : A -> M B) : reads m -> (forall a, reads (k a)) -> reads (mbind m k).
Proof. intros Hm Hk s. unfold mbind. specialize (Hm s). destruct (m s) as [[a|r|e] s1]; cbn [snd] in *; auto. rewrite Hk. exact Hm. Qed.
Lemma sim_reading {A} (m : M A) : reads m -> sim m (reading me m).
Proof.
  intros R h d t I V. specialize (R (mkSt t d)). unfold reading. cbn [b_heap b_draws]. rewrite V. destruct (m (mkSt t d)) as [o [t' d']]. cbn [snd s_tx s_draws] in *. subst t'.
  exists o, t, d', h. auto.
Qed.
Lemma sim_ret {A} (a : A) : sim (mret a) (bret a).
Proof. intros h d t I V. exists (Val a), t, d, h. auto. Qed.
Lemma sim_bind {A B} (m : M A) (k : A -> M B) b c : sim m b -> (forall a, sim (k a) (c a)) -> sim (mbind m k) (bbind b c).
Proof.
  intros Hm Hk h d t I V. destruct (Hm h d t I V) as (o & t1 & d1 & h1 & E1 & E2 & I1 & V1). unfold mbind, bbind. rewrite E1, E2. destruct o as [a|r|e].
  - exact (Hk a h1 d1 t1 I1 V1).
  - exists (Ret r), t1, d1, h1. auto.
  - exists (Exc e), t1, d1, h1. auto.
Qed.
Lemma sim_for {A L} (l : list A) (f : A -> L -> M L) g : (forall x st, sim (f x st) (g x st)) -> forall st, sim (for_in l f st) (bfor l g st).
Proof. intros H. induction l as [|x l IH]; intros st; cbn [for_in bfor]; [apply sim_ret|]. apply sim_bind; auto. Qed.

(** The pieces of a view *)
Lemma view_inv h t : view_tx h me = Ok t -> exists m c mw w, nth_error (h_txs h) me = Some (mkCell m c) /\ nth_error (h_wits h) (to_wit c) = Some (mkCell mw w)
  /\ rmap (view_in h) (to_vin c) = Ok (vin t) /\ rmap (view_out h) (to_vout c) = Ok (vout t) /\ rmap (view_iw h) (wo_in w) = Ok (vtxinwit (wit t))
  /\ rmap (view_ow h) (wo_out w) = Ok (vtxoutwit (wit t)) /\ to_lock c = nLockTime t /\ to_ver c = nVersion t.
Proof.
  unfold view_tx. destruct (deref (h_txs h) me) as [[m c]|] eqn:Et; [|discriminate]. cbn [rbind c_val]. apply deref_ok in Et.
  destruct (rmap (view_in h) (to_vin c)) as [i|] eqn:Ei; [|discriminate]. cbn [rbind]. destruct (rmap (view_out h) (to_vout c)) as [o|] eqn:Eo; [|discriminate]. cbn [rbind].
  unfold view_wit. destruct (deref (h_wits h) (to_wit c)) as [[mw w]|] eqn:Ew; [|discriminate]. cbn [rbind c_val]. apply deref_ok in Ew.
  destruct (rmap (view_iw h) (wo_in w)) as [iw|] eqn:Eiw; [|discriminate]. cbn [rbind]. destruct (rmap (view_ow h) (wo_out w)) as [ow|] eqn:Eow; [|discriminate]. cbn [rbind].
  intros E. injection E as <-. exists m, c, mw, w. cbn. auto 10.
Qed.
Lemma view_intro h t m c mw w : nth_error (h_txs h) me = Some (mkCell m c) -> nth_error (h_wits h) (to_wit c) = Some (mkCell mw w) ->
  rmap (view_in h) (to_vin c) = Ok (vin t) -> rmap (view_out h) (to_vout c) = Ok (vout t) -> rmap (view_iw h) (wo_in w) = Ok (vtxinwit (wit t)) ->
  rmap (view_ow h) (wo_out w) = Ok (vtxoutwit (wit t)) -> to_lock c = nLockTime t -> to_ver c = nVersion t -> view_tx h me = Ok t.
Proof.
  intros E1 E2 E3 E4 E5 E6 E7 E8. unfold view_tx. rewrite (proj2 (deref_ok _ _ _) E1). cbn [rbind c_val]. rewrite E3, E4. cbn [rbind]. unfold view_wit. rewrite (proj2 (deref_ok _ _ _) E2). cbn [rbind c_val].
  rewrite E5, E6. cbn [rbind]. rewrite E7, E8. destruct t as [a b c0 d [e f]]. reflexivity.
Qed.
Lemma owns_at h t w m mw : Owns h me -> nth_error (h_txs h) me = Some (mkCell m t) -> nth_error (h_wits h) (to_wit t) = Some (mkCell mw w) ->
  m = true /\ mw = true /\ NoDup (to_vin t) /\ NoDup (to_vout t) /\ NoDup (wo_in w) /\ NoDup (wo_out w).
Proof. intros (t' & w' & E1 & E2 & N1 & N2 & N3 & N4 & _) T W. assert (H : mkCell m t = mkCell true t') by congruence. injection H as -> ->. assert (H : mkCell mw w = mkCell true w') by congruence. injection H as -> ->. auto 10. Qed.
Lemma owns_class h x : Owns h me -> Part h me x -> of_class h true x.
Proof. intros (_ & _ & _ & _ & _ & _ & _ & _ & C). apply C. Qed.

Lemma my_tx_ok h m c : nth_error (h_txs h) me = Some (mkCell m c) -> my_tx me h = Ok c.
Proof. intros E. unfold my_tx. rewrite (proj2 (deref_ok _ _ _) E). reflexivity. Qed.
Lemma my_wit_ok h m c mw w : nth_error (h_txs h) me = Some (mkCell m c) -> nth_error (h_wits h) (to_wit c) = Some (mkCell mw w) -> my_wit me h = Ok w.
Proof. intros E E'. unfold my_wit. rewrite (my_tx_ok _ _ _ E). cbn [rbind]. rewrite (proj2 (deref_ok _ _ _) E'). reflexivity. Qed.

Lemma sim_vout n f : sim (mod_vout n f) (assign_vout me n f).
Proof.
  intros h d t I V. destruct (view_inv _ _ V) as (m & c & mw & w & Et & Ew & Vi & Vo & Viw & Vow & Vl & Vv).
  assert (N := rmap_nth _ _ _ n Vo). assert (S := safe_vout me n f (mkBSt h d)). unfold mod_vout, mbind, get_tx, lift, nth_res. cbn [s_tx s_draws].
  unfold assign_vout, bupd in *. cbn [b_heap b_draws] in *. rewrite (my_tx_ok _ _ _ Et) in *. cbn [rbind] in *. unfold index, nth_res in *.
  destruct (nth_error (to_vout c) n) as [a|] eqn:En.
  - destruct N as (o & No & Va). rewrite No. cbn [rbind] in *. unfold put_tx, mret. cbn [s_draws]. unfold view_out in Va. destruct (deref (h_outs h) a) as [[mo v]|] eqn:Ed; [|discriminate]. cbn [rbind c_val] in *.
    injection Va as ->. apply deref_ok in Ed. assert (P : Part h me (ROut a)) by (eapply POut; [exact Et|eapply nth_error_In; exact En]).
    destruct (owns_class _ _ (proj2 I) P) as [v E]. assert (H : mkCell mo o = mkCell true v) by congruence. injection H as -> <-.
    rewrite (cset_ok _ _ (f o) _ E) in *. cbn [rbind snd b_heap] in *. destruct (owns_at _ _ _ _ _ (proj2 I) Et Ew) as (-> & -> & N1 & N2 & N3 & N4).
    eexists _, _, _, _. split; [reflexivity|]. split; [reflexivity|]. split; [eapply owns_step; [exact S|exact I|]; exists c, w; cbn; auto 10|].
    eapply (view_intro _ _ true c true w); cbn [set_vout vin vout wit nLockTime nVersion]; try assumption.
    eapply rmap_upd; [exact Vo|exact N2|exact En| |].
    + intros b B. unfold view_out. cbn [h_outs set_outs]. rewrite (deref_eq (h_outs h) (upd (h_outs h) a (mkCell true (f o))) b); [reflexivity|]. apply upd_other. congruence.
    + unfold view_out. cbn [h_outs set_outs]. unfold deref. rewrite upd_same; [reflexivity|]. apply nth_error_Some. congruence.
  - rewrite N. cbn [rbind] in *. exists (Exc EIndex), t, d, h. auto.
Qed.
Lemma sim_issuance n iss : sim (mod_vin n (fun i => set_issuance i iss)) (assign_issuance me n iss).
Proof.
  intros h d t I V. destruct (view_inv _ _ V) as (m & c & mw & w & Et & Ew & Vi & Vo & Viw & Vow & Vl & Vv).
  assert (N := rmap_nth _ _ _ n Vi). assert (S := safe_issuance me n iss (mkBSt h d)). unfold mod_vin, mbind, get_tx, lift, nth_res. cbn [s_tx s_draws].
  unfold assign_issuance, bupd in *. cbn [b_heap b_draws] in *. rewrite (my_tx_ok _ _ _ Et) in *. cbn [rbind] in *. unfold index, nth_res in *.
  destruct (nth_error (to_vin c) n) as [a|] eqn:En.
  - destruct N as (o & No & Va). rewrite No. cbn [rbind] in *. unfold put_tx, mret. cbn [s_draws]. unfold view_in in Va. destruct (deref (h_ins h) a) as [[mo v]|] eqn:Ed; [|discriminate]. cbn [rbind c_val] in *.
    destruct (deref (h_ops h) (io_prevout v)) as [p|] eqn:Ep; [|discriminate]. cbn [rbind] in Va. injection Va as <-. apply deref_ok in Ed.
    assert (P : Part h me (RIn a)) by (eapply PIn; [exact Et|eapply nth_error_In; exact En]).
    destruct (owns_class _ _ (proj2 I) P) as [v' E]. assert (H : mkCell mo v = mkCell true v') by congruence. injection H as -> <-.
    match type of S with context[cset ?s ?b ?v] => rewrite (cset_ok s b v _ E) in * end. cbn [rbind snd b_heap] in *. destruct (owns_at _ _ _ _ _ (proj2 I) Et Ew) as (-> & -> & N1 & N2 & N3 & N4).
    eexists _, _, _, _. split; [reflexivity|]. split; [reflexivity|]. split; [eapply owns_step; [exact S|exact I|]; exists c, w; cbn; auto 10|].
    eapply (view_intro _ _ true c true w); cbn [set_vin vin vout wit nLockTime nVersion]; try assumption.
    eapply rmap_upd; [exact Vi|exact N1|exact En| |].
    + intros b B. unfold view_in. cbn [h_ins h_ops set_ins]. match goal with |- context[deref (upd ?l ?i ?x) b] => rewrite (deref_eq l (upd l i x) b); [reflexivity|]; apply upd_other; congruence end.
    + unfold view_in. cbn [h_ins h_ops set_ins]. unfold deref at 1. rewrite upd_same; [|apply nth_error_Some; congruence]. cbn [rbind c_val io_prevout io_script io_seq io_iss io_pegin]. rewrite Ep. reflexivity.
  - rewrite N. cbn [rbind] in *. exists (Exc EIndex), t, d, h. auto.
Qed.
Lemma sim_inwit n f : sim (mod_inwit n f) (assign_inwit me n f).
Proof.
  intros h d t I V. destruct (view_inv _ _ V) as (m & c & mw & w & Et & Ew & Vi & Vo & Viw & Vow & Vl & Vv).
  assert (N := rmap_nth _ _ _ n Viw). assert (S := safe_inwit me n f (mkBSt h d)). unfold mod_inwit, mbind, get_tx, lift, nth_res. cbn [s_tx s_draws].
  unfold assign_inwit, bupd in *. cbn [b_heap b_draws] in *. rewrite (my_wit_ok _ _ _ _ _ Et Ew) in *. cbn [rbind] in *. unfold index, nth_res in *.
  destruct (nth_error (wo_in w) n) as [a|] eqn:En.
  - destruct N as (o & No & Va). rewrite No. cbn [rbind] in *. unfold put_tx, mret. cbn [s_draws]. unfold view_iw in Va. destruct (deref (h_iws h) a) as [[mo v]|] eqn:Ed; [|discriminate]. cbn [rbind c_val] in *.
    injection Va as ->. apply deref_ok in Ed. assert (P : Part h me (RIw a)) by (eapply PIw; [eapply PWit; exact Et|exact Ew|eapply nth_error_In; exact En]).
    destruct (owns_class _ _ (proj2 I) P) as [v E]. assert (H : mkCell mo o = mkCell true v) by congruence. injection H as -> <-.
    rewrite (cset_ok _ _ (f o) _ E) in *. cbn [rbind snd b_heap] in *. destruct (owns_at _ _ _ _ _ (proj2 I) Et Ew) as (-> & -> & N1 & N2 & N3 & N4).
    eexists _, _, _, _. split; [reflexivity|]. split; [reflexivity|]. split; [eapply owns_step; [exact S|exact I|]; exists c, w; cbn; auto 10|].
    eapply (view_intro _ _ true c true w); cbn [set_inwits vin vout wit nLockTime nVersion vtxinwit vtxoutwit]; try assumption.
    eapply rmap_upd; [exact Viw|exact N3|exact En| |].
    + intros b B. unfold view_iw. cbn [h_iws set_iws]. rewrite (deref_eq (h_iws h) (upd (h_iws h) a (mkCell true (f o))) b); [reflexivity|]. apply upd_other. congruence.
    + unfold view_iw. cbn [h_iws set_iws]. unfold deref. rewrite upd_same; [reflexivity|]. apply nth_error_Some. congruence.
  - rewrite N. cbn [rbind] in *. exists (Exc EIndex), t, d, h. auto.
Qed.
Lemma sim_outwit n s r : sim (mod_outwit n (fun _ => mkOutWit s r)) (assign_outwit me n s r).
Proof.
  intros h d t I V. destruct (view_inv _ _ V) as (m & c & mw & w & Et & Ew & Vi & Vo & Viw & Vow & Vl & Vv).
  assert (N := rmap_nth _ _ _ n Vow). assert (S := safe_outwit me n s r (mkBSt h d)). unfold mod_outwit, mbind, get_tx, lift, nth_res. cbn [s_tx s_draws].
  unfold assign_outwit, bupd in *. cbn [b_heap b_draws] in *. rewrite (my_wit_ok _ _ _ _ _ Et Ew) in *. cbn [rbind] in *. unfold index, nth_res in *.
  destruct (nth_error (wo_out w) n) as [a|] eqn:En.
  - destruct N as (o & No & Va). rewrite No. cbn [rbind] in *. unfold put_tx, mret. cbn [s_draws].
    assert (P : Part h me (ROw a)) by (eapply POw; [eapply PWit; exact Et|exact Ew|eapply nth_error_In; exact En]).
    destruct (owns_class _ _ (proj2 I) P) as [v E]. cbn in E.
    match type of S with context[cset ?s ?b ?v] => rewrite (cset_ok s b v _ E) in * end. cbn [rbind snd b_heap] in *. destruct (owns_at _ _ _ _ _ (proj2 I) Et Ew) as (-> & -> & N1 & N2 & N3 & N4).
    eexists _, _, _, _. split; [reflexivity|]. split; [reflexivity|]. split; [eapply owns_step; [exact S|exact I|]; exists c, w; cbn; auto 10|].
    eapply (view_intro _ _ true c true w); cbn [set_outwits vin vout wit nLockTime nVersion vtxinwit vtxoutwit]; try assumption.
    eapply rmap_upd; [exact Vow|exact N4|exact En| |].
    + intros b B. unfold view_ow. cbn [h_ows set_ows]. match goal with |- context[deref (upd ?l ?i ?x) b] => rewrite (deref_eq l (upd l i x) b); [reflexivity|]; apply upd_other; congruence end.
    + unfold view_ow. cbn [h_ows set_ows]. unfold deref. rewrite upd_same; [reflexivity|]. apply nth_error_Some. congruence.
  - rewrite N. cbn [rbind] in *. exists (Exc EIndex), t, d, h. auto.
Qed.

(** Padding *)
Definition val_pad_in (n : nat) : M unit := mbind get_tx (fun t => put_tx (set_inwits t (pad_to n inwit_null (vtxinwit (wit t))))).
Definition val_pad_out (n : nat) : M unit := mbind get_tx (fun t => put_tx (set_outwits t (pad_to n outwit_null (vtxoutwit (wit t))))).
Lemma nodup_app_seq l n k : NoDup l -> (forall x, In x l -> (x < n)%nat) -> NoDup (l ++ seq n k).
Proof.
  intros N H. induction N as [|x l Nx N IH]; cbn [app]; [apply seq_NoDup|]. constructor.
  - intros I. apply in_app_or in I. destruct I as [I|I]; [exact (Nx I)|]. apply in_seq in I. specialize (H x (or_introl eq_refl)). lia.
  - apply IH. intros y Y. apply H. right. exact Y.
Qed.
Lemma sim_pad_in n : sim (val_pad_in n) (pad_inwits me n).
Proof.
  intros h d t I V. destruct (view_inv _ _ V) as (m & c & mw & w & Et & Ew & Vi & Vo & Viw & Vow & Vl & Vv).
  assert (S := safe_pad_in me n (mkBSt h d)). unfold val_pad_in, mbind, get_tx, put_tx. cbn [s_tx s_draws].
  unfold pad_inwits, bupd in *. cbn [b_heap b_draws] in *. rewrite (my_tx_ok _ _ _ Et) in *. cbn [rbind] in *. rewrite (proj2 (deref_ok _ _ _) Ew) in *. cbn [rbind c_val] in *. cbv zeta in *.
  destruct (owns_at _ _ _ _ _ (proj2 I) Et Ew) as (-> & -> & N1 & N2 & N3 & N4). assert (L := rmap_len _ _ _ Viw). unfold pad_to. rewrite L.
  destruct ((n - length (wo_in w) =? 0)%nat) eqn:K.
  - apply Nat.eqb_eq in K. rewrite K. cbn [repeat]. rewrite app_nil_r. exists (Val tt), t, d, h. split; [|auto]. destruct t as [a b e f [g k]]. reflexivity.
  - clear K. set (k := (n - length (wo_in w))%nat) in *. match type of S with context[cset ?s ?b ?v] => rewrite (cset_ok s b v _ Ew) in * end. cbn [rbind snd b_heap] in *.
    eexists _, _, _, _. split; [reflexivity|]. split; [reflexivity|].
    assert (U : forall v, nth_error (upd (h_wits h) (to_wit c) v) (to_wit c) = Some v) by (intros v; apply upd_same; apply nth_error_Some; congruence).
    assert (B : forall x, In x (wo_in w) -> (x < length (h_iws h))%nat).
    { intros x X. destruct (wits_fine _ _ _ _ (proj1 I) Ew) as [Q _]. exact (points_in _ _ _ (forall_in _ _ _ Q X)). }
    split.
    + eapply owns_step; [exact S|exact I|]. eexists c, _. cbn [h_txs h_wits set_wits set_iws]. split; [exact Et|]. split; [apply U|]. cbn [wo_in wo_out]. split; [exact N1|]. split; [exact N2|]. split; [|exact N4].
      apply nodup_app_seq; assumption.
    + eapply (view_intro _ _ true c true (mkWitObj (wo_in w ++ seq (length (h_iws h)) k) (wo_out w))); cbn [set_inwits vin vout wit nLockTime nVersion vtxinwit vtxoutwit h_txs h_wits set_wits set_iws wo_in wo_out]; try assumption; [apply U|].
      apply rmap_snoc.
      * rewrite <- Viw. apply rmap_ext_in. intros x X. unfold view_iw. cbn [h_iws set_wits set_iws]. rewrite (deref_eq (h_iws h)); [reflexivity|]. apply nth_error_app1. exact (B x X).
      * rewrite (rmap_const _ _ inwit_null); [rewrite seq_length; reflexivity|]. intros x X. unfold view_iw. cbn [h_iws set_wits set_iws]. rewrite (proj2 (deref_ok _ _ _) (repeat_at _ _ _ _ X)). reflexivity.
Qed.
Lemma sim_pad_out n : sim (val_pad_out n) (pad_outwits me n).
Proof.
  intros h d t I V. destruct (view_inv _ _ V) as (m & c & mw & w & Et & Ew & Vi & Vo & Viw & Vow & Vl & Vv).
  assert (S := safe_pad_out me n (mkBSt h d)). unfold val_pad_out, mbind, get_tx, put_tx. cbn [s_tx s_draws].
  unfold pad_outwits, bupd in *. cbn [b_heap b_draws] in *. rewrite (my_tx_ok _ _ _ Et) in *. cbn [rbind] in *. rewrite (proj2 (deref_ok _ _ _) Ew) in *. cbn [rbind c_val] in *. cbv zeta in *.
  destruct (owns_at _ _ _ _ _ (proj2 I) Et Ew) as (-> & -> & N1 & N2 & N3 & N4). assert (L := rmap_len _ _ _ Vow). unfold pad_to. rewrite L.
  destruct ((n - length (wo_out w) =? 0)%nat) eqn:K.
  - apply Nat.eqb_eq in K. rewrite K. cbn [repeat]. rewrite app_nil_r. exists (Val tt), t, d, h. split; [|auto]. destruct t as [a b e f [g k]]. reflexivity.
  - clear K. set (k := (n - length (wo_out w))%nat) in *. match type of S with context[cset ?s ?b ?v] => rewrite (cset_ok s b v _ Ew) in * end. cbn [rbind snd b_heap] in *.
    eexists _, _, _, _. split; [reflexivity|]. split; [reflexivity|].
    assert (U : forall v, nth_error (upd (h_wits h) (to_wit c) v) (to_wit c) = Some v) by (intros v; apply upd_same; apply nth_error_Some; congruence).
    assert (B : forall x, In x (wo_out w) -> (x < length (h_ows h))%nat).
    { intros x X. destruct (wits_fine _ _ _ _ (proj1 I) Ew) as [_ Q]. exact (points_in _ _ _ (forall_in _ _ _ Q X)). }
    split.
    + eapply owns_step; [exact S|exact I|]. eexists c, _. cbn [h_txs h_wits set_wits set_ows]. split; [exact Et|]. split; [apply U|]. cbn [wo_in wo_out]. split; [exact N1|]. split; [exact N2|]. split; [exact N3|].
      apply nodup_app_seq; assumption.
    + eapply (view_intro _ _ true c true (mkWitObj (wo_in w) (wo_out w ++ seq (length (h_ows h)) k))); cbn [set_outwits vin vout wit nLockTime nVersion vtxinwit vtxoutwit h_txs h_wits set_wits set_ows wo_in wo_out]; try assumption; [apply U|].
      apply rmap_snoc.
      * rewrite <- Vow. apply rmap_ext_in. intros x X. unfold view_ow. cbn [h_ows set_wits set_ows]. rewrite (deref_eq (h_ows h)); [reflexivity|]. apply nth_error_app1. exact (B x X).
      * rewrite (rmap_const _ _ outwit_null); [rewrite seq_length; reflexivity|]. intros x X. unfold view_ow. cbn [h_ows set_wits set_ows]. rewrite (proj2 (deref_ok _ _ _) (repeat_at _ _ _ _ X)). reflexivity.
Qed.

Variable z : Crypto.
Variable rand : nat -> bytes.
Variable args : blind_args.
Lemma reads_draw : reads (draw_uint256 rand).
Proof. intros s. unfold draw_uint256, mbind, draw. cbn [s_tx s_draws]. unfold lift. destruct (uint256_new (rand (s_draws s))); reflexivity. Qed.
Lemma reads_draw1 : reads (draw rand). Proof. intros s. reflexivity. Qed.
Ltac reads := repeat first
  [ apply reads_draw | apply reads_draw1 | apply keeps_reads; solve [keeps; auto using keeps_blinded_asset, keeps_cvc, keeps_rangeproof, keeps_balance, keeps_check, keeps_targets]
  | apply reads_bind; [|intros ?]
  | match goal with |- reads (match ?x with _ => _ end) => destruct x end
  | match goal with |- reads (let '_ := ?x in _) => destruct x end ].
Lemma reads_nonce p : reads (generate_output_rangeproof_nonce z rand p).
Proof. unfold generate_output_rangeproof_nonce. cbv zeta. reads. Qed.
Lemma reads_surj a b c d e f : reads (generate_surjectionproof z rand a b c d e f).
Proof. unfold generate_surjectionproof. cbv zeta. reads. Qed.
Lemma sim_assoc {A B C} (m : M A) (k : A -> M B) (l : B -> M C) b : sim (mbind (mbind m k) l) b -> sim (mbind m (fun a => mbind (k a) l)) b.
Proof. intros H h d t I V. destruct (H h d t I V) as (o & t' & d' & h' & E & R). exists o, t', d', h'. split; [|exact R]. rewrite <- E. unfold mbind. destruct (m (mkSt t d)) as [[a|r|e] s]; reflexivity. Qed.
Ltac sims := repeat first
  [ apply sim_vout | apply sim_issuance | apply sim_inwit | apply sim_outwit | apply sim_ret
  | apply sim_bind; [|intros ?]
  | apply sim_reading; first [apply reads_nonce|apply reads_surj|reads]
  | match goal with |- sim (match ?x with _ => _ end) (match ?x with _ => _ end) => destruct x end ].
Lemma sim_pseudo n p L : sim (blind_pseudo z rand args n p L) (blind_pseudo_obj me z rand args n p L).
Proof.
  unfold blind_pseudo, blind_pseudo_obj. destruct (key_at _ n) as [key|]; [|apply sim_ret]. cbv zeta.
  apply sim_bind; [apply sim_reading; reads|intros t]. apply sim_bind; [apply sim_reading; reads|intros inp]. destruct (conf_is_null _); [apply sim_ret|].
  apply sim_bind; [apply sim_reading; reads|intros amount]. apply sim_bind; [apply sim_reading; reads|intros ao]. destruct ao as [asset|]; [|apply sim_ret].
  apply sim_bind; [apply sim_reading; reads|intros b]. destruct (_ =? _)%nat; [apply sim_reading; reads|].
  apply sim_assoc. apply sim_bind; [apply (sim_pad_in (S n))|intros ?].
  sims.
Qed.
Lemma sim_input n L : sim (blind_input z rand args n L) (blind_input_obj me z rand args n L).
Proof. unfold blind_input, blind_input_obj. apply sim_bind; [apply sim_pseudo|intros; apply sim_pseudo]. Qed.
Lemma sim_finish a b c n p q am L : sim (finish_output z rand args a b c n p q am L) (finish_output_obj me z rand args a b c n p q am L).
Proof. unfold finish_output, finish_output_obj. cbv zeta. sims. Qed.
Lemma sim_output a b c np L : sim (blind_output z rand args a b c np L) (blind_output_obj me z rand args a b c np L).
Proof. unfold blind_output, blind_output_obj. destruct np. cbv zeta. sims; try apply sim_finish. Qed.
Lemma sim_body : sim (blind_body z rand args) (blind_body_obj me z rand args).
Proof.
  unfold blind_body, blind_body_obj. cbv zeta. apply sim_bind; [apply sim_reading, keeps_reads, keeps_check|intros ?]. apply sim_bind; [apply sim_reading, keeps_reads, keeps_targets|intros [[tags gens] bl]].
  apply sim_bind; [apply sim_reading; reads|intros t]. apply sim_bind; [apply sim_reading; apply keeps_reads, keeps_for; intros; apply keeps_count_input|intros L1].
  apply sim_bind; [apply sim_reading; apply keeps_reads, keeps_for; intros; apply keeps_count_output|intros L2].
  apply sim_bind; [apply sim_for; intros; apply sim_input|intros L3].
  intros h d t1 I V. destruct (view_inv _ _ V) as (m & c & mw & w & Et & Ew & Vi & Vo & Viw & Vow & Vl & Vv).
  (* get_tx; pad to its number of outputs *)
  assert (S : sim (mbind (val_pad_out (length (vout t1))) (fun _ => mbind (for_in (combine (seq 0 (length (a_pubkeys args))) (a_pubkeys args)) (blind_output z rand args tags gens bl) L3) (fun L => mret (blinding_result args L))))
                  (bbind (pad_outwits me (length (vout t1))) (fun _ => bbind (bfor (combine (seq 0 (length (a_pubkeys args))) (a_pubkeys args)) (blind_output_obj me z rand args tags gens bl) L3) (fun L => bret (blinding_result args L))))).
  { apply sim_bind; [apply sim_pad_out|intros ?]. apply sim_bind; [apply sim_for; intros; apply sim_output|intros; apply sim_ret]. }
  destruct (S h d t1 I V) as (o & t' & d' & h' & E1 & E2 & R). exists o, t', d', h'. split; [|split; [|exact R]].
  - rewrite <- E1. reflexivity.
  - rewrite <- E2. unfold bbind at 1. unfold reading. cbn [b_heap b_draws]. rewrite V. reflexivity.
Qed.
Lemma blind_refines h t : Inv h -> view_tx h me = Ok t ->
  exists h' o s, blind_obj me z rand args h 0 = (o, mkBSt h' (s_draws s)) /\ blind_transaction z rand args t = (o, s) /\ Inv h' /\ view_tx h' me = Ok (s_tx s).
Proof.
  intros I V. destruct (sim_body h 0%nat t I V) as (o & t' & d' & h' & E1 & E2 & I' & V'). destruct (proj2 I) as (to & w & Et & _).
  unfold blind_obj, blind_transaction. rewrite (proj2 (deref_ok _ _ _) Et). cbn [c_mut negb]. rewrite E1, E2.
  destruct o as [r|r|e]; eexists h', _, (mkSt t' d'); (split; [reflexivity|]; split; [reflexivity|]; split; [exact I'|exact V']).
Qed.
End Sim.
