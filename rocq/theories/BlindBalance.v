(** Balance of the blinding factors and of the commitments after blind(). *)
From Verif Require Import Base BaseFacts TxModel TxProofs BlindModel BlindFacts SpecBlind BlindMain BlindComplete SpecBalance.
From Coq Require Import Lia Setoid Morphisms.
Local Open Scope Z_scope.

Lemma zsum_app l l' : zsum (l ++ l') = zsum l + zsum l'.
Proof. induction l as [|x l IH]; cbn [app zsum fold_right]; [reflexivity|]. fold (zsum (l ++ l')). fold (zsum l). lia. Qed.
Lemma nth_bytes (l : list bytes) i x : nth_error l i = Some x -> nth i l [] = x.
Proof. apply nth_error_nth. Qed.
Lemma zsum_cons x l : zsum (x :: l) = x + zsum l. Proof. reflexivity. Qed.
Lemma facs_app v1 : forall a1 b1 v2 a2 b2, length a1 = length v1 -> length b1 = length v1 ->
  facs (v1 ++ v2) (a1 ++ a2) (b1 ++ b2) = facs v1 a1 b1 + facs v2 a2 b2.
Proof.
  induction v1 as [|v v1 IH]; intros [|a a1] [|b b1] v2 a2 b2 H1 H2; try discriminate; [reflexivity|].
  cbn [app facs]. rewrite IH by (cbn in *; lia). lia.
Qed.
Lemma facs_map {A} (l : list A) (f : A -> Z) (g h : A -> bytes) :
  facs (map f l) (map g l) (map h l) = zsum (map (fun x => f x * be_val (g x) + be_val (h x)) l).
Proof. induction l as [|x l IH]; [reflexivity|]. cbn [map facs]. rewrite zsum_cons, IH. reflexivity. Qed.
Lemma be_zeros : be_val (zeros 32) = 0.
Proof. reflexivity. Qed.
Lemma facs_iss (f : nat * bool -> Z) (rand : nat -> bytes) : forall l s,
  facs (map f l) (repeat (zeros 32) (length l)) (map rand (seq s (length l))) = zsum (map (fun k => be_val (rand k)) (seq s (length l))).
Proof. induction l as [|x l IH]; intros s; [reflexivity|]. cbn [map length repeat seq facs]. rewrite be_zeros, IH, zsum_cons. lia. Qed.

Section B.
Variables (z : Crypto) (rand : nat -> bytes) (args : blind_args) (t : tx) (order : Z).

Theorem complete_balances targets t' bfs abfs : BlindSumLaw z order -> Complete z rand args t targets t' bfs abfs ->
  output_tasks args <> [] -> FactorsBalance order rand args t bfs abfs.
Proof.
  intros LAW (AB & _ & FS) NE.
  destruct (exists_last NE) as (pre & j & HP). destruct (FS pre j HP) as (bf & Hbf & _ & SUM).
  assert (Hj : nth_error (output_tasks args) (length pre) = Some j) by (rewrite HP, nth_error_app2, Nat.sub_diag by lia; reflexivity).
  destruct (ab_out _ _ _ _ _ _ _ _ _ AB _ _ Hj) as (bf1 & abf & o & o' & E1 & E2 & _ & _ & E3 & _).
  rewrite Hbf in E1. injection E1 as <-.
  unfold FinalSum in SUM. rewrite <- E3 in SUM.
  set (ins := blinded_inputs args) in *. set (tasks := issuance_tasks args t) in *.
  rewrite map_app in SUM. cbn [map] in SUM.
  rewrite (app_assoc (map (fun d => d_amount d mod 2 ^ 64) ins)), (app_assoc (map d_abf ins)), (app_assoc (map d_bf ins)) in SUM.
  assert (L1 : length (map (fun d => d_amount d mod 2 ^ 64) ins ++ map (issued_amount t) tasks) = (length ins + length tasks)%nat) by (rewrite app_length, !map_length; reflexivity).
  assert (L2 : length (map d_abf ins ++ repeat (zeros 32) (length tasks)) = (length ins + length tasks)%nat) by (rewrite app_length, map_length, repeat_length; reflexivity).
  assert (L3 : length (map d_bf ins ++ map rand (seq 0 (length tasks))) = (length ins + length tasks)%nat) by (rewrite app_length, !map_length, seq_length; reflexivity).
  pose proof (LAW _ _ _ (map (out_amount t) pre) (map (fun i => nth i abfs []) pre) (map (fun i => nth i bfs []) pre) (out_amount t j) abf (rand (length tasks + 4 * length pre)) bf
     (eq_trans L2 (eq_sym L1)) (eq_trans L3 (eq_sym L1))) as LW.
  rewrite !map_length, L1 in LW. specialize (LW eq_refl eq_refl SUM).
  unfold FactorsBalance. fold ins tasks. rewrite HP, map_app, zsum_app. cbn [map]. rewrite zsum_cons. change (zsum []) with 0. rewrite Z.add_0_r.
  rewrite (nth_bytes _ _ _ Hbf), (nth_bytes _ _ _ E2).
  rewrite facs_app in LW by (rewrite !map_length; reflexivity). rewrite !facs_map, facs_iss in LW. exact LW.
Qed.
End B.

(** * Points *)
Section P.
Context {z : Crypto} {order : Z} {G : PointGroup order} (M : Meaning z G).
Notation "p == q" := (peq G p q) (at level 70).
Notation "p ++p q" := (padd G p q) (at level 50, left associativity).
Notation "k ** p" := (pmul G k p) (at level 40).
Local Instance peq_equiv : Equivalence (peq G).
Proof. split; [exact (peq_refl _ G)|exact (peq_sym _ G)|exact (peq_trans _ G)]. Qed.
Local Instance padd_proper : Proper (peq G ==> peq G ==> peq G) (padd G).
Proof. intros p p' Hp q q' Hq. apply padd_eq; assumption. Qed.
Local Instance pmul_proper k : Proper (peq G ==> peq G) (pmul G k).
Proof. intros p p' Hp. apply pmul_eq; assumption. Qed.

Lemma padd_zero_r p : p ++p pzero G == p.
Proof. rewrite padd_comm. apply padd_zero. Qed.
Lemma pmul_0 p : 0 ** p == pzero G.
Proof.
  rewrite <- (padd_zero _ G (0 ** p)). rewrite <- (pmul_order _ G p) at 1. rewrite <- pmul_add, Z.add_0_r. apply pmul_order.
Qed.
Lemma pmul_mod k k' p : k mod order = k' mod order -> k ** p == k' ** p.
Proof.
  intros H. assert (Q : forall x, x ** p == (x mod order) ** p).
  { intros x. destruct (Z.eq_dec order 0) as [E0|N]; [replace (x mod order) with x by (rewrite E0; symmetry; apply Zmod_0_r); reflexivity|].
    rewrite (Z.div_mod x order N) at 1. rewrite pmul_add, (Z.mul_comm order), pmul_mul, pmul_order.
    assert (ZZ : (x / order) ** pzero G == pzero G).
    { rewrite <- (pmul_0 p) at 1. rewrite <- pmul_mul, Z.mul_0_r. apply pmul_0. }
    rewrite ZZ. apply padd_zero. }
  rewrite (Q k), (Q k'), H. reflexivity.
Qed.
Lemma padd_swap a b c d : (a ++p b) ++p (c ++p d) == (a ++p c) ++p (b ++p d).
Proof. rewrite !padd_assoc. apply padd_eq; [|reflexivity]. rewrite <- !padd_assoc. apply padd_eq; [reflexivity|]. apply padd_comm. Qed.
Notation psum := (@psum order G).
Lemma psum_cons p l : psum (p :: l) = p ++p psum l. Proof. reflexivity. Qed.
Lemma psum_app l l' : psum (l ++ l') == psum l ++p psum l'.
Proof. induction l as [|p l IH]; cbn [app]; rewrite ?psum_cons; [symmetry; apply padd_zero|]. rewrite IH, padd_assoc. reflexivity. Qed.
Lemma psum_map_add {A} (f g : A -> pt G) l : psum (map (fun x => f x ++p g x) l) == psum (map f l) ++p psum (map g l).
Proof. induction l as [|x l IH]; cbn [map]; rewrite ?psum_cons; [symmetry; apply padd_zero|]. rewrite IH. apply padd_swap. Qed.
Lemma psum_map_ext {A} (f g : A -> pt G) l : (forall x, In x l -> f x == g x) -> psum (map f l) == psum (map g l).
Proof.
  induction l as [|x l IH]; intros H; cbn [map]; rewrite ?psum_cons; [reflexivity|].
  apply padd_eq; [apply H; left; reflexivity|apply IH; intros y Hy; apply H; right; exact Hy].
Qed.
Lemma psum_scalar {A} (f : A -> Z) p l : psum (map (fun x => f x ** p) l) == zsum (map f l) ** p.
Proof. induction l as [|x l IH]; cbn [map]; rewrite ?psum_cons, ?zsum_cons; [symmetry; apply pmul_0|]. rewrite IH, pmul_add. reflexivity. Qed.

(** ** Grouping by asset *)
Lemma amount_cons a x l : amount_of a (x :: l) = (if bytes_eqb (fst x) a then snd x else 0) + amount_of a l.
Proof. unfold amount_of. cbn [filter]. destruct (bytes_eqb (fst x) a); [cbn [map]; apply zsum_cons|reflexivity]. Qed.
Lemma psum_zero {A} (f : A -> pt G) l : (forall x, In x l -> f x == pzero G) -> psum (map f l) == pzero G.
Proof.
  induction l as [|x l IH]; intros H; cbn [map]; rewrite ?psum_cons; [reflexivity|].
  rewrite (H x) by (left; reflexivity). rewrite IH by (intros y Hy; apply H; right; exact Hy). apply padd_zero.
Qed.
Lemma psum_single (h : bytes -> pt G) v a0 ks : NoDup ks -> In a0 ks ->
  psum (map (fun a => (if bytes_eqb a0 a then v else 0) ** h a) ks) == v ** h a0.
Proof.
  induction ks as [|k ks IH]; intros ND HI; [contradiction|]. inversion ND as [|? ? N1 N2]; subst. cbn [map]. rewrite psum_cons.
  destruct (bytes_eqb a0 k) eqn:E.
  - apply bytes_eqb_eq in E. subst k. rewrite psum_zero; [apply padd_zero_r|].
    intros x Hx. destruct (bytes_eqb a0 x) eqn:E2; [apply bytes_eqb_eq in E2; subst; contradiction|apply pmul_0].
  - destruct HI as [-> |HI]; [assert (bytes_eqb a0 a0 = true) by (apply bytes_eqb_eq; reflexivity); congruence|].
    rewrite pmul_0, padd_zero. apply IH; assumption.
Qed.
Lemma psum_by_asset (h : bytes -> pt G) ks : NoDup ks -> forall l, (forall x, In x l -> In (fst x) ks) ->
  psum (map (fun x => snd x ** h (fst x)) l) == psum (map (fun a => amount_of a l ** h a) ks).
Proof.
  intros ND. induction l as [|x l IH]; intros H.
  - cbn [map]. symmetry. apply psum_zero. intros a _. apply pmul_0.
  - cbn [map]. rewrite psum_cons, IH by (intros y Hy; apply H; right; exact Hy).
    rewrite <- (psum_single h (snd x) (fst x) ks ND) by (apply H; left; reflexivity).
    rewrite <- psum_map_add. apply psum_map_ext. intros a _. rewrite amount_cons, pmul_add. reflexivity.
Qed.
Lemma bytes_dec (x y : bytes) : {x = y} + {x <> y}.
Proof. apply list_eq_dec. intros a b. destruct (Byte.byte_eq_dec a b); auto. Defined.
Lemma conserved (h : bytes -> pt G) l1 l2 : (forall a, amount_of a l1 = amount_of a l2) ->
  psum (map (fun x => snd x ** h (fst x)) l1) == psum (map (fun x => snd x ** h (fst x)) l2).
Proof.
  intros H. set (ks := nodup bytes_dec (map fst (l1 ++ l2))). assert (ND : NoDup ks) by apply NoDup_nodup.
  assert (IN : forall x, In x (l1 ++ l2) -> In (fst x) ks) by (intros x Hx; apply nodup_In, in_map; exact Hx).
  rewrite (psum_by_asset h ks ND l1) by (intros x Hx; apply IN, in_or_app; auto).
  rewrite (psum_by_asset h ks ND l2) by (intros x Hx; apply IN, in_or_app; auto).
  apply psum_map_ext. intros a _. rewrite H. reflexivity.
Qed.

Lemma zsum_filter {A} (f : A -> Z) g l : (forall x, In x l -> g x = false -> f x = 0) -> zsum (map f (filter g l)) = zsum (map f l).
Proof.
  induction l as [|x l IH]; intros H; [reflexivity|]. cbn [filter map]. rewrite zsum_cons. specialize (IH (fun y Hy => H y (or_intror Hy))).
  destruct (g x) eqn:E; [cbn [map]; rewrite zsum_cons; lia|]. rewrite (H x (or_introl eq_refl) E). lia.
Qed.
Lemma psum_seq {A} (l : list A) (f : A -> pt G) (g : nat -> pt G) : forall s,
  (forall k x, nth_error l k = Some x -> f x == g (s + k)%nat) -> psum (map f l) == psum (map g (seq s (length l))).
Proof.
  induction l as [|x l IH]; intros s H; [reflexivity|]. cbn [map length seq]. rewrite !psum_cons. apply padd_eq.
  - rewrite (H 0%nat x eq_refl), Nat.add_0_r. reflexivity.
  - apply IH. intros k y Hk. rewrite (H (S k) y Hk). replace (s + S k)%nat with (S s + k)%nat by lia. reflexivity.
Qed.
Lemma zsum_seq {A} (l : list A) (f : A -> Z) (g : nat -> Z) : forall s,
  (forall k x, nth_error l k = Some x -> f x = g (s + k)%nat) -> zsum (map f l) = zsum (map g (seq s (length l))).
Proof.
  induction l as [|x l IH]; intros s H; [reflexivity|]. cbn [map length seq]. rewrite !zsum_cons. f_equal.
  - rewrite (H 0%nat x eq_refl), Nat.add_0_r. reflexivity.
  - apply IH. intros k y Hk. rewrite (H (S k) y Hk). f_equal. lia.
Qed.
(** v*(H + abf*B) + bf*B *)
Lemma commit_expand v a abf bf : (v ** (hpt M a ++p abf ** base M)) ++p bf ** base M == v ** hpt M a ++p (v * abf + bf) ** base M.
Proof. rewrite pmul_padd, pmul_add, pmul_mul, padd_assoc. reflexivity. Qed.

Lemma EntropyOf_fun i e e' : EntropyOf z i e -> EntropyOf z i e' -> e = e'.
Proof.
  intros [(N & n & L1 & V1 & ->)|(N & ->)] [(N' & n' & L2 & V2 & ->)|(N' & ->)]; try contradiction; [|reflexivity].
  assert (n = n'). { apply (le_val_inj n n'); congruence. } subst. reflexivity.
Qed.

Lemma iss_points (h : bytes -> pt G) rand : forall (l : list (nat * bool)) (ids : list bytes) (f : nat * bool -> pt G) (u : nat * bool -> Z) s,
  length ids = length l ->
  (forall k x a, nth_error l k = Some x -> nth_error ids k = Some a -> f x == u x ** h a ++p be_val (rand (s + k)%nat) ** base M) ->
  psum (map f l) == psum (map (fun x => snd x ** h (fst x)) (combine ids (map u l))) ++p zsum (map (fun k => be_val (rand k)) (seq s (length l))) ** base M.
Proof.
  induction l as [|x l IH]; intros [|a ids] f u s L H; try discriminate.
  - cbn. symmetry. rewrite padd_zero. apply pmul_0.
  - cbn [map combine length seq fst snd]. rewrite !psum_cons, zsum_cons.
    rewrite (H 0%nat x a eq_refl eq_refl), Nat.add_0_r. rewrite (IH ids f u (S s)).
    + rewrite pmul_add. apply padd_swap.
    + cbn in L. lia.
    + intros k y b Hk Hb. rewrite (H (S k) y b Hk Hb). replace (s + S k)%nat with (S s + k)%nat by lia. reflexivity.
Qed.

Theorem points_balance rand args t targets t' bfs abfs ids extra :
  SizesOk z -> Complete z rand args t targets t' bfs abfs -> FactorsBalance order rand args t bfs abfs ->
  length (vout t') = length (vout t) -> (length (a_pubkeys args) <= length (vout t))%nat ->
  (forall o, In o (vout t) -> exists u a, ExplicitValue (nValue o) u /\ ExplicitAsset (nAsset o) a) ->
  Forall2 (IssuedId z t) (issuance_tasks args t) ids -> AmountsBalance args t ids extra ->
  psum (map (spent_point M) (a_descs args) ++ map (issuance_point M t') (issuance_tasks args t) ++ map (explicit_point M) extra)
  == psum (map (out_point M) (vout t')).
Proof.
  intros SO (AB & _ & _) FB LV LP EXP IDS AMT.
  set (tasks := issuance_tasks args t) in *.
  (* inputs *)
  assert (I1 : psum (map (spent_point M) (a_descs args)) ==
     psum (map (fun x => snd x ** hpt M (fst x)) (map (fun d => (d_asset d, d_amount d mod 2 ^ 64)) (a_descs args)))
     ++p zsum (map (fun d => (d_amount d mod 2 ^ 64) * be_val (d_abf d) + be_val (d_bf d)) (blinded_inputs args)) ** base M).
  { rewrite map_map. cbn [fst snd]. unfold blinded_inputs. rewrite zsum_filter.
    - rewrite <- psum_scalar, <- psum_map_add. apply psum_map_ext. intros d _. unfold spent_point. apply commit_expand.
    - intros d _ Hd. apply negb_false_iff, andb_prop in Hd. destruct Hd as [H1 H2]. apply bytes_eqb_eq in H1. apply bytes_eqb_eq in H2.
      rewrite H1, H2, be_zeros. lia. }
  (* issuances *)
  assert (I2 : psum (map (issuance_point M t') tasks) ==
     psum (map (fun x => snd x ** hpt M (fst x)) (combine ids (map (issued_amount t) tasks)))
     ++p zsum (map (fun k => be_val (rand k)) (seq 0 (length tasks))) ** base M).
  { apply iss_points; [clear - IDS; induction IDS; cbn; congruence|]. intros k [i ps] a Hk Ha. cbn [Nat.add].
    assert (ID : IssuedId z t (i, ps) a).
    { clear - IDS Hk Ha. revert k Hk Ha. induction IDS as [|x y l l' H HF IH]; intros [|k] Hk Ha; try discriminate; cbn in Hk, Ha; [congruence|eauto]. }
    destruct (ab_iss _ _ _ _ _ _ _ _ _ AB k i ps Hk) as (key & inp & inp' & _ & H1 & H2 & BI).
    destruct BI as (u & e & asset & gen & commit & (d & Ed & _ & Ev) & EN & _ & EA & EG & EC & ES & _).
    destruct ID as (inp2 & e2 & H3 & EN2 & EA2). cbn [fst snd] in *. rewrite H1 in H3. injection H3 as <-.
    assert (e2 = e) by (eapply EntropyOf_fun; eassumption). subst e2. rewrite <- EA in EA2. subst a.
    unfold issuance_point, issued_amount. cbn [fst snd]. rewrite H1, H2, Ed. cbn [tl]. rewrite Ev.
    rewrite (m_commit z G M _ _ _ _ _ EC ES), (m_gen z G M _ _ _ EG), commit_expand, be_zeros, Z.mul_0_r, Z.add_0_l. reflexivity. }
  (* outputs *)
  assert (O1 : psum (map (out_point M) (vout t')) ==
     psum (map (fun x => snd x ** hpt M (fst x)) (map (fun o => (tl (nAsset o), be_val (tl (nValue o)))) (vout t)))
     ++p zsum (map (fun j => out_amount t j * be_val (nth j abfs []) + be_val (nth j bfs [])) (output_tasks args)) ** base M).
  { set (fac := fun j => out_amount t j * be_val (nth j abfs []) + be_val (nth j bfs [])).
    assert (ZS : zsum (map fac (output_tasks args)) = zsum (map fac (seq 0 (length (vout t))))).
    { rewrite <- (zsum_filter fac (fun j => match nth j (a_pubkeys args) [] with [] => false | _ => true end) (seq 0 (length (vout t)))).
      - replace (length (vout t)) with (length (a_pubkeys args) + (length (vout t) - length (a_pubkeys args)))%nat at 1 by lia.
        rewrite seq_app, filter_app, map_app, zsum_app. fold (output_tasks args). cbn [Nat.add].
        replace (filter _ (seq (length (a_pubkeys args)) _)) with (@nil nat); [cbn; unfold zsum; cbn; lia|].
        symmetry. assert (X : forall l, (forall j, In j l -> (length (a_pubkeys args) <= j)%nat) ->
           filter (fun j => match nth j (a_pubkeys args) [] with [] => false | _ => true end) l = []).
        { induction l as [|j l IH]; intros H; [reflexivity|]. cbn [filter]. rewrite nth_overflow by (apply H; left; reflexivity). apply IH. intros; apply H; right; assumption. }
        apply X. intros j Hj. apply in_seq in Hj. lia.
      - intros j Hj W. apply in_seq in Hj.
        assert (NI : ~ In j (output_tasks args)) by (intros X; apply filter_In in X; destruct X as [_ X]; congruence).
        destruct (ab_rest _ _ _ _ _ _ _ _ _ AB j) as (R1 & R2 & _); [lia|exact NI|].
        unfold fac. rewrite (nth_bytes _ _ _ R1), (nth_bytes _ _ _ R2), be_zeros. lia. }
    rewrite ZS, map_map. cbn [fst snd].
    set (it := fun j => match nth_error (vout t) j with Some o => be_val (tl (nValue o)) ** hpt M (tl (nAsset o)) | None => pzero G end).
    rewrite (psum_seq (vout t) _ it 0) by (intros k o Hk; cbn [Nat.add]; unfold it; rewrite Hk; reflexivity).
    rewrite (psum_seq (vout t') _ (fun j => it j ++p fac j ** base M) 0).
    - rewrite LV, psum_map_add, psum_scalar. reflexivity.
    - intros j o' Hj. cbn [Nat.add].
      assert (Hlt : (j < length (vout t))%nat) by (rewrite <- LV; apply nth_error_Some; congruence).
      destruct (nth_error (vout t) j) as [o|] eqn:Ho; [|apply nth_error_None in Ho; lia].
      unfold it, fac, out_amount. rewrite Ho. destruct (EXP o (nth_error_In _ _ Ho)) as (u & a & (d & Ed & _ & Ev) & (Ea & _)).
      destruct (in_dec Nat.eq_dec j (output_tasks args)) as [HI|NI].
      + apply In_nth_error in HI. destruct HI as [k Hk].
        destruct (ab_out _ _ _ _ _ _ _ _ _ AB k j Hk) as (bf & abf & o1 & o1' & E1 & E2 & E3 & E4 & _ & _ & BO).
        rewrite Ho in E3. injection E3 as <-. rewrite Hj in E4. injection E4 as <-.
        destruct BO as (u1 & a1 & gen & commit & sh & mv & (d1 & Ed1 & _ & Ev1) & (Ea1 & _) & EG & _ & EC & ES & _).
        rewrite (nth_bytes _ _ _ E1), (nth_bytes _ _ _ E2). rewrite Ed1, Ea1. cbn [tl]. rewrite Ev1.
        rewrite <- commit_expand, <- (m_gen z G M _ _ _ EG), <- (m_commit z G M _ _ _ _ _ EC ES).
        unfold out_point. destruct (so_comser z SO _ _ ES) as (dd & _ & [-> | ->]); reflexivity.
      + destruct (ab_rest _ _ _ _ _ _ _ _ _ AB j Hlt NI) as (R1 & R2 & R3). rewrite Hj, Ho in R3. injection R3 as ->.
        rewrite (nth_bytes _ _ _ R1), (nth_bytes _ _ _ R2), be_zeros, Z.mul_0_r, Z.add_0_r, pmul_0, padd_zero_r.
        unfold out_point. rewrite Ed. reflexivity. }
  rewrite !psum_app, I1, I2, O1.
  rewrite <- (conserved (hpt M) _ _ AMT). rewrite !map_app, !psum_app.
  change (map (explicit_point M) extra) with (map (fun x : bytes * Z => snd x ** hpt M (fst x)) extra).
  unfold FactorsBalance in FB. fold tasks in FB. rewrite <- (pmul_mod _ _ (base M) FB), pmul_add.
  rewrite (padd_assoc _ G (psum _ ++p _)), padd_swap. rewrite <- !(padd_assoc _ G (_ ++p _)). 
  set (A := psum (map _ (map _ (a_descs args)))). set (B := psum (map _ (combine _ _))). set (C := psum (map _ extra)).
  set (f1 := zsum _ ** base M). set (f2 := zsum (map _ (seq _ _)) ** base M).
  rewrite <- !padd_assoc. apply padd_eq; [reflexivity|]. apply padd_eq; [reflexivity|].
  rewrite (padd_comm _ G C), <- !padd_assoc. reflexivity.
Qed.
End P.
