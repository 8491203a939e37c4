(** Successive blind() calls: the commitments balance when all are done. *)
From Verif Require Import Base BaseFacts TxModel BlindModel SpecBlind SpecBalance BlindBalance BlindComplete BlindProps BlindFrame SpecMulti.
From Coq Require Import Lia Setoid Morphisms Permutation.
Local Open Scope Z_scope.

Lemma Forall2_nth {A B} (R : A -> B -> Prop) l l' : Forall2 R l l' -> forall k x y, nth_error l k = Some x -> nth_error l' k = Some y -> R x y.
Proof. induction 1 as [|x y l l' H HF IH]; intros [|k] x0 y0 Hk Ha; try discriminate; cbn in Hk, Ha; [congruence|eauto]. Qed.

(** A field of an input that no task of the call concerns is left alone. *)
Lemma frame_field args t t' i ps inp inp' : Frame args t t' -> nth_error (vin t) i = Some inp -> nth_error (vin t') i = Some inp' ->
  ~ In (i, ps) (issuance_tasks args t) -> iss_field ps inp' = iss_field ps inp.
Proof.
  intros FR H1 H2 NI. destruct (fr_in _ _ _ _ _ FR i inp inp' H1 H2) as (_ & _ & _ & _ & _ & _ & FA & FK).
  assert (NK : nth i (if ps then a_token_keys args else a_asset_keys args) None = None).
  { destruct (nth i (if ps then a_token_keys args else a_asset_keys args) None) as [k|] eqn:E; [|reflexivity]. exfalso. apply NI.
    unfold issuance_tasks. apply filter_In. split.
    - unfold issuance_slots. apply in_flat_map. exists i. split; [apply in_seq; split; [lia|cbn; apply nth_error_Some; congruence]|]. destruct ps; [right; left; reflexivity|left; reflexivity].
    - unfold wants_issuance. cbn [fst snd]. rewrite E. reflexivity. }
  unfold iss_field. destruct ps; [apply FK|apply FA]; intros [X _]; apply X, NK.
Qed.
Lemma frame_input args t t' i inp : Frame args t t' -> nth_error (vin t) i = Some inp -> exists inp', nth_error (vin t') i = Some inp'.
Proof.
  intros FR H. destruct (nth_error (vin t') i) eqn:E; [eauto|]. apply nth_error_None in E. rewrite (fr_nin _ _ _ _ _ FR) in E.
  assert (i < length (vin t))%nat by (apply nth_error_Some; congruence). lia.
Qed.
Lemma frame_entropy z args t t' i inp inp' e : Frame args t t' -> nth_error (vin t) i = Some inp -> nth_error (vin t') i = Some inp' ->
  EntropyOf z inp e -> EntropyOf z inp' e.
Proof.
  intros FR H1 H2. destruct (fr_in _ _ _ _ _ FR i inp inp' H1 H2) as (P & _ & _ & _ & N & E & _). unfold EntropyOf. rewrite P, N, E. auto.
Qed.
Lemma frame_tasks args args' t t' : Frame args t t' -> issuance_tasks args' t' = issuance_tasks args' t.
Proof. intros FR. unfold issuance_tasks. rewrite (fr_nin _ _ _ _ _ FR). reflexivity. Qed.

Section P.
Context {z : Crypto} {order : Z} {G : PointGroup order} (M : Meaning z G).
Notation "p == q" := (peq G p q) (at level 70).
Notation "p ++p q" := (padd G p q) (at level 50, left associativity).
Notation "k ** p" := (pmul G k p) (at level 40).
Local Instance peq_equiv : Equivalence (peq G).
Proof. split; [exact (peq_refl _ G)|exact (peq_sym _ G)|exact (peq_trans _ G)]. Qed.
Local Instance padd_proper : Proper (peq G ==> peq G ==> peq G) (padd G).
Proof. intros p p' Hp q q' Hq. apply padd_eq; assumption. Qed.
Local Instance pmul_proper k : Proper (peq G ==> peq G) (pmul G k).
Proof. intros p p' Hp. apply pmul_eq; assumption. Qed.
Notation psum := (@psum order G).
Definition fin (d : input_desc) : Z := (d_amount d mod 2 ^ 64) * be_val (d_abf d) + be_val (d_bf d).
Definition iss_explicit (ids : list bytes) (t : tx) (l : list (nat * bool)) : pt G := psum (map (explicit_point M) (combine ids (map (issued_amount t) l))).
Definition outs (t : tx) : pt G := psum (map (out_point M) (vout t)).

(** One call: the outputs and the issuances gain the factors. *)
Lemma one_call rand args t targets t' bfs abfs ids :
  SizesOk z -> Complete z rand args t targets t' bfs abfs -> FactorsBalance order rand args t bfs abfs ->
  length (vout t') = length (vout t) -> (length (a_pubkeys args) <= length (vout t))%nat ->
  Forall2 (IssuedId z t) (issuance_tasks args t) ids ->
  outs t' ++p iss_explicit ids t (issuance_tasks args t)
  == outs t ++p zsum (map fin (blinded_inputs args)) ** base M ++p psum (map (issuance_point M t') (issuance_tasks args t)).
Proof.
  intros SO (AB & _ & _) FB LV LP IDS. set (tasks := issuance_tasks args t) in *.
  assert (I2 : psum (map (issuance_point M t') tasks) == iss_explicit ids t tasks ++p zsum (map (fun k => be_val (rand k)) (seq 0 (length tasks))) ** base M).
  { unfold iss_explicit. apply (iss_points M (hpt M)); [clear - IDS; induction IDS; cbn; congruence|]. intros k [i ps] a Hk Ha. cbn [Nat.add].
    assert (ID := Forall2_nth _ _ _ IDS _ _ _ Hk Ha).
    destruct (ab_iss _ _ _ _ _ _ _ _ _ AB k i ps Hk) as (key & inp & inp' & _ & H1 & H2 & BI).
    destruct BI as (u & e & asset & gen & commit & (d & Ed & _ & Ev) & EN & _ & EA & EG & EC & ES & _).
    destruct ID as (inp2 & e2 & H3 & EN2 & EA2). cbn [fst snd] in *. assert (inp2 = inp) by congruence. subst inp2.
    assert (e2 = e) by (eapply EntropyOf_fun; eassumption). subst e2. rewrite <- EA in EA2. subst a.
    unfold issuance_point, issued_amount. cbn [fst snd]. rewrite H1, H2, Ed. cbn [tl]. rewrite Ev.
    rewrite (m_commit z G M _ _ _ _ _ EC ES), (m_gen z G M _ _ _ EG), (commit_expand M), be_zeros, Z.mul_0_r, Z.add_0_l. reflexivity. }
  assert (O1 : outs t' == outs t ++p zsum (map (fun j => out_amount t j * be_val (nth j abfs []) + be_val (nth j bfs [])) (output_tasks args)) ** base M).
  { set (fac := fun j => out_amount t j * be_val (nth j abfs []) + be_val (nth j bfs [])).
    assert (ZS : zsum (map fac (output_tasks args)) = zsum (map fac (seq 0 (length (vout t))))).
    { rewrite <- (zsum_filter fac (fun j => match nth j (a_pubkeys args) [] with [] => false | _ => true end) (seq 0 (length (vout t)))).
      - replace (length (vout t)) with (length (a_pubkeys args) + (length (vout t) - length (a_pubkeys args)))%nat at 1 by lia.
        rewrite seq_app, filter_app, map_app, zsum_app. fold (output_tasks args). cbn [Nat.add].
        replace (filter _ (seq (length (a_pubkeys args)) _)) with (@nil nat); [cbn; unfold zsum; cbn; lia|].
        symmetry. assert (X : forall l, (forall j, In j l -> (length (a_pubkeys args) <= j)%nat) ->
           filter (fun j => match nth j (a_pubkeys args) [] with [] => false | _ => true end) l = []).
        { induction l as [|j l IH]; intros H; [reflexivity|]. cbn [filter]. rewrite nth_overflow by (apply H; left; reflexivity). apply IH. intros; apply H; right; assumption. }
        apply X. intros j Hj. apply in_seq in Hj. lia.
      - intros j Hj W. apply in_seq in Hj.
        assert (NI : ~ In j (output_tasks args)) by (intros X; apply filter_In in X; destruct X as [_ X]; congruence).
        destruct (ab_rest _ _ _ _ _ _ _ _ _ AB j) as (R1 & R2 & _); [lia|exact NI|].
        unfold fac. rewrite (nth_bytes _ _ _ R1), (nth_bytes _ _ _ R2), be_zeros. lia. }
    rewrite ZS. unfold outs.
    set (it := fun j => match nth_error (vout t) j with Some o => out_point M o | None => pzero G end).
    rewrite (psum_seq (vout t) _ it 0) by (intros k o Hk; cbn [Nat.add]; unfold it; rewrite Hk; reflexivity).
    rewrite (psum_seq (vout t') _ (fun j => it j ++p fac j ** base M) 0).
    - rewrite LV, psum_map_add, psum_scalar. reflexivity.
    - intros j o' Hj. cbn [Nat.add].
      assert (Hlt : (j < length (vout t))%nat) by (rewrite <- LV; apply nth_error_Some; congruence).
      destruct (nth_error (vout t) j) as [o|] eqn:Ho; [|apply nth_error_None in Ho; lia].
      unfold it, fac, out_amount. rewrite Ho.
      destruct (in_dec Nat.eq_dec j (output_tasks args)) as [HI|NI].
      + apply In_nth_error in HI. destruct HI as [k Hk].
        destruct (ab_out _ _ _ _ _ _ _ _ _ AB k j Hk) as (bf & abf & o1 & o1' & E1 & E2 & E3 & E4 & _ & _ & BO).
        assert (o1 = o) by congruence. assert (o1' = o') by congruence. subst o1 o1'.
        destruct BO as (u1 & a1 & gen & commit & sh & mv & (d1 & Ed1 & _ & Ev1) & (Ea1 & _) & EG & _ & EC & ES & _).
        rewrite (nth_bytes _ _ _ E1), (nth_bytes _ _ _ E2). unfold out_point at 2. rewrite Ed1, Ea1. cbn [tl]. rewrite Ev1.
        rewrite <- (commit_expand M), <- (m_gen z G M _ _ _ EG), <- (m_commit z G M _ _ _ _ _ EC ES).
        unfold out_point. destruct (so_comser z SO _ _ ES) as (dd & _ & [-> | ->]); reflexivity.
      + destruct (ab_rest _ _ _ _ _ _ _ _ _ AB j Hlt NI) as (R1 & R2 & R3). assert (o' = o) by congruence. subst o'.
        rewrite (nth_bytes _ _ _ R1), (nth_bytes _ _ _ R2), be_zeros, Z.mul_0_r, Z.add_0_r, pmul_0, padd_zero_r. reflexivity. }
  rewrite O1, I2. unfold FactorsBalance in FB. fold tasks in FB. rewrite <- (pmul_mod _ _ (base M) FB), pmul_add.
  change (fun d : input_desc => d_amount d mod 2 ^ 64 * be_val (d_abf d) + be_val (d_bf d)) with fin.
  set (A := outs t). set (f1 := zsum (map fin _) ** base M). set (f2 := zsum (map _ (seq _ _)) ** base M). set (I := iss_explicit _ _ _).
  rewrite <- !padd_assoc. apply padd_eq; [reflexivity|]. apply padd_eq; [reflexivity|]. apply padd_comm.
Qed.

Lemma call_complete args rand n bfs abfs s t : BlindSumLaw z order ->
  blind_transaction z rand args t = (Ret (BSuccess n bfs abfs), s) ->
  a_strict args = true -> ~ stray_key args t -> output_tasks args <> [] ->
  (forall j, In j (output_tasks args) -> nth_error bfs j <> Some (zeros 32)) ->
  exists targets, Complete z rand args t targets (s_tx s) bfs abfs /\ FactorsBalance order rand args t bfs abfs
    /\ Frame args t (s_tx s) /\ (length (a_pubkeys args) <= length (vout t))%nat.
Proof.
  intros LAW H ST NS NE NZ. destruct (blind_success z rand args t _ _ _ _ H) as (_ & A & B).
  assert (NB := good_of_success _ _ _ _ _ _ _ _ H). assert (FR := blind_transaction_frame z rand args t). rewrite H in FR. cbn [snd] in FR.
  assert (LP : (length (a_pubkeys args) <= length (vout t))%nat) by (apply Nat.nlt_ge; intros Q; apply NB; left; lia).
  destruct (B (A ST NS)) as (targets & _ & [C|C]).
  - exists targets. split; [exact C|]. split; [eapply complete_balances; eassumption|]. auto.
  - exfalso. destruct C as (pre & j & ET & AB & _).
    assert (IN : In j (output_tasks args)) by (rewrite ET; apply in_or_app; right; left; reflexivity).
    assert (ND := output_tasks_NoDup args). rewrite ET in ND. apply NoDup_remove_2 in ND. rewrite app_nil_r in ND.
    assert (LJ : (j < length (vout t))%nat). { unfold output_tasks in IN. apply filter_In in IN. destruct IN as [IN _]. apply in_seq in IN. lia. }
    destruct (ab_rest _ _ _ _ _ _ _ _ _ AB j LJ ND) as (R1 & _). exact (NZ j IN R1).
Qed.

(** A blinded field is a commitment, not explicit. *)
Definition is_explicit_field (x : bytes) : Prop := exists u, ExplicitValue x u.
Lemma blinded_field rand args t targets done t' bfs abfs i ps : SizesOk z -> AllBlinded z rand args t targets done t' bfs abfs -> In (i, ps) (issuance_tasks args t) ->
  exists inp inp', nth_error (vin t) i = Some inp /\ nth_error (vin t') i = Some inp' /\ is_explicit_field (iss_field ps inp) /\ ~ is_explicit_field (iss_field ps inp').
Proof.
  intros SO AB IN. apply In_nth_error in IN. destruct IN as [k Hk].
  destruct (ab_iss _ _ _ _ _ _ _ _ _ AB k i ps Hk) as (key & inp & inp' & _ & H1 & H2 & BI). exists inp, inp'.
  destruct BI as (u & e & asset & gen & commit & EV & _ & _ & _ & _ & _ & ES & _).
  split; [exact H1|]. split; [exact H2|]. split; [exists u; exact EV|]. intros (u' & d & E & _).
  destruct (so_comser z SO _ _ ES) as (dd & _ & [E' | E']); rewrite E' in E; discriminate E.
Qed.

Lemma kept_commitment calls t t' : SizesOk z -> BlindSumLaw z order -> Blindings z calls t t' ->
  forall i ps inp, nth_error (vin t) i = Some inp -> ~ is_explicit_field (iss_field ps inp) ->
  exists inp', nth_error (vin t') i = Some inp' /\ iss_field ps inp' = iss_field ps inp.
Proof.
  intros SO LAW. induction 1 as [t|args rest rand n bfs abfs s t t' H ST NS NE NZ BL IH]; intros i ps inp EI NX; [eauto|].
  destruct (call_complete _ _ _ _ _ _ _ LAW H ST NS NE NZ) as (targets & (AB & _) & _ & FR & _).
  assert (NT : ~ In (i, ps) (issuance_tasks args t)).
  { intros IN. destruct (blinded_field _ _ _ _ _ _ _ _ _ _ SO AB IN) as (a & b & H1 & _ & X & _). apply NX. congruence. }
  destruct (frame_input _ _ _ _ _ FR EI) as [inp1 E1]. assert (EF := frame_field _ _ _ _ _ _ _ FR EI E1 NT).
  destruct (IH i ps inp1 E1) as (inp' & E2 & E3); [rewrite EF; exact NX|]. exists inp'. split; [exact E2|congruence].
Qed.

Lemma all_calls calls t t' : SizesOk z -> BlindSumLaw z order -> Blindings z calls t t' ->
  (forall i ps, In (i, ps) (all_issuances calls t) -> exists inp, nth_error (vin t) i = Some inp /\ is_explicit_field (iss_field ps inp))
  /\ forall ids, Forall2 (IssuedId z t) (all_issuances calls t) ids ->
  outs t' ++p iss_explicit ids t (all_issuances calls t)
  == outs t ++p zsum (map fin (flat_map blinded_inputs calls)) ** base M ++p psum (map (issuance_point M t') (all_issuances calls t)).
Proof.
  intros SO LAW. induction 1 as [t|args rest rand n bfs abfs s t t' H ST NS NE NZ BL IH].
  { split; [intros i ps []|]. intros ids F. inversion F; subst. unfold all_issuances, iss_explicit. cbn [flat_map map combine]. change (zsum []) with 0. rewrite pmul_0. rewrite <- !padd_assoc, padd_zero. reflexivity. }
  destruct (call_complete _ _ _ _ _ _ _ LAW H ST NS NE NZ) as (targets & C & FB & FR & LP). destruct IH as [IHX IHE].
  assert (AB := proj1 C).
  assert (ET : all_issuances rest (s_tx s) = all_issuances rest t).
  { unfold all_issuances. clear - FR. induction rest as [|a rest IH]; [reflexivity|]. cbn [flat_map]. rewrite IH, (frame_tasks _ _ _ _ FR). reflexivity. }
  rewrite ET in IHX, IHE.
  assert (DIS : forall i ps, In (i, ps) (all_issuances rest t) -> ~ In (i, ps) (issuance_tasks args t)).
  { intros i ps IN IN1. destruct (blinded_field _ _ _ _ _ _ _ _ _ _ SO AB IN1) as (a & b & _ & E2 & _ & X). destruct (IHX i ps IN) as (c & E3 & Y). apply X. congruence. }
  assert (SAME : forall i ps, In (i, ps) (all_issuances rest t) -> exists inp inp1, nth_error (vin t) i = Some inp /\ nth_error (vin (s_tx s)) i = Some inp1 /\ iss_field ps inp1 = iss_field ps inp).
  { intros i ps IN. destruct (IHX i ps IN) as (inp1 & E1 & _). destruct (nth_error (vin t) i) as [inp|] eqn:E0.
    - exists inp, inp1. split; [reflexivity|]. split; [exact E1|]. exact (frame_field _ _ _ _ _ _ _ FR E0 E1 (DIS _ _ IN)).
    - exfalso. apply nth_error_None in E0. assert (i < length (vin (s_tx s)))%nat by (apply nth_error_Some; congruence). rewrite (fr_nin _ _ _ _ _ FR) in *. lia. }
  split.
  - intros i ps IN. unfold all_issuances in IN. cbn [flat_map] in IN. apply in_app_or in IN. destruct IN as [IN|IN].
    + destruct (blinded_field _ _ _ _ _ _ _ _ _ _ SO AB IN) as (a & b & E1 & _ & X & _). eauto.
    + destruct (SAME i ps IN) as (inp & inp1 & E1 & E2 & E3). destruct (IHX i ps IN) as (c & E4 & Y). exists inp. split; [exact E1|]. rewrite <- E3. congruence.
  - intros ids F. unfold all_issuances in *. cbn [flat_map] in *. apply Forall2_app_inv_l in F. destruct F as (ids1 & ids2 & F1 & F2 & ->).
    assert (F2' : Forall2 (IssuedId z (s_tx s)) (flat_map (fun args => issuance_tasks args t) rest) ids2).
    { clear - F2 FR. induction F2 as [|[i ps] a l l' X F2 IH]; constructor; [|exact IH]. destruct X as (inp & e & E1 & E2 & E3). cbn [fst snd] in *.
      destruct (frame_input _ _ _ _ _ FR E1) as [inp' E1']. exists inp', e. split; [exact E1'|]. split; [exact (frame_entropy _ _ _ _ _ _ _ _ FR E1 E1' E2)|exact E3]. }
    specialize (IHE ids2 F2').
    assert (A1 := one_call _ _ _ _ _ _ _ _ SO C FB (fr_nout _ _ _ _ _ FR) LP F1).
    set (T1 := issuance_tasks args t) in *. set (T2 := flat_map (fun args => issuance_tasks args t) rest) in *.
    assert (L1 : length ids1 = length T1) by (clear - F1; induction F1; cbn; congruence).
    assert (EA : iss_explicit (ids1 ++ ids2) t (T1 ++ T2) == iss_explicit ids1 t T1 ++p iss_explicit ids2 (s_tx s) T2).
    { unfold iss_explicit. rewrite map_app. assert (CA : forall (A B : Type) (a a' : list A) (b b' : list B), length a = length b -> combine (a ++ a') (b ++ b') = combine a b ++ combine a' b').
      { clear. intros A B a. induction a as [|x a IH]; intros a' [|y b] b' L; try discriminate L; [reflexivity|]. cbn [app combine]. rewrite IH by (cbn in L; lia). reflexivity. }
      rewrite CA by (rewrite map_length; exact L1). rewrite map_app, psum_app.
      replace (map (issued_amount t) T2) with (map (issued_amount (s_tx s)) T2); [reflexivity|].
      apply map_ext_in. intros [i ps] IN. destruct (SAME i ps IN) as (inp & inp1 & E1 & E2 & E3). unfold issued_amount. cbn [fst snd]. rewrite E1, E2, E3. reflexivity. }
    assert (EB : psum (map (issuance_point M t') T1) == psum (map (issuance_point M (s_tx s)) T1)).
    { apply psum_map_ext. intros [i ps] IN. destruct (blinded_field _ _ _ _ _ _ _ _ _ _ SO AB IN) as (a & b & _ & E2 & _ & X).
      destruct (kept_commitment _ _ _ SO LAW BL i ps b E2 X) as (c & E3 & E4). unfold issuance_point. cbn [fst snd]. rewrite E2, E3, E4. reflexivity. }
    rewrite EA, !map_app, zsum_app, psum_app, EB, pmul_add.
    set (x := zsum (map fin (blinded_inputs args)) ** base M) in *. set (y := zsum (map fin (flat_map blinded_inputs rest)) ** base M) in *.
    set (p := psum (map (issuance_point M (s_tx s)) T1)) in *. set (q := psum (map (issuance_point M t') T2)) in *.
    set (i1 := iss_explicit ids1 t T1) in *. set (i2 := iss_explicit ids2 (s_tx s) T2) in *.
    rewrite (padd_comm _ G i1), padd_assoc, IHE. rewrite <- (padd_assoc _ G (outs (s_tx s))), <- (padd_assoc _ G (outs (s_tx s))), (padd_comm _ G (y ++p q)), padd_assoc, A1.
    rewrite <- !padd_assoc. apply padd_eq; [reflexivity|]. apply padd_eq; [reflexivity|]. rewrite !padd_assoc. apply padd_eq; [|reflexivity]. apply padd_comm.
Qed.

Lemma zsum_perm {A} (f : A -> Z) l l' : Permutation l l' -> zsum (map f l) = zsum (map f l').
Proof. induction 1; cbn [map]; rewrite ?zsum_cons; lia. Qed.

Theorem parties_balance calls t t' real ids extra : SizesOk z -> BlindSumLaw z order -> Blindings z calls t t' ->
  (forall o, In o (vout t) -> exists u a, ExplicitValue (nValue o) u /\ ExplicitAsset (nAsset o) a) ->
  described_once calls real -> Forall2 (IssuedId z t) (all_issuances calls t) ids -> AllAmountsBalance calls real t ids extra ->
  psum (map (spent_point M) real ++ map (issuance_point M t') (all_issuances calls t) ++ map (explicit_point M) extra) == psum (map (out_point M) (vout t')).
Proof.
  intros SO LAW BL EXP DO IDS AMT. destruct (all_calls _ _ _ SO LAW BL) as [_ E]. specialize (E ids IDS).
  assert (I1 : psum (map (spent_point M) real) ==
     psum (map (explicit_point M) (map (fun d => (d_asset d, d_amount d mod 2 ^ 64)) real)) ++p zsum (map fin (flat_map blinded_inputs calls)) ** base M).
  { rewrite <- (zsum_perm fin _ _ DO), zsum_filter.
    - rewrite map_map. rewrite <- psum_scalar, <- psum_map_add. apply psum_map_ext. intros d _. unfold spent_point. apply (commit_expand M).
    - intros d _ Hd. apply negb_false_iff, andb_prop in Hd. destruct Hd as [H1 H2]. apply bytes_eqb_eq in H1. apply bytes_eqb_eq in H2.
      unfold fin. rewrite H1, H2, be_zeros. lia. }
  assert (O : outs t == psum (map (explicit_point M) (map (fun o => (tl (nAsset o), be_val (tl (nValue o)))) (vout t)))).
  { unfold outs. rewrite map_map. apply psum_map_ext. intros o IN. destruct (EXP o IN) as (u & a & (d & Ed & _) & _). unfold out_point. rewrite Ed. reflexivity. }
  assert (CO := conserved (hpt M) _ _ AMT). change (fun x : bytes * Z => snd x ** hpt M (fst x)) with (explicit_point M) in CO. rewrite !map_app, !psum_app in CO.
  rewrite <- O in CO. change (psum (map (explicit_point M) (combine ids (map (issued_amount t) (all_issuances calls t))))) with (iss_explicit ids t (all_issuances calls t)) in CO.
  rewrite !psum_app, I1. fold (outs t').
  set (f := zsum (map fin _) ** base M) in *. set (ip := psum (map (issuance_point M t') _)) in *. set (S0 := psum (map (explicit_point M) (map _ real))) in *.
  set (IE := iss_explicit ids t _) in *. set (X := psum (map (explicit_point M) extra)) in *.
  (* cancel IE *)
  assert (CANCEL : forall a b c, a ++p c == b ++p c -> a == b).
  { intros a b c Hc. set (m := (order - 1) ** c). assert (Hm : c ++p m == pzero G).
    { unfold m. rewrite <- (pmul_one _ G c) at 1. rewrite <- pmul_add. replace (1 + (order - 1)) with order by lia. apply pmul_order. }
    rewrite <- (padd_zero_r a), <- (padd_zero_r b), <- Hm, !padd_assoc, Hc. reflexivity. }
  apply (CANCEL _ _ IE). rewrite E, <- CO.
  rewrite <- !padd_assoc. apply padd_eq; [reflexivity|].
  rewrite (padd_comm _ G X IE), (padd_assoc _ G ip IE X), (padd_assoc _ G f), (padd_comm _ G (f ++p (ip ++p IE))).
  rewrite (padd_assoc _ G IE X), (padd_comm _ G IE X), <- (padd_assoc _ G X IE). apply padd_eq; [reflexivity|].
  rewrite (padd_assoc _ G f ip IE), padd_comm. reflexivity.
Qed.
End P.
