(** A validating node accepts what successive blind() calls leave. *)
From Verif Require Import Base BaseFacts TxModel BlindModel SpecBlind SpecBalance BlindBalance BlindComplete BlindProps BlindFrame SpecUnblind SpecMulti MultiProofs PropMulti SpecNode NodeProofs.
From Coq Require Import Lia Setoid Morphisms Permutation.
Local Open Scope Z_scope.

Lemma nothing_true x : nothing x = true <-> x = []. Proof. destruct x; split; intros H; (reflexivity || discriminate H). Qed.
Lemma nothing_false x : nothing x = false <-> x <> []. Proof. destruct x; split; intros H; (discriminate H || congruence || reflexivity || (intros E; discriminate E)). Qed.
Lemma entropy_node z inp e : EntropyOf z inp e -> e = node_entropy z inp.
Proof.
  unfold node_entropy. intros [(N & n & L & V & ->)|(N & ->)].
  - rewrite N, (proj2 (bytes_eqb_eq _ _) eq_refl). do 4 f_equal. rewrite <- V, <- L. symmetry. apply le_bytes_le_val.
  - destruct (bytes_eqb (is_nonce (assetIssuance inp)) (zeros 32)) eqn:E; [|reflexivity]. apply bytes_eqb_eq in E. contradiction.
Qed.
Lemma Same_node_id z a b ps conf : SameIn a b -> node_id z ps conf b = node_id z ps conf a.
Proof. intros (P & N & E & _). unfold node_id, node_entropy. rewrite P, N, E. reflexivity. Qed.
Lemma Unspendable_iff s : Unspendable s <-> unspendable s = true.
Proof.
  unfold Unspendable, unspendable. split.
  - intros [->|[r ->]]; reflexivity.
  - destruct s as [|[] r]; try discriminate; intros _; [left; reflexivity|right; eauto].
Qed.
Lemma explicit_amount x v : ExplicitValue x v -> 0 < v <= money -> x = x01 :: tl x /\ length (tl x) = 8%nat /\ be_val (tl x) = v.
Proof. intros (d & -> & L & E) _. auto. Qed.

Definition wanted (calls : list blind_args) (x : nat * bool) : bool := existsb (fun args => wants_issuance args x) calls.
Lemma filter_false {A} (f : A -> bool) l : filter f l = [] -> forall x, In x l -> f x = false.
Proof. induction l as [|a l IH]; intros H x IN; [destruct IN|]. cbn [filter] in H. destruct (f a) eqn:E; [discriminate H|]. destruct IN as [<-|IN]; auto. Qed.
Lemma filter_ext' {A} (f g : A -> bool) l : (forall x, In x l -> f x = g x) -> filter f l = filter g l.
Proof. apply filter_ext_in. Qed.
Lemma all_issuances_filter z order calls t t' : SizesOk z -> BlindSumLaw z order -> Blindings z calls t t' ->
  all_issuances calls t = filter (wanted calls) (issuance_slots (length (vin t))).
Proof.
  intros SO LAW. induction 1 as [t|args rest rand n bfs abfs s t t' H ST NS NE NZ BL IH].
  { unfold all_issuances. cbn [flat_map]. symmetry. unfold wanted. cbn [existsb]. induction (issuance_slots _); [reflexivity|assumption]. }
  assert (BL' : Blindings z (args :: rest) t t') by (econstructor; eassumption).
  destruct (call_complete (order := order) _ _ _ _ _ _ _ LAW H ST NS NE NZ) as (_ & _ & _ & FR & _).
  rewrite (all_issuances_frame _ _ _ rest FR), (fr_nin _ _ _ _ _ FR) in IH.
  unfold all_issuances in *. cbn [flat_map].
  destruct (issuance_tasks args t) as [|x l] eqn:ET.
  - cbn [app]. rewrite IH. apply filter_ext'. intros x IN. unfold wanted. cbn [existsb]. unfold issuance_tasks in ET. rewrite (filter_false _ _ ET x IN). reflexivity.
  - assert (ER : rest = []) by (apply (C66_issuer_last z order args rest t t' SO LAW BL'); rewrite ET; discriminate). subst rest. cbn [flat_map]. rewrite app_nil_r, <- ET. unfold issuance_tasks.
    apply filter_ext'. intros y _. unfold wanted. cbn [existsb]. rewrite orb_false_r. reflexivity.
Qed.
Lemma slot_In n i (ps : bool) : In (i, ps) (issuance_slots n) <-> (i < n)%nat.
Proof.
  unfold issuance_slots. rewrite in_flat_map. split.
  - intros (j & IN & E). apply in_seq in IN. destruct E as [E|[E|[]]]; injection E as <- _; lia.
  - intros L. exists i. split; [apply in_seq; lia|]. destruct ps; [right; left; reflexivity|left; reflexivity].
Qed.
Lemma TargetsFrom_at z args i tok ins l tok' : TargetsFrom z args i tok ins l tok' -> forall k inp, nth_error ins k = Some inp ->
  exists ta la tb, InputTargets z args (i + k) ta inp la tb.
Proof.
  induction 1 as [i tok|i tok inp rest l tok' ls tok'' H T IH]; intros [|k] inp0 E; try discriminate E; cbn [nth_error] in E.
  - injection E as <-. rewrite Nat.add_0_r. eauto.
  - rewrite <- Nat.add_succ_comm. apply IH. exact E.
Qed.
Lemma amount_of_app a l l' : amount_of a (l ++ l') = amount_of a l + amount_of a l'.
Proof. unfold amount_of. rewrite filter_app, map_app, zsum_app. reflexivity. Qed.
Lemma skipn_nth {A} (l : list A) k x : nth_error l k = Some x -> skipn k l = x :: skipn (S k) l.
Proof. revert k. induction l as [|a l IH]; intros [|k] E; try discriminate E; cbn [nth_error skipn] in *; [congruence|]. rewrite (IH k E). reflexivity. Qed.

Lemma Forall2_self_map {A B} (R : A -> B -> Prop) (f : A -> B) l : (forall x, In x l -> R x (f x)) -> Forall2 R l (map f l).
Proof. induction l as [|x l IH]; intros H; cbn [map]; constructor; [apply H; left; reflexivity|apply IH; intros y Hy; apply H; right; exact Hy]. Qed.

Section N.
Context {z : Crypto} {V : Verifier} {order : Z} {G : PointGroup order} (M : Meaning z G).
Notation "p == q" := (peq G p q) (at level 70).
Notation "p ++p q" := (padd G p q) (at level 50, left associativity).
Notation "k ** p" := (pmul G k p) (at level 40).
Local Instance peq_equiv' : Equivalence (peq G).
Proof. split; [exact (peq_refl _ G)|exact (peq_sym _ G)|exact (peq_trans _ G)]. Qed.
Local Instance padd_proper' : Proper (peq G ==> peq G ==> peq G) (padd G).
Proof. intros p p' Hp q q' Hq. apply padd_eq; assumption. Qed.
Local Instance pmul_proper' k : Proper (peq G ==> peq G) (pmul G k).
Proof. intros p p' Hp. apply pmul_eq; assumption. Qed.
Notation psum := (@psum order G).
Hypothesis SO : SizesOk z.
Hypothesis LAW : BlindSumLaw z order.
Hypothesis CL : CodecLaws z.
Hypothesis VL : VerifierLaws z V M.

Lemma gen_field a b g s : gen_generate_blinded z a b = Some g -> gen_serialize z g = Some s -> asset_gen z s = Some g /\ hd x00 s <> x01.
Proof.
  intros EG ES. assert (P := cl_gen z CL _ _ _ _ EG ES). unfold asset_gen.
  destruct (so_genser z SO _ _ ES) as (d & LD & [E | E]); rewrite E in *; (split; [|discriminate]); cbn [length]; replace (length d) with 32%nat by (unfold blen in LD; lia); exact P.
Qed.
Lemma explicit_asset_gen a g : length a = 32%nat -> gen_generate z a = Some g -> asset_gen z (x01 :: a) = Some g.
Proof. intros L E. unfold asset_gen. cbn [length]. rewrite L. exact E. Qed.
Lemma commit_field b v g c s : ped_commit z b v g = Some c -> ped_serialize z c = Some s -> value_commit z s g = Some c /\ is_committed s = true /\ s <> [].
Proof.
  intros EC ES. assert (P := cl_com z CL _ _ _ _ _ EC ES).
  destruct (so_comser z SO _ _ ES) as (d & LD & [E | E]); rewrite E in *; (split; [|split; [reflexivity|discriminate]]); unfold value_commit; cbn [length]; replace (length d) with 32%nat by (unfold blen in LD; lia); exact P.
Qed.
Lemma be_val_8 d : length d = 8%nat -> 0 <= be_val d < 2 ^ 64.
Proof. intros L. assert (R := be_val_range d). unfold blen in R. rewrite L in R. change (256 ^ Z.of_nat 8) with (2 ^ 64) in R. exact R. Qed.
(** An explicit amount of a generator. *)
Lemma explicit_field a b g x v : gen_generate_blinded z a b = Some g -> ExplicitValue x v -> 0 < v <= money ->
  exists c s, value_commit z x g = Some c /\ ped_serialize z c = Some s /\ cpt M s == v ** (hpt M a ++p be_val b ** base M) /\ is_committed x = false /\ x <> [].
Proof.
  intros EG (d & -> & L & E) R. assert (RM : money < 2 ^ 64) by reflexivity. destruct (vl_commit _ _ _ VL _ _ _ v EG ltac:(lia)) as [c EC]. destruct (vl_ser _ _ _ VL _ _ _ _ EC) as [s ES].
  exists c, s. split.
  - unfold value_commit. rewrite L, E, (proj2 (Z.ltb_lt _ _) (proj1 R)), (proj2 (Z.leb_le _ _) (proj2 R)). exact EC.
  - split; [exact ES|]. split; [|split; [reflexivity|discriminate]].
    rewrite (m_commit z G M _ _ _ _ _ EC ES), (m_gen z G M _ _ _ EG), be_zeros, pmul_0, padd_zero_r. reflexivity.
Qed.
Lemma spent u d : SpentAs z u d -> exists g c s, node_spent z u = Some [(g, c)] /\ asset_gen z (nAsset u) = Some g
  /\ gen_generate_blinded z (d_asset d) (d_abf d) = Some g /\ ped_serialize z c = Some s /\ cpt M s == spent_point M d /\ d_amount d mod 2 ^ 64 = d_amount d.
Proof.
  intros (AS & g & EG & VA). assert (AG : asset_gen z (nAsset u) = Some g).
  { destruct AS as [(E & L & EZ)|(g' & EG' & ES)].
    - rewrite E. apply explicit_asset_gen; [exact L|]. apply (cl_zero z CL). rewrite <- EZ. exact EG.
    - assert (g' = g) by congruence. subst g'. apply (gen_field _ _ _ _ EG ES). }
  unfold node_spent. rewrite AG. assert (RM : money < 2 ^ 64) by reflexivity. destruct VA as [(EV & R & EB)|(c & R & EC & ES)].
  - destruct (explicit_field _ _ _ _ _ EG EV R) as (c & s & E1 & E2 & E3 & _). exists g, c, s. rewrite E1. assert (EM : d_amount d mod 2 ^ 64 = d_amount d) by (apply Z.mod_small; lia).
    split; [reflexivity|]. split; [reflexivity|]. split; [exact EG|]. split; [exact E2|]. split; [|exact EM].
    unfold spent_point. rewrite EM, E3, EB, be_zeros, pmul_0, padd_zero_r. reflexivity.
  - destruct (commit_field _ _ _ _ _ EC ES) as (E1 & _). exists g, c, (nValue u). rewrite E1. assert (EM : d_amount d mod 2 ^ 64 = d_amount d) by (apply Z.mod_small; lia).
    split; [reflexivity|]. split; [reflexivity|]. split; [exact EG|]. split; [exact ES|]. split; [|exact EM].
    unfold spent_point. rewrite EM, (m_commit z G M _ _ _ _ _ EC ES), (m_gen z G M _ _ _ EG). reflexivity.
Qed.

Variables (calls : list blind_args) (t t' : tx) (us : list txout) (real : list input_desc).
Hypothesis BL : Blindings z calls t t'.
Hypothesis NEC : calls <> [] \/ forall inp ps, In inp (vin t) -> iss_field ps inp = [].
Hypothesis UB : Unblinded z calls us t.
Hypothesis TK : TokenKeys calls t.
Hypothesis LU : length us = length (vin t).
Hypothesis SP : Forall2 (SpentAs z) us real.
Hypothesis KN : forall args i u, In args calls -> nth_error us i = Some u -> Knows z args i u.
Hypothesis AX : forall args, In args calls -> (length (a_aux args) <= length (vin t))%nat.
Hypothesis DO : described_once calls real.
Hypothesis CO : Conserves z calls real t.
Let HI : @History z calls t t' := history SO calls t t' BL.
Let W := wanted calls.
Let AI : all_issuances calls t = filter W (issuance_slots (length (vin t))) := all_issuances_filter z order calls t t' SO LAW BL.

Lemma AI_iff i ps inp : nth_error (vin t) i = Some inp -> In (i, ps) (all_issuances calls t) <-> W (i, ps) = true.
Proof.
  intros E. rewrite AI, filter_In, slot_In. assert (i < length (vin t))%nat by (apply nth_error_Some; congruence). tauto.
Qed.
Lemma W_key i ps : W (i, ps) = true <-> exists args, In args calls /\ nth i (if ps then a_token_keys args else a_asset_keys args) None <> None.
Proof.
  unfold W, wanted. rewrite existsb_exists. unfold wants_issuance. cbn [fst snd]. split; intros (args & IN & X); exists args; (split; [exact IN|]).
  - intros E. rewrite E in X. discriminate X.
  - destruct (nth i _ None); [reflexivity|congruence].
Qed.
Lemma blinded_amount i inp : iss_field false inp <> [] -> amount_blinded calls i inp = W (i, false).
Proof.
  intros N. unfold amount_blinded. change (is_amount (assetIssuance inp)) with (iss_field false inp). rewrite (proj2 (nothing_false _) N). cbn [negb andb]. reflexivity.
Qed.
(** The confidentiality the node sees. *)
Lemma conf_seen i inp inp' : nth_error (vin t) i = Some inp -> nth_error (vin t') i = Some inp' -> is_committed (is_amount (assetIssuance inp')) = amount_blinded calls i inp.
Proof.
  intros E E'. destruct (hi_iss _ _ _ HI i false inp E) as (x & EX & D). assert (x = inp') by congruence. subst x. change (is_amount (assetIssuance inp')) with (iss_field false inp').
  destruct D as [(NI & EF & _)|(IN & args & key & bf & _ & BI)].
  - rewrite EF. destruct (ub_iss _ _ _ _ UB inp false (nth_error_In _ _ E)) as [Z0|(v & (d & Z0 & _) & _)].
    + unfold amount_blinded. change (is_amount (assetIssuance inp)) with (iss_field false inp). rewrite Z0. reflexivity.
    + rewrite blinded_amount by (rewrite Z0; discriminate). rewrite Z0. symmetry. destruct (W (i, false)) eqn:EW; [|reflexivity]. exfalso. apply NI, (AI_iff _ _ _ E). exact EW.
  - destruct BI as (u & e & asset & gen & commit & (d & Z0 & _) & _ & _ & _ & _ & EC & ES & _). destruct (commit_field _ _ _ _ _ EC ES) as (_ & -> & _). rewrite blinded_amount by (rewrite Z0; discriminate).
    symmetry. apply (AI_iff _ _ _ E). exact IN.
Qed.
(** Tokens are issued by new issuances only, and their id is the one used everywhere. *)
Lemma keys_new i inp u : nth_error us i = Some u -> nth_error (vin t) i = Some inp -> iss_field true inp <> [] -> is_nonce (assetIssuance inp) = zeros 32.
Proof.
  intros EU EI N. assert (R := ub_reissue _ _ _ _ UB i u inp EU EI (or_intror N)). unfold reissue_ok in R. apply orb_prop in R. destruct R as [R|R]; [apply bytes_eqb_eq; exact R|].
  apply andb_prop in R. destruct R as [R _]. apply nothing_true in R. contradiction.
Qed.
Lemma target_ids args i tok inp l tok' u : In args calls -> nth_error us i = Some u -> nth_error (vin t) i = Some inp -> InputTargets z args i tok inp l tok' ->
  exists g l1 l2, asset_gen z (nAsset u) = Some g /\ map tg_gen l = g :: l1 ++ l2
    /\ (forall conf, (iss_field false inp = [] /\ l1 = []) \/ (iss_field false inp <> [] /\ exists gi, gen_generate z (node_id z false conf inp) = Some gi /\ l1 = [gi]))
    /\ ((iss_field true inp = [] /\ l2 = []) \/ (iss_field true inp <> [] /\ exists gt, gen_generate z (node_id z true (amount_blinded calls i inp) inp) = Some gt /\ l2 = [gt])).
Proof.
  intros IN EU EI (d & g & l1 & l2 & ED & H2 & H3 & -> & H5). destruct (Forall2_nth_l _ _ _ SP i u EU) as (r & _ & SA). destruct (spent _ _ SA) as (g0 & _ & _ & _ & AG & EG0 & _).
  assert (GG : asset_gen z (nAsset u) = Some g).
  { destruct (KN args i u IN EU) as (d' & ED' & K). assert (d' = d) by congruence. subst d'. destruct K as [(NZ & AS)|(EZ & ag & EA & K)].
    - specialize (H2 NZ). destruct AS as [(E & L & EZ)|(g' & EG' & ES)].
      + rewrite E. apply explicit_asset_gen; [exact L|]. apply (cl_zero z CL). rewrite <- EZ. exact H2.
      + assert (g' = g) by congruence. subst g'. apply (gen_field _ _ _ _ H2 ES).
    - destruct (H3 EZ) as (ag' & EA' & EP). assert (ag' = ag) by congruence. subst ag'. destruct K as [(E & NX)|(a & g' & E & L & EG & ES)].
      + subst ag. destruct (proj1 SA) as [(E & _)|(g' & EG' & ES)]; [rewrite E in NX; exfalso; apply NX; reflexivity|]. assert (g' = g) by (rewrite (cl_gen z CL _ _ _ _ EG' ES) in EP; congruence). subst g'.
        apply (gen_field _ _ _ _ EG' ES).
      + rewrite E. apply explicit_asset_gen; [exact L|]. apply (cl_zero z CL) in EG. assert (X := cl_gen z CL _ _ _ _ EG ES). apply (cl_zero z CL). congruence. }
  exists g, (map tg_gen l1), (map tg_gen l2). split; [exact GG|]. split; [cbn [map tg_gen]; rewrite map_app; reflexivity|].
  destruct H5 as [(A & K & -> & -> & _)|(e & _ & EN & T1 & T2 & A & K)].
  - split; [intros conf; left; split; [exact A|reflexivity]|]. left. split; [exact K|reflexivity].
  - apply entropy_node in EN. subst e. split.
    + intros conf. destruct A as [(A & ->)|(A & gi & EG & ->)]; [left; split; [exact A|reflexivity]|]. right. split; [exact A|]. exists gi. split; [exact EG|reflexivity].
    + destruct K as [(K & ->)|(K & token & gt & ET & EG & ->)]; [left; split; [exact K|reflexivity]|]. right. split; [exact K|]. exists gt. split; [|reflexivity].
      assert (NZ := keys_new i inp u EU EI K). rewrite (T2 NZ) in ET. assert (X := TK args i inp IN EI NZ K). unfold node_id.
      assert (EB : (match nth i (a_token_keys args) None with Some _ => x02 | None => x01 end) = (if amount_blinded calls i inp then x02 else x01)).
      { destruct (nth i (a_token_keys args) None) as [key|]; destruct (amount_blinded calls i inp); try reflexivity; exfalso.
        - assert (false = true) by (apply X; discriminate). discriminate.
        - apply (proj2 X); reflexivity. }
      rewrite EB in ET. congruence.
Qed.

(** The point of an issued amount: its commitment, or amount times asset point. *)
Definition pti (x : nat * bool) : pt G :=
  if W x then issuance_point M t' x else psum (map (explicit_point M) (issued_at z calls t x)).
Lemma issued_item i ps inp inp' u w : nth_error us i = Some u -> nth_error (vin t) i = Some inp -> nth_error (vin t') i = Some inp' ->
  iss_proof ps w = iss_proof ps (inwit_at t' i) ->
  (iss_field ps inp = [] /\ node_issued z V (node_id z ps (amount_blinded calls i inp) inp') (iss_field ps inp') (iss_proof ps w) = Some [] /\ pti (i, ps) == pzero G)
  \/ (iss_field ps inp <> [] /\ exists g c s, gen_generate z (node_id z ps (amount_blinded calls i inp) inp) = Some g
      /\ node_issued z V (node_id z ps (amount_blinded calls i inp) inp') (iss_field ps inp') (iss_proof ps w) = Some [(g, c)]
      /\ ped_serialize z c = Some s /\ cpt M s == pti (i, ps)).
Proof.
  intros EU EI EI' EW. assert (S := Forall2_nth _ _ _ (hi_in _ _ _ HI) i inp inp' EI EI'). rewrite (Same_node_id z _ _ ps _ S).
  destruct (hi_iss _ _ _ HI i ps inp EI) as (x & EX & D). assert (x = inp') by congruence. subst x.
  assert (LT : (i < length (vin t))%nat) by (apply nth_error_Some; congruence).
  (* the generator exists because some party computed it *)
  assert (GE : iss_field ps inp <> [] -> exists g, gen_generate z (node_id z ps (amount_blinded calls i inp) inp) = Some g).
  { intros N. assert (EC : exists args, In args calls) by (destruct NEC as [NE|NE]; [destruct calls as [|a r]; [congruence|exists a; left; reflexivity]|destruct (N (NE inp ps (nth_error_In _ _ EI)))]). destruct EC as [args IN].
    destruct (hi_targets _ _ _ HI args IN) as (l & l1 & l2 & tok & TF & _). destruct (TargetsFrom_at _ _ _ _ _ _ _ TF i inp EI) as (ta & la & tb & IT). cbn [Nat.add] in IT.
    destruct (target_ids _ _ _ _ _ _ _ IN EU EI IT) as (g & m1 & m2 & _ & _ & A & K). destruct ps.
    - destruct K as [(K & _)|(_ & gt & E & _)]; [contradiction|eauto].
    - destruct (A (amount_blinded calls i inp)) as [(KK & _)|(_ & gt & E & _)]; [contradiction|eauto]. }
  destruct D as [(NI & EF & EP)|(IN & args & key & bf & _ & BI)].
  - assert (NW : W (i, ps) = false) by (destruct (W (i, ps)) eqn:EWW; [exfalso; apply NI, (AI_iff _ _ _ EI); exact EWW|reflexivity]).
    unfold pti. rewrite NW. unfold issued_at. cbn [fst snd]. rewrite EI, EF, EW, EP, (ub_inwit _ _ _ _ UB).
    destruct (ub_iss _ _ _ _ UB inp ps (nth_error_In _ _ EI)) as [Z0|(v & EV & R)].
    + left. split; [exact Z0|]. rewrite Z0. split; [reflexivity|]. reflexivity.
    + right. assert (NN : iss_field ps inp <> []) by (destruct EV as (d & -> & _); discriminate). split; [exact NN|]. destruct (GE NN) as [g EG].
      assert (EGB : gen_generate_blinded z (node_id z ps (amount_blinded calls i inp) inp) (zeros 32) = Some g) by (apply (cl_zero z CL); exact EG).
      destruct (explicit_field _ _ _ _ _ EGB EV R) as (c & s & E1 & E2 & E3 & _). exists g, c, s. split; [exact EG|]. split.
      * unfold node_issued. rewrite EG, E1. destruct EV as (d & -> & _). reflexivity.
      * split; [exact E2|]. rewrite E3, (proj2 (nothing_false _) NN). cbn [map]. rewrite psum_cons. change (psum []) with (pzero G). rewrite padd_zero_r. unfold explicit_point. cbn [fst snd].
        rewrite be_zeros, pmul_0, padd_zero_r. destruct EV as (d & -> & _ & EVD). cbn [tl]. rewrite EVD. reflexivity.
  - right. destruct BI as (v & e & asset & gen & commit & (d & Z0 & L8 & EV) & EN & NN & EA & EG & EC & ES & ER).
    assert (NF : iss_field ps inp <> []) by (rewrite Z0; discriminate). split; [exact NF|].
    assert (EID : node_id z ps (amount_blinded calls i inp) inp = asset).
    { apply entropy_node in EN. subst e. rewrite EA. unfold node_id. destruct ps; [|reflexivity]. replace (amount_blinded calls i inp) with true; [reflexivity|]. symmetry.
      apply (AI_iff _ _ _ EI), W_key in IN. destruct IN as (a & IN & NK). apply (TK a i inp IN EI (NN eq_refl) NF). exact NK. }
    rewrite EID. destruct (commit_field _ _ _ _ _ EC ES) as (E1 & E2 & E3).
    assert (EGG : gen_generate z asset = Some gen) by (apply (cl_zero z CL); exact EG).
    exists gen, commit, (iss_field ps inp'). split; [exact EGG|]. split.
    + unfold node_issued. rewrite EGG, E1, EW.
      assert (VR : 0 <= v < 2 ^ 64) by (rewrite <- EV; apply be_val_8; exact L8).
      destruct (vl_range _ _ _ VL _ _ _ _ _ _ _ _ _ _ _ VR EC ER) as (m & EM & _).
      assert (RO : range_ok V (iss_field ps inp') commit [] gen (iss_proof ps (inwit_at t' i)) = true).
      { unfold range_ok. rewrite EM. destruct (so_comser z SO _ _ ES) as (dd & _ & [E | E]); rewrite E; cbn [unspendable]; apply orb_true_r. }
      rewrite RO. destruct (iss_field ps inp'); [congruence|reflexivity].
    + split; [exact ES|]. unfold pti. rewrite (proj1 (AI_iff _ _ _ EI) IN). unfold issuance_point. cbn [fst snd]. rewrite EI'. reflexivity.
Qed.

Lemma wit_present i inp : nth_error (vin t) i = Some inp -> iss_field false inp <> [] \/ iss_field true inp <> [] ->
  nth_error (vtxinwit (wit t')) i = Some (inwit_at t' i).
Proof.
  intros EI N. assert (L := ub_ninwit _ _ _ _ UB i inp EI N). assert (L' := hi_nwit _ _ _ HI). unfold inwit_at. apply nth_error_nth'. lia.
Qed.

(** One input. *)
Definition ptin (i : nat) : pt G := match nth_error real i with Some d => spent_point M d | None => pzero G end ++p (pti (i, false) ++p pti (i, true)).
Lemma input_ok i u inp : nth_error us i = Some u -> nth_error (vin t) i = Some inp ->
  exists items ss, node_input z V us t' i = Some items /\ Forall2 (fun x s => ped_serialize z (snd x) = Some s) items ss /\ psum (map (cpt M) ss) == ptin i
    /\ forall args tok l tok', In args calls -> InputTargets z args i tok inp l tok' -> map tg_gen l = map fst items.
Proof.
  intros EU EI. destruct (Forall2_nth_l _ _ _ (hi_in _ _ _ HI) i inp EI) as (inp' & EI' & S).
  destruct (Forall2_nth_l _ _ _ SP i u EU) as (d & ED & SA). destruct (spent _ _ SA) as (g & c & s & ES & AG & _ & E1 & E2 & _).
  assert (NA := proj2 (proj2 (proj2 S)) false). assert (NK := proj2 (proj2 (proj2 S)) true).
  unfold node_input, ptin. rewrite EU, EI', ED. cbv zeta.
  assert (T : forall items : list (bytes * bytes), (exists l1 l2, map fst items = g :: l1 ++ l2
      /\ (iss_field false inp = [] -> l1 = []) /\ (iss_field true inp = [] -> l2 = [])
      /\ (iss_field false inp <> [] -> exists gi, gen_generate z (node_id z false (amount_blinded calls i inp) inp) = Some gi /\ l1 = [gi])
      /\ (iss_field true inp <> [] -> exists gi, gen_generate z (node_id z true (amount_blinded calls i inp) inp) = Some gi /\ l2 = [gi])) ->
      forall args tok l tok', In args calls -> InputTargets z args i tok inp l tok' -> map tg_gen l = map fst items).
  { intros items (l1 & l2 & -> & A1 & A2 & A3 & A4) args tok l tok' IN IT.
    destruct (target_ids _ _ _ _ _ _ _ IN EU EI IT) as (g0 & m1 & m2 & AG0 & -> & B1 & B2). assert (g0 = g) by congruence. subst g0. f_equal. specialize (B1 (amount_blinded calls i inp)).
    f_equal.
    - destruct B1 as [(N & ->)|(N & gi & E & ->)]; [symmetry; auto|]. destruct (A3 N) as (gj & E' & ->). congruence.
    - destruct B2 as [(N & ->)|(N & gi & E & ->)]; [symmetry; auto|]. destruct (A4 N) as (gj & E' & ->). congruence. }
  destruct (nothing (is_amount (assetIssuance inp')) && nothing (is_keys (assetIssuance inp'))) eqn:NN.
  - apply andb_prop in NN. destruct NN as [N1 N2]. apply nothing_true in N1. apply nothing_true in N2. apply NA in N1. apply NK in N2.
    exists [(g, c)], [s]. split; [exact ES|]. split; [constructor; [exact E1|constructor]|]. split.
    + destruct (issued_item i false inp inp' u (inwit_at t' i) EU EI EI' eq_refl) as [(_ & _ & P1)|(X & _)]; [|contradiction].
      destruct (issued_item i true inp inp' u (inwit_at t' i) EU EI EI' eq_refl) as [(_ & _ & P2)|(X & _)]; [|contradiction].
      rewrite P1, P2, padd_zero, padd_zero_r. cbn [map]. rewrite psum_cons. change (psum []) with (pzero G). rewrite padd_zero_r. exact E2.
    + apply T. exists [], []. split; [reflexivity|]. split; [reflexivity|]. split; [reflexivity|]. split; intros X; contradiction.
  - assert (SOME : iss_field false inp <> [] \/ iss_field true inp <> []).
    { apply andb_false_iff in NN. destruct NN as [N|N]; apply nothing_false in N; [left|right]; intros X; apply N; [apply NA|apply NK]; exact X. }
    rewrite (wit_present i inp EI SOME), (conf_seen i inp inp' EI EI').
    assert (RE : reissue_ok z u inp' (node_id z true (amount_blinded calls i inp) inp') = true).
    { rewrite (Same_node_id z _ _ _ _ S). assert (R := ub_reissue _ _ _ _ UB i u inp EU EI SOME). destruct S as (_ & N & _ & _). unfold reissue_ok in *. rewrite N.
      destruct (bytes_eqb (is_nonce (assetIssuance inp)) (zeros 32)); [reflexivity|]. cbn [orb] in *. apply andb_prop in R. destruct R as [R1 R2]. rewrite R2.
      apply nothing_true in R1. apply NK in R1. cbn [iss_field] in R1. rewrite R1. reflexivity. }
    rewrite RE. change (iw_issproof (inwit_at t' i)) with (iss_proof false (inwit_at t' i)). change (iw_keysproof (inwit_at t' i)) with (iss_proof true (inwit_at t' i)).
    change (is_amount (assetIssuance inp')) with (iss_field false inp'). change (is_keys (assetIssuance inp')) with (iss_field true inp').
    cbn [opt_concat]. rewrite ES.
    destruct (issued_item i false inp inp' u (inwit_at t' i) EU EI EI' eq_refl) as [(N1 & I1 & P1)|(N1 & g1 & c1 & s1 & G1 & I1 & C1 & P1)]; rewrite I1;
    destruct (issued_item i true inp inp' u (inwit_at t' i) EU EI EI' eq_refl) as [(N2 & I2 & P2)|(N2 & g2 & c2 & s2 & G2 & I2 & C2 & P2)]; rewrite I2; cbn [app].
    + destruct SOME; contradiction.
    + exists [(g, c); (g2, c2)], [s; s2]. split; [reflexivity|]. split; [constructor; [exact E1|constructor; [exact C2|constructor]]|]. split.
      * cbn [map]. rewrite !psum_cons. change (psum []) with (pzero G). rewrite P1, padd_zero, padd_zero_r, E2, P2. reflexivity.
      * apply T. exists [], [g2]. split; [reflexivity|]. split; [reflexivity|]. split; [intros X; contradiction|]. split; [intros X; contradiction|intros _; eauto].
    + exists [(g, c); (g1, c1)], [s; s1]. split; [reflexivity|]. split; [constructor; [exact E1|constructor; [exact C1|constructor]]|]. split.
      * cbn [map]. rewrite !psum_cons. change (psum []) with (pzero G). rewrite P2, !padd_zero_r, E2, P1. reflexivity.
      * apply T. exists [g1], []. split; [reflexivity|]. split; [intros X; contradiction|]. split; [reflexivity|]. split; [intros _; eauto|intros X; contradiction].
    + exists [(g, c); (g1, c1); (g2, c2)], [s; s1; s2]. split; [reflexivity|]. split; [constructor; [exact E1|constructor; [exact C1|constructor; [exact C2|constructor]]]|]. split.
      * cbn [map]. rewrite !psum_cons. change (psum []) with (pzero G). rewrite padd_zero_r, E2, P1, P2. reflexivity.
      * apply T. exists [g1], [g2]. split; [reflexivity|]. split; [intros X; contradiction|]. split; [intros X; contradiction|]. split; intros _; eauto.
Qed.

(** All inputs from number [k] on. *)
Lemma inputs_ok n : forall k, (k + n = length (vin t))%nat ->
  exists items ss, opt_concat (map (node_input z V us t') (seq k n)) = Some items /\ Forall2 (fun x s => ped_serialize z (snd x) = Some s) items ss
    /\ psum (map (cpt M) ss) == psum (map ptin (seq k n))
    /\ forall args tok l tok', In args calls -> TargetsFrom z args k tok (skipn k (vin t)) l tok' -> map tg_gen l = map fst items.
Proof.
  induction n as [|n IH]; intros k L.
  - exists [], []. split; [reflexivity|]. split; [constructor|]. split; [reflexivity|]. intros args tok l tok' _ TF. rewrite skipn_all2 in TF by lia. inversion TF; subst. reflexivity.
  - destruct (nth_error (vin t) k) as [inp|] eqn:EI; [|apply nth_error_None in EI; lia]. destruct (nth_error us k) as [u|] eqn:EU; [|apply nth_error_None in EU; lia].
    destruct (input_ok k u inp EU EI) as (i1 & s1 & A1 & A2 & A3 & A4). destruct (IH (S k) ltac:(lia)) as (i2 & s2 & B1 & B2 & B3 & B4).
    exists (i1 ++ i2), (s1 ++ s2). cbn [seq map opt_concat]. rewrite A1, B1. split; [reflexivity|]. split; [apply Forall2_app; assumption|]. split.
    + rewrite map_app, psum_app, psum_cons, A3, B3. reflexivity.
    + intros args tok l tok' IN TF. rewrite (skipn_nth _ _ _ EI) in TF. inversion TF as [|? ? ? ? l1 tk l2 ? H1 H2]; subst. rewrite !map_app, (A4 _ _ _ _ IN H1), (B4 _ _ _ _ IN H2). reflexivity.
Qed.

(** One output. *)
Lemma output_ok gens j o : (forall args targets, In args calls -> SurjectionTargets z args t targets -> map tg_gen targets = gens) ->
  nth_error (vout t) j = Some o ->
  exists o' cs ss, nth_error (vout t') j = Some o' /\ node_output z V gens t' j = Some cs /\ Forall2 (fun c s => ped_serialize z c = Some s) cs ss
    /\ psum (map (cpt M) ss) == out_point M o'.
Proof.
  intros GE EO. destruct (hi_out _ _ _ HI j o EO) as (o' & EO' & D). exists o'. unfold node_output. rewrite EO'. cbv zeta. destruct D as [(-> & EW)|(args & targets & pub & bf & abf & eph & seed & IN & TG & BO)].
  - destruct (ub_out _ _ _ _ UB o (nth_error_In _ _ EO)) as (a & g & (EA & LA) & EG & AM). rewrite EW, (ub_outwit _ _ _ _ UB), EA, (explicit_asset_gen _ _ LA EG). cbn [surj_ok ow_surj ow_range nothing].
    destruct AM as [(v & EV & R)|(EZ & US)].
    + assert (NZ : bytes_eqb (nValue o) (x01 :: zeros 8) = false).
      { destruct (bytes_eqb (nValue o) (x01 :: zeros 8)) eqn:E; [|reflexivity]. exfalso. apply bytes_eqb_eq in E. destruct EV as (d & E' & _ & V0). assert (d = zeros 8) by congruence. subst d. change (be_val (zeros 8)) with 0 in V0. lia. }
      rewrite NZ. assert (EGB : gen_generate_blinded z a (zeros 32) = Some g) by (apply (cl_zero z CL); exact EG).
      destruct (explicit_field _ _ _ _ _ EGB EV R) as (c & s & E1 & E2 & E3 & _). rewrite E1. exists [c], [s]. split; [reflexivity|]. split; [destruct EV as (d & -> & _); reflexivity|]. split; [constructor; [exact E2|constructor]|].
      cbn [map]. rewrite psum_cons. change (psum []) with (pzero G). rewrite padd_zero_r, E3, be_zeros, pmul_0, padd_zero_r. unfold out_point. rewrite EA. destruct EV as (d & -> & _ & ->). reflexivity.
    + rewrite EZ, US. exists [], []. split; [reflexivity|]. split; [rewrite (proj2 (bytes_eqb_eq _ _) eq_refl); reflexivity|]. split; [constructor|]. unfold out_point. rewrite EZ. change (be_val (zeros 8)) with 0. rewrite pmul_0. reflexivity.
  - destruct BO as (v & asset & gen & commit & sh & mv & (d & EV & L8 & EVV) & _ & EG & EGS & EC & ECS & _ & _ & _ & SC & U0 & U1 & RS & p0 & idx & tg & proof & _ & _ & SG & SV & OS & _).
    destruct (gen_field _ _ _ _ EG EGS) as (AG & NX). destruct (commit_field _ _ _ _ _ EC ECS) as (VC & IC & _). rewrite AG.
    assert (SU : surj_ok z V gens (nAsset o') gen (ow_surj (outwit_at t' j)) = true).
    { unfold surj_ok. rewrite OS, (vl_surj _ _ _ VL _ _ _ _ _ _ _ _ SG), <- (GE _ _ IN TG), map_length, SV. destruct (so_genser z SO _ _ EGS) as (dd & _ & [E | E]); rewrite E; reflexivity. }
    rewrite SU. assert (NZ : bytes_eqb (nValue o') (x01 :: zeros 8) = false).
    { destruct (bytes_eqb (nValue o') (x01 :: zeros 8)) eqn:E; [|reflexivity]. exfalso. apply bytes_eqb_eq in E. rewrite E in IC. discriminate IC. }
    rewrite NZ, VC. assert (VR : 0 <= v < 2 ^ 64) by (rewrite <- EVV; apply be_val_8; exact L8).
    destruct (vl_range _ _ _ VL _ _ _ _ _ _ _ _ _ _ _ VR EC RS) as (m & EM & LM).
    assert (RO : range_ok V (nValue o') commit (scriptPubKey o') gen (ow_range (outwit_at t' j)) = true).
    { unfold range_ok. rewrite SC, EM. assert (X : negb (m =? 0) || unspendable (scriptPubKey o) = true).
      { destruct (unspendable (scriptPubKey o)) eqn:US; [apply orb_true_r|]. rewrite orb_false_r. apply negb_true_iff, Z.eqb_neq. assert (mv = 1) by (apply U1; rewrite Unspendable_iff; congruence). lia. }
      rewrite X. destruct (so_comser z SO _ _ ECS) as (dd & _ & [E | E]); rewrite E; reflexivity. }
    rewrite RO. exists [commit], [nValue o']. split; [reflexivity|]. split; [reflexivity|]. split; [constructor; [exact ECS|constructor]|].
    cbn [map]. rewrite psum_cons. change (psum []) with (pzero G). rewrite padd_zero_r. unfold out_point. destruct (so_comser z SO _ _ ECS) as (dd & _ & [E | E]); rewrite E; reflexivity.
Qed.
Lemma outputs_ok gens : (forall args targets, In args calls -> SurjectionTargets z args t targets -> map tg_gen targets = gens) ->
  forall n k, (k + n = length (vout t))%nat ->
  exists cs ss, opt_concat (map (node_output z V gens t') (seq k n)) = Some cs /\ Forall2 (fun c s => ped_serialize z c = Some s) cs ss
    /\ psum (map (cpt M) ss) == psum (map (out_point M) (skipn k (vout t'))).
Proof.
  intros GE. induction n as [|n IH]; intros k L.
  - exists [], []. split; [reflexivity|]. split; [constructor|]. rewrite skipn_all2 by (rewrite (hi_nout _ _ _ HI); lia). reflexivity.
  - destruct (nth_error (vout t) k) as [o|] eqn:EO; [|apply nth_error_None in EO; lia]. destruct (output_ok gens k o GE EO) as (o' & c1 & s1 & A0 & A1 & A2 & A3). destruct (IH (S k) ltac:(lia)) as (c2 & s2 & B1 & B2 & B3).
    exists (c1 ++ c2), (s1 ++ s2). cbn [seq map opt_concat]. rewrite A1, B1. split; [reflexivity|]. split; [apply Forall2_app; assumption|].
    rewrite (skipn_nth _ _ _ A0). cbn [map]. rewrite map_app, psum_app, psum_cons, A3, B3. reflexivity.
Qed.

(** The sums. *)
Lemma pti_split L : psum (map pti L) == psum (map (issuance_point M t') (filter W L)) ++p psum (map (explicit_point M) (flat_map (issued_at z calls t) (filter (fun x => negb (W x)) L))).
Proof.
  induction L as [|x L IH]; [cbn; symmetry; apply padd_zero|]. cbn [map filter]. rewrite psum_cons, IH. unfold pti at 1. destruct (W x); cbn [negb map flat_map].
  - rewrite psum_cons, padd_assoc. reflexivity.
  - rewrite map_app, psum_app. set (a := psum (map (explicit_point M) (issued_at z calls t x))). rewrite !padd_assoc. apply padd_eq; [|reflexivity]. apply padd_comm.
Qed.
Definition id_of (x : nat * bool) : bytes := match nth_error (vin t) (fst x) with Some inp => node_id z (snd x) (amount_blinded calls (fst x) inp) inp | None => [] end.
Lemma blinded_slot x : In x (filter W (issuance_slots (length (vin t)))) -> IssuedId z t x (id_of x) /\ issued_at z calls t x = [(id_of x, issued_amount t x)].
Proof.
  destruct x as [i ps]. rewrite filter_In, slot_In. intros [LT HW]. destruct (nth_error (vin t) i) as [inp|] eqn:EI; [|apply nth_error_None in EI; lia].
  destruct (hi_iss _ _ _ HI i ps inp EI) as (inp' & EI' & [(NI & _)|(IN & args & key & bf & _ & BI)]); [exfalso; apply NI, (AI_iff _ _ _ EI); exact HW|].
  destruct BI as (v & e & asset & gen & commit & (d & Z0 & L8 & EV) & EN & NN & _).
  assert (NF : iss_field ps inp <> []) by (rewrite Z0; discriminate).
  assert (EB : ps = true -> amount_blinded calls i inp = true).
  { intros EP. rewrite EP in *. apply W_key in HW. destruct HW as (a & INa & NK). apply (TK a i inp INa EI (NN eq_refl) NF). exact NK. }
  unfold id_of, issued_at, issued_amount. cbn [fst snd]. rewrite EI. split.
  - exists inp, e. split; [exact EI|]. split; [exact EN|]. cbn [snd]. apply entropy_node in EN. subst e. unfold node_id. destruct ps; [rewrite EB by reflexivity|]; reflexivity.
  - rewrite (proj2 (nothing_false _) NF). reflexivity.
Qed.
Lemma issued_split a L : (forall x, In x (filter W L) -> issued_at z calls t x = [(id_of x, issued_amount t x)]) ->
  amount_of a (flat_map (issued_at z calls t) L)
  = amount_of a (combine (map id_of (filter W L)) (map (issued_amount t) (filter W L))) + amount_of a (flat_map (issued_at z calls t) (filter (fun x => negb (W x)) L)).
Proof.
  induction L as [|x L IH]; intros H; [reflexivity|]. cbn [flat_map filter]. cbn [filter] in H. rewrite amount_of_app. destruct (W x) eqn:EW; cbn [negb flat_map map combine].
  - rewrite IH by (intros y Hy; apply H; right; exact Hy). rewrite (H x) by (left; reflexivity). rewrite Z.add_assoc. f_equal. rewrite <- amount_of_app. reflexivity.
  - rewrite IH by exact H. rewrite amount_of_app. lia.
Qed.
Lemma slots_sum (f : nat * bool -> pt G) n : forall k, psum (map (fun i => f (i, false) ++p f (i, true)) (seq k n)) == psum (map f (flat_map (fun i => [(i, false); (i, true)]) (seq k n))).
Proof.
  induction n as [|n IH]; intros k; [reflexivity|]. cbn [seq map flat_map app]. rewrite !psum_cons, IH, <- !padd_assoc. reflexivity.
Qed.

Theorem node_accepts : node_check z V us t' = true.
Proof.
  assert (LV := Forall2_len _ _ _ (hi_in _ _ _ HI)). unfold node_check. rewrite LU, <- LV, Nat.eqb_refl. cbn [andb].
  destruct (inputs_ok (length (vin t)) 0 eq_refl) as (items & ss & E1 & F1 & P1 & GE). rewrite E1.
  assert (GE' : forall args targets, In args calls -> SurjectionTargets z args t targets -> map tg_gen targets = map fst items).
  { intros args targets IN (l1 & l2 & tok & TF & FA & ->). rewrite skipn_all2 in FA by (apply AX; exact IN). inversion FA; subst. rewrite app_nil_r. eapply GE; [exact IN|exact TF]. }
  destruct (outputs_ok (map fst items) GE' (length (vout t)) 0 eq_refl) as (cs & ss' & E2 & F2 & P2). rewrite (hi_nout _ _ _ HI), E2.
  assert (F1' : Forall2 (fun c s => ped_serialize z c = Some s) (map snd items) ss) by (clear - F1; induction F1; cbn [map]; constructor; assumption).
  apply (vl_tally _ _ _ VL _ _ _ _ F1' F2). rewrite P1, P2. cbn [skipn].
  set (slots := issuance_slots (length (vin t))) in *. set (extra := flat_map (issued_at z calls t) (filter (fun x => negb (W x)) slots)).
  assert (LR : length real = length (vin t)) by (rewrite <- (Forall2_len _ _ _ SP); exact LU).
  assert (ES : psum (map ptin (seq 0 (length (vin t)))) == psum (map (spent_point M) real) ++p psum (map pti slots)).
  { unfold ptin. rewrite psum_map_add. apply padd_eq; [|apply slots_sum].
    rewrite (psum_seq real (spent_point M) (fun i => match nth_error real i with Some d => spent_point M d | None => pzero G end) 0).
    - rewrite LR. reflexivity.
    - intros k d E. cbn [Nat.add]. rewrite E. reflexivity. }
  rewrite ES, pti_split. fold extra.
  assert (IDS : Forall2 (IssuedId z t) (all_issuances calls t) (map id_of (all_issuances calls t))).
  { rewrite AI. fold slots. assert (X : forall x, In x (filter W slots) -> IssuedId z t x (id_of x)) by (intros x Hx; apply blinded_slot; exact Hx). apply Forall2_self_map. exact X. }
  assert (EXP : forall o, In o (vout t) -> exists u a, ExplicitValue (nValue o) u /\ ExplicitAsset (nAsset o) a).
  { intros o IN. destruct (ub_out _ _ _ _ UB o IN) as (a & g & EA & _ & [(v & EV & _)|(EZ & _)]); [exists v, a; auto|]. exists 0, a. split; [|exact EA]. exists (zeros 8). split; [exact EZ|]. split; reflexivity. }
  assert (AMT : AllAmountsBalance calls real t (map id_of (all_issuances calls t)) extra).
  { intros a. rewrite <- CO. unfold issued. fold slots. rewrite AI. fold slots. rewrite !amount_of_app. rewrite (issued_split a slots) by (intros x Hx; apply blinded_slot; exact Hx). fold extra.
    assert (EM : map (fun d => (d_asset d, d_amount d mod 2 ^ 64)) real = map (fun d => (d_asset d, d_amount d)) real).
    { clear - SP SO CL VL. induction SP as [|u d us' rl SA F IH]; [reflexivity|]. cbn [map]. destruct (spent _ _ SA) as (_ & _ & _ & _ & _ & _ & _ & _ & ->). rewrite (IH F). reflexivity. }
    rewrite EM. lia. }
  assert (B := C66_parties_balance z order G M calls t t' real _ extra SO LAW BL EXP DO IDS AMT). rewrite <- B, !psum_app, AI. fold slots. rewrite padd_assoc. reflexivity.
Qed.
End N.
