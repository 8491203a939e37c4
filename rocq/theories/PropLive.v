(** blind() blinds everything when nothing stands in the way: property C103. *)
From Verif Require Import Base BaseFacts TxModel BlindModel SpecBlind SpecBalance BlindFacts BlindFrame BlindFails BlindSteps BlindComplete BlindMain BlindBalance BlindProps ToyCrypto ToyTx BlindTargets SpecFault SpecExc ExcProofs SpecLive LiveProofs ExampleProofs PropBlind PropFault PropExc.
From Coq Require Import Lia.
Local Open Scope Z_scope.

(** C103. With arguments of the documented types that fit the transaction, nothing at fault in it, a library that
    refuses none of the calls blind() has to make and can begin the surjection proofs, keys only for issuances that can
    be blinded, and at least one output to blind that is not alone, blind() ends with success, and counts every
    issuance and every output it was asked to blind: whether or not it was told to be strict. *)
Theorem C103_blinds_all : forall z rand args t, SizesOk z -> RandOk z rand -> IndexOk z -> WellTyped z args t -> Clear z rand args t ->
  exists bfs abfs s, blind_transaction z rand args t = (Ret (BSuccess (length (issuance_tasks args t) + length (output_tasks args)) bfs abfs), s).
Proof. exact blind_live. Qed.
(** They are then confidential, except the last output when its balancing factor came out zero. *)
Theorem C103_confidential : forall z rand args t, SizesOk z -> RandOk z rand -> IndexOk z -> WellTyped z args t -> RangeProofsNonEmpty z -> Clear z rand args t ->
  exists n bfs abfs s, blind_transaction z rand args t = (Ret (BSuccess n bfs abfs), s)
  /\ (forall i ps key, (i < length (vin t))%nat -> nth i (if ps : bool then a_token_keys args else a_asset_keys args) None = Some key ->
        exists inp', nth_error (vin (s_tx s)) i = Some inp' /\ ConfidentialIssuance ps inp' (inwit_at (s_tx s) i))
  /\ (forall j, wants_output args j ->
        (exists o', nth_error (vout (s_tx s)) j = Some o' /\ ConfidentialOutput o' (outwit_at (s_tx s) j))
        \/ (exists pre, output_tasks args = pre ++ [j]
            /\ nth_error (vout (s_tx s)) j = nth_error (vout t) j
            /\ nth_error bfs j = Some (zeros 32) /\ nth_error abfs j = Some (zeros 32)
            /\ FinalSum z rand args t pre j bfs abfs (zeros 32))).
Proof.
  intros z rand args t SZ RO IO WT RN CL. destruct (blind_live z rand args t SZ RO IO WT CL) as (bfs & abfs & s & H). eexists. exists bfs, abfs, s. split; [exact H|].
  destruct (blind_success z rand args t _ _ _ _ H) as (_ & _ & B). destruct (B eq_refl) as (targets & TG & C).
  assert (FR := blind_transaction_frame z rand args t). rewrite H in FR. cbn [snd] in FR.
  assert (NB := good_of_success _ _ _ _ _ _ _ _ H).
  assert (AB : exists done, AllBlinded z rand args t targets done (s_tx s) bfs abfs).
  { destruct C as [(X & _)|(pre & j & _ & X & _)]; eauto. }
  destruct AB as [done AB].
  split.
  - intros i ps key L K. destruct (AllBlinded_issuances z rand args t targets done (s_tx s) bfs abfs i ps key AB L K) as (k & inp & inp' & _ & _ & E & BI).
    exists inp'. split; [exact E|]. eapply blinded_issuance_confidential; eassumption.
  - intros j W. apply wants_output_task in W. destruct C as [(X & _)|(pre & j' & E & X & F)].
    + left. apply In_nth_error in W. destruct W as [k Hk]. destruct (ab_out _ _ _ _ _ _ _ _ _ X _ _ Hk) as (bf & abf & o & o' & _ & _ & _ & Eo & _ & _ & BO).
      exists o'. split; [exact Eo|]. eapply blinded_confidential; eassumption.
    + assert (ND := output_tasks_NoDup args). rewrite E in W, ND. apply in_app_or in W. destruct W as [W|[<-|[]]].
      * left. apply In_nth_error in W. destruct W as [k Hk]. destruct (ab_out _ _ _ _ _ _ _ _ _ X _ _ Hk) as (bf & abf & o & o' & _ & _ & _ & Eo & _ & _ & BO).
        exists o'. split; [exact Eo|]. eapply blinded_confidential; eassumption.
      * right. exists pre. split; [exact E|]. assert (NI : ~ In j' pre).
        { apply NoDup_remove_2 in ND. rewrite app_nil_r in ND. exact ND. }
        assert (LJ : (j' < length (vout t))%nat).
        { assert (In j' (output_tasks args)) as I by (rewrite E; apply in_or_app; right; left; reflexivity).
          unfold output_tasks in I. apply filter_In in I. destruct I as [I _]. apply in_seq in I.
          assert (length (a_pubkeys args) <= length (vout t))%nat by (apply Nat.nlt_ge; intros Q; apply NB; left; lia). lia. }
        destruct (ab_rest _ _ _ _ _ _ _ _ _ X _ LJ NI) as (R1 & R2 & R3). auto.
Qed.
(** The last two conditions are needed: with nothing but issuances to blind, or with a lone output and nothing blinded
    among the inputs, a strict blind() never succeeds. *)
Theorem C103_needs_output : forall z rand args t n bfs abfs s, a_strict args = true -> ~ stray_key args t ->
  blind_transaction z rand args t = (Ret (BSuccess n bfs abfs), s) ->
  (issuance_tasks args t = [] /\ output_tasks args = [])
  \/ (output_tasks args <> [] /\ (length (output_tasks args) <> 1%nat \/ issuance_tasks args t <> [] \/ blinded_inputs args <> [])).
Proof.
  intros z rand args t n bfs abfs s ST NS H. destruct (output_tasks args) as [|j r] eqn:EO.
  - left. split; [|reflexivity]. destruct (issuance_tasks args t) as [|x q] eqn:EI; [reflexivity|]. exfalso. revert H. apply only_issuances; try assumption. rewrite EI. discriminate.
  - right. split; [discriminate|]. destruct r as [|j' r]; [|left; cbn; lia]. right. destruct (issuance_tasks args t) as [|x q] eqn:EI; [|left; discriminate]. right.
    intros NB. revert H. apply lone_output; try assumption. rewrite EO. reflexivity.
Qed.

(** ** The hypotheses can be met *)
Definition toy_ids : list bytes := flat_map (fun inp =>
  let e := if null_b (is_nonce (assetIssuance inp)) then c_mid toy (c_hash toy (op_hash (prevout inp) ++ le_bytes 4 (op_n (prevout inp))) ++ is_entropy (assetIssuance inp)) else is_entropy (assetIssuance inp) in
  map (fun b => c_mid toy (e ++ tag32 b)) [x00; x01; x02]) (vin toy_tx).
Lemma toy_made a : MadeId toy toy_tx a -> In a toy_ids.
Proof.
  intros (inp & e & b & I & EN & B & ->). unfold toy_ids. apply in_flat_map. exists inp. split; [exact I|].
  assert (EE : e = if null_b (is_nonce (assetIssuance inp)) then c_mid toy (c_hash toy (op_hash (prevout inp) ++ le_bytes 4 (op_n (prevout inp))) ++ is_entropy (assetIssuance inp)) else is_entropy (assetIssuance inp)).
  { destruct EN as [(U & n & L & V & ->)|(U & ->)].
    - assert (X : null_b (is_nonce (assetIssuance inp)) = true) by (apply bytes_eqb_eq; exact U). rewrite X, <- V, <- L, le_bytes_le_val. reflexivity.
    - destruct (null_b (is_nonce (assetIssuance inp))) eqn:X; [apply bytes_eqb_eq in X; contradiction|reflexivity]. }
  cbv zeta. rewrite <- EE. apply (in_map (fun b => c_mid toy (e ++ tag32 b))). destruct B as [-> | [-> | ->]]; cbn; auto.
Qed.
Definition toy_drawn : list bytes := map toy_rand (seq 0 18).
Lemma toy_draws x : Drawn toy_rand toy_args toy_tx x -> In x toy_drawn.
Proof. intros (k & L & ->). apply in_map. apply in_seq. change (draws toy_args toy_tx) with 18%nat in L. lia. Qed.
Definition toy_secrets : list (bytes * bytes) := list_prod [asset_A; asset_I; asset_T] toy_drawn ++ map (fun a => (a, zeros 32)) toy_ids.
Lemma toy_out_of j pub o v a : nth_error (a_pubkeys toy_args) j = Some pub -> nth_error (vout toy_tx) j = Some o -> ExplicitValue (nValue o) v -> ExplicitAsset (nAsset o) a ->
  In a [asset_A; asset_I; asset_T] /\ 1 <= v /\ (scriptPubKey o = [x51] \/ scriptPubKey o = [x51; x51]).
Proof.
  intros EP EO (d & E1 & L & E2) (E3 & _).
  assert (G : forall w b sc, o = toy_out w b sc -> (w =? be_val (be_bytes 8 w)) && (1 <=? w) = true -> a = b /\ 1 <= v /\ scriptPubKey o = sc).
  { intros w b sc -> W. apply andb_prop in W. destruct W as [W1 W2]. apply Z.eqb_eq in W1. apply Z.leb_le in W2. unfold toy_out, expl in *. cbn [nValue nAsset scriptPubKey] in *. injection E1 as <-. injection E3 as ->. split; [reflexivity|]. split; [lia|reflexivity]. }
  destruct j as [|[|[|[|j]]]]; cbn [toy_tx vout nth_error] in EO; try (injection EO as <-).
  - destruct (G _ _ _ eq_refl eq_refl) as (-> & V & ->). cbn. auto.
  - destruct (G _ _ _ eq_refl eq_refl) as (-> & V & ->). cbn. auto.
  - destruct (G _ _ _ eq_refl eq_refl) as (-> & V & ->). cbn. auto.
  - destruct (G _ _ _ eq_refl eq_refl) as (-> & V & ->). cbn. auto.
  - cbn in EP. destruct j; discriminate EP.
Qed.
Lemma toy_secret v a ab : Secret toy toy_rand toy_args toy_tx v a ab -> In (a, ab) toy_secrets.
Proof.
  intros [j pub o v' a' ab' EP NP EO EV EA DR|i ps inp v' a' TA EI EV MI]; apply in_or_app; [left|right].
  - apply in_prod; [exact (proj1 (toy_out_of _ _ _ _ _ EP EO EV EA))|apply toy_draws; exact DR].
  - apply (in_map (fun a => (a, zeros 32))). apply toy_made. exact MI.
Qed.
Definition toy_lists := match fst (surjection_targets toy toy_args (mkSt toy_tx 0)) with Val x => x | _ => ([], [], []) end.
Lemma toy_targets targets : SurjectionTargets toy toy_args toy_tx targets -> toy_lists = (map tg_tag targets, map tg_gen targets, map tg_blind targets).
Proof.
  intros ST. assert (V : match fst (surjection_targets toy toy_args (mkSt toy_tx 0)) with Val _ => true | _ => false end = true) by (vm_compute; reflexivity).
  unfold toy_lists. destruct (surjection_targets toy toy_args (mkSt toy_tx 0)) as [[[[tags gens] blinders]|r|e] s] eqn:E; try discriminate V. cbn [fst].
  apply targets_Val in E. destruct E as (_ & _ & targets' & ST' & -> & -> & ->). rewrite (targets_determined _ _ _ _ _ ST ST'). reflexivity.
Qed.
(** the generator exists and has the right size; the proof can be finished when it can be begun *)
Definition toy_fine (x : bytes * bytes) : bool :=
  (length (fst x) =? 32)%nat && (length (snd x) =? 32)%nat &&
  match gen_generate_blinded toy (fst x) (snd x) with
  | None => false
  | Some g => let '(tags, gens, blinders) := toy_lists in
      match find_chunk (concat tags) (fst x) (length tags) 0 with
      | None => true
      | Some i => match nth_error blinders i with
          | None => false
          | Some b => match sp_generate toy [] (concat gens) (length tags) g i b (snd x) with Some p => sp_verify toy p (concat gens) (length tags) g | None => false end
          end
      end
  end.
Lemma toy_fine_all : forallb toy_fine toy_secrets = true. Proof. vm_compute. reflexivity. Qed.
Lemma toy_fine_in v a ab : Secret toy toy_rand toy_args toy_tx v a ab -> toy_fine (a, ab) = true.
Proof. intros H. apply toy_secret in H. exact (proj1 (forallb_forall _ _) toy_fine_all _ H). Qed.
Lemma toy_factor b : Factor toy toy_rand toy_args toy_tx b -> length b = 32%nat.
Proof.
  intros [(k & _ & ->)|(l & i & _ & _ & E)]; [apply b32_length|]. unfold balance_of in E. cbn [toy blind_sum] in E. injection E as <-. apply b32_length.
Qed.
Lemma toy_unrefused : ~ Refused toy toy_rand toy_args toy_tx.
Proof.
  intros R. destruct R.
  - assert (C : forallb (fun d => match gen_generate_blinded toy (d_asset d) (d_abf d) with None => false | _ => true end) (a_descs toy_args) = true) by (vm_compute; reflexivity).
    rewrite forallb_forall in C. specialize (C d H). rewrite H1 in C. discriminate C.
  - apply toy_made in H. assert (C : forallb (fun a => match gen_generate toy a with None => false | _ => true end) toy_ids = true) by (vm_compute; reflexivity).
    rewrite forallb_forall in C. specialize (C a H). rewrite H0 in C. discriminate C.
  - apply toy_fine_in in H. unfold toy_fine in H. cbn [fst snd] in H. rewrite H0, andb_false_r in H. discriminate H.
  - discriminate H1.
  - discriminate H2.
  - discriminate H3.
  - discriminate H1.
  - assert (C : forallb (fun p => match p with x02 :: _ => true | _ => false end) (a_pubkeys toy_args) = true) by (vm_compute; reflexivity).
    rewrite forallb_forall in C. specialize (C pub H). destruct pub as [|x r]; [discriminate C|]. destruct x; try discriminate C. discriminate H2.
  - assert (FI := toy_fine_in _ _ _ H0). unfold toy_fine in FI. apply andb_prop in FI. destruct FI as [FI _]. apply andb_prop in FI. destruct FI as [LA _]. cbn [fst] in LA. apply Nat.eqb_eq in LA.
    assert (LB : length b = 32%nat) by (destruct H1 as (k & _ & ->); apply b32_length).
    assert (LK : length key = 32%nat).
    { assert (WT : WellTyped toy toy_args toy_tx) by (apply well_typed; vm_compute; reflexivity). assert (Q : blen key = 32) by (apply (wt_keys _ _ _ WT i); destruct ps; auto). unfold blen in Q. lia. }
    assert (V : 0 <= v) by (destruct H0 as [? ? ? ? ? ? _ _ _ (d & _ & _ & <-)|? ? ? ? ? _ _ (d & _ & _ & <-)]; apply be_val_range).
    cbn [toy rp_sign] in H4. rewrite app_length, LA, LB, LK, (proj2 (Z.leb_le 0 v) V) in H4. discriminate H4.
  - destruct (toy_out_of _ _ _ _ _ H H1 H2 H3) as (_ & V & SC).
    assert (NU : ~ Unspendable (scriptPubKey o)) by (intros [X|(r & X)]; destruct SC as [Y|Y]; rewrite Y in X; discriminate X).
    assert (LB := toy_factor _ H8). assert (LAB : length ab = 32%nat) by (destruct H6 as (q & _ & ->); apply b32_length).
    assert (LA : length a = 32%nat) by exact (proj2 H3). rewrite (H5 NU) in H12. cbn [toy rp_sign c_sha] in H12.
    rewrite app_length, LA, LAB, LB, b32_length, (proj2 (Z.leb_le 1 v) V) in H12. discriminate H12.
  - apply toy_fine_in in H0. unfold toy_fine in H0. cbn [fst snd] in H0. rewrite H2, (toy_targets _ H) in H0. apply andb_prop in H0. destruct H0 as [_ H0]. cbn [toy sp_init] in H3.
    rewrite map_length in H0. destruct (find_chunk (concat (map tg_tag targets)) a (length targets) 0) as [j|]; [|discriminate H3]. injection H3 as <- ->.
    rewrite (map_nth_error _ _ _ H4) in H0. change (sp_generate toy [] (concat (map tg_gen targets))) with (sp_generate toy seed (concat (map tg_gen targets))) in H0. rewrite H5 in H0. discriminate H0.
  - apply toy_fine_in in H0. unfold toy_fine in H0. cbn [fst snd] in H0. rewrite H2, (toy_targets _ H) in H0. apply andb_prop in H0. destruct H0 as [_ H0]. cbn [toy sp_init] in H3.
    rewrite map_length in H0. destruct (find_chunk (concat (map tg_tag targets)) a (length targets) 0) as [j|]; [|discriminate H3]. injection H3 as <- ->.
    rewrite (map_nth_error _ _ _ H4) in H0. change (sp_generate toy [] (concat (map tg_gen targets))) with (sp_generate toy seed (concat (map tg_gen targets))) in H0. rewrite H5, H6 in H0. discriminate H0.
Qed.
Lemma toy_provable : Provable toy toy_rand toy_args toy_tx.
Proof.
  constructor.
  - intros targets j pub o a seed ST EP NP EO EA DR.
    assert (I : In a [asset_A; asset_I; asset_T]).
    { assert (X : exists v, ExplicitValue (nValue o) v) by (destruct j as [|[|[|[|[|j]]]]]; cbn [toy_tx vout nth_error] in EO; try solve [injection EO as <-; eexists; eexists; repeat split]; destruct j; discriminate EO).
      destruct X as [v EV]. exact (proj1 (toy_out_of _ _ _ _ _ EP EO EV EA)). }
    assert (C : forallb (fun a => match find_chunk (concat (fst (fst toy_lists))) a (length (fst (fst toy_lists))) 0 with Some _ => true | None => false end) [asset_A; asset_I; asset_T] = true) by (vm_compute; reflexivity).
    rewrite forallb_forall in C. specialize (C a I). rewrite (toy_targets _ ST) in C. cbn [fst] in C. rewrite map_length in C. cbn [toy sp_init].
    destruct (find_chunk (concat (map tg_tag targets)) a (length targets) 0); [eauto|discriminate C].
  - intros p gens n g i ib ob p' E. cbn [toy sp_generate sp_serialize] in *. destruct (_ =? _); [|discriminate E]. injection E as <-. discriminate.
Qed.
Lemma toy_clear : Clear toy toy_rand toy_args toy_tx.
Proof.
  constructor; [exact toy_good| | |exact toy_unrefused|exact toy_no_stray|apply toy_no_retoken|exact toy_provable|discriminate|left; discriminate].
  - destruct C69_ex2 as (_ & _ & _ & _ & H). exact H.
  - intros (i & inp & E & N & _). destruct i as [|[|i]]; cbn [toy_tx vin nth_error] in E; [injection E as <-; apply N; reflexivity..|destruct i; discriminate E].
Qed.
Example C103_ex : SizesOk toy /\ RandOk toy toy_rand /\ IndexOk toy /\ WellTyped toy toy_args toy_tx /\ RangeProofsNonEmpty toy /\ Clear toy toy_rand toy_args toy_tx
  /\ (length (issuance_tasks toy_args toy_tx) + length (output_tasks toy_args))%nat = 6%nat.
Proof.
  split; [exact toy_sizes|]. split; [exact toy_rand_ok|]. split; [exact toy_index|]. split; [apply well_typed; vm_compute; reflexivity|]. split; [exact toy_range_nonempty|]. split; [exact toy_clear|reflexivity].
Qed.
(** A transaction with nothing but an issuance to blind: the hypotheses other than these hold, and blind() fails. *)
Definition iss_args : blind_args := mkArgs toy_descs [] [None; Some (b32 5001)] [None; Some (b32 5002)] [] None None true.
Example C103_ex2 : ~ stray_key iss_args toy_tx /\ fst (blind_transaction toy toy_rand iss_args toy_tx) = Ret (BFailure (F_count 1 2)).
Proof.
  split; [|vm_compute; reflexivity].
  intros (i & ps & inp & IN & EI & A & B). vm_compute in IN. destruct IN as [X|[X|[]]]; injection X as <- <-; injection EI as <-; discriminate A.
Qed.
(** That the asset of an output is among the targets is needed too: else the output is left explicit after others were
    blinded, a strict blind() says so, and one that is not strict reports success. *)
Definition odd_tx : tx := mkTx [toy_in0] [toy_out 700 asset_A [x51]; toy_out 5 asset_I [x51]; toy_out 300 asset_A [x51]] 0 2 (mkTxWit [] []).
Definition odd_args (strict : bool) : blind_args := mkArgs [mkDesc asset_A 1000 (b32 12345) (b32 67890)] [toy_pub 901; toy_pub 902; toy_pub 903] [] [] [] None None strict.
Theorem C103_foreign_asset_refuted : exists z rand args t, ~ bad_arguments (args true) t /\ ~ Faulty z (args true) t /\ length (output_tasks (args true)) = 3%nat
  /\ (forall b, a_strict (args b) = b)
  /\ fst (blind_transaction z rand (args true) t) = Ret (BFailure (F_count 2 3))
  /\ exists bfs abfs, fst (blind_transaction z rand (args false) t) = Ret (BSuccess 2 bfs abfs).
Proof.
  exists toy, toy_rand, odd_args, odd_tx.
  assert (R : fst (blind_transaction toy toy_rand (odd_args true) odd_tx) = Ret (BFailure (F_count 2 3))) by (vm_compute; reflexivity).
  assert (R2 : match fst (blind_transaction toy toy_rand (odd_args false) odd_tx) with Ret (BSuccess n _ _) => (n =? 2)%nat | _ => false end = true) by (vm_compute; reflexivity).
  split; [|split; [|split; [reflexivity|split; [reflexivity|split; [exact R|]]]]].
  - intros B. apply (C42_bad_arguments_refused toy toy_rand) in B. rewrite B in R. discriminate R.
  - destruct (blind_transaction toy toy_rand (odd_args true) odd_tx) as [o s] eqn:E. cbn [fst] in R. subst o. destruct (C69_failure_names_first _ _ _ _ _ _ E) as [F|(F & _)]; [|exact F].
    exfalso. destruct F as (p & i & k & F & _). inversion F.
  - clear R. destruct (fst (blind_transaction toy toy_rand (odd_args false) odd_tx)) as [v|[n bfs abfs|f]|e]; try discriminate R2. apply Nat.eqb_eq in R2. subst n. eauto.
Qed.
Print Assumptions C103_blinds_all.
Print Assumptions C103_confidential.
Print Assumptions C103_needs_output.
Print Assumptions C103_foreign_asset_refuted.
