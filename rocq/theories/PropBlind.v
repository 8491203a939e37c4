(** Properties C42-C47, C51, C52, C54 and the range-proof part of C28: blind(). *)
From Verif Require Import Base BaseFacts TxModel BlindModel SpecBlind SpecBalance BlindFacts BlindFrame BlindFails BlindSteps BlindComplete BlindMain BlindBalance BlindProps ToyCrypto ToyTx.
From Coq Require Import Lia.
Local Open Scope Z_scope.

(** The examples: the toy library and random stream satisfy the assumptions used below. *)
Lemma toy_rand_ok : RandOk toy toy_rand.
Proof. intros k. split; [apply b32_blen|]. cbn [toy sk_valid]. unfold toy_rand. rewrite b32_length. reflexivity. Qed.

(** C28, second half. The minimum value given to the range proof is 0 for unspendable scripts, 1 for others. *)
Theorem C28_min_value : forall script,
  (Unspendable script -> rangeproof_min_value script = 0) /\ (~ Unspendable script -> rangeproof_min_value script = 1).
Proof. exact min_value_spec. Qed.
Example C28_min_value_ex : Unspendable [x6a; x01] /\ ~ Unspendable [x51] /\ rangeproof_min_value [x6a; x01] = 0 /\ rangeproof_min_value [x51] = 1.
Proof.
  split; [right; eauto|]. split; [|split; reflexivity]. intros [E|[r E]]; discriminate.
Qed.

(** C42. Bad arguments give ValueError and an unchanged transaction, whatever the library does ... *)
Theorem C42_bad_arguments_refused : forall z rand args t, bad_arguments args t ->
  blind_transaction z rand args t = (Exc EValue, mkSt t 0).
Proof. exact bad_arguments_refused. Qed.
(** ... and nothing else does, given the documented sizes, 32-byte keys and 32-byte entropies. *)
Theorem C42_good_arguments_accepted : forall z rand args t s, SizesOk z -> RandOk z rand ->
  (forall i k, nth i (a_asset_keys args) None = Some k \/ nth i (a_token_keys args) None = Some k -> blen k = 32) ->
  ~ bad_arguments args t -> (forall inp, In inp (vin t) -> blen (is_entropy (assetIssuance inp)) = 32) ->
  blind_transaction z rand args t <> (Exc EValue, s).
Proof. intros z rand args t s S R K. exact (good_arguments_accepted z rand args S R K t s). Qed.

Lemma toy_good : ~ bad_arguments toy_args toy_tx.
Proof. intros [H|[H|[H|[H|[H _]]]]]; cbn in H; try lia; congruence. Qed.
Example C42_ex : bad_arguments (mkArgs [] [] [] [] [] None None true) toy_tx /\ ~ bad_arguments toy_args toy_tx
  /\ (forall i k, nth i (a_asset_keys toy_args) None = Some k \/ nth i (a_token_keys toy_args) None = Some k -> blen k = 32)
  /\ (forall inp, In inp (vin toy_tx) -> blen (is_entropy (assetIssuance inp)) = 32).
Proof.
  split; [right; right; right; left; discriminate|]. split; [exact toy_good|]. split.
  - intros i k [H|H]; destruct i as [|[|[|i]]]; cbn [nth a_asset_keys a_token_keys toy_args] in H; try discriminate; (injection H as <-; apply b32_blen).
  - intros inp [<-|[<-|[]]]; reflexivity.
Qed.

(** C43. Whatever the outcome, whatever the library returns. *)
Theorem C43_frame : forall z rand args t, Frame args t (s_tx (snd (blind_transaction z rand args t))).
Proof. exact blind_transaction_frame. Qed.

(** C44. A failure result other than the final count leaves the transaction unchanged. *)
Theorem C44_refusal_unchanged : forall z rand args t f s,
  blind_transaction z rand args t = (Ret (BFailure f), s) ->
  s_tx s = t \/ (a_strict args = true /\ exists a b, f = F_count a b /\ a <> b).
Proof. intros z rand args t f s H. apply failure_unchanged in H. destruct H as [-> |H]; auto. Qed.
(** Any failure at all: false. An output whose asset is not among the inputs. *)
Definition toy_bad_tx : tx := mkTx [toy_in0] [toy_out 700 asset_A [x51]; toy_out 1 (repeat x99 32) [x51]] 0 2 (mkTxWit [] []).
Definition toy_bad_args : blind_args := mkArgs [mkDesc asset_A 1000 (b32 12345) (b32 67890)] [toy_pub 901; toy_pub 902] [] [] [] None None true.
Definition ret_is (p : blind_ret -> bool) (x : outcome blind_ret * St) : bool := match fst x with Ret r => p r | _ => false end.
Lemma ret_is_failure x : ret_is (fun r => match r with BFailure _ => true | _ => false end) x = true -> exists f, x = (Ret (BFailure f), snd x).
Proof. destruct x as [[a|[n b a|f]|e] s]; cbn; try discriminate. eauto. Qed.
Lemma ret_is_success x m : ret_is (fun r => match r with BSuccess n _ _ => (n =? m)%nat | _ => false end) x = true -> exists bfs abfs, x = (Ret (BSuccess m bfs abfs), snd x).
Proof. destruct x as [[a|[n b a|f]|e] s]; cbn; try discriminate. destruct (Nat.eqb_spec n m); [|discriminate]. subst. eauto. Qed.
Theorem C44_any_failure_unchanged_refuted : exists z rand args t f s, SizesOk z /\ RandOk z rand
  /\ blind_transaction z rand args t = (Ret (BFailure f), s) /\ s_tx s <> t.
Proof.
  exists toy, toy_rand, toy_bad_args, toy_bad_tx.
  assert (H : ret_is (fun r => match r with BFailure _ => true | _ => false end) (blind_transaction toy toy_rand toy_bad_args toy_bad_tx)
              && negb (Nat.eqb (length (vtxoutwit (wit (s_tx (snd (blind_transaction toy toy_rand toy_bad_args toy_bad_tx)))))) 0) = true) by (vm_compute; reflexivity).
  apply andb_prop in H. destruct H as [H1 H2]. apply ret_is_failure in H1. destruct H1 as [f H1].
  exists f, (snd (blind_transaction toy toy_rand toy_bad_args toy_bad_tx)). split; [exact toy_sizes|]. split; [exact toy_rand_ok|]. split; [exact H1|].
  intros E. rewrite E in H2. exact (Bool.diff_false_true H2).
Qed.
(** A refusal: the output already has a commitment as value. *)
Example C44_ex : exists f, blind_transaction toy toy_rand toy_bad_args
   (mkTx [toy_in0] [mkTxOut (x08 :: zeros 32) [x51] (x01 :: asset_A) []; toy_out 1 asset_A [x51]] 0 2 (mkTxWit [] [])) =
   (Ret (BFailure f), mkSt (mkTx [toy_in0] [mkTxOut (x08 :: zeros 32) [x51] (x01 :: asset_A) []; toy_out 1 asset_A [x51]] 0 2 (mkTxWit [] [])) 0).
Proof. exists (F_value_not_explicit 0). reflexivity. Qed.

(** C45. *)
Definition OneOf (a b : byte) (x : bytes) : Prop := exists d, blen d = 32 /\ (x = a :: d \/ x = b :: d).
Definition ConfidentialOutput (o : txout) (w : outwit) : Prop :=
  OneOf x08 x09 (nValue o) /\ OneOf x0a x0b (nAsset o) /\ OneOf x02 x03 (nNonce o) /\ ow_range w <> [] /\ ow_surj w <> [].
Definition ConfidentialIssuance (ps : bool) (i : txin) (w : inwit) : Prop :=
  OneOf x08 x09 (iss_field ps i) /\ iss_proof ps w <> [].
Definition RangeProofsNonEmpty (z : Crypto) : Prop := forall m c b n e bits v msg x g p, rp_sign z m c b n e bits v msg x g = Some p -> p <> [].

Lemma blinded_confidential z args targets pub bf abf eph seed o o' w : SizesOk z -> RangeProofsNonEmpty z ->
  BlindedOutput z args targets pub bf abf eph seed o o' w -> ConfidentialOutput o' w.
Proof.
  intros SZ RN (u & a & g & c & sh & mv & _ & _ & _ & H1 & _ & H2 & H3 & H4 & _ & _ & _ & _ & H5 & p0 & idx & tg & p & _ & _ & _ & _ & _ & H6).
  unfold ConfidentialOutput, OneOf. split; [eapply so_comser; eassumption|]. split; [eapply so_genser; eassumption|].
  split; [rewrite H4; eapply so_pub; eassumption|]. split; [eapply RN; exact H5|exact H6].
Qed.
Lemma blinded_issuance_confidential z args ps key bf i i' w : SizesOk z -> RangeProofsNonEmpty z ->
  BlindedIssuance z args ps key bf i i' w -> ConfidentialIssuance ps i' w.
Proof.
  intros SZ RN (u & e & a & g & c & _ & _ & _ & _ & _ & _ & H1 & H2). split; [eapply so_comser; eassumption|eapply RN; exact H2].
Qed.
Lemma AllBlinded_issuances z rand args t targets done t' bfs abfs i (ps : bool) key : AllBlinded z rand args t targets done t' bfs abfs ->
  (i < length (vin t))%nat -> nth i (if ps then a_token_keys args else a_asset_keys args) None = Some key ->
  exists k inp inp', nth_error (issuance_tasks args t) k = Some (i, ps) /\ nth_error (vin t) i = Some inp /\ nth_error (vin t') i = Some inp'
    /\ BlindedIssuance z args ps key (rand k) inp inp' (inwit_at t' i).
Proof.
  intros AB L K. destruct (In_nth_error _ _ (issuance_task _ _ _ _ _ L K)) as [k Hk].
  destruct (ab_iss _ _ _ _ _ _ _ _ _ AB _ _ _ Hk) as (key' & inp & inp' & K' & A & B & C).
  assert (key' = key) by congruence. subst key'. eauto 10.
Qed.

(** A strict success without stray issuance keys: the reported number is what was asked for, every issuance
    with a key and every output with a pubkey is confidential, there is a witness per output. The exception is
    the last output when its balancing factor came out zero: it is left as it was and reported with zero factors. *)
Theorem C45_success_blinds : forall z rand args t n bfs abfs s, SizesOk z -> RangeProofsNonEmpty z ->
  blind_transaction z rand args t = (Ret (BSuccess n bfs abfs), s) ->
  a_strict args = true -> ~ stray_key args t ->
  n = (length (issuance_tasks args t) + length (output_tasks args))%nat
  /\ (length (vout t) <= length (vtxoutwit (wit (s_tx s))) <= Nat.max (length (vtxoutwit (wit t))) (length (vout t)))%nat
  /\ length bfs = length (vout t) /\ length abfs = length (vout t)
  /\ (forall i ps key, (i < length (vin t))%nat -> nth i (if ps : bool then a_token_keys args else a_asset_keys args) None = Some key ->
        exists inp', nth_error (vin (s_tx s)) i = Some inp' /\ ConfidentialIssuance ps inp' (inwit_at (s_tx s) i))
  /\ (forall j, wants_output args j ->
        (exists o', nth_error (vout (s_tx s)) j = Some o' /\ ConfidentialOutput o' (outwit_at (s_tx s) j))
        \/ (exists pre, output_tasks args = pre ++ [j]
            /\ nth_error (vout (s_tx s)) j = nth_error (vout t) j
            /\ nth_error bfs j = Some (zeros 32) /\ nth_error abfs j = Some (zeros 32)
            /\ FinalSum z rand args t pre j bfs abfs (zeros 32))).
Proof.
  intros z rand args t n bfs abfs s SZ RN H ST NS. destruct (blind_success z rand args t _ _ _ _ H) as (_ & A & B).
  specialize (A ST NS). destruct (B A) as (targets & TG & C). split; [exact A|].
  assert (FR := blind_transaction_frame z rand args t). rewrite H in FR. cbn [snd] in FR.
  assert (NB := good_of_success _ _ _ _ _ _ _ _ H).
  assert (AB : exists done, AllBlinded z rand args t targets done (s_tx s) bfs abfs).
  { destruct C as [(X & _)|(pre & j & _ & X & _)]; eauto. }
  destruct AB as [done AB].
  split; [split; [exact (ab_nwit _ _ _ _ _ _ _ _ _ AB)|exact (proj2 (fr_noutwit _ _ _ _ _ FR))]|]. split; [exact (ab_bfs _ _ _ _ _ _ _ _ _ AB)|]. split; [exact (ab_abfs _ _ _ _ _ _ _ _ _ AB)|]. split.
  - intros i ps key L K. destruct (AllBlinded_issuances z rand args t targets done (s_tx s) bfs abfs i ps key AB L K) as (k & inp & inp' & _ & _ & E & BI).
    exists inp'. split; [exact E|]. eapply blinded_issuance_confidential; eassumption.
  - intros j W. apply wants_output_task in W. destruct C as [(X & _)|(pre & j' & E & X & F)].
    + left. apply In_nth_error in W. destruct W as [k Hk]. destruct (ab_out _ _ _ _ _ _ _ _ _ X _ _ Hk) as (bf & abf & o & o' & _ & _ & _ & Eo & _ & _ & BO).
      exists o'. split; [exact Eo|]. eapply blinded_confidential; eassumption.
    + assert (ND := output_tasks_NoDup args). rewrite E in W, ND. apply in_app_or in W. destruct W as [W|[<-|[]]].
      * left. apply In_nth_error in W. destruct W as [k Hk]. destruct (ab_out _ _ _ _ _ _ _ _ _ X _ _ Hk) as (bf & abf & o & o' & _ & _ & _ & Eo & _ & _ & BO).
        exists o'. split; [exact Eo|]. eapply blinded_confidential; eassumption.
      * right. exists pre. split; [exact E|]. assert (NI : ~ In j' pre).
        { apply NoDup_remove_2 in ND. rewrite app_nil_r in ND. exact ND. }
        assert (LJ : (j' < length (vout t))%nat).
        { assert (In j' (output_tasks args)) as I by (rewrite E; apply in_or_app; right; left; reflexivity).
          unfold output_tasks in I. apply filter_In in I. destruct I as [I _]. apply in_seq in I.
          assert (length (a_pubkeys args) <= length (vout t))%nat by (apply Nat.nlt_ge; intros Q; apply NB; left; lia). lia. }
        destruct (ab_rest _ _ _ _ _ _ _ _ _ X _ LJ NI) as (R1 & R2 & R3). auto.
Qed.
(** Without the conditions, a success never reports more than was asked for. *)
Theorem C45_count_bound : forall z rand args t n bfs abfs s,
  blind_transaction z rand args t = (Ret (BSuccess n bfs abfs), s) ->
  (n <= length (issuance_tasks args t) + length (output_tasks args))%nat.
Proof. intros z rand args t n bfs abfs s H. apply (blind_success z rand args t _ _ _ _ H). Qed.

Lemma toy_range_nonempty : RangeProofsNonEmpty toy.
Proof.
  intros m c b n e bits v msg x g p H. cbn [toy rp_sign] in H. destruct (_ && _); [|discriminate].
  assert (E : p = n ++ b ++ be_bytes 8 v ++ msg ++ x) by congruence. rewrite E. intros C.
  apply (f_equal (@length byte)) in C. rewrite !app_length, be_bytes_length in C. cbn in C. lia.
Qed.
Lemma toy_no_stray : ~ stray_key toy_args toy_tx.
Proof.
  intros (i & ps & inp & H & E & A & B). cbv in H. destruct H as [H|[H|[]]]; injection H as <- <-; injection E as <-; discriminate.
Qed.
Lemma toy_success : exists bfs abfs s, blind_transaction toy toy_rand toy_args toy_tx = (Ret (BSuccess 6 bfs abfs), s).
Proof.
  assert (H : ret_is (fun r => match r with BSuccess n _ _ => (n =? 6)%nat | _ => false end) (blind_transaction toy toy_rand toy_args toy_tx) = true) by (vm_compute; reflexivity).
  apply ret_is_success in H. destruct H as (b & a & H). eauto.
Qed.
Example C45_ex : SizesOk toy /\ RangeProofsNonEmpty toy /\ a_strict toy_args = true /\ ~ stray_key toy_args toy_tx
  /\ (exists bfs abfs s, blind_transaction toy toy_rand toy_args toy_tx = (Ret (BSuccess 6 bfs abfs), s))
  /\ issuance_tasks toy_args toy_tx = [(1%nat, false); (1%nat, true)] /\ output_tasks toy_args = [0; 1; 2; 3]%nat.
Proof. split; [exact toy_sizes|]. split; [exact toy_range_nonempty|]. split; [reflexivity|]. split; [exact toy_no_stray|]. split; [exact toy_success|]. split; reflexivity. Qed.

(** C46. The factors balance, for every library whose blind_sum meets its documented contract. *)
Theorem C46_factors_balance : forall z order rand args t n bfs abfs s, BlindSumLaw z order ->
  blind_transaction z rand args t = (Ret (BSuccess n bfs abfs), s) ->
  a_strict args = true -> ~ stray_key args t -> output_tasks args <> [] ->
  FactorsBalance order rand args t bfs abfs
  \/ exists targets, NullFinal z rand args t targets (s_tx s) bfs abfs.
Proof.
  intros z order rand args t n bfs abfs s LAW H ST NS NE. destruct (blind_success z rand args t _ _ _ _ H) as (_ & A & B).
  destruct (B (A ST NS)) as (targets & _ & [C|C]); [left|right; eauto]. eapply complete_balances; eassumption.
Qed.
(** The commitments balance: for every group and reading of the library's bytes as points, if the amounts of a
    transaction with explicit outputs balance asset by asset, then after blind() the sum of the spent outputs'
    points and of the issuances' equals the sum of the outputs' (fees included). *)
Theorem C46_commitments_balance : forall z order (G : PointGroup order) (M : Meaning z G) rand args t n bfs abfs s ids extra,
  SizesOk z -> BlindSumLaw z order ->
  blind_transaction z rand args t = (Ret (BSuccess n bfs abfs), s) ->
  a_strict args = true -> ~ stray_key args t -> output_tasks args <> [] ->
  (forall o, In o (vout t) -> exists u a, ExplicitValue (nValue o) u /\ ExplicitAsset (nAsset o) a) ->
  Forall2 (IssuedId z t) (issuance_tasks args t) ids -> AmountsBalance args t ids extra ->
  peq G (psum (map (spent_point M) (a_descs args) ++ map (issuance_point M (s_tx s)) (issuance_tasks args t) ++ map (explicit_point M) extra))
        (psum (map (out_point M) (vout (s_tx s))))
  \/ exists targets, NullFinal z rand args t targets (s_tx s) bfs abfs.
Proof.
  intros z order G M rand args t n bfs abfs s ids extra SZ LAW H ST NS NE EX IDS AM.
  destruct (blind_success z rand args t _ _ _ _ H) as (_ & A & B).
  destruct (B (A ST NS)) as (targets & _ & [C|C]); [left|right; eauto].
  assert (FR := blind_transaction_frame z rand args t). rewrite H in FR. cbn [snd] in FR.
  assert (NB := good_of_success _ _ _ _ _ _ _ _ H).
  eapply points_balance; try eassumption.
  - eapply complete_balances; eassumption.
  - exact (fr_nout _ _ _ _ _ FR).
  - apply Nat.nlt_ge. intros Q. apply NB. left. lia.
Qed.

Lemma toy_explicit : forall o, In o (vout toy_tx) -> exists u a, ExplicitValue (nValue o) u /\ ExplicitAsset (nAsset o) a.
Proof.
  assert (X : forall v a s, length a = 32%nat -> exists u b, ExplicitValue (nValue (toy_out v a s)) u /\ ExplicitAsset (nAsset (toy_out v a s)) b).
  { intros v a s L. exists (be_val (be_bytes 8 v)), a. split; [|split; [reflexivity|exact L]]. exists (be_bytes 8 v). split; [reflexivity|]. split; [apply be_bytes_length|reflexivity]. }
  intros o [<-|[<-|[<-|[<-|[<-|[]]]]]]; apply X; reflexivity.
Qed.
Lemma toy_ids : Forall2 (IssuedId toy toy_tx) (issuance_tasks toy_args toy_tx) [asset_I; asset_T].
Proof.
  change (issuance_tasks toy_args toy_tx) with [(1%nat, false); (1%nat, true)].
  assert (E : EntropyOf toy toy_in1 ent1).
  { left. split; [reflexivity|]. exists [x01; x00; x00; x00]. repeat split. }
  repeat constructor; exists toy_in1, ent1; (split; [reflexivity|]); (split; [exact E|]); vm_compute; reflexivity.
Qed.
Lemma toy_amounts : AmountsBalance toy_args toy_tx [asset_I; asset_T] [].
Proof.
  intros a. change (issuance_tasks toy_args toy_tx) with [(1%nat, false); (1%nat, true)].
  unfold amount_of. cbn [a_descs toy_args toy_descs map combine app d_asset d_amount issued_amount fst snd vout toy_tx toy_out nAsset nValue tl filter].
  destruct (bytes_eqb asset_A a), (bytes_eqb asset_I a), (bytes_eqb asset_T a); vm_compute; reflexivity.
Qed.
Example C46_ex : BlindSumLaw toy toy_order /\ output_tasks toy_args <> []
  /\ (forall o, In o (vout toy_tx) -> exists u a, ExplicitValue (nValue o) u /\ ExplicitAsset (nAsset o) a)
  /\ Forall2 (IssuedId toy toy_tx) (issuance_tasks toy_args toy_tx) [asset_I; asset_T]
  /\ AmountsBalance toy_args toy_tx [asset_I; asset_T] [] /\ inhabited (Meaning toy toy_group).
Proof. split; [exact toy_blind_sum|]. split; [discriminate|]. split; [exact toy_explicit|]. split; [exact toy_ids|]. split; [exact toy_amounts|]. split. exact toy_meaning. Qed.

(** C47. Every strict success is balanced: false. One confidential input, a stray issuance key, one output. *)
Definition toy_stray_tx : tx := mkTx [toy_in0] [toy_out 1000 asset_A [x51]] 0 2 (mkTxWit [] []).
Definition toy_stray_args : blind_args := mkArgs [mkDesc asset_A 1000 (b32 12345) (b32 67890)] [toy_pub 901] [Some (b32 5001)] [] [] None None true.
Lemma toy_stray_run : exists bfs abfs s, blind_transaction toy toy_rand toy_stray_args toy_stray_tx = (Ret (BSuccess 1 bfs abfs), s)
  /\ ~ FactorsBalance toy_order toy_rand toy_stray_args toy_stray_tx bfs abfs.
Proof.
  assert (H : ret_is (fun r => match r with BSuccess n bfs abfs => (n =? 1)%nat && negb
      ((zsum (map (fun d => (d_amount d mod 2 ^ 64) * be_val (d_abf d) + be_val (d_bf d)) (blinded_inputs toy_stray_args))
   + zsum (map (fun k => be_val (toy_rand k)) (seq 0 (length (issuance_tasks toy_stray_args toy_stray_tx))))) mod toy_order
  =? (zsum (map (fun j => out_amount toy_stray_tx j * be_val (nth j abfs []) + be_val (nth j bfs [])) (output_tasks toy_stray_args))) mod toy_order)
     | _ => false end) (blind_transaction toy toy_rand toy_stray_args toy_stray_tx) = true) by (vm_compute; reflexivity).
  destruct (blind_transaction toy toy_rand toy_stray_args toy_stray_tx) as [[a|[n b a|f]|e] s]; try discriminate H.
  cbn [ret_is fst] in H. apply andb_prop in H. destruct H as [H1 H2]. apply Nat.eqb_eq in H1. subst n.
  exists b, a, s. split; [reflexivity|]. apply negb_true_iff, Z.eqb_neq in H2. exact H2.
Qed.
Theorem C47_strict_success_balanced_refuted : exists z rand order args t n bfs abfs s,
  SizesOk z /\ RandOk z rand /\ BlindSumLaw z order
  /\ blind_transaction z rand args t = (Ret (BSuccess n bfs abfs), s) /\ a_strict args = true /\ output_tasks args <> []
  /\ stray_key args t /\ ~ FactorsBalance order rand args t bfs abfs.
Proof.
  destruct toy_stray_run as (bfs & abfs & s & R & N).
  exists toy, toy_rand, toy_order, toy_stray_args, toy_stray_tx, 1%nat, bfs, abfs, s.
  split; [exact toy_sizes|]. split; [exact toy_rand_ok|]. split; [exact toy_blind_sum|]. split; [exact R|]. split; [reflexivity|].
  split; [discriminate|]. split; [|exact N]. exists 0%nat, false, toy_in0. repeat split. left. reflexivity.
Qed.
(** The same claim for a blind() with blinded inputs and no output to blind: false too. *)
Theorem C47_nothing_to_blind_refuted : exists z rand order args t n bfs abfs s,
  SizesOk z /\ RandOk z rand /\ BlindSumLaw z order
  /\ blind_transaction z rand args t = (Ret (BSuccess n bfs abfs), s) /\ a_strict args = true
  /\ ~ stray_key args t /\ ~ FactorsBalance order rand args t bfs abfs.
Proof.
  exists toy, toy_rand, toy_order, (mkArgs [mkDesc asset_A 1000 (b32 12345) (b32 67890)] [] [] [] [] None None true), toy_stray_tx, 0%nat. do 3 eexists.
  split; [exact toy_sizes|]. split; [exact toy_rand_ok|]. split; [exact toy_blind_sum|]. split; [vm_compute; reflexivity|]. split; [reflexivity|].
  split; [|intros C; vm_compute in C; discriminate]. intros (i & ps & inp & [] & _).
Qed.

(** C51. The targets are a function of arguments and transaction: [SurjectionTargets] spells them out in order. *)
Theorem C51_targets : forall z rand args t n bfs abfs s,
  blind_transaction z rand args t = (Ret (BSuccess n bfs abfs), s) ->
  exists targets, SurjectionTargets z args t targets /\ (forall l, SurjectionTargets z args t l -> l = targets)
    /\ (length (vin t) + length (skipn (length (vin t)) (a_aux args)) <= length targets <= 3 * length (vin t) + length (skipn (length (vin t)) (a_aux args)))%nat.
Proof.
  intros z rand args t n bfs abfs s H. destruct (success_targets z rand args _ _ _ _ _ H) as [l L].
  exists l. split; [exact L|]. split; [intros l2 L2; eapply targets_determined; eassumption|]. apply (targets_count z args t l L).
Qed.
(** Each blinded output's surjection proof was made with the tags, generators and blinders of that list. *)
Theorem C51_aligned : forall z rand args t n bfs abfs s targets,
  blind_transaction z rand args t = (Ret (BSuccess n bfs abfs), s) -> a_strict args = true -> ~ stray_key args t ->
  SurjectionTargets z args t targets ->
  forall j, wants_output args j -> (exists pre, output_tasks args = pre ++ [j] /\ NullFinal z rand args t targets (s_tx s) bfs abfs)
    \/ exists o a abf gen seed proof0 idx tg proof, nth_error (vout t) j = Some o /\ ExplicitAsset (nAsset o) a /\ nth_error abfs j = Some abf
       /\ gen_generate_blinded z a abf = Some gen
       /\ sp_init z (concat (map tg_tag targets)) (length targets) (Nat.min 3 (length targets)) a 100 seed = Some (proof0, idx)
       /\ nth_error targets idx = Some tg
       /\ sp_generate z proof0 (concat (map tg_gen targets)) (length targets) gen idx (tg_blind tg) abf = Some proof
       /\ ow_surj (outwit_at (s_tx s) j) = sp_serialize z proof.
Proof.
  intros z rand args t n bfs abfs s targets H ST NS TG j W. destruct (blind_success z rand args t _ _ _ _ H) as (_ & A & B).
  destruct (B (A ST NS)) as (targets' & TG' & C). assert (targets' = targets) by (eapply targets_determined; eassumption). subst targets'.
  apply wants_output_task in W.
  assert (Q : forall done, AllBlinded z rand args t targets done (s_tx s) bfs abfs -> In j done ->
     exists o a abf gen seed proof0 idx tg proof, nth_error (vout t) j = Some o /\ ExplicitAsset (nAsset o) a /\ nth_error abfs j = Some abf
       /\ gen_generate_blinded z a abf = Some gen
       /\ sp_init z (concat (map tg_tag targets)) (length targets) (Nat.min 3 (length targets)) a 100 seed = Some (proof0, idx)
       /\ nth_error targets idx = Some tg
       /\ sp_generate z proof0 (concat (map tg_gen targets)) (length targets) gen idx (tg_blind tg) abf = Some proof
       /\ ow_surj (outwit_at (s_tx s) j) = sp_serialize z proof).
  { intros done X I. apply In_nth_error in I. destruct I as [k Hk].
    destruct (ab_out _ _ _ _ _ _ _ _ _ X _ _ Hk) as (bf & abf & o & o' & _ & Ea & Eo & _ & _ & _ & BO).
    destruct BO as (u & a & g & c & sh & mv & _ & XA & XG & _ & _ & _ & _ & _ & _ & _ & _ & _ & _ & p0 & idx & tg & p & P1 & P2 & P3 & _ & P4 & _).
    exists o, a, abf, g. do 5 eexists. repeat (split; [eassumption|]). exact P4. }
  destruct C as [(X & _)|C].
  - right. eapply Q; eassumption.
  - assert (C' := C). destruct C as (pre & j' & E & X & _). rewrite E in W. apply in_app_or in W. destruct W as [W|[<-|[]]].
    + right. eapply Q; eassumption.
    + left. exists pre. auto.
Qed.
Example C51_ex : exists l, SurjectionTargets toy toy_args toy_tx l /\ length l = 4%nat.
Proof.
  destruct toy_success as (bfs & abfs & s & H). destruct (success_targets _ _ _ _ _ _ _ _ H) as [l L]. clear H. exists l. split; [exact L|].
  destruct L as (l1 & l2 & tok & A & B & ->). rewrite app_length. inversion B; subst.
  inversion A as [|? ? ? ? a1 tok1 ls ? H1 H2]; subst. inversion H2 as [|? ? ? ? a2 tok2 ls2 ? H3 H4]; subst. inversion H4; subst.
  destruct H1 as (d & g & m1 & m2 & _ & _ & _ & -> & [(_ & _ & -> & -> & _)|(e & [X|X] & _)]); [|contradiction X; reflexivity|contradiction X; reflexivity].
  destruct H3 as (d' & g' & m1 & m2 & _ & _ & _ & -> & [(X & _)|(e & _ & _ & _ & _ & [[X _]|(_ & gi & _ & ->)] & [[Y _]|(_ & tk & gt & _ & _ & ->)])]); try discriminate.
  reflexivity.
Qed.

(** C52. For an input that reissues with an inflation-keys amount, a success is possible only if an earlier input
    is a new issuance, and the token handed to the surjection proof is that input's. *)
Theorem C52_token_from_earlier_input : forall z rand args t n bfs abfs s i inp,
  blind_transaction z rand args t = (Ret (BSuccess n bfs abfs), s) ->
  nth_error (vin t) i = Some inp -> is_nonce (assetIssuance inp) <> zeros 32 -> is_keys (assetIssuance inp) <> [] ->
  exists targets token gt k inp' e b, SurjectionTargets z args t targets /\ In (mkTarget token gt (zeros 32)) targets
    /\ (k < i)%nat /\ nth_error (vin t) k = Some inp' /\ is_nonce (assetIssuance inp') = zeros 32
    /\ EntropyOf z inp' e /\ (b = x01 \/ b = x02) /\ token = c_mid z (e ++ tag32 b).
Proof.
  intros z rand args t n bfs abfs s i inp H E N K. destruct (success_targets z rand args _ _ _ _ _ H) as [l L].
  assert (L' := L). destruct L as (l1 & l2 & tok & A & _ & ->).
  destruct (reissuance_token z args _ _ _ _ _ A _ _ E N K) as (token & gt & I & _ & [X|(k & inp' & e & b & X1 & X2 & X3 & _ & X4 & X5 & X6)]); [discriminate|].
  exists (l1 ++ l2), token, gt, k, inp', e, b. split; [exact L'|]. split; [apply in_or_app; auto|]. auto 10.
Qed.
(** Input 0 issues, input 1 reissues with keys. *)
Definition reissue_in : txin := mkTxIn (mkOutPoint (repeat x55 32) 0) [] 0xffffffff (mkIssuance (repeat x77 32) (repeat x66 32) (expl 7) (expl 2)) false.
Definition reissue_tx : tx := mkTx [toy_in1; reissue_in] [toy_out 200 asset_A [x51]] 0 2 (mkTxWit [] []).
Definition reissue_args : blind_args := mkArgs [mkDesc asset_A 200 (b32 12345) (b32 67890); mkDesc asset_A 200 (zeros 32) (zeros 32)] [toy_pub 901] [] [] [] None None true.
Definition asset_T1 : bytes := Eval vm_compute in c_mid toy (ent1 ++ tag32 x01).
Theorem C52_own_token_refuted : exists z rand args t n bfs abfs s i inp, SizesOk z
  /\ blind_transaction z rand args t = (Ret (BSuccess n bfs abfs), s)
  /\ nth_error (vin t) i = Some inp /\ is_nonce (assetIssuance inp) <> zeros 32 /\ is_keys (assetIssuance inp) <> []
  /\ forall targets e, SurjectionTargets z args t targets -> EntropyOf z inp e ->
       ~ In (c_mid z (e ++ tag32 x01)) (map tg_tag targets) /\ ~ In (c_mid z (e ++ tag32 x02)) (map tg_tag targets).
Proof.
  exists toy, toy_rand, reissue_args, reissue_tx, 1%nat. do 3 eexists. exists 1%nat, reissue_in.
  split; [exact toy_sizes|]. split; [vm_compute; reflexivity|]. split; [reflexivity|]. split; [discriminate|]. split; [discriminate|].
  intros targets e TG EN. destruct EN as [[EN _]|[_ ->]]; [discriminate|].
  destruct TG as (l1 & l2 & tok & A & B & ->). inversion B; subst. rewrite app_nil_r.
  inversion A as [|? ? ? ? a1 tok1 ls ? H1 H2]; subst. inversion H2 as [|? ? ? ? a2 tok2 ls2 ? H3 H4]; subst. inversion H4; subst.
  destruct H1 as (d & g & m1 & m2 & D & _ & _ & -> & [(X & _)|(e & _ & E1 & _ & T2 & [[X _]|(_ & gi & _ & ->)] & [[Y _]|(_ & tk & gt & TK & _ & ->)])]); try discriminate.
  destruct H3 as (d' & g' & m1 & m2 & D' & _ & _ & -> & [(X & _)|(e' & _ & E1' & T1' & _ & [[X _]|(_ & gi' & _ & ->)] & [[Y _]|(_ & tk' & gt' & TK' & _ & ->)])]); try discriminate.
  assert (EE : e = ent1). { eapply EntropyOf_fun; [exact E1|]. left. split; [reflexivity|]. exists [x01; x00; x00; x00]. repeat split. }
  assert (EE' : e' = repeat x66 32). { eapply EntropyOf_fun; [exact E1'|]. right. split; [discriminate|reflexivity]. }
  subst e e'. rewrite (T1' ltac:(discriminate)), (T2 eq_refl) in TK'. rewrite (T2 eq_refl) in TK.
  assert (Ek : tk = asset_T1) by (transitivity (c_mid toy (ent1 ++ tag32 x01)); [symmetry; exact (f_equal (fun o => match o with Some v => v | None => [] end) TK)|vm_compute; reflexivity]).
  assert (Ek' : tk' = asset_T1) by (transitivity (c_mid toy (ent1 ++ tag32 x01)); [symmetry; exact (f_equal (fun o => match o with Some v => v | None => [] end) TK')|vm_compute; reflexivity]).
  clear TK TK' T1' T2. assert (Ed : d_asset d = asset_A) by (injection D as <-; reflexivity). assert (Ed' : d_asset d' = asset_A) by (injection D' as <-; reflexivity).
  subst tk tk'. cbn [map app tg_tag]. rewrite Ed, Ed'. clear D D'.

  assert (NI : forall x l, existsb (bytes_eqb x) l = false -> ~ In x l).
  { intros x l X C. assert (Y : existsb (bytes_eqb x) l = true) by (apply existsb_exists; exists x; split; [exact C|apply bytes_eqb_eq; reflexivity]). congruence. }
  split; apply NI; vm_compute; reflexivity.
Qed.
(** Without an earlier issuance: UnboundLocalError, on arguments that are otherwise fine. *)
Theorem C52_reissuance_accepted_refuted : exists z rand args t, SizesOk z /\ RandOk z rand /\ ~ bad_arguments args t
  /\ blind_transaction z rand args t = (Exc EUnboundLocal, mkSt t 0).
Proof.
  exists toy, toy_rand, (mkArgs [mkDesc asset_A 200 (b32 12345) (b32 67890)] [toy_pub 901] [] [] [] None None true),
    (mkTx [reissue_in] [toy_out 200 asset_A [x51]] 0 2 (mkTxWit [] [])).
  split; [exact toy_sizes|]. split; [exact toy_rand_ok|]. split; [|vm_compute; reflexivity].
  intros [H|[H|[H|[H|[H _]]]]]; cbn in H; try lia; congruence.
Qed.

(** C54. Issuance number k is blinded with draw k; when the draws are distinct, so are all the issuance factors,
    the reported asset factors, and the reported value factors except that of the last output. *)
Lemma map_by_index {A B} (f : A -> B) (l : list A) : forall g : nat -> B, (forall k x, nth_error l k = Some x -> f x = g k) ->
  map f l = map g (seq 0 (length l)).
Proof.
  induction l as [|a l IH]; intros g H; [reflexivity|]. cbn [map length seq]. f_equal; [apply (H 0%nat); reflexivity|].
  rewrite <- seq_shift, map_map. apply IH. intros k x E. apply (H (S k)). exact E.
Qed.
Lemma factor_lists z rand args t targets done t' bfs abfs pre : AllBlinded z rand args t targets done t' bfs abfs ->
  firstn (length pre) done = pre -> (length pre < length (output_tasks args))%nat ->
  map (fun j => nth j abfs []) done = map (fun k => rand (length (issuance_tasks args t) + 4 * k + 1)%nat) (seq 0 (length done))
  /\ map (fun j => nth j bfs []) pre = map (fun k => rand (length (issuance_tasks args t) + 4 * k)%nat) (seq 0 (length pre)).
Proof.
  intros AB FP LP. split; apply map_by_index; intros k j Ek.
  - destruct (ab_out _ _ _ _ _ _ _ _ _ AB _ _ Ek) as (bf & abf & o & o' & E1 & E2 & _ & _ & E3 & _).
    rewrite <- E3. apply nth_error_nth. exact E2.
  - assert (Hk : (k < length pre)%nat) by (apply nth_error_Some; congruence).
    assert (Ek' : nth_error done k = Some j).
    { rewrite <- (firstn_skipn (length pre) done), nth_error_app1; rewrite FP; [exact Ek|exact Hk]. }
    destruct (ab_out _ _ _ _ _ _ _ _ _ AB _ _ Ek') as (bf & abf & o & o' & E1 & E2 & _ & _ & _ & E3 & _).
    rewrite <- E3 by lia. apply nth_error_nth. exact E1.
Qed.
Lemma NoDup_app_disj {A} (l m : list A) : NoDup l -> NoDup m -> (forall x, In x l -> ~ In x m) -> NoDup (l ++ m).
Proof.
  induction l as [|a l IH]; intros H1 H2 D; [exact H2|]. inversion H1; subst. cbn. constructor.
  - intros C. apply in_app_or in C. destruct C as [C|C]; [auto|]. exact (D a (or_introl eq_refl) C).
  - apply IH; auto. intros x X. apply D. right. exact X.
Qed.
Lemma NoDup_map_on {A B} (f : A -> B) l : (forall x y, In x l -> In y l -> f x = f y -> x = y) -> NoDup l -> NoDup (map f l).
Proof.
  induction l as [|a l IH]; intros J H; [constructor|]. inversion H; subst. cbn [map]. constructor.
  - intros C. apply in_map_iff in C. destruct C as (b & E & I). assert (b = a) by (apply J; [right; exact I|left; reflexivity|exact E]). subst. auto.
  - apply IH; [|assumption]. intros x y X Y. apply J; right; assumption.
Qed.

Theorem C54_distinct_draws : forall z rand args t n bfs abfs s,
  blind_transaction z rand args t = (Ret (BSuccess n bfs abfs), s) -> a_strict args = true -> ~ stray_key args t ->
  (let N := (length (issuance_tasks args t) + 4 * length (output_tasks args))%nat in
   forall i j, (i < N)%nat -> (j < N)%nat -> rand i = rand j -> i = j) ->
  (forall i ps key, (i < length (vin t))%nat -> nth i (if ps : bool then a_token_keys args else a_asset_keys args) None = Some key ->
     exists k inp inp', nth_error (issuance_tasks args t) k = Some (i, ps) /\ nth_error (vin t) i = Some inp /\ nth_error (vin (s_tx s)) i = Some inp'
       /\ BlindedIssuance z args ps key (rand k) inp inp' (inwit_at (s_tx s) i))
  /\ forall pre j, output_tasks args = pre ++ [j] ->
    NoDup (map rand (seq 0 (length (issuance_tasks args t))) ++ map (fun i => nth i bfs []) pre ++ map (fun i => nth i abfs []) pre)
    /\ (nth j abfs [] = zeros 32
        \/ ~ In (nth j abfs []) (map rand (seq 0 (length (issuance_tasks args t))) ++ map (fun i => nth i bfs []) pre ++ map (fun i => nth i abfs []) pre)).
Proof.
  intros z rand args t n bfs abfs s H ST NS J. cbv zeta in J. destruct (blind_success z rand args t _ _ _ _ H) as (_ & A & B).
  destruct (B (A ST NS)) as (targets & _ & C).
  assert (AB : exists done, AllBlinded z rand args t targets done (s_tx s) bfs abfs).
  { destruct C as [(X & _)|(pre & j & _ & X & _)]; eauto. }
  destruct AB as [done AB]. split.
  { intros i ps key L K. eapply AllBlinded_issuances; eassumption. }
  intros pre j E. clear done AB. set (K := length (issuance_tasks args t)).
  assert (LP : (length pre < length (output_tasks args))%nat) by (rewrite E, app_length; cbn; lia).
  assert (Q : NoDup (map rand (seq 0 K) ++ map (fun k => rand (K + 4 * k)%nat) (seq 0 (length pre)) ++ map (fun k => rand (K + 4 * k + 1)%nat) (seq 0 (length pre)))).
  { rewrite <- (map_map (fun k => (K + 4 * k)%nat) rand), <- (map_map (fun k => (K + 4 * k + 1)%nat) rand), <- !map_app.
    apply NoDup_map_on.
    { assert (R : forall x, In x (seq 0 K ++ map (fun k => (K + 4 * k)%nat) (seq 0 (length pre)) ++ map (fun k => (K + 4 * k + 1)%nat) (seq 0 (length pre))) -> (x < K + 4 * length (output_tasks args))%nat).
      { intros x X. rewrite !in_app_iff, !in_map_iff in X. destruct X as [X|[(a & <- & X)|(a & <- & X)]]; apply in_seq in X; lia. }
      intros x y X Y. apply J; apply R; assumption. }
    apply NoDup_app_disj; [apply seq_NoDup|apply NoDup_app_disj|].
    - apply NoDup_map_on; [intros; lia|apply seq_NoDup].
    - apply NoDup_map_on; [intros; lia|apply seq_NoDup].
    - intros x X Y. apply in_map_iff in X. apply in_map_iff in Y. destruct X as (a & <- & _), Y as (b & Y & _). lia.
    - intros x X Y. apply in_seq in X. apply in_app_or in Y. rewrite !in_map_iff in Y. destruct Y as [(a & Y & _)|(a & Y & _)]; lia. }
  destruct C as [(X & _)|(pre' & j' & E' & X & _)].
  - destruct (factor_lists _ _ _ _ _ _ _ _ _ pre X) as [F1 F2]; [rewrite E; rewrite firstn_app, Nat.sub_diag, firstn_all; apply app_nil_r|exact LP|].
    rewrite E, map_app, app_length, Nat.add_1_r, seq_S, map_app in F1. cbn [map Nat.add] in F1. apply app_inj_tail in F1. destruct F1 as [F1 F3].
    fold K in F1, F2, F3. rewrite F1, F2, F3. split; [exact Q|right]. intros C.
    rewrite !in_app_iff, !in_map_iff in C.
    destruct C as [(x & C & I)|[(x & C & I)|(x & C & I)]]; apply in_seq in I; apply J in C; lia.
  - rewrite E in E'. apply app_inj_tail in E'. destruct E' as [<- <-].
    destruct (factor_lists _ _ _ _ _ _ _ _ _ pre X) as [F1 F2]; [apply firstn_all|exact LP|].
    fold K in F1, F2. rewrite F1, F2. split; [exact Q|left].
    assert (ND := output_tasks_NoDup args). rewrite E in ND. apply NoDup_remove_2 in ND. rewrite app_nil_r in ND.
    assert (LJ : (j < length (vout t))%nat).
    { assert (In j (output_tasks args)) as I by (rewrite E; apply in_or_app; right; left; reflexivity).
      unfold output_tasks in I. apply filter_In in I. destruct I as [I _]. apply in_seq in I.
      assert (NB := good_of_success _ _ _ _ _ _ _ _ H).
      assert (length (a_pubkeys args) <= length (vout t))%nat by (apply Nat.nlt_ge; intros R; apply NB; left; lia). lia. }
    destruct (ab_rest _ _ _ _ _ _ _ _ _ X _ LJ ND) as (_ & R2 & _). apply nth_error_nth. exact R2.
Qed.
(** Draws that differ: the numbers 0, 1, 2, ... as 32 bytes. *)
Definition count_rand (k : nat) : bytes := b32 (Z.of_nat k).
Example C54_ex : output_tasks toy_args = ([0; 1; 2] ++ [3])%nat
  /\ ret_is (fun r => match r with BSuccess n _ _ => (n =? 6)%nat | _ => false end) (blind_transaction toy count_rand toy_args toy_tx) = true
  /\ forall i j, (i < 2 + 4 * 4)%nat -> (j < 2 + 4 * 4)%nat -> count_rand i = count_rand j -> i = j.
Proof.
  split; [reflexivity|]. split; [vm_compute; reflexivity|]. intros i j I J E. apply (f_equal be_val) in E. unfold count_rand in E. rewrite !b32_val in E.
  rewrite !Z.mod_small in E; [lia| |]; (split; [lia|]; apply Z.lt_trans with 10000; [lia|reflexivity]).
Qed.

Print Assumptions C28_min_value.
Print Assumptions C42_bad_arguments_refused.
Print Assumptions C42_good_arguments_accepted.
Print Assumptions C43_frame.
Print Assumptions C44_refusal_unchanged.
Print Assumptions C44_any_failure_unchanged_refuted.
Print Assumptions C45_success_blinds.
Print Assumptions C45_count_bound.
Print Assumptions C46_factors_balance.
Print Assumptions C46_commitments_balance.
Print Assumptions C47_strict_success_balanced_refuted.
Print Assumptions C47_nothing_to_blind_refuted.
Print Assumptions C51_targets.
Print Assumptions C51_aligned.
Print Assumptions C52_token_from_earlier_input.
Print Assumptions C52_own_token_refuted.
Print Assumptions C52_reissuance_accepted_refuted.
Print Assumptions C54_distinct_draws.
