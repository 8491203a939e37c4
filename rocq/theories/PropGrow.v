(** C84: a transaction may be blinded in part and completed later. *)
From Verif Require Import Base BaseFacts Serialize TxModel IssuanceModel BlindModel BlindFacts SpecBlind BlindFails BlindComplete SpecBalance BlindBalance BlindProps SpecUnblind SpecMulti MultiProofs PropMulti SpecNode NodeProofs NodeMain PropNode SpecSpend PropSpend SpecGrow ToyCrypto ToyTx ToyNode UnblindModel SpendModel PropBlind PropUnblind GrowProofs.
From Coq Require Import Lia Permutation.
Local Open Scope Z_scope.

(** Blinding and then adding inputs and outputs is the same, in every outcome, as adding them first and blinding the whole
    without knowing the added inputs - provided that the generators given cover them. *)
Theorem C84_exchange : forall z rand args t x, Aligned t -> IssuesNothing x -> Foresees args t x -> ~ bad_arguments args t ->
  blind_transaction z rand (widen x args) (extend x t)
  = (widen_outcome x (fst (blind_transaction z rand args t)), mkSt (extend x (s_tx (snd (blind_transaction z rand args t)))) (s_draws (snd (blind_transaction z rand args t)))).
Proof. exact exchange. Qed.

Lemma success_good z rand args t r s : blind_transaction z rand args t = (Ret r, s) -> ~ bad_arguments args t.
Proof.
  intros E B. destruct (check_cases args (mkSt t 0)) as [[_ X]|[NB _]]; [|exact (NB B)]. unfold blind_transaction, blind_body, mbind in E. rewrite X in E. discriminate E.
Qed.
Lemma extend_plus x y t : extend (plus x y) t = extend y (extend x t).
Proof. unfold extend, plus. cbn [m_in m_out vin vout wit vtxinwit vtxoutwit nLockTime nVersion]. rewrite !map_app, !app_assoc. reflexivity. Qed.
Lemma extend_nil t : extend (mkMore [] []) t = t.
Proof. unfold extend. cbn [m_in m_out map]. rewrite !app_nil_r. destruct t as [a b c d [e f]]. reflexivity. Qed.
Lemma extend_aligned x t : Aligned t -> Aligned (extend x t).
Proof. intros [A B]. split; cbn [extend vin vout wit vtxinwit vtxoutwit]; rewrite !app_length, !map_length; congruence. Qed.
Lemma widen_stray x args t : ~ bad_arguments args t -> stray_key (widen x args) (extend x t) -> stray_key args t.
Proof.
  intros NB (i & ps & inp & IN & EI & X & Y). destruct (good_sizes _ _ NB) as (_ & _ & H3 & H4 & _). unfold issuance_tasks in IN. apply filter_In in IN. destruct IN as [S W].
  change (wants_issuance (widen x args) (i, ps)) with (wants_issuance args (i, ps)) in W.
  assert (L : (i < length (vin t))%nat).
  { unfold wants_issuance in W. cbn [fst snd] in W. destruct (le_lt_dec (length (vin t)) i) as [G|G]; [|exact G]. rewrite nth_overflow in W by (destruct ps; lia). discriminate W. }
  exists i, ps, inp. split; [apply filter_In; split; [apply slot_In; exact L|exact W]|]. cbn [extend vin] in EI. rewrite nth_error_app1 in EI by exact L. auto.
Qed.
(** The parties that take turns do as parties that blind the whole transaction one after the other. *)
Theorem C84_parties : forall z steps t t', Building Foresees z steps t t' -> Aligned t -> IssuesNothing (additions steps) ->
  Blindings z (whole steps) (extend (additions steps) t) t'.
Proof.
  intros z steps t t' B. induction B as [t|args x rest rand n bfs abfs s t t' E ST NS NO NZ FS B IH]; intros AL IN.
  - rewrite extend_nil. constructor.
  - assert (NB := success_good _ _ _ _ _ _ E). assert (X := exchange z rand args t _ AL IN FS NB). rewrite E in X. cbn [fst snd widen_outcome widen_ret] in X.
    destruct (exchange_aligned _ _ _ _ _ _ AL E) as (AL' & _ & LO). cbn [whole].
    econstructor; [exact X|exact ST|intros SK; exact (NS (widen_stray _ _ _ NB SK))|exact NO| |].
    + intros j J. change (output_tasks (widen (additions ((args, x) :: rest)) args)) with (output_tasks args) in J. specialize (NZ j J).
      destruct (nth_error bfs j) as [b|] eqn:EB; [rewrite nth_error_app1 by (apply nth_error_Some; congruence); rewrite EB; exact NZ|].
      exfalso. apply nth_error_None in EB. destruct (good_sizes _ _ NB) as (_ & HP & _).
      assert (LB : length bfs = length (vout t)).
      { destruct (blind_success z rand args t _ _ _ _ E) as (_ & A & B0). destruct (B0 (A ST NS)) as (tg & _ & [[AB _]|(pre & j' & _ & AB & _)]); exact (ab_bfs _ _ _ _ _ _ _ _ _ AB). }
      unfold output_tasks in J. apply filter_In in J. destruct J as [J _]. apply in_seq in J. lia.
    + cbn [s_tx]. cbn [additions]. rewrite extend_plus. apply IH; [apply extend_aligned, AL'|]. intros i w H. apply (IN i w). cbn [additions plus m_in]. apply in_or_app. right. exact H.
Qed.

(** If what they assemble in this way is balanced, and no generator is left over in the end, a validating node accepts it. *)
Theorem C84_accepted : forall z V order (G : PointGroup order) (M : Meaning z G) steps us descs t t',
  SizesOk z -> BlindSumLaw z order -> CodecLaws z -> VerifierLaws z V M -> RewindSound z -> ZeroGen z ->
  Assembling z steps us descs t t' ->
  TokenKeys (whole steps) (extend (additions steps) t) -> NoSpareGenerators (whole steps) (extend (additions steps) t) ->
  node_check z V us t' = true.
Proof.
  intros z V order G M steps us descs t t' SO LAW CL VL RS ZG [H1 H2 H3 H4 H5 H6 H7 H8 H9 H10 H11] TK NS.
  apply (C77_accepted z V order G M (whole steps) us descs (extend (additions steps) t) t' SO LAW CL VL RS ZG); [|exact TK|exact NS].
  constructor; try assumption; [left|apply C84_parties; assumption]. destruct steps as [|[args x] rest]; [contradiction|discriminate].
Qed.

(** * Two parties swap assets over the toy library: each blinds what it sends to the other *)
Definition bare : inwit := mkInWit [] [] [] [].
Definition gen_of (j : nat) : bytes := nAsset (nth j hop_us (toy_out 0 [] [])).
Definition offer : tx := mkTx [hop_in 0] [toy_out 690 asset_A [x51]] 0 2 (mkTxWit [bare] [outwit_null]).
Definition rest_of : more := mkMore [(hop_in 2, bare)] [(toy_out 500 asset_I [x51; x51], outwit_null); (toy_out 10 asset_A [], outwit_null)].
Definition asker : blind_args := mkArgs [read_at 0 (b32 901)] [toy_pub 905] [] [] [gen_of 0; gen_of 1] None None true.
Definition taker : blind_args := mkArgs [unknown_input; read_at 2 (b32 903)] [[]; toy_pub 906] [] [] [gen_of 0; gen_of 1] None None true.
Definition asked : tx := extend rest_of (node_after asker offer).
Definition taken : tx := node_after taker asked.
Definition swap_steps : list (blind_args * more) := [(asker, rest_of); (taker, mkMore [] [])].
Lemma step_call (plan : blind_args -> tx -> more -> Prop) n args x t t1 : t1 = node_after args t -> done n (output_tasks args) (blind_transaction toy toy_rand args t) = true -> a_strict args = true ->
  issuance_tasks args t = [] -> output_tasks args <> [] -> forall rest t', plan args t (additions ((args, x) :: rest)) ->
  Building plan toy rest (extend x t1) t' -> Building plan toy ((args, x) :: rest) t t'.
Proof.
  intros -> H ST NI NO rest t' FS B. unfold node_after in B. destruct (blind_transaction toy toy_rand args t) as [[a|[m bfs abfs|f]|e] s] eqn:E; try discriminate H.
  unfold done, ret_is in H. cbn [fst snd] in *. apply andb_prop in H. destruct H as [_ H]. eapply BG_cons; [exact E|exact ST| |exact NO| |exact FS|exact B].
  - intros (i & ps & inp & IN & _). rewrite NI in IN. destruct IN.
  - intros j IN EQ. apply (proj1 (forallb_forall _ _) H) in IN. rewrite (nth_bytes _ _ _ EQ) in IN. rewrite (proj2 (bytes_eqb_eq _ _) eq_refl) in IN. discriminate IN.
Qed.

Lemma two_inputs t' : vin t' = [hop_in 0; hop_in 2] -> forall i inp, nth_error (vin t') i = Some inp -> assetIssuance inp = no_issuance.
Proof. intros -> [|[|i]] inp E; [injection E as <-; reflexivity|injection E as <-; reflexivity|destruct i; discriminate E]. Qed.
Lemma two_unblinded calls outs : forallb spendable outs = true -> length outs = 3%nat ->
  Unblinded toy calls hop_us (mkTx [hop_in 0; hop_in 2] outs 0 2 (mkTxWit [bare; bare] [outwit_null; outwit_null; outwit_null])).
Proof.
  intros F L. assert (NI : forall i inp, nth_error [hop_in 0; hop_in 2] i = Some inp -> assetIssuance inp = no_issuance) by (exact (two_inputs (mkTx _ outs 0 2 (mkTxWit [] [])) eq_refl)).
  assert (IN : forall inp, In inp [hop_in 0; hop_in 2] -> assetIssuance inp = no_issuance) by (intros inp I; destruct (In_nth_error _ _ I) as [i E]; exact (NI i inp E)).
  constructor; cbn [vin vout wit vtxinwit vtxoutwit].
  - intros o I. apply spendable_ok. exact (proj1 (forallb_forall _ _) F o I).
  - intros j. unfold outwit_at. cbn [wit vtxoutwit]. destruct j as [|[|[|j]]]; try reflexivity. destruct j; reflexivity.
  - intros inp ps I. left. unfold iss_field. rewrite (IN inp I). destruct ps; reflexivity.
  - intros i ps. unfold inwit_at. cbn [wit vtxinwit]. destruct i as [|[|i]], ps; try reflexivity; destruct i; reflexivity.
  - intros i inp E [X|X]; exfalso; apply X; unfold iss_field; rewrite (NI i inp E); reflexivity.
  - intros i u inp _ E [X|X]; exfalso; apply X; unfold iss_field; rewrite (NI i inp E); reflexivity.
Qed.
Lemma hop_given : Forall (Existing toy) hop_us /\ Forall2 (Described toy) hop_us hop_descs
  /\ exists d0 d2, hop_descs = [d0; d2] /\ d0 = read_at 0 (b32 901) /\ d2 = read_at 2 (b32 903) /\ d_asset d0 = asset_A /\ d_amount d0 = 700 /\ d_asset d2 = asset_I /\ d_amount d2 = 500
  /\ negb (bytes_eqb (d_bf d0) (zeros 32) && bytes_eqb (d_abf d0) (zeros 32)) = true /\ negb (bytes_eqb (d_bf d2) (zeros 32) && bytes_eqb (d_abf d2) (zeros 32)) = true.
Proof.
  destruct hop_outs as (u0 & u2 & EU & E0 & E2 & P0 & P2). destruct hop_read as [R0 R2].
  destruct (described_at _ _ _ _ _ E0 R0 P0) as (D0 & A0 & V0). destruct (described_at _ _ _ _ _ E2 R2 P2) as (D2 & A2 & V2).
  split; [rewrite EU; constructor; [|constructor; [|constructor]]; intros a v [EA _]; [rewrite EA in P0; destruct (P0 eq_refl)|rewrite EA in P2; destruct (P2 eq_refl)]|].
  split; [rewrite EU; unfold hop_descs; constructor; [exact D0|constructor; [exact D2|constructor]]|].
  exists (read_at 0 (b32 901)), (read_at 2 (b32 903)). split; [reflexivity|]. split; [reflexivity|]. split; [reflexivity|]. split; [exact A0|]. split; [exact V0|]. split; [exact A2|]. split; [exact V2|].
  split; vm_compute; reflexivity.
Qed.
(** Either party gives the description of its own input and the commitments. *)
Lemma gives_own args i u d : nth_error (a_descs args) i = Some d -> d_asset d <> zeros 32 -> Gives toy args i u d.
Proof. intros E N. exists d. auto. Qed.
Lemma gives_other args i u d : nth_error hop_us i = Some u -> nth_error (a_descs args) i = Some unknown_input -> a_aux args = [gen_of 0; gen_of 1] -> Gives toy args i u d.
Proof.
  intros E EG EX. exists unknown_input. split; [exact EG|]. right. split; [reflexivity|]. exists (nAsset u).
  destruct hop_outs as (u0 & u2 & EU & _ & _ & P0 & P2). rewrite EX. unfold gen_of. rewrite EU in *. cbn [nth].
  destruct i as [|[|i]]; cbn [nth_error] in *; [| |destruct i; discriminate E]; apply Some_inj in E; subst u; (split; [reflexivity|]); left; split; try reflexivity; assumption.
Qed.
Lemma swap_gives args1 args2 args i u d : a_descs args1 = [read_at 0 (b32 901); unknown_input] -> a_descs args2 = [unknown_input; read_at 2 (b32 903)] ->
  (args = args1 \/ args = args2) -> a_aux args = [gen_of 0; gen_of 1] -> nth_error hop_us i = Some u -> nth_error hop_descs i = Some d -> Gives toy args i u d.
Proof.
  intros D1 D2 EA EX EU ED. destruct hop_given as (_ & _ & d0 & d2 & EH & Q0 & Q2 & A0 & _ & A2 & _). rewrite EH in ED.
  destruct i as [|[|i]]; cbn [nth_error] in ED; [| |destruct i; discriminate ED]; apply Some_inj in ED; subst d; destruct EA as [-> | ->].
  - apply gives_own; [rewrite D1, Q0; reflexivity|rewrite A0; discriminate].
  - apply gives_other; [exact EU|rewrite D2; reflexivity|exact EX].
  - apply gives_other; [exact EU|rewrite D1; reflexivity|exact EX].
  - apply gives_own; [rewrite D2, Q2; reflexivity|rewrite A2; discriminate].
Qed.
Lemma swap_once args1 args2 : a_descs args1 = [read_at 0 (b32 901); unknown_input] -> a_descs args2 = [unknown_input; read_at 2 (b32 903)] -> described_once [args1; args2] hop_descs.
Proof.
  intros D1 D2. unfold described_once, blinded_inputs. cbn [flat_map]. rewrite D1, D2, app_nil_r. destruct hop_given as (_ & _ & d0 & d2 & EH & Q0 & Q2 & _ & _ & _ & _ & N0 & N2).
  rewrite EH, <- Q0, <- Q2. cbn [filter]. rewrite N0, N2. apply Permutation_refl.
Qed.
Lemma swap_conserves calls outs w : (forall a, amount_of a (map (fun o => (tl (nAsset o), be_val (tl (nValue o)))) outs) = amount_of a [(asset_A, 700); (asset_I, 500)]) ->
  Conserves toy calls hop_descs (mkTx [hop_in 0; hop_in 2] outs 0 2 w).
Proof.
  intros H a. destruct hop_given as (_ & _ & d0 & d2 & EH & _ & _ & A0 & V0 & A2 & V2 & _). rewrite EH. cbn [map vout]. rewrite H, A0, V0, A2, V2. reflexivity.
Qed.
Lemma taken_eq : taken = node_after taker asked. Proof. unfold taken. reflexivity. Qed.
Example C84_ex : Assembling toy swap_steps hop_us hop_descs offer taken
  /\ TokenKeys (whole swap_steps) (extend (additions swap_steps) offer) /\ NoSpareGenerators (whole swap_steps) (extend (additions swap_steps) offer)
  (* without the second step the node says no *)
  /\ node_check toy toy_verifier hop_us asked = false.
Proof.
  assert (EW : extend (additions swap_steps) offer = mkTx [hop_in 0; hop_in 2] [toy_out 690 asset_A [x51]; toy_out 500 asset_I [x51; x51]; toy_out 10 asset_A []] 0 2
     (mkTxWit [bare; bare] [outwit_null; outwit_null; outwit_null])) by reflexivity.
  split; [|split; [|split]].
  - constructor.
    + discriminate.
    + apply (step_call _ 1 asker rest_of offer _ eq_refl); [vm_compute; reflexivity|reflexivity|reflexivity|discriminate|right; cbn; lia|].
      change (extend rest_of (node_after asker offer)) with asked.
      apply (step_call _ 1 taker _ asked _ eq_refl); [vm_compute; reflexivity|reflexivity|vm_compute; reflexivity|discriminate|left; reflexivity|].
      rewrite extend_nil, <- taken_eq. apply BG_nil.
    + split; reflexivity.
    + intros i w IN. cbn in IN. destruct IN as [IN|[]]. injection IN as <- <-. split; reflexivity.
    + rewrite EW. apply two_unblinded; [vm_compute; reflexivity|reflexivity].
    + reflexivity.
    + exact (proj1 hop_given).
    + exact (proj1 (proj2 hop_given)).
    + intros args i u d IN EU ED. cbn [swap_steps whole In] in IN.
      apply (swap_gives (widen (additions swap_steps) asker) (widen (additions (tl swap_steps)) taker) args i u d eq_refl eq_refl); [| |exact EU|exact ED]; destruct IN as [<-|[<-|[]]]; [left|right| |]; reflexivity.
    + apply swap_once; reflexivity.
    + rewrite EW. apply swap_conserves. intros a. unfold amount_of. cbn [toy_out map app nAsset nValue tl filter fst snd].
      destruct (bytes_eqb asset_A a), (bytes_eqb asset_I a); vm_compute; reflexivity.
  - rewrite EW. intros args i inp _ E _ KK. exfalso. apply KK. rewrite (two_inputs (mkTx [hop_in 0; hop_in 2] [] 0 2 (mkTxWit [] [])) eq_refl i inp E). reflexivity.
  - intros args IN. cbn [swap_steps whole In] in IN. destruct IN as [<-|[<-|[]]]; cbn; lia.
  - vm_compute. reflexivity.
Qed.

(** The generators of the inputs to come have to be there when blinding: a party that gives only its own input's description makes
    proofs that the node does not accept once the other inputs are there. *)
Definition alone : blind_args := mkArgs [read_at 0 (b32 901)] [toy_pub 905] [] [] [] None None true.
Definition asked2 : tx := extend rest_of (node_after alone offer).
Definition taken2 : tx := node_after taker asked2.
Lemma taken2_eq : taken2 = node_after taker asked2. Proof. unfold taken2. reflexivity. Qed.
Definition no_plan (_ : blind_args) (_ : tx) (_ : more) : Prop := True.
Theorem C84_unforeseen_refuted : exists args args2 x us descs t t', let steps := [(args, x); (args2, mkMore [] [])] in
  Building no_plan toy steps t t' /\ Aligned t /\ IssuesNothing (additions steps) /\ Unblinded toy (whole steps) us (extend (additions steps) t)
  /\ length us = length (vin (extend (additions steps) t)) /\ Forall (Existing toy) us /\ Forall2 (Described toy) us descs
  /\ a_descs args = firstn (length (vin t)) descs /\ (forall i u d, nth_error us i = Some u -> nth_error descs i = Some d -> Gives toy args2 i u d)
  /\ described_once (whole steps) descs /\ Conserves toy (whole steps) descs (extend (additions steps) t)
  /\ node_check toy toy_verifier us t' = false.
Proof.
  exists alone, taker, rest_of, hop_us, hop_descs, offer, taken2. cbv zeta.
  assert (EW : extend (additions [(alone, rest_of); (taker, mkMore [] [])]) offer = mkTx [hop_in 0; hop_in 2] [toy_out 690 asset_A [x51]; toy_out 500 asset_I [x51; x51]; toy_out 10 asset_A []] 0 2
     (mkTxWit [bare; bare] [outwit_null; outwit_null; outwit_null])) by reflexivity.
  split.
  { apply (step_call _ 1 alone rest_of offer _ eq_refl); [vm_compute; reflexivity|reflexivity|reflexivity|discriminate|exact I|].
    change (extend rest_of (node_after alone offer)) with asked2.
    apply (step_call _ 1 taker _ asked2 _ eq_refl); [vm_compute; reflexivity|reflexivity|vm_compute; reflexivity|discriminate|exact I|].
    rewrite extend_nil, <- taken2_eq. apply BG_nil. }
  split; [split; reflexivity|]. split; [intros i w IN; cbn in IN; destruct IN as [IN|[]]; injection IN as <- <-; split; reflexivity|].
  split; [rewrite EW; apply two_unblinded; [vm_compute; reflexivity|reflexivity]|]. split; [reflexivity|]. split; [exact (proj1 hop_given)|]. split; [exact (proj1 (proj2 hop_given))|].
  split; [reflexivity|]. split.
  { intros i u d EU ED. exact (swap_gives (widen (additions swap_steps) asker) taker taker i u d eq_refl eq_refl (or_intror eq_refl) eq_refl EU ED). }
  split; [apply swap_once; reflexivity|]. split.
  { rewrite EW. apply swap_conserves. intros a. unfold amount_of. cbn [toy_out map app nAsset nValue tl filter fst snd].
    destruct (bytes_eqb asset_A a), (bytes_eqb asset_I a); vm_compute; reflexivity. }
  vm_compute. reflexivity.
Qed.
(** The generators do not replace the descriptions: a party cannot blind an output of an asset of which it only gives the commitment. *)
Definition wish : tx := mkTx [hop_in 0] [toy_out 500 asset_I [x51]] 0 2 (mkTxWit [bare] [outwit_null]).
Theorem C84_asked_asset_refuted : exists args t x, Aligned t /\ IssuesNothing x /\ Foresees args t x /\ ~ bad_arguments args t
  /\ nth_error (a_aux args) (length (vin t)) = Some (gen_of 1) /\ d_asset (read_at 2 (b32 903)) = asset_I /\ map nAsset (vout t) = [x01 :: asset_I]
  /\ fst (blind_transaction toy toy_rand args t) = Ret (BFailure (F_count 0 1)).
Proof.
  exists asker, wish, rest_of. split; [split; reflexivity|]. split; [intros i w IN; cbn in IN; destruct IN as [IN|[]]; injection IN as <- <-; split; reflexivity|].
  split; [right; cbn; lia|]. assert (Q : fst (blind_transaction toy toy_rand asker wish) = Ret (BFailure (F_count 0 1))) by (vm_compute; reflexivity).
  split. { destruct (blind_transaction toy toy_rand asker wish) as [o s] eqn:E. cbn [fst] in Q. subst o. exact (success_good _ _ _ _ _ _ E). }
  split; [reflexivity|]. split; [|split; [reflexivity|exact Q]]. destruct hop_given as (_ & _ & d0 & d2 & _ & _ & <- & _ & _ & X & _). exact X.
Qed.
Print Assumptions C84_exchange.
Print Assumptions C84_parties.
Print Assumptions C84_accepted.
Print Assumptions C84_unforeseen_refuted.
Print Assumptions C84_asked_asset_refuted.
