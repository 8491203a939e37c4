(** The model of the pre-segwit signature hash against its specification. *)
From Verif Require Import Base BaseFacts Serialize ParserFacts TxModel SpecWire TxProofs TxProofs2
  ScriptModel SpecScript ScriptProofs SighashModel SpecSighash SighashProofs FramingFacts LegacyModel SpecLegacy.
Local Open Scope Z_scope.

(** * Scripts *)
Lemma instr_next i rest : Instruction i -> exists op d, raw_next (i ++ rest) = NextOp op d rest.
Proof.
  intros [d p P|o L].
  - destruct (proj2 (raw_next_push (p ++ rest) d rest) (ex_intro _ p (conj eq_refl P))) as [op E]. exists op, (Some d). exact E.
  - exists (bz o), None. apply raw_next_none. exists o. auto.
Qed.
Lemma next_instr s op d rest : raw_next s = NextOp op d rest -> exists i, s = i ++ rest /\ Instruction i.
Proof.
  destruct d as [d|]; intros E.
  - destruct (proj1 (raw_next_push s d rest) (ex_intro _ op E)) as (p & -> & P). exists p. split; [reflexivity|econstructor; exact P].
  - apply raw_next_none in E. destruct E as (o & -> & _ & L). exists [o]. split; [reflexivity|constructor; exact L].
Qed.
Lemma instr_nonempty i : Instruction i -> i <> [].
Proof. intros [d p P|o _]; [destruct P|]; discriminate. Qed.
Lemma instr_sep i : Instruction i -> firstn 1 i = [xab] <-> i = [xab].
Proof.
  intros [d p P|o L].
  - destruct P as [o L E|l E|l0 l1 E|l0 l1 l2 l3 E]; cbn [firstn]; split; intros X; try discriminate.
    + injection X as ->. vm_compute in L. congruence.
    + injection X as -> ->. vm_compute in L. congruence.
  - cbn [firstn]. reflexivity.
Qed.
Lemma sep_instr : Instruction [xab].
Proof. constructor. reflexivity. Qed.

Lemma stripped_nil s' : Stripped [] s' <-> s' = [].
Proof.
  split; [|intros ->; constructor]. intros H. remember [] as e eqn:Ee. destruct H; [reflexivity|discriminate|].
  apply app_eq_nil in Ee. destruct Ee as [-> _]. exfalso. exact (instr_nonempty _ H eq_refl).
Qed.
Lemma stripped_step i rest s' : Instruction i ->
  Stripped (i ++ rest) s' <-> exists r', Stripped rest r' /\ s' = (if bytes_eqb (firstn 1 i) [xab] then [] else i) ++ r'.
Proof.
  intros Hi. split.
  - intros H. remember (i ++ rest) as s eqn:Es. destruct H as [|s s' H|j s s' Hj Nj H].
    + symmetry in Es. apply app_eq_nil in Es. destruct Es as [-> _]. exfalso. exact (instr_nonempty _ Hi eq_refl).
    + destruct (instr_next i rest Hi) as (op & d & E). destruct (instr_next [xab] s sep_instr) as (op' & d' & E').
      cbn [app] in E'. rewrite Es, E in E'. injection E' as _ _ <-.
      assert (i = [xab]). { apply (app_inv_tail rest). rewrite <- Es. reflexivity. } subst i.
      exists s'. split; [exact H|reflexivity].
    + destruct (instr_next i rest Hi) as (op & d & E). destruct (instr_next j s Hj) as (op' & d' & E').
      rewrite Es, E in E'. injection E' as _ _ <-. apply app_inv_tail in Es. subst j.
      exists s'. split; [exact H|]. destruct (bytes_eqb (firstn 1 i) [xab]) eqn:B; [|reflexivity].
      apply bytes_eqb_eq in B. apply (instr_sep _ Hi) in B. contradiction.
  - intros (r' & H & ->). destruct (bytes_eqb (firstn 1 i) [xab]) eqn:B.
    + apply bytes_eqb_eq in B. apply (instr_sep _ Hi) in B. subst i. cbn [app]. constructor. exact H.
    + apply St_keep; [exact Hi| |exact H]. intros ->. discriminate B.
Qed.

Lemma fad_loop_iff fuel : forall r chunk s (skip : bool) out, (length s <= length fuel)%nat ->
  fad_loop fuel [xab] r (chunk ++ s) s skip = Ok out <->
  exists s', Stripped s s' /\ out = r ++ (if skip then [] else chunk) ++ s'.
Proof.
  induction fuel as [|x fuel IH]; intros r chunk s skip out L.
  - destruct s; [|cbn in L; lia]. cbn [fad_loop raw_next].
    split.
    + intros E. apply Ok_inj in E. subst out. exists []. split; [constructor|]. destruct skip; rewrite ?app_nil_r; reflexivity.
    + intros (s' & H & ->). apply stripped_nil in H. subst s'. destruct skip; rewrite ?app_nil_r; reflexivity.
  - cbn [fad_loop]. destruct (raw_next s) as [|e|op d rest] eqn:E.
    + assert (s = []).
      { destruct s as [|o s]; [reflexivity|]. exfalso. revert E. unfold raw_next. cbv zeta.
        destruct (_ >? _); [discriminate|]. destruct (_ <? _); [apply take_data_nostop|].
        destruct (_ =? _); [destruct s; [discriminate|apply take_data_nostop]|].
        destruct (_ =? _); [destruct s as [|? [|? s]]; try discriminate; apply take_data_nostop|].
        destruct s as [|? [|? [|? [|? s]]]]; try discriminate; apply take_data_nostop. }
      subst s. split.
      * intros F. apply Ok_inj in F. subst out. exists []. split; [constructor|]. destruct skip; rewrite ?app_nil_r; reflexivity.
      * intros (s' & H & ->). apply stripped_nil in H. subst s'. destruct skip; rewrite ?app_nil_r; reflexivity.
    + split; [discriminate|]. intros (s' & H & _). exfalso. destruct H as [|s s' H|j s s' Hj Nj H].
      * discriminate E.
      * destruct (instr_next [xab] s sep_instr) as (op' & d' & E'). cbn [app] in E'. congruence.
      * destruct (instr_next j s Hj) as (op' & d' & E'). congruence.
    + apply next_instr in E. destruct E as (i & -> & Hi).
      replace (firstn (length (chunk ++ i ++ rest) - length (i ++ rest)) (chunk ++ i ++ rest)) with chunk.
      2:{ rewrite !app_length. replace (length chunk + (length i + length rest) - (length i + length rest))%nat with (length chunk) by lia.
          rewrite firstn_app, Nat.sub_diag, firstn_all. cbn [firstn]. rewrite app_nil_r. reflexivity. }
      pose proof (instr_nonempty _ Hi) as Ni.
      assert (F1 : firstn (length [xab]) (i ++ rest) = firstn 1 i) by (destruct i; [contradiction|reflexivity]).
      rewrite F1. rewrite IH.
      2:{ rewrite app_length in L. destruct i; [contradiction|]. cbn [length] in L. lia. }
      split.
      * intros (s' & H & ->). exists ((if bytes_eqb (firstn 1 i) [xab] then [] else i) ++ s'). split.
        { apply stripped_step; eauto. }
        destruct skip; rewrite <- ?app_assoc; reflexivity.
      * intros (s' & H & ->). apply stripped_step in H; [|exact Hi]. destruct H as (r' & H & ->). exists r'. split; [exact H|].
        destruct skip; rewrite <- ?app_assoc; reflexivity.
Qed.
Lemma find_and_delete_iff s out : find_and_delete s [OP_CODESEPARATOR] = Ok out <-> Stripped s out.
Proof.
  unfold find_and_delete, OP_CODESEPARATOR. change s with ([] ++ s) at 2. rewrite fad_loop_iff by lia. cbn [app]. split.
  - intros (s' & H & ->). exact H.
  - intros H. exists out. auto.
Qed.
Lemma stripped_fun s a b : Stripped s a -> Stripped s b -> a = b.
Proof. intros A B. apply find_and_delete_iff in A. apply find_and_delete_iff in B. congruence. Qed.

Lemma fad_raise fuel : forall sig r last s skip e, (length s <= length fuel)%nat ->
  fad_loop fuel sig r last s skip = Raise e -> e = EScript.
Proof.
  induction fuel as [|x fuel IH]; intros sig r last s skip e L; cbn [fad_loop].
  - destruct s; [discriminate|cbn in L; lia].
  - destruct (raw_next s) as [|e'|op d rest] eqn:E; [discriminate| |].
    + intros X. injection X as <-. eapply raw_next_err. eassumption.
    + intros X. eapply IH; [|exact X]. apply next_instr in E. destruct E as (i & -> & Hi). apply instr_nonempty in Hi.
      rewrite app_length in L. destruct i; [contradiction|]. cbn [length] in L. lia.
Qed.
Lemma find_and_delete_raise s sig e : find_and_delete s sig = Raise e -> e = EScript.
Proof. apply fad_raise. lia. Qed.

(** * Inputs *)
Lemma update_nth_length {A} n (f : A -> A) l : length (update_nth n f l) = length l.
Proof. revert n. induction l as [|x l IH]; intros [|n]; cbn; auto. Qed.
Lemma update_nth_same {A} n (f : A -> A) l x : nth_error l n = Some x -> nth_error (update_nth n f l) n = Some (f x).
Proof. revert n. induction l as [|y l IH]; intros [|n]; cbn; try discriminate; auto. intros E. congruence. Qed.
Lemma update_nth_other {A} n m (f : A -> A) l : n <> m -> nth_error (update_nth n f l) m = nth_error l m.
Proof. revert n m. induction l as [|y l IH]; intros [|n] [|m] H; cbn; auto; [congruence]. Qed.
Lemma py_update_nat {A} (l : list A) (i : nat) f : (i < length l)%nat -> py_update l (Z.of_nat i) f = Ok (update_nth i f l).
Proof.
  intros L. unfold py_update. destruct (nth_error l i) as [x|] eqn:E; [|apply nth_error_None in E; lia].
  rewrite (proj2 (py_nth_ok l (Z.of_nat i) x ltac:(lia))) by (rewrite Nat2Z.id; exact E). cbn [rbind].
  destruct (Z.ltb_spec (Z.of_nat i) 0); [lia|]. rewrite Nat2Z.id. reflexivity.
Qed.
Lemma zero_others_length k i l : length (zero_others k i l) = length l.
Proof. revert k. induction l as [|x l IH]; intros k; cbn; auto. Qed.
Lemma zero_others_nth k i l : forall j x, nth_error l j = Some x ->
  nth_error (zero_others k i l) j = Some (if k + Z.of_nat j =? i then x else with_sequence 0 x).
Proof.
  revert k. induction l as [|y l IH]; intros k [|j] x E; try discriminate.
  - cbn in E. injection E as ->. cbn [zero_others nth_error]. rewrite Z.add_0_r. reflexivity.
  - cbn [nth_error zero_others] in *. rewrite (IH (k + 1) j x E).
    replace (k + Z.of_nat (S j)) with (k + 1 + Z.of_nat j) by lia. reflexivity.
Qed.

(** The list of inputs before the ANYONECANPAY cut. *)
Definition model_ins (t : tx) (i : nat) (ht : Z) (sc : bytes) : list txin :=
  let l := update_nth i (with_script sc) (map (with_script []) (vin t)) in
  if is_none ht || is_single ht then zero_others 0 (Z.of_nat i) l else l.
Lemma model_ins_length t i ht sc : length (model_ins t i ht sc) = length (vin t).
Proof. unfold model_ins. destruct (_ || _); rewrite ?zero_others_length, update_nth_length, map_length; reflexivity. Qed.
Lemma model_ins_nth t i ht sc j x : nth_error (vin t) j = Some x ->
  nth_error (model_ins t i ht sc) j = Some (signed_input sc ht i j x).
Proof.
  intros E. unfold model_ins, signed_input. rewrite is_none_spec, is_single_spec.
  assert (N : nth_error (update_nth i (with_script sc) (map (with_script []) (vin t))) j
            = Some (if (j =? i)%nat then with_script sc x else with_script [] x)).
  { destruct (Nat.eqb_spec j i) as [->|D].
    - rewrite (update_nth_same i _ _ (with_script [] x)) by (apply map_nth_error; exact E). reflexivity.
    - rewrite update_nth_other by congruence. apply map_nth_error. exact E. }
  destruct (sig_none ht || sig_single ht).
  - rewrite (zero_others_nth 0 (Z.of_nat i) _ j _ N). f_equal. rewrite Z.add_0_l.
    destruct (Nat.eqb_spec j i) as [->|D]; [rewrite Z.eqb_refl; reflexivity|].
    destruct (Z.eqb_spec (Z.of_nat j) (Z.of_nat i)); [lia|reflexivity].
  - rewrite N. destruct (j =? i)%nat; reflexivity.
Qed.
Lemma nth_error_ext {A} (l l' : list A) : (forall j, nth_error l j = nth_error l' j) -> l = l'.
Proof.
  revert l'. induction l as [|x l IH]; intros [|y l'] H; [reflexivity|specialize (H 0%nat); discriminate..|].
  pose proof (H 0%nat) as H0. cbn in H0. injection H0 as ->. f_equal. apply IH. intros j. exact (H (S j)).
Qed.
Lemma signed_inputs_iff t i ht sc ins : (i < length (vin t))%nat ->
  SignedInputs t i ht sc ins <->
  (if is_acp ht then exists own, py_nth (model_ins t i ht sc) (Z.of_nat i) = Ok own /\ ins = [own] else ins = model_ins t i ht sc).
Proof.
  intros L. unfold SignedInputs. rewrite is_acp_spec. destruct (acp ht).
  - destruct (nth_error (vin t) i) as [x|] eqn:E; [|apply nth_error_None in E; lia].
    pose proof (model_ins_nth t i ht sc i x E) as N.
    assert (P : py_nth (model_ins t i ht sc) (Z.of_nat i) = Ok (signed_input sc ht i i x)).
    { apply py_nth_ok; [lia|]. rewrite Nat2Z.id. exact N. }
    rewrite P. split.
    + intros (y & Ey & ->). injection Ey as <-. eauto.
    + intros (own & Eo & ->). apply Ok_inj in Eo. subst own. eauto.
  - split.
    + intros (HL & H). apply nth_error_ext. intros j. destruct (nth_error (vin t) j) as [x|] eqn:E.
      * rewrite (H j x E), (model_ins_nth t i ht sc j x E). reflexivity.
      * apply nth_error_None in E. rewrite (proj2 (nth_error_None _ j)), (proj2 (nth_error_None _ j)); [reflexivity| |].
        { rewrite model_ins_length. exact E. } { rewrite HL. exact E. }
    + intros ->. split; [apply model_ins_length|]. intros j x E. apply model_ins_nth. exact E.
Qed.

(** The serialisation step. *)
Lemma legacy_ser_iff ins outs lt v s :
  ser_tx false true (mkTx ins outs lt v (mkTxWit [] [])) = Ok s <->
  exists ver vi vo l, le_sint32 v ver /\ W_vec (W_txin true) ins vi /\ W_vec W_txout outs vo /\ le_int 4 lt l
    /\ s = ver ++ vi ++ vo ++ l.
Proof.
  rewrite ser_tx_iff. split.
  - intros H. inversion H; [|discriminate]. subst. cbn [vin vout nLockTime nVersion app] in *. eauto 10.
  - intros (ver & vi & vo & l & H1 & H2 & H3 & H4 & ->).
    apply (W_tx_nowit false true (mkTx ins outs lt v (mkTxWit [] [])) ver vi vo l); auto.
Qed.

Definition legacy_finish (Hash : bytes -> bytes) (t : tx) (inIdx hashtype : Z) (ins : list txin) (outs : list txout) : res (bytes * bool) :=
  let! ins := (if is_acp hashtype then let! own := py_nth ins inIdx in Ok [own] else Ok ins) in
  let! s := ser_tx false true (mkTx ins outs (nLockTime t) (nVersion t) (mkTxWit [] [])) in
  let! h := pack_le_signed 4 hashtype in
  Ok (Hash (s ++ h), false).

(** The computation once the script is stripped. *)
Lemma legacy_unfold H script t (i : nat) ht :
  legacy_sighash H script t (Z.of_nat i) ht =
  if (length (vin t) <=? i)%nat then Ok (HASH_ONE, true) else
  let! sc := find_and_delete script [OP_CODESEPARATOR] in
  if sig_none ht then legacy_finish H t (Z.of_nat i) ht (model_ins t i ht sc) []
  else if sig_single ht then
    match nth_error (vout t) i with
    | None => Ok (HASH_ONE, true)
    | Some o => legacy_finish H t (Z.of_nat i) ht (model_ins t i ht sc) (repeat txout_null i ++ [o])
    end
  else legacy_finish H t (Z.of_nat i) ht (model_ins t i ht sc) (vout t).
Proof.
  unfold legacy_sighash.
  destruct (Z.leb_spec (Z.of_nat (length (vin t))) (Z.of_nat i)), (Nat.leb_spec (length (vin t)) i); try lia; [reflexivity|].
  destruct (find_and_delete script [OP_CODESEPARATOR]) as [sc|e]; [|reflexivity]. cbn [rbind].
  rewrite py_update_nat by (rewrite map_length; lia). cbn [rbind]. cbv zeta.
  rewrite <- is_none_spec, <- is_single_spec. unfold model_ins.
  destruct (is_none ht) eqn:En; [reflexivity|]. destruct (is_single ht) eqn:Es; [|reflexivity]. cbn [orb].
  destruct (nth_error (vout t) i) as [o|] eqn:Eo.
  - assert (i < length (vout t))%nat by (apply nth_error_Some; congruence).
    destruct (Z.leb_spec (Z.of_nat (length (vout t))) (Z.of_nat i)); [lia|].
    rewrite (proj2 (py_nth_ok (vout t) (Z.of_nat i) o ltac:(lia))) by (rewrite Nat2Z.id; exact Eo). cbn [rbind].
    rewrite Nat2Z.id. reflexivity.
  - apply nth_error_None in Eo. destruct (Z.leb_spec (Z.of_nat (length (vout t))) (Z.of_nat i)); [reflexivity|lia].
Qed.

Lemma legacy_finish_iff H t (i : nat) ht sc outs h err : (i < length (vin t))%nat ->
  legacy_finish H t (Z.of_nat i) ht (model_ins t i ht sc) outs = Ok (h, err) <->
  err = false /\ exists ins ver vi vo lt hty,
    SignedInputs t i ht sc ins /\ le_sint32 (nVersion t) ver /\ W_vec (W_txin true) ins vi /\ W_vec W_txout outs vo
    /\ le_int 4 (nLockTime t) lt /\ le_sint32 ht hty /\ h = H (ver ++ vi ++ vo ++ lt ++ hty).
Proof.
  intros L. unfold legacy_finish. split.
  - intros E. apply rbind_Ok in E. destruct E as (ins & E1 & E). apply rbind_Ok in E. destruct E as (s & E2 & E).
    apply rbind_Ok in E. destruct E as (hty & E3 & E). apply Ok_pair_inj in E. destruct E as [<- <-]. split; [reflexivity|].
    apply legacy_ser_iff in E2. destruct E2 as (ver & vi & vo & l & V1 & V2 & V3 & V4 & ->).
    exists ins, ver, vi, vo, l, hty. rewrite signed_inputs_iff by exact L. split.
    { destruct (is_acp ht); [|apply Ok_inj in E1; auto]. apply rbind_Ok in E1. destruct E1 as (own & O & E1).
      apply Ok_inj in E1. eauto. }
    apply pack_sint32_iff in E3. rewrite <- !app_assoc. repeat (split; [assumption|]). reflexivity.
  - intros (-> & ins & ver & vi & vo & lt & hty & SI & V1 & V2 & V3 & V4 & V5 & ->).
    apply signed_inputs_iff in SI; [|exact L].
    assert (E1 : (if is_acp ht then let! own := py_nth (model_ins t i ht sc) (Z.of_nat i) in Ok [own] else Ok (model_ins t i ht sc)) = Ok ins).
    { destruct (is_acp ht); [|congruence]. destruct SI as (own & -> & ->). reflexivity. }
    rewrite E1. cbn [rbind].
    rewrite (proj2 (legacy_ser_iff ins outs (nLockTime t) (nVersion t) (ver ++ vi ++ vo ++ lt))) by eauto 10.
    cbn [rbind]. apply pack_sint32_iff in V5. rewrite V5. cbn [rbind]. rewrite <- !app_assoc. reflexivity.
Qed.

Theorem legacy_preimage_iff H script t (i : nat) ht h :
  legacy_sighash H script t (Z.of_nat i) ht = Ok (h, false) <-> exists b, LegacyPreimage script t i ht b /\ h = H b.
Proof.
  rewrite legacy_unfold. unfold LegacyPreimage.
  destruct (Nat.leb_spec (length (vin t)) i) as [L|L].
  { split; [discriminate|]. intros (b & (sc & ins & outs & ver & vi & vo & lt & hty & X & _) & _). lia. }
  destruct (find_and_delete script [OP_CODESEPARATOR]) as [sc|e] eqn:F; cbn [rbind].
  2:{ split; [discriminate|]. intros (b & (sc & ins & outs & ver & vi & vo & lt & hty & _ & X & _) & _).
      apply find_and_delete_iff in X. congruence. }
  apply find_and_delete_iff in F.
  assert (G : forall outs, legacy_finish H t (Z.of_nat i) ht (model_ins t i ht sc) outs = Ok (h, false) <->
     exists ins ver vi vo lt hty,
    SignedInputs t i ht sc ins /\ le_sint32 (nVersion t) ver /\ W_vec (W_txin true) ins vi /\ W_vec W_txout outs vo
    /\ le_int 4 (nLockTime t) lt /\ le_sint32 ht hty /\ h = H (ver ++ vi ++ vo ++ lt ++ hty)).
  { intros outs. rewrite legacy_finish_iff by exact L. split; [intros [_ X]; exact X|auto]. }
  assert (K : forall outs, SignedOutputs t i ht outs -> (forall o', SignedOutputs t i ht o' -> o' = outs) ->
     legacy_finish H t (Z.of_nat i) ht (model_ins t i ht sc) outs = Ok (h, false) <->
     exists b, (exists sc0 ins outs0 ver vi vo lt hty, (i < length (vin t))%nat /\ Stripped script sc0
        /\ SignedInputs t i ht sc0 ins /\ SignedOutputs t i ht outs0
        /\ le_sint32 (nVersion t) ver /\ W_vec (W_txin true) ins vi /\ W_vec W_txout outs0 vo
        /\ le_int 4 (nLockTime t) lt /\ le_sint32 ht hty /\ b = ver ++ vi ++ vo ++ lt ++ hty) /\ h = H b).
  { intros outs SO U. rewrite G. split.
    - intros (ins & ver & vi & vo & lt & hty & S1 & V1 & V2 & V3 & V4 & V5 & ->). eexists. split; [|reflexivity].
      exists sc, ins, outs, ver, vi, vo, lt, hty. repeat (split; [assumption|]). reflexivity.
    - intros (b & (sc0 & ins & outs0 & ver & vi & vo & lt & hty & _ & F0 & S1 & S2 & V1 & V2 & V3 & V4 & V5 & ->) & ->).
      rewrite (stripped_fun _ _ _ F0 F) in S1. apply U in S2. subst outs0.
      exists ins, ver, vi, vo, lt, hty. repeat (split; [assumption|]). reflexivity. }
  unfold SignedOutputs in *. destruct (sig_none ht); [apply K; auto|]. destruct (sig_single ht); [|apply K; auto].
  destruct (nth_error (vout t) i) as [o|].
  - apply K; [eauto|]. intros o' (x & E & ->). injection E as <-. reflexivity.
  - split; [discriminate|]. intros (b & (sc0 & ins & outs0 & ver & vi & vo & lt & hty & _ & F0 & S1 & (o & E & _) & _) & _). discriminate.
Qed.

Lemma hash_one h : IsHashOne h <-> h = HASH_ONE.
Proof.
  unfold IsHashOne. split; [|intros ->; split; reflexivity]. intros [A B].
  apply le_val_inj; [rewrite A; reflexivity|rewrite B; reflexivity].
Qed.

Theorem legacy_error_iff H script t (i : nat) ht h :
  legacy_sighash H script t (Z.of_nat i) ht = Ok (h, true) <->
  IsHashOne h /\ ((length (vin t) <= i)%nat
    \/ (sig_single ht = true /\ (length (vout t) <= i)%nat /\ exists sc, Stripped script sc)).
Proof.
  rewrite legacy_unfold, hash_one.
  destruct (Nat.leb_spec (length (vin t)) i) as [L|L].
  { split; [intros E; apply Ok_pair_inj in E; destruct E as [<- _]; auto|]. intros [-> _]. reflexivity. }
  assert (G : forall sc outs, legacy_finish H t (Z.of_nat i) ht (model_ins t i ht sc) outs <> Ok (h, true)).
  { intros sc outs E. apply legacy_finish_iff in E; [|exact L]. destruct E; discriminate. }
  destruct (find_and_delete script [OP_CODESEPARATOR]) as [sc|e] eqn:F; cbn [rbind].
  2:{ split; [discriminate|]. intros [_ [X|(_ & _ & sc & X)]]; [lia|]. apply find_and_delete_iff in X. congruence. }
  apply find_and_delete_iff in F.
  destruct (sig_none ht) eqn:En.
  { split; [intros E; apply G in E; contradiction|]. intros [_ [X|(X & _)]]; [lia|]. exfalso. eapply none_single; eassumption. }
  destruct (sig_single ht).
  - destruct (nth_error (vout t) i) as [o|] eqn:Eo.
    + split; [intros E; apply G in E; contradiction|]. intros [_ [X|(_ & X & _)]]; [lia|]. apply nth_error_None in X. congruence.
    + apply nth_error_None in Eo. split; [intros E; apply Ok_pair_inj in E; destruct E as [<- _]; eauto 10|]. intros [-> _]. reflexivity.
  - split; [intros E; apply G in E; contradiction|]. intros [_ [X|(X & _)]]; [lia|discriminate].
Qed.
