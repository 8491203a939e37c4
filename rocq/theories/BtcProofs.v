(** Proofs about the transactions on the side of Bitcoin. *)
From Verif Require Import Base BaseFacts Serialize TxModel SpecWire TxProofs SighashModel ScriptModel CrossModel SpecCross CrossProofs CrossTxModel WaitModel BtcModel SpecBtc PropCross.
From Coq Require Import Lia.
Local Open Scope Z_scope.

(** * Serialisation *)
Lemma pack_sint64_iff z b : pack_le_signed 8 z = Ok b <-> le_sint64 z b.
Proof.
  unfold pack_le_signed, le_sint64. change (256 ^ Z.of_nat 8) with (2 ^ 64). change (2 ^ 64 / 2) with (2 ^ 63).
  split.
  - destruct ((- 2 ^ 63 <=? z) && (z <? 2 ^ 63)) eqn:E; [|discriminate].
    intros H; apply Ok_inj in H; subst. split; [lia|]. split; [apply le_bytes_length|].
    rewrite le_val_le_bytes. change (256 ^ Z.of_nat 8) with (2 ^ 64).
    destruct (Z.ltb_spec z 0).
    + rewrite <- (Z.mod_add z 1) by lia. rewrite Z.mod_small; lia.
    + apply Z.mod_small; lia.
  - intros [Hz [HL HV]]. replace ((- 2 ^ 63 <=? z) && (z <? 2 ^ 63)) with true by lia.
    f_equal. rewrite <- (le_bytes_le_val b), HL, HV.
    destruct (Z.ltb_spec z 0); [|reflexivity].
    rewrite <- (le_bytes_mod 8 z), <- (le_bytes_mod 8 (z + 2 ^ 64)).
    change (256 ^ Z.of_nat 8) with (2 ^ 64). f_equal.
    rewrite <- (Z.mod_add z 1 (2 ^ 64)) by lia. f_equal.
Qed.
Lemma le_sint64_ex z : - 2 ^ 63 <= z < 2 ^ 63 -> exists b, le_sint64 z b.
Proof.
  intros H. destruct (le_int_ex 8 (if z <? 0 then z + 2 ^ 64 else z)) as [b B]; [change (256 ^ Z.of_nat 8) with (2 ^ 64); destruct (Z.ltb_spec z 0); lia|].
  exists b. split; assumption.
Qed.
Lemma le_sint64_inj z z' b : le_sint64 z b -> le_sint64 z' b -> z = z'.
Proof. intros [R [_ V]] [R' [_ V']]. rewrite V in V'. destruct (Z.ltb_spec z 0), (Z.ltb_spec z' 0); lia. Qed.
Lemma ser_prev_iff o b : ser_outpoint o = Ok b <-> W_prev o b.
Proof.
  unfold ser_outpoint, W_prev. destruct (Z.eqb_spec (blen (op_hash o)) 32) as [L|L]; cbn [negb].
  - rewrite rbind_Ok. split.
    + intros (n & P & E). apply Ok_inj in E. subst b. exists n. rewrite pack_le_iff in P. auto.
    + intros (n & _ & P & ->). exists n. rewrite pack_le_iff. auto.
  - split; [discriminate|]. intros (n & L' & _). contradiction.
Qed.
Lemma ser_bout_iff o b : ser_bout o = Ok b <-> W_bout o b.
Proof.
  unfold ser_bout, W_bout. rewrite rbind_Ok. split.
  - intros (v & V & E). rewrite rbind_Ok in E. destruct E as (s & S & E). apply Ok_inj in E. exists v, s. rewrite <- pack_sint64_iff, <- ser_bytes_iff. auto.
  - intros (v & s & V & S & ->). exists v. rewrite pack_sint64_iff. split; [exact V|]. rewrite rbind_Ok. exists s. rewrite ser_bytes_iff. auto.
Qed.
Lemma ser_bin_iff i b : ser_bin i = Ok b <-> W_bin i b.
Proof.
  unfold ser_bin, W_bin. rewrite rbind_Ok. split.
  - intros (p & P & E). rewrite rbind_Ok in E. destruct E as (s & S & E). rewrite rbind_Ok in E. destruct E as (q & Q & E). apply Ok_inj in E. exists p, s, q.
    rewrite <- ser_prev_iff, <- ser_bytes_iff, <- pack_le_iff. auto.
  - intros (p & s & q & P & S & Q & ->). exists p. rewrite ser_prev_iff. split; [exact P|]. rewrite rbind_Ok. exists s. rewrite ser_bytes_iff. split; [exact S|].
    rewrite rbind_Ok. exists q. rewrite pack_le_iff. auto.
Qed.
Lemma W_seq_map {A B} (f : A -> B) (W : B -> bytes -> Prop) l b : W_seq (fun x => W (f x)) l b <-> W_seq W (map f l) b.
Proof.
  revert b. induction l as [|x l IH]; intros b; cbn [map]; (split; intros H; inversion H; subst; constructor; auto; apply IH; auto).
Qed.
Lemma btx_wit_iff t b : (exists st, In st (b_wit t) /\ st <> []) -> (btx_serialize t = Ok b <-> W_btx t b).
Proof.
  intros (st & I & N). unfold btx_serialize, W_btx.
  assert (F : forallb (fun st : list bytes => match st with [] => true | _ => false end) (b_wit t) = false).
  { destruct (forallb _ (b_wit t)) eqn:E; [|reflexivity]. rewrite forallb_forall in E. specialize (E st I). destruct st; [contradiction|discriminate]. }
  rewrite F. split.
  - intros H. rinv H. exists a, a0, a1. apply rbind_Ok in E2. destruct E2 as (w & W & E2). apply Ok_inj in E2. subst a2. exists w, a3.
    rewrite <- pack_sint32_iff, <- pack_le_iff. rewrite <- (ser_vector_iff _ _ _ _ ser_bin_iff), <- (ser_vector_iff _ _ _ _ ser_bout_iff), <- (ser_list_iff ser_scriptwitness (W_vec W_bytes) _ _ ser_stack_iff). repeat (split; [assumption|]). reflexivity.
  - intros (v & i & o & w & l & V & WI & WO & WW & L & ->). rewrite <- pack_sint32_iff in V. rewrite <- pack_le_iff in L.
    rewrite <- (ser_vector_iff _ _ _ _ ser_bin_iff) in WI. rewrite <- (ser_vector_iff _ _ _ _ ser_bout_iff) in WO. rewrite <- (ser_list_iff ser_scriptwitness (W_vec W_bytes) _ _ ser_stack_iff) in WW.
    rewrite V, WI, WO, WW, L. reflexivity.
Qed.

Lemma small_int32 z b : 0 <= z < 2 ^ 31 -> (pack_le_signed 4 z = Ok b <-> le_int 4 z b).
Proof.
  intros R. rewrite pack_sint32_iff. unfold le_sint32. destruct (Z.ltb_spec z 0); [lia|]. split; [intros [_ H0]; exact H0|]. intros H0. split; [lia|exact H0].
Qed.

(** * What is signed *)
Lemma sighash_signed Hash script t amount h : 0 <= b_lock t < 2 ^ 31 -> (btc_sighash Hash script t 0 amount = Ok h <-> BtcSigned Hash script t amount h).
Proof.
  intros L. unfold btc_sighash, BtcSigned. split.
  - intros H. rinv H. assert (N : nth_error (b_vin t) 0 = Some a3).
    { unfold py_nth in E3. destruct (b_vin t) as [|x l]; [discriminate|]. cbn [length] in E3.
      replace ((0 <=? 0 : bool) && (0 <? Z.of_nat (S (length l)))) with true in E3 by lia. change (0 <? 0) with false in E3. cbv iota in E3.
      replace ((0 <=? 0) && (0 <? Z.of_nat (S (length l)))) with true in E3 by lia. cbn [Z.to_nat nth_error] in *. congruence. }
    exists a3, a, a0, a1, a2, a4, a5, a6, a7, a8. split; [exact N|]. rewrite <- !W_seq_map.
    rewrite <- (ser_list_iff (fun i => ser_outpoint (bi_prev i)) _ _ _ (fun i => ser_prev_iff (bi_prev i))), <- (ser_list_iff (fun i => pack_le 4 (bi_seq i)) _ _ _ (fun i => pack_le_iff 4 (bi_seq i))), <- (ser_list_iff _ _ _ _ ser_bout_iff).
    rewrite <- pack_sint32_iff, <- ser_prev_iff, <- ser_bytes_iff, <- pack_sint64_iff, <- !pack_le_iff. rewrite small_int32 in E8 by exact L. rewrite <- pack_le_iff in E8.
    do 9 (split; [assumption|]). vm_compute in E9. apply Ok_inj in E9. subst a9. reflexivity.
  - intros (i & p & q & o & v & bp & bs & ba & bq & l & N & P & Q & O & V & BP & BS & BA & BQ & BL & ->). apply W_seq_map in P. apply W_seq_map in Q.
    rewrite <- (ser_list_iff (fun i => ser_outpoint (bi_prev i)) _ _ _ (fun i => ser_prev_iff (bi_prev i))) in P. rewrite <- (ser_list_iff (fun i => pack_le 4 (bi_seq i)) _ _ _ (fun i => pack_le_iff 4 (bi_seq i))) in Q.
    rewrite <- (ser_list_iff _ _ _ _ ser_bout_iff) in O. rewrite <- pack_sint32_iff in V. rewrite <- ser_prev_iff in BP. rewrite <- ser_bytes_iff in BS. rewrite <- pack_sint64_iff in BA. rewrite <- pack_le_iff in BQ.
    rewrite <- small_int32 in BL by exact L. assert (NN : py_nth (b_vin t) 0 = Ok i).
    { unfold py_nth. destruct (b_vin t) as [|x r]; [discriminate|]. injection N as ->. cbn [length]. change (0 <? 0) with false. cbv iota.
      replace ((0 <=? 0) && (0 <? Z.of_nat (S (length r)))) with true by lia. reflexivity. }
    rewrite P, Q, O, V, NN. cbn [rbind]. rewrite BP, BS, BA, BQ, BL. reflexivity.
Qed.
Lemma signed_total Hash script t amount i : nth_error (b_vin t) 0 = Some i -> small script -> - 2 ^ 63 <= amount < 2 ^ 63 -> - 2 ^ 31 <= b_ver t < 2 ^ 31 -> 0 <= b_lock t < 2 ^ 32 ->
  Forall (fun i => blen (op_hash (bi_prev i)) = 32 /\ 0 <= op_n (bi_prev i) < 2 ^ 32 /\ 0 <= bi_seq i < 2 ^ 32) (b_vin t) ->
  Forall (fun o => - 2 ^ 63 <= bo_value o < 2 ^ 63 /\ small (bo_script o)) (b_vout t) -> exists h, BtcSigned Hash script t amount h.
Proof.
  intros N S A V L FI FO.
  assert (PE : forall o, blen (op_hash o) = 32 -> 0 <= op_n o < 2 ^ 32 -> exists b, W_prev o b) by (intros o H1 H2; destruct (le_int_ex 4 (op_n o) H2) as [n H3]; exists (op_hash o ++ n), n; auto).
  destruct (W_seq_ex (fun i => W_prev (bi_prev i)) (fun i => blen (op_hash (bi_prev i)) = 32 /\ 0 <= op_n (bi_prev i) < 2 ^ 32 /\ 0 <= bi_seq i < 2 ^ 32) (b_vin t)) as [p P]; [intros x (H1 & H2 & _); apply PE; assumption|exact FI|].
  destruct (W_seq_ex (fun i => le_int 4 (bi_seq i)) (fun i => blen (op_hash (bi_prev i)) = 32 /\ 0 <= op_n (bi_prev i) < 2 ^ 32 /\ 0 <= bi_seq i < 2 ^ 32) (b_vin t)) as [q Q]; [intros x (_ & _ & H1); exact (le_int_ex 4 _ H1)|exact FI|].
  destruct (W_seq_ex W_bout (fun o => - 2 ^ 63 <= bo_value o < 2 ^ 63 /\ small (bo_script o)) (b_vout t)) as [o O].
  { intros x (H1 & H2). destruct (le_sint64_ex _ H1) as [v H3], (W_bytes_ex _ H2) as [s H4]. exists (v ++ s), v, s. auto. } { exact FO. }
  assert (I : blen (op_hash (bi_prev i)) = 32 /\ 0 <= op_n (bi_prev i) < 2 ^ 32 /\ 0 <= bi_seq i < 2 ^ 32) by (rewrite Forall_forall in FI; apply FI; eapply nth_error_In; exact N). destruct I as (I1 & I2 & I3).
  destruct (le_sint32_ex _ V) as [v V'], (PE _ I1 I2) as [bp BP], (W_bytes_ex _ S) as [bs BS], (le_sint64_ex _ A) as [ba BA], (le_int_ex 4 _ I3) as [bq BQ], (le_int_ex 4 _ L) as [l BL].
  eexists. exists i, p, q, o, v, bp, bs, ba, bq, l. rewrite <- !W_seq_map. do 10 (split; [assumption|]). reflexivity.
Qed.
(** what is signed depends on the witness in no way *)
Lemma signed_wit Hash script v o l ver w w' amount h : BtcSigned Hash script (mkBtx v o l ver w) amount h -> BtcSigned Hash script (mkBtx v o l ver w') amount h.
Proof. intros H. exact H. Qed.

(** * The contract, with nothing left on the stack *)
Definition Clean (st : list bytes) : Prop := exists top, st = [top] /\ truthy top = true.
Section R.
Variables (csfs : bytes -> bytes -> bytes -> Prop) (chk : bytes -> bytes -> Prop) (csv : Z -> Prop).
Notation runs := (runs csfs chk csv).
Lemma checksig_clean key st : runs [(bz xac, None)] [] (key :: st) Clean <-> exists sig, st = [sig] /\ chk sig key.
Proof.
  cbn [SpecCross.runs forallb]. change (bz xac) with 0xac. cbn [Z.eqb Pos.eqb negb Z.leb Z.compare Pos.compare Pos.compare_cont andb]. destruct st as [|sig st].
  - split; [intros []|]. intros (sig & E & _). discriminate E.
  - split.
    + intros [[A [_ (top & E & _)]]|[_ [_ (top & E & T)]]]; [injection E as _ ->; exists sig; auto|]. injection E as <- _. discriminate T.
    + intros (s & E & C). injection E as -> ->. left. split; [exact C|]. split; [reflexivity|]. exists [x01]. split; reflexivity.
Qed.
Ltac skip := rewrite runs_skip by (try reflexivity; apply Z.eqb_neq; lia).
Ltac pushed := rewrite runs_push by assumption; cbn [forallb andb].
Lemma btc_clean buyer seller c : blen buyer <= 520 -> blen seller <= 520 -> make_btc_contract buyer seller = Ok c -> exists l, ops c = Some l /\ forall st, runs l [] st Clean <->
  exists cond sig, st = [cond; sig] /\ (truthy cond = true /\ chk sig buyer \/ truthy cond = false /\ csv 15 /\ chk sig seller).
Proof.
  intros Lb Ls H. unfold make_btc_contract in H.
  match type of H with script_of ?l = _ => assert (P : Forall plain l) by (repeat constructor; cbn [plain small_int]; try exact I; right; reflexivity) end.
  destruct (ops_items _ _ P H) as (os & EO & F2).
  repeat match goal with F : Forall2 ItemOp (_ :: _) _ |- _ => inversion F; clear F; subst | F : Forall2 ItemOp [] _ |- _ => inversion F; clear F; subst end.
  repeat match goal with I : ItemOp _ _ |- _ => inversion I; clear I; subst end.
  eexists. split; [exact EO|]. intros st. clear EO P H c. destruct st as [|cond st].
  { rewrite runs_if_empty. split; [intros []|]. intros (? & ? & X & _). discriminate X. }
  rewrite runs_if. destruct (truthy cond) eqn:TC.
  - pushed. rewrite runs_else. cbn [negb]. do 4 skip. rewrite runs_endif, checksig_clean. split.
    + intros (_ & sig & -> & C). exists cond, sig. auto.
    + intros (c & sig & X & [[T C]|[T _]]); injection X as <- ->; [|congruence]. split; [exact Lb|]. exists sig. auto.
  - skip. rewrite runs_else. cbn [negb]. rewrite runs_fifteen, runs_csv, runs_drop. pushed. rewrite runs_endif, checksig_clean. split.
    + intros (A & _ & sig & -> & C). exists cond, sig. auto.
    + intros (c & sig & X & [[T _]|(T & A & C)]); injection X as <- ->; [congruence|]. split; [exact A|]. split; [exact Ls|]. exists sig. auto.
Qed.
End R.
Lemma btc_contract_len buyer seller c : blen buyer < 76 -> blen seller < 76 -> make_btc_contract buyer seller = Ok c -> blen c <= 520.
Proof.
  intros Lb Ls H. unfold make_btc_contract in H. cbn [script_of] in H. unfold small_int in H. cbn [rbind item_bytes] in H.
  repeat match type of H with context[rbind (encode_op_pushdata ?b) _] => let p := fresh "p" in let EP := fresh "EP" in destruct (encode_op_pushdata b) as [p|] eqn:EP; [apply (data_len b p) in EP; [|assumption]|discriminate H]; cbn [rbind] in H end.
  apply Ok_inj in H. subst c. unfold blen in *. repeat (rewrite app_length || cbn [length app]). repeat (rewrite app_length in * || cbn [length app] in * ). lia.
Qed.

(** * Searching *)
Lemma find_output_spec script outs : forall m, match find_output script m outs with
  | Some (n, o) => exists pre post, outs = pre ++ o :: post /\ Forall (fun p => bo_script p <> script) pre /\ bo_script o = script /\ n = m + Z.of_nat (length pre)
  | None => Forall (fun p => bo_script p <> script) outs end.
Proof.
  induction outs as [|o outs IH]; intros m; cbn [find_output]; [constructor|]. destruct (bytes_eqb (bo_script o) script) eqn:E.
  - apply bytes_eqb_eq in E. exists [], outs. repeat split; auto. cbn. lia.
  - assert (NE : bo_script o <> script) by (intros X; apply bytes_eqb_eq in X; congruence). specialize (IH (m + 1)). destruct (find_output script (m + 1) outs) as [[n p]|].
    + destruct IH as (pre & post & -> & F & S & ->). exists (o :: pre), post. repeat split; auto. cbn [length]. lia.
    + constructor; assumption.
Qed.
Lemma find_address_spec address script a : (forall s, address s = Some a <-> s = script) -> forall outs m js, Tells address m outs js ->
  match find_address a js with
  | Ok (Some n) => exists o pre post, outs = pre ++ o :: post /\ Forall (fun p => bo_script p <> script /\ address (bo_script p) <> None) pre /\ bo_script o = script /\ n = m + Z.of_nat (length pre)
  | Ok None => Forall (fun p => bo_script p <> script) outs
  | Raise e => e = EKey /\ exists o pre post, outs = pre ++ o :: post /\ Forall (fun p => bo_script p <> script) pre /\ address (bo_script o) = None
  end.
Proof.
  intros A outs m js T. induction T as [m|m o outs js T IH]; cbn [find_address jo_addresses]; [constructor|].
  destruct (address (bo_script o)) as [b|] eqn:EB.
  - cbn [existsb]. rewrite orb_false_r. destruct (bytes_eqb a b) eqn:E.
    + apply bytes_eqb_eq in E. subst b. apply A in EB. cbn [jo_n]. exists o, [], outs. repeat split; auto. cbn. lia.
    + assert (NE : bo_script o <> script) by (intros X; apply A in X; rewrite X in EB; injection EB as <-; rewrite (proj2 (bytes_eqb_eq a a) eq_refl) in E; discriminate).
      destruct (find_address a js) as [[n|]|e].
      * destruct IH as (p & pre & post & -> & F & S & ->). exists p, (o :: pre), post. repeat split; auto; [constructor; [split; congruence|exact F]|cbn [length]; lia].
      * constructor; assumption.
      * destruct IH as (-> & p & pre & post & -> & F & S). split; [reflexivity|]. exists p, (o :: pre), post. repeat split; auto.
  - split; [reflexivity|]. exists o, [], outs. repeat split; auto.
Qed.
Lemma wait_age_spec node done n : forall k, (exists m j c, (k <= m < k + n)%nat /\ node m = Got j /\ j_conf j = Some c /\ 15 <= c
      /\ (forall i, (k <= i < m)%nat -> exists j' c', node i = Got j' /\ j_conf j' = Some c' /\ c' < 15) /\ wait_age node n k done = done j)
  \/ wait_age node n k done = BWaits \/ (exists e, wait_age node n k done = BBroken e) \/ (exists c, wait_age node n k done = BRpc c).
Proof.
  induction n as [|n IH]; intros k; cbn [wait_age]; [auto|]. destruct (node k) as [j|c|e] eqn:EN; [|eauto..]. destruct (j_conf j) as [c|] eqn:EC; [|eauto]. unfold bitcoin_timeout.
  destruct (Z.ltb_spec c 15) as [L|L].
  - destruct (IH (S k)) as [(m & j' & c' & R & N & C & G & B & W)|[W|W]]; [|auto..]. left. exists m, j', c'. split; [lia|]. do 3 (split; [assumption|]). split; [|exact W].
    intros i RI. destruct (Nat.eq_dec i k) as [->|NE]; [eauto|]. apply B. lia.
  - left. exists k, j, c. split; [lia|]. do 3 (split; [assumption|]). split; [intros i RI; lia|reflexivity].
Qed.
