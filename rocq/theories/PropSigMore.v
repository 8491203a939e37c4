(** More of C23 and C64: witnesses that are missing, negative input numbers. *)
From Verif Require Import Base BaseFacts Serialize ParserFacts TxModel SpecWire TxProofs TxProofs2 ScriptModel SpecScript ScriptProofs
  SighashModel SpecSighash SighashProofs FramingFacts SighashBind SchnorrProofs SchnorrBind SchnorrTable PropCodec PropSighash
  LegacyModel SpecLegacy LegacyProofs PropLegacy.
From Coq Require Import Lia.
Local Open Scope Z_scope.

Lemma inputs_total vi : Forall txin_in_range vi -> forall wi, Forall wf_inwit wi ->
  ((length vi <= length wi)%nat -> exists fl ps qs is rs, schnorr_inputs vi wi = Ok (fl, ps, qs, is, rs))
  /\ ((length wi < length vi)%nat -> schnorr_inputs vi wi = Raise EIndex).
Proof.
  induction 1 as [|x vi X _ IH]; intros wi W; cbn [schnorr_inputs List.length].
  - split; [eauto 10|lia].
  - destruct X as (X1 & X2 & X3 & X4 & X5).
    assert (P : exists p, ser_outpoint (prevout x) = Ok p). 
    { destruct (le_int_ex 4 (op_n (prevout x))) as [q Q]; [exact X2|].
      exists (op_hash (prevout x) ++ q). apply W_outpoint_iff. exists q. auto. }
    destruct P as [p P]. destruct (le_int_ex 4 (nSequence x)) as [q Q]; [exact X4|]. apply pack_le_iff in Q.
    rewrite P. cbn [rbind]. rewrite Q. cbn [rbind].
    destruct wi as [|w wi]; [split; [cbn; lia|reflexivity]|].
    inversion W as [|? ? W1 W2]; subst. destruct W1 as (S1 & S2 & _).
    destruct (W_bytes_ex _ S1) as [a A]. apply ser_bytes_iff in A. destruct (W_bytes_ex _ S2) as [k K]. apply ser_bytes_iff in K.
    unfold rangeproofs_ser. rewrite A. cbn [rbind]. rewrite K. cbn [rbind]. destruct (IH wi W2) as [I1 I2]. cbn [List.length].
    split; intros L.
    + destruct I1 as (fl & ps & qs & is & rs & E); [lia|]. rewrite E. cbn [rbind]. eauto 10.
    + rewrite I2 by lia. reflexivity.
Qed.
Lemma outputs_total vo : Forall wf_txout vo -> forall wo, Forall wf_outwit wo ->
  ((length vo <= length wo)%nat -> exists os ws, schnorr_outputs vo wo = Ok (os, ws))
  /\ ((length wo < length vo)%nat -> schnorr_outputs vo wo = Raise EIndex).
Proof.
  induction 1 as [|x vi X _ IH]; intros wi W; cbn [schnorr_outputs List.length].
  - split; [eauto 10|lia].
  - destruct (W_txout_ex x X) as [s S]. apply ser_txout_iff in S. rewrite S. cbn [rbind].
    destruct wi as [|w wi]; [split; [cbn; lia|reflexivity]|].
    inversion W as [|? ? W1 W2]; subst. destruct (W_outwit_ex w W1) as [y Y]. apply ser_outwit_iff in Y. rewrite Y. cbn [rbind].
    destruct (IH wi W2) as [I1 I2]. cbn [List.length].
    split; intros L.
    + destruct I1 as (os & ws & E); [lia|]. rewrite E. cbn [rbind]. eauto.
    + rewrite I2 by lia. reflexivity.
Qed.

(** A witness that the hash type covers is missing. *)
Definition MissingWitness (t : tx) (ht : option Z) (i : nat) (x : txin) : Prop :=
  (tap_acp ht = false /\ (length (vtxinwit (wit t)) < length (vin t))%nat)
  \/ (tap_acp ht = true /\ has_issuance x = true /\ (length (vtxinwit (wit t)) <= i)%nat)
  \/ (tap_all ht = true /\ (length (vtxoutwit (wit t)) < length (vout t))%nat)
  \/ (tap_single ht = true /\ (length (vtxoutwit (wit t)) <= i < length (vout t))%nat).

(** Then there is no hash but IndexError; otherwise the key path always gives a hash, whatever witnesses are missing. *)
Theorem C23_missing_witness : forall sha tap t (i : nat) spent ht sv tl cs an gen x,
  signable t -> - 2 ^ 31 <= nVersion t < 2 ^ 31 -> 0 <= nLockTime t < 2 ^ 32 -> Z.of_nat (length (vin t)) <= 2 ^ 32 ->
  Forall wf_inwit (vtxinwit (wit t)) -> Forall wf_outwit (vtxoutwit (wit t)) -> Forall wf_txout spent -> valid_tap_ht ht ->
  nth_error (vin t) i = Some x -> length spent = length (vin t) ->
  (forall h, tl = Some h -> blen h = 32) -> (forall h, an = Some h -> blen h = 32) -> blen gen = 32 ->
  sv = SIGVERSION_TAPROOT \/ sv = SIGVERSION_TAPSCRIPT ->
  let run := sighash_schnorr_raw sha tap t (Z.of_nat i) spent ht sv tl cs an gen in
  (MissingWitness t ht i x -> run = Raise EIndex)
  /\ (~ MissingWitness t ht i x -> sv = SIGVERSION_TAPROOT -> (tap_single ht = true -> (i < length (vout t))%nat) -> exists h, run = Ok h).
Proof.
  intros sha tap t i spent ht sv tl cs an gen x [SI SO] HV HK HN WI WO WS VH Ex LS TL AN GN SV run.
  assert (Li : (i < length (vin t))%nat) by (apply nth_error_Some; congruence).
  assert (C1 : check32 tl = Ok tt) by (apply check32_iff; exact TL).
  assert (C2 : check32 an = Ok tt) by (apply check32_iff; exact AN).
  assert (Hr : 0 <= match ht with None => SIGHASH_ALL | Some h => h end < 256).
  { destruct ht; cbn [valid_tap_ht In] in VH; unfold SIGHASH_ALL; lia. }
  assert (EA : (output_type match ht with None => SIGHASH_ALL | Some h => h end =? SIGHASH_ALL) = tap_all ht)
    by (rewrite output_type_spec by assumption; reflexivity).
  assert (ES : (output_type match ht with None => SIGHASH_ALL | Some h => h end =? SIGHASH_SINGLE) = tap_single ht)
    by (rewrite output_type_spec by assumption; reflexivity).
  assert (EP : input_acp match ht with None => SIGHASH_ALL | Some h => h end = tap_acp ht)
    by (rewrite input_acp_spec; reflexivity).
  assert (EB : exists hb, match ht with None => Ok [x00] | Some h => byte_of h end = Ok hb).
  { destruct ht as [h|]; [|eexists; reflexivity]. unfold byte_of.
    destruct (Z.leb_spec 0 h), (Z.ltb_spec h 256); cbn [andb]; try lia. eexists; reflexivity. }
  destruct EB as [hb EB].
  assert (ESV : exists ef, match sv with SIGVERSION_TAPROOT => Ok 0 | SIGVERSION_TAPSCRIPT => Ok 1 | _ => Raise EValue end = Ok ef).
  { destruct SV; subst sv; eexists; reflexivity. }
  destruct ESV as [ef ESV].
  destruct (le_sint32_ex _ HV) as [f1 F1]. apply pack_sint32_iff in F1.
  destruct (le_int_ex 4 (nLockTime t)) as [f2 F2]; [exact HK|]. apply pack_le_iff in F2.
  destruct (W_seq_ex (fun o => W_bytes (scriptPubKey o)) wf_txout spent) as [ss SS]; [|exact WS|].
  { intros o (_ & _ & _ & S). apply W_bytes_ex. exact S. }
  apply spent_scripts_iff in SS.
  destruct (inputs_total (vin t) SI (vtxinwit (wit t)) WI) as [I1 I2]. destruct (outputs_total (vout t) SO (vtxoutwit (wit t)) WO) as [O1 O2].
  assert (RX : txin_in_range x) by (rewrite Forall_forall in SI; apply SI; eapply nth_error_In; exact Ex).
  destruct (W_outpoint_ex x RX) as [p P]. apply W_outpoint_iff in P.
  destruct (le_int_ex 4 (nSequence x)) as [q Q]; [destruct RX as (_ & _ & _ & R & _); exact R|]. apply pack_le_iff in Q.
  destruct (nth_error spent i) as [u|] eqn:Eu; [|apply nth_error_None in Eu; lia].
  assert (F6 : exists f, match an with Some a => ser_bytes a | None => Ok [] end = Ok f).
  { destruct an as [a|]; [|eauto]. destruct (W_bytes_ex a) as [s Hs]; [unfold small; rewrite (AN a eq_refl); lia|]. exists s. apply ser_bytes_iff. assumption. }
  destruct F6 as [f6 F6].
  destruct (le_int_ex 4 (Z.of_nat i)) as [n4 N4]; [change (256 ^ Z.of_nat 4) with (2 ^ 32); lia|]. apply pack_le_iff in N4.
  assert (IN : issuance_is_null (assetIssuance x) = negb (has_issuance x)).
  { unfold has_issuance, issuance_is_null, conf_is_null. destruct (is_amount (assetIssuance x)), (is_keys (assetIssuance x)); reflexivity. }
  unfold run, sighash_schnorr_raw. cbv zeta. rewrite EA, ES, EP.
  destruct (Z.leb_spec 0 (Z.of_nat i)); [|lia]. destruct (Z.ltb_spec (Z.of_nat i) (Z.of_nat (length (vin t)))); [|lia].
  cbn [rassert rbind]. rewrite C1, C2, GN, Z.eqb_refl. cbn [rassert rbind].
  rewrite ESV. cbn [rbind]. rewrite LS, Nat.eqb_refl. cbn [rassert rbind].
  rewrite EB. cbn [rbind]. rewrite F1. cbn [rbind]. rewrite F2. cbn [rbind].
  rewrite !py_nth_nonneg by lia. rewrite !Nat2Z.id, Ex, Eu. cbn [rbind]. rewrite P. cbn [rbind]. rewrite Q, N4, F6, IN, SS. cbn [rbind].
  unfold MissingWitness.
  (* the inputs *)
  destruct (tap_acp ht) eqn:AC; cbn [negb].
  1: cbn [rbind].
  2: destruct (Nat.le_gt_cases (length (vin t)) (length (vtxinwit (wit t)))) as [L1|L1];
     [destruct (I1 L1) as (fl & ps & qs & is & rs & E); rewrite E; cbn [rbind]
     |rewrite (I2 L1); cbn [rbind]; split; [reflexivity|intros N; exfalso; apply N; auto]].
  all: (destruct (tap_all ht) eqn:AL;
     [destruct (Nat.le_gt_cases (length (vout t)) (length (vtxoutwit (wit t)))) as [L2|L2];
       [destruct (O1 L2) as (os & ws & E'); rewrite E'; cbn [rbind]
       |rewrite (O2 L2); cbn [rbind]; split; [reflexivity|intros N; exfalso; apply N; right; right; left; auto]]
     |cbn [rbind]]).
  all: try (destruct (has_issuance x) eqn:HI; cbn [negb rbind];
     [destruct (nth_error (vtxinwit (wit t)) i) as [w|] eqn:Ew; cbn [rbind];
       [|apply nth_error_None in Ew; split; [reflexivity|intros N; exfalso; apply N; right; left; auto]]|]).
  all: try (assert (Lw : (i < length (vtxinwit (wit t)))%nat) by (apply nth_error_Some; congruence)).
  all: (destruct (tap_single ht) eqn:SG; cbn [rbind];
     [destruct (Z.ltb_spec (Z.of_nat (length (vout t))) (Z.of_nat i)); cbn [negb rassert rbind];
       [split; [intros M; exfalso; intuition (try congruence; try lia)|intros _ _ B; specialize (B eq_refl); lia]
       |destruct (nth_error (vout t) i) as [o|] eqn:Eo; cbn [rbind];
         [|split; [reflexivity|apply nth_error_None in Eo; intros _ _ B; specialize (B eq_refl); lia]]]|]).
  all: try (assert (Lo : (i < length (vout t))%nat) by (apply nth_error_Some; congruence);
     assert (Ho : wf_txout o) by (rewrite Forall_forall in SO; apply SO; eapply nth_error_In; eassumption);
     destruct (W_txout_ex o Ho) as [s Hs]; apply ser_txout_iff in Hs; rewrite Hs; cbn [rbind];
     destruct (nth_error (vtxoutwit (wit t)) i) as [wo|] eqn:Nw; cbn [rbind];
       [|apply nth_error_None in Nw; split; [reflexivity|intros N; exfalso; apply N; right; right; right; auto]];
     assert (Hw : wf_outwit wo) by (rewrite Forall_forall in WO; apply WO; eapply nth_error_In; eassumption);
     destruct (W_outwit_ex wo Hw) as [x' Hx']; apply ser_outwit_iff in Hx'; rewrite Hx'; cbn [rbind];
     assert (Lwo : (i < length (vtxoutwit (wit t)))%nat) by (apply nth_error_Some; congruence)).
  all: (split; [intros M; exfalso; intuition (try congruence; try lia)|intros _ -> _; cbn [rbind]; eexists; reflexivity]).
Qed.
Definition few_tx : tx := mkTx (vin sx_tx) (vout sx_tx) 0 2 (mkTxWit [inwit_null] []).
Example C23_ex_missing : MissingWitness few_tx None 0 sx_in0 /\ MissingWitness few_tx (Some 0x82) 1 sx_in1 /\ ~ MissingWitness few_tx (Some 0x82) 0 sx_in0
  /\ sighash_schnorr_raw toyhash toyhash few_tx 0 sx_spent None SIGVERSION_TAPROOT None None None (zeros 32) = Raise EIndex
  /\ sighash_schnorr_raw toyhash toyhash few_tx 1 sx_spent (Some 0x82) SIGVERSION_TAPROOT None None None (zeros 32) = Raise EIndex
  /\ exists h, sighash_schnorr_raw toyhash toyhash few_tx 0 sx_spent (Some 0x82) SIGVERSION_TAPROOT None None None (zeros 32) = Ok h.
Proof.
  split; [left; split; [reflexivity|cbn; lia]|]. split; [right; left; repeat split; cbn; lia|].
  split; [intros [[F _]|[(_ & F & _)|[[F _]|[F _]]]]; vm_compute in F; discriminate|].
  do 2 (split; [vm_compute; reflexivity|]). eexists. vm_compute. reflexivity.
Qed.

(** ** Input numbers outside the transaction *)
(** Segwit v0: no such input, counted from either end: IndexError. *)
Theorem C18_no_such_input : forall legacy H script t i ht a, signable t -> - 2 ^ 31 <= nVersion t < 2 ^ 31 ->
  Z.of_nat (length (vin t)) <= i \/ i < - Z.of_nat (length (vin t)) ->
  sighash legacy H script t i ht (Some a) SIGVERSION_WITNESS_V0 = Raise EIndex.
Proof.
  intros legacy H script t i ht a [SI SO] HV B. rewrite sighash_is_v0. unfold sighash_v0. cbn [rbind].
  assert (P : exists p, v0_prevouts t = Ok p).
  { destruct (W_seq_ex (fun x => W_outpoint (prevout x)) txin_in_range (vin t)) as [p P]; [intros x X; apply W_outpoint_ex; exact X|exact SI|].
    exists p. apply prevouts_iff. exact P. }
  assert (Q : exists q, v0_sequences t = Ok q).
  { destruct (W_seq_ex (fun x => le_int 4 (nSequence x)) txin_in_range (vin t)) as [p P']; [intros x (_ & _ & _ & X & _); apply le_int_ex; exact X|exact SI|].
    exists p. apply sequences_iff. exact P'. }
  assert (O : exists o, v0_outputs t = Ok o).
  { destruct (W_seq_ex W_txout wf_txout (vout t)) as [p P']; [intros x X; apply W_txout_ex; exact X|exact SO|]. exists p. apply outputs_iff. exact P'. }
  destruct P as [p P], Q as [q Q], O as [o O]. destruct (le_sint32_ex _ HV) as [f1 F1]. apply pack_sint32_iff in F1.
  assert (N : forall A (l : list A), Z.of_nat (length l) <= i \/ i < - Z.of_nat (length l) -> py_nth l i = Raise EIndex).
  { intros A l L. unfold py_nth. cbv zeta. destruct (Z.ltb_spec i 0).
    - destruct (Z.leb_spec 0 (i + Z.of_nat (length l))); [lia|reflexivity].
    - destruct (Z.leb_spec 0 i); [|lia]. destruct (Z.ltb_spec i (Z.of_nat (length l))); [lia|reflexivity]. }
  rewrite P, Q, O, F1, (N _ _ B).
  assert (E : forall b : bool, (if b then (let! p0 := Ok p in Ok (H p0, H (v0_issuances t))) else Ok (zeros 32, zeros 32))
     = Ok (if b then (H p, H (v0_issuances t)) else (zeros 32, zeros 32))) by (intros []; reflexivity).
  rewrite E. cbn [rbind]. clear E. destruct (if negb (is_acp ht) then _ else _) as [hp hi].
  assert (E : forall b : bool, (if b then (let! p0 := Ok q in Ok (H p0)) else Ok (zeros 32)) = Ok (if b then H q else zeros 32)) by (intros []; reflexivity).
  rewrite E. cbn [rbind]. clear E.
  destruct (negb (is_single ht) && negb (is_none ht)); [reflexivity|].
  destruct (is_single ht && (i <? Z.of_nat (length (vout t)))); [|reflexivity].
  destruct (py_nth (vout t) i) as [y|e] eqn:Ey; cbn [rbind].
  - assert (Y : wf_txout y).
    { rewrite Forall_forall in SO. apply SO. unfold py_nth in Ey. cbv zeta in Ey.
      match type of Ey with (if ?b then _ else _) = _ => destruct b; [|discriminate] end.
      match type of Ey with match ?b with _ => _ end = _ => destruct b eqn:G; [|discriminate] end.
      apply nth_error_In in G. apply Ok_inj in Ey. subst. exact G. }
    destruct (W_txout_ex y Y) as [s S]. apply ser_txout_iff in S. rewrite S. reflexivity.
  - unfold py_nth in Ey. cbv zeta in Ey.
    match type of Ey with (if ?b then _ else _) = _ => destruct b; [|congruence] end.
    match type of Ey with match ?b with _ => _ end = _ => destruct b eqn:G; congruence end.
Qed.
(** Legacy: a negative number counts from the end for hash types that cover all outputs; before the first input: IndexError. *)
Theorem C64_negative_index : forall H script t i ht a, i < 0 -> sig_none ht = false -> sig_single ht = false ->
  (- Z.of_nat (length (vin t)) <= i -> base_sighash H script t i ht a = base_sighash H script t (i + Z.of_nat (length (vin t))) ht a)
  /\ (i < - Z.of_nat (length (vin t)) -> (exists sc, Stripped script sc) -> base_sighash H script t i ht a = Raise EIndex).
Proof.
  intros H script t i ht a Hi Hn Hs. 
  assert (NX : forall s x, raw_sighash (legacy_sighash H) H script t x ht s SIGVERSION_BASE = legacy_sighash H script t x ht) by reflexivity.
  unfold base_sighash, sighash. rewrite !NX. unfold legacy_sighash.
  rewrite is_none_spec, is_single_spec, Hn, Hs. split.
  - intros L. destruct (Z.leb_spec (Z.of_nat (length (vin t))) i); [lia|].
    destruct (Z.leb_spec (Z.of_nat (length (vin t))) (i + Z.of_nat (length (vin t)))); [lia|].
    destruct (find_and_delete script [OP_CODESEPARATOR]) as [sc|e]; [|reflexivity]. cbn [rbind]. unfold py_update.
    rewrite (py_nth_neg (map (with_script []) (vin t)) i) by (rewrite map_length; lia). rewrite map_length.
    destruct (py_nth (map (with_script []) (vin t)) (i + Z.of_nat (length (vin t)))) as [own|e] eqn:E; [|reflexivity]. cbn [rbind].
    destruct (Z.ltb_spec i 0); [|lia]. destruct (Z.ltb_spec (i + Z.of_nat (length (vin t))) 0); [lia|].
    assert (LU : forall {A} n (f : A -> A) l, length (update_nth n f l) = length l).
    { intros A. induction n as [|n IH]; intros f [|y l]; cbn; auto. }
    rewrite (py_nth_neg (update_nth _ _ _) i) by (rewrite LU, map_length; lia). rewrite LU, map_length. reflexivity.
  - intros L (sc & ST). destruct (Z.leb_spec (Z.of_nat (length (vin t))) i); [lia|].
    apply find_and_delete_iff in ST. rewrite ST. cbn [rbind]. unfold py_update.
    assert (N : py_nth (map (with_script []) (vin t)) i = Raise EIndex); [|rewrite N; reflexivity].
    unfold py_nth. cbv zeta. destruct (Z.ltb_spec i 0); [|lia]. rewrite map_length. destruct (Z.leb_spec 0 (i + Z.of_nat (length (vin t)))); [lia|reflexivity].
Qed.
(** Three inputs: input 3 and input -4 do not exist; input -1 is input 2. *)
Example C64_ex_negative : length (vin sx_tx) = 3%nat /\ Stripped [x51; xab; x52] [x51; x52]
  /\ (forall a, sighash (fun _ _ _ _ => Raise EValue) toyhash [x51] sx_tx 3 SIGHASH_ALL (Some a) SIGVERSION_WITNESS_V0 = Raise EIndex)
  /\ base_sighash toyhash [x51; xab; x52] sx_tx (-4) SIGHASH_ALL None = Raise EIndex
  /\ base_sighash toyhash [x51; xab; x52] sx_tx (-1) SIGHASH_ALL None = base_sighash toyhash [x51; xab; x52] sx_tx 2 SIGHASH_ALL None.
Proof.
  split; [reflexivity|]. split; [apply find_and_delete_iff; vm_compute; reflexivity|]. split; [intros a; vm_compute; reflexivity|].
  split; vm_compute; reflexivity.
Qed.

Print Assumptions C23_missing_witness.
Print Assumptions C18_no_such_input.
Print Assumptions C64_negative_index.
