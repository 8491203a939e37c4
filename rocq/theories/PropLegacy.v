(** Property C64: the pre-segwit signature hash. *)
From Verif Require Import Base BaseFacts Serialize ParserFacts TxModel SpecWire TxProofs TxProofs2
  ScriptModel SpecScript ScriptProofs SighashModel SpecSighash SighashProofs FramingFacts PropCodec PropSighash
  LegacyModel SpecLegacy LegacyProofs LegacyBind.
Local Open Scope Z_scope.

(** CElementsScript.sighash and raw_sighash for SIGVERSION_BASE. *)
Definition base_sighash H script t i ht a := sighash (legacy_sighash H) H script t i ht a SIGVERSION_BASE.
Definition base_raw H script t i ht a := raw_sighash (legacy_sighash H) H script t i ht a SIGVERSION_BASE.

(** A hash is returned exactly for a signable string, and is its hash. *)
Theorem C64_preimage : forall H script t (i : nat) ht a h,
  base_sighash H script t (Z.of_nat i) ht a = Ok h <->
  exists b, LegacyPreimage script t i ht b /\ h = H b.
Proof.
  intros. unfold base_sighash. rewrite (proj1 (C18_legacy_error _ _ _ _ _ _ _)). apply legacy_preimage_iff.
Qed.

(** The two failing cases: no such input, or SINGLE without the matching output. raw_sighash
    returns the number one and an error, sighash raises ValueError. *)
Theorem C64_errors : forall H script t (i : nat) ht a,
  (forall h, base_raw H script t (Z.of_nat i) ht a = Ok (h, true) <->
     IsHashOne h /\ ((length (vin t) <= i)%nat
       \/ (sig_single ht = true /\ (length (vout t) <= i)%nat /\ exists sc, Stripped script sc)))
  /\ ((length (vin t) <= i)%nat \/ (sig_single ht = true /\ (length (vout t) <= i)%nat /\ exists sc, Stripped script sc) ->
      base_sighash H script t (Z.of_nat i) ht a = Raise EValue).
Proof.
  intros H script t i ht a. split.
  - intros h. unfold base_raw. rewrite (proj2 (proj2 (proj2 (C18_legacy_error _ _ _ _ _ _ _)))). apply legacy_error_iff.
  - intros D. assert (E : legacy_sighash H script t (Z.of_nat i) ht = Ok (HASH_ONE, true)).
    { apply legacy_error_iff. split; [apply hash_one; reflexivity|exact D]. }
    unfold base_sighash. eapply (proj1 (proj2 (C18_legacy_error _ _ _ _ _ _ _))). exact E.
Qed.

(** A script that is not a sequence of instructions (truncated push) cannot be signed with. *)
Theorem C64_bad_script : forall H script t (i : nat) ht a, (i < length (vin t))%nat ->
  (~ exists sc, Stripped script sc) ->
  base_sighash H script t (Z.of_nat i) ht a = Raise EScript.
Proof.
  intros H script t i ht a L N. unfold base_sighash. eapply (proj1 (proj2 (proj2 (C18_legacy_error _ _ _ _ _ _ _)))).
  rewrite legacy_unfold. destruct (Nat.leb_spec (length (vin t)) i); [lia|].
  destruct (find_and_delete script [OP_CODESEPARATOR]) as [sc|e] eqn:E.
  - exfalso. apply N. exists sc. apply find_and_delete_iff. exact E.
  - cbn [rbind]. f_equal. eapply find_and_delete_raise. exact E.
Qed.

(** In-range transactions can always be signed; in contrast to segwit v0 also with lock times of 2^31 and more. *)
Theorem C64_available : forall H script t (i : nat) ht a sc, signable t -> small script -> Stripped script sc ->
  - 2 ^ 31 <= nVersion t < 2 ^ 31 -> 0 <= nLockTime t < 2 ^ 32 -> - 2 ^ 31 <= ht < 2 ^ 31 ->
  Z.of_nat (length (vin t)) < 2 ^ 64 -> Z.of_nat (length (vout t)) < 2 ^ 64 ->
  (i < length (vin t))%nat -> (sig_single ht = true -> (i < length (vout t))%nat) ->
  Forall (fun x => op_n (prevout x) = 2 ^ 32 - 1 \/ 0 <= op_n (prevout x) < 2 ^ 30) (vin t) ->
  exists h, base_sighash H script t (Z.of_nat i) ht a = Ok h.
Proof.
  intros. destruct (legacy_available script t i ht sc) as [b Hb]; try assumption.
  exists (H b). apply C64_preimage. eauto.
Qed.

(** Equal hashes, same inputs issuing: everything the hash type covers is equal. *)
Theorem C64_binds : forall H script1 script2 t1 t2 (i1 i2 : nat) ht1 ht2 a1 a2 h,
  signable t1 -> signable t2 ->
  base_sighash H script1 t1 (Z.of_nat i1) ht1 a1 = Ok h ->
  base_sighash H script2 t2 (Z.of_nat i2) ht2 a2 = Ok h ->
  no_collision H (LegacyPreimage script1 t1 i1 ht1) (LegacyPreimage script2 t2 i2 ht2) ->
  (if acp ht1 then option_map writes_issuance (nth_error (vin t1) i1) = option_map writes_issuance (nth_error (vin t2) i2)
   else map writes_issuance (vin t1) = map writes_issuance (vin t2)) ->
  ht1 = ht2 /\ nVersion t1 = nVersion t2 /\ nLockTime t1 = nLockTime t2
  /\ (exists sc, Stripped script1 sc /\ Stripped script2 sc
        /\ (acp ht1 = false -> sc <> [] -> i1 = i2))
  /\ (acp ht1 = false -> map prevout (vin t1) = map prevout (vin t2)
        /\ map written_issuance (vin t1) = map written_issuance (vin t2))
  /\ (acp ht1 || sig_none ht1 || sig_single ht1 = false -> map nSequence (vin t1) = map nSequence (vin t2))
  /\ (acp ht1 = true \/ i1 = i2 ->
        exists x y, nth_error (vin t1) i1 = Some x /\ nth_error (vin t2) i2 = Some y
          /\ prevout x = prevout y /\ nSequence x = nSequence y /\ written_issuance x = written_issuance y)
  /\ (sig_none ht1 || sig_single ht1 = false -> vout t1 = vout t2)
  /\ (sig_single ht1 = true -> i1 = i2 /\ nth_error (vout t1) i1 = nth_error (vout t2) i2).
Proof.
  intros H script1 script2 t1 t2 i1 i2 ht1 ht2 a1 a2 h S1 S2 P1 P2 NC EP.
  apply C64_preimage in P1. destruct P1 as (b1 & P1 & E1). apply C64_preimage in P2. destruct P2 as (b2 & P2 & E2).
  assert (b1 = b2) by (apply NC; try assumption; congruence). subst b2.
  eapply legacy_bind; eassumption.
Qed.

(** What the hash type leaves out can change freely: scriptSigs, witnesses and peg-in flags always,
    and other inputs, sequences and outputs as for segwit v0. *)
Theorem C64_not_covered : forall H script t1 t2 (i1 i2 : nat) ht a x y h,
  nVersion t1 = nVersion t2 -> nLockTime t1 = nLockTime t2 ->
  nth_error (vin t1) i1 = Some x -> nth_error (vin t2) i2 = Some y ->
  prevout x = prevout y -> nSequence x = nSequence y -> written_issuance x = written_issuance y ->
  (acp ht = false -> i1 = i2 /\ map prevout (vin t1) = map prevout (vin t2)
                     /\ map written_issuance (vin t1) = map written_issuance (vin t2)) ->
  (acp ht || sig_none ht || sig_single ht = false -> map nSequence (vin t1) = map nSequence (vin t2)) ->
  (sig_none ht || sig_single ht = false -> vout t1 = vout t2) ->
  (sig_single ht = true -> i1 = i2 /\ nth_error (vout t1) i1 = nth_error (vout t2) i2) ->
  base_sighash H script t1 (Z.of_nat i1) ht a = Ok h <-> base_sighash H script t2 (Z.of_nat i2) ht a = Ok h.
Proof.
  intros H script t1 t2 i1 i2 ht a x y h EV EL N1 N2 EP ES EI Ha Hs Ho Hsi. rewrite !C64_preimage. split; intros (b & P & ->).
  - exists b. split; [|reflexivity]. apply (legacy_depends script t1 t2 i1 i2 ht b x y); assumption.
  - exists b. split; [|reflexivity]. apply (legacy_depends script t2 t1 i2 i1 ht b y x); auto.
    + intros E. destruct (Ha E) as (? & ? & ?). auto.
    + intros E. symmetry. auto.
    + intros E. symmetry. auto.
    + intros E. destruct (Hsi E). auto.
Qed.

(** The natural claim that an ALL signature binds which outputs are spent is false: no flag is signed
    that tells which input issues, so an issuance and the next input can trade places. *)
Definition lx_script : bytes := [x76; xa9; xab; xac].
Definition lx_entropy : bytes := [x02; x00; x00; x00; x00; xfe; xff; xff; xff] ++ repeat x55 23.
Definition lx_amount : bytes := x01 :: repeat x07 8.
Definition lx_bhash : bytes := repeat x66 31 ++ [x01].
Definition lx_in0 (iss : issuance) : txin := mkTxIn (mkOutPoint (repeat x11 32) 0) [] 5 iss false.
Definition lx_tx1 : tx := mkTx
  [lx_in0 (mkIssuance (repeat x44 32) lx_entropy lx_amount []);
   mkTxIn (mkOutPoint lx_bhash 3) [] 9 issuance_default false]
  [sx_out0; sx_out1] 100 2 (mkTxWit [] []).
Definition lx_tx2 : tx := mkTx
  [lx_in0 issuance_default;
   mkTxIn (mkOutPoint (repeat x44 32) 2) [] 0xfffffffe
     (mkIssuance (repeat x55 23 ++ lx_amount) (x00 :: repeat x66 31) (x01 :: [x03; x00; x00; x00; x00; x09; x00; x00]) []) false]
  [sx_out0; sx_out1] 100 2 (mkTxWit [] []).
Lemma lx_signable1 : signable lx_tx1.
Proof. split; [repeat (constructor; [tin|]); constructor|repeat (constructor; [wf_out|]); constructor]. Qed.
Lemma lx_signable2 : signable lx_tx2.
Proof. split; [repeat (constructor; [tin|]); constructor|repeat (constructor; [wf_out|]); constructor]. Qed.

Theorem C64_spent_outputs_bound_refuted : exists script t1 t2,
  signable t1 /\ signable t2 /\ map prevout (vin t1) <> map prevout (vin t2)
  /\ map has_issuance (vin t1) <> map has_issuance (vin t2)
  /\ forall H a, exists h, base_sighash H script t1 0 1 a = Ok h /\ base_sighash H script t2 0 1 a = Ok h.
Proof.
  exists lx_script, lx_tx1, lx_tx2. split; [apply lx_signable1|]. split; [apply lx_signable2|].
  split; [vm_compute; discriminate|]. split; [vm_compute; discriminate|].
  intros H a. eexists. split; [vm_compute; reflexivity|vm_compute; reflexivity].
Qed.

(** With a script of separators only, the signature is good for every input. *)
Theorem C64_empty_script : forall H script t (i j : nat) ht a h,
  Stripped script [] -> acp ht || sig_none ht || sig_single ht = false ->
  (i < length (vin t))%nat -> (j < length (vin t))%nat ->
  base_sighash H script t (Z.of_nat i) ht a = Ok h -> base_sighash H script t (Z.of_nat j) ht a = Ok h.
Proof.
  intros H script t i j ht a h F E Li Lj. rewrite !C64_preimage. intros (b & P & ->). exists b. split; [|reflexivity].
  apply orb_false_iff in E. destruct E as [E Es]. apply orb_false_iff in E. destruct E as [Ea En].
  destruct P as (sc & ins & outs & ver & vi & vo & lt & hty & _ & F' & SI & SO & R).
  exists sc, ins, outs, ver, vi, vo, lt, hty. split; [exact Lj|]. split; [exact F'|].
  rewrite (stripped_fun _ _ _ F' F) in *. unfold SignedInputs, SignedOutputs in *. rewrite Ea, En, Es in *.
  split; [|split; [exact SO|exact R]]. destruct SI as [L HI]. split; [exact L|]. intros k x Hk. rewrite (HI k x Hk). f_equal.
  unfold signed_input. rewrite En, Es. cbn [orb]. destruct (k =? i)%nat, (k =? j)%nat; reflexivity.
Qed.

(** Concrete case: a separator is dropped, and [sx_tx] and [sx_tx'] (other scriptSigs, witnesses, peg-in flags) agree. *)
Example C64_ex_strip : Stripped lx_script [x76; xa9; xac].
Proof. apply find_and_delete_iff. vm_compute. reflexivity. Qed.
Example C64_ex_bad : ~ exists sc, Stripped [x05; xab] sc.
Proof. intros [sc E]. apply find_and_delete_iff in E. vm_compute in E. discriminate. Qed.
Example C64_ex_binds : exists h, let H := fun b : bytes => b in
  signable sx_tx /\ signable sx_tx' /\ sx_tx <> sx_tx'
  /\ base_sighash H lx_script sx_tx 1 1 None = Ok h /\ base_sighash H [x76; xa9; xac; xab] sx_tx' 1 1 None = Ok h
  /\ no_collision H (LegacyPreimage lx_script sx_tx 1 1) (LegacyPreimage [x76; xa9; xac; xab] sx_tx' 1 1)
  /\ map writes_issuance (vin sx_tx) = map writes_issuance (vin sx_tx').
Proof.
  eexists. cbv zeta. split; [apply sx_signable|]. split; [apply sx_signable'|]. split; [vm_compute; discriminate|].
  split; [vm_compute; reflexivity|]. split; [vm_compute; reflexivity|].
  split; [intros x y _ _ E; exact E|reflexivity].
Qed.
Example C64_ex_single : base_sighash (fun b => b) lx_script sx_tx 2 3 None = Raise EValue
  /\ base_raw (fun b => b) lx_script sx_tx 2 3 None = Ok (HASH_ONE, true).
Proof. split; vm_compute; reflexivity. Qed.

Print Assumptions C64_preimage.
Print Assumptions C64_errors.
Print Assumptions C64_bad_script.
Print Assumptions C64_available.
Print Assumptions C64_binds.
Print Assumptions C64_not_covered.
Print Assumptions C64_spent_outputs_bound_refuted.
Print Assumptions C64_empty_script.
