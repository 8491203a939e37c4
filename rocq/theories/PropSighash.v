(** Properties C18-C26, C61, C62: the signature hashes.

    [legacy] (the pre-segwit algorithm of bitcointx) is irrelevant here and universally quantified. *)
From Verif Require Import Base BaseFacts Serialize ParserFacts TxModel SpecWire TxProofs TxProofs2
  SighashModel SpecSighash SighashProofs FramingFacts SighashBind SchnorrProofs SchnorrBind SchnorrTable PropCodec.
Local Open Scope Z_scope.

Lemma sighash_is_v0 legacy H script t i ht a :
  sighash legacy H script t i ht a SIGVERSION_WITNESS_V0 = sighash_v0 H script t i ht a.
Proof. unfold sighash, raw_sighash. destruct (sighash_v0 H script t i ht a); reflexivity. Qed.

(** ** C18 *)
Theorem C18_v0_preimage : forall legacy H script t (i : nat) ht a h,
  sighash legacy H script t (Z.of_nat i) ht (Some a) SIGVERSION_WITNESS_V0 = Ok h <->
  exists b, V0Preimage H script t i ht a b /\ h = H b.
Proof.
  intros. rewrite sighash_is_v0, v0_preimage_iff by lia. rewrite Nat2Z.id. reflexivity.
Qed.
(** raw_sighash returns the same hash and no error. *)
Theorem C18_raw_sighash : forall legacy H script t i ht a h err,
  raw_sighash legacy H script t i ht a SIGVERSION_WITNESS_V0 = Ok (h, err) <->
  err = false /\ sighash legacy H script t i ht a SIGVERSION_WITNESS_V0 = Ok h.
Proof.
  intros. rewrite sighash_is_v0. unfold raw_sighash. destruct (sighash_v0 H script t i ht a); cbn [rbind].
  - split; [intros E; injection E; intros; subst; auto|intros [-> E]; apply Ok_inj in E; subst; reflexivity].
  - split; [discriminate|intros [_ E]; discriminate].
Qed.
Theorem C18_other_sigversions : forall legacy H script t i ht a sv,
  sv <> SIGVERSION_BASE -> sv <> SIGVERSION_WITNESS_V0 ->
  sighash legacy H script t i ht a sv = Raise EValue.
Proof. intros. destruct sv; try contradiction; reflexivity. Qed.
(** Pre-segwit: raw_signature_hash passes the legacy result on, signature_hash turns its
    error into ValueError and never returns the placeholder hash. *)
Theorem C18_legacy_error : forall legacy H script t i ht a,
  (forall h, sighash legacy H script t i ht a SIGVERSION_BASE = Ok h <-> legacy script t i ht = Ok (h, false))
  /\ (forall h, legacy script t i ht = Ok (h, true) -> sighash legacy H script t i ht a SIGVERSION_BASE = Raise EValue)
  /\ (forall e, legacy script t i ht = Raise e -> sighash legacy H script t i ht a SIGVERSION_BASE = Raise e)
  /\ raw_sighash legacy H script t i ht a SIGVERSION_BASE = legacy script t i ht.
Proof.
  intros. unfold sighash, raw_sighash. destruct (legacy script t i ht) as [[h' [|]]|e']; cbn [rbind].
  all: repeat split; intros; try discriminate; try congruence.
Qed.
Theorem C18_missing_amount : forall legacy H script t i ht,
  sighash legacy H script t i ht None SIGVERSION_WITNESS_V0 = Raise EType.
Proof. reflexivity. Qed.
(** The index is not validated: a negative one counts from the end. *)
Theorem C18_negative_index : forall legacy H script t i ht a,
  - Z.of_nat (length (vin t)) <= i < 0 -> sig_single ht = false ->
  sighash legacy H script t i ht a SIGVERSION_WITNESS_V0
  = sighash legacy H script t (i + Z.of_nat (length (vin t))) ht a SIGVERSION_WITNESS_V0.
Proof. intros. rewrite !sighash_is_v0. apply v0_negative; assumption. Qed.

(** A toy 32-byte hash for the examples. *)
Definition toyhash (b : bytes) : bytes := le_bytes 32 (fold_left (fun a x => a * 257 + bz x + 1) b 0).
Lemma toyhash_length x : length (toyhash x) = 32%nat.
Proof. apply le_bytes_length. Qed.

(** Three inputs (the second issues, the third is a peg-in), two outputs. *)
Definition sx_in0 : txin := mkTxIn (mkOutPoint (repeat x11 32) 0) [x51; x52] 5 issuance_default false.
Definition sx_in1 : txin := mkTxIn (mkOutPoint (repeat x12 32) 1) [] 6
  (mkIssuance (zeros 32) (repeat x22 32) (x01 :: zeros 8) []) false.
Definition sx_in2 : txin := mkTxIn (mkOutPoint (repeat x13 32) 2) [] 7 issuance_default true.
Definition sx_out0 : txout := mkTxOut (x01 :: zeros 8) [x51] (x01 :: zeros 32) [].
Definition sx_out1 : txout := mkTxOut (x09 :: zeros 32) [] (x0a :: zeros 32) (x02 :: zeros 32).
Definition sx_tx : tx := mkTx [sx_in0; sx_in1; sx_in2] [sx_out0; sx_out1] 100 2
  (mkTxWit [inwit_null; mkInWit [] [x07] [x08] []; mkInWit [[x01]] [] [] [[x02]]] [outwit_null; mkOutWit [x07] [x08; x09]]).
(** The same with other scriptSigs, witness stacks and peg-in flags. *)
Definition sx_tx' : tx := mkTx
  [mkTxIn (mkOutPoint (repeat x11 32) 0) [x53] 5 issuance_default true; sx_in1;
   mkTxIn (mkOutPoint (repeat x13 32) 2) [x54] 7 issuance_default false] [sx_out0; sx_out1] 100 2
  (mkTxWit [] []).
Example C18_ex : exists h, sighash (fun _ _ _ _ => Raise EValue) toyhash [x51] sx_tx 1 1 (Some (x01 :: zeros 8)) SIGVERSION_WITNESS_V0 = Ok h.
Proof. eexists. vm_compute. reflexivity. Qed.

Ltac tin := split; [reflexivity|split; [cbn; lia|split; [unfold small, blen; cbn; lia|split; [cbn; lia|
   split; [reflexivity|split; [reflexivity|split; conf_form]]]]]].
Lemma sx_signable : signable sx_tx.
Proof. split; [repeat (constructor; [tin|]); constructor|repeat (constructor; [wf_out|]); constructor]. Qed.
Lemma sx_signable' : signable sx_tx'.
Proof. split; [repeat (constructor; [tin|]); constructor|repeat (constructor; [wf_out|]); constructor]. Qed.

(** ** C19 *)
Theorem C19_all_binds : forall legacy H script1 script2 t1 t2 (i1 i2 : nat) ht1 ht2 a1 a2 h,
  (forall x, length (H x) = 32%nat) ->
  signable t1 -> signable t2 -> ConfForm CConfValue a1 -> ConfForm CConfValue a2 ->
  acp ht1 = false -> sig_none ht1 = false -> sig_single ht1 = false ->
  sighash legacy H script1 t1 (Z.of_nat i1) ht1 (Some a1) SIGVERSION_WITNESS_V0 = Ok h ->
  sighash legacy H script2 t2 (Z.of_nat i2) ht2 (Some a2) SIGVERSION_WITNESS_V0 = Ok h ->
  no_collision H (V0Hashed H script1 t1 i1 ht1 a1) (V0Hashed H script2 t2 i2 ht2 a2) ->
  ht1 = ht2 /\ script1 = script2 /\ a1 = a2 /\ nVersion t1 = nVersion t2 /\ nLockTime t1 = nLockTime t2
  /\ map prevout (vin t1) = map prevout (vin t2) /\ map nSequence (vin t1) = map nSequence (vin t2)
  /\ vout t1 = vout t2
  /\ option_map issuance_of (nth_error (vin t1) i1) = option_map issuance_of (nth_error (vin t2) i2)
  /\ option_map prevout (nth_error (vin t1) i1) = option_map prevout (nth_error (vin t2) i2)
  /\ (map has_issuance (vin t1) = map has_issuance (vin t2) -> map issuance_of (vin t1) = map issuance_of (vin t2)).
Proof.
  intros legacy H script1 script2 t1 t2 i1 i2 ht1 ht2 a1 a2 h HL S1 S2 A1 A2 Ha Hn Hs P1 P2 NC.
  apply C18_v0_preimage in P1. destruct P1 as (b1 & P1 & E1). apply C18_v0_preimage in P2. destruct P2 as (b2 & P2 & E2).
  destruct (v0_bind H script1 script2 t1 t2 i1 i2 ht1 ht2 a1 a2 b1 b2) as (R1 & R2 & R3 & R4 & R5 & R6 & R7 & R8 & R9 & R10 & R11);
    try assumption; [congruence|].
  rewrite Ha, Hn, Hs in *. destruct R6 as (x & y & N1 & N2 & Q1 & Q2 & Q3).
  rewrite N1, N2. cbn [option_map]. rewrite Q3, Q1. cbn [orb] in *. repeat (split; [auto|]). auto.
Qed.
(** Any hash type. *)
Theorem C19_scoped_binds : forall legacy H script1 script2 t1 t2 (i1 i2 : nat) ht1 ht2 a1 a2 h,
  (forall x, length (H x) = 32%nat) ->
  signable t1 -> signable t2 -> ConfForm CConfValue a1 -> ConfForm CConfValue a2 ->
  sighash legacy H script1 t1 (Z.of_nat i1) ht1 (Some a1) SIGVERSION_WITNESS_V0 = Ok h ->
  sighash legacy H script2 t2 (Z.of_nat i2) ht2 (Some a2) SIGVERSION_WITNESS_V0 = Ok h ->
  no_collision H (V0Hashed H script1 t1 i1 ht1 a1) (V0Hashed H script2 t2 i2 ht2 a2) ->
  ht1 = ht2 /\ script1 = script2 /\ a1 = a2 /\ nVersion t1 = nVersion t2 /\ nLockTime t1 = nLockTime t2
  /\ (exists x y, nth_error (vin t1) i1 = Some x /\ nth_error (vin t2) i2 = Some y
        /\ prevout x = prevout y /\ nSequence x = nSequence y /\ issuance_of x = issuance_of y)
  /\ (acp ht1 = false -> map prevout (vin t1) = map prevout (vin t2))
  /\ (acp ht1 = false -> map has_issuance (vin t1) = map has_issuance (vin t2) ->
        map issuance_of (vin t1) = map issuance_of (vin t2))
  /\ (acp ht1 || sig_none ht1 || sig_single ht1 = false -> map nSequence (vin t1) = map nSequence (vin t2))
  /\ (sig_none ht1 || sig_single ht1 = false -> vout t1 = vout t2)
  /\ (sig_single ht1 = true -> forall o1 o2, nth_error (vout t1) i1 = Some o1 -> nth_error (vout t2) i2 = Some o2 -> o1 = o2).
Proof.
  intros legacy H script1 script2 t1 t2 i1 i2 ht1 ht2 a1 a2 h HL S1 S2 A1 A2 P1 P2 NC.
  apply C18_v0_preimage in P1. destruct P1 as (b1 & P1 & E1). apply C18_v0_preimage in P2. destruct P2 as (b2 & P2 & E2).
  apply (v0_bind H script1 script2 t1 t2 i1 i2 ht1 ht2 a1 a2 b1 b2); try assumption. congruence.
Qed.

(** Non-vacuity: all the premises hold together for two distinct transactions and the toy hash. *)
Lemma v0_hashed_all H script t i ht a s : acp ht = false -> sig_none ht = false -> sig_single ht = false ->
  V0Hashed H script t i ht a s ->
  (v0_prevouts t = Ok s \/ v0_sequences t = Ok s \/ s = v0_issuances t \/ v0_outputs t = Ok s)
  \/ V0Preimage H script t i ht a s.
Proof.
  intros Ha Hn Hs HH. destruct HH as [s _ W|s _ W|s _ W|s _ W|o s E|s P]; try congruence.
  - left; left. apply prevouts_iff. assumption.
  - left; right; left. apply sequences_iff. assumption.
  - left; right; right; left. apply issuances_iff. assumption.
  - left; right; right; right. apply outputs_iff. assumption.
  - right; assumption.
Qed.
(** The example strings hashed, with the preimage recovered by running the model with the identity hash at the top. *)
Definition sx_strings : list bytes :=
  match v0_prevouts sx_tx, v0_sequences sx_tx, v0_outputs sx_tx, pack_le_signed 4 2, ser_outpoint (prevout sx_in1), ser_bytes [x51] with
  | Ok p, Ok s, Ok o, Ok v, Ok op, Ok sc =>
      [p; s; v0_issuances sx_tx; o;
       v ++ toyhash p ++ toyhash s ++ toyhash (v0_issuances sx_tx) ++ op ++ sc ++ (x01 :: zeros 8) ++ [x06; x00; x00; x00]
         ++ ser_issuance (assetIssuance sx_in1) ++ toyhash o ++ [x64; x00; x00; x00] ++ [x01; x00; x00; x00]]
  | _, _, _, _, _, _ => []
  end.
Lemma v0_preimage_fun H script t i ht a b b' : V0Preimage H script t i ht a b -> V0Preimage H script t i ht a b' -> b = b'.
Proof.
  assert (FS : forall A (W : A -> bytes -> Prop) (l : list A) s s', (forall x c c', W x c -> W x c' -> c = c') -> W_seq W l s -> W_seq W l s' -> s = s').
  { intros A W l s s' HW H1. revert s'. induction H1 as [|x l c cs Hx H1 IH]; intros s' H2; inversion H2; subst; [reflexivity|].
    f_equal; [eapply HW; eassumption|apply IH; assumption]. }
  assert (FO : forall x c c', W_outpoint x c -> W_outpoint x c' -> c = c').
  { intros x c c' P Q. apply W_outpoint_iff in P. apply W_outpoint_iff in Q. congruence. }
  assert (FL : forall n z c c', le_int n z c -> le_int n z c' -> c = c').
  { intros n z c c' P Q. apply pack_le_iff in P. apply pack_le_iff in Q. congruence. }
  assert (FSg : forall z c c', le_sint32 z c -> le_sint32 z c' -> c = c').
  { intros z c c' P Q. apply pack_sint32_iff in P. apply pack_sint32_iff in Q. congruence. }
  assert (FI : forall x c c', W_issuance0 x c -> W_issuance0 x c' -> c = c').
  { intros x c c' P Q. apply iss_or_zero_iff in P. apply iss_or_zero_iff in Q. congruence. }
  assert (FT : forall x c c', W_txout x c -> W_txout x c' -> c = c').
  { intros x c c' P Q. apply ser_txout_iff in P. apply ser_txout_iff in Q. congruence. }
  assert (FH : forall A (W : A -> bytes -> Prop) (l : list A) s s', (forall x c c', W x c -> W x c' -> c = c') -> HashOf H W l s -> HashOf H W l s' -> s = s').
  { intros A W l s s' HW (u & P & ->) (u' & P' & ->). f_equal. eapply FS; eassumption. }
  intros (x & ver1 & hp1 & hs1 & hi1 & op1 & sc1 & sq1 & is1 & ho1 & lt1 & hty1 & X1 & V1 & HP1 & HS1 & HI1 & O1 & C1 & Q1 & I1 & U1 & K1 & Y1 & ->)
    (y & ver2 & hp2 & hs2 & hi2 & op2 & sc2 & sq2 & is2 & ho2 & lt2 & hty2 & X2 & V2 & HP2 & HS2 & HI2 & O2 & C2 & Q2 & I2 & U2 & K2 & Y2 & ->).
  assert (x = y) by congruence. subst y.
  rewrite (FSg _ _ _ V1 V2), (FO _ _ _ O1 O2), (FL _ _ _ _ Q1 Q2), (FSg _ _ _ K1 K2), (FSg _ _ _ Y1 Y2).
  assert (sc1 = sc2) by (apply ser_bytes_iff in C1; apply ser_bytes_iff in C2; congruence).
  assert (hp1 = hp2) by (destruct (acp ht); [rewrite HP1, HP2; reflexivity|eapply FH; [|exact HP1|exact HP2]; intros ? ? ?; apply FO]).
  assert (hi1 = hi2) by (destruct (acp ht); [rewrite HI1, HI2; reflexivity|exact (FH _ _ _ _ _ FI HI1 HI2)]).
  assert (hs1 = hs2) by (destruct (acp ht || sig_none ht || sig_single ht); [rewrite HS1, HS2; reflexivity|eapply FH; [|exact HS1|exact HS2]; intros ? ? ?; apply FL]).
  assert (is1 = is2).
  { destruct (has_issuance x); [|congruence]. apply W_issuance_ser in I1. apply W_issuance_ser in I2. congruence. }
  assert (ho1 = ho2).
  { destruct (sig_single ht).
    - destruct (nth_error (vout t) i); [exact (FH _ _ _ _ _ FT U1 U2)|rewrite U1, U2; reflexivity].
    - destruct (sig_none ht); [rewrite U1, U2; reflexivity|exact (FH _ _ _ _ _ FT U1 U2)]. }
  congruence.
Qed.
Lemma sx_preimage (w : tx) : w = sx_tx \/ w = sx_tx' ->
  V0Preimage toyhash [x51] w 1 1 (x01 :: zeros 8) (nth 4 sx_strings []).
Proof.
  intros Hw.
  assert (W1 : W_seq (fun x => W_outpoint (prevout x)) (vin w) (nth 0 sx_strings [])) by (apply prevouts_iff; destruct Hw; subst; vm_compute; reflexivity).
  assert (W2 : W_seq (fun x => le_int 4 (nSequence x)) (vin w) (nth 1 sx_strings [])) by (apply sequences_iff; destruct Hw; subst; vm_compute; reflexivity).
  assert (W3 : W_seq W_issuance0 (vin w) (nth 2 sx_strings [])) by (apply issuances_iff; destruct Hw; subst; vm_compute; reflexivity).
  assert (W4 : W_seq W_txout (vout w) (nth 3 sx_strings [])) by (apply outputs_iff; destruct Hw; subst; vm_compute; reflexivity).
  exists sx_in1, [x02; x00; x00; x00], (toyhash (nth 0 sx_strings [])), (toyhash (nth 1 sx_strings [])), (toyhash (nth 2 sx_strings [])),
    (repeat x12 32 ++ [x01; x00; x00; x00]), [x01; x51], [x06; x00; x00; x00], (ser_issuance (assetIssuance sx_in1)),
    (toyhash (nth 3 sx_strings [])), [x64; x00; x00; x00], [x01; x00; x00; x00].
  split; [destruct Hw; subst; reflexivity|].
  split; [apply pack_sint32_iff; destruct Hw; subst; reflexivity|].
  split; [exists (nth 0 sx_strings []); split; [assumption|reflexivity]|].
  split; [exists (nth 1 sx_strings []); split; [assumption|reflexivity]|].
  split; [exists (nth 2 sx_strings []); split; [assumption|reflexivity]|].
  split; [apply W_outpoint_iff; reflexivity|]. split; [apply ser_bytes_iff; reflexivity|].
  split; [apply pack_le_iff; reflexivity|]. split; [apply W_issuance_ser; reflexivity|].
  split; [exists (nth 3 sx_strings []); split; [assumption|reflexivity]|].
  split; [apply pack_sint32_iff; destruct Hw; subst; reflexivity|]. split; [apply pack_sint32_iff; reflexivity|].
  vm_compute. reflexivity.
Qed.
Lemma sx_hashed (w : tx) s : w = sx_tx \/ w = sx_tx' -> V0Hashed toyhash [x51] w 1 1 (x01 :: zeros 8) s -> In s sx_strings.
Proof.
  intros Hw HH. apply v0_hashed_all in HH; try reflexivity.
  destruct HH as [[E|[E|[E|E]]]|P].
  - replace (v0_prevouts w) with (Ok (nth 0 sx_strings [])) in E by (destruct Hw; subst; vm_compute; reflexivity).
    apply Ok_inj in E. subst s. apply nth_In. vm_compute. lia.
  - replace (v0_sequences w) with (Ok (nth 1 sx_strings [])) in E by (destruct Hw; subst; vm_compute; reflexivity).
    apply Ok_inj in E. subst s. apply nth_In. vm_compute. lia.
  - replace (v0_issuances w) with (nth 2 sx_strings []) in E by (destruct Hw; subst; vm_compute; reflexivity).
    subst s. apply nth_In. vm_compute. lia.
  - replace (v0_outputs w) with (Ok (nth 3 sx_strings [])) in E by (destruct Hw; subst; vm_compute; reflexivity).
    apply Ok_inj in E. subst s. apply nth_In. vm_compute. lia.
  - rewrite (v0_preimage_fun _ _ _ _ _ _ _ _ P (sx_preimage w Hw)). apply nth_In. vm_compute. lia.
Qed.
Lemma toyhash_inj_on (l : list bytes) : NoDup (map toyhash l) -> forall x y, In x l -> In y l -> toyhash x = toyhash y -> x = y.
Proof.
  intros HN x y Hx Hy E. induction l as [|z l IH]; [destruct Hx|]. cbn [map] in HN. inversion HN as [|? ? A B]; subst.
  destruct Hx as [->|Hx], Hy as [->|Hy]; [reflexivity| | |apply IH; assumption].
  - exfalso. apply A. rewrite E. apply in_map. assumption.
  - exfalso. apply A. rewrite <- E. apply in_map. assumption.
Qed.
Example C19_ex : exists h,
  sighash (fun _ _ _ _ => Raise EValue) toyhash [x51] sx_tx 1 1 (Some (x01 :: zeros 8)) SIGVERSION_WITNESS_V0 = Ok h
  /\ sighash (fun _ _ _ _ => Raise EValue) toyhash [x51] sx_tx' 1 1 (Some (x01 :: zeros 8)) SIGVERSION_WITNESS_V0 = Ok h
  /\ sx_tx <> sx_tx'
  /\ no_collision toyhash (V0Hashed toyhash [x51] sx_tx 1 1 (x01 :: zeros 8)) (V0Hashed toyhash [x51] sx_tx' 1 1 (x01 :: zeros 8)).
Proof.
  eexists. split; [vm_compute; reflexivity|]. split; [vm_compute; reflexivity|]. split; [discriminate|].
  intros x y Hx Hy. apply sx_hashed in Hx; [|auto]. apply sx_hashed in Hy; [|auto].
  apply (toyhash_inj_on sx_strings); [|assumption|assumption].
  vm_compute. repeat (constructor; [cbn [In]; intros F; repeat (destruct F as [F|F]; [discriminate F|]); exact F|]). constructor.
Qed.

(** ** C20 *)
(** The hash is a function of: version, locktime, the own input's prevout,
    sequence and issuance, and the parts selected by the hash type.  Hence
    scriptSigs, witnesses, peg-in flags and the unselected parts are not covered. *)
Theorem C20_only_covered : forall legacy H script t1 t2 (i1 i2 : nat) ht a x y,
  nVersion t1 = nVersion t2 -> nLockTime t1 = nLockTime t2 ->
  nth_error (vin t1) i1 = Some x -> nth_error (vin t2) i2 = Some y ->
  prevout x = prevout y -> nSequence x = nSequence y -> issuance_of x = issuance_of y ->
  (acp ht = false -> map prevout (vin t1) = map prevout (vin t2)
                     /\ map issuance_of (vin t1) = map issuance_of (vin t2)) ->
  (acp ht || sig_none ht || sig_single ht = false -> map nSequence (vin t1) = map nSequence (vin t2)) ->
  (sig_none ht || sig_single ht = false -> vout t1 = vout t2) ->
  (sig_single ht = true -> nth_error (vout t1) i1 = nth_error (vout t2) i2) ->
  sighash legacy H script t1 (Z.of_nat i1) ht a SIGVERSION_WITNESS_V0
  = sighash legacy H script t2 (Z.of_nat i2) ht a SIGVERSION_WITNESS_V0.
Proof.
  intros. rewrite !sighash_is_v0.
  eapply v0_depends; rewrite ?Nat2Z.id; try eassumption; lia.
Qed.
(** ANYONECANPAY|NONE: everything else may be replaced (even the input's position). *)
Theorem C20_acp_none : forall legacy H script t inp i vi' vo' w' a ss pg,
  nth_error (vin t) i = Some inp ->
  sighash legacy H script t (Z.of_nat i) 0x82 a SIGVERSION_WITNESS_V0
  = sighash legacy H script
      (mkTx (mkTxIn (prevout inp) ss (nSequence inp) (assetIssuance inp) pg :: vi') vo' (nLockTime t) (nVersion t) w')
      0 0x82 a SIGVERSION_WITNESS_V0.
Proof.
  intros legacy H script t inp i vi' vo' w' a ss pg N.
  apply (C20_only_covered legacy H script t _ i 0 0x82 a inp (mkTxIn (prevout inp) ss (nSequence inp) (assetIssuance inp) pg));
    try reflexivity; try assumption; discriminate.
Qed.
Example C20_ex : sighash (fun _ _ _ _ => Raise EValue) toyhash [x51] sx_tx 2 0x82 (Some (x01 :: zeros 8)) SIGVERSION_WITNESS_V0
  = sighash (fun _ _ _ _ => Raise EValue) toyhash [x51]
     (mkTx [mkTxIn (mkOutPoint (repeat x13 32) 2) [x99] 7 issuance_default false; sx_in0] [] 100 2 (mkTxWit [] [])) 0 0x82 (Some (x01 :: zeros 8)) SIGVERSION_WITNESS_V0.
Proof. apply (C20_acp_none _ _ _ sx_tx sx_in2 2 [sx_in0] [] (mkTxWit [] []) _ [x99] false). reflexivity. Qed.

(** ** C21 *)
(** Two transactions, identical except that the issuance sits on the first
    resp. second input (with shifted contents), and except for peg-in flags:
    the ALL signature hash of the third input is the same for every hash function. *)
Definition c21_vout : list txout := [sx_out0].
Definition c21_in (k : byte) (iss : issuance) (pg : bool) : txin := mkTxIn (mkOutPoint (repeat k 32) 0) [] 0xffffffff iss pg.
Definition c21_iss1 : issuance := mkIssuance (zeros 32) (zeros 31 ++ [x01]) (x01 :: zeros 6 ++ [x01; x00]) [].
Definition c21_iss2 : issuance := mkIssuance (zeros 32) (zeros 32) (x01 :: [x01] ++ zeros 6 ++ [x01]) [].
Definition c21_t1 : tx := mkTx [c21_in x01 issuance_default false; c21_in x02 c21_iss1 false; c21_in x03 issuance_default false]
  c21_vout 0 2 (mkTxWit [] []).
Definition c21_t2 : tx := mkTx [c21_in x01 c21_iss2 true; c21_in x02 issuance_default false; c21_in x03 issuance_default false]
  c21_vout 0 2 (mkTxWit [] []).
Theorem C21_issuance_placement_refuted : exists t1 t2 script a (i : nat),
  signable t1 /\ signable t2 /\ ConfForm CConfValue a
  /\ map issuance_of (vin t1) <> map issuance_of (vin t2) /\ map is_pegin (vin t1) <> map is_pegin (vin t2)
  /\ map has_issuance (vin t1) = [false; true; false] /\ map has_issuance (vin t2) = [true; false; false]
  /\ forall legacy H, exists h,
       sighash legacy H script t1 (Z.of_nat i) SIGHASH_ALL (Some a) SIGVERSION_WITNESS_V0 = Ok h
       /\ sighash legacy H script t2 (Z.of_nat i) SIGHASH_ALL (Some a) SIGVERSION_WITNESS_V0 = Ok h.
Proof.
  exists c21_t1, c21_t2, [x51], (x01 :: zeros 8), 2%nat.
  split; [split; [repeat (constructor; [tin|]); constructor|repeat (constructor; [wf_out|]); constructor]|].
  split; [split; [repeat (constructor; [tin|]); constructor|repeat (constructor; [wf_out|]); constructor]|].
  split; [conf_form|]. split; [discriminate|]. split; [discriminate|]. split; [reflexivity|]. split; [reflexivity|].
  intros legacy H. rewrite !sighash_is_v0. unfold sighash_v0. cbn [rbind].
  change (is_acp SIGHASH_ALL) with false. change (is_single SIGHASH_ALL) with false. change (is_none SIGHASH_ALL) with false.
  cbn [negb andb].
  assert (E1 : v0_issuances c21_t1 = v0_issuances c21_t2) by (vm_compute; reflexivity).
  assert (E2 : v0_prevouts c21_t1 = v0_prevouts c21_t2) by (vm_compute; reflexivity).
  assert (E3 : v0_sequences c21_t1 = v0_sequences c21_t2) by (vm_compute; reflexivity).
  rewrite E1, E2, E3. eexists. split; reflexivity.
Qed.

(** ** C22 *)
Theorem C22_available_iff : forall legacy H script t (i : nat) ht a,
  signable t -> small script -> - 2 ^ 31 <= nVersion t < 2 ^ 31 -> 0 <= nLockTime t < 2 ^ 32 ->
  (i < length (vin t))%nat ->
  (exists h, sighash legacy H script t (Z.of_nat i) ht (Some a) SIGVERSION_WITNESS_V0 = Ok h) <->
  (nLockTime t < 2 ^ 31 /\ - 2 ^ 31 <= ht < 2 ^ 31).
Proof.
  intros legacy H script t i ht a S Hs HV HK Hi.
  pose proof (v0_available H script t (Z.of_nat i) ht a S Hs HV ltac:(lia)) as V.
  setoid_rewrite sighash_is_v0. rewrite V. intuition lia.
Qed.
Theorem C22_struct_error : forall legacy H script t (i : nat) ht a,
  signable t -> small script -> - 2 ^ 31 <= nVersion t < 2 ^ 31 ->
  (i < length (vin t))%nat -> 2 ^ 31 <= nLockTime t ->
  sighash legacy H script t (Z.of_nat i) ht (Some a) SIGVERSION_WITNESS_V0 = Raise EStruct.
Proof.
  intros legacy H script t i ht a S Hs HV Hi HK. rewrite sighash_is_v0.
  destruct (sighash_v0 H script t (Z.of_nat i) ht (Some a)) as [h|e] eqn:E.
  - exfalso. assert (X : exists h, sighash_v0 H script t (Z.of_nat i) ht (Some a) = Ok h) by eauto.
    apply v0_available in X; try assumption; lia.
  - f_equal. eapply v0_raise_struct; [exact S| |exact E]. lia.
Qed.
Example C22_ex : ex_tx.(nLockTime) = 3000000000 /\
  sighash (fun _ _ _ _ => Raise EValue) toyhash [x51] ex_tx 0 1 (Some (x01 :: zeros 8)) SIGVERSION_WITNESS_V0 = Raise EStruct.
Proof. split; vm_compute; reflexivity. Qed.

(** ** C23 *)
(** The complete table of results for a well-formed transaction: bad
    arguments; SINGLE without a matching output (two cases); then the script-path arguments. *)
Theorem C23_validation : forall sha tap t i spent ht sv tl cs an gen,
  tap_signable t -> Forall wf_txout spent -> valid_tap_ht ht ->
  let run := sighash_schnorr_raw sha tap t i spent ht sv tl cs an gen in
  let bad := i < 0 \/ Z.of_nat (length (vin t)) <= i
      \/ (exists h, tl = Some h /\ blen h <> 32) \/ (exists h, an = Some h /\ blen h <> 32) \/ blen gen <> 32
      \/ (sv <> SIGVERSION_TAPROOT /\ sv <> SIGVERSION_TAPSCRIPT) \/ length spent <> length (vin t) in
  (bad -> run = Raise EValue)
  /\ (~ bad ->
      (tap_single ht = true -> Z.of_nat (length (vout t)) < i -> run = Raise EValue)
      /\ (tap_single ht = true -> Z.of_nat (length (vout t)) = i -> run = Raise EIndex)
      /\ ((tap_single ht = false \/ i < Z.of_nat (length (vout t))) ->
          (sv = SIGVERSION_TAPROOT -> exists h, run = Ok h)
          /\ (sv = SIGVERSION_TAPSCRIPT -> tl = None \/ cs = None -> run = Raise EValue)
          /\ (sv = SIGVERSION_TAPSCRIPT -> tl <> None -> forall c, cs = Some c ->
               (- 2 ^ 31 <= c < 2 ^ 31 -> exists h, run = Ok h)
               /\ (~ - 2 ^ 31 <= c < 2 ^ 31 -> run = Raise EStruct)))).
Proof. intros. apply (tap_table sha tap t i spent ht sv tl cs an gen); assumption. Qed.
(** Bad arguments are rejected for any transaction whatsoever. *)
Theorem C23_bad_arguments : forall sha tap t i spent ht sv tl cs an gen,
  i < 0 \/ Z.of_nat (length (vin t)) <= i
    \/ (exists h, tl = Some h /\ blen h <> 32) \/ (exists h, an = Some h /\ blen h <> 32) \/ blen gen <> 32
    \/ (sv <> SIGVERSION_TAPROOT /\ sv <> SIGVERSION_TAPSCRIPT) \/ length spent <> length (vin t) ->
  sighash_schnorr_raw sha tap t i spent ht sv tl cs an gen = Raise EValue.
Proof. intros. apply tap_bad. assumption. Qed.
Definition sx_spent : list txout := [sx_out0; sx_out1; sx_out0].
Lemma sx_tap_signable : tap_signable sx_tx.
Proof.
  split; [apply sx_signable|]. split; [cbn; lia|]. split; [cbn; lia|]. split; [cbn; lia|]. split; [reflexivity|]. split; [reflexivity|].
  split; repeat (constructor; [repeat split; try (unfold small, blen; cbn; lia); repeat constructor; unfold small, blen; cbn; lia|]); constructor.
Qed.
Lemma sx_spent_wf : Forall wf_txout sx_spent.
Proof. repeat (constructor; [wf_out|]); constructor. Qed.
(** SINGLE for the third input of a transaction with two outputs: IndexError. *)
Example C23_ex_single : sighash_schnorr_raw toyhash toyhash sx_tx 2 sx_spent (Some 3) SIGVERSION_TAPROOT None None None (zeros 32) = Raise EIndex
  /\ exists h, sighash_schnorr_raw toyhash toyhash sx_tx 1 sx_spent (Some 3) SIGVERSION_TAPROOT None None None (zeros 32) = Ok h.
Proof. split; [vm_compute; reflexivity|eexists; vm_compute; reflexivity]. Qed.

(** ** C61 *)
Theorem C61_schnorr_message_key_path : forall sha tap t (i : nat) spent ht tl cs an gen h,
  valid_tap_ht ht ->
  sighash_schnorr_raw sha tap t (Z.of_nat i) spent ht SIGVERSION_TAPROOT tl cs an gen = Ok h <->
  (forall l, tl = Some l -> blen l = 32) /\ blen gen = 32
  /\ exists b, TapMessage sha t i spent ht None an b /\ h = tap (gen ++ gen ++ b).
Proof.
  intros sha tap t i spent ht tl cs an gen h Hh. rewrite tap_message_iff by (try assumption; lia). rewrite Nat2Z.id. split.
  - intros (leaf & b & L & G & M & ->). inversion L; subst. split; [assumption|]. split; [assumption|].
    exists b. split; [assumption|]. rewrite <- app_assoc. reflexivity.
  - intros (L & G & b & M & ->). exists None, b. split; [constructor; assumption|]. split; [assumption|]. split; [assumption|].
    rewrite <- app_assoc. reflexivity.
Qed.
Theorem C61_schnorr_message_script_path : forall sha tap t (i : nat) spent ht tl cs an gen h,
  valid_tap_ht ht ->
  sighash_schnorr_raw sha tap t (Z.of_nat i) spent ht SIGVERSION_TAPSCRIPT tl cs an gen = Ok h <->
  exists l c b, tl = Some l /\ cs = Some c /\ blen gen = 32
    /\ TapMessage sha t i spent ht (Some (l, c)) an b /\ h = tap (gen ++ gen ++ b).
Proof.
  intros sha tap t i spent ht tl cs an gen h Hh. rewrite tap_message_iff by (try assumption; lia). rewrite Nat2Z.id. split.
  - intros (leaf & b & L & G & M & ->). inversion L; subst. exists h, c, b. split; [reflexivity|]. split; [reflexivity|].
    split; [assumption|]. split; [assumption|]. rewrite <- app_assoc. reflexivity.
  - intros (l & c & b & -> & -> & G & M & ->). exists (Some (l, c)), b.
    split. { constructor. destruct M as (?&?&?&?&?&?&?&?&?&?&?&?&_&_&_&_&_&_&_&_&_&_&_&_&(?&E&_)&_). exact E. }
    split; [assumption|]. split; [assumption|]. rewrite <- app_assoc. reflexivity.
Qed.
Example C61_ex : exists h, sighash_schnorr_raw toyhash toyhash sx_tx 1 sx_spent (Some 0x83) SIGVERSION_TAPSCRIPT (Some (zeros 32)) (Some (-1)) (Some (repeat x07 32)) (zeros 32) = Ok h.
Proof. eexists. vm_compute. reflexivity. Qed.

(** ** C24 *)
(** The strings given to the outer tagged hash. *)
Definition TapFinal sha t i spent ht gen (s : bytes) : Prop :=
  exists leaf an b, TapMessage sha t i spent ht leaf an b /\ s = gen ++ gen ++ b.
(** The script-path arguments a call commits to. *)
Definition leaf_of (sv : sigversion) (tl : option bytes) (cs : option Z) : option (bytes * Z) :=
  match sv, tl, cs with SIGVERSION_TAPSCRIPT, Some l, Some c => Some (l, c) | _, _, _ => None end.

Lemma tap_binds sha tap t1 t2 (i1 i2 : nat) sp1 sp2 ht1 ht2 sv1 sv2 tl1 tl2 cs1 cs2 an1 an2 g1 g2 h :
  valid_tap_ht ht1 -> valid_tap_ht ht2 ->
  sighash_schnorr_raw sha tap t1 (Z.of_nat i1) sp1 ht1 sv1 tl1 cs1 an1 g1 = Ok h ->
  sighash_schnorr_raw sha tap t2 (Z.of_nat i2) sp2 ht2 sv2 tl2 cs2 an2 g2 = Ok h ->
  no_collision tap (TapFinal sha t1 i1 sp1 ht1 g1) (TapFinal sha t2 i2 sp2 ht2 g2) ->
  g1 = g2 /\ (leaf_of sv1 tl1 cs1 = leaf_of sv2 tl2 cs2 -> sv1 = sv2) /\ exists b,
    TapMessage sha t1 i1 sp1 ht1 (leaf_of sv1 tl1 cs1) an1 b /\ TapMessage sha t2 i2 sp2 ht2 (leaf_of sv2 tl2 cs2) an2 b.
Proof.
  intros V1 V2 P1 P2 NC.
  apply tap_message_iff in P1; [|lia|assumption]. apply tap_message_iff in P2; [|lia|assumption].
  rewrite Nat2Z.id in P1, P2.
  destruct P1 as (l1 & b1 & L1 & G1 & M1 & E1). destruct P2 as (l2 & b2 & L2 & G2 & M2 & E2).
  assert (E : g1 ++ g1 ++ b1 = g2 ++ g2 ++ b2).
  { apply NC; [exists l1, an1, b1; auto|exists l2, an2, b2; auto|]. rewrite <- !app_assoc in *. congruence. }
  apply app_inj_len in E; [|unfold blen in *; lia]. destruct E as [-> E]. apply app_inv_head in E. subst b2.
  assert (EL1 : leaf_of sv1 tl1 cs1 = l1) by (destruct L1; reflexivity).
  assert (EL2 : leaf_of sv2 tl2 cs2 = l2) by (destruct L2; reflexivity).
  split; [reflexivity|]. split; [destruct L1, L2; cbn; congruence|]. rewrite EL1, EL2. exists b1. auto.
Qed.

Theorem C24_all_binds : forall sha tap t1 t2 (i1 i2 : nat) sp1 sp2 ht1 ht2 sv1 sv2 tl1 tl2 cs1 cs2 an1 an2 g1 g2 h,
  (forall x, length (sha x) = 32%nat) ->
  tap_signable t1 -> tap_signable t2 -> Forall wf_txout sp1 -> Forall wf_txout sp2 ->
  (ht1 = None \/ ht1 = Some SIGHASH_ALL) -> valid_tap_ht ht2 ->
  sighash_schnorr_raw sha tap t1 (Z.of_nat i1) sp1 ht1 sv1 tl1 cs1 an1 g1 = Ok h ->
  sighash_schnorr_raw sha tap t2 (Z.of_nat i2) sp2 ht2 sv2 tl2 cs2 an2 g2 = Ok h ->
  no_collision tap (TapFinal sha t1 i1 sp1 ht1 g1) (TapFinal sha t2 i2 sp2 ht2 g2) ->
  no_collision sha (TapHashed t1 i1 sp1 ht1) (TapHashed t2 i2 sp2 ht2) ->
  g1 = g2 /\ ht1 = ht2 /\ nVersion t1 = nVersion t2 /\ nLockTime t1 = nLockTime t2
  /\ map is_pegin (vin t1) = map is_pegin (vin t2) /\ map prevout (vin t1) = map prevout (vin t2)
  /\ map nSequence (vin t1) = map nSequence (vin t2) /\ map issuance_of (vin t1) = map issuance_of (vin t2)
  /\ map nAsset sp1 = map nAsset sp2 /\ map nValue sp1 = map nValue sp2 /\ map scriptPubKey sp1 = map scriptPubKey sp2
  /\ map iw_issproof (vtxinwit (wit t1)) = map iw_issproof (vtxinwit (wit t2))
  /\ map iw_keysproof (vtxinwit (wit t1)) = map iw_keysproof (vtxinwit (wit t2))
  /\ vout t1 = vout t2 /\ vtxoutwit (wit t1) = vtxoutwit (wit t2)
  /\ sv1 = sv2 /\ i1 = i2 /\ an1 = an2 /\ leaf_of sv1 tl1 cs1 = leaf_of sv2 tl2 cs2.
Proof.
  intros sha tap t1 t2 i1 i2 sp1 sp2 ht1 ht2 sv1 sv2 tl1 tl2 cs1 cs2 an1 an2 g1 g2 h HL S1 S2 F1 F2 V1 V2 P1 P2 NC NS.
  assert (V1' : valid_tap_ht ht1) by (destruct V1; subst; cbn; auto).
  assert (HA : tap_acp ht1 = false) by (destruct V1; subst; reflexivity).
  assert (HAl : tap_all ht1 = true) by (destruct V1; subst; reflexivity).
  destruct (tap_binds sha tap t1 t2 i1 i2 sp1 sp2 ht1 ht2 sv1 sv2 tl1 tl2 cs1 cs2 an1 an2 g1 g2 h) as (Eg & Esv & b & M1 & M2); try assumption.
  destruct S1 as (S1 & _ & _ & _ & W1 & X1 & _), S2 as (S2 & _ & _ & _ & W2 & X2 & _).
  destruct (tap_bind sha HL t1 t2 i1 i2 sp1 sp2 ht1 ht2 _ _ _ _ b S1 S2 F1 F2 V1' V2 NS M1 M2)
    as (R1 & R2 & R3 & R4 & R5 & R6 & R7 & _).
  destruct (R6 HA) as (Q1 & Q2 & Q3 & Q4 & Q5 & Q6 & Q7 & Q8). destruct (R7 HAl) as (Q9 & Q10).
  rewrite <- W1, <- W2, !firstn_all in Q8. rewrite <- X1, <- X2, !firstn_all in Q10.
  apply map_fst_eq in Q6. apply map_fst_eq in Q8. destruct Q6, Q8. auto 25.
Qed.

(** Every hash type without ANYONECANPAY binds all the inputs; SINGLE also the matching output. *)
Theorem C24_inputs_bound : forall sha tap t1 t2 (i1 i2 : nat) sp1 sp2 ht1 ht2 sv1 sv2 tl1 tl2 cs1 cs2 an1 an2 g1 g2 h,
  (forall x, length (sha x) = 32%nat) ->
  tap_signable t1 -> tap_signable t2 -> Forall wf_txout sp1 -> Forall wf_txout sp2 ->
  valid_tap_ht ht1 -> valid_tap_ht ht2 -> tap_acp ht1 = false ->
  sighash_schnorr_raw sha tap t1 (Z.of_nat i1) sp1 ht1 sv1 tl1 cs1 an1 g1 = Ok h ->
  sighash_schnorr_raw sha tap t2 (Z.of_nat i2) sp2 ht2 sv2 tl2 cs2 an2 g2 = Ok h ->
  no_collision tap (TapFinal sha t1 i1 sp1 ht1 g1) (TapFinal sha t2 i2 sp2 ht2 g2) ->
  no_collision sha (TapHashed t1 i1 sp1 ht1) (TapHashed t2 i2 sp2 ht2) ->
  g1 = g2 /\ ht1 = ht2 /\ nVersion t1 = nVersion t2 /\ nLockTime t1 = nLockTime t2
  /\ map is_pegin (vin t1) = map is_pegin (vin t2) /\ map prevout (vin t1) = map prevout (vin t2)
  /\ map nSequence (vin t1) = map nSequence (vin t2) /\ map issuance_of (vin t1) = map issuance_of (vin t2)
  /\ map nAsset sp1 = map nAsset sp2 /\ map nValue sp1 = map nValue sp2 /\ map scriptPubKey sp1 = map scriptPubKey sp2
  /\ map iw_issproof (vtxinwit (wit t1)) = map iw_issproof (vtxinwit (wit t2))
  /\ map iw_keysproof (vtxinwit (wit t1)) = map iw_keysproof (vtxinwit (wit t2))
  /\ sv1 = sv2 /\ i1 = i2 /\ an1 = an2 /\ leaf_of sv1 tl1 cs1 = leaf_of sv2 tl2 cs2
  /\ (tap_single ht1 = true -> nth_error (vout t1) i1 = nth_error (vout t2) i2
        /\ nth_error (vtxoutwit (wit t1)) i1 = nth_error (vtxoutwit (wit t2)) i2).
Proof.
  intros sha tap t1 t2 i1 i2 sp1 sp2 ht1 ht2 sv1 sv2 tl1 tl2 cs1 cs2 an1 an2 g1 g2 h HL S1 S2 F1 F2 V1 V2 HA P1 P2 NC NS.
  destruct (tap_binds sha tap t1 t2 i1 i2 sp1 sp2 ht1 ht2 sv1 sv2 tl1 tl2 cs1 cs2 an1 an2 g1 g2 h) as (Eg & Esv & b & M1 & M2); try assumption.
  destruct S1 as (S1 & _ & _ & _ & W1 & X1 & _), S2 as (S2 & _ & _ & _ & W2 & X2 & _).
  destruct (tap_bind sha HL t1 t2 i1 i2 sp1 sp2 ht1 ht2 _ _ _ _ b S1 S2 F1 F2 V1 V2 NS M1 M2)
    as (R1 & R2 & R3 & R4 & R5 & R6 & _ & R8 & _).
  destruct (R6 HA) as (Q1 & Q2 & Q3 & Q4 & Q5 & Q6 & Q7 & Q8).
  rewrite <- W1, <- W2, !firstn_all in Q8.
  apply map_fst_eq in Q6. apply map_fst_eq in Q8. destruct Q6, Q8.
  repeat (split; [solve [auto]|]). intros Hs. destruct (R8 Hs) as (o & w & E1 & E2 & E3 & E4). split; congruence.
Qed.

(** ** C25 *)
(** What ANYONECANPAY does bind: everything when no issuance is on the input;
    with an issuance, only under the proviso that the spent scripts have equal length, and the two
    issuance proofs only as one concatenated string. *)
Theorem C25_acp_binds : forall sha tap t1 t2 (i1 i2 : nat) sp1 sp2 ht1 ht2 sv1 sv2 tl1 tl2 cs1 cs2 an1 an2 g1 g2 h x y p q,
  (forall x, length (sha x) = 32%nat) ->
  tap_signable t1 -> tap_signable t2 -> Forall wf_txout sp1 -> Forall wf_txout sp2 ->
  valid_tap_ht ht1 -> valid_tap_ht ht2 -> tap_acp ht1 = true ->
  sighash_schnorr_raw sha tap t1 (Z.of_nat i1) sp1 ht1 sv1 tl1 cs1 an1 g1 = Ok h ->
  sighash_schnorr_raw sha tap t2 (Z.of_nat i2) sp2 ht2 sv2 tl2 cs2 an2 g2 = Ok h ->
  nth_error (vin t1) i1 = Some x -> nth_error (vin t2) i2 = Some y ->
  nth_error sp1 i1 = Some p -> nth_error sp2 i2 = Some q ->
  no_collision tap (TapFinal sha t1 i1 sp1 ht1 g1) (TapFinal sha t2 i2 sp2 ht2 g2) ->
  no_collision sha (TapHashed t1 i1 sp1 ht1) (TapHashed t2 i2 sp2 ht2) ->
  g1 = g2 /\ ht1 = ht2 /\ nVersion t1 = nVersion t2 /\ nLockTime t1 = nLockTime t2
  /\ sv1 = sv2 /\ an1 = an2 /\ leaf_of sv1 tl1 cs1 = leaf_of sv2 tl2 cs2
  /\ (tap_all ht1 = true -> vout t1 = vout t2 /\ vtxoutwit (wit t1) = vtxoutwit (wit t2))
  /\ (tap_single ht1 = true -> nth_error (vout t1) i1 = nth_error (vout t2) i2
        /\ nth_error (vtxoutwit (wit t1)) i1 = nth_error (vtxoutwit (wit t2)) i2)
  /\ is_pegin x = is_pegin y /\ has_issuance x = has_issuance y /\ prevout x = prevout y
  /\ nAsset p = nAsset q /\ nValue p = nValue q
  /\ (has_issuance x = false \/ length (scriptPubKey p) = length (scriptPubKey q) ->
      scriptPubKey p = scriptPubKey q /\ nSequence x = nSequence y /\ issuance_of x = issuance_of y
      /\ (has_issuance x = true ->
            option_map (fun w => iw_issproof w ++ iw_keysproof w) (nth_error (vtxinwit (wit t1)) i1)
            = option_map (fun w => iw_issproof w ++ iw_keysproof w) (nth_error (vtxinwit (wit t2)) i2))).
Proof.
  intros sha tap t1 t2 i1 i2 sp1 sp2 ht1 ht2 sv1 sv2 tl1 tl2 cs1 cs2 an1 an2 g1 g2 h x y p q HL S1 S2 F1 F2 V1 V2 HA P1 P2 Nx Ny Np Nq NC NS.
  destruct (tap_binds sha tap t1 t2 i1 i2 sp1 sp2 ht1 ht2 sv1 sv2 tl1 tl2 cs1 cs2 an1 an2 g1 g2 h) as (Eg & Esv & b & M1 & M2); try assumption.
  destruct S1 as (S1 & _ & _ & _ & W1 & X1 & _), S2 as (S2 & _ & _ & _ & W2 & X2 & _).
  destruct (tap_bind sha HL t1 t2 i1 i2 sp1 sp2 ht1 ht2 _ _ _ _ b S1 S2 F1 F2 V1 V2 NS M1 M2)
    as (R1 & R2 & R3 & R4 & R5 & _ & R7 & R8 & R9).
  repeat (split; [solve [auto]|]).
  split. { intros Ha. destruct (R7 Ha) as [E1 E2]. rewrite <- X1, <- X2, !firstn_all in E2. auto. }
  split. { intros Hs. destruct (R8 Hs) as (o & w & E1 & E2 & E3 & E4). split; congruence. }
  destruct (R9 HA) as (x' & y' & p' & q' & K1 & K2 & K3 & K4 & R).
  assert (x' = x) by congruence. assert (y' = y) by congruence. assert (p' = p) by congruence. assert (q' = q) by congruence. subst.
  destruct R as (A1 & A2 & A3 & A4 & A5 & A6). repeat (split; [assumption|]). intros Hc. destruct (A6 Hc) as (B1 & B2 & B3 & B4).
  repeat (split; [assumption|]). intros Hi. destruct (B4 Hi) as (w1 & w2 & E1 & E2 & E3). rewrite E1, E2. cbn. congruence.
Qed.

(** (a) The two proofs are concatenated: bytes can move between them. *)
Definition c25_iss : issuance := mkIssuance (zeros 32) (zeros 32) (x01 :: zeros 8) (x01 :: zeros 8).
Definition c25_a (p k : bytes) : tx := mkTx [mkTxIn (mkOutPoint (zeros 32) 0) [] 0 c25_iss false] [sx_out0] 0 2
  (mkTxWit [mkInWit [] p k []] [outwit_null]).
Theorem C25_proofs_not_bound_refuted : exists t1 t2 spent ht,
  tap_signable t1 /\ tap_signable t2 /\ Forall wf_txout spent /\ valid_tap_ht ht
  /\ map iw_issproof (vtxinwit (wit t1)) <> map iw_issproof (vtxinwit (wit t2))
  /\ map iw_keysproof (vtxinwit (wit t1)) <> map iw_keysproof (vtxinwit (wit t2))
  /\ forall sha tap, exists h,
       sighash_schnorr_raw sha tap t1 0 spent ht SIGVERSION_TAPROOT None None None (zeros 32) = Ok h
       /\ sighash_schnorr_raw sha tap t2 0 spent ht SIGVERSION_TAPROOT None None None (zeros 32) = Ok h.
Proof.
  exists (c25_a [x01; x02] [x03]), (c25_a [x01] [x02; x03]), [sx_out0], (Some 0x81).
  assert (TS : forall a b, tap_signable (c25_a [a] [b; x03]) /\ tap_signable (c25_a [a; b] [x03])).
  { intros a b. split; (split; [split; [repeat (constructor; [tin|]); constructor|repeat (constructor; [wf_out|]); constructor]|]);
      (split; [cbn; lia|]; split; [cbn; lia|]; split; [cbn; lia|]; split; [reflexivity|]; split; [reflexivity|]);
      split; repeat (constructor; [repeat split; try (unfold small, blen; cbn; lia); constructor|]); constructor. }
  split; [apply TS|]. split; [apply TS|]. split; [repeat (constructor; [wf_out|]); constructor|].
  split; [cbn; auto|]. split; [discriminate|]. split; [discriminate|].
  intros sha tap. eexists. split; reflexivity.
Qed.

(** (b) The spent script has no length prefix: its boundary can move when the input issues. *)
Definition c25_iss1 : issuance := mkIssuance (zeros 32) (zeros 24 ++ [x01] ++ zeros 7) (x01 :: x01 :: zeros 7) [].
Definition c25_iss2 : issuance := mkIssuance (zeros 32) (zeros 32) (x01 :: zeros 7 ++ [x01]) (x01 :: zeros 8).
Definition c25_b (iss : issuance) : tx := mkTx [mkTxIn (mkOutPoint (zeros 32) 0) [] 0 iss false] [sx_out0] 0 2
  (mkTxWit [inwit_null] [outwit_null]).
Definition c25_spent (s : bytes) : txout := mkTxOut (x01 :: zeros 8) s (x01 :: zeros 32) [].
Theorem C25_script_boundary_not_bound_refuted : exists t1 t2 sp1 sp2 ht,
  tap_signable t1 /\ tap_signable t2 /\ Forall wf_txout sp1 /\ Forall wf_txout sp2 /\ valid_tap_ht ht
  /\ map scriptPubKey sp1 <> map scriptPubKey sp2 /\ map issuance_of (vin t1) <> map issuance_of (vin t2)
  /\ forall sha tap, exists h,
       sighash_schnorr_raw sha tap t1 0 sp1 ht SIGVERSION_TAPROOT None None None (zeros 32) = Ok h
       /\ sighash_schnorr_raw sha tap t2 0 sp2 ht SIGVERSION_TAPROOT None None None (zeros 32) = Ok h.
Proof.
  exists (c25_b c25_iss1), (c25_b c25_iss2), [c25_spent ([x51] ++ zeros 8)], [c25_spent [x51]], (Some 0x81).
  assert (TS : forall iss, wf_issuance iss -> tap_signable (c25_b iss)).
  { intros iss Hi. split. { split; [constructor; [|constructor]|repeat (constructor; [wf_out|]); constructor].
      split; [reflexivity|]. split; [cbn; lia|]. split; [unfold small, blen; cbn; lia|]. split; [cbn; lia|assumption]. }
    split; [cbn; lia|]. split; [cbn; lia|]. split; [cbn; lia|]. split; [reflexivity|]. split; [reflexivity|].
    split; repeat (constructor; [repeat split; try (unfold small, blen; cbn; lia); constructor|]); constructor. }
  split; [apply TS; repeat split; try reflexivity; conf_form|]. split; [apply TS; repeat split; try reflexivity; conf_form|].
  split; [repeat (constructor; [wf_out|]); constructor|]. split; [repeat (constructor; [wf_out|]); constructor|].
  split; [cbn; auto 10|]. split; [discriminate|]. split; [discriminate|].
  intros sha tap. eexists. split; reflexivity.
Qed.

(** ** C26 *)
Theorem C26_only_covered : forall sha tap t1 t2 (i1 i2 : nat) sp1 sp2 ht sv tl cs an gen x y p q,
  valid_tap_ht ht ->
  nVersion t1 = nVersion t2 -> nLockTime t1 = nLockTime t2 ->
  length sp1 = length (vin t1) -> length sp2 = length (vin t2) ->
  nth_error (vin t1) i1 = Some x -> nth_error (vin t2) i2 = Some y ->
  nth_error sp1 i1 = Some p -> nth_error sp2 i2 = Some q ->
  (tap_acp ht = false ->
     i1 = i2 /\ map is_pegin (vin t1) = map is_pegin (vin t2) /\ map prevout (vin t1) = map prevout (vin t2)
     /\ map nSequence (vin t1) = map nSequence (vin t2) /\ map issuance_of (vin t1) = map issuance_of (vin t2)
     /\ map (fun o => (nAsset o, nValue o, scriptPubKey o)) sp1 = map (fun o => (nAsset o, nValue o, scriptPubKey o)) sp2
     /\ map (fun w => (iw_issproof w, iw_keysproof w)) (vtxinwit (wit t1))
        = map (fun w => (iw_issproof w, iw_keysproof w)) (vtxinwit (wit t2))) ->
  (tap_acp ht = true ->
     is_pegin x = is_pegin y /\ prevout x = prevout y /\ nSequence x = nSequence y /\ issuance_of x = issuance_of y
     /\ nAsset p = nAsset q /\ nValue p = nValue q /\ scriptPubKey p = scriptPubKey q
     /\ (has_issuance x = true ->
           option_map (fun w => (iw_issproof w, iw_keysproof w)) (nth_error (vtxinwit (wit t1)) i1)
           = option_map (fun w => (iw_issproof w, iw_keysproof w)) (nth_error (vtxinwit (wit t2)) i2))) ->
  (tap_all ht = true -> vout t1 = vout t2 /\ vtxoutwit (wit t1) = vtxoutwit (wit t2)) ->
  (tap_single ht = true ->
     (exists o, nth_error (vout t1) i1 = Some o /\ nth_error (vout t2) i2 = Some o)
     /\ nth_error (vtxoutwit (wit t1)) i1 = nth_error (vtxoutwit (wit t2)) i2) ->
  sighash_schnorr_raw sha tap t1 (Z.of_nat i1) sp1 ht sv tl cs an gen
  = sighash_schnorr_raw sha tap t2 (Z.of_nat i2) sp2 ht sv tl cs an gen.
Proof.
  intros sha tap t1 t2 i1 i2 sp1 sp2 ht sv tl cs an gen x y p q Hh EV EL L1 L2 N1 N2 M1 M2 HA HB HC HD.
  apply (tap_depends sha tap t1 t2 (Z.of_nat i1) (Z.of_nat i2) sp1 sp2 ht sv tl cs an gen x y p q); rewrite ?Nat2Z.id; try assumption; try lia.
  intros Ha. destruct (HA Ha) as (-> & R). split; [reflexivity|exact R].
Qed.
(** ANYONECANPAY|NONE on an input without issuance: everything else may change. *)
Theorem C26_acp_none : forall sha tap t i spent sv tl cs an gen x p vi' sp' vo' w' ss nn,
  nth_error (vin t) i = Some x -> nth_error spent i = Some p -> length spent = length (vin t) ->
  has_issuance x = false -> length vi' = length sp' ->
  sighash_schnorr_raw sha tap t (Z.of_nat i) spent (Some 0x82) sv tl cs an gen
  = sighash_schnorr_raw sha tap
      (mkTx (mkTxIn (prevout x) ss (nSequence x) (assetIssuance x) (is_pegin x) :: vi') vo' (nLockTime t) (nVersion t) w')
      0 (mkTxOut (nValue p) (scriptPubKey p) (nAsset p) nn :: sp') (Some 0x82) sv tl cs an gen.
Proof.
  intros sha tap t i spent sv tl cs an gen x p vi' sp' vo' w' ss nn N1 N2 HL Hx HL'.
  apply (C26_only_covered sha tap t _ i 0 spent _ (Some 0x82) sv tl cs an gen x
    (mkTxIn (prevout x) ss (nSequence x) (assetIssuance x) (is_pegin x)) p (mkTxOut (nValue p) (scriptPubKey p) (nAsset p) nn));
    try reflexivity; try assumption; try discriminate.
  - cbn. auto 10.
  - cbn. lia.
  - intros _. repeat (split; [reflexivity|]). intros. congruence.
Qed.
Example C26_ex : exists h,
  sighash_schnorr_raw toyhash toyhash sx_tx 0 sx_spent (Some 0x82) SIGVERSION_TAPROOT None None None (zeros 32) = Ok h
  /\ sighash_schnorr_raw toyhash toyhash
      (mkTx [mkTxIn (mkOutPoint (repeat x11 32) 0) [] 5 issuance_default false; sx_in2] [] 100 2 (mkTxWit [] []))
      0 [mkTxOut (x01 :: zeros 8) [x51] (x01 :: zeros 32) (x03 :: zeros 32); sx_out1] (Some 0x82) SIGVERSION_TAPROOT None None None (zeros 32) = Ok h.
Proof. eexists. split; vm_compute; reflexivity. Qed.

(** ** C62 *)
(** Tapscript signatures (CElementsScript.sighash_schnorr) additionally bind the script. *)
Definition LeafString (script s : bytes) : Prop := exists b, W_bytes script b /\ s = xc4 :: b.
Theorem C62_tapscript_leaf : forall sha tapleaf tap script t (i : nat) spent ht cs an gen h,
  valid_tap_ht ht ->
  sighash_tapscript sha tapleaf tap script t (Z.of_nat i) spent ht cs an gen = Ok h <->
  exists s c b, LeafString script s /\ cs = Some c /\ blen gen = 32
    /\ TapMessage sha t i spent ht (Some (tapleaf s, c)) an b /\ h = tap (gen ++ gen ++ b).
Proof.
  intros sha tapleaf tap script t i spent ht cs an gen h Hh. unfold sighash_tapscript. cbv zeta. split.
  - intros E. apply rbind_Ok in E. destruct E as (s & E1 & E). apply ser_bytes_iff in E1.
    apply C61_schnorr_message_script_path in E; [|assumption]. destruct E as (l & c & b & El & Ec & G & M & ->).
    injection El as <-. exists (xc4 :: s), c, b. split; [exists s; auto|]. auto.
  - intros (s & c & b & (s' & W & ->) & -> & G & M & ->). apply ser_bytes_iff in W. rewrite W. cbn [rbind].
    apply C61_schnorr_message_script_path; [assumption|]. exists (tapleaf (xc4 :: s')), c, b. auto.
Qed.
Theorem C62_script_bound : forall sha tapleaf tap sc1 sc2 t1 t2 (i1 i2 : nat) sp1 sp2 ht1 ht2 cs1 cs2 an1 an2 g1 g2 h,
  (forall x, length (sha x) = 32%nat) ->
  signable t1 -> signable t2 -> Forall wf_txout sp1 -> Forall wf_txout sp2 ->
  valid_tap_ht ht1 -> valid_tap_ht ht2 ->
  sighash_tapscript sha tapleaf tap sc1 t1 (Z.of_nat i1) sp1 ht1 cs1 an1 g1 = Ok h ->
  sighash_tapscript sha tapleaf tap sc2 t2 (Z.of_nat i2) sp2 ht2 cs2 an2 g2 = Ok h ->
  no_collision tap (TapFinal sha t1 i1 sp1 ht1 g1) (TapFinal sha t2 i2 sp2 ht2 g2) ->
  no_collision sha (TapHashed t1 i1 sp1 ht1) (TapHashed t2 i2 sp2 ht2) ->
  no_collision tapleaf (LeafString sc1) (LeafString sc2) ->
  sc1 = sc2 /\ cs1 = cs2 /\ an1 = an2 /\ ht1 = ht2 /\ g1 = g2.
Proof.
  intros sha tapleaf tap sc1 sc2 t1 t2 i1 i2 sp1 sp2 ht1 ht2 cs1 cs2 an1 an2 g1 g2 h HL S1 S2 F1 F2 V1 V2 P1 P2 NC NS NL.
  apply C62_tapscript_leaf in P1; [|assumption]. apply C62_tapscript_leaf in P2; [|assumption].
  destruct P1 as (s1 & c1 & b1 & L1 & Ec1 & G1 & M1 & E1), P2 as (s2 & c2 & b2 & L2 & Ec2 & G2 & M2 & E2).
  assert (E : g1 ++ g1 ++ b1 = g2 ++ g2 ++ b2).
  { apply NC; [exists (Some (tapleaf s1, c1)), an1, b1; auto|exists (Some (tapleaf s2, c2)), an2, b2; auto|congruence]. }
  apply app_inj_len in E; [|unfold blen in *; lia]. destruct E as [-> E]. apply app_inv_head in E. subst b2.
  destruct (tap_bind sha HL t1 t2 i1 i2 sp1 sp2 ht1 ht2 _ _ _ _ b1 S1 S2 F1 F2 V1 V2 NS M1 M2) as (R1 & _ & _ & R4 & R5 & _).
  assert (El : tapleaf s1 = tapleaf s2) by congruence. assert (c1 = c2) by congruence.
  apply NL in El; [|assumption|assumption]. subst s2.
  destruct L1 as (w1 & W1 & ->), L2 as (w2 & W2 & E3). injection E3 as <-.
  split; [eapply (prefix_free_inj _ _ _ _ _ pf_bytes); try eassumption; exact I|]. split; [congruence|]. auto.
Qed.
Example C62_ex : exists h, sighash_tapscript toyhash toyhash toyhash [x51] sx_tx 1 sx_spent None (Some (-1)) None (zeros 32) = Ok h.
Proof. eexists. vm_compute. reflexivity. Qed.

Print Assumptions C18_v0_preimage.
Print Assumptions C18_raw_sighash.
Print Assumptions C18_other_sigversions.
Print Assumptions C18_missing_amount.
Print Assumptions C18_legacy_error.
Print Assumptions C18_negative_index.
Print Assumptions C19_all_binds.
Print Assumptions C19_scoped_binds.
Print Assumptions C20_only_covered.
Print Assumptions C20_acp_none.
Print Assumptions C21_issuance_placement_refuted.
Print Assumptions C22_available_iff.
Print Assumptions C22_struct_error.
Print Assumptions C23_validation.
Print Assumptions C23_bad_arguments.
Print Assumptions C61_schnorr_message_key_path.
Print Assumptions C61_schnorr_message_script_path.
Print Assumptions C24_all_binds.
Print Assumptions C24_inputs_bound.
Print Assumptions C25_acp_binds.
Print Assumptions C25_proofs_not_bound_refuted.
Print Assumptions C25_script_boundary_not_bound_refuted.
Print Assumptions C26_only_covered.
Print Assumptions C26_acp_none.
Print Assumptions C62_tapscript_leaf.
Print Assumptions C62_script_bound.
