(** Blinding keys derived from scripts: property C67. *)
From Verif Require Import Base BaseFacts Serialize TxModel SpecWire TxProofs TxProofs2 PropCodec BlindModel SpecBlind BlindFrame BlindSer MiscModel UnblindModel SpecUnblind KeyModel SpecKey
  Sha256 ToyCrypto ToyUnblind ToyTx PropBlind PropBlindSer PropUnblind PropEndToEnd.
From Coq Require Import Lia.
Local Open Scope Z_scope.

Lemma lxor_byte x k : 0 <= x < 256 -> 0 <= k < 256 -> 0 <= Z.lxor x k < 256.
Proof.
  intros Hx Hk. assert (N := Z.lxor_nonneg x k). split; [apply N; lia|].
  destruct (Z.eq_dec (Z.lxor x k) 0) as [->|NZ]; [lia|].
  assert (0 <= Z.lxor x k) by (apply N; lia). apply Z.log2_lt_cancel. change (Z.log2 256) with 8.
  assert (L := Z.log2_lxor x k ltac:(lia) ltac:(lia)).
  assert (forall y, 0 <= y < 256 -> Z.log2 y < 8). { intros y Hy. destruct (Z.eq_dec y 0) as [->|]; [reflexivity|]. apply Z.log2_lt_pow2; lia. }
  assert (A := H0 x Hx). assert (B := H0 k Hk). lia.
Qed.
Lemma bz_xor k b : 0 <= k < 256 -> bz (xor_with k b) = Z.lxor (bz b) k.
Proof. intros Hk. unfold xor_with. rewrite bz_zb. apply Z.mod_small. apply lxor_byte; [apply bz_range|exact Hk]. Qed.
Lemma nth_zeros n i : nth i (zeros n) x00 = x00.
Proof. unfold zeros. revert i. induction n as [|n IH]; intros [|i]; cbn; auto. Qed.
Lemma padded k key : 0 <= k < 256 -> (length key <= 64)%nat -> PaddedKey k key (map (xor_with k) (key ++ zeros (64 - length key))).
Proof.
  intros Hk HL. assert (E : length (key ++ zeros (64 - length key)) = 64%nat) by (rewrite app_length; unfold zeros; rewrite repeat_length; lia).
  split; [rewrite map_length; exact E|].
  assert (X : forall i, (i < 64)%nat -> nth i (map (xor_with k) (key ++ zeros (64 - length key))) x00 = xor_with k (nth i (key ++ zeros (64 - length key)) x00)).
  { intros i Hi. rewrite (nth_indep _ x00 (xor_with k x00)) by (rewrite map_length; lia). apply map_nth. }
  split; intros i Hi; rewrite X, bz_xor by lia.
  - rewrite app_nth1 by exact Hi. reflexivity.
  - rewrite app_nth2, nth_zeros by lia. reflexivity.
Qed.
Lemma PaddedKey_fun k key p q : PaddedKey k key p -> PaddedKey k key q -> p = q.
Proof.
  intros (L1 & A1 & B1) (L2 & A2 & B2). apply (nth_ext _ _ x00 x00); [congruence|]. intros i Hi. apply bz_inj.
  destruct (Nat.lt_ge_cases i (length key)); [rewrite A1, A2 by assumption; reflexivity|rewrite B1, B2 by lia; reflexivity].
Qed.
Lemma PaddedKey_inj k key key' p : length key = length key' -> (length key <= 64)%nat -> PaddedKey k key p -> PaddedKey k key' p -> key = key'.
Proof.
  intros L LE (L1 & A1 & _) (_ & A2 & _). apply (nth_ext _ _ x00 x00); [exact L|]. intros i Hi. apply bz_inj.
  assert (E : Z.lxor (bz (nth i key x00)) k = Z.lxor (bz (nth i key' x00)) k) by (rewrite <- A1, <- A2 by lia; reflexivity).
  apply (f_equal (fun x => Z.lxor x k)) in E. rewrite !Z.lxor_assoc, Z.lxor_nilpotent, !Z.lxor_0_r in E. exact E.
Qed.
Lemma hmac_iff H key msg d : (length key <= 64)%nat -> hmac H key msg = d <-> Hmac H key msg d.
Proof.
  intros L. unfold hmac. assert (E : (64 <? blen key) = false) by (apply Z.ltb_ge; unfold blen; lia). rewrite E. cbv zeta.
  assert (P1 := padded 0x36 key ltac:(lia) L). assert (P2 := padded 0x5c key ltac:(lia) L). split.
  - intros <-. eexists _, _. split; [exact P1|]. split; [exact P2|reflexivity].
  - intros (i & o & Q1 & Q2 & ->). rewrite (PaddedKey_fun _ _ _ _ P1 Q1), (PaddedKey_fun _ _ _ _ P2 Q2). reflexivity.
Qed.

(** C67. The derived key is the HMAC of the script under the master secret; a script that is not an Elements script, or
    not bytes, is refused with TypeError, and a digest that is no valid secret with ValueError. *)
Theorem C67_value : forall H valid key script d, blen key = 32 ->
  derive_blinding_key H valid (Some key) script = Ok d
  <-> exists s, (script = SBytes s \/ script = SElementsScript s) /\ Hmac H key s d /\ valid d = true.
Proof.
  intros H valid key script d LK. assert (L : (length key <= 64)%nat) by (unfold blen in LK; lia). unfold derive_blinding_key.
  assert (X : forall s, (if valid (hmac H key s) then Ok (hmac H key s) else Raise EValue) = Ok d <-> Hmac H key s d /\ valid d = true).
  { intros s. rewrite <- (hmac_iff H key s d L). destruct (valid (hmac H key s)) eqn:V.
    - split; [intros E; assert (hmac H key s = d) by congruence; subst d; auto|]. intros [-> _]. reflexivity.
    - split; [discriminate|]. intros [E V']. congruence. }
  destruct script as [s|s|s|]; cbn [rbind].
  - rewrite X. split; [intros Y; exists s; auto|]. intros (s' & [E|E] & Y); [|discriminate E]. assert (s' = s) by congruence. subst s'. exact Y.
  - rewrite X. split; [intros Y; exists s; auto|]. intros (s' & [E|E] & Y); [discriminate E|]. assert (s' = s) by congruence. subst s'. exact Y.
  - split; [discriminate|]. intros (s' & [E|E] & _); discriminate E.
  - split; [discriminate|]. intros (s' & [E|E] & _); discriminate E.
Qed.
Theorem C67_errors : forall H valid key script e, (forall k, key = Some k -> blen k = 32) ->
  derive_blinding_key H valid key script = Raise e
  <-> (e = EType /\ (key = None \/ (exists s, script = SOtherScript s) \/ script = SNotBytes))
   \/ (e = EValue /\ exists k s d, key = Some k /\ (script = SBytes s \/ script = SElementsScript s) /\ Hmac H k s d /\ valid d = false).
Proof.
  intros H valid [key|] script e LK.
  - assert (L : (length key <= 64)%nat) by (specialize (LK _ eq_refl); unfold blen in LK; lia). unfold derive_blinding_key.
    assert (X : forall s, (if valid (hmac H key s) then Ok (hmac H key s) else Raise EValue) = Raise e <-> e = EValue /\ valid (hmac H key s) = false).
    { intros s. destruct (valid (hmac H key s)); split; try discriminate; [intros [_ E]; discriminate E|intros E; split; [congruence|reflexivity]|intros [-> _]; reflexivity]. }
    assert (Y : forall s, Hmac H key s (hmac H key s)) by (intros s; apply (hmac_iff H key s _ L); reflexivity).
    destruct script as [s|s|s|]; cbn [rbind].
    + rewrite X. split.
      * intros [-> V]. right. split; [reflexivity|]. exists key, s, (hmac H key s). auto.
      * intros [(_ & [E|[(s' & E)|E]])|(-> & k & s' & d & E1 & [E2|E2] & E3 & E4)]; try discriminate. split; [reflexivity|].
        assert (k = key) by congruence. assert (s' = s) by congruence. subst k s'. apply (hmac_iff H key s d L) in E3. congruence.
    + rewrite X. split.
      * intros [-> V]. right. split; [reflexivity|]. exists key, s, (hmac H key s). auto.
      * intros [(_ & [E|[(s' & E)|E]])|(-> & k & s' & d & E1 & [E2|E2] & E3 & E4)]; try discriminate. split; [reflexivity|].
        assert (k = key) by congruence. assert (s' = s) by congruence. subst k s'. apply (hmac_iff H key s d L) in E3. congruence.
    + split.
      * intros E. left. split; [congruence|]. right. left. eauto.
      * intros [(-> & _)|(_ & k & s' & d & _ & [E2|E2] & _)]; [reflexivity|discriminate|discriminate].
    + split.
      * intros E. left. split; [congruence|]. auto.
      * intros [(-> & _)|(_ & k & s' & d & _ & [E2|E2] & _)]; [reflexivity|discriminate|discriminate].
  - cbn [derive_blinding_key]. split.
    + intros E. left. split; [congruence|auto].
    + intros [(-> & _)|(_ & k & s' & d & E & _)]; [reflexivity|discriminate E].
Qed.
(** Different scripts or master keys give different keys, or two different strings with the same SHA-256 are found. *)
Lemma Hmac_distinct : forall H key key' s s' d, blen key = 32 -> blen key' = 32 ->
  Hmac H key s d -> Hmac H key' s' d -> (key = key' /\ s = s') \/ exists x y, x <> y /\ H x = H y.
Proof.
  intros H key key' s s' d L L' (i & o & P1 & P2 & ->) (i' & o' & P1' & P2' & E).
  assert (LL : length key = length key') by (unfold blen in *; lia). assert (LE : (length key <= 64)%nat) by (unfold blen in *; lia).
  destruct (bytes_eq_dec (o ++ H (i ++ s)) (o' ++ H (i' ++ s'))) as [EQ|NE]; [|right; eauto].
  apply app_inj_len in EQ; [|rewrite (proj1 P2), (proj1 P2'); reflexivity]. destruct EQ as [EO EI]. subst o'.
  assert (key = key') by (eapply PaddedKey_inj; eassumption). subst key'. assert (i' = i) by (eapply PaddedKey_fun; eassumption). subst i'.
  destruct (bytes_eq_dec (i ++ s) (i ++ s')) as [EQ|NE]; [|right; eauto]. apply app_inv_head in EQ. auto.
Qed.

Definition script_is (x : script_arg) (s : bytes) : Prop := x = SBytes s \/ x = SElementsScript s.
Theorem C67_distinct : forall H valid key key' x x' s s' d, blen key = 32 -> blen key' = 32 -> script_is x s -> script_is x' s' ->
  derive_blinding_key H valid (Some key) x = Ok d -> derive_blinding_key H valid (Some key') x' = Ok d ->
  (key = key' /\ s = s') \/ exists a b, a <> b /\ H a = H b.
Proof.
  intros H valid key key' x x' s s' d L L' X X' E E'. apply (C67_value _ _ _ _ _ L) in E. apply (C67_value _ _ _ _ _ L') in E'.
  destruct E as (s1 & X1 & M & _), E' as (s1' & X1' & M' & _).
  assert (s1 = s) by (destruct X as [-> | ->], X1 as [Y|Y]; congruence). assert (s1' = s') by (destruct X' as [-> | ->], X1' as [Y|Y]; congruence). subst s1 s1'.
  exact (Hmac_distinct _ _ _ _ _ _ L L' M M').
Qed.

(** A wallet that keeps only the master key reads its output from the serialised transaction: the key derived from
    the script of the received output unblinds it, if the sender used its public key. *)
Theorem C67_wallet_reads : forall z rand args t n bfs abfs s j master key o u a dw,
  SizesOk z -> SmallProofs z -> RandOk z rand -> CodecLaws z -> RewindLaw z -> KeyLaws z -> dw_null dw ->
  wf_fields t -> complete_witness t ->
  blind_transaction z rand args t = (Ret (BSuccess n bfs abfs), s) ->
  n = (length (issuance_tasks args t) + length (output_tasks args))%nat ->
  nth_error (vout t) j = Some o ->
  derive_blinding_key (c_sha z) (sk_valid z) (Some master) (SElementsScript (scriptPubKey o)) = Ok key ->
  nth_error (a_pubkeys args) j = Some (sk_pub z key) ->
  ExplicitValue (nValue o) u -> u <= max_money -> ExplicitAsset (nAsset o) a ->
  (forall b, nth_error bfs j = Some b -> b <> zeros 32) ->
  exists wire t' o' key' bf abf, tx_serialize (s_tx s) = Ok wire /\ tx_deserialize dw wire = Ok t' /\ nth_error (vout t') j = Some o'
    /\ derive_blinding_key (c_sha z) (sk_valid z) (Some master) (SElementsScript (scriptPubKey o')) = Ok key'
    /\ txout_unblind z o' key' (ow_range (outwit_at t' j)) = Ok (UnblindingSuccess a u bf abf).
Proof.
  intros z rand args t n bfs abfs s j master key o u a dw SZ SP RO CL RL KL DW WF CW H NE EO EK EP EV LE EA NZ.
  assert (SK : sk_valid z key = true).
  { unfold derive_blinding_key in EK. cbn [rbind] in EK. destruct (sk_valid z (hmac (c_sha z) master (scriptPubKey o))) eqn:V; [|discriminate EK]. congruence. }
  assert (FR := blind_transaction_frame z rand args t). rewrite H in FR. cbn [snd] in FR.
  destruct (C53_complete_roundtrip z rand args t dw SZ SP DW WF CW) as (b & t'' & S & D & E). rewrite H in S, E. cbn [snd] in S, E.
  destruct (C65_receiver_wire z rand args t n bfs abfs s j key o u a dw SZ SP RO CL RL KL DW WF CW H NE SK EP EO EV LE EA)
    as (wire & t' & S' & D' & o' & bf & abf & EO' & EB & _ & [R|(pre & _ & _ & EZ & _)]); [|exfalso; exact (NZ bf EB EZ)].
  assert (b = wire) by congruence. subst b. assert (t'' = t') by congruence. subst t''.
  assert (SC : scriptPubKey o' = scriptPubKey o).
  { destruct (same_tx_at _ _ E) as (_ & EV' & _). rewrite <- EV' in EO'. exact (proj1 (fr_out _ _ _ _ _ FR j o o' EO EO')). }
  exists wire, t', o', key, bf, abf. split; [exact S'|]. split; [exact D'|]. split; [exact EO'|]. rewrite SC. split; [exact EK|exact R].
Qed.

(** RFC 4231, test cases 1 and 2, with SHA-256 itself. *)
Example C67_rfc4231 : be_val (hmac sha256 (repeat x0b 20) [x48;x69;x20;x54;x68;x65;x72;x65]) = 0xb0344c61d8db38535ca8afceaf0bf12b881dc200c9833da726e9376c2e32cff7
  /\ be_val (hmac sha256 [x4a;x65;x66;x65] [x77;x68;x61;x74;x20;x64;x6f;x20;x79;x61;x20;x77;x61;x6e;x74;x20;x66;x6f;x72;x20;x6e;x6f;x74;x68;x69;x6e;x67;x3f])
     = 0x5bdcc146bf60754e6a042426089575c75a003f089d2739839dec58b964ec3843.
Proof. split; vm_compute; reflexivity. Qed.
(** The toy library: the first output of the toy transaction, sent to the key derived from its script. *)
Definition master1 : bytes := b32 4242.
Definition key1 : bytes := Eval vm_compute in hmac (c_sha toy) master1 [x51].
Definition key_args : blind_args := mkArgs toy_descs [toy_pub (be_val key1); toy_pub 902; toy_pub 903; toy_pub 904] [None; Some (b32 5001)] [None; Some (b32 5002)] [] None None true.
Example C67_ex : blen master1 = 32
  /\ derive_blinding_key (c_sha toy) (sk_valid toy) (Some master1) (SElementsScript (scriptPubKey (toy_out 700 asset_A [x51]))) = Ok key1
  /\ nth_error (a_pubkeys key_args) 0 = Some (sk_pub (bounded toy) key1)
  /\ ret_is (fun r => match r with BSuccess n bfs _ => (n =? 6)%nat && negb (bytes_eqb (nth 0 bfs []) (zeros 32)) | _ => false end) (blind_transaction (bounded toy) toy_rand key_args toy_complete) = true
  /\ (length (issuance_tasks key_args toy_complete) + length (output_tasks key_args) = 6)%nat.
Proof.
  split; [apply b32_blen|]. split; [vm_compute; reflexivity|]. split; [vm_compute; reflexivity|]. split; [vm_compute; reflexivity|]. vm_compute; reflexivity.
Qed.

Print Assumptions C67_value.
Print Assumptions C67_errors.
Print Assumptions C67_distinct.
Print Assumptions C67_wallet_reads.
