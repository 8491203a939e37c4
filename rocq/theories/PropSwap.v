(** Property C86: the program examples/asset-atomic-swap.py. *)
From Verif Require Import Base BaseFacts Serialize TxModel MiscModel IssuanceModel BlindModel UnblindModel SpendModel WalletModel SighashModel ScriptModel SpecWire
  SpecBlind SpecBalance SpecUnblind SpecMulti SpecNode SpecSpend SpecSign BlindFacts BlindBalance BlindSer TxProofs TxProofs2 PropUnblind PropSpend
  ExampleModel SpecExample SwapModel SpecSwap SwapProofs SwapRun SwapSign LegacyModel ToyCrypto ToyTx ToyUnblind ToyNode ToyFit.
From Coq Require Import Lia.
Local Open Scope Z_scope.

(** * Alice, whatever Bob sent *)
(** What she signs spends one output of somebody's and hers, goes to the addresses that she was given, leaves the change and the fee;
    and with her blinding key she reads what was offered to her. *)
Theorem C86_alice : forall z dw legacy Hash160 sign rand a1 a2 fee fee_asset change bkey offered partial addrs generator t message,
  alice_signs z dw legacy Hash160 sign rand a1 a2 fee fee_asset change bkey offered partial addrs generator = Sends t message ->
  exists b1 b2, addrs = [b1; b2] /\ AliceSigns [a1; a2; fee] b1 b2 change fee_asset 10000 t
    /\ Gets z t 0 bkey (f_asset offered) (f_amount offered) /\ tx_serialize t = Ok message.
Proof.
  intros z dw legacy H160 sign rand a1 a2 fee fa change bkey offered partial addrs gen t m H. apply alice_inv in H.
  destruct H as (b1 & b2 & -> & p & o & w & d & o1 & o2 & o3 & o4 & bfs & abfs & s & AR). exists b1, b2. split; [reflexivity|].
  split; [exact (ar_signs _ _ _ _ _ _ _ _ _ _ _ _ _ _ _ _ _ _ _ _ _ _ _ _ _ _ _ _ _ _ AR)|].
  split; [exact (ar_gets _ _ _ _ _ _ _ _ _ _ _ _ _ _ _ _ _ _ _ _ _ _ _ _ _ _ _ _ _ _ AR)|exact (ar_bytes _ _ _ _ _ _ _ _ _ _ _ _ _ _ _ _ _ _ _ _ _ _ _ _ _ _ _ _ _ _ AR)].
Qed.
(** The holder of the blinding key of each of these addresses reads its output. *)
Theorem C86_alice_pays : forall z dw legacy Hash160 sign rand a1 a2 fee fee_asset change bkey offered partial b1 b2 generator t message,
  SizesOk z -> RandOk z rand -> CodecLaws z -> RewindLaw z -> KeyLaws z ->
  alice_signs z dw legacy Hash160 sign rand a1 a2 fee fee_asset change bkey offered partial [b1; b2] generator = Sends t message ->
  forall key, sk_valid z key = true ->
    (blinding_pubkey b1 = sk_pub z key -> 0 <= u_amount a1 <= money -> Gets z t 1 key (u_asset a1) (u_amount a1))
    /\ (blinding_pubkey b2 = sk_pub z key -> 0 <= u_amount a2 <= money -> Gets z t 2 key (u_asset a2) (u_amount a2))
    /\ (blinding_pubkey change = sk_pub z key -> 10000 <= u_amount fee <= money -> Gets z t 3 key fee_asset (u_amount fee - 10000)).
Proof.
  intros z dw legacy H160 sign rand a1 a2 fee fa change bkey offered partial b1 b2 gen t m SZ RO CL RL KL H key SK. apply alice_inv in H.
  destruct H as (b1' & b2' & EB & p & o & w & d & o1 & o2 & o3 & o4 & bfs & abfs & s & AR). injection EB as <- <-.
  assert (VO := ar_vout _ _ _ _ _ _ _ _ _ _ _ _ _ _ _ _ _ _ _ _ _ _ _ _ _ _ _ _ _ _ AR). destruct AR as [_ _ _ _ _ _ _ P8 P9 P10 _ _ P13 P14 _].
  destruct (sign_all_kept _ _ _ _ _ _ _ _ P14) as (_ & K2 & K3).
  split; [|split]; intros EK RG.
  - eapply plain_gets; [exact SZ|exact RO|exact CL|exact RL|exact KL|exact P13|exact SK| | |exact P8|exact RG|exact K2|exact K3]; [cbn [nth_error]; rewrite EK; reflexivity|rewrite VO; reflexivity].
  - eapply plain_gets; [exact SZ|exact RO|exact CL|exact RL|exact KL|exact P13|exact SK| | |exact P9|exact RG|exact K2|exact K3]; [cbn [nth_error]; rewrite EK; reflexivity|rewrite VO; reflexivity].
  - eapply plain_gets; [exact SZ|exact RO|exact CL|exact RL|exact KL|exact P13|exact SK| | |exact P10| |exact K2|exact K3]; [cbn [nth_error]; rewrite EK; reflexivity|rewrite VO; reflexivity|unfold FIXED_FEE_SATOSHI; lia].
Qed.

(** * Bob, whatever Alice sent *)
(** He changes nothing but his own input of what he received; this has as many outputs as expected, the last one a fee, and he reads
    each asset offered to him with the key that he made for it. *)
Theorem C86_bob : forall z dw legacy Hash160 sign me keys offered semi t message,
  bob_signs z dw legacy Hash160 sign me keys offered semi = Sends t message ->
  exists t0, tx_deserialize dw semi = Ok t0 /\ OnlyInput 0 t0 t /\ length (vout t) = (length offered + 3)%nat
    /\ (exists o, nth_error (vout t) (length offered + 2) = Some o /\ txout_is_fee o = true)
    /\ (forall n f, nth_error offered n = Some f -> exists key, nth_error keys n = Some key /\ Gets z t (n + 1) key (f_asset f) (f_amount f))
    /\ tx_serialize t = Ok message.
Proof.
  intros z dw legacy H160 sign me keys offered semi t m H. apply bob_inv in H. destruct H as (t0 & D1 & D2 & D3 & D4 & D5 & D6).
  destruct (sign_filled _ _ _ _ _ _ _ _ D5) as (ss & st & h & FI & _). assert (OI := filled_only _ _ _ _ _ FI). assert (EO := oi_out _ _ _ OI).
  exists t0. rewrite EO. split; [exact D1|]. split; [exact OI|]. split; [exact D2|]. split; [exact D3|]. split; [|exact D6].
  intros n f E. destruct (D4 n f E) as (key & EK & X). exists key. split; [exact EK|]. exact (gets_same _ _ _ _ _ _ _ EO (oi_outwit _ _ _ OI) X).
Qed.
(** His offer: one input, his; one output, to the address given; its owner reads the offer. *)
Theorem C86_bob_offers : forall z dw ver rand me address commitments t message key,
  SizesOk z -> RandOk z rand -> CodecLaws z -> RewindLaw z -> KeyLaws z ->
  bob_offers z dw ver rand me address commitments = Sends t message ->
  map prevout (vin t) = [outpoint_of me] /\ length (vout t) = 1%nat /\ PaysTo t 0 address /\ tx_serialize t = Ok message
  /\ (sk_valid z key = true -> blinding_pubkey address = sk_pub z key -> 0 <= u_amount me <= money -> Gets z t 0 key (u_asset me) (u_amount me)).
Proof.
  intros z dw ver rand me ad coms t m key SZ RO CL RL KL H. apply bob_offers_inv in H. destruct H as (mine & i & o & bfs & abfs & s & EM & EI & EO & CO & B & -> & SB).
  assert (F := BlindFrame.blind_transaction_frame z rand (bob_args me (blinding_pubkey ad) (mine :: coms)) (first_tx dw ver me o)). rewrite B in F. cbn [snd] in F.
  split; [rewrite (plain_vin _ _ _ _ _ F); reflexivity|]. split; [rewrite (fr_nout _ _ _ _ _ F); reflexivity|]. split.
  { destruct (frame_script _ _ _ 0%nat o F eq_refl) as (o' & E & S & _). exists o'. split; [exact E|]. rewrite S. apply output_of_Ok in EO. destruct EO as (v & a & sc & -> & _ & _ & ES). exact ES. }
  split; [exact SB|]. intros SK EK RG. eapply plain_gets; [exact SZ|exact RO|exact CL|exact RL|exact KL|exact B|exact SK| |reflexivity|exact EO|exact RG|reflexivity|reflexivity]. rewrite EK. reflexivity.
Qed.

(** * Signatures *)
(** Alice's three inputs carry signatures of what she sends, the other input is as she got it; Bob's input carries a signature of what
    he sends, and Alice's signatures are still good in it. *)
Theorem C86_signatures : forall z dw Hash160 sign,
  (forall rand a1 a2 fee fee_asset change bkey offered partial addrs generator t message,
    alice_signs z dw (legacy_sighash (c_hash z)) Hash160 sign rand a1 a2 fee fee_asset change bkey offered partial addrs generator = Sends t message ->
    Signature z Hash160 sign t 1 a1 /\ Signature z Hash160 sign t 2 a2 /\ Signature z Hash160 sign t 3 fee
    /\ exists t0, tx_deserialize dw partial = Ok t0 /\ nth_error (vin t) 0 = nth_error (vin t0) 0 /\ inwit_at t 0 = inwit_at t0 0)
  /\ (forall me keys offered semi t message,
    bob_signs z dw (legacy_sighash (c_hash z)) Hash160 sign me keys offered semi = Sends t message ->
    Signature z Hash160 sign t 0 me
    /\ forall t0 i u, tx_deserialize dw semi = Ok t0 -> i <> 0%nat -> Signature z Hash160 sign t0 i u -> Signature z Hash160 sign t i u).
Proof.
  intros z dw H160 sign. split.
  - intros rand a1 a2 fee fa change bkey offered partial addrs gen t m H. apply alice_inv in H.
    destruct H as (b1 & b2 & _ & p & o & w & d & o1 & o2 & o3 & o4 & bfs & abfs & s & AR). assert (ON := ar_one _ _ _ _ _ _ _ _ _ _ _ _ _ _ _ _ _ _ _ _ _ _ _ _ _ _ _ _ _ _ AR).
    assert (F := ar_frame _ _ _ _ _ _ _ _ _ _ _ _ _ _ _ _ _ _ _ _ _ _ _ _ _ _ _ _ _ _ AR).
    destruct AR as [P1 _ _ _ _ _ _ _ _ _ _ _ _ P14 _]. destruct (sign_all_signatures _ _ _ _ _ _ _ P14) as (A & _ & C).
    split; [exact (A 0%nat a1 eq_refl)|]. split; [exact (A 1%nat a2 eq_refl)|]. split; [exact (A 2%nat fee eq_refl)|]. exists p. split; [exact P1|].
    destruct (C 0%nat ltac:(lia)) as [C1 C2]. destruct ON as [i ON]. split; [rewrite C1, (plain_vin _ _ _ _ _ F); cbn [joined vin]; rewrite ON; reflexivity|].
    assert (E : inwit_at t 0 = inwit_at (s_tx s) 0) by (unfold inwit_at; destruct (vtxinwit (wit t)), (vtxinwit (wit (s_tx s))); cbn [nth nth_error] in *; congruence).
    rewrite E, (plain_inwit _ _ _ _ _ _ F). unfold inwit_at. cbn [joined wit vtxinwit]. destruct (vtxinwit (wit p)); reflexivity.
  - intros me keys offered semi t m H. apply bob_inv in H. destruct H as (t0 & D1 & _ & _ & _ & D5 & _). split; [exact (sign_signature _ _ _ _ _ _ _ D5)|].
    intros t1 i u D NE S. assert (t1 = t0) by congruence. subst t1. apply sign_filled in D5. destruct D5 as (ss & st & h & FI & _). exact (signature_kept _ _ _ _ _ _ _ _ (filled_only _ _ _ _ _ FI) NE S).
Qed.

(** * Both follow the program *)
(** If all three turns succeed, a node accepts the transaction, either party reads in it what it was promised, and Alice sends it. *)
Theorem C86_swap : forall z V order (G : PointGroup order) (M : Meaning z G) dw ver legacy Hash160 sign randA randB
    me a1 a2 fee p_me p1 p2 p_fee alice_addr b1 b2 change bkey k1 k2 mine coms t1 t2 t3 m1 m2 m3,
  SizesOk z -> BlindSumLaw z order -> CodecLaws z -> VerifierLaws z V M -> RewindSound z -> ZeroGen z -> SmallProofs z ->
  FullNull dw -> SmallKeys Hash160 sign [me; a1; a2; fee] -> - 2 ^ 31 <= ver < 2 ^ 31 ->
  (forall k, randA k <> zeros 32) -> (forall k, randB k <> zeros 32) ->
  Truth z me p_me -> Truth z a1 p1 -> Truth z a2 p2 -> Truth z fee p_fee -> 10000 < u_amount fee ->
  u_commitment me = Some mine -> alice_commitments a1 a2 fee = Ok coms ->
  bob_offers z dw ver randB me alice_addr coms = Sends t1 m1 ->
  alice_signs z dw legacy Hash160 sign randA a1 a2 fee (u_asset fee) change bkey (mkOffer (u_asset me) (u_amount me)) m1 [b1; b2] mine = Sends t2 m2 ->
  bob_signs z dw legacy Hash160 sign me [k1; k2] [mkOffer (u_asset a1) (u_amount a1); mkOffer (u_asset a2) (u_amount a2)] m2 = Sends t3 m3 ->
  (forall o, nth_error (vout t3) 3 = Some o -> hd x00 (nAsset o) <> x01) ->
  node_check z V [p_me; p1; p2; p_fee] t3 = true
  /\ Gets z t3 0 bkey (u_asset me) (u_amount me) /\ Gets z t3 1 k1 (u_asset a1) (u_amount a1) /\ Gets z t3 2 k2 (u_asset a2) (u_amount a2)
  /\ alice_broadcasts dw t2 m3 = Some t3.
Proof. exact honest_run. Qed.

(** * What is not checked *)
(** Alice sends what she gets back exactly if it spends a prefix of what she signed. *)
Theorem C86_final : forall dw mine final t, alice_broadcasts dw mine final = Some t
  <-> tx_deserialize dw final = Ok t /\ exists rest, map prevout (vin mine) = map prevout (vin t) ++ rest.
Proof.
  intros dw mine final t. unfold alice_broadcasts.
  assert (Q : forall l l2, same_prevouts l l2 = true <-> exists rest, map prevout l2 = map prevout l ++ rest).
  { induction l as [|x l IH]; intros l2; cbn [same_prevouts map app]; [split; [intros _; eexists; reflexivity|reflexivity]|].
    destruct l2 as [|y l2]; cbn [map]; [split; [discriminate|intros [rest E]; discriminate E]|]. split.
    - intros H. apply andb_prop in H. destruct H as [H H3]. apply andb_prop in H. destruct H as [H1 H2]. apply bytes_eqb_eq in H1. apply Z.eqb_eq in H2. apply IH in H3. destruct H3 as [rest E]. exists rest.
      rewrite E. f_equal. destruct (prevout x), (prevout y). cbn in *. congruence.
    - intros [rest E]. injection E as E1 E2. rewrite E1, (proj2 (bytes_eqb_eq _ _) eq_refl), Z.eqb_refl. apply IH. exists rest. exact E2. }
  destruct (tx_deserialize dw final) as [t'|e]; [|split; [discriminate|intros [X _]; discriminate X]].
  destruct (same_prevouts (vin t') (vin mine)) eqn:S.
  - split; [intros E; injection E as <-; split; [reflexivity|apply Q; exact S]|intros [E _]; apply Ok_inj in E; congruence].
  - split; [discriminate|]. intros [E X]. apply Ok_inj in E. subst t'. apply Q in X. congruence.
Qed.

(** * The output for the fee *)
(** This program fails if the output that it finds is not blinded. *)
Definition big (u : utxo) : bool := FIXED_FEE_SATOSHI * 2 <=? u_amount u.
Inductive Sorted : list utxo -> Prop :=
| S_nil : Sorted []
| S_cons x l : (forall y, In y l -> u_amount x <= u_amount y) -> Sorted l -> Sorted (x :: l).
Lemma insert_In u l x : In x (insert u l) <-> x = u \/ In x l.
Proof.
  induction l as [|y l IH]; cbn [insert In]; [intuition congruence|]. destruct (u_amount y <? u_amount u); cbn [In]; [rewrite IH|]; intuition congruence.
Qed.
Lemma insert_sorted u l : Sorted l -> Sorted (insert u l).
Proof.
  induction 1 as [|x l H S IH]; cbn [insert]; [constructor; [intros y []|constructor]|]. destruct (Z.ltb_spec (u_amount x) (u_amount u)) as [L|L].
  - constructor; [|exact IH]. intros y Y. apply insert_In in Y. destruct Y as [->|Y]; [lia|exact (H y Y)].
  - constructor; [|constructor; assumption]. intros y [<-|Y]; [exact L|]. specialize (H y Y). lia.
Qed.
Lemma sorted_sorted l : Sorted (sorted l). Proof. induction l as [|x l IH]; [constructor|apply insert_sorted; exact IH]. Qed.
Lemma find_insert u l : Sorted l -> find big (insert u l) = match find big l with
  | Some w => if big u && (u_amount u <=? u_amount w) then Some u else Some w
  | None => if big u then Some u else None end.
Proof.
  induction 1 as [|x l H S IH]; cbn [insert find].
  - reflexivity.
  - destruct (Z.ltb_spec (u_amount x) (u_amount u)) as [L|L]; cbn [find].
    + destruct (big x) eqn:BX; [|exact IH]. destruct (Z.leb_spec (u_amount u) (u_amount x)); [lia|]. rewrite andb_false_r. reflexivity.
    + destruct (big x) eqn:BX.
      * destruct (Z.leb_spec (u_amount u) (u_amount x)); [|lia]. rewrite andb_true_r. reflexivity.
      * destruct (big u) eqn:BU; [unfold big in *; lia|]. destruct (find big l); reflexivity.
Qed.
Lemma find_least l : match find big (sorted l) with Some u => Least l u | None => forall u, In u l -> u_amount u < 20000 end.
Proof.
  assert (BG : forall u, big u = true <-> 20000 <= u_amount u) by (intros u; unfold big, FIXED_FEE_SATOSHI; rewrite Z.leb_le; lia).
  induction l as [|x l IH]; [intros u []|]. cbn [sorted fold_right]. fold (sorted l). rewrite (find_insert _ _ (sorted_sorted l)).
  destruct (find big (sorted l)) as [w|].
  - destruct IH as (p & q & -> & B & P & Q). destruct (big x) eqn:BX; cbn [andb].
    + apply BG in BX. destruct (Z.leb_spec (u_amount x) (u_amount w)) as [L|L].
      * exists [], (p ++ w :: q). split; [reflexivity|]. split; [exact BX|]. split; [intros v []|]. intros v V BV. apply in_app_or in V. destruct V as [V|[<-|V]]; [specialize (P v V BV); lia|lia|specialize (Q v V BV); lia].
      * exists (x :: p), q. split; [reflexivity|]. split; [exact B|]. split; [|exact Q]. intros v [<-|V] BV; [lia|exact (P v V BV)].
    + exists (x :: p), q. split; [reflexivity|]. split; [exact B|]. split; [|exact Q]. intros v [<-|V] BV; [apply BG in BV; congruence|exact (P v V BV)].
  - destruct (big x) eqn:BX.
    + apply BG in BX. exists [], l. split; [reflexivity|]. split; [exact BX|]. split; [intros v []|]. intros v V BV. specialize (IH v V). lia.
    + intros u [<-|U]; [|exact (IH u U)]. destruct (Z_lt_le_dec (u_amount x) 20000) as [|X]; [assumption|apply BG in X; congruence].
Qed.
Theorem C86_fee_utxo : forall l,
  (forall u, find_utxo_for_fee l = Ok (Some u) <-> Least l u /\ u_commitment u <> None)
  /\ (find_utxo_for_fee l = Ok None <-> forall u, In u l -> u_amount u < 20000)
  /\ (forall e, find_utxo_for_fee l = Raise e <-> e = EAttribute /\ exists u, Least l u /\ u_commitment u = None).
Proof.
  intros l. assert (UN : forall u v, Least l u -> Least l v -> u = v).
  { intros u v (p & q & E & B & P & Q) (p' & q' & E' & B' & P' & Q'). rewrite E in E'. clear E. revert p' E' P'. induction p as [|x p IH]; intros [|x' p'] E' P'; cbn [app] in E'.
    - injection E' as -> _. reflexivity.
    - injection E' as -> ->. assert (X1 := Q v ltac:(apply in_or_app; right; left; reflexivity) B'). assert (X2 := P' x' ltac:(left; reflexivity) B). lia.
    - injection E' as -> <-. assert (X1 := Q' u ltac:(apply in_or_app; right; left; reflexivity) B). assert (X2 := P v ltac:(left; reflexivity) B'). lia.
    - injection E' as -> E'. apply (IH ltac:(intros w W; apply P; right; exact W) p' E'). intros w W. apply P'. right. exact W. }
  assert (F := find_least l). unfold find_utxo_for_fee. change (fun u => FIXED_FEE_SATOSHI * 2 <=? u_amount u) with big. destruct (find big (sorted l)) as [w|].
  - assert (NE : ~ forall u, In u l -> u_amount u < 20000). { intros X. destruct F as (p & q & -> & B & _). specialize (X w ltac:(apply in_or_app; right; left; reflexivity)). lia. }
    destruct (u_commitment w) as [c|] eqn:C; (split; [|split]).
    + intros u. split; [intros E; apply Ok_inj in E; injection E as <-; split; [exact F|congruence]|]. intros [L _]. rewrite (UN u w L F). reflexivity.
    + split; [discriminate|contradiction].
    + intros e. split; [discriminate|]. intros (_ & u & L & N). rewrite (UN u w L F) in N. congruence.
    + intros u. split; [discriminate|]. intros [L N]. rewrite (UN u w L F) in N. congruence.
    + split; [discriminate|contradiction].
    + intros e. split; [intros E; injection E as <-; split; [reflexivity|exists w; auto]|]. intros [-> _]. reflexivity.
  - assert (NL : forall u, ~ Least l u). { intros u (p & q & -> & B & _). specialize (F u ltac:(apply in_or_app; right; left; reflexivity)). lia. }
    split; [|split].
    + intros u. split; [discriminate|]. intros [L _]. destruct (NL u L).
    + split; [intros _; exact F|reflexivity].
    + intros e. split; [discriminate|]. intros (_ & u & L & _). destruct (NL u L).
Qed.

(** * Runs over the toy library *)
(** a blinded output, with the range proof for its owner *)
Definition sw_key : bytes := b32 4242.
Definition sw_out (asset : bytes) (amount : Z) (bf abf script : bytes) : txout :=
  let g := be_val asset + be_val abf in mkTxOut (x08 :: b32 (amount * (g mod toy_order) + be_val bf)) script (x0a :: b32 g) [].
Definition sw_proof (asset : bytes) (amount : Z) (bf abf : bytes) : bytes := sw_key ++ bf ++ be_bytes 8 amount ++ asset ++ abf.
Definition sw_fee_asset : bytes := repeat x55 32.
Definition sw_utxo (n asset : _) (amount bf abf : Z) (k : kind) (pub : bytes) : utxo :=
  let o := sw_out asset amount (b32 bf) (b32 abf) [x51] in
  mkUtxo (repeat x44 32) n asset amount (b32 bf) (b32 abf) (Some (nAsset o)) (Some (nValue o)) (mkAddr Elements k false (repeat x77 20)) pub.
Definition sw_me : utxo := sw_utxo 0 asset_T 300 1001 2001 P2WPKH (toy_pub 11).
Definition sw_a1 : utxo := sw_utxo 1 asset_A 700 1002 2002 P2PKH (toy_pub 12).
Definition sw_a2 : utxo := sw_utxo 2 asset_I 500 1003 2003 P2SH (toy_pub 13).
Definition sw_fee : utxo := sw_utxo 3 sw_fee_asset 50000 1004 2004 P2WPKH (toy_pub 14).
Definition sw_spent (u : utxo) : txout := sw_out (u_asset u) (u_amount u) (u_bf u) (u_abf u) [x51].
Definition truth_ok (u : utxo) : bool := let o := sw_spent u in
  match txout_unblind ftoy o sw_key (sw_proof (u_asset u) (u_amount u) (u_bf u) (u_abf u)) with
  | Ok r => match get_descriptor r with Some d => bytes_eqb (d_asset d) (u_asset u) && (d_amount d =? u_amount u) && bytes_eqb (d_bf d) (u_bf u) && bytes_eqb (d_abf d) (u_abf u) | None => false end
  | Raise _ => false end
  && match u_commitment u with Some c => bytes_eqb c (nAsset o) | None => false end
  && negb (bytes_eqb (u_asset u) (zeros 32)) && match gen_generate ftoy (u_asset u) with Some _ => true | None => false end
  && (0 <? u_amount u) && (0 <=? u_vout u) && (u_vout u <? 2 ^ 30).
Lemma truth_ok_Truth u : truth_ok u = true -> Truth ftoy u (sw_spent u).
Proof.
  unfold truth_ok. cbv zeta. intros H. apply andb_prop in H. destruct H as [H H7]. apply andb_prop in H. destruct H as [H H6]. apply andb_prop in H. destruct H as [H H5]. apply andb_prop in H. destruct H as [H H4].
  apply andb_prop in H. destruct H as [H H3]. apply andb_prop in H. destruct H as [H1 H2]. apply Z.ltb_lt in H5, H7. apply Z.leb_le in H6.
  destruct (txout_unblind ftoy (sw_spent u) sw_key _) as [r|e] eqn:R; [|discriminate H1]. destruct (get_descriptor r) as [d|] eqn:D; [|discriminate H1].
  destruct (u_commitment u) as [c|] eqn:C; [|discriminate H2]. apply bytes_eqb_eq in H2. subst c. apply negb_true_iff in H3.
  apply andb_prop in H1. destruct H1 as [H1 D4]. apply andb_prop in H1. destruct H1 as [H1 D3]. apply andb_prop in H1. destruct H1 as [D1 D2]. apply bytes_eqb_eq in D1, D3, D4. apply Z.eqb_eq in D2.
  constructor.
  - unfold descriptor. rewrite <- D1, <- D2, <- D3, <- D4. replace (mkDesc (d_asset d) (d_amount d) (d_bf d) (d_abf d)) with d by (destruct d; reflexivity).
    eapply D_unblinded; [exact R|exact D|]. intros a [E _]. discriminate E.
  - discriminate.
  - exact C.
  - split; [intros E; rewrite E in H3; rewrite (proj2 (bytes_eqb_eq _ _) eq_refl) in H3; discriminate H3|]. intros E. rewrite E in H4. discriminate H4.
  - exact H5.
  - lia.
Qed.
Definition sw_legacy : bytes -> tx -> Z -> Z -> res (bytes * bool) := legacy_sighash (c_hash ftoy).
Definition sw_h160 (x : bytes) : bytes := firstn 20 (c_hash ftoy x).
Definition sw_sign (k h : bytes) : bytes := firstn 70 (c_hash ftoy (k ++ h) ++ c_hash ftoy h).
Definition sw_dw : default_wit := fun ins outs => mkTxWit (map (fun _ => inwit_null) ins) (map (fun _ => outwit_null) outs).
Definition sw_addr (key : Z) (payload : byte) : addr := mkAddr Elements P2PKH true (toy_pub key ++ repeat payload 20).
Definition sw_alice : addr := sw_addr 21 x61.
Definition sw_bob1 : addr := sw_addr 22 x62.
Definition sw_bob2 : addr := sw_addr 23 x63.
Definition sw_change : addr := sw_addr 24 x64.
Definition sw_mine : bytes := nAsset (sw_spent sw_me).
Definition sw_coms : list bytes := map (fun u => nAsset (sw_spent u)) [sw_a1; sw_a2; sw_fee].
(** whatever address Bob takes for Alice's, and Alice for Bob's first *)
Definition run1 (aa : addr) : turn := bob_offers ftoy sw_dw 2 (fit_rand 77) sw_me aa sw_coms.
Definition run2 (m1 : bytes) (ba : addr) : turn :=
  alice_signs ftoy sw_dw sw_legacy sw_h160 sw_sign (fit_rand 5555) sw_a1 sw_a2 sw_fee (u_asset sw_fee) sw_change (b32 21) (mkOffer (u_asset sw_me) (u_amount sw_me)) m1 [ba; sw_bob2] sw_mine.
Definition run3 (m2 : bytes) : turn := bob_signs ftoy sw_dw sw_legacy sw_h160 sw_sign sw_me [b32 22; b32 23]
  [mkOffer (u_asset sw_a1) (u_amount sw_a1); mkOffer (u_asset sw_a2) (u_amount sw_a2)] m2.
Definition pays_none (t : tx) (a : addr) : bool := forallb (fun o => match to_scriptPubKey a with Ok s => negb (bytes_eqb s (scriptPubKey o)) | Raise _ => true end) (vout t).
Definition swapped (aa ba : addr) (lost : list addr) : bool :=
  match run1 aa with Sends t1 m1 =>
    match run2 m1 ba with Sends t2 m2 =>
      match run3 m2 with Sends t3 m3 =>
        match nth_error (vout t3) 3 with Some o => negb (Byte.eqb (hd x00 (nAsset o)) x01) | None => false end
        && node_check ftoy toy_verifier (map sw_spent [sw_me; sw_a1; sw_a2; sw_fee]) t3
        && match alice_broadcasts sw_dw t2 m3 with Some _ => true | None => false end
        && forallb (pays_none t3) lost
      | _ => false end
    | _ => false end
  | _ => false end.
Lemma run1_eq aa : run1 aa = bob_offers ftoy sw_dw 2 (fit_rand 77) sw_me aa sw_coms. Proof. unfold run1. reflexivity. Qed.
Lemma run2_eq m1 ba : run2 m1 ba = alice_signs ftoy sw_dw sw_legacy sw_h160 sw_sign (fit_rand 5555) sw_a1 sw_a2 sw_fee (u_asset sw_fee) sw_change (b32 21) (mkOffer (u_asset sw_me) (u_amount sw_me)) m1 [ba; sw_bob2] sw_mine.
Proof. unfold run2. reflexivity. Qed.
Lemma run3_eq m2 : run3 m2 = bob_signs ftoy sw_dw sw_legacy sw_h160 sw_sign sw_me [b32 22; b32 23]
  [mkOffer (u_asset sw_a1) (u_amount sw_a1); mkOffer (u_asset sw_a2) (u_amount sw_a2)] m2.
Proof. unfold run3. reflexivity. Qed.
Lemma swapped_runs aa ba lost : swapped aa ba lost = true -> exists t1 m1 t2 m2 t3 m3 t4, run1 aa = Sends t1 m1 /\ run2 m1 ba = Sends t2 m2 /\ run3 m2 = Sends t3 m3
  /\ (forall o, nth_error (vout t3) 3 = Some o -> hd x00 (nAsset o) <> x01)
  /\ node_check ftoy toy_verifier [sw_spent sw_me; sw_spent sw_a1; sw_spent sw_a2; sw_spent sw_fee] t3 = true
  /\ alice_broadcasts sw_dw t2 m3 = Some t4 /\ (forall a, In a lost -> forall j, ~ PaysTo t3 j a).
Proof.
  unfold swapped. intros H. destruct (run1 aa) as [t1 m1|w|e]; [|discriminate H|discriminate H]. destruct (run2 m1 ba) as [t2 m2|w|e] eqn:R2; [|discriminate H|discriminate H].
  destruct (run3 m2) as [t3 m3|w|e] eqn:R3; [|discriminate H|discriminate H]. apply andb_prop in H. destruct H as [H H4]. apply andb_prop in H. destruct H as [H H3]. apply andb_prop in H. destruct H as [H1 H2].
  destruct (alice_broadcasts sw_dw t2 m3) as [t4|] eqn:AB; [|discriminate H3].
  exists t1, m1, t2, m2, t3, m3, t4. split; [reflexivity|]. split; [exact R2|]. split; [exact R3|]. split.
  { intros o E. rewrite E in H1. intros X. rewrite X in H1. discriminate H1. }
  split; [exact H2|]. split; [exact AB|]. intros a A j (o & EO & ES). rewrite forallb_forall in H4. specialize (H4 a A). unfold pays_none in H4. rewrite forallb_forall in H4.
  specialize (H4 o (nth_error_In _ _ EO)). rewrite ES, (proj2 (bytes_eqb_eq _ _) eq_refl) in H4. discriminate H4.
Qed.
Lemma sw_full : FullNull sw_dw.
Proof.
  intros ins outs. split; [|split; apply map_length]. split; cbn [sw_dw vtxinwit vtxoutwit]; apply Forall_forall; intros w IN; apply in_map_iff in IN; destruct IN as (x & <- & _); reflexivity.
Qed.
Lemma sw_small : SmallKeys sw_h160 sw_sign [sw_me; sw_a1; sw_a2; sw_fee].
Proof.
  split; [|split].
  - intros x. unfold sw_h160, blen. rewrite firstn_length. cbn [ftoy fit toy c_hash]. rewrite b32_length. reflexivity.
  - intros k h. unfold sw_sign, blen. rewrite firstn_length. lia.
  - assert (Q : forall k, blen (toy_pub k) <= 100). { intros k. unfold toy_pub. cbn [toy sk_pub]. rewrite blen_cons, b32_blen. lia. }
    repeat constructor; apply Q.
Qed.
Lemma sw_truths : Truth ftoy sw_me (sw_spent sw_me) /\ Truth ftoy sw_a1 (sw_spent sw_a1) /\ Truth ftoy sw_a2 (sw_spent sw_a2) /\ Truth ftoy sw_fee (sw_spent sw_fee).
Proof. split; [|split; [|split]]; apply truth_ok_Truth; vm_compute; reflexivity. Qed.
Lemma sw_mine_eq : u_commitment sw_me = Some sw_mine. Proof. unfold sw_mine. reflexivity. Qed.
Lemma sw_coms_eq : alice_commitments sw_a1 sw_a2 sw_fee = Ok sw_coms. Proof. unfold sw_coms. reflexivity. Qed.

(** 300 units against 700 and 500 of two other assets, the fee from 50000 of a fourth: all hypotheses of C86_swap are met. *)
Example C86_ex : exists t1 m1 t2 m2 t3 m3,
  SizesOk ftoy /\ BlindSumLaw ftoy toy_order /\ CodecLaws ftoy /\ VerifierLaws ftoy toy_verifier ftoy_meaning /\ RewindSound ftoy /\ ZeroGen ftoy /\ SmallProofs ftoy
  /\ RewindLaw ftoy /\ KeyLaws ftoy /\ RandOk ftoy (fit_rand 5555) /\ RandOk ftoy (fit_rand 77)
  /\ FullNull sw_dw /\ SmallKeys sw_h160 sw_sign [sw_me; sw_a1; sw_a2; sw_fee] /\ (forall k, fit_rand 5555 k <> zeros 32) /\ (forall k, fit_rand 77 k <> zeros 32)
  /\ Truth ftoy sw_me (sw_spent sw_me) /\ Truth ftoy sw_a1 (sw_spent sw_a1) /\ Truth ftoy sw_a2 (sw_spent sw_a2) /\ Truth ftoy sw_fee (sw_spent sw_fee)
  /\ 10000 < u_amount sw_fee /\ u_commitment sw_me = Some sw_mine /\ alice_commitments sw_a1 sw_a2 sw_fee = Ok sw_coms
  /\ bob_offers ftoy sw_dw 2 (fit_rand 77) sw_me sw_alice sw_coms = Sends t1 m1
  /\ alice_signs ftoy sw_dw sw_legacy sw_h160 sw_sign (fit_rand 5555) sw_a1 sw_a2 sw_fee (u_asset sw_fee) sw_change (b32 21) (mkOffer (u_asset sw_me) (u_amount sw_me)) m1 [sw_bob1; sw_bob2] sw_mine = Sends t2 m2
  /\ bob_signs ftoy sw_dw sw_legacy sw_h160 sw_sign sw_me [b32 22; b32 23] [mkOffer (u_asset sw_a1) (u_amount sw_a1); mkOffer (u_asset sw_a2) (u_amount sw_a2)] m2 = Sends t3 m3
  /\ (forall o, nth_error (vout t3) 3 = Some o -> hd x00 (nAsset o) <> x01).
Proof.
  assert (S : swapped sw_alice sw_bob1 [] = true) by (vm_compute; reflexivity). apply swapped_runs in S. destruct S as (t1 & m1 & t2 & m2 & t3 & m3 & t4 & S1 & S2 & S3 & S4 & _).
  rewrite run1_eq in S1. rewrite run2_eq in S2. rewrite run3_eq in S3. exists t1, m1, t2, m2, t3, m3.
  split; [exact ftoy_sizes|]. split; [exact ftoy_blind_sum|]. split; [exact ftoy_codec|]. split; [exact ftoy_verifies|]. split; [exact ftoy_sound|]. split; [exact ftoy_zerogen|]. split; [exact ftoy_small|].
  split; [exact ftoy_rewind|]. split; [exact ftoy_keys|]. split; [apply fit_rand_ok|]. split; [apply fit_rand_ok|]. split; [exact sw_full|]. split; [exact sw_small|].
  split; [intros k; apply fit_rand_nonzero; split; reflexivity|]. split; [intros k; apply fit_rand_nonzero; split; reflexivity|].
  destruct sw_truths as (T1 & T2 & T3 & T4). split; [exact T1|]. split; [exact T2|]. split; [exact T3|]. split; [exact T4|].
  split; [reflexivity|]. split; [exact sw_mine_eq|]. split; [exact sw_coms_eq|]. split; [exact S1|]. split; [exact S2|]. split; [exact S3|exact S4].
Qed.
(** The change, too, is read by the holder of its address' key: the premises of C86_alice_pays and C86_bob_offers. *)
Example C86_ex_keys : sk_valid ftoy (b32 21) = true /\ blinding_pubkey sw_alice = sk_pub ftoy (b32 21) /\ blinding_pubkey sw_bob1 = sk_pub ftoy (b32 22)
  /\ blinding_pubkey sw_bob2 = sk_pub ftoy (b32 23) /\ blinding_pubkey sw_change = sk_pub ftoy (b32 24) /\ 10000 <= u_amount sw_fee <= money.
Proof. split; [vm_compute; reflexivity|]. split; [vm_compute; reflexivity|]. split; [vm_compute; reflexivity|]. split; [vm_compute; reflexivity|]. split; [vm_compute; reflexivity|]. split; discriminate. Qed.
(** The output for the fee: the second, since 19999 is too little and the last is as big. *)
Example C86_ex_fee : find_utxo_for_fee [sw_utxo 0 sw_fee_asset 90000 1 2 P2PKH []; sw_utxo 1 sw_fee_asset 30000 3 4 P2PKH []; sw_utxo 2 sw_fee_asset 19999 5 6 P2PKH []; sw_utxo 3 sw_fee_asset 30000 7 8 P2PKH []]
  = Ok (Some (sw_utxo 1 sw_fee_asset 30000 3 4 P2PKH [])).
Proof. vm_compute. reflexivity. Qed.

(** * Claims that do not hold *)
(** "What is promised to me goes to the address that I gave": Bob writes another script, with Alice's blinding key; Alice reads the
    output with her key and signs, and the transaction is valid. *)
Theorem C86_alice_script_refuted : exists z V order (G : PointGroup order) (M : Meaning z G) dw ver legacy Hash160 sign randA randB
    me a1 a2 fee p_me p1 p2 p_fee alice_addr other_addr b1 b2 change bkey k1 k2 mine coms t1 t2 t3 m1 m2 m3,
  SizesOk z /\ BlindSumLaw z order /\ CodecLaws z /\ VerifierLaws z V M /\ RewindSound z /\ ZeroGen z
  /\ Truth z me p_me /\ Truth z a1 p1 /\ Truth z a2 p2 /\ Truth z fee p_fee /\ u_commitment me = Some mine /\ alice_commitments a1 a2 fee = Ok coms
  /\ blinding_pubkey alice_addr = sk_pub z bkey
  /\ bob_offers z dw ver randB me other_addr coms = Sends t1 m1
  /\ alice_signs z dw legacy Hash160 sign randA a1 a2 fee (u_asset fee) change bkey (mkOffer (u_asset me) (u_amount me)) m1 [b1; b2] mine = Sends t2 m2
  /\ bob_signs z dw legacy Hash160 sign me [k1; k2] [mkOffer (u_asset a1) (u_amount a1); mkOffer (u_asset a2) (u_amount a2)] m2 = Sends t3 m3
  /\ node_check z V [p_me; p1; p2; p_fee] t3 = true /\ (exists t, alice_broadcasts dw t2 m3 = Some t) /\ forall j, ~ PaysTo t3 j alice_addr.
Proof.
  assert (S : swapped (sw_addr 21 x66) sw_bob1 [sw_alice] = true) by (vm_compute; reflexivity). apply swapped_runs in S.
  destruct S as (t1 & m1 & t2 & m2 & t3 & m3 & t4 & S1 & S2 & S3 & _ & S5 & S6 & S7). rewrite run1_eq in S1. rewrite run2_eq in S2. rewrite run3_eq in S3. destruct sw_truths as (T1 & T2 & T3 & T4).
  exists ftoy, toy_verifier, toy_order, toy_group, ftoy_meaning, sw_dw, 2, sw_legacy, sw_h160, sw_sign, (fit_rand 5555), (fit_rand 77), sw_me, sw_a1, sw_a2, sw_fee,
    (sw_spent sw_me), (sw_spent sw_a1), (sw_spent sw_a2), (sw_spent sw_fee), sw_alice, (sw_addr 21 x66), sw_bob1, sw_bob2, sw_change, (b32 21), (b32 22), (b32 23), sw_mine, sw_coms, t1, t2, t3, m1, m2, m3.
  split; [exact ftoy_sizes|]. split; [exact ftoy_blind_sum|]. split; [exact ftoy_codec|]. split; [exact ftoy_verifies|]. split; [exact ftoy_sound|]. split; [exact ftoy_zerogen|].
  split; [exact T1|]. split; [exact T2|]. split; [exact T3|]. split; [exact T4|]. split; [exact sw_mine_eq|]. split; [exact sw_coms_eq|]. split; [exact (proj1 (proj2 C86_ex_keys))|].
  split; [exact S1|]. split; [exact S2|]. split; [exact S3|]. split; [exact S5|]. split; [exists t4; exact S6|]. apply S7. left. reflexivity.
Qed.
(** The same the other way round: Alice writes another script for what she promised to Bob. *)
Theorem C86_bob_script_refuted : exists z V order (G : PointGroup order) (M : Meaning z G) dw ver legacy Hash160 sign randA randB
    me a1 a2 fee p_me p1 p2 p_fee alice_addr b1 other_addr b2 change bkey k1 k2 mine coms t1 t2 t3 m1 m2 m3,
  SizesOk z /\ BlindSumLaw z order /\ CodecLaws z /\ VerifierLaws z V M /\ RewindSound z /\ ZeroGen z
  /\ Truth z me p_me /\ Truth z a1 p1 /\ Truth z a2 p2 /\ Truth z fee p_fee /\ u_commitment me = Some mine /\ alice_commitments a1 a2 fee = Ok coms
  /\ blinding_pubkey b1 = sk_pub z k1
  /\ bob_offers z dw ver randB me alice_addr coms = Sends t1 m1
  /\ alice_signs z dw legacy Hash160 sign randA a1 a2 fee (u_asset fee) change bkey (mkOffer (u_asset me) (u_amount me)) m1 [other_addr; b2] mine = Sends t2 m2
  /\ bob_signs z dw legacy Hash160 sign me [k1; k2] [mkOffer (u_asset a1) (u_amount a1); mkOffer (u_asset a2) (u_amount a2)] m2 = Sends t3 m3
  /\ node_check z V [p_me; p1; p2; p_fee] t3 = true /\ forall j, ~ PaysTo t3 j b1.
Proof.
  assert (S : swapped sw_alice (sw_addr 22 x66) [sw_bob1] = true) by (vm_compute; reflexivity). apply swapped_runs in S.
  destruct S as (t1 & m1 & t2 & m2 & t3 & m3 & t4 & S1 & S2 & S3 & _ & S5 & S6 & S7). rewrite run1_eq in S1. rewrite run2_eq in S2. rewrite run3_eq in S3. destruct sw_truths as (T1 & T2 & T3 & T4).
  exists ftoy, toy_verifier, toy_order, toy_group, ftoy_meaning, sw_dw, 2, sw_legacy, sw_h160, sw_sign, (fit_rand 5555), (fit_rand 77), sw_me, sw_a1, sw_a2, sw_fee,
    (sw_spent sw_me), (sw_spent sw_a1), (sw_spent sw_a2), (sw_spent sw_fee), sw_alice, sw_bob1, (sw_addr 22 x66), sw_bob2, sw_change, (b32 21), (b32 22), (b32 23), sw_mine, sw_coms, t1, t2, t3, m1, m2, m3.
  split; [exact ftoy_sizes|]. split; [exact ftoy_blind_sum|]. split; [exact ftoy_codec|]. split; [exact ftoy_verifies|]. split; [exact ftoy_sound|]. split; [exact ftoy_zerogen|].
  split; [exact T1|]. split; [exact T2|]. split; [exact T3|]. split; [exact T4|]. split; [exact sw_mine_eq|]. split; [exact sw_coms_eq|]. split; [exact (proj1 (proj2 (proj2 C86_ex_keys)))|].
  split; [exact S1|]. split; [exact S2|]. split; [exact S3|]. split; [exact S5|]. apply S7. left. reflexivity.
Qed.
(** "What Alice sends is what she signed": any transaction without inputs passes, and so does one with other outputs. *)
Theorem C86_final_refuted : exists dw mine bare final other final',
  tx_serialize bare = Ok final /\ vin bare = [] /\ vin mine <> [] /\ alice_broadcasts dw mine final = Some bare
  /\ tx_serialize other = Ok final' /\ vin other = vin mine /\ vout other <> vout mine /\ alice_broadcasts dw mine final' = Some other.
Proof.
  pose (mk := fun ins outs => mkTx ins outs 0 2 (sw_dw ins outs)).
  exists sw_dw, (mk [toy_in0] [toy_out 5 asset_A [x51]]), (mk [] [toy_out 5 asset_A [x51]]).
  exists (match tx_serialize (mk [] [toy_out 5 asset_A [x51]]) with Ok b => b | Raise _ => [] end), (mk [toy_in0] [toy_out 5 asset_A [x52]]),
    (match tx_serialize (mk [toy_in0] [toy_out 5 asset_A [x52]]) with Ok b => b | Raise _ => [] end).
  split; [vm_compute; reflexivity|]. split; [reflexivity|]. split; [discriminate|]. split; [vm_compute; reflexivity|].
  split; [vm_compute; reflexivity|]. split; [reflexivity|]. split; [discriminate|]. vm_compute; reflexivity.
Qed.

Print Assumptions C86_alice.
Print Assumptions C86_alice_pays.
Print Assumptions C86_bob.
Print Assumptions C86_bob_offers.
Print Assumptions C86_signatures.
Print Assumptions C86_swap.
Print Assumptions C86_final.
Print Assumptions C86_fee_utxo.
Print Assumptions C86_alice_script_refuted.
Print Assumptions C86_bob_script_refuted.
Print Assumptions C86_final_refuted.
