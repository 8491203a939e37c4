(** From blind() over the wire to unblind(): property C65. *)
From Verif Require Import Base BaseFacts Serialize TxModel SpecWire TxProofs TxProofs2 PropCodec BlindModel SpecBlind BlindSer MiscModel UnblindModel SpecUnblind
  ToyCrypto ToyUnblind ToyTx PropBlind PropBlindSer PropUnblind.
From Coq Require Import Lia.
Local Open Scope Z_scope.

(** Equal up to lists of null witnesses: the same witness is read at every position. *)
Lemma NullWit_at t i : NullWit (wit t) -> inwit_at t i = mkInWit [] [] [] [] /\ forall j, outwit_at t j = mkOutWit [] [].
Proof.
  intros [A B]. unfold inwit_at, outwit_at. split; [|intros j].
  - destruct (nth_in_or_default i (vtxinwit (wit t)) (mkInWit [] [] [] [])) as [H|H]; [|exact H]. apply (proj1 (Forall_forall _ _) A) in H. exact H.
  - destruct (nth_in_or_default j (vtxoutwit (wit t)) (mkOutWit [] [])) as [H|H]; [|exact H]. apply (proj1 (Forall_forall _ _) B) in H. exact H.
Qed.
Lemma same_tx_at a b : same_tx a b -> vin a = vin b /\ vout a = vout b /\ forall i, inwit_at a i = inwit_at b i /\ outwit_at a i = outwit_at b i.
Proof.
  intros (A & B & _ & _ & W). split; [exact A|]. split; [exact B|]. intros i. destruct W as [W|[W1 W2]].
  - unfold inwit_at, outwit_at. rewrite W. auto.
  - destruct (NullWit_at a i W1) as [X1 X2]. destruct (NullWit_at b i W2) as [Y1 Y2]. rewrite X1, X2, Y1, Y2. auto.
Qed.

(** C65. The receiver, given only the serialised transaction and the blinding key, reads asset, amount and factors. *)
Theorem C65_receiver_wire : forall z rand args t n bfs abfs s j key o u a dw,
  SizesOk z -> SmallProofs z -> RandOk z rand -> CodecLaws z -> RewindLaw z -> KeyLaws z -> dw_null dw ->
  wf_fields t -> complete_witness t ->
  blind_transaction z rand args t = (Ret (BSuccess n bfs abfs), s) ->
  n = (length (issuance_tasks args t) + length (output_tasks args))%nat ->
  sk_valid z key = true -> nth_error (a_pubkeys args) j = Some (sk_pub z key) ->
  nth_error (vout t) j = Some o -> ExplicitValue (nValue o) u -> u <= max_money -> ExplicitAsset (nAsset o) a ->
  exists wire t', tx_serialize (s_tx s) = Ok wire /\ tx_deserialize dw wire = Ok t'
  /\ exists o' bf abf, nth_error (vout t') j = Some o' /\ nth_error bfs j = Some bf /\ nth_error abfs j = Some abf
     /\ (txout_unblind z o' key (ow_range (outwit_at t' j)) = Ok (UnblindingSuccess a u bf abf)
         \/ (exists pre, output_tasks args = pre ++ [j] /\ o' = o /\ bf = zeros 32 /\ abf = zeros 32 /\ FinalSum z rand args t pre j bfs abfs (zeros 32))).
Proof.
  intros z rand args t n bfs abfs s j key o u a dw SZ SP RO CL RL KL DW WF CW H NE SK EP EO EV LE EA.
  destruct (C53_complete_roundtrip z rand args t dw SZ SP DW WF CW) as (b & t' & S & D & E). rewrite H in S, E. cbn [snd] in S, E.
  exists b, t'. split; [exact S|]. split; [exact D|]. destruct (same_tx_at _ _ E) as (_ & EO' & EW). rewrite <- EO'. destruct (EW j) as [_ <-].
  destruct (C48_receiver_unblinds z rand args t n bfs abfs s j key o u a SZ RO CL RL KL H NE SK EP EO EV EA) as [(o' & bf & abf & A1 & A2 & A3 & A4 & _)|(pre & A0 & A1 & A2 & A3 & A4)].
  - exists o', bf, abf. auto 6.
  - exists o, (zeros 32), (zeros 32). split; [exact A1|]. split; [exact A2|]. split; [exact A3|]. right. exists pre. auto.
Qed.
(** Likewise the issuer, with the issuance blinding key and the asset or token id. *)
Theorem C65_issuer_wire : forall z rand args t n bfs abfs s i ps key inp u e script dw,
  SizesOk z -> SmallProofs z -> RandOk z rand -> CodecLaws z -> RewindLaw z -> dw_null dw ->
  wf_fields t -> complete_witness t ->
  blind_transaction z rand args t = (Ret (BSuccess n bfs abfs), s) ->
  n = (length (issuance_tasks args t) + length (output_tasks args))%nat ->
  nth i (if ps : bool then a_token_keys args else a_asset_keys args) None = Some key -> blen key = 32 ->
  nth_error (vin t) i = Some inp -> ExplicitValue (iss_field ps inp) u -> u <= max_money -> EntropyOf z inp e ->
  let asset := c_mid z (e ++ tag32 (if ps then x02 else x00)) in
  exists wire t' inp' k, tx_serialize (s_tx s) = Ok wire /\ tx_deserialize dw wire = Ok t'
    /\ nth_error (vin t') i = Some inp' /\ nth_error (issuance_tasks args t) k = Some (i, ps)
    /\ unblind_confidential_pair z key (iss_field ps inp') (x01 :: asset) [] script (iss_proof ps (inwit_at t' i))
       = Ok (UnblindingSuccess asset u (rand k) (zeros 32)).
Proof.
  intros z rand args t n bfs abfs s i ps key inp u e script dw SZ SP RO CL RL DW WF CW H NE EK LK EI EV LE EE asset.
  destruct (C53_complete_roundtrip z rand args t dw SZ SP DW WF CW) as (b & t' & S & D & E). rewrite H in S, E. cbn [snd] in S, E.
  destruct (same_tx_at _ _ E) as (EI' & _ & EW).
  destruct (C49_issuer_unblinds z rand args t n bfs abfs s i ps key inp u e script SZ RO CL RL H NE EK LK EI EV EE) as (inp' & k & A1 & A2 & A3).
  cbv zeta in A3. exists b, t', inp', k. split; [exact S|]. split; [exact D|]. rewrite <- EI'. destruct (EW i) as [<- _].
  split; [exact A1|]. split; [exact A2|]. apply A3, LE.
Qed.

(** A library whose proofs are bounded, and that satisfies all the laws together: the toy one, refusing to sign long proofs. *)
Definition bounded (z : Crypto) : Crypto := mkCrypto (c_hash z) (c_sha z) (c_mid z) (gen_parse z) (gen_generate z) (gen_generate_blinded z)
  (gen_serialize z) (ped_commit z) (ped_serialize z) (ped_parse z) (blind_sum z)
  (fun m c b n e bits v msg x g => match rp_sign z m c b n e bits v msg x g with Some p => if blen p <=? 5134 then Some p else None | None => None end)
  (rp_rewind z) (sp_init z) (sp_generate z) (sp_verify z) (fun p => firstn 400 (sp_serialize z p))
  (pk_fullyvalid z) (sk_valid z) (sk_pub z) (ecdh z).
Lemma bounded_sign z m c b n e bits v msg x g p : rp_sign (bounded z) m c b n e bits v msg x g = Some p ->
  rp_sign z m c b n e bits v msg x g = Some p /\ blen p <= 5134.
Proof.
  cbn [bounded rp_sign]. destruct (rp_sign z m c b n e bits v msg x g) as [q|]; [|discriminate]. destruct (Z.leb_spec (blen q) 5134); [|discriminate].
  intros E. assert (q = p) by congruence. subst q. auto.
Qed.
Lemma bounded_small z : SmallProofs (bounded z).
Proof.
  split; [|intros p; apply firstn_small]. intros m c b n e bits v msg x g p H. apply bounded_sign in H. unfold small. lia.
Qed.
Lemma bounded_sizes z : SizesOk z -> SizesOk (bounded z).
Proof. intros [A B C D E F G H I J K]. constructor; assumption. Qed.
Lemma bounded_codec z : CodecLaws z -> CodecLaws (bounded z).
Proof. intros [A B C D E F]. constructor; assumption. Qed.
Lemma bounded_keys z : KeyLaws z -> KeyLaws (bounded z).
Proof. intros [A B]. constructor; assumption. Qed.
Lemma bounded_rewind z : RewindLaw z -> RewindLaw (bounded z).
Proof. intros R m c b n e bits v msg x g p A B C D E F. apply bounded_sign in F. exact (R m c b n e bits v msg x g p A B C D E (proj1 F)). Qed.
Definition reads (wire : res bytes) (dw : default_wit) (f : tx -> bool) : bool :=
  match wire with Ok b => match tx_deserialize dw b with Ok t => f t | Raise _ => false end | Raise _ => false end.
Definition wire_after : res bytes := tx_serialize (s_tx (snd (blind_transaction (bounded toy) toy_rand toy_args toy_complete))).
Example C65_ex : SizesOk (bounded toy) /\ SmallProofs (bounded toy) /\ RandOk (bounded toy) toy_rand /\ CodecLaws (bounded toy) /\ RewindLaw (bounded toy)
  /\ KeyLaws (bounded toy) /\ wf_fields toy_complete /\ complete_witness toy_complete
  /\ ret_is (fun r => match r with BSuccess n _ _ => (n =? 6)%nat | _ => false end) (blind_transaction (bounded toy) toy_rand toy_args toy_complete) = true
  /\ (length (issuance_tasks toy_args toy_complete) + length (output_tasks toy_args) = 6)%nat
  /\ nth_error (vout toy_complete) 0 = Some (toy_out 700 asset_A [x51])
  /\ reads wire_after (fun _ _ => mkTxWit [] []) (fun t => is_success asset_A 700 (unblind_at t 0 (b32 901))) = true
  /\ nth_error (vin toy_complete) 1 = Some toy_in1
  /\ reads wire_after (fun _ _ => mkTxWit [] []) (fun t => match nth_error (vin t) 1 with Some i' =>
        is_success asset_I 500 (unblind_confidential_pair toy (b32 5001) (iss_field false i') (x01 :: asset_I) [] [] (iss_proof false (inwit_at t 1))) | None => false end) = true.
Proof.
  split; [apply bounded_sizes, toy_sizes|]. split; [apply bounded_small|]. split; [exact toy_rand_ok|]. split; [apply bounded_codec, toy_codec|].
  split; [apply bounded_rewind, toy_rewind|]. split; [apply bounded_keys, toy_keys|]. split; [apply C53_ex|]. split; [apply C53_ex|].
  split; [vm_compute; reflexivity|]. split; [reflexivity|]. split; [reflexivity|]. split; [vm_compute; reflexivity|]. split; [reflexivity|]. vm_compute; reflexivity.
Qed.

Print Assumptions C65_receiver_wire.
Print Assumptions C65_issuer_wire.
