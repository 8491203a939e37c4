(** Property C90: what the program examples/unblind.py prints. *)
From Coq Require Import Strings.String.
From Verif Require Import Base BaseFacts Serialize TxModel MiscModel BlindModel UnblindModel WalletModel SpecWire SpecBlind SpecUnblind BlindFacts TxProofs TxProofs2 PropCodec BlindSer FaultProofs PropBlind PropBlindSer PropUnblind PropEndToEnd
  PropWallet SpecBalance SpecMulti SpecNode CrossModel CrossTxModel ViewModel SpecView ViewProofs ToyCrypto ToyUnblind ToyNode ToyFit ToyTx SpecSwap SwapModel PropSwap PropClaim ToyCurve PropCross PropCrossTx.
From Coq Require Import Lia.
Local Open Scope Z_scope.

(** bitcointx finds payloads of the right size. *)
Definition FindsAddresses (find : bytes -> option (kind * bytes)) : Prop := forall s k d, find s = Some (k, d) -> payload_of k (blen d).
Lemma key_facts z bkey : SizesOk z -> KeyLaws z -> sk_valid z bkey = true -> pk_fullyvalid z (sk_pub z bkey) = true /\ blen (sk_pub z bkey) = 33.
Proof.
  intros SZ KL SK. split; [exact (kl_valid z KL _ SK)|]. destruct (so_pub z SZ _ SK) as (d & L & [-> | ->]); rewrite blen_cons, L; reflexivity.
Qed.
(** Exactly what is printed, and with which exception the program ends, if it does. *)
Theorem C90_exact : forall z dw cur find rp_info raw bkey t l e, SizesOk z -> KeyLaws z -> FindsAddresses find ->
  tx_deserialize dw raw = Ok t -> sk_valid z bkey = true ->
  unblind_program z dw cur find rp_info raw bkey = (LBlank :: l, e) <-> Prints z cur find rp_info t bkey 0 (vout t) l e.
Proof.
  intros z dw cur find rp_info raw bkey t l e SZ KL FO D SK. destruct (key_facts _ _ SZ KL SK) as [FV L33].
  unfold unblind_program, key_pub. rewrite D, SK. cbn [bindP]. destruct (show_outputs_spec z cur find rp_info bkey FV L33 FO t (vout t) 0) as (l' & e' & P & E). rewrite E. unfold say. cbn [fst snd]. split.
  - intros H. injection H as <- <-. exact P.
  - intros H. destruct (prints_fun _ _ _ _ _ FO _ _ _ _ _ P _ _ H) as [-> ->]. reflexivity.
Qed.
Theorem C90_refuses : forall z dw cur find rp_info raw bkey e,
  tx_deserialize dw raw = Raise e \/ (exists t, tx_deserialize dw raw = Ok t) /\ sk_valid z bkey = false /\ e = EValue ->
  unblind_program z dw cur find rp_info raw bkey = ([], Some e).
Proof. intros z dw cur find rp_info raw bkey e H. unfold unblind_program, key_pub. destruct H as [->|((t & ->) & -> & ->)]; reflexivity. Qed.

(** * What is printed is true *)
Definition not_heading (x : line) : Prop := match x with LVout _ _ => False | _ => True end.
Lemma split_block x b : Forall not_heading b -> forall rest pre n h post, (x :: b) ++ rest = pre ++ LVout n h :: post ->
  (pre = [] /\ x = LVout n h /\ post = b ++ rest) \/ exists pre', rest = pre' ++ LVout n h :: post.
Proof.
  intros F rest pre n h post E. destruct pre as [|y pre].
  - left. cbn [app] in E. injection E as E1 E2. auto.
  - right. cbn [app] in E. injection E as _ E. revert pre E. induction F as [|w b N F IH]; intros pre E; [exists pre; exact E|].
    destruct pre as [|y' pre]; cbn [app] in E; injection E as E1 E2; [subst w; contradiction|exact (IH _ E2)].
Qed.
Lemma shown_block z cur find rp_info t bkey n o l : Shown z cur find rp_info t bkey n o l -> exists h b, l = LVout n h :: b /\ Forall not_heading b.
Proof.
  intros [v a H1 H2 H3 H4|v a k d H1 H2 H3 H4 H5|e k d r H1 H2 H3|asset v bf abf k d H1 H2]; eexists _, _; (split; [reflexivity|]); try (repeat constructor; fail).
  constructor; [exact I|]. apply Forall_app. split; [|repeat constructor]. unfold Revealed in H3. destruct (nth_error _ n) as [w|]; [|contradiction].
  destruct (rp_info (ow_range w)) as [[[[x m] lo] hi]|]; [destruct H3 as [[_ ->]|[_ ->]]; repeat constructor|subst r; constructor].
Qed.
Lemma stops_block z cur find t bkey n o l e : Stops z cur find t bkey n o l e -> l = [] \/ exists h b, l = LVout n h :: b /\ Forall not_heading b.
Proof. intros []; auto; right; eexists _, _; (split; [reflexivity|repeat constructor]). Qed.
Lemma printed_at z cur find rp_info t bkey n0 outs l e : Prints z cur find rp_info t bkey n0 outs l e -> forall pre n h post, l = pre ++ LVout n h :: post ->
  exists o, (n0 <= n)%nat /\ nth_error outs (n - n0) = Some o
  /\ ((exists b rest, Shown z cur find rp_info t bkey n o (LVout n h :: b) /\ post = b ++ rest) \/ exists x, Stops z cur find t bkey n o (LVout n h :: post) x).
Proof.
  induction 1 as [n0|n0 o outs b rest e S P IH|n0 o outs b e S]; intros pre n h post E.
  - destruct pre; discriminate E.
  - destruct (shown_block _ _ _ _ _ _ _ _ _ S) as (h0 & b0 & -> & F). destruct (split_block _ _ F _ _ _ _ _ E) as [(-> & E1 & E2)|(pre' & E')].
    + injection E1 as -> ->. exists o. split; [lia|]. rewrite Nat.sub_diag. split; [reflexivity|]. left. exists b0, rest. auto.
    + destruct (IH _ _ _ _ E') as (o' & L & EO & R). exists o'. split; [lia|]. split; [|exact R]. replace (n - n0)%nat with (Datatypes.S (n - Datatypes.S n0)) by lia. exact EO.
  - destruct (stops_block _ _ _ _ _ _ _ _ _ S) as [->|(h0 & b0 & -> & F)]; [destruct pre; discriminate E|]. rewrite <- (app_nil_r (LVout n0 h0 :: b0)) in E.
    destruct (split_block _ _ F _ _ _ _ _ E) as [(-> & E1 & E2)|(pre' & E')]; [|destruct pre'; discriminate E'].
    injection E1 as -> ->. exists o. split; [lia|]. rewrite Nat.sub_diag. split; [reflexivity|]. right. exists e. rewrite app_nil_r in E2. subst b0. exact S.
Qed.
(** The printed amount and asset of an unblinded output open its commitments with the printed factors; the addresses are those of its script. *)
Theorem C90_true : forall z dw cur find rp_info raw bkey t l e pre n c a v bf asset abf post,
  SizesOk z -> KeyLaws z -> FindsAddresses find -> CodecLaws z -> RewindSound z -> ZeroGen z -> tx_deserialize dw raw = Ok t -> sk_valid z bkey = true ->
  unblind_program z dw cur find rp_info raw bkey = (l, e) ->
  l = pre ++ [LVout n HUnblinded; LDestination; LConfidential c; LUnconfidential a; LAmount v; LFactor bf; LAsset asset; LAssetFactor abf] ++ post ->
  exists o gen commit, nth_error (vout t) n = Some o /\ gen_generate_blinded z asset abf = Some gen
  /\ (gen_serialize z gen = Some (nAsset o) \/ exists d, ExplicitAsset (nAsset o) d /\ gen_generate z d = Some gen)
  /\ ped_commit z bf v gen = Some commit /\ ped_serialize z commit = Some (nValue o)
  /\ ad_chain a = cur /\ find (scriptPubKey o) = Some (ad_kind a, ad_data a) /\ to_unconfidential c = Ok a /\ blinding_pubkey c = sk_pub z bkey.
Proof.
  intros z dw cur find rp_info raw bkey t l e pre n c a v bf asset abf post SZ KL FO CL RS ZG D SK H E.
  assert (H' := H). unfold unblind_program, key_pub in H'. rewrite D, SK in H'. cbn [bindP] in H'. unfold say in H'. injection H' as EL _. rewrite <- EL in H, E. apply (C90_exact _ _ _ _ _ _ _ _ _ _ SZ KL FO D SK) in H.
  destruct pre as [|x pre]; cbn [app] in E; [discriminate E|]. injection E as _ E.
  destruct (printed_at _ _ _ _ _ _ _ _ _ _ H _ _ _ _ E) as (o & _ & EO & R). rewrite Nat.sub_0_r in EO. exists o.
  destruct R as [(b & rest & S & EP)|(x' & S)].
  2:{ inversion S. }
  inversion S as [| | |asset' v' bf' abf' k d AN FI EB]. subst b. cbn [app] in EP. injection EP as -> -> -> -> -> -> _.
  destruct AN as [_ AN]. destruct (nth_error (vtxoutwit (wit t)) n) as [w|]; [|discriminate AN]. symmetry in AN.
  destruct (C50_opening _ _ _ _ _ _ _ _ _ _ _ CL RS ZG AN) as (gen & commit & G1 & G2 & G3 & G4). exists gen, commit. split; [exact EO|]. split; [exact G1|]. split; [exact G2|]. split; [exact G3|]. split; [exact G4|].
  split; [reflexivity|]. split; [exact FI|]. destruct (key_facts _ _ SZ KL SK) as [FV L33].
  assert (FC := conf_of z cur find rp_info bkey FV L33 FO _ _ _ FI). apply C38_lossless in FC.
  - destruct FC as (_ & _ & U & B & _). auto.
  - unfold valid_addr. cbn [ad_kind ad_data ad_conf]. rewrite Z.sub_0_r. exact (FO _ _ _ FI).
  - intros X. rewrite X in L33. discriminate L33.
Qed.

(** * The receiver finds what was sent *)
Lemma prints_reach z cur find rp_info t bkey n0 outs l e : Prints z cur find rp_info t bkey n0 outs l e -> forall j o, nth_error outs j = Some o ->
  (exists i o' l0 x, (i < j)%nat /\ nth_error outs i = Some o' /\ Stops z cur find t bkey (n0 + i) o' l0 x)
  \/ (exists l0 x, Stops z cur find t bkey (n0 + j) o l0 x) \/ exists pre b post, Shown z cur find rp_info t bkey (n0 + j) o b /\ l = pre ++ b ++ post.
Proof.
  induction 1 as [n0|n0 o outs b rest e S P IH|n0 o outs b e S]; intros j x E; [destruct j; discriminate E| |].
  - destruct j as [|j]; cbn [nth_error] in E.
    + injection E as <-. rewrite Nat.add_0_r. right. right. exists [], b, rest. auto.
    + destruct (IH j x E) as [(i & o' & l0 & y & L & EI & ST)|[(l0 & y & ST)|(pre & b' & post & SH & ->)]].
      * left. exists (Datatypes.S i), o', l0, y. split; [lia|]. split; [exact EI|]. replace (n0 + Datatypes.S i)%nat with (Datatypes.S n0 + i)%nat by lia. exact ST.
      * right. left. exists l0, y. replace (n0 + Datatypes.S j)%nat with (Datatypes.S n0 + j)%nat by lia. exact ST.
      * right. right. exists (b ++ pre), b', post. replace (n0 + Datatypes.S j)%nat with (Datatypes.S n0 + j)%nat by lia. split; [exact SH|]. rewrite <- app_assoc. reflexivity.
  - destruct j as [|j]; cbn [nth_error] in E.
    + injection E as <-. right. left. exists b, e. rewrite Nat.add_0_r. exact S.
    + left. exists 0%nat, o, b, e. split; [lia|]. split; [reflexivity|]. rewrite Nat.add_0_r. exact S.
Qed.
Theorem C90_owner : forall z rand args t n bfs abfs s j key o u a dw cur find rp_info k d,
  SizesOk z -> SmallProofs z -> RandOk z rand -> CodecLaws z -> RewindLaw z -> KeyLaws z -> FindsAddresses find -> dw_null dw ->
  wf_fields t -> complete_witness t ->
  blind_transaction z rand args t = (Ret (BSuccess n bfs abfs), s) ->
  n = (length (issuance_tasks args t) + length (output_tasks args))%nat ->
  sk_valid z key = true -> nth_error (a_pubkeys args) j = Some (sk_pub z key) ->
  nth_error (vout t) j = Some o -> ExplicitValue (nValue o) u -> u <= 2100000000000000 -> ExplicitAsset (nAsset o) a -> scriptPubKey o <> [] -> find (scriptPubKey o) = Some (k, d) ->
  exists raw t' l e, tx_serialize (s_tx s) = Ok raw /\ tx_deserialize dw raw = Ok t' /\ unblind_program z dw cur find rp_info raw key = (LBlank :: l, e)
  /\ ((exists i o' l0 x, (i < j)%nat /\ nth_error (vout t') i = Some o' /\ Stops z cur find t' key i o' l0 x)
      \/ (exists bf abf pre post, nth_error bfs j = Some bf /\ nth_error abfs j = Some abf /\ l = pre ++ [LVout j HUnblinded; LDestination;
           LConfidential (mkAddr cur k true (sk_pub z key ++ d)); LUnconfidential (mkAddr cur k false d); LAmount u; LFactor bf; LAsset a; LAssetFactor abf; LBlank] ++ post)
      \/ (exists pre post, l = pre ++ [LVout j HExplicit; LAddress (mkAddr cur k false d); LAmount u; LAsset a; LBlank] ++ post)).
Proof.
  intros z rand args t n bfs abfs s j key o u a dw cur find rp_info k d SZ SP RO CL RL KL FO DW WF CW H NE SK EP EO EV LE EA NS FI.
  destruct (C65_receiver_wire z rand args t n bfs abfs s j key o u a dw SZ SP RO CL RL KL DW WF CW H NE SK EP EO EV LE EA) as (raw & t' & SE & D & o' & bf & abf & EO' & EB & EAB & R).
  assert (SC : scriptPubKey o' = scriptPubKey o).
  { destruct (C53_complete_roundtrip z rand args t dw SZ SP DW WF CW) as (b2 & t2 & S2 & D2 & E2). rewrite H in S2, E2. cbn [snd] in S2, E2. assert (b2 = raw) by congruence. subst b2. assert (t2 = t') by congruence. subst t2.
    destruct (same_tx_at _ _ E2) as (_ & EV2 & _). rewrite <- EV2 in EO'. assert (F := BlindFrame.blind_transaction_frame z rand args t). rewrite H in F. cbn [snd] in F.
    destruct (SwapProofs.frame_script _ _ _ _ _ F EO) as (o2 & X1 & X2 & _). congruence. }
  destruct (key_facts _ _ SZ KL SK) as [FV L33].
  destruct (show_outputs_spec z cur find rp_info key FV L33 FO t' (vout t') 0) as (l & e & P & E). exists raw, t', l, e. split; [exact SE|]. split; [exact D|].
  split; [apply (C90_exact _ _ _ _ _ _ _ _ _ _ SZ KL FO D SK); exact P|].
  assert (SH : exists b, Shown z cur find rp_info t' key j o' b
    /\ (b = [LVout j HUnblinded; LDestination; LConfidential (mkAddr cur k true (sk_pub z key ++ d)); LUnconfidential (mkAddr cur k false d); LAmount u; LFactor bf; LAsset a; LAssetFactor abf; LBlank]
        \/ b = [LVout j HExplicit; LAddress (mkAddr cur k false d); LAmount u; LAsset a; LBlank])).
  { destruct R as [UB|(pre & _ & -> & -> & -> & _)].
    - eexists. split; [apply sh_unblinded|left; reflexivity]; [|rewrite SC; exact FI]. destruct (C50_success_facts _ _ _ _ _ _ _ _ _ _ _ UB) as (NP & _ & (p & dd & VC & _ & PC) & _). split.
      + intros v (d0 & X & _). rewrite X in VC. injection VC as <- _. destruct PC as [PC|PC]; discriminate PC.
      + unfold outwit_at in NP, UB. destruct (nth_error (vtxoutwit (wit t')) j) as [w|] eqn:EW; [rewrite (nth_error_nth _ _ _ EW) in UB; symmetry; exact UB|].
        exfalso. apply NP. rewrite nth_overflow by (apply nth_error_None; exact EW). reflexivity.
    - eexists. split; [eapply sh_explicit; eassumption|right; reflexivity]. }
  destruct SH as (b & SH & EB2). destruct (prints_reach _ _ _ _ _ _ _ _ _ _ P j o' EO') as [X|[(l0 & x & ST)|(pre & b' & post & SH' & ->)]].
  - left. exact X.
  - exfalso. exact (shown_stops _ _ _ _ _ FO _ _ _ _ _ _ SH ST).
  - right. assert (b' = b) by exact (shown_fun _ _ _ _ _ _ _ _ _ _ SH' SH). subst b'. destruct EB2 as [-> | ->]; [left; exists bf, abf, pre, post; auto|right; exists pre, post; auto].
Qed.

(** * When it comes to an end: unless unblinding raises an exception (see C50_no_exception), exactly if every output has an address or is a fee,
    and every explicit value comes with an explicit asset and is within the range of money *)
Theorem C90_ends : forall z dw cur find rp_info raw bkey t, SizesOk z -> KeyLaws z -> FindsAddresses find ->
  tx_deserialize dw raw = Ok t -> sk_valid z bkey = true -> length (vtxoutwit (wit t)) = length (vout t) ->
  (forall n o w, nth_error (vout t) n = Some o -> nth_error (vtxoutwit (wit t)) n = Some w -> exists r, txout_unblind z o bkey (ow_range w) = Ok r) ->
  (exists l, unblind_program z dw cur find rp_info raw bkey = (LBlank :: l, None))
  <-> forall o, In o (vout t) -> (find (scriptPubKey o) <> None \/ scriptPubKey o = [] /\ exists v, ExplicitValue (nValue o) v)
      /\ forall v, ExplicitValue (nValue o) v -> v <= 2100000000000000 /\ exists a, ExplicitAsset (nAsset o) a.
Proof.
  intros z dw cur find rp_info raw bkey t SZ KL FO D SK LW NX. destruct (key_facts _ _ SZ KL SK) as [FV L33]. split.
  - intros (l & H). apply (C90_exact _ _ _ _ _ _ _ _ _ _ SZ KL FO D SK) in H. 
    assert (Q : forall n outs l e, Prints z cur find rp_info t bkey n outs l e -> e = None -> forall o, In o outs -> (find (scriptPubKey o) <> None \/ scriptPubKey o = [] /\ exists v, ExplicitValue (nValue o) v)
      /\ forall v, ExplicitValue (nValue o) v -> v <= 2100000000000000 /\ exists a, ExplicitAsset (nAsset o) a); [|exact (Q _ _ _ _ H eq_refl)]. clear H l.
    intros n outs l e H EE. induction H as [n|n o outs b rest e S P IH|n o outs b e S]; [intros o []| |discriminate EE]. specialize (IH EE). intros o' [<-|IN]; [|exact (IH o' IN)].
    destruct S as [v a X1 X2 X3 X4|v a k d X1 X2 X3 X4 X5|x k d r X1 X2 X3|asset v bf abf k d X1 X2].
    + split; [right; split; [exact X3|eauto]|]. intros w EW. rewrite <- (value_fun _ _ _ X1 EW). split; [exact X4|eauto].
    + split; [left; congruence|]. intros w EW. rewrite <- (value_fun _ _ _ X1 EW). split; [exact X5|eauto].
    + split; [left; congruence|]. intros w EW. exfalso. exact (proj1 X1 _ EW).
    + split; [left; congruence|]. intros w EW. exfalso. exact (proj1 X1 _ EW).
  - intros H. destruct (show_outputs_spec z cur find rp_info bkey FV L33 FO t (vout t) 0) as (l & e & P & _). exists l. apply (C90_exact _ _ _ _ _ _ _ _ _ _ SZ KL FO D SK).
    assert (EN : e = None); [|subst e; exact P].
    assert (Q : forall n outs l e, Prints z cur find rp_info t bkey n outs l e -> (forall i o, nth_error outs i = Some o -> nth_error (vout t) (n + i) = Some o) -> e = None).
    { clear P. intros n outs l0 e0 P. induction P as [n|n o outs b rest x S P IH|n o outs b x S]; intros SUB; [reflexivity| |].
      - apply IH. intros i o' E. replace (Datatypes.S n + i)%nat with (n + Datatypes.S i)%nat by lia. apply SUB. exact E.
      - exfalso. assert (EO := SUB 0%nat o eq_refl). rewrite Nat.add_0_r in EO. destruct (H o (nth_error_In _ _ EO)) as [FN VA].
        assert (NA : forall r, Answer z t bkey n o r -> exists x, r = Ok x).
        { intros r [_ AN]. destruct (nth_error (vtxoutwit (wit t)) n) as [w|] eqn:EW.
          - subst r. exact (NX _ _ _ EO EW).
          - apply nth_error_None in EW. assert (n < length (vout t))%nat by (apply nth_error_Some; congruence). lia. }
        destruct S as [v X1 X2|v a X1 X2 X3 X4|v a X1 X2 X3 X4|v a k d X1 X2 X3 X4 X5|y X1|y X1 X2|asset v bf abf X1 X2].
        + destruct (VA v X1) as (_ & a & EA). exact (X2 a EA).
        + destruct (VA v X1) as (LV & _). unfold coins in X4. lia.
        + destruct FN as [FN|[FN _]]; contradiction.
        + destruct (VA v X1) as (LV & _). unfold coins in X5. lia.
        + destruct (NA _ X1) as [r R]. discriminate R.
        + destruct FN as [FN|[FN (v & EV)]]; [contradiction|]. exact (proj1 X1 _ EV).
        + destruct FN as [FN|[FN (w & EV)]]; [contradiction|]. exact (proj1 X1 _ EV). }
    exact (Q _ _ _ _ P (fun i o E => E)).
Qed.

(** * Runs over the toy library *)
(** The five forms of output script *)
Definition std_find (s : bytes) : option (kind * bytes) :=
  if bytes_eqb (firstn 3 s) [x76; xa9; x14] && bytes_eqb (skipn 23 s) [x88; xac] then Some (P2PKH, firstn 20 (skipn 3 s))
  else if bytes_eqb (firstn 2 s) [xa9; x14] && bytes_eqb (skipn 22 s) [x87] then Some (P2SH, firstn 20 (skipn 2 s))
  else if bytes_eqb (firstn 2 s) [x00; x14] && (length s =? 22)%nat then Some (P2WPKH, skipn 2 s)
  else if bytes_eqb (firstn 2 s) [x00; x20] && (length s =? 34)%nat then Some (P2WSH, skipn 2 s)
  else if bytes_eqb (firstn 2 s) [x51; x20] && (length s =? 34)%nat then Some (P2TR, skipn 2 s) else None.
Lemma std_finds : FindsAddresses std_find.
Proof.
  intros s k d H. unfold std_find in H.
  destruct (bytes_eqb (firstn 3 s) [x76; xa9; x14] && bytes_eqb (skipn 23 s) [x88; xac]) eqn:E1.
  { assert (Q : k = P2PKH /\ d = firstn 20 (skipn 3 s)) by (split; congruence). destruct Q as [-> ->]. apply andb_prop in E1. destruct E1 as [_ E]. apply bytes_eqb_eq in E. apply (f_equal (@List.length byte)) in E. rewrite skipn_length in E. change (List.length [x88; xac]) with 2%nat in E.
    change (blen (firstn 20 (skipn 3 s)) = 20). unfold blen. rewrite firstn_length, skipn_length. lia. }
  clear E1. destruct (bytes_eqb (firstn 2 s) [xa9; x14] && bytes_eqb (skipn 22 s) [x87]) eqn:E1.
  { assert (Q : k = P2SH /\ d = firstn 20 (skipn 2 s)) by (split; congruence). destruct Q as [-> ->]. apply andb_prop in E1. destruct E1 as [_ E]. apply bytes_eqb_eq in E. apply (f_equal (@List.length byte)) in E. rewrite skipn_length in E. change (List.length [x87]) with 1%nat in E.
    change (blen (firstn 20 (skipn 2 s)) = 20). unfold blen. rewrite firstn_length, skipn_length. lia. }
  clear E1.
  repeat match type of H with (if ?b then Some (?K, ?D) else _) = _ => destruct b eqn:E1; [assert (Q : k = K /\ d = D) by (split; congruence); destruct Q as [-> ->]; apply andb_prop in E1; destruct E1 as [_ E]; apply Nat.eqb_eq in E;
    unfold payload_of, blen; rewrite skipn_length, E; reflexivity|clear E1] end.
  discriminate H.
Qed.
Definition vw_info (p : bytes) : option (Z * Z * Z * Z) := match p with [] => None | _ => Some (0, 52, 1, 4503599627370496) end.
Definition vw_script (b : byte) : bytes := [x76; xa9; x14] ++ repeat b 20 ++ [x88; xac].
(** 300 for the key 31, 600 for the key 32, a fee of 100 *)
Definition vw_tx :=
  mkTx [ExampleModel.plain_input (mkOutPoint (repeat x43 32) 7)]
    [mkTxOut (expl 300) (vw_script x61) (x01 :: sw_fee_asset) []; mkTxOut (expl 600) (vw_script x62) (x01 :: sw_fee_asset) []; mkTxOut (expl 100) [] (x01 :: sw_fee_asset) []] 0 2
    (mkTxWit [inwit_null] [outwit_null; outwit_null; outwit_null]).
Definition vw_args : blind_args := mkArgs [mkDesc sw_fee_asset 1000 (b32 1004) (b32 2004)] [toy_pub 31; toy_pub 32; []] [] [] [] None None true.
Definition vw_run := blind_transaction ftoy (fit_rand 909) vw_args vw_tx.
Definition two (r : outcome blind_ret * St) : bool := match fst r with Ret (BSuccess n _ _) => (n =? 2)%nat | _ => false end.
Lemma two_spec r : two r = true -> exists bfs abfs s, r = (Ret (BSuccess 2 bfs abfs), s).
Proof. destruct r as [[u|[n bfs abfs|f]|e] s]; cbn; intros H; try discriminate H. apply Nat.eqb_eq in H. subst n. eauto. Qed.
Definition vw_ok : bool := two vw_run.
Lemma vw_ok_eq : vw_ok = two (blind_transaction ftoy (fit_rand 909) vw_args vw_tx). Proof. unfold vw_ok, vw_run. reflexivity. Qed.
Definition vw_prints (key : Z) (f : printed -> bool) : bool :=
  match tx_serialize (s_tx (snd vw_run)) with Ok raw => f (unblind_program ftoy sw_dw Elements std_find vw_info raw (b32 key)) | Raise _ => false end.
Definition vw_32 (p : printed) : bool :=
  match p with
  | ([LBlank; LVout 0 (HCannot _); LAddress a; LExponent 0; LBits 52; LMinimum 1; LMaximum 4503599627370496; LBlank;
      LVout 1 HUnblinded; LDestination; LConfidential c; LUnconfidential a'; LAmount 600; LFactor _; LAsset s; LAssetFactor _; LBlank;
      LVout 2 HFee; LAmount 100; LAsset s'; LBlank], None) => bytes_eqb (ad_data a) (repeat x61 20) && bytes_eqb (ad_data a') (repeat x62 20) && bytes_eqb (ad_data c) (toy_pub 32 ++ repeat x62 20) && bytes_eqb s sw_fee_asset && bytes_eqb s' sw_fee_asset
  | _ => false end.
Lemma vw_ok_true : vw_ok = true. Proof. vm_compute. reflexivity. Qed.
Lemma vw_32_true : vw_prints 32 vw_32 = true. Proof. vm_compute. reflexivity. Qed.

Lemma vw_wf : wf_fields vw_tx /\ complete_witness vw_tx.
Proof.
  assert (SO : forall v b, wf_txout (mkTxOut (expl v) (vw_script b) (x01 :: sw_fee_asset) [])).
  { intros v b. split; [cbn [nAsset]; apply CF_explicit; reflexivity|]. split; [cbn [nValue]; apply CF_explicit; unfold blen; rewrite BaseFacts.be_bytes_length; reflexivity|]. split; [constructor|]. cbn [scriptPubKey]. unfold vw_script, small, blen. rewrite !app_length, repeat_length. cbn. lia. }
  split; [|split; reflexivity]. split.
  - unfold wf_body, vw_tx. cbn [vin vout nVersion nLockTime]. split; [cbn; lia|]. split; [cbn; lia|]. split; [cbn; lia|]. split; [cbn; lia|]. split.
    + constructor; [|constructor]. unfold ExampleModel.plain_input. split.
      * split; [reflexivity|]. split; [cbn [prevout op_n]; lia|]. split; [apply small_nil|]. split; [cbn [nSequence]; lia|]. split; [reflexivity|]. split; [reflexivity|]. split; constructor.
      * right. cbn [prevout op_n assetIssuance is_pegin]. split; [lia|]. split; [reflexivity|]. intros (_ & X & _). discriminate X.
    + constructor; [apply SO|]. constructor; [apply SO|]. constructor; [|constructor]. split; [cbn [nAsset]; apply CF_explicit; reflexivity|]. split; [cbn [nValue]; apply CF_explicit; reflexivity|]. split; [constructor|apply small_nil].
  - cbn [vw_tx wit vtxinwit vtxoutwit]. split; repeat constructor; try apply small_nil; cbn; lia.
Qed.
(** All hypotheses of C90_owner are met for both receivers, and the second one sees: *)
Example C90_ex : SizesOk ftoy /\ SmallProofs ftoy /\ RandOk ftoy (fit_rand 909) /\ CodecLaws ftoy /\ RewindLaw ftoy /\ KeyLaws ftoy /\ RewindSound ftoy /\ ZeroGen ftoy
  /\ FindsAddresses std_find /\ dw_null sw_dw /\ wf_fields vw_tx /\ complete_witness vw_tx
  /\ (exists bfs abfs s, blind_transaction ftoy (fit_rand 909) vw_args vw_tx = (Ret (BSuccess 2 bfs abfs), s))
  /\ (length (issuance_tasks vw_args vw_tx) + length (output_tasks vw_args) = 2)%nat
  /\ std_find (scriptPubKey (mkTxOut (expl 300) (vw_script x61) (x01 :: sw_fee_asset) [])) = Some (P2PKH, repeat x61 20)
  /\ vw_prints 32 vw_32 = true.
Proof.
  split; [exact ftoy_sizes|]. split; [apply fit_small|]. split; [apply fit_rand_ok|]. split; [exact ftoy_codec|]. split; [exact ftoy_rewind|]. split; [exact ftoy_keys|]. split; [exact ftoy_sound|]. split; [exact ftoy_zerogen|].
  split; [exact std_finds|]. split; [intros i o; apply sw_full|]. split; [apply vw_wf|]. split; [apply vw_wf|]. split.
  - apply two_spec. rewrite <- vw_ok_eq. exact vw_ok_true.
  - split; [reflexivity|]. split; [reflexivity|]. exact vw_32_true.
Qed.

(** Not every output of a valid transaction is shown: Bob's transaction of the swap (C89), that every node accepts, has an output that nobody can spend,
    at which the program fails, and its last output, the fee, is not shown. *)
Definition vb_check (r : attempt) : bool :=
  match r with
  | Sent t raw => node_check ftoy toy_verifier [ct_out 101000000] t && (length (vout t) =? 3)%nat
      && match unblind_program ftoy sw_dw Elements std_find vw_info raw (b32 31) with
         | ([LBlank; LVout 0 _; LDestination; LConfidential _; LUnconfidential _; LAmount 100000000; LFactor _; LAsset _; LAssetFactor _; LBlank; LVout 1 (HCannot _)], Some EAddress) => true
         | _ => false end
  | _ => false end.
Lemma vb_true : vb_check (ct_bob 101000000) = true. Proof. vm_compute. reflexivity. Qed.
Definition shows (n : nat) (l : list line) : Prop := exists h, In (LVout n h) l.
Lemma vb_spec r : vb_check r = true -> exists t raw l, r = Sent t raw /\ node_check ftoy toy_verifier [ct_out 101000000] t = true /\ length (vout t) = 3%nat
  /\ unblind_program ftoy sw_dw Elements std_find vw_info raw (b32 31) = (l, Some EAddress) /\ shows 0 l /\ In (LAmount 100000000) l /\ ~ shows 2 l.
Proof.
  unfold vb_check. destruct r as [t raw|w|e]; intros H; try discriminate H. apply andb_prop in H. destruct H as [H H3]. apply andb_prop in H. destruct H as [H1 H2]. apply Nat.eqb_eq in H2.
  destruct (unblind_program ftoy sw_dw Elements std_find vw_info raw (b32 31)) as [l e] eqn:E.
  exists t, raw, l. split; [reflexivity|]. split; [exact H1|]. split; [exact H2|]. revert E H3. generalize (unblind_program ftoy sw_dw Elements std_find vw_info raw (b32 31)). intros p -> H3.
  repeat match type of H3 with
  | (match ?x with _ => _ end) = true => is_var x; destruct x; try discriminate H3
  end.
  split; [reflexivity|]. split; [eexists; cbn; eauto|]. split; [cbn; tauto|]. intros (h' & IN). cbn in IN. repeat destruct IN as [IN|IN]; try discriminate IN; contradiction.
Qed.
Theorem C90_burn_refuted : exists z V order (G : PointGroup order) (M : Meaning z G) dw ver legacy Hash160 E sha asset rand commit txid contract bkey ckey flip dst dummy sign t raw u cur find rp_info key l,
  SizesOk z /\ CodecLaws z /\ VerifierLaws z V M /\ KeyLaws z /\ FindsAddresses find /\ sk_valid z key = true
  /\ bob_claims z dw ver legacy Hash160 E sha asset rand commit txid contract bkey ckey flip dst dummy sign = Sent t raw
  /\ node_check z V [u] t = true /\ length (vout t) = 3%nat
  /\ unblind_program z dw cur find rp_info raw key = (l, Some EAddress) /\ shows 0 l /\ In (LAmount 100000000) l /\ ~ shows 2 l.
Proof.
  destruct ct_laws as (L1 & L2 & L3 & L4 & L5 & L6 & L7 & L8 & _). destruct (vb_spec _ vb_true) as (t & raw & l & E1 & E2 & E3 & E4 & E5 & E6 & E7). rewrite ct_bob_eq in E1.
  exists ftoy, toy_verifier, toy_order, toy_group, ftoy_meaning, sw_dw, 2, sw_legacy, sw_h160, tcurve, tsha, ct_asset, (fit_rand 909), (ct_commit 101000000), ct_txid, ct_contract, ct_key, 7, (fun _ => false), ct_dst, (b32 55), (sw_sign [xb0]), t, raw, (ct_out 101000000),
    Elements, std_find, vw_info, (b32 31), l.
  split; [exact L1|]. split; [exact L3|]. split; [exact L4|]. split; [exact L8|]. split; [exact std_finds|]. split; [vm_compute; reflexivity|]. repeat (split; [assumption|]). assumption.
Qed.

Print Assumptions C90_exact.
Print Assumptions C90_refuses.
Print Assumptions C90_true.
Print Assumptions C90_owner.
Print Assumptions C90_ends.
Print Assumptions C90_burn_refuted.
