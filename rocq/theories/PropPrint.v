(** C81: what the printed forms of fields, witnesses, issuances, inputs and outputs tell. *)
From Coq Require Import Strings.String Strings.Ascii ZArith Lia.
From Verif Require Import Base BaseFacts TxModel PrintModel SpecPrint PropText PropCodec PrintFacts.
Import ListNotations.
Local Open Scope string_scope.

(** Printing never raises, whatever the object holds. *)
Theorem C81_prints : forall p h m c x i tin tout,
  (exists s, conf_text p h c x = Ok s) /\ (exists s, issuance_text p h i = Ok s)
  /\ (exists s, txin_text p h m tin = Ok s) /\ (exists s, txout_text p h m tout = Ok s).
Proof.
  intros p h m c x i tin tout.
  assert (C : forall c x, exists s, conf_text p h c x = Ok s) by (intros; destruct h; [eexists; apply conf_repr|apply conf_str]).
  assert (I : forall i, exists s, issuance_text p h i = Ok s).
  { intros j. unfold issuance_text. destruct (C CConfValue (is_amount j)) as (s & Es), (C CConfValue (is_keys j)) as (t & Et). rewrite Es, Et.
    destruct (negb (conf_is_null (is_amount j))), (negb (conf_is_null (is_keys j))); eexists; reflexivity. }
  split; [apply C|]. split; [apply I|]. split.
  - unfold txin_text. destruct (I (assetIssuance tin)) as (s & ->). eexists; reflexivity.
  - unfold txout_text. destruct (C CConfValue (nValue tout)) as (a & ->), (C CConfAsset (nAsset tout)) as (b & ->), (C CConfNonce (nNonce tout)) as (d & ->).
    eexists; reflexivity.
Qed.
Print Assumptions C81_prints.

(** [repr] of a confidential field identifies class and content. *)
Theorem C81_field : forall p q c d x y s, conf_text p Repr c x = Ok s -> conf_text q Repr d y = Ok s -> c = d /\ x = y.
Proof.
  intros p q c d x y s A B. rewrite conf_repr in A, B. apply Ok_inj in A, B. rewrite <- B in A.
  assert (E : field c x ++ "" = field d y ++ "") by (rewrite !app_nil_s; exact A). apply field_sep in E. tauto.
Qed.
Print Assumptions C81_field.

(** Evaluating the [repr] of a field that its constructor made gives an equal field; an explicit asset is the exception, its
    text being [CConfidentialAsset(CAsset('..'))] with a str where CAsset takes bytes. *)
Theorem C81_eval : forall p c x s, conf_new c x = Ok x -> conf_text p Repr c x = Ok s ->
  ~ (c = CConfAsset /\ conf_is_explicit c x = true) -> Evaluates c s x.
Proof.
  intros p c x s N T A. rewrite conf_repr in T. apply Ok_inj in T. subst s.
  assert (B : body c x = bytes_repr x -> Evaluates c (conf_name c ++ "(" ++ body c x ++ ")") x).
  { intros ->. unfold bytes_repr. rewrite !app_assoc_s. cbn [append].
    apply (Ev_bytes c (conf_name c) (b2x x) x x); [reflexivity|apply unhex_b2x|exact N]. }
  destruct c; cbn [body] in B |- *.
  - destruct (conf_is_explicit CConfAsset x) eqn:E; [exfalso; auto|auto].
  - destruct (to_amount x) as [v|] eqn:E; [|auto]. apply (Ev_int (decz v)); [apply decz_literal|].
    rewrite literal_decz. apply C01_amount_unique. exact E.
  - auto.
Qed.
Print Assumptions C81_eval.

(** [repr] of a transaction's witness, of an input witness and of an output witness identifies the class (mutable or not) and
    everything in it. *)
Theorem C81_witness : forall p q m n,
  (forall w v, txwit_text p Repr m w = txwit_text q Repr n v -> m = n /\ w = v)
  /\ (forall w v, inwit_text p Repr m w = inwit_text q Repr n v -> m = n /\ w = v)
  /\ (forall w v, outwit_text m w = outwit_text n v -> m = n /\ w = v).
Proof.
  intros p q m n.
  assert (T : forall w v, txwit_text p Repr m w = txwit_text q Repr n v -> m = n /\ w = v).
  { intros w v E. assert (F : txwit_text p Repr m w ++ "" = txwit_text q Repr n v ++ "") by (rewrite E; reflexivity).
    apply txwit_sep in F. tauto. }
  split; [exact T|]. split; intros w v E.
  - assert (m = n) as ->.
    { unfold inwit_text in E. destruct m, n, (inwit_is_null w), (inwit_is_null v); try reflexivity; cbn in E; discriminate E. }
    split; [reflexivity|]. assert (F : inwit_text p Repr n w ++ "" = inwit_text q Repr n v ++ "") by (rewrite E; reflexivity).
    apply inwit_sep in F. tauto.
  - assert (m = n) as ->.
    { unfold outwit_text in E. destruct m, n, (outwit_is_null w), (outwit_is_null v); try reflexivity; cbn in E; discriminate E. }
    split; [reflexivity|]. assert (F : outwit_text n w ++ "" = outwit_text n v ++ "") by (rewrite E; reflexivity).
    apply outwit_sep in F. tauto.
Qed.
Print Assumptions C81_witness.

(** [repr] of an issuance shows its non-zero fields without their names: exactly those are told apart. *)
Theorem C81_issuance : forall p q i j s, issuance_text p Repr i = Ok s ->
  (issuance_text q Repr j = Ok s <-> ShownAlike i j).
Proof.
  intros p q i j s A. rewrite issuance_repr_ok in A. apply Ok_inj in A. subst s. rewrite issuance_repr_ok, ShownAlike_iff. split.
  - intros B. apply Ok_inj in B. assert (F : issuance_repr i ++ "" = issuance_repr j ++ "") by (rewrite B; reflexivity).
    apply issuance_sep in F. tauto.
  - intros E. unfold issuance_repr. rewrite E. reflexivity.
Qed.
Print Assumptions C81_issuance.

(** [repr] of an output identifies class, amount, asset and nonce, and what [repr] of the script tells. *)
Theorem C81_output : forall p m n o q s, txout_text p Repr m o = Ok s ->
  (txout_text p Repr n q = Ok s <->
   m = n /\ nValue o = nValue q /\ nAsset o = nAsset q /\ nNonce o = nNonce q /\ p_script p (scriptPubKey o) = p_script p (scriptPubKey q)).
Proof.
  intros p m n o q s A. unfold txout_text in *. rewrite !conf_repr in *. cbn [rbind] in *. apply Ok_inj in A.
  fold (field CConfValue (nValue o)) in A. fold (field CConfAsset (nAsset o)) in A. fold (field CConfNonce (nNonce o)) in A.
  fold (field CConfValue (nValue q)). fold (field CConfAsset (nAsset q)). fold (field CConfNonce (nNonce q)). split.
  - intros B. apply Ok_inj in B. rewrite <- A in B. clear A.
    assert (m = n) as ->. { destruct m, n; try reflexivity; cbn in B; discriminate B. }
    split; [reflexivity|]. apply prefix_cancel in B. cbn [append] in B. peel B.
    apply field_sep in B. destruct B as (_ & V & B). cbn [append] in B. peel B.
    set (S := p_script p (scriptPubKey o)) in *. set (S' := p_script p (scriptPubKey q)) in *.
    assert (R : forall S a k, S ++ String "," (String " " (field CConfAsset a ++ String "," (String " " (field CConfNonce k ++ ")"))))
                = (S ++ String "," (String " " (field CConfAsset a))) ++ String "," (String " " (field CConfNonce k ++ ")"))).
    { intros T a k. rewrite !app_assoc_s. reflexivity. }
    rewrite !R in B. apply split_last in B;
      [|cbn [has]; apply free_lit; [apply field_free; auto|reflexivity]..].
    destruct B as [B C]. peel C. apply field_sep in C. destruct C as (_ & N & _).
    apply split_last in B; [|cbn [has]; apply field_free; auto..]. destruct B as [B C]. peel C.
    assert (F : field CConfAsset (nAsset q) ++ "" = field CConfAsset (nAsset o) ++ "") by (rewrite C; reflexivity).
    apply field_sep in F. destruct F as (_ & F & _). auto.
  - intros (Em & Ev & Ea & En & Es). rewrite <- A, Em, Ev, Ea, En, Es. reflexivity.
Qed.
Print Assumptions C81_output.

(** [repr] of an input identifies class, outpoint, sequence number and peg-in mark, what [repr] of the script tells, and of
    the issuance what is shown. *)
Theorem C81_input : forall p m n i j s, (forall k, In k [i; j] -> length (op_hash (prevout k)) = 32%nat /\ (0 <= nSequence k)%Z) ->
  txin_text p Repr m i = Ok s ->
  (txin_text p Repr n j = Ok s <->
   m = n /\ prevout i = prevout j /\ p_script p (scriptSig i) = p_script p (scriptSig j) /\ nSequence i = nSequence j
   /\ ShownAlike (assetIssuance i) (assetIssuance j) /\ is_pegin i = is_pegin j).
Proof.
  intros p m n i j s W A. destruct (W i (or_introl eq_refl)) as [Li Si]. destruct (W j (or_intror (or_introl eq_refl))) as [Lj Sj].
  unfold txin_text, outpoint_text in *. rewrite !issuance_repr_ok in *. cbn [rbind] in *. apply Ok_inj in A. rewrite ShownAlike_iff. split.
  - intros B. apply Ok_inj in B. rewrite <- A in B. clear A.
    assert (m = n) as ->. { destruct m, n; try reflexivity; cbn in B; discriminate B. }
    split; [reflexivity|]. apply prefix_cancel in B. cbn [append] in B. peel B.
    apply outpoint_sep in B; [|assumption..]. destruct B as (P & B). cbn [append] in B. peel B.
    set (rest := fun k => "ssuance(" ++ join ", " (map shown_text (shown_list (assetIssuance k))) ++ ")" ++ ", is_pegin=" ++ bool_repr (is_pegin k) ++ ")").
    assert (R : forall k, p_script p (scriptSig k) ++ String "," (String " " (hexz (nSequence k) ++
                String "," (String " " (issuance_repr (assetIssuance k) ++ ", is_pegin=" ++ bool_repr (is_pegin k) ++ ")"))))
              = ((p_script p (scriptSig k) ++ String "," (String " " (hexz (nSequence k)))) ++ ", CAsset") ++ String "I" (rest k)).
    { intros k. unfold rest, issuance_repr. rewrite !app_assoc_s. cbn [append]. rewrite ?app_assoc_s. reflexivity. }
    assert (FR : forall k, has "I" (rest k) = false).
    { intros k. unfold rest. apply free_lit; [reflexivity|]. apply free_lit.
      - apply join_free; [reflexivity|]. apply Forall_forall. intros t I. apply in_map_iff in I. destruct I as (x & <- & _). apply shown_free.
      - destruct (is_pegin k); reflexivity. }
    assert (B' : ((p_script p (scriptSig j) ++ String "," (String " " (hexz (nSequence j)))) ++ ", CAsset") ++ String "I" (rest j)
               = ((p_script p (scriptSig i) ++ String "," (String " " (hexz (nSequence i)))) ++ ", CAsset") ++ String "I" (rest i)).
    { rewrite <- !R. exact B. }
    clear B. apply split_last in B'; [|apply FR..]. destruct B' as [B C].
    unfold rest in C. apply prefix_cancel in C. apply join_sep in C; [|exact shown_sep|exact shown_noparen|discriminate].
    destruct C as [C D]. cbn [append] in D. peel D.
    apply split_last in B; [|reflexivity..]. destruct B as [B _].
    apply split_last in B; [|cbn [has]; apply hexz_free..]. destruct B as [B E]. peel E. apply hexz_inj in E; [|assumption..].
    split; [auto|]. split; [auto|]. split; [auto|]. split; [auto|]. destruct (is_pegin i), (is_pegin j); try reflexivity; discriminate D.
  - intros (Em & Ep & Es & En & S & Eg). rewrite <- A, Em, Ep, Es, En, Eg. unfold issuance_repr. rewrite S. reflexivity.
Qed.
Print Assumptions C81_input.

(** [str] of a field that is not explicit tells the class only; of an explicit amount, the amount. *)
Theorem C81_str : forall p q,
  (forall c x y, conf_is_explicit c x = false -> conf_is_explicit c y = false -> conf_text p Str c x = conf_text q Str c y)
  /\ (forall x y, conf_text p Str CConfNonce x = conf_text q Str CConfNonce y)
  /\ (forall x y, conf_text p Str CConfValue x = conf_text q Str CConfValue y ->
        x = y \/ conf_is_explicit CConfValue x = false /\ conf_is_explicit CConfValue y = false).
Proof.
  intros p q. split; [|split].
  - intros c x y A B. unfold conf_text. rewrite A, B. destruct c; reflexivity.
  - intros x y. unfold conf_text. cbn [explicit_text]. destruct (conf_is_explicit CConfNonce x), (conf_is_explicit CConfNonce y); reflexivity.
  - intros x y E. unfold conf_text in E. destruct (C03_getters x) as (_ & _ & A & _), (C03_getters y) as (_ & _ & B & _).
    destruct (conf_is_explicit CConfValue x) eqn:X, (conf_is_explicit CConfValue y) eqn:Y; [left|exfalso|exfalso|right; auto].
    + destruct (A eq_refl) as (a & Ea), (B eq_refl) as (b & Eb). cbn [explicit_text] in E. rewrite Ea, Eb in E. cbn [rbind] in E.
      apply Ok_inj in E. apply prefix_cancel in E. cbn [append] in E. peel E. apply decz_sep in E. destruct E as [<- _].
      apply C01_amount_unique in Ea, Eb. rewrite Ea in Eb. apply Ok_inj in Eb. exact Eb.
    + destruct (A eq_refl) as (a & Ea). cbn [explicit_text] in E. rewrite Ea in E. cbn [rbind] in E. apply Ok_inj in E. apply prefix_cancel in E.
      cbn [append] in E. peel E. destruct (decz_cases a) as (d & N & [[K _]|[K _]]); rewrite K in E; [|discriminate E].
      destruct (digit_char _ N) as (c & r & Ec & D). rewrite Ec in E. cbn in E. injection E as -> _. discriminate D.
    + destruct (B eq_refl) as (a & Ea). cbn [explicit_text] in E. rewrite Ea in E. cbn [rbind] in E. apply Ok_inj in E. apply prefix_cancel in E.
      cbn [append] in E. peel E. destruct (decz_cases a) as (d & N & [[K _]|[K _]]); rewrite K in E; [|discriminate E].
      destruct (digit_char _ N) as (c & r & Ec & D). rewrite Ec in E. cbn in E. injection E as E _. subst c. discriminate D.
Qed.
Print Assumptions C81_str.

(** [str] of a blinded output tells the script and nothing else. *)
Theorem C81_str_output : forall p m o q,
  conf_is_explicit CConfValue (nValue o) = false -> conf_is_explicit CConfValue (nValue q) = false ->
  conf_is_explicit CConfAsset (nAsset o) = false -> conf_is_explicit CConfAsset (nAsset q) = false ->
  p_script p (scriptPubKey o) = p_script p (scriptPubKey q) ->
  txout_text p Str m o = txout_text p Str m q.
Proof.
  intros p m o q A B C D E. destruct (C81_str p p) as (S & N & _). unfold txout_text.
  rewrite (S _ _ _ A B), (S _ _ _ C D), (N (nNonce o) (nNonce q)), E. reflexivity.
Qed.
Print Assumptions C81_str_output.

(** * Examples *)
Definition demo_printer : Printer := mkPrinter (fun s => "CElementsScript(" ++ bytes_repr s ++ ")") b2lx (fun o => b2lx (op_hash o)) stack_repr.
Definition assets_only : issuance := mkIssuance (zeros 32) (zeros 32) (x01 :: zeros 7 ++ [x05]) [].
Definition tokens_only : issuance := mkIssuance (zeros 32) (zeros 32) [] (x01 :: zeros 7 ++ [x05]).
Definition spending (i : issuance) : txin := mkTxIn (mkOutPoint (repeat x07 32) 1) [x51] 0xfffffffe i false.

(** Two inputs can have the same [repr] and differ: five units of a new asset, or five of its reissuance token. *)
Theorem C81_issuance_refuted : exists i j s, assetIssuance i <> assetIssuance j /\ is_amount (assetIssuance i) <> is_amount (assetIssuance j)
  /\ txin_text demo_printer Repr false i = Ok s /\ txin_text demo_printer Repr false j = Ok s.
Proof.
  exists (spending assets_only), (spending tokens_only). eexists. split; [discriminate|]. split; [discriminate|].
  split; vm_compute; reflexivity.
Qed.
Print Assumptions C81_issuance_refuted.
(** An initial issuance under a contract hash and a reissuance-like record with that blinding nonce print alike. *)
Theorem C81_entropy_refuted : exists i j s, is_nonce i = zeros 32 /\ is_nonce j <> zeros 32 /\ is_amount i = is_amount j
  /\ issuance_text demo_printer Repr i = Ok s /\ issuance_text demo_printer Repr j = Ok s.
Proof.
  exists (mkIssuance (zeros 32) (repeat x09 32) (x01 :: zeros 7 ++ [x05]) []), (mkIssuance (repeat x09 32) (zeros 32) (x01 :: zeros 7 ++ [x05]) []).
  eexists. split; [reflexivity|]. split; [discriminate|]. split; [reflexivity|]. split; vm_compute; reflexivity.
Qed.
Print Assumptions C81_entropy_refuted.
(** [str] says CONFIDENTIAL of a field that is empty. *)
Theorem C81_str_confidential_refuted : exists x y, conf_is_null x = true /\ conf_is_commitment CConfValue y = true
  /\ conf_text demo_printer Str CConfValue x = Ok "CConfidentialValue(CONFIDENTIAL)"
  /\ conf_text demo_printer Str CConfValue y = Ok "CConfidentialValue(CONFIDENTIAL)".
Proof. exists [], (x08 :: zeros 32). vm_compute. auto. Qed.
Print Assumptions C81_str_confidential_refuted.

(** The expected texts of test_elements_sidechain_transactions.py:110-111, 134-135, 143-144, and others. *)
Definition empty_script : Printer := mkPrinter (fun _ => "CElementsScript([])") b2lx (fun o => b2lx (op_hash o)) stack_repr.
Example C81_ex1 : txin_text empty_script Repr true (mkTxIn (mkOutPoint (zeros 32) 0xffffffff) [] 0xffffffff issuance_default false)
  = Ok "CElementsMutableTxIn(CElementsMutableOutPoint(), CElementsScript([]), 0xffffffff, CAssetIssuance(), is_pegin=False)".
Proof. vm_compute. reflexivity. Qed.
Example C81_ex2 : txout_text empty_script Repr false (mkTxOut [] [] [] [])
  = Ok "CElementsTxOut(CConfidentialValue(x('')), CElementsScript([]), CConfidentialAsset(x('')), CConfidentialNonce(x('')))".
Proof. vm_compute. reflexivity. Qed.
Example C81_ex3 : txin_text demo_printer Repr false (spending assets_only) = Ok
  "CElementsTxIn(CElementsOutPoint(lx('0707070707070707070707070707070707070707070707070707070707070707'), 1), CElementsScript(x('51')), 0xfffffffe, CAssetIssuance(CConfidentialValue(5)), is_pegin=False)".
Proof. vm_compute. reflexivity. Qed.
Example C81_ex4 : Evaluates CConfValue "CConfidentialValue(-3)" (x01 :: repeat xff 7 ++ [xfd]) /\ conf_is_explicit CConfValue (x01 :: repeat xff 7 ++ [xfd]) = true.
Proof. split; [apply (Ev_int "-3"); [reflexivity|vm_compute; reflexivity]|reflexivity]. Qed.
Example C81_ex5 : txwit_text demo_printer Repr true (mkTxWit [mkInWit [[x01]; [x02]] [] [] []; inwit_null] [mkOutWit [xab] [xcd]])
  = "CElementsMutableTxWitness([CElementsMutableTxInWitness(CScriptWitness([x('01'),x('02')]), x(''), x(''), CScriptWitness([])),CElementsMutableTxInWitness()], [CElementsMutableTxOutWitness(x('ab'), x('cd'))])".
Proof. vm_compute. reflexivity. Qed.
