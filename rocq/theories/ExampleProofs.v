(** Proofs for C85. *)
From Verif Require Import Base BaseFacts TxModel MiscModel IssuanceModel BlindModel UnblindModel SpendModel WalletModel SighashModel ScriptModel SpecWire
  SpecBlind SpecSpend SpecSign BlindFacts BlindFrame BlindFails BlindSteps BlindOuts BlindComplete BlindMain BlindProps TxProofs TxProofs2 PropCodec PropUnblind ExampleModel SpecExample.
From Coq Require Import Lia.
Local Open Scope Z_scope.

(** * A single output, no blinded input *)
Lemma lone_step z rand args tags gens blinders n pub L s : l_attempts L = 0%nat -> l_toblind L = 1%nat -> l_blindsin L = 0%nat ->
  match fst (blind_output z rand args tags gens blinders (n, pub) L s) with
  | Val L' => L' = L
  | Ret r => exists L1, r = blinding_result args L1 /\ l_success L1 = l_success L /\ l_toblind L1 = 1%nat
  | Exc _ => True
  end.
Proof.
  intros A T B. destruct (blind_output z rand args tags gens blinders (n, pub) L s) as [o s'] eqn:E. cbn [fst].
  unfold blind_output in E. destruct (is_fullyvalid z pub); cbn [negb] in E; [|injection E as <- _; reflexivity].
  unfold mbind at 1 in E. cbn [get_tx] in E. unfold mbind at 1 in E. destruct (lift (nth_res (vout (s_tx s)) n) s) as [[ou|r|e] s1] eqn:E1.
  2: { exfalso. exact (lift_Ret _ _ _ _ E1). } 2: { injection E as <- _. exact I. }
  cbv zeta in E. unfold mbind at 1 in E. destruct (lift (to_amount (nValue ou)) s1) as [[am|r|e] s2] eqn:E2.
  2: { exfalso. exact (lift_Ret _ _ _ _ E2). } 2: { injection E as <- _. exact I. }
  unfold mbind at 1 in E. destruct (lift (to_asset (nAsset ou)) s2) as [[ast|r|e] s3] eqn:E3.
  2: { exfalso. exact (lift_Ret _ _ _ _ E3). } 2: { injection E as <- _. exact I. }
  unfold mbind at 1 in E. destruct (draw_uint256 rand s3) as [[b|r|e] s4] eqn:E4.
  2: { exfalso. exact (draw256_Ret _ _ _ _ E4). } 2: { injection E as <- _. exact I. }
  unfold mbind at 1 in E. destruct (draw_uint256 rand s4) as [[ab|r|e] s5] eqn:E5.
  2: { exfalso. exact (draw256_Ret _ _ _ _ E5). } 2: { injection E as <- _. exact I. }
  cbn [l_attempts l_toblind add_blind add_amount inc_attempts l_blindsin] in E. rewrite A, T, B in E. cbn [Nat.eqb andb] in E.
  unfold mreturn in E. injection E as <- _. eexists. split; [reflexivity|]. cbn. auto.
Qed.
Lemma lone_output z rand args t n bfs abfs s : a_strict args = true -> issuance_tasks args t = [] -> blinded_inputs args = [] ->
  length (output_tasks args) = 1%nat -> blind_transaction z rand args t <> (Ret (BSuccess n bfs abfs), s).
Proof.
  intros ST NI NB ONE H. unfold blind_transaction in H. rewrite body_split in H.
  destruct (blind_looks z args (blind_acts z rand args) (mkSt t 0)) as [o s1] eqn:E.
  assert (HO : o = Val (BSuccess n bfs abfs) \/ o = Ret (BSuccess n bfs abfs)).
  { destruct o as [r|r|e]; try discriminate; injection H as H1 H2; subst; auto. }
  clear H. apply looks_Counted in E. destruct E as [(targets & L & E & _ & _ & C)|E].
  2: { destruct E as [_ E]. destruct HO as [-> | ->]; [exact E|]. destruct E as [f E]. discriminate. }
  assert (T1 : l_toblind L = 1%nat).
  { assert (X := counted_eq z args t L C). rewrite NI in X. cbn [length] in X. rewrite X; [lia|]. intros i ps []. }
  unfold blind_acts in E. unfold mbind at 1 in E. cbn [get_tx s_tx] in E.
  unfold mbind at 1 in E. destruct (for_in (seq 0 (length (vin t))) (blind_input z rand args) L (mkSt t 0)) as [oi s2] eqn:EI.
  apply issuances_phase in EI; [|apply C..]. rewrite NI in EI. cbn [length] in EI.
  destruct oi as [La|r|e].
  2: { destruct EI as (L1 & _ & X & _). lia. } 2: { injection E as <- _. destruct HO; discriminate. }
  destruct EI as (I1 & I2 & I3 & I4 & I5 & I6 & I7 & _). change (filter _ _) with (issuance_tasks args t) in I5. rewrite NI in I5. cbn [length] in I5.
  unfold mbind at 1 in E. cbn [get_tx] in E. unfold mbind at 1 in E. cbn [put_tx] in E. unfold mbind at 1 in E.
  destruct (for_in (combine _ _) _ La _) as [oo s3] eqn:EO.
  assert (BAD : forall L1, l_success L1 = 0%nat -> l_toblind L1 = 1%nat -> BSuccess n bfs abfs <> blinding_result args L1).
  { intros L1 S1 S2. unfold blinding_result. rewrite ST, S1, S2. discriminate. }
  apply (for_in_inv (fun _ L' _ => L' = La)) in EO; [| |reflexivity].
  2: { intros p [k pub] r L1 s4 L2 s5 _ -> EB. assert (X := lone_step z rand args (map tg_tag targets) (map tg_gen targets) (map tg_blind targets) k pub La s4 I5).
       rewrite EB in X. apply X; [congruence|]. rewrite I2, (ct_blindsin _ _ _ _ C), NB. reflexivity. }
  destruct oo as [L2|r|e].
  - subst L2. injection E as <- _. destruct HO as [HO|HO]; [|discriminate]. injection HO as HO. symmetry in HO. revert HO. apply BAD; [lia|congruence].
  - injection E as <- _. destruct HO as [HO|HO]; [discriminate|]. injection HO as ->. destruct EO as (p & [k pub] & r & L1 & s4 & _ & -> & EB).
    assert (X := lone_step z rand args (map tg_tag targets) (map tg_gen targets) (map tg_blind targets) k pub La s4 I5). rewrite EB in X.
    destruct X as (L1 & X & S1 & S2); [congruence| |].
    { rewrite I2, (ct_blindsin _ _ _ _ C), NB. reflexivity. }
    revert X. apply BAD; [lia|exact S2].
  - injection E as <- _. destruct HO; discriminate.
Qed.

(** * The search of the outputs *)
Definition Scanned (src : bytes) (outs : list txout) (st : option (nat * txout) * option (bytes * Z)) : Prop :=
  match fst st with Some (k, u) => FirstWith outs src k u | None => forall o, In o outs -> scriptPubKey o <> src end
  /\ match snd st with Some (a, v) => FeeOf outs a v | None => forall o, In o outs -> txout_is_fee o = false end.
Lemma first_app src outs k u o : FirstWith outs src k u -> FirstWith (outs ++ [o]) src k u.
Proof.
  intros (E & S & B). assert (LT : (k < length outs)%nat) by (apply nth_error_Some; congruence).
  split; [rewrite nth_error_app1 by exact LT; exact E|]. split; [exact S|]. intros m x M X. apply (B m x M). rewrite nth_error_app1 in X by lia. exact X.
Qed.
Lemma scan_step_ok src pre st o st' : Scanned src pre st -> scan_step src st (length pre, o) = Ok st' -> Scanned src (pre ++ [o]) st'.
Proof.
  destruct st as [u fee]. intros [A B]. cbn [fst snd] in A, B. unfold scan_step.
  set (u' := match u with None => _ | Some _ => u end). intros H.
  assert (A' : match u' with Some (k, u) => FirstWith (pre ++ [o]) src k u | None => forall o', In o' (pre ++ [o]) -> scriptPubKey o' <> src end).
  { unfold u'. destruct u as [[k u]|]; [apply first_app; exact A|]. destruct (bytes_eqb (scriptPubKey o) src) eqn:EQ.
    - apply bytes_eqb_eq in EQ. split; [rewrite nth_error_app2, Nat.sub_diag by lia; reflexivity|]. split; [exact EQ|].
      intros m x M X. rewrite nth_error_app1 in X by exact M. exact (A x (nth_error_In _ _ X)).
    - intros o' IN E. apply in_app_or in IN. destruct IN as [IN|[<-|[]]]; [exact (A _ IN E)|]. apply (proj2 (bytes_eqb_eq _ _)) in E. congruence. }
  destruct (txout_is_fee o) eqn:F.
  - assert (X : exists v, to_amount (nValue o) = Ok v /\ st' = (u', Some (nAsset o, v)) /\ match fee with None => True | Some (a, _) => a = nAsset o end).
    { destruct fee as [[a v0]|]; cbn [rassert] in H.
      - destruct (bytes_eqb a (nAsset o)) eqn:EQ; [|discriminate H]. apply bytes_eqb_eq in EQ. cbn [rbind] in H.
        destruct (to_amount (nValue o)) as [v|]; [|discriminate H]. apply Ok_inj in H. subst st'. exists v. auto.
      - cbn [rbind] in H. destruct (to_amount (nValue o)) as [v|]; [|discriminate H]. apply Ok_inj in H. subst st'. exists v. auto. }
    destruct X as (v & EV & -> & SAME). split; cbn [fst snd]; [exact A'|]. split.
    + intros o' IN FE. apply in_app_or in IN. destruct IN as [IN|[<-|[]]]; [|reflexivity]. destruct fee as [[a v0]|].
      * destruct B as [B _]. rewrite (B _ IN FE). exact SAME.
      * rewrite (B _ IN) in FE. discriminate.
    + exists pre, o, []. split; [reflexivity|]. repeat split; try assumption. intros o' [].
  - apply Ok_inj in H. subst st'. split; cbn [fst snd]; [exact A'|]. destruct fee as [[a v]|].
    + destruct B as (B1 & p & o1 & q & -> & B2 & B3 & B4 & B5). split.
      * intros o' IN FE. apply in_app_or in IN. destruct IN as [IN|[<-|[]]]; [exact (B1 _ IN FE)|congruence].
      * exists p, o1, (q ++ [o]). rewrite <- app_assoc. split; [reflexivity|]. repeat split; try assumption.
        intros o' IN. apply in_app_or in IN. destruct IN as [IN|[<-|[]]]; [exact (B5 _ IN)|exact F].
    + intros o' IN. apply in_app_or in IN. destruct IN as [IN|[<-|[]]]; [exact (B _ IN)|exact F].
Qed.
Lemma scan_spec src t st : scan src t = Ok st -> Scanned src (vout t) st.
Proof.
  unfold scan. assert (G : forall l pre st0, Scanned src pre st0 -> rfold (scan_step src) (combine (seq (length pre) (length l)) l) st0 = Ok st -> Scanned src (pre ++ l) st).
  { induction l as [|o l IH]; intros pre st0 S H.
    - cbn in H. apply Ok_inj in H. subst. rewrite app_nil_r. exact S.
    - cbn [length seq combine rfold] in H. destruct (scan_step src st0 (length pre, o)) as [st1|e] eqn:E; [|discriminate H]. cbn [rbind] in H.
      assert (S1 := scan_step_ok _ _ _ _ _ S E). replace (pre ++ o :: l) with ((pre ++ [o]) ++ l) by (rewrite <- app_assoc; reflexivity).
      apply (IH (pre ++ [o]) st1 S1). rewrite app_length, Nat.add_1_r. exact H. }
  intros H. apply (G (vout t) [] (None, None)); [|exact H]. split; cbn; intros o [].
Qed.
Lemma first_unique outs src k u k' u' : FirstWith outs src k u -> FirstWith outs src k' u' -> k = k' /\ u = u'.
Proof.
  intros (E & S & B) (E' & S' & B'). assert (k = k'). { destruct (Nat.lt_total k k') as [L|[L|L]]; [|exact L|]; exfalso; [exact (B' _ _ L E S)|exact (B _ _ L E' S')]. }
  subst k'. split; [reflexivity|congruence].
Qed.
Lemma fee_unique outs a v a' v' : FeeOf outs a v -> FeeOf outs a' v' -> a = a' /\ v = v'.
Proof.
  intros (A & p & o & q & E & F1 & F2 & F3 & F4) (A' & p' & o' & q' & E' & F1' & F2' & F3' & F4').
  assert (a = a'). { rewrite <- F2. apply A'; [rewrite E; apply in_or_app; right; left; reflexivity|exact F1]. }
  split; [assumption|]. assert (o = o'); [|subst o'; congruence].
  rewrite E' in E. clear - E F1 F1' F4 F4'. revert p E. induction p' as [|x p' IH]; intros [|y p] E; cbn [app] in E.
  - injection E as -> _. reflexivity.
  - injection E as -> ->. rewrite (F4' o) in F1; [discriminate|]. apply in_or_app. right. left. reflexivity.
  - injection E as -> <-. rewrite (F4 o') in F1'; [discriminate|]. apply in_or_app. right. left. reflexivity.
  - injection E as _ E. exact (IH _ E).
Qed.

Lemma nth_error_ext {A} (l l' : list A) : (forall i, nth_error l i = nth_error l' i) -> l = l'.
Proof.
  revert l'. induction l as [|x l IH]; intros [|y l'] H; [reflexivity|discriminate (H 0%nat)|discriminate (H 0%nat)|].
  assert (H0 := H 0%nat). cbn in H0. injection H0 as ->. f_equal. apply IH. intros i. exact (H (S i)).
Qed.
Lemma value_back x v : conf_value_of_amount x = Ok v -> to_amount v = Ok x.
Proof.
  intros H. destruct (C01_amount_roundtrip x) as [A B]. destruct (Z_le_dec (- 2 ^ 63) x) as [L|L]; [destruct (Z_lt_dec x (2 ^ 63)) as [R|R]|].
  - destruct (A (conj L R)) as (d & E & _ & _ & _ & _ & T). rewrite E in H. apply Ok_inj in H. congruence.
  - rewrite B in H by lia. discriminate.
  - rewrite B in H by lia. discriminate.
Qed.
Lemma opens_asset z t k u key d : Opens z t k u key d -> blen (d_asset d) = 32.
Proof.
  intros [(a & v & A & _ & ->)|(_ & w & r & _ & R & D)]; cbn [d_asset].
  - apply to_asset_explicit in A. destruct A as [_ L]. unfold blen. rewrite L. reflexivity.
  - destruct r as [m|n b ab|asset amount bf abf]; try discriminate D. injection D as <-. unfold txout_unblind in R.
    destruct (C50_success_facts _ _ _ _ _ _ _ _ _ _ _ R) as (_ & _ & _ & _ & L & _). exact L.
Qed.
Lemma asset_back x a : blen x = 32 -> conf_asset_of_asset x = Ok a -> to_asset a = Ok x.
Proof. intros L H. destruct (C02_asset_roundtrip x) as [A _]. destruct (A L) as (_ & y & E & _ & _ & T). rewrite E in H. apply Ok_inj in H. congruence. Qed.
Lemma fee_explicit outs fa fv : FeeOf outs fa fv -> conf_is_explicit CConfAsset fa = true.
Proof. intros (_ & p & o & q & _ & F & <- & _). unfold txout_is_fee in F. apply andb_prop in F. apply F. Qed.
Lemma amount_explicit x v : to_amount x = Ok v -> conf_is_explicit CConfValue x = true.
Proof. unfold to_amount. destruct (conf_is_explicit CConfValue x); [reflexivity|discriminate]. Qed.

Lemma none_wanted pubs j : length (filter is_nonempty pubs) = 0%nat -> nth j pubs [] = [].
Proof.
  revert j. induction pubs as [|p pubs IH]; intros j H; [destruct j; reflexivity|]. cbn [filter] in H. destruct p as [|b p].
  - destruct j; [reflexivity|]. apply IH. exact H.
  - exfalso. unfold is_nonempty in H. rewrite blen_cons in H. pose proof (blen_nonneg p). destruct (Z.eqb_spec (1 + blen p) 0); [lia|]. cbn in H. lia.
Qed.
Section Program.
Variable z : Crypto.
Variable rand : nat -> bytes.
Variable dw : default_wit.
Variable ver : Z.
Variable legacy : bytes -> tx -> Z -> Z -> res (bytes * bool).
Variable Hash160 : bytes -> bytes.
Variable sign : bytes -> bytes.
Notation complete := (complete z rand legacy Hash160 sign).
Notation program := (program z rand dw ver legacy Hash160 sign).

(** Endings before the transaction is built *)
Definition early (e : ending) : Prop := match e with Printed _ _ _ _ => False | AssertFailed l => l = 126%nat | _ => True end.
Definition spend_of (prev : outpoint) (v a fv fa script : bytes) : tx :=
  mkTx [plain_input prev] [mkTxOut v script a []; mkTxOut fv [] fa []] 0 ver
       (dw [plain_input prev] [mkTxOut v script a []; mkTxOut fv [] fa []]).
Record Start (input_tx : tx) (pub bkey : bytes) (dst : addr) (dummy : bytes) (k : nat) (utxo : txout) (d : input_desc) (fa : bytes) (fv : Z)
    (script body v a fvb : bytes) (t : tx) (pubs : list bytes) : Prop := {
  st_first : FirstWith (vout input_tx) (p2sh_p2wpkh Hash160 pub) k utxo;
  st_fee : FeeOf (vout input_tx) fa fv;
  st_opens : Opens z input_tx k utxo bkey d;
  st_enough : 2 * fv <= d_amount d;
  st_script : to_scriptPubKey dst = Ok script;
  st_body : ser_tx false false input_tx = Ok body;
  st_value : conf_value_of_amount (d_amount d - fv) = Ok v;
  st_asset : conf_asset_of_asset (d_asset d) = Ok a;
  st_feev : conf_value_of_amount fv = Ok fvb;
  st_tx : let t0 := spend_of (mkOutPoint (c_hash z body) (Z.of_nat k)) v a fvb fa script in
    ((conf_is_explicit CConfValue (nValue utxo) = true \/ ad_conf dst = true) /\ t = t0
       /\ pubs = [if ad_conf dst then blinding_pubkey dst else []; []])
    \/ (conf_is_explicit CConfValue (nValue utxo) = false /\ ad_conf dst = false /\ sk_valid z dummy = true
        /\ exists v0, conf_value_of_amount 0 = Ok v0 /\ t = add_out (mkTxOut v0 [x6a] a []) t0 /\ pubs = [[]; []; sk_pub z dummy])
}.
Lemma describe_cases input_tx k utxo bkey f e : describe z input_tx k utxo bkey f = e ->
  (exists d, Opens z input_tx k utxo bkey d /\ f d = e) \/ early e.
Proof.
  unfold describe. destruct (conf_is_explicit CConfValue (nValue utxo)) eqn:X.
  - destruct (to_amount (nValue utxo)) as [v|x] eqn:V; cbn [bindE]; [|intros <-; right; exact I].
    unfold assertE. destruct (conf_is_explicit CConfAsset (nAsset utxo)); [|intros <-; right; reflexivity].
    destruct (to_asset (nAsset utxo)) as [a|x] eqn:A; cbn [bindE]; [|intros <-; right; exact I].
    intros E. left. eexists. split; [|exact E]. left. eauto.
  - destruct (nth_res (vtxoutwit (wit input_tx)) k) as [w|x] eqn:W; cbn [bindE]; [|intros <-; right; exact I]. apply nth_res_Ok in W.
    destruct (txout_unblind z utxo bkey (ow_range w)) as [r|x] eqn:R; cbn [bindE]; [|intros <-; right; exact I].
    destruct (get_descriptor r) as [d|] eqn:D; [|intros <-; right; exact I]. intros E. left. exists d. split; [|exact E]. right. eauto 6.
Qed.
Lemma program_cases input_tx pub bkey dst dummy e : program input_tx pub bkey dst dummy = e ->
  (exists k utxo d fa fv script body v a fvb t pubs, Start input_tx pub bkey dst dummy k utxo d fa fv script body v a fvb t pubs
     /\ complete d pubs utxo pub t = e) \/ early e.
Proof.
  unfold program, ExampleModel.program. fold (p2sh_p2wpkh Hash160 pub). destruct (scan (p2sh_p2wpkh Hash160 pub) input_tx) as [uf|x] eqn:SC; cbn [bindE]; [|intros <-; right; exact I].
  apply scan_spec in SC. destruct uf as [[[k utxo]|] [[fa fv]|]]; try (intros <-; right; exact I).
  destruct SC as [S1 S2]. cbn [fst snd] in S1, S2. intros H. apply describe_cases in H. destruct H as [(d & O & H)|H]; [|right; exact H]. revert H.
  destruct (Z.ltb_spec (d_amount d) (fv * 2)) as [|EN]; [intros <-; right; exact I|].
  destruct (to_scriptPubKey dst) as [script|x] eqn:SP; cbn [bindE]; [|intros <-; right; exact I].
  destruct (ser_tx false false input_tx) as [body|x] eqn:SB; cbn [bindE]; [|intros <-; right; exact I].
  destruct (outpoint_new (c_hash z body) (Z.of_nat k)) as [prev|x] eqn:OP; cbn [bindE]; [|intros <-; right; exact I].
  assert (EP : prev = mkOutPoint (c_hash z body) (Z.of_nat k)).
  { unfold outpoint_new in OP. destruct (negb _); [discriminate|]. destruct (_ && _); [|discriminate]. apply Ok_inj in OP. congruence. }
  subst prev. clear OP. unfold spend_tx. cbn [fst snd].
  destruct (conf_value_of_amount (d_amount d - fv)) as [v|x] eqn:V; cbn [rbind bindE]; [|intros <-; right; exact I].
  destruct (conf_asset_of_asset (d_asset d)) as [a|x] eqn:A; cbn [rbind bindE]; [|intros <-; right; exact I].
  destruct (conf_value_of_amount fv) as [fvb|x] eqn:FV; cbn [rbind bindE]; [|intros <-; right; exact I].
  fold (spend_of (mkOutPoint (c_hash z body) (Z.of_nat k)) v a fvb fa script). unfold dummy_output. rewrite A.
  destruct (negb (conf_is_explicit CConfValue (nValue utxo)) && negb (ad_conf dst)) eqn:DUM.
  - apply andb_prop in DUM. destruct DUM as [D1 D2]. apply negb_true_iff in D1, D2. destruct (sk_valid z dummy) eqn:SK; cbn [bindE]; [|intros <-; right; exact I].
    destruct (conf_value_of_amount 0) as [v0|x] eqn:V0; cbn [rbind bindE]; [|intros <-; right; exact I].
    intros H. left. exists k, utxo, d, fa, fv, script, body, v, a, fvb. do 2 eexists. split; [|exact H]. constructor; try assumption; [lia|]. right.
    repeat (split; [assumption|]). exists v0. rewrite D2. cbn [app]. auto.
  - cbn [bindE]. intros H. left. exists k, utxo, d, fa, fv, script, body, v, a, fvb. do 2 eexists. split; [|exact H]. constructor; try assumption; [lia|]. left.
    split; [|split; reflexivity]. apply andb_false_iff in DUM. destruct DUM as [D|D]; apply negb_false_iff in D; auto.
Qed.
Lemma opens_unique t k u key d d' : Opens z t k u key d -> Opens z t k u key d' -> d = d'.
Proof.
  intros [(a & v & A & V & ->)|(X & w & r & W & R & D)] [(a' & v' & A' & V' & ->)|(X' & w' & r' & W' & R' & D')].
  - congruence.
  - unfold to_amount in V. rewrite X' in V. discriminate.
  - unfold to_amount in V'. rewrite X in V'. discriminate.
  - assert (w = w') by congruence. subst w'. congruence.
Qed.

(** * The end of the program *)
Definition run_args (d : input_desc) (pubs : list bytes) : blind_args := mkArgs [d] pubs [] [] [] None None true.
Lemma filter_tasks d pubs : length (output_tasks (run_args d pubs)) = length (filter is_nonempty pubs).
Proof.
  rewrite output_tasks_outs. rewrite outs_firstn by lia. cbn [run_args a_pubkeys]. rewrite firstn_all. reflexivity.
Qed.
Lemma no_issuance_tasks d pubs t : issuance_tasks (run_args d pubs) t = [].
Proof.
  unfold issuance_tasks. induction (issuance_slots (length (vin t))) as [|[i ps] l IH]; [reflexivity|]. cbn [filter]. unfold wants_issuance. cbn [fst snd run_args a_token_keys a_asset_keys].
  destruct ps, i; exact IH.
Qed.
Lemma complete_cases d pubs utxo pub t e : complete d pubs utxo pub t = e ->
  match e with
  | Printed signed hex n bfs => exists unb abfs s, tx_serialize t = Ok unb
      /\ blind_transaction z rand (run_args d pubs) t = (Ret (BSuccess n bfs abfs), s)
      /\ n = length (filter is_nonempty pubs) /\ sign_tx z legacy Hash160 sign (s_tx s) pub (nValue utxo) = Ok signed /\ tx_serialize signed = Ok hex
  | AssertFailed l => exists unb n bfs abfs s, tx_serialize t = Ok unb
      /\ blind_transaction z rand (run_args d pubs) t = (Ret (BSuccess n bfs abfs), s)
      /\ ((l = 228%nat /\ n <> length (filter is_nonempty pubs))
          \/ (l = 234%nat /\ n = length (filter is_nonempty pubs) /\ n = 0%nat /\ exists b, tx_serialize (s_tx s) = Ok b /\ unb <> b))
  | _ => True
  end.
Proof.
  intros H. unfold ExampleModel.complete in H. fold (run_args d pubs) in H. destruct (tx_serialize t) as [unb|x]; cbn [bindE] in H; [|subst e; exact I].
  destruct (blind_transaction z rand (run_args d pubs) t) as [[x|[n bfs abfs|f]|x] s]; try (subst e; exact I).
  unfold assertE in H. destruct (Nat.eqb_spec n (length (filter is_nonempty pubs))) as [EN|NE].
  2: { subst e. exists unb, n, bfs, abfs, s. repeat (split; [reflexivity|]). left. auto. }
  destruct (Nat.eqb_spec n 0) as [N0|NN].
  - destruct (tx_serialize (s_tx s)) as [b|x] eqn:SB; cbn [rbind bindE] in H; [|subst e; exact I].
    destruct (bytes_eqb unb b) eqn:EQ.
    + destruct (sign_tx z legacy Hash160 sign (s_tx s) pub (nValue utxo)) as [sg|x] eqn:SG; cbn [bindE] in H; [|subst e; exact I].
      destruct (tx_serialize sg) as [hex|x] eqn:HX; cbn [bindE] in H; [|subst e; exact I]. subst e. exists unb, abfs, s. repeat (split; [reflexivity|]). repeat (split; [assumption|]). assumption.
    + subst e. exists unb, n, bfs, abfs, s. repeat (split; [reflexivity|]). right. repeat (split; [first [reflexivity|assumption]|]). exists b. split; [exact SB|].
      intros ->. rewrite (proj2 (bytes_eqb_eq _ _) eq_refl) in EQ. discriminate.
  - cbn [bindE] in H. destruct (sign_tx z legacy Hash160 sign (s_tx s) pub (nValue utxo)) as [sg|x] eqn:SG; cbn [bindE] in H; [|subst e; exact I].
    destruct (tx_serialize sg) as [hex|x] eqn:HX; cbn [bindE] in H; [|subst e; exact I]. subst e. exists unb, abfs, s. repeat (split; [reflexivity|]). repeat (split; [assumption|]). assumption.
Qed.

(** * What blind() leaves alone *)
Lemma kept_vin d pubs t t' : Frame (run_args d pubs) t t' -> vin t' = vin t.
Proof.
  intros F. apply nth_error_ext. intros i. destruct (nth_error (vin t) i) as [a|] eqn:E.
  - destruct (nth_error (vin t') i) as [a'|] eqn:E'.
    + destruct (fr_in _ _ _ _ _ F i a a' E E') as (H1 & H2 & H3 & H4 & H5 & H6 & H7 & H8).
      assert (N1 : is_amount (assetIssuance a') = is_amount (assetIssuance a)) by (apply H7; intros [X _]; apply X; destruct i; reflexivity).
      assert (N2 : is_keys (assetIssuance a') = is_keys (assetIssuance a)) by (apply H8; intros [X _]; apply X; destruct i; reflexivity).
      destruct a as [p1 s1 q1 [n1 e1 m1 k1] g1], a' as [p2 s2 q2 [n2 e2 m2 k2] g2]. cbn in *. congruence.
    + apply nth_error_None in E'. rewrite (fr_nin _ _ _ _ _ F) in E'. apply nth_error_None in E'. congruence.
  - apply nth_error_None in E. rewrite <- (fr_nin _ _ _ _ _ F) in E. apply nth_error_None in E. exact E.
Qed.
Lemma kept_inwit d pubs t t' i : Frame (run_args d pubs) t t' -> inwit_at t' i = inwit_at t i.
Proof.
  intros F. destruct (fr_inwit _ _ _ _ _ F i) as (H1 & H2 & H3 & H4).
  assert (N1 : iw_issproof (inwit_at t' i) = iw_issproof (inwit_at t i)) by (apply H3; intros [X _]; apply X; destruct i; reflexivity).
  assert (N2 : iw_keysproof (inwit_at t' i) = iw_keysproof (inwit_at t i)) by (apply H4; intros [X _]; apply X; destruct i; reflexivity).
  destruct (inwit_at t' i), (inwit_at t i). cbn in *. congruence.
Qed.
Lemma kept_out d pubs t t' j : Frame (run_args d pubs) t t' -> nth j pubs [] = [] -> nth_error (vout t') j = nth_error (vout t) j.
Proof.
  intros F NW. destruct (nth_error (vout t) j) as [o|] eqn:E.
  - destruct (nth_error (vout t') j) as [o'|] eqn:E'.
    + destruct (fr_out _ _ _ _ _ F j o o' E E') as [_ X]. f_equal. apply X. intros W. exact (W NW).
    + apply nth_error_None in E'. rewrite (fr_nout _ _ _ _ _ F) in E'. apply nth_error_None in E'. congruence.
  - apply nth_error_None in E. rewrite <- (fr_nout _ _ _ _ _ F) in E. apply nth_error_None in E. exact E.
Qed.
Lemma null_at t : NullWit (wit t) -> (forall i, inwit_at t i = mkInWit [] [] [] []) /\ (forall j, outwit_at t j = mkOutWit [] []).
Proof.
  intros [A B]. split; intros i.
  - unfold inwit_at. destruct (nth_in_or_default i (vtxinwit (wit t)) (mkInWit [] [] [] [])) as [X|X]; [|exact X]. exact (proj1 (Forall_forall _ _) A _ X).
  - unfold outwit_at. destruct (nth_in_or_default i (vtxoutwit (wit t)) (mkOutWit [] [])) as [X|X]; [|exact X]. exact (proj1 (Forall_forall _ _) B _ X).
Qed.
Lemma at_null t : (forall i, inwit_at t i = mkInWit [] [] [] []) -> (forall j, outwit_at t j = mkOutWit [] []) -> NullWit (wit t).
Proof.
  intros A B. split; apply Forall_forall; intros w IN; apply In_nth_error in IN; destruct IN as [k E].
  - specialize (A k). unfold inwit_at in A. rewrite (nth_error_nth _ _ _ E) in A. exact A.
  - specialize (B k). unfold outwit_at in B. rewrite (nth_error_nth _ _ _ E) in B. exact B.
Qed.
Lemma start_null input_tx pub bkey dst dummy k utxo d fa fv script body v a fvb t pubs : dw_null dw ->
  Start input_tx pub bkey dst dummy k utxo d fa fv script body v a fvb t pubs -> NullWit (wit t).
Proof.
  intros DN ST. destruct (st_tx _ _ _ _ _ _ _ _ _ _ _ _ _ _ _ _ _ ST) as [(_ & -> & _)|(_ & _ & _ & v0 & _ & -> & _)]; cbn [spend_of add_out wit]; apply DN.
Qed.
Lemma same_serialized t t' : nVersion t' = nVersion t -> nLockTime t' = nLockTime t -> vin t' = vin t -> vout t' = vout t ->
  NullWit (wit t) -> NullWit (wit t') -> tx_serialize t' = tx_serialize t.
Proof.
  intros A B C D N N'. apply txwit_is_null_iff in N, N'. unfold tx_serialize, ser_tx. rewrite N, N', A, B, C, D. reflexivity.
Qed.
Lemma nothing_blinded d pubs t n bfs abfs s : blind_transaction z rand (run_args d pubs) t = (Ret (BSuccess n bfs abfs), s) -> NullWit (wit t) ->
  length (filter is_nonempty pubs) = 0%nat -> vin (s_tx s) = vin t /\ vout (s_tx s) = vout t /\ NullWit (wit (s_tx s))
    /\ nVersion (s_tx s) = nVersion t /\ nLockTime (s_tx s) = nLockTime t.
Proof.
  intros B N N0. assert (F := blind_transaction_frame z rand (run_args d pubs) t). rewrite B in F. cbn [snd] in F.
  destruct (null_at t N) as [NI NO]. split; [exact (kept_vin _ _ _ _ F)|]. split.
  { apply nth_error_ext. intros j. apply (kept_out _ _ _ _ _ F). apply none_wanted, N0. }
  split. { apply at_null; intros i; [rewrite (kept_inwit _ _ _ _ _ F); apply NI|]. rewrite (fr_outwit _ _ _ _ _ F); [apply NO|]. intros W. exact (W (none_wanted _ _ N0)). }
  split; [exact (fr_version _ _ _ _ _ F)|exact (fr_locktime _ _ _ _ _ F)].
Qed.
Lemma full_count d pubs t n bfs abfs s : blind_transaction z rand (run_args d pubs) t = (Ret (BSuccess n bfs abfs), s) -> n = length (filter is_nonempty pubs).
Proof.
  intros B. destruct (blind_success z rand _ t _ _ _ _ B) as (_ & A & _). rewrite (no_issuance_tasks d pubs t) in A. rewrite filter_tasks in A. apply A; [reflexivity|].
  intros (i & ps & inp & IN & _). rewrite no_issuance_tasks in IN. exact IN.
Qed.
(** The two assertions after blind() never fail. *)
Lemma never_fails input_tx pub bkey dst dummy l : dw_null dw -> program input_tx pub bkey dst dummy = AssertFailed l -> l = 126%nat.
Proof.
  intros DN H. apply program_cases in H. destruct H as [(k & utxo & d & fa & fv & script & body & v & a & fvb & t & pubs & ST & H)|H]; [|exact H].
  exfalso. apply complete_cases in H. destruct H as (unb & n & bfs & abfs & s & SU & B & [(_ & NE)|(_ & EN & N0 & b & SB & NE)]).
  - apply NE. exact (full_count _ _ _ _ _ _ _ B).
  - assert (N := start_null _ _ _ _ _ _ _ _ _ _ _ _ _ _ _ _ _ DN ST). destruct (nothing_blinded _ _ _ _ _ _ _ B N) as (H1 & H2 & H3 & H4 & H5); [congruence|].
    rewrite (same_serialized t (s_tx s) H4 H5 H1 H2 N H3) in SB. congruence.
Qed.
(** An output in plain sight is never sent to a confidential address. *)
Lemma explicit_to_confidential input_tx pub bkey dst dummy k utxo : FirstWith (vout input_tx) (p2sh_p2wpkh Hash160 pub) k utxo ->
  conf_is_explicit CConfValue (nValue utxo) = true -> ad_conf dst = true -> blinding_pubkey dst <> [] ->
  forall signed hex n bfs, program input_tx pub bkey dst dummy <> Printed signed hex n bfs.
Proof.
  intros FW EX CO NE signed hex n bfs H. apply program_cases in H. destruct H as [(k' & utxo' & d & fa & fv & script & body & v & a & fvb & t & pubs & ST & H)|H]; [|exact H].
  destruct (first_unique _ _ _ _ _ _ FW (st_first _ _ _ _ _ _ _ _ _ _ _ _ _ _ _ _ _ ST)) as [<- <-].
  apply complete_cases in H. destruct H as (unb & abfs & s & _ & B & _).
  assert (EP : pubs = [blinding_pubkey dst; []]).
  { destruct (st_tx _ _ _ _ _ _ _ _ _ _ _ _ _ _ _ _ _ ST) as [(_ & _ & ->)|(X & _)]; [rewrite CO; reflexivity|congruence]. }
  revert B. apply lone_output; [reflexivity|apply no_issuance_tasks| |].
  - unfold blinded_inputs. cbn [run_args a_descs filter]. destruct (st_opens _ _ _ _ _ _ _ _ _ _ _ _ _ _ _ _ _ ST) as [(a' & v' & _ & _ & ->)|(X & _)]; [|congruence].
    cbn [d_bf d_abf]. rewrite (proj2 (bytes_eqb_eq _ _) eq_refl). reflexivity.
  - rewrite (filter_tasks d pubs), EP. cbn [filter]. unfold is_nonempty at 1. destruct (blinding_pubkey dst) as [|b p]; [congruence|]. rewrite blen_cons. pose proof (blen_nonneg p).
    destruct (Z.eqb_spec (1 + blen p) 0); [lia|]. reflexivity.
Qed.

(** * The signature *)
Lemma sign_inv t pub amount signed : sign_tx z legacy Hash160 sign t pub amount = Ok signed ->
  exists i ins w ws ss st, vin t = i :: ins /\ vtxinwit (wit t) = w :: ws
    /\ signed = mkTx (mkTxIn (prevout i) ss (nSequence i) (assetIssuance i) (is_pegin i) :: ins) (vout t) (nLockTime t) (nVersion t)
                     (mkTxWit (mkInWit st [] [] [] :: ws) (vtxoutwit (wit t))).
Proof.
  unfold sign_tx. cbv zeta. destruct (sighash _ _ _ _ _ _ _ _) as [h|x]; cbn [rbind]; [|discriminate]. unfold set_script.
  destruct (vin t) as [|i ins]; [discriminate|]. destruct (vtxinwit (wit t)) as [|w ws]; [discriminate|]. intros H. apply Ok_inj in H. symmetry in H.
  exists i, ins, w, ws. do 2 eexists. split; [reflexivity|]. split; [reflexivity|exact H].
Qed.
Lemma sign_only t pub amount signed : sign_tx z legacy Hash160 sign t pub amount = Ok signed -> inwit_at t 0 = mkInWit [] [] [] [] -> OnlySigned t signed.
Proof.
  intros H N. apply sign_inv in H. destruct H as (i & ins & w & ws & ss & st & EI & EW & ->). unfold inwit_at in N. rewrite EW in N. cbn [nth] in N. subst w.
  constructor; cbn [nVersion nLockTime vout vin wit vtxoutwit vtxinwit]; try reflexivity.
  - rewrite EI. reflexivity.
  - intros [|j] x x' E E'; rewrite EI in E; cbn [nth_error] in E, E'.
    + injection E as <-. injection E' as <-. auto.
    + assert (x' = x) by congruence. subst x'. auto.
  - rewrite EW. reflexivity.
  - intros [|j]; unfold inwit_at; rewrite EW; cbn; auto.
Qed.

(** * What is printed *)
Lemma printed_pays input_tx pub bkey dst dummy signed hex n bfs : program input_tx pub bkey dst dummy = Printed signed hex n bfs ->
  exists k utxo d fa fv script, FirstWith (vout input_tx) (p2sh_p2wpkh Hash160 pub) k utxo /\ Opens z input_tx k utxo bkey d
    /\ FeeOf (vout input_tx) fa fv /\ to_scriptPubKey dst = Ok script
    /\ Pays z input_tx k d script fa fv (negb (ad_conf dst)) signed /\ tx_serialize signed = Ok hex.
Proof.
  intros H. apply program_cases in H. destruct H as [(k & utxo & d & fa & fv & script & body & v & a & fvb & t & pubs & ST & H)|[]].
  apply complete_cases in H. destruct H as (unb & abfs & s & _ & B & _ & SG & HX).
  assert (F := blind_transaction_frame z rand (run_args d pubs) t). rewrite B in F. cbn [snd] in F.
  destruct ST as [H1 H2 H3 H4 H5 H6 H7 H8 H9 H10]. exists k, utxo, d, fa, fv, script. repeat (split; [assumption|]). split; [|exact HX].
  assert (EV := kept_vin _ _ _ _ F). apply sign_inv in SG. destruct SG as (i & ins & w & ws & ss & st & EI & EW & ->). rewrite EI in EV.
  assert (VT : vin t = [plain_input (mkOutPoint (c_hash z body) (Z.of_nat k))]).
  { cbv zeta in H10. destruct H10 as [(_ & -> & _)|(_ & _ & _ & v0 & _ & -> & _)]; reflexivity. }
  rewrite VT in EV. injection EV as -> ->.
  assert (OT : exists rest, vout t = mkTxOut v script a [] :: mkTxOut fvb [] fa [] :: rest /\ (length rest <= 1)%nat /\ Forall (fun x => scriptPubKey x = [x6a]) rest
     /\ nth 1 pubs [] = [] /\ (ad_conf dst = false -> nth 0 pubs [] = [])).
  { cbv zeta in H10. destruct H10 as [(_ & -> & ->)|(_ & _ & _ & v0 & _ & -> & ->)]; cbn [spend_of add_out vout app nth].
    - exists []. split; [reflexivity|]. split; [cbn; lia|]. split; [constructor|]. split; [reflexivity|]. intros ->. reflexivity.
    - eexists. split; [reflexivity|]. split; [cbn; lia|]. split; [|auto]. constructor; [reflexivity|constructor]. }
  destruct OT as (rest & OT & LR & RR & P1 & P0).
  assert (E1 := kept_out _ _ _ _ 1 F P1). rewrite OT in E1. cbn [nth_error] in E1.
  assert (NO := fr_nout _ _ _ _ _ F). rewrite OT in NO.
  destruct (vout (s_tx s)) as [|o [|f rest']] eqn:EO; try discriminate NO. cbn [nth_error] in E1. injection E1 as ->.
  constructor; [exact H4| |].
  - exists body, (mkTxIn (mkOutPoint (c_hash z body) (Z.of_nat k)) ss 0xffffffff issuance_default false). cbn [vin]. split; [exact H6|].
    split; [reflexivity|]. cbn. auto.
  - cbn [vout]. exists o, (mkTxOut fvb [] fa []), rest'. split; [reflexivity|].
    assert (X := fr_out _ _ _ _ _ F 0%nat (mkTxOut v script a []) o ltac:(rewrite OT; reflexivity) ltac:(rewrite EO; reflexivity)). destruct X as [X1 X2].
    split; [exact X1|]. split.
    { intros PL. apply negb_true_iff in PL. rewrite X2; [|intros W; exact (W (P0 PL))]. cbn [nValue nAsset].
      split; [apply value_back; exact H7|]. apply asset_back; [exact (opens_asset _ _ _ _ _ _ H3)|exact H8]. }
    assert (TF := value_back _ _ H9). split.
    { unfold txout_is_fee. cbn [scriptPubKey nValue nAsset]. rewrite (amount_explicit _ _ TF), (fee_explicit _ _ _ H2). reflexivity. }
    split; [reflexivity|]. split; [exact TF|]. cbn [length] in NO. split; [lia|].
    apply Forall_forall. intros x IN. apply In_nth_error in IN. destruct IN as [j EJ].
    destruct (nth_error rest j) as [y|] eqn:EY; [|apply nth_error_None in EY; assert (j < length rest')%nat by (apply nth_error_Some; congruence); lia].
    destruct (fr_out _ _ _ _ _ F (S (S j)) y x ltac:(rewrite OT; exact EY) ltac:(rewrite EO; exact EJ)) as [-> _].
    exact (proj1 (Forall_forall _ _) RR y (nth_error_In _ _ EY)).
Qed.
End Program.
