(** Which exceptions leave blind(). *)
From Verif Require Import Base BaseFacts Serialize TxModel IssuanceModel ScriptModel MiscModel BlindModel BlindFacts SpecBlind BlindFrame BlindFails BlindSteps BlindTargets BlindCount BlindMain BlindOuts BlindComplete SpecExc.
From Coq Require Import Lia.
Local Open Scope Z_scope.

(** [tri P Q m s]: from [s], [m] ends with [Q] or raises an exception in [P] (or returns from blind()). *)
Section Tri.
Variable P : exn -> Prop.
Definition tri {A} (Q : A -> St -> Prop) (m : M A) (s : St) : Prop :=
  match m s with (Val a, s') => Q a s' | (Ret _, _) => True | (Exc e, _) => P e end.
Lemma tri_bind {A B} (Q : B -> St -> Prop) (m : M A) (k : A -> M B) s : tri (fun a s' => tri Q (k a) s') m s -> tri Q (mbind m k) s.
Proof. unfold tri, mbind. destruct (m s) as [[a|r|e] s']; auto. Qed.
Lemma tri_ret {A} (Q : A -> St -> Prop) a s : Q a s -> tri Q (mret a) s. Proof. exact (fun H => H). Qed.
Lemma tri_return {A} (Q : A -> St -> Prop) r s : tri Q (mreturn r) s. Proof. exact I. Qed.
Lemma tri_raise {A} (Q : A -> St -> Prop) e s : P e -> tri Q (mraise e) s. Proof. exact (fun H => H). Qed.
Lemma tri_lift {A} (Q : A -> St -> Prop) (r : res A) a s : r = Ok a -> Q a s -> tri Q (lift r) s. Proof. intros ->. exact (fun H => H). Qed.
Lemma tri_lib {A} (Q : A -> St -> Prop) (o : option A) s : (forall a, o = Some a -> Q a s) -> (o = None -> P ERuntime) -> tri Q (lib_call o) s.
Proof. intros H1 H2. destruct o as [a|]; [exact (H1 a eq_refl)|exact (H2 eq_refl)]. Qed.
Lemma tri_get (Q : tx -> St -> Prop) s : Q (s_tx s) s -> tri Q get_tx s. Proof. exact (fun H => H). Qed.
Lemma tri_put (Q : unit -> St -> Prop) t s : Q tt (mkSt t (s_draws s)) -> tri Q (put_tx t) s. Proof. exact (fun H => H). Qed.
Lemma tri_conseq {A} (Q Q' : A -> St -> Prop) m s : tri Q m s -> (forall a s', Q a s' -> Q' a s') -> tri Q' m s.
Proof. unfold tri. destruct (m s) as [[a|r|e] s']; auto. Qed.
Lemma tri_for {A L} (I : list A -> L -> St -> Prop) (body : A -> L -> M L) l st s :
  (forall p x r st s, l = p ++ x :: r -> I p st s -> tri (I (p ++ [x])) (body x st) s) -> I [] st s -> tri (I l) (for_in l body st) s.
Proof.
  intros STEP. assert (G : forall l0 p, p ++ l0 = l -> forall st s, I p st s -> tri (I l) (for_in l0 body st) s).
  { induction l0 as [|x l0 IH]; intros p E st0 s0 HI; cbn [for_in]; [apply tri_ret; rewrite app_nil_r in E; subst p; exact HI|].
    apply tri_bind. eapply tri_conseq; [eapply STEP; [symmetry; exact E|exact HI]|]. intros st1 s1 H1. apply (IH (p ++ [x])); [rewrite <- app_assoc; exact E|exact H1]. }
  apply (G l []). reflexivity.
Qed.
Lemma tri_nth {A} (Q : A -> St -> Prop) (l : list A) i x s : nth_error l i = Some x -> Q x s -> tri Q (lift (nth_res l i)) s.
Proof. intros E. apply tri_lift. apply nth_res_Ok. exact E. Qed.
Lemma tri_last {A} (Q : A -> St -> Prop) (l l' : list A) x s : l = l' ++ [x] -> Q x s -> tri Q (lift (last_res l)) s.
Proof. intros E. apply tri_lift. apply last_res_Ok. eauto. Qed.
Lemma tri_assert (Q : unit -> St -> Prop) b s : b = true -> Q tt s -> tri Q (lift (rassert b EAssert)) s.
Proof. intros ->. exact (fun H => H). Qed.
Lemma tri_mod_vin (Q : unit -> St -> Prop) n f s i : nth_error (vin (s_tx s)) n = Some i ->
  Q tt (mkSt (set_vin (s_tx s) (upd (vin (s_tx s)) n (f i))) (s_draws s)) -> tri Q (mod_vin n f) s.
Proof. intros E H. unfold mod_vin. apply tri_bind, tri_get, tri_bind. eapply tri_nth; [exact E|]. apply tri_put. exact H. Qed.
Lemma tri_mod_vout (Q : unit -> St -> Prop) n f s o : nth_error (vout (s_tx s)) n = Some o ->
  Q tt (mkSt (set_vout (s_tx s) (upd (vout (s_tx s)) n (f o))) (s_draws s)) -> tri Q (mod_vout n f) s.
Proof. intros E H. unfold mod_vout. apply tri_bind, tri_get, tri_bind. eapply tri_nth; [exact E|]. apply tri_put. exact H. Qed.
Lemma tri_mod_inwit (Q : unit -> St -> Prop) n f s w : nth_error (vtxinwit (wit (s_tx s))) n = Some w ->
  Q tt (mkSt (set_inwits (s_tx s) (upd (vtxinwit (wit (s_tx s))) n (f w))) (s_draws s)) -> tri Q (mod_inwit n f) s.
Proof. intros E H. unfold mod_inwit. apply tri_bind, tri_get, tri_bind. eapply tri_nth; [exact E|]. apply tri_put. exact H. Qed.
Lemma tri_mod_outwit (Q : unit -> St -> Prop) n f s w : nth_error (vtxoutwit (wit (s_tx s))) n = Some w ->
  Q tt (mkSt (set_outwits (s_tx s) (upd (vtxoutwit (wit (s_tx s))) n (f w))) (s_draws s)) -> tri Q (mod_outwit n f) s.
Proof. intros E H. unfold mod_outwit. apply tri_bind, tri_get, tri_bind. eapply tri_nth; [exact E|]. apply tri_put. exact H. Qed.
Lemma tri_Exc {A} (Q : A -> St -> Prop) m s e s' : tri Q m s -> m s = (Exc e, s') -> P e.
Proof. unfold tri. intros H E. rewrite E in H. exact H. Qed.
End Tri.

Lemma nth_lt {A} (l : list A) i : (i < length l)%nat -> exists x, nth_error l i = Some x.
Proof. intros H. destruct (nth_error l i) eqn:E; [eauto|]. apply nth_error_None in E. lia. Qed.
Lemma all_some_ok {A} (l : list A) : all_some (map Some l) = Ok l.
Proof. unfold all_some. induction l as [|x l IH]; [reflexivity|]. cbn [map rmap]. cbn [rbind]. rewrite IH. reflexivity. Qed.
Lemma skipn_none {A} num (l : list A) : skipn (length l) (map Some l ++ repeat None (num - length l)) = repeat None (num - length l).
Proof. rewrite <- (map_length Some l) at 1. rewrite skipn_app, Nat.sub_diag, skipn_all. reflexivity. Qed.
Lemma none_all {A} n : forallb (@is_none_b A) (repeat None n) = true.
Proof. induction n; [reflexivity|exact IHn]. Qed.
Lemma concat_blen n (l : list bytes) : Forall (fun x => blen x = n) l -> blen (concat l) = n * Z.of_nat (length l).
Proof. intros H. induction H as [|x l E _ IH]; [cbn; lia|]. cbn [concat length]. rewrite blen_app, IH, E. lia. Qed.
Lemma aligned_ok n (l : list bytes) : n = 32 \/ n = 64 -> Forall (fun x => blen x = n) l -> build_aligned_data_array l n = Ok (concat l).
Proof.
  intros N H. apply concat_blen in H. unfold build_aligned_data_array. cbv zeta. rewrite H.
  assert (n <> 0) by lia. replace (n mod 32 =? 0) with true by (destruct N as [-> | ->]; reflexivity). rewrite (proj2 (Z.eqb_neq n 0)) by assumption.
  rewrite Z.mul_comm, Z_mod_mult, Z_div_mult_full by assumption. rewrite !Z.eqb_refl. reflexivity.
Qed.
Lemma ser_outpoint_ok o : blen (op_hash o) = 32 -> 0 <= op_n o < 2 ^ 32 -> ser_outpoint o = Ok (op_hash o ++ le_bytes 4 (op_n o)).
Proof.
  intros H1 H2. unfold ser_outpoint, pack_le. rewrite H1. cbn [Z.eqb Pos.eqb negb].
  rewrite (proj2 (Z.leb_le 0 _)) by lia. change (256 ^ Z.of_nat 4) with (2 ^ 32). rewrite (proj2 (Z.ltb_lt _ (2 ^ 32))) by lia. reflexivity.
Qed.

Lemma bytes_dec (x y : bytes) : {x = y} + {x <> y}.
Proof. destruct (bytes_eqb x y) eqn:E; [left; apply bytes_eqb_eq; exact E|right; intros ->; assert (bytes_eqb y y = true) by (apply bytes_eqb_eq; reflexivity); congruence]. Qed.
Lemma in_firstn {A} n (l : list A) x : In x (firstn n l) -> In x l.
Proof. intros H. rewrite <- (firstn_skipn n l). apply in_or_app. auto. Qed.
Lemma nth_error_firstn_lt {A} (l : list A) : forall n k, (k < n)%nat -> nth_error (firstn n l) k = nth_error l k.
Proof. induction l as [|x l IH]; intros [|n] [|k] H; try lia; try reflexivity. cbn. apply IH. lia. Qed.

Section E.
Variables (z : Crypto) (rand : nat -> bytes) (args : blind_args) (t : tx).
Hypothesis SZ : SizesOk z.
Hypothesis RO : RandOk z rand.
Hypothesis WT : WellTyped z args t.
Notation Ref := (fun e => e = ERuntime /\ Refused z rand args t).

(** * The ids of an issuance are computed without an exception *)
Definition same_ids (inp inp' : txin) : Prop := prevout inp' = prevout inp /\ is_nonce (assetIssuance inp') = is_nonce (assetIssuance inp)
  /\ is_entropy (assetIssuance inp') = is_entropy (assetIssuance inp).
Lemma same_ids_entropy inp inp' e : same_ids inp inp' -> EntropyOf z inp' e -> EntropyOf z inp e.
Proof. intros (E1 & E2 & E3). unfold EntropyOf. rewrite E1, E2, E3. exact (fun H => H). Qed.
Lemma gae_ok inp : In inp (vin t) -> is_nonce (assetIssuance inp) = zeros 32 ->
  exists e, generate_asset_entropy (c_hash z) (c_mid z) (prevout inp) (is_entropy (assetIssuance inp)) = Ok e /\ EntropyOf z inp e /\ blen e = 32.
Proof.
  intros IN U. destruct (wt_inputs _ _ _ WT inp IN) as (H1 & H2 & H3).
  assert (E : generate_asset_entropy (c_hash z) (c_mid z) (prevout inp) (is_entropy (assetIssuance inp))
    = Ok (c_mid z (c_hash z (op_hash (prevout inp) ++ le_bytes 4 (op_n (prevout inp))) ++ is_entropy (assetIssuance inp)))).
  { unfold generate_asset_entropy. rewrite H1. cbn [Z.eqb Pos.eqb rassert rbind]. rewrite ser_outpoint_ok by assumption. cbn [rbind]. apply uint256_ok. apply SZ. }
  eexists. split; [exact E|]. split; [exact (gae_entropy z inp _ U E)|apply SZ].
Qed.
Lemma ca_val e : blen e = 32 -> calculate_asset (c_mid z) e = Ok (c_mid z (e ++ tag32 x00)).
Proof. intros H. unfold calculate_asset. rewrite H. cbn [Z.eqb Pos.eqb negb]. rewrite uint256_ok by apply SZ. destruct le32_tag as (-> & _). reflexivity. Qed.
Lemma crt_val e (b : bool) : blen e = 32 -> calculate_reissuance_token (c_mid z) e b = Ok (c_mid z (e ++ tag32 (if b then x02 else x01))).
Proof.
  intros H. unfold calculate_reissuance_token. rewrite H. cbn [Z.eqb Pos.eqb negb]. cbv zeta. rewrite uint256_ok by apply SZ.
  destruct le32_tag as (_ & T1 & T2). destruct b; rewrite ?T1, ?T2; reflexivity.
Qed.

(** * The targets *)
Definition TokOk (tok : option bytes) : Prop := forall tk, tok = Some tk -> exists inp e b, In inp (vin t) /\ EntropyOf z inp e /\ (b = x01 \/ b = x02) /\ tk = c_mid z (e ++ tag32 b).
Lemma TokOk_issued tok tk : TokOk tok -> tok = Some tk -> MadeId z t tk /\ tk <> zeros 32.
Proof. intros H E. destruct (H _ E) as (inp & e & b & I & EN & B & ->). split; [exists inp, e, b; tauto|exact (wt_token _ _ _ WT inp e b I EN B)]. Qed.
Lemma InputTargets_tok i tok inp l tok' : In inp (vin t) -> InputTargets z args i tok inp l tok' -> TokOk tok -> TokOk tok'.
Proof.
  intros IN (d & g & l1 & l2 & _ & _ & _ & _ & [(_ & _ & _ & _ & ->)|(e & _ & EN & N1 & N2 & _)]) H; [exact H|].
  destruct (bytes_dec (is_nonce (assetIssuance inp)) (zeros 32)) as [U|U]; [|rewrite (N1 U); exact H].
  rewrite (N2 U). intros tk E. injection E as <-. exists inp, e, (match nth i (a_token_keys args) None with Some _ => x02 | None => x01 end).
  repeat (split; [assumption|]). split; [destruct (nth i _ None); auto|reflexivity].
Qed.
Lemma TF_tok i tok p l tok' : TargetsFrom z args i tok p l tok' -> (forall x, In x p -> In x (vin t)) -> TokOk tok -> TokOk tok'.
Proof.
  intros H. induction H as [|i tok a rest l tok1 ls tok3 HI HT IH]; intros IN TK; [exact TK|].
  apply IH; [intros x X; apply IN; right; exact X|]. eapply InputTargets_tok; [apply IN; left; reflexivity|exact HI|exact TK].
Qed.
(** No token so far: no new issuance so far. *)
Lemma InputTargets_none i tok inp l : InputTargets z args i tok inp l None -> tok = None /\
  (is_amount (assetIssuance inp) <> [] \/ is_keys (assetIssuance inp) <> [] -> is_nonce (assetIssuance inp) <> zeros 32).
Proof.
  intros (d & g & l1 & l2 & _ & _ & _ & _ & [(A & B & _ & _ & E)|(e & IS & _ & N1 & N2 & _)]).
  - split; [congruence|]. rewrite A, B. intros [X|X]; congruence.
  - assert (U : is_nonce (assetIssuance inp) <> zeros 32) by (intros U; specialize (N2 U); discriminate). split; [symmetry; exact (N1 U)|auto].
Qed.
Lemma TF_none i tok p l tok' : TargetsFrom z args i tok p l tok' -> tok' = None -> tok = None /\
  forall k inp, nth_error p k = Some inp -> is_amount (assetIssuance inp) <> [] \/ is_keys (assetIssuance inp) <> [] -> is_nonce (assetIssuance inp) <> zeros 32.
Proof.
  intros H. induction H as [|i tok a rest l tok1 ls tok3 HI HT IH]; intros E.
  - split; [exact E|]. intros [|k] inp X; discriminate X.
  - destruct (IH E) as [-> IH2]. apply InputTargets_none in HI. destruct HI as [-> HI]. split; [reflexivity|].
    intros [|k] inp X; [injection X as <-; exact HI|]. cbn in X. exact (IH2 _ _ X).
Qed.

Definition Look (e : exn) : Prop := (e = ERuntime /\ Refused z rand args t) \/ (e = EUnboundLocal /\ TokenUnknown t).

Lemma add_target_tri (Q : Targets -> St -> Prop) P num l tok T tag g bl s : holds num l tok T -> (length l < num)%nat ->
  (forall T', holds num (l ++ [mkTarget tag g bl]) tok T' -> Q T' s) -> tri P Q (add_target T tag g bl) s.
Proof.
  intros HH HN HQ. unfold tri. destruct (add_target T tag g bl s) as [[T'|r|e] s'] eqn:E; [|exact I|].
  - apply (add_target_Val _ _ _ _ _ _ _ _ _ _ HH) in E. destruct E as [-> E]. exact (HQ _ E).
  - exfalso. exact (add_target_Exc _ _ _ _ _ _ _ _ _ _ HH HN E).
Qed.
Lemma bad_lengths : ~ bad_arguments args t -> length (a_descs args) = length (vin t) /\ (length (a_pubkeys args) <= length (vout t))%nat
  /\ (a_aux args = [] \/ (length (vin t) <= length (a_aux args))%nat).
Proof.
  intros N. unfold bad_arguments in N. destruct (Nat.eq_dec (length (a_descs args)) (length (vin t))) as [E|E]; [|exfalso; apply N; auto].
  split; [exact E|]. split; [destruct (Nat.le_gt_cases (length (a_pubkeys args)) (length (vout t))); [assumption|exfalso; apply N; auto]|].
  destruct (a_aux args) as [|a l]; [auto|]. right. destruct (Nat.le_gt_cases (length (vin t)) (length (a :: l))) as [|G]; [assumption|]. exfalso. apply N. right; right; right; right. split; [discriminate|auto].
Qed.
Lemma targets_input_tri i l tok T inp num : ~ bad_arguments args t -> nth_error (vin t) i = Some inp -> holds num l tok T -> (length l + 3 <= num)%nat -> TokOk tok ->
  (tok = None -> forall k inp', (k < i)%nat -> nth_error (vin t) k = Some inp' -> is_amount (assetIssuance inp') <> [] \/ is_keys (assetIssuance inp') <> [] ->
       is_nonce (assetIssuance inp') <> zeros 32) ->
  tri Look (fun _ _ => True) (targets_input z args i T) (mkSt t 0).
Proof.
  intros NB EI HH LN TK TN. destruct (bad_lengths NB) as (LD & _ & LA).
  assert (LI : (i < length (vin t))%nat) by (apply nth_error_Some; congruence). assert (IN := nth_error_In _ _ EI).
  destruct (nth_lt (a_descs args) i) as [d ED]; [lia|].
  unfold targets_input. apply tri_bind. eapply tri_nth; [exact ED|]. apply tri_bind.
  match goal with |- tri _ ?R ?m _ => assert (K : forall g, R g (mkSt t 0)) end.
  2:{ destruct (uint256_is_null (d_asset d)) eqn:U.
      - destruct (a_aux args) as [|a0 al] eqn:EA; [apply tri_return|]. rewrite <- EA. destruct LA as [LA|LA]; [congruence|]. rewrite <- EA in LA.
        destruct (nth_lt (a_aux args) i) as [ag EG]; [lia|]. apply tri_bind. eapply tri_nth; [exact EG|]. destruct (gen_parse z ag); [apply tri_ret, K|apply tri_return].
      - apply tri_lib; [intros g _; apply K|]. intros E. left. split; [reflexivity|]. eapply R_descriptor; [exact (nth_error_In _ _ ED)| |exact E]. intros X. apply null_eq in X. congruence. }
  intros g. cbv beta. apply tri_bind. eapply add_target_tri; [exact HH|lia|]. intros T1 H1. apply tri_bind, tri_get, tri_bind. cbn [s_tx]. eapply tri_nth; [exact EI|]. cbv zeta.
  destruct (issuance_is_null (assetIssuance inp)) eqn:NI; [apply tri_ret; exact I|].
  destruct (conf_is_commitment CConfValue (is_amount (assetIssuance inp))); [apply tri_return|]. destruct (conf_is_commitment CConfValue (is_keys (assetIssuance inp))); [apply tri_return|].
  apply tri_bind.
  match goal with |- tri _ ?R ?m _ => assert (K : forall asset T2 tok2, MadeId z t asset -> holds num (l ++ [mkTarget (d_asset d) g (d_abf d)]) tok2 T2 -> TokOk tok2 ->
     (tok2 = None -> tok = None /\ is_nonce (assetIssuance inp) <> zeros 32) -> R (asset, T2) (mkSt t 0)) end.
  2:{ destruct (uint256_is_null (is_nonce (assetIssuance inp))) eqn:U.
      - apply null_eq in U. destruct (gae_ok inp IN U) as (e & E1 & EN & L32). apply tri_bind. eapply tri_lift; [exact E1|]. apply tri_bind. eapply tri_lift; [exact (ca_val e L32)|].
        apply tri_bind. eapply tri_lift; [apply crt_val; exact L32|]. apply tri_ret.
        match goal with |- context [tag32 (if ?b then x02 else x01)] => set (bb := b) end.
        apply (K _ _ (Some (c_mid z (e ++ tag32 (if bb then x02 else x01))))).
        + exists inp, e, x00. auto.
        + destruct H1 as (A1 & A2 & A3 & A4 & A5 & A6). unfold holds, set_token. cbn. auto 10.
        + intros tk E. injection E as <-. exists inp, e, (if bb then x02 else x01). repeat (split; [assumption|]). split; [destruct bb; auto|reflexivity].
        + discriminate.
      - assert (U' : is_nonce (assetIssuance inp) <> zeros 32) by (intros X; apply null_eq in X; congruence).
        apply tri_bind. eapply tri_lift; [apply ca_val, (wt_inputs _ _ _ WT inp IN)|]. apply tri_ret. apply (K _ _ tok); auto.
        exists inp, (is_entropy (assetIssuance inp)), x00. split; [exact IN|]. split; [right; auto|auto]. }
  intros asset T2 tok2 IA H2 TK2 TN2. cbv beta iota. apply tri_bind.
  match goal with |- tri _ ?R ?m _ => assert (K : forall T3 l', (length l' <= 1)%nat -> holds num ((l ++ [mkTarget (d_asset d) g (d_abf d)]) ++ l') tok2 T3 -> R T3 (mkSt t 0)) end.
  2:{ destruct (conf_is_null (is_amount (assetIssuance inp))); [apply tri_ret; apply (K _ []); [cbn; lia|rewrite app_nil_r; exact H2]|].
      apply tri_bind, tri_lib; [|intros E; left; split; [reflexivity|eapply R_issued; eauto]]. intros gi _. eapply add_target_tri; [exact H2|rewrite app_length; cbn; lia|].
      intros T3 H3. eapply K; [|exact H3]. cbn. lia. }
  intros T3 l' LL H3. cbv beta. destruct (conf_is_null (is_keys (assetIssuance inp))) eqn:NK; [apply tri_ret; exact I|]. apply conf_null_neq in NK.
  assert (ET : t_token T3 = tok2) by apply H3. rewrite ET. destruct tok2 as [tk|].
  - destruct (TokOk_issued _ tk TK2 eq_refl) as [IT NT]. apply tri_bind, tri_assert; [apply negb_true_iff; destruct (uint256_is_null tk) eqn:X; [apply null_eq in X; contradiction|reflexivity]|].
    apply tri_bind, tri_lib; [|intros E; left; split; [reflexivity|eapply R_issued; eauto]]. intros gt _. eapply add_target_tri; [exact H3|rewrite !app_length; cbn; lia|]. auto.
  - apply tri_raise. right. split; [reflexivity|]. destruct (TN2 eq_refl) as [TN3 U]. exists i, inp. split; [exact EI|]. split; [exact U|]. split; [exact NK|exact (TN TN3)].
Qed.

Lemma targets_tri : ~ bad_arguments args t -> tri Look (fun _ _ => True) (surjection_targets z args) (mkSt t 0).
Proof.
  intros NB. destruct (bad_lengths NB) as (LD & _ & LA). unfold surjection_targets. apply tri_bind, tri_get. cbv zeta. cbn [s_tx]. set (num := (length (vin t) * 3 + _)%nat). apply tri_bind.
  eapply tri_conseq.
  { apply (tri_for Look (fun p T s0 => s0 = mkSt t 0 /\ exists l tok, TargetsFrom z args 0 None (firstn (length p) (vin t)) l tok /\ holds num l tok T)).
    - intros p x r st s HS (-> & l & tok & HF & HH). apply seq_split in HS. destruct HS as [-> HL]. cbn [Nat.add].
      destruct (nth_lt (vin t) (length p) HL) as [inp EI]. assert (B := TF_bound _ _ _ _ _ _ _ HF). rewrite firstn_length_le in B by lia.
      assert (TR : tri Look (fun _ _ => True) (targets_input z args (length p) st) (mkSt t 0)).
      { eapply targets_input_tri; [exact NB|exact EI|exact HH|unfold num; lia| |].
        - eapply TF_tok; [exact HF| |discriminate]. intros y Y. eapply in_firstn. exact Y.
        - intros -> k inp' HK EK. apply (TF_none _ _ _ _ _ HF eq_refl) with (k := k). rewrite nth_error_firstn_lt by exact HK. exact EK. }
      unfold tri in *. destruct (targets_input z args (length p) st (mkSt t 0)) as [[T'|y|e] s'] eqn:EB; [|exact I|exact TR].
      apply (targets_input_Val z args num _ l tok _ (mkSt t 0) _ _ inp EI HH) in EB. destruct EB as (-> & _ & _ & l' & tok' & HI & HH'). split; [reflexivity|]. exists (l ++ l'), tok'.
      rewrite app_length. cbn [length]. rewrite Nat.add_1_r, (firstn_S_nth _ _ _ EI). split; [|exact HH']. eapply TF_snoc; [exact HF|]. rewrite firstn_length_le by lia. exact HI.
    - split; [reflexivity|]. exists [], None. split; [constructor|]. unfold holds. cbn. rewrite Nat.sub_0_r. repeat split; auto. lia. }
  intros T s (-> & l & tok & HF & HH). rewrite seq_length, firstn_all in HF. assert (B := TF_bound _ _ _ _ _ _ _ HF). apply tri_bind.
  assert (Q : tri Look (fun T s0 => s0 = mkSt t 0 /\ exists l2, holds num l2 tok T)
    (match a_aux args with [] => mret T | _ :: _ => for_in (combine (seq (length (vin t)) (length (a_aux args) - length (vin t))) (skipn (length (vin t)) (a_aux args))) (targets_aux z) T end) (mkSt t 0)).
  { match goal with |- tri _ ?R (match _ with [] => _ | _ :: _ => ?X end) _ => assert (Q0 : tri Look R X (mkSt t 0)) end.
    2:{ revert Q0. generalize (for_in (combine (seq (length (vin t)) (length (a_aux args) - length (vin t))) (skipn (length (vin t)) (a_aux args))) (targets_aux z) T). intros X Q0. destruct (a_aux args); [apply tri_ret; eauto|exact Q0]. }
    destruct LA as [LA|LA].
    { rewrite LA, skipn_nil. cbn [length Nat.sub seq combine for_in]. apply tri_ret. eauto. }
    replace (length (a_aux args) - length (vin t))%nat with (length (skipn (length (vin t)) (a_aux args))) by apply skipn_length.
    assert (NUM : num = (length (vin t) * 3 + length (skipn (length (vin t)) (a_aux args)))%nat).
    { unfold num. rewrite skipn_length. destruct (a_aux args); [cbn; lia|reflexivity]. }
    clearbody num. eapply tri_conseq.
    { apply (tri_for Look (fun p T s0 => s0 = mkSt t 0 /\ exists l2, length l2 = (length l + length p)%nat /\ holds num l2 tok T)).
      - intros p [i x] r st s HS (-> & l2 & LL & H2). assert (HS2 := f_equal (@length _) HS). rewrite enum_length, app_length in HS2. cbn [length] in HS2.
        unfold targets_aux. destruct (gen_parse z x); [|apply tri_return].
        eapply add_target_tri; [exact H2|lia|]. intros T' H3. split; [reflexivity|]. eexists. split; [|exact H3]. rewrite !app_length, LL. cbn [length]. lia.
      - split; [reflexivity|]. exists l. split; [cbn; lia|exact HH]. }
    intros T2 s (-> & l2 & _ & H2). eauto. }
  eapply tri_conseq; [exact Q|]. intros T2 s (-> & l2 & H1 & H2 & H3 & H4 & H5 & H6).
  apply tri_bind, tri_assert; [rewrite H1, H3, map_length; apply Nat.eqb_refl|].
  apply tri_bind, tri_assert; [rewrite H1, H4, <- (map_length tg_tag l2), skipn_none; apply none_all|].
  apply tri_bind, tri_assert; [rewrite H1, H5, <- (map_length tg_gen l2), skipn_none; apply none_all|].
  apply tri_bind. eapply tri_lift; [rewrite H1, H4, <- (map_length tg_tag l2), firstn_holds; apply all_some_ok|].
  apply tri_bind. eapply tri_lift; [rewrite H1, H5, <- (map_length tg_gen l2), firstn_holds; apply all_some_ok|]. apply tri_ret. exact I.
Qed.
Lemma targets_sizes targets : ~ bad_arguments args t -> SurjectionTargets z args t targets ->
  Forall (fun x => blen x = 32) (map tg_tag targets) /\ Forall (fun x => blen x = 64) (map tg_gen targets).
Proof.
  intros NB (l1 & l2 & tok & HF & HA & ->).
  assert (G : Forall (fun g => blen (tg_tag g) = 32 /\ blen (tg_gen g) = 64) (l1 ++ l2)); [|split; apply Forall_map; eapply Forall_impl; [|exact G|idtac|exact G]; intros a X; apply X].
  apply Forall_app. split.
  - assert (TK : TokOk None) by discriminate. revert HF TK. assert (IN : forall x, In x (vin t) -> In x (vin t)) by auto. revert IN. generalize (vin t) at 1 3 as p. generalize 0%nat at 1 as i. generalize (@None bytes) as tk0. intros tk0 i p IN HF.
    induction HF as [|i tk a rest l tk1 ls tk2 HI HT IH]; intros TK; [constructor|]. assert (IA : In a (vin t)) by (apply IN; left; reflexivity).
    assert (TK1 := InputTargets_tok _ _ _ _ _ IA HI TK). apply Forall_app. split; [|apply IH; [intros x X; apply IN; right; exact X|exact TK1]].
    destruct HI as (d & g & m1 & m2 & ED & G1 & G2 & -> & HI). constructor; [|apply Forall_app].
    + cbn [tg_tag tg_gen]. split; [exact (wt_assets _ _ _ WT d (nth_error_In _ _ ED))|]. destruct (bytes_dec (d_asset d) (zeros 32)) as [Z0|Z0]; [destruct (G2 Z0) as (ag & _ & GP); exact (so_parse _ SZ _ _ GP)|exact (so_genb _ SZ _ _ _ (G1 Z0))].
    + destruct HI as [(_ & _ & -> & -> & _)|(e & _ & _ & _ & _ & [[_ ->]|(_ & gi & GG & ->)] & [[_ ->]|(_ & tk' & gt & ET & GT & ->)])]; (split; repeat constructor); cbn [tg_tag tg_gen];
        try apply SZ; try exact (so_gen _ SZ _ _ GG); try exact (so_gen _ SZ _ _ GT); destruct (TK1 _ ET) as (? & ? & ? & _ & _ & _ & ->); apply SZ.
  - clear HF. induction HA as [|ag tg la lb (g & GP & ->) _ IH]; [constructor|]. constructor; [|exact IH]. cbn [tg_tag tg_gen]. split; [reflexivity|exact (so_parse _ SZ _ _ GP)].
Qed.

Lemma counts_tri L : ~ bad_arguments args t -> tri Look (fun _ _ => True) (mbind (for_in (seq 0 (length (vin t))) (count_input args) L)
   (fun L => for_in (combine (seq 0 (length (a_pubkeys args))) (a_pubkeys args)) (count_output z) L)) (mkSt t 0).
Proof.
  intros NB. destruct (bad_lengths NB) as (LD & LP & _). apply tri_bind. eapply tri_conseq.
  { apply (tri_for Look (fun p L s => s = mkSt t 0)); [|reflexivity]. intros p x r st s HS ->. apply seq_split in HS. destruct HS as [-> HL]. cbn [Nat.add].
    destruct (nth_lt (vin t) (length p) HL) as [inp EI]. destruct (nth_lt (a_descs args) (length p)) as [d ED]; [lia|].
    unfold count_input. apply tri_bind. eapply tri_nth; [exact ED|]. apply tri_bind, tri_get, tri_bind.
    match goal with |- tri _ ?R _ _ => assert (K : forall L, R L (mkSt t 0)) end.
    2:{ destruct (_ || _); [destruct (_ <? _); [apply tri_return|]|]; apply tri_ret, K. }
    intros L1. cbv beta. apply tri_bind. eapply tri_nth; [exact EI|]. cbv zeta. destruct (issuance_is_null _); [apply tri_ret; reflexivity|]. apply tri_bind.
    match goal with |- tri _ ?R _ _ => assert (K : forall L, R L (mkSt t 0)) end.
    2:{ destruct (key_at (a_asset_keys args) _); [|apply tri_ret, K]. do 2 (match goal with |- tri _ _ (if ?b then _ else _) _ => destruct b; [apply tri_return|] end). apply tri_ret, K. }
    intros L2. cbv beta. destruct (key_at _ _); [|apply tri_ret; reflexivity]. destruct (negb _); [apply tri_return|]. destruct (proof_in_place _ _ _); [apply tri_return|apply tri_ret; reflexivity]. }
  intros L1 s ->. apply (tri_conseq Look (fun L s => s = mkSt t 0)); [|auto].
  apply (tri_for Look (fun p L s => s = mkSt t 0)); [|reflexivity]. intros p [j pub] r st s HS ->. apply enum_split in HS. destruct HS as (-> & EP & _). cbn [Nat.add].
  unfold count_output. destruct (negb _); [apply tri_ret; reflexivity|]. destruct (negb _); [apply tri_return|]. apply tri_bind, tri_get, tri_bind. cbn [s_tx].
  destruct (nth_lt (vout t) (length p)) as [o EO]. { assert (length p < length (a_pubkeys args))%nat by (apply nth_error_Some; congruence). lia. }
  eapply tri_nth; [exact EO|]. do 4 (match goal with |- tri _ _ (if ?b then _ else _) _ => destruct b; [apply tri_return|] end). apply tri_ret. reflexivity.
Qed.

(** * Blinding *)
Hypothesis NB : ~ bad_arguments args t.
Hypothesis NS : ~ stray_key args t.
Hypothesis NR : ~ token_key_for_reissuance args t.
Hypothesis IO : IndexOk z.

Lemma draw256_tri P (Q : bytes -> St -> Prop) s : Q (rand (s_draws s)) (mkSt (s_tx s) (S (s_draws s))) -> tri P Q (draw_uint256 rand) s.
Proof. intros H. unfold draw_uint256. apply tri_bind. change (tri P Q (lift (uint256_new (rand (s_draws s)))) (mkSt (s_tx s) (S (s_draws s)))). eapply tri_lift; [apply uint256_ok, RO|exact H]. Qed.
Lemma blinded_asset_tri (Q : bytes * bytes -> St -> Prop) v a ab s : Secret z rand args t v a ab ->
  (forall ca g, gen_generate_blinded z a ab = Some g -> blen g = 64 -> Q (ca, g) s) -> tri Ref Q (blinded_asset z a ab) s.
Proof.
  intros SE HQ. unfold blinded_asset. apply tri_bind, tri_lib; [|intros E; split; [reflexivity|eapply R_generator; eauto]]. intros g EG.
  apply tri_bind, tri_lib; [|intros E; split; [reflexivity|eapply R_generator_bytes; eauto]]. intros rc ER. apply (so_genser _ SZ) in ER. destruct ER as (d & LD & ER).
  assert (L33 : blen rc = 33) by (destruct ER; subst; rewrite blen_cons; lia).
  apply tri_bind. eapply tri_lift; [apply conf_new33; exact L33|]. apply tri_bind, tri_assert.
  { unfold conf_is_valid. apply orb_true_intro. right. unfold conf_is_commitment. rewrite L33. destruct ER; subst; reflexivity. }
  apply tri_ret, HQ; [exact EG|exact (so_genb _ SZ _ _ _ EG)].
Qed.
Lemma cvc_tri (Q : bytes * bytes -> St -> Prop) a ab g b v s : Secret z rand args t (c_uint64 v) a ab -> Factor z rand args t b -> gen_generate_blinded z a ab = Some g ->
  (forall cv c, ped_commit z b (c_uint64 v) g = Some c -> blen c = 64 -> Q (cv, c) s) -> tri Ref Q (create_value_commitment z b g v) s.
Proof.
  intros SE FA EG HQ. unfold create_value_commitment. apply tri_bind, tri_lib; [|intros E; split; [reflexivity|eapply R_commitment; eauto]]. intros c EC.
  apply tri_bind, tri_lib; [|intros E; split; [reflexivity|eapply R_commitment_bytes; eauto]]. intros rc ER. apply (so_comser _ SZ) in ER. destruct ER as (d & LD & ER).
  assert (L33 : blen rc = 33) by (destruct ER; subst; rewrite blen_cons; lia).
  apply tri_bind. eapply tri_lift; [apply conf_new33; exact L33|]. apply tri_bind, tri_assert.
  { unfold conf_is_valid. apply orb_true_intro. right. unfold conf_is_commitment. rewrite L33. destruct ER; subst; reflexivity. }
  apply tri_ret, HQ; [exact EC|exact (so_commit _ SZ _ _ _ _ EC)].
Qed.
Lemma rangeproof_tri (Q : bytes -> St -> Prop) bl bl' b abl abl' ab nonce v sc c g a s : bl = bl' ++ [b] -> abl = abl' ++ [ab] -> blen c = 64 -> blen g = 64 ->
  (rp_sign z (rangeproof_min_value sc) c b nonce (ct_exp args) (ct_bits args) (c_uint64 v) (a ++ ab) sc g = None -> Refused z rand args t) ->
  (forall p, Q p s) -> tri Ref Q (generate_rangeproof z bl nonce v sc c g a abl (a_ct_exponent args) (a_ct_bits args)) s.
Proof.
  intros EB EA LC LG HR HQ. unfold generate_rangeproof. rewrite LC, LG. cbn [Z.eqb Pos.eqb negb]. apply tri_bind, tri_ret, tri_bind, tri_ret, tri_bind.
  eapply tri_last; [exact EB|]. apply tri_bind. eapply tri_last; [exact EA|]. cbv zeta. rewrite !c_int_eq. apply tri_lib; [intros; apply HQ|].
  intros E. split; [reflexivity|]. apply HR. unfold ct_exp, ct_bits. exact E.
Qed.
Lemma to_amount_ok x : conf_is_explicit CConfValue x = true -> exists a, to_amount x = Ok a /\ ExplicitValue x (c_uint64 a).
Proof. intros E. assert (H : exists a, to_amount x = Ok a) by (unfold to_amount; rewrite E; eauto). destruct H as [a H]. exists a. split; [exact H|apply to_amount_explicit; exact H]. Qed.
Lemma to_asset_ok x : conf_is_explicit CConfAsset x = true -> exists a, to_asset x = Ok a /\ ExplicitAsset x a.
Proof.
  intros E. assert (H : exists a, to_asset x = Ok a).
  { unfold to_asset. rewrite E. unfold conf_is_explicit in E. apply andb_prop in E. destruct E as [E _]. apply Z.eqb_eq in E. destruct x as [|y ys]; [discriminate|]. rewrite blen_cons in E.
    change (explicitSize CConfAsset) with 33 in E. cbn [tl]. rewrite uint256_ok by lia. eauto. }
  destruct H as [a H]. exists a. split; [exact H|apply to_asset_explicit; exact H].
Qed.

Definition Terms (L : Loc) : Prop := exists l, Forall (Term z rand args t) l /\ map c_uint64 (l_amounts L) = map (fun x => fst (fst x)) l /\ l_assetblinds L = map (fun x => snd (fst x)) l /\ l_blinds L = map snd l.
Lemma Terms_snoc L L' v a ab b : Terms L -> Secret z rand args t (c_uint64 v) a ab -> l_amounts L' = l_amounts L ++ [v] -> l_assetblinds L' = l_assetblinds L ++ [ab] -> l_blinds L' = l_blinds L ++ [b] -> Drawn rand args t b -> Terms L'.
Proof.
  intros (l & H & E1 & E2 & E3) SE A B C DB. exists (l ++ [(c_uint64 v, ab, b)]). rewrite A, B, C, !map_app, E1, E2, E3. split; [|auto].
  apply Forall_app. split; [exact H|]. constructor; [econstructor; [exact SE|exact DB]|constructor].
Qed.
Definition Lens (L : Loc) : Prop := (length (l_blinds L) = (l_attempts L + l_blindsin L)%nat /\ length (l_amounts L) = length (l_blinds L)
  /\ length (l_assetblinds L) = length (l_blinds L) /\ (l_issattempts L <= l_attempts L)%nat) /\ (Terms L \/ (l_toblind L <= l_attempts L)%nat).
Notation K := (length (issuance_tasks args t)).
Definition wants (p : list (nat * bool)) : nat := length (filter (wants_issuance args) p).
Lemma wants_app p q : wants (p ++ q) = (wants p + wants q)%nat.
Proof. unfold wants. rewrite filter_app, app_length. reflexivity. Qed.
Lemma wants_slots p r : issuance_slots (length (vin t)) = p ++ r -> (wants p <= K)%nat.
Proof. intros E. unfold issuance_tasks. rewrite E, filter_app, app_length. unfold wants. lia. Qed.
Record IssSt (p : list (nat * bool)) (L : Loc) (s : St) : Prop := {
  is_lens : Lens L;
  is_nin : length (vin (s_tx s)) = length (vin t);
  is_in : forall i inp, nth_error (vin t) i = Some inp -> exists inp', nth_error (vin (s_tx s)) i = Some inp' /\ same_ids inp inp'
            /\ forall ps, ~ In (i, ps) p -> iss_field ps inp' = iss_field ps inp;
  is_out : vout (s_tx s) = vout t;
  is_draws : (s_draws s <= wants p)%nat
}.
Lemma pseudo_tri L0 n ps p L s : Counted z args t L0 -> (n < length (vin t))%nat -> ~ In (n, ps) p -> (wants (p ++ [(n, ps)]) <= K)%nat -> IssSt p L s -> tri Ref (IssSt (p ++ [(n, ps)])) (blind_pseudo z rand args n ps L) s.
Proof.
  intros CT LN NI WK [IL I1 I2 I3 I4]. rewrite wants_app in WK. unfold blind_pseudo. rewrite key_at_nth. destruct (nth n _ None) as [key|] eqn:KY.
  2:{ apply tri_ret. constructor; try assumption; [|rewrite wants_app; lia]. intros i inp E. destruct (I2 i inp E) as (inp' & A & B & C). exists inp'. split; [exact A|]. split; [exact B|]. intros q NQ. apply C. intros X. apply NQ. apply in_or_app. auto. }
  cbv zeta. destruct (nth_lt (vin t) n LN) as [inp0 E0]. assert (IN0 := nth_error_In _ _ E0).
  assert (W : wants_issuance args (n, ps) = true) by (unfold wants_issuance; cbn [fst snd]; rewrite KY; reflexivity).
  assert (W1 : wants [(n, ps)] = 1%nat) by (unfold wants; cbn [filter]; rewrite W; reflexivity). rewrite W1 in WK.
  assert (DR : Drawn rand args t (rand (s_draws s))) by (exists (s_draws s); split; [unfold draws; lia|reflexivity]).
  assert (TA : In (n, ps) (issuance_tasks args t)).
  { unfold issuance_tasks. apply filter_In. split; [|exact W]. unfold issuance_slots. apply in_flat_map. exists n. split; [apply in_seq; lia|]. destruct ps; cbn; auto. }
  assert (NN : issuance_is_null (assetIssuance inp0) = false).
  { destruct (issuance_is_null (assetIssuance inp0)) eqn:X; [|reflexivity]. exfalso. apply NS. apply issuance_null in X. exists n, ps, inp0. tauto. }
  destruct (ct_iss _ _ _ _ CT n ps inp0 E0 W NN) as [EX _]. destruct (I2 n inp0 E0) as (inp & EI & SI & FI). specialize (FI ps NI).
  assert (U2 : ps = true -> is_nonce (assetIssuance inp0) = zeros 32).
  { intros ->. destruct (bytes_dec (is_nonce (assetIssuance inp0)) (zeros 32)) as [|U]; [assumption|]. exfalso. apply NR. exists n, inp0, key. auto. }
  apply tri_bind, tri_get, tri_bind. eapply tri_nth; [exact EI|]. change (if ps then is_keys (assetIssuance inp) else is_amount (assetIssuance inp)) with (iss_field ps inp). rewrite FI.
  destruct (conf_is_null (iss_field ps inp0)) eqn:CN; [exfalso; apply conf_null_eq in CN; rewrite CN in EX; discriminate EX|].
  destruct (to_amount_ok _ EX) as (amount & EA & EV). apply tri_bind. eapply tri_lift; [exact EA|]. apply tri_bind.
  match goal with |- tri _ ?R _ _ => set (RR := R); assert (KK : forall asset, MadeId z t asset -> RR (Some asset) s) end.
  2:{ destruct SI as (S1 & S2 & S3). rewrite S1, S2, S3. destruct (uint256_is_null (is_nonce (assetIssuance inp0))) eqn:U.
      - apply null_eq in U. destruct (gae_ok inp0 IN0 U) as (e & E1 & EN & L32). apply tri_bind. eapply tri_lift; [exact E1|]. apply tri_bind. destruct ps.
        + eapply tri_lift; [exact (crt_val e true L32)|]. apply tri_ret, KK. exists inp0, e, x02. split; [exact IN0|]. split; [exact EN|]. split; [auto|reflexivity].
        + eapply tri_lift; [exact (ca_val e L32)|]. apply tri_ret, KK. exists inp0, e, x00. split; [exact IN0|]. split; [exact EN|]. split; [auto|reflexivity].
      - assert (U' : is_nonce (assetIssuance inp0) <> zeros 32) by (intros X; apply null_eq in X; congruence). destruct ps; [exfalso; exact (U' (U2 eq_refl))|].
        apply tri_bind. eapply tri_lift; [apply ca_val, (wt_inputs _ _ _ WT inp0 IN0)|]. apply tri_ret, KK. exists inp0, (is_entropy (assetIssuance inp0)), x00. split; [exact IN0|]. split; [right; auto|auto]. }
  intros asset IA. unfold RR. cbv beta iota. assert (SE : Secret z rand args t (c_uint64 amount) asset (zeros 32)) by (eapply Secret_issuance; eauto).
  apply tri_bind, draw256_tri. destruct (_ =? _)%nat; [apply tri_return|].
  apply tri_bind, tri_get, tri_bind, tri_put. cbn [s_tx s_draws]. apply tri_bind. eapply blinded_asset_tri; [exact SE|]. intros ca g EG LG. cbn [snd].
  apply tri_bind. eapply cvc_tri; [exact SE|left; exact DR|exact EG|]. intros cv c EC LC. cbv beta iota. apply tri_bind. eapply tri_mod_vin; [exact EI|]. cbn [s_tx s_draws set_inwits vin].
  apply tri_bind. eapply tri_lift; [apply uint256_ok, (wt_keys _ _ _ WT n); destruct ps; auto|]. apply tri_bind.
  eapply rangeproof_tri; [reflexivity|reflexivity|exact LC|exact LG| |].
  { intros E. eapply (R_range_issuance _ _ _ _ n ps key); [exact KY|exact SE|exact DR|exact EG|exact EC|exact E]. }
  intros proof. apply tri_bind.
  destruct (nth_lt (pad_to (S n) inwit_null (vtxinwit (wit (s_tx s)))) n) as [w EW]; [rewrite pad_to_length; lia|].
  eapply tri_mod_inwit; [exact EW|]. apply tri_ret. destruct IL as ((L1 & L2 & L3 & L4) & LT). constructor.
  - split; [cbn; rewrite !app_length; cbn; lia|]. destruct LT as [LT|LT]; [left|right; cbn; lia]. eapply Terms_snoc; [exact LT|exact SE|reflexivity|reflexivity|reflexivity|exact DR].
  - cbn. rewrite upd_length. exact I1.
  - cbn. intros i inp1 E1. destruct (I2 i inp1 E1) as (inp' & A & B & C). rewrite upd_nth. destruct (Nat.eqb_spec n i) as [EQ|NE].
    + subst i. assert (inp' = inp) by congruence. assert (inp1 = inp0) by congruence. subst inp' inp1.
      assert (LTN : (n <? length (vin (s_tx s)))%nat = true) by (apply Nat.ltb_lt; lia). rewrite ?LTN. eexists. split; [reflexivity|]. split; [destruct B as (B1 & B2 & B3); destruct ps; repeat split; assumption|].
      intros q NQ. assert (~ In (n, q) p) by (intros X; apply NQ, in_or_app; auto). destruct ps, q; try (exfalso; apply NQ, in_or_app; right; left; reflexivity); exact (C _ H).
    + exists inp'. split; [exact A|]. split; [exact B|]. intros q NQ. apply C. intros X. apply NQ, in_or_app. auto.
  - exact I3.
  - cbn. rewrite wants_app, W1. lia.
Qed.
Lemma IssSt_init L0 : Counted z args t L0 -> IssSt [] L0 (mkSt t 0).
Proof.
  intros CT.
  constructor; [|reflexivity| |reflexivity|apply Nat.le_0_l].
      + split; [|left; exists (map (fun d => (c_uint64 (d_amount d), d_abf d, d_bf d)) (blinded_inputs args)); rewrite (ct_blinds _ _ _ _ CT), (ct_amounts _ _ _ _ CT), (ct_ablinds _ _ _ _ CT), !map_map; split; [|auto]].
        2:{ apply Forall_forall. intros x X. apply in_map_iff in X. destruct X as (d & <- & ID). apply filter_In in ID. apply Term_input. apply ID. }
        rewrite (ct_blinds _ _ _ _ CT), (ct_amounts _ _ _ _ CT), (ct_ablinds _ _ _ _ CT), (ct_attempts _ _ _ _ CT), (ct_issattempts _ _ _ _ CT), (ct_blindsin _ _ _ _ CT), !map_length. lia.
      + intros i inp E. exists inp. split; [exact E|]. split; [repeat split|reflexivity].
Qed.
Lemma inputs_tri L0 : Counted z args t L0 -> tri Ref (fun L s => Lens L /\ vout (s_tx s) = vout t /\ (s_draws s <= K)%nat) (for_in (seq 0 (length (vin t))) (blind_input z rand args) L0) (mkSt t 0).
Proof.
  intros CT. eapply tri_conseq.
  { apply (tri_for _ (fun p L s => IssSt (flat_map (fun i => [(i, false); (i, true)]) p) L s)).
    - intros p x r st s HS H. apply seq_split in HS as HX. destruct HX as [-> HL]. cbn [Nat.add]. unfold blind_input.
      assert (NP : forall q, ~ In (length p, q) (flat_map (fun i => [(i, false); (i, true)]) p)).
      { intros q X. apply in_flat_map in X. destruct X as (i & IP & X). assert (i = length p) by (destruct X as [X|[X|[]]]; congruence). subst i.
        assert (ND := seq_NoDup (length (vin t)) 0). rewrite HS in ND. apply NoDup_remove_2 in ND. apply ND. apply in_or_app. left. exact IP. }
      assert (SL : issuance_slots (length (vin t)) = ((flat_map (fun i => [(i, false); (i, true)]) p ++ [(length p, false)]) ++ [(length p, true)]) ++ flat_map (fun i => [(i, false); (i, true)]) r).
      { unfold issuance_slots. rewrite HS, flat_map_app. cbn [flat_map Nat.add]. rewrite <- !app_assoc. reflexivity. }
      apply tri_bind. eapply tri_conseq; [eapply pseudo_tri; [exact CT|exact HL|apply NP|rewrite <- app_assoc in SL; exact (wants_slots _ _ SL)|exact H]|]. intros L1 s1 H1. rewrite flat_map_app. cbn [flat_map app].
      change [(length p, false); (length p, true)] with ([(length p, false)] ++ [(length p, true)]). rewrite app_assoc. eapply pseudo_tri; [exact CT|exact HL| |exact (wants_slots _ _ SL)|exact H1].
      intros X. apply in_app_or in X. destruct X as [X|[X|[]]]; [exact (NP _ X)|discriminate].
    - exact (IssSt_init L0 CT). }
  intros L s [A _ _ B C]. split; [exact A|]. split; [exact B|exact C].
Qed.

Record OutSt (m : nat) (s : St) : Prop := {
  os_len : length (vout (s_tx s)) = length (vout t);
  os_wit : (length (vout t) <= length (vtxoutwit (wit (s_tx s))))%nat;
  os_rest : forall j, (m <= j)%nat -> nth_error (vout (s_tx s)) j = nth_error (vout t) j;
  os_script : forall j o o', nth_error (vout t) j = Some o -> nth_error (vout (s_tx s)) j = Some o' -> scriptPubKey o' = scriptPubKey o
}.
Lemma mod_vout_tri P (Q : unit -> St -> Prop) n f s : OutSt (S n) s -> (n < length (vout t))%nat -> (forall o, scriptPubKey (f o) = scriptPubKey o) ->
  (forall s', OutSt (S n) s' -> s_draws s' = s_draws s -> Q tt s') -> tri P Q (mod_vout n f) s.
Proof.
  intros [A B C D] LN HF HQ. destruct (nth_lt (vout (s_tx s)) n) as [o EO]; [lia|]. eapply tri_mod_vout; [exact EO|]. apply HQ; [|reflexivity]. constructor; cbn.
  - rewrite upd_length. exact A.
  - exact B.
  - intros j Hj. rewrite upd_nth_other by lia. apply C. exact Hj.
  - intros j o1 o1' E1 E2. rewrite upd_nth in E2. destruct (Nat.eqb_spec n j) as [EQ|NE]; [|eapply D; eauto]. subst j.
    assert (LT : (n <? length (vout (s_tx s)))%nat = true) by (apply Nat.ltb_lt; lia). rewrite ?LT in E2. injection E2 as <-. rewrite HF. eapply D; eauto.
Qed.
Lemma finish_tri targets n pub o asset amount L s bl b abl ab B : SurjectionTargets z args t targets -> OutSt (S n) s ->
  nth_error (a_pubkeys args) n = Some pub -> pub <> [] -> nth_error (vout t) n = Some o -> ExplicitValue (nValue o) (c_uint64 amount) -> ExplicitAsset (nAsset o) asset ->
  l_blinds L = bl ++ [b] -> l_assetblinds L = abl ++ [ab] -> Drawn rand args t ab -> (s_draws s + 2 <= B)%nat -> (B <= draws args t)%nat -> Factor z rand args t b -> Lens L ->
  tri Ref (fun L s => (Lens L /\ OutSt (S n) s) /\ (s_draws s <= B)%nat) (finish_output z rand args (map tg_tag targets) (map tg_gen targets) (map tg_blind targets) n pub asset amount L) s.
Proof.
  intros ST OS EP NP EO EV EA EB EAB DA DB BD FA LE. destruct (targets_sizes targets NB ST) as [TZ1 TZ2]. assert (LN : (n < length (vout t))%nat) by (apply nth_error_Some; congruence).
  assert (SE : Secret z rand args t (c_uint64 amount) asset ab) by (eapply Secret_output; eauto).
  unfold finish_output. apply tri_bind. eapply tri_last; [exact EB|]. apply tri_bind. eapply tri_last; [exact EAB|]. cbv zeta. apply tri_bind. eapply blinded_asset_tri; [exact SE|]. intros ca g EG LG. cbv beta iota.
  apply tri_bind. apply mod_vout_tri; [exact OS|exact LN|reflexivity|]. intros s1 OS1 D1. apply tri_bind. eapply cvc_tri; [exact SE|exact FA|exact EG|]. intros cv c EC LC. cbv beta iota.
  apply tri_bind. apply mod_vout_tri; [exact OS1|exact LN|reflexivity|]. intros s2 OS2 D2. apply tri_bind.
  unfold generate_output_rangeproof_nonce. apply tri_bind. change (draw rand s2) with (draw rand s2).
  match goal with |- tri _ ?R (draw rand) s2 => change (R (rand (s_draws s2)) (mkSt (s_tx s2) (S (s_draws s2)))) end. cbv beta.
  assert (OS3 : OutSt (S n) (mkSt (s_tx s2) (S (s_draws s2)))) by (destruct OS2; constructor; assumption). set (s3 := mkSt (s_tx s2) (S (s_draws s2))) in *. set (kk := s_draws s2) in *.
  assert (DK : Drawn rand args t (rand kk)) by (exists kk; split; [lia|reflexivity]).
  rewrite (proj2 (RO kk)). apply tri_bind, tri_ret. cbv zeta. destruct (so_pub _ SZ _ (proj2 (RO kk))) as (d & LD & PD). assert (L33 : blen (sk_pub z (rand kk)) = 33) by (destruct PD as [-> | ->]; rewrite blen_cons; lia).
  apply tri_bind, tri_assert; [rewrite L33; reflexivity|]. apply tri_bind, tri_lib; [|intros E; split; [reflexivity|eapply R_ecdh; [exact (nth_error_In _ _ EP)|exact NP|exact DK|exact E]]]. intros sh ESH.
  apply tri_bind. eapply tri_lift; [apply uint256_ok, SZ|]. apply tri_ret. cbv beta iota. apply tri_bind. eapply tri_lift; [apply conf_new33; exact L33|].
  apply tri_bind. apply mod_vout_tri; [exact OS3|exact LN|reflexivity|]. intros s4 OS4 D4. apply tri_bind, tri_get, tri_bind.
  destruct (nth_lt (vout (s_tx s4)) n) as [o4 E4]; [rewrite (os_len _ _ OS4); exact LN|]. eapply tri_nth; [exact E4|]. assert (SC := os_script _ _ OS4 _ _ _ EO E4). apply tri_bind.
  eapply rangeproof_tri; [exact EB|exact EAB|exact LC|exact LG| |].
  { intros E. rewrite SC in E. destruct (min_value_spec (scriptPubKey o)) as [M0 M1]. eapply R_range_output; [exact EP|exact NP|exact EO|exact EV|exact EA|exact M0|exact M1|exact DA|exact DK|exact FA|exact EG|exact EC|exact ESH|exact E]. }
  intros rp. apply tri_bind. unfold generate_surjectionproof. cbv zeta. apply tri_bind.
  match goal with |- tri _ ?R (draw rand) s4 => change (R (rand (s_draws s4)) (mkSt (s_tx s4) (S (s_draws s4)))) end. cbv beta.
  assert (OS5 : OutSt (S n) (mkSt (s_tx s4) (S (s_draws s4)))) by (destruct OS4; constructor; assumption). set (s5 := mkSt (s_tx s4) (S (s_draws s4))) in *. set (seed := rand (s_draws s4)) in *.
  assert (D5 : (s_draws s5 <= B)%nat) by (unfold s5; cbn [s_draws]; rewrite D4; unfold s3; cbn [s_draws]; lia).
  assert (DS : Drawn rand args t seed) by (exists (s_draws s4); split; [unfold s5 in D5; cbn [s_draws] in D5; lia|reflexivity]).
  apply tri_bind. eapply tri_lift; [apply aligned_ok; [left; reflexivity|exact TZ1]|]. rewrite map_length.
  destruct (sp_init z _ _ _ _ _ _) as [[p0 ix]|] eqn:EI; [|apply tri_ret, tri_ret; split; [split; [exact LE|exact OS5]|exact D5]].
  apply tri_bind. eapply tri_lift; [apply aligned_ok; [right; reflexivity|exact TZ2]|]. assert (LX := IO _ _ _ _ _ _ _ _ EI). destruct (nth_lt targets ix LX) as [tg ETG].
  apply tri_bind. eapply tri_nth; [rewrite nth_error_map, ETG; reflexivity|]. apply tri_bind. eapply tri_last; [exact EAB|]. rewrite map_length. apply tri_bind, tri_lib.
  2:{ intros E. split; [reflexivity|]. eapply R_surjection; [exact ST|exact SE|exact DS|exact EG|exact EI|exact ETG|exact E]. }
  intros pr EPR. apply tri_bind. destruct (sp_verify z pr _ _ _) eqn:EVF; [apply tri_ret|apply tri_raise; split; [reflexivity|eapply R_surjection_wrong; [exact ST|exact SE|exact DS|exact EG|exact EI|exact ETG|exact EPR|exact EVF]]].
  apply tri_ret. destruct (sp_serialize z pr) as [|y ys]; [apply tri_ret; split; [split; [exact LE|exact OS5]|exact D5]|]. apply tri_bind.
  destruct (nth_lt (vtxoutwit (wit (s_tx s5))) n) as [w EW]; [assert (X := os_wit _ _ OS5); lia|]. eapply tri_mod_outwit; [exact EW|]. apply tri_ret. split; [|exact D5]. split; [exact LE|].
  destruct OS5 as [O1 O2 O3 O4]. constructor; cbn; [exact O1|rewrite upd_length; exact O2|exact O3|exact O4].
Qed.
Lemma output_tri targets L0 n pub L s : Counted z args t L0 -> SurjectionTargets z args t targets -> nth_error (a_pubkeys args) n = Some pub -> OutSt n s -> Lens L -> (s_draws s <= K + 4 * length (outs_to args n))%nat ->
  tri Ref (fun L s => (Lens L /\ OutSt (S n) s) /\ (s_draws s <= K + 4 * length (outs_to args (S n)))%nat) (blind_output z rand args (map tg_tag targets) (map tg_gen targets) (map tg_blind targets) (n, pub) L) s.
Proof.
  intros CT ST EP OS LE DR. rewrite outs_S, app_length, (wants_nonempty _ _ _ EP).
  assert (BD : is_nonempty pub = true -> (K + 4 * (length (outs_to args n) + 1) <= draws args t)%nat).
  { intros NE. unfold draws. rewrite output_tasks_outs. destruct (outs_app args (S n) (length (a_pubkeys args))) as [r ER]; [apply nth_error_Some; congruence|].
    rewrite ER, outs_S, (wants_nonempty _ _ _ EP), NE, !app_length. cbn [length]. lia. }
  assert (OS' : OutSt (S n) s) by (destruct OS as [A B C D]; constructor; auto; intros j Hj; apply C; lia).
  unfold blind_output. destruct (is_fullyvalid z pub) eqn:FV; cbn [negb]; [|apply tri_ret; split; [auto|lia]].
  assert (NE : is_nonempty pub = true) by (unfold is_fullyvalid in FV; apply andb_prop in FV; apply FV). assert (NP : pub <> []) by (intros ->; discriminate NE). specialize (BD NE). rewrite NE. cbn [length].
  destruct (ct_outs _ _ _ _ CT n pub EP NE) as (_ & o & EO & XV & XA & _). apply tri_bind, tri_get, tri_bind. eapply tri_nth; [rewrite (os_rest _ _ OS n (le_n n)); exact EO|]. cbv zeta.
  destruct (to_amount_ok _ XV) as (amount & EA & EV). destruct (to_asset_ok _ XA) as (asset & ES & EX). apply tri_bind. eapply tri_lift; [exact EA|]. apply tri_bind. eapply tri_lift; [exact ES|].
  apply tri_bind, draw256_tri. apply tri_bind, draw256_tri. cbn [s_tx s_draws].
  set (s2 := mkSt (s_tx s) (S (S (s_draws s)))). assert (OS2 : OutSt (S n) s2) by (destruct OS'; constructor; assumption).
  assert (DR1 : Drawn rand args t (rand (s_draws s))) by (exists (s_draws s); split; [lia|reflexivity]).
  assert (DR2 : Drawn rand args t (rand (S (s_draws s)))) by (exists (S (s_draws s)); split; [lia|reflexivity]).
  assert (DR3 : (s_draws s2 + 2 <= K + 4 * (length (outs_to args n) + 1))%nat) by (unfold s2; cbn [s_draws]; lia).
  assert (SE : Secret z rand args t (c_uint64 amount) asset (rand (S (s_draws s)))) by (eapply Secret_output; eauto).
  destruct LE as ((L1 & L2 & L3 & L4) & LT).
  match goal with |- context [finish_output _ _ _ _ _ _ _ _ _ _ ?X] => match X with add_blind _ _ _ => set (LL := X) end end.
  assert (LE1 : length (l_blinds LL) = (l_attempts LL + l_blindsin LL)%nat /\ length (l_amounts LL) = length (l_blinds LL)
    /\ length (l_assetblinds LL) = length (l_blinds LL) /\ (l_issattempts LL < l_attempts LL)%nat) by (unfold LL; cbn; rewrite !app_length; cbn; lia).
  assert (LT2 : Terms LL \/ (l_toblind LL < l_attempts LL)%nat).
  { destruct LT as [LT|LT]; [left; eapply Terms_snoc; [exact LT|exact SE|reflexivity|reflexivity|reflexivity|exact DR1]|right; unfold LL; cbn; lia]. }
  destruct LE1 as (M1 & M2 & M3 & M4). destruct (Nat.eqb_spec (l_attempts LL) (l_toblind LL)) as [EQ|NQ].
  - destruct (_ && _); [apply tri_return|]. apply tri_bind. unfold balance_last. cbv zeta. destruct LT2 as [(l & HL & T1 & T2 & T3)|LT2]; [|lia].
    assert (LLN : length l = length (l_blinds LL)) by (rewrite T3, map_length; reflexivity).
    apply tri_bind, tri_assert; [apply Nat.eqb_eq; exact M1|]. apply tri_bind, tri_assert; [apply Nat.eqb_eq; exact M2|].
    apply tri_bind. rewrite T1, T2, T3, <- M1, <- LLN.
    match goal with |- tri _ _ (lib_call ?X) _ => change X with (balance_of z l (l_issattempts LL + l_blindsin LL)) end.
    assert (LI : (l_issattempts LL + l_blindsin LL < length l)%nat) by lia.
    apply tri_lib; [|intros E; split; [reflexivity|eapply R_balance; [exact HL|exact LI|exact E]]]. intros b EB.
    apply tri_bind. eapply tri_lift; [apply uint256_ok; exact (so_sum _ SZ _ _ _ _ _ _ EB)|]. apply tri_ret. destruct (uint256_is_null b); [apply tri_return|].
    eapply finish_tri; [exact ST|exact OS2|exact EP|exact NP|exact EO|exact EV|exact EX|reflexivity|reflexivity|exact DR2|exact DR3|exact BD|right; eauto|].
    split; [|right; change (l_toblind LL <= l_attempts LL)%nat; lia]. clear - M1 M2 M3 M4. unfold LL in *. cbn in *. rewrite removelast_last. rewrite !app_length in *. cbn in *. lia.
  - eapply finish_tri; [exact ST|exact OS2|exact EP|exact NP|exact EO|exact EV|exact EX|reflexivity|reflexivity|exact DR2|exact DR3|exact BD|left; exact DR1|]. split; [lia|]. destruct LT2; [auto|right; lia].
Qed.
Lemma acts_tri targets L0 : Counted z args t L0 -> SurjectionTargets z args t targets ->
  tri Ref (fun _ _ => True) (blind_acts z rand args (map tg_tag targets) (map tg_gen targets) (map tg_blind targets) L0) (mkSt t 0).
Proof.
  intros CT ST. unfold blind_acts. apply tri_bind, tri_get, tri_bind. cbn [s_tx]. eapply tri_conseq; [apply inputs_tri; exact CT|]. intros L1 s1 (LE & EV & DR). apply tri_bind, tri_get, tri_bind, tri_put, tri_bind.
  eapply tri_conseq.
  { apply (tri_for _ (fun p L s => (Lens L /\ OutSt (length p) s) /\ (s_draws s <= K + 4 * length (outs_to args (length p)))%nat)).
    - intros p [j pub] r st s HS ((HL & HO) & HD). apply enum_split in HS. destruct HS as (-> & EP & _). cbn [Nat.add]. rewrite app_length. cbn [length]. rewrite Nat.add_1_r.
      eapply output_tri; eauto.
    - split; [|cbn; lia]. split; [exact LE|]. constructor; cbn; rewrite ?EV; [reflexivity|rewrite pad_to_length; lia|reflexivity|]. intros j o o' E1 E2. congruence. }
  intros. apply tri_ret. exact I.
Qed.
End E.


(** * Both phases *)
Lemma Counted_of z args t L0 L : ~ bad_arguments args t ->
  for_in (seq 0 (length (vin t))) (count_input args) (mkL 0 0 0 0 0 [] [] [] (repeat None (length (vout t))) (repeat None (length (vout t)))) (mkSt t 0) = (Val L0, mkSt t 0) ->
  for_in (combine (seq 0 (length (a_pubkeys args))) (a_pubkeys args)) (count_output z) L0 (mkSt t 0) = (Val L, mkSt t 0) -> Counted z args t L.
Proof.
  intros NB E1 E2. apply (count_inputs_Val args (mkSt t 0)) in E1. destruct E1 as [_ CI]. apply (count_outputs_Val z args L0 (mkSt t 0)) in E2. destruct E2 as (_ & -> & CO). cbn [s_tx] in CI, CO.
  assert (LD : length (a_descs args) = length (vin t)).
  { destruct (Nat.eq_dec (length (a_descs args)) (length (vin t))) as [|N]; [assumption|]. exfalso. apply NB. unfold bad_arguments. auto. }
  unfold cnt_inv in CI. cbv zeta in CI. rewrite <- LD, firstn_all, LD in CI. change (filter has_factor (a_descs args)) with (blinded_inputs args) in CI.
  destruct CI as (H1 & H2 & H3 & H4 & H5 & H6 & H7 & H8 & H9 & H10 & H11 & H12).
  constructor; cbn [add_toblind l_toblind l_success l_attempts l_issattempts l_blindsin l_blinds l_assetblinds l_amounts l_bfs l_abfs]; auto.
  - rewrite H1, outs_count. reflexivity.
  - intros i ps inp Hi. apply H12; [apply nth_error_Some; congruence|exact Hi].
Qed.
Theorem blind_exceptions z rand args t e s : SizesOk z -> IndexOk z -> RandOk z rand -> WellTyped z args t -> ~ stray_key args t -> ~ token_key_for_reissuance args t ->
  blind_transaction z rand args t = (Exc e, s) ->
  (e = EValue /\ bad_arguments args t /\ s = mkSt t 0) \/ (e = EUnboundLocal /\ TokenUnknown t /\ s = mkSt t 0) \/ (e = ERuntime /\ Refused z rand args t).
Proof.
  intros SZ IO RO WT NS NR E. destruct (check_cases args (mkSt t 0)) as [[B _]|[NB CV]].
  { left. assert (X := bad_arguments_refused z rand args t B). rewrite X in E. injection E as <- <-. auto. }
  right. cbn [s_tx] in NB. unfold blind_transaction in E. rewrite body_split in E.
  assert (LK : forall e', Look z rand args t e' -> (e' = EUnboundLocal /\ TokenUnknown t /\ mkSt t 0 = mkSt t 0) \/ (e' = ERuntime /\ Refused z rand args t)) by (intros e' [X|[X Y]]; auto).
  destruct (blind_looks z args (blind_acts z rand args) (mkSt t 0)) as [o s1] eqn:EL.
  assert (H : o = Exc e /\ s1 = s) by (destruct o; [discriminate|discriminate|injection E as <- <-; auto]). destruct H as [-> ->]. clear E.
  unfold blind_looks in EL. unfold mbind at 1 in EL. rewrite CV in EL.
  assert (TT := targets_tri z rand args t SZ WT NB). unfold tri in TT. unfold mbind at 1 in EL.
  destruct (surjection_targets z args (mkSt t 0)) as [[[[tags gens] blinders]|r|e1] s1] eqn:E1; [|discriminate|].
  2:{ apply (keeps_eq _ _ _ _ (keeps_targets _ _)) in E1. injection EL as <- <-. subst s1. exact (LK _ TT). }
  assert (ET := E1). apply targets_Val in ET. destruct ET as (-> & _ & targets & ST & -> & -> & ->). unfold mbind at 1 in EL. cbn [get_tx s_tx] in EL.
  assert (CO := counts_tri z rand args t (mkL 0 0 0 0 0 [] [] [] (repeat None (length (vout t))) (repeat None (length (vout t)))) NB). unfold tri in CO. unfold mbind in CO at 1. unfold mbind at 1 in EL.
  destruct (for_in (seq 0 (length (vin t))) (count_input args) _ (mkSt t 0)) as [[L1|r|e1] s1] eqn:E2; [|discriminate|].
  2:{ apply (keeps_eq _ _ _ _ (keeps_for _ _ (keeps_count_input args) _)) in E2. injection EL as <- <-. subst s1. exact (LK _ CO). }
  assert (K2 := E2). apply (keeps_eq _ _ _ _ (keeps_for _ _ (keeps_count_input args) _)) in K2. subst s1. unfold mbind at 1 in EL.
  destruct (for_in (combine _ _) (count_output z) L1 (mkSt t 0)) as [[L2|r|e1] s1] eqn:E3; [|discriminate|].
  2:{ apply (keeps_eq _ _ _ _ (keeps_for _ _ (keeps_count_output z) _)) in E3. injection EL as <- <-. subst s1. exact (LK _ CO). }
  assert (K3 := E3). apply (keeps_eq _ _ _ _ (keeps_for _ _ (keeps_count_output z) _)) in K3. subst s1.
  right. exact (tri_Exc _ _ _ _ _ _ (acts_tri z rand args t SZ RO WT NB NS NR IO targets L2 (Counted_of _ _ _ _ _ NB E2 E3) ST) EL).
Qed.
