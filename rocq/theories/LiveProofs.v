(** blind() blinds everything when nothing stands in the way. *)
From Verif Require Import Base BaseFacts Serialize TxModel IssuanceModel ScriptModel MiscModel BlindModel BlindFacts SpecBlind BlindFrame BlindFails BlindSteps BlindTargets BlindCount BlindMain BlindOuts BlindComplete SpecFault FaultProofs SpecExc ExcProofs SpecLive.
From Coq Require Import Lia.
Local Open Scope Z_scope.

(** [fin R Q m s]: if [m] ends, then with [Q]; if it returns from blind(), then with [R]. *)
Section Fin.
Variable R : blind_ret -> Prop.
Definition fin {A} (Q : A -> St -> Prop) (m : M A) (s : St) : Prop :=
  match m s with (Val a, s') => Q a s' | (Ret r, _) => R r | (Exc _, _) => True end.
Lemma fin_bind {A B} (Q : B -> St -> Prop) (m : M A) (k : A -> M B) s : fin (fun a s' => fin Q (k a) s') m s -> fin Q (mbind m k) s.
Proof. unfold fin, mbind. destruct (m s) as [[a|r|e] s']; auto. Qed.
Lemma fin_ret {A} (Q : A -> St -> Prop) a s : Q a s -> fin Q (mret a) s. Proof. exact (fun H => H). Qed.
Lemma fin_return {A} (Q : A -> St -> Prop) r s : R r -> fin Q (mreturn r) s. Proof. exact (fun H => H). Qed.
Lemma fin_raise {A} (Q : A -> St -> Prop) e s : fin Q (mraise e) s. Proof. exact I. Qed.
Lemma fin_conseq {A} (Q Q' : A -> St -> Prop) m s : fin Q m s -> (forall a s', Q a s' -> Q' a s') -> fin Q' m s.
Proof. unfold fin. destruct (m s) as [[a|r|e] s']; auto. Qed.
Lemma fin_for {A L} (I : list A -> L -> St -> Prop) (body : A -> L -> M L) l st s :
  (forall p x r st s, l = p ++ x :: r -> I p st s -> fin (I (p ++ [x])) (body x st) s) -> I [] st s -> fin (I l) (for_in l body st) s.
Proof.
  intros H H0. assert (G : forall q p st s, l = p ++ q -> I p st s -> fin (I l) (for_in q body st) s).
  { induction q as [|x q IH]; intros p st0 s0 E HI; cbn [for_in]; [apply fin_ret; rewrite app_nil_r in E; subst; exact HI|].
    apply fin_bind. eapply fin_conseq; [exact (H p x q st0 s0 E HI)|]. intros a s' HA. apply (IH (p ++ [x])); [rewrite <- app_assoc; exact E|exact HA]. }
  exact (G l [] st s eq_refl H0).
Qed.
(** [m] does not return from blind() *)
Definition noret {A} (m : M A) : Prop := forall s, match fst (m s) with Ret _ => False | _ => True end.
Lemma fin_skip {A B} (Q : B -> St -> Prop) (m : M A) (k : A -> M B) s : noret m -> (forall a s', m s = (Val a, s') -> fin Q (k a) s') -> fin Q (mbind m k) s.
Proof. intros N H. unfold fin, mbind. specialize (N s). destruct (m s) as [[a|r|e] s'] eqn:E; [exact (H a s' eq_refl)|destruct N|exact I]. Qed.
Lemma fin_tri {A} P (Q1 Q2 : A -> St -> Prop) m s : tri P Q1 m s -> fin Q2 m s -> fin (fun a s' => Q1 a s' /\ Q2 a s') m s.
Proof. unfold tri, fin. destruct (m s) as [[a|r|e] s']; auto. Qed.
End Fin.
Lemma nr_bind {A B} (m : M A) (k : A -> M B) : noret m -> (forall a, noret (k a)) -> noret (mbind m k).
Proof. intros H1 H2 s. unfold mbind. specialize (H1 s). destruct (m s) as [[a|r|e] s']; cbn [fst] in *; auto. apply H2. Qed.
Lemma nr_ret {A} (a : A) : noret (mret a). Proof. exact (fun _ => I). Qed.
Lemma nr_raise {A} e : noret (@mraise A e). Proof. exact (fun _ => I). Qed.
Lemma nr_lift {A} (r : res A) : noret (lift r). Proof. intros s. destruct r; exact I. Qed.
Lemma nr_lib {A} (o : option A) : noret (lib_call o). Proof. intros s. destruct o; exact I. Qed.
Lemma nr_get : noret get_tx. Proof. exact (fun _ => I). Qed.
Lemma nr_put t : noret (put_tx t). Proof. exact (fun _ => I). Qed.
Lemma nr_draw rand : noret (draw rand). Proof. exact (fun _ => I). Qed.
Ltac nr := repeat first [apply nr_ret | apply nr_raise | apply nr_lift | apply nr_lib | apply nr_get | apply nr_put | apply nr_draw | apply nr_bind; [|intros] | match goal with |- noret (if ?b then _ else _) => destruct b end].
Lemma nr_draw256 rand : noret (draw_uint256 rand). Proof. unfold draw_uint256. nr. Qed.
Lemma nr_blinded_asset z a b : noret (blinded_asset z a b). Proof. unfold blinded_asset. nr. Qed.
Lemma nr_cvc z a b c : noret (create_value_commitment z a b c). Proof. unfold create_value_commitment. nr. Qed.
Lemma nr_rangeproof z a b c d e f g h i j : noret (generate_rangeproof z a b c d e f g h i j). Proof. unfold generate_rangeproof. nr. Qed.
Lemma nr_nonce z rand a : noret (generate_output_rangeproof_nonce z rand a). Proof. unfold generate_output_rangeproof_nonce. cbv zeta. nr. Qed.
Lemma nr_mod_vin n f : noret (mod_vin n f). Proof. unfold mod_vin. nr. Qed.
Lemma nr_mod_vout n f : noret (mod_vout n f). Proof. unfold mod_vout. nr. Qed.
Lemma nr_mod_inwit n f : noret (mod_inwit n f). Proof. unfold mod_inwit. nr. Qed.
Lemma nr_mod_outwit n f : noret (mod_outwit n f). Proof. unfold mod_outwit. nr. Qed.
Lemma nr_balance z L : noret (balance_last z L). Proof. unfold balance_last. cbv zeta. nr. Qed.
#[local] Hint Resolve nr_lift nr_lib nr_get nr_put nr_draw nr_draw256 nr_blinded_asset nr_cvc nr_rangeproof nr_nonce nr_mod_vin nr_mod_vout nr_mod_inwit nr_mod_outwit nr_balance : nr.

(** [m] draws nothing *)
Definition nodraw {A} (m : M A) : Prop := forall s, s_draws (snd (m s)) = s_draws s.
Lemma nodraw_Val {A} (m : M A) s a s' : nodraw m -> m s = (Val a, s') -> s_draws s' = s_draws s.
Proof. intros H E. specialize (H s). rewrite E in H. exact H. Qed.
Lemma nd_bind {A B} (m : M A) (k : A -> M B) : nodraw m -> (forall a, nodraw (k a)) -> nodraw (mbind m k).
Proof. intros H1 H2 s. unfold mbind. specialize (H1 s). destruct (m s) as [[a|r|e] s']; cbn [snd] in *; [rewrite H2|..]; exact H1. Qed.
Lemma nd_ret {A} (a : A) : nodraw (mret a). Proof. intros s. reflexivity. Qed.
Lemma nd_raise {A} e : nodraw (@mraise A e). Proof. intros s. reflexivity. Qed.
Lemma nd_lift {A} (r : res A) : nodraw (lift r). Proof. intros s. destruct r; reflexivity. Qed.
Lemma nd_lib {A} (o : option A) : nodraw (lib_call o). Proof. intros s. destruct o; reflexivity. Qed.
Lemma nd_get : nodraw get_tx. Proof. intros s. reflexivity. Qed.
Lemma nd_put t : nodraw (put_tx t). Proof. intros s. reflexivity. Qed.
Ltac nd := repeat first [apply nd_ret | apply nd_raise | apply nd_lift | apply nd_lib | apply nd_get | apply nd_put | apply nd_bind; [|intros] | match goal with |- nodraw (if ?b then _ else _) => destruct b end].
Lemma nd_blinded_asset z a b : nodraw (blinded_asset z a b). Proof. unfold blinded_asset. nd. Qed.
Lemma nd_cvc z a b c : nodraw (create_value_commitment z a b c). Proof. unfold create_value_commitment. nd. Qed.
Lemma nd_rangeproof z a b c d e f g h i j : nodraw (generate_rangeproof z a b c d e f g h i j). Proof. unfold generate_rangeproof. nd. Qed.
Lemma nd_mod_vout n f : nodraw (mod_vout n f). Proof. unfold mod_vout. nd. Qed.
Lemma nd_balance z L : nodraw (balance_last z L). Proof. unfold balance_last. cbv zeta. nd. Qed.
Lemma nonce_draws z rand a x s s' : generate_output_rangeproof_nonce z rand a s = (Val x, s') -> s_draws s' = S (s_draws s).
Proof.
  unfold generate_output_rangeproof_nonce. cbv zeta. unfold mbind at 1. cbn [draw]. intros E. apply (nodraw_Val _ _ _ _) in E; [exact E|]. nd.
Qed.
#[local] Hint Resolve nd_lift nd_lib nd_get nd_put nd_blinded_asset nd_cvc nd_rangeproof nd_mod_vout nd_balance : nr.
Ltac still E := let D := fresh "D" in assert (D := E); apply nodraw_Val in D; [|auto with nr].

Section L.
Variables (z : Crypto) (rand : nat -> bytes) (args : blind_args) (t : tx).
Hypothesis SZ : SizesOk z.
Hypothesis RO : RandOk z rand.
Hypothesis IO : IndexOk z.
Hypothesis WT : WellTyped z args t.
Hypothesis CL : Clear z rand args t.
Notation K := (length (issuance_tasks args t)).
Notation N := (length (output_tasks args)).
Let NB := cl_lists _ _ _ _ CL.
Let NS := cl_stray _ _ _ _ CL.
Let NR := cl_retoken _ _ _ _ CL.

(** * The first phase passes *)
Lemma looks_run : exists targets L, SurjectionTargets z args t targets /\ Counted z args t L
  /\ forall k, blind_looks z args k (mkSt t 0) = k (map tg_tag targets) (map tg_gen targets) (map tg_blind targets) L (mkSt t 0).
Proof.
  assert (LK : forall e, ~ Look z rand args t e) by (intros e [[_ X]|[_ X]]; [exact (cl_lib _ _ _ _ CL X)|exact (cl_token _ _ _ _ CL X)]).
  assert (CV : check_arguments args (mkSt t 0) = (Val tt, mkSt t 0)) by (destruct (check_cases args (mkSt t 0)) as [[B _]|[_ CV]]; [contradiction|exact CV]).
  set (k0 := fun (_ _ _ : list bytes) (_ : Loc) => mret (BSuccess 0 [] [])).
  assert (NRT : forall r s, blind_looks z args k0 (mkSt t 0) <> (Ret r, s)).
  { intros r s E. apply (looks_fault z args rand k0) in E. destruct E as [(_ & f & _ & F)|(_ & a & b & c & L & E)]; [|discriminate E]. apply (cl_faults _ _ _ _ CL). destruct F as (p & i & k & F & _). exists p, i, k, f. exact F. }
  unfold blind_looks in NRT |- *. 
  assert (TT := targets_tri z rand args t SZ WT NB). unfold tri in TT.
  destruct (surjection_targets z args (mkSt t 0)) as [[[[tags gens] blinders]|r|e1] s1] eqn:E1; [|exfalso; apply (NRT r s1); unfold mbind at 1; rewrite CV; unfold mbind at 1; rewrite E1; reflexivity|destruct (LK _ TT)].
  assert (ET := E1). apply targets_Val in ET. destruct ET as (-> & _ & targets & ST & -> & -> & ->). exists targets.
  assert (CO := counts_tri z rand args t (mkL 0 0 0 0 0 [] [] [] (repeat None (length (vout t))) (repeat None (length (vout t)))) NB). unfold tri in CO. unfold mbind in CO at 1.
  assert (NRT2 : forall r s, mbind get_tx (fun t => mbind (for_in (seq 0 (length (vin t))) (count_input args) (mkL 0 0 0 0 0 [] [] [] (repeat None (length (vout t))) (repeat None (length (vout t)))))
     (fun L => mbind (for_in (combine (seq 0 (length (a_pubkeys args))) (a_pubkeys args)) (count_output z) L) (fun L => k0 (map tg_tag targets) (map tg_gen targets) (map tg_blind targets) L))) (mkSt t 0) <> (Ret r, s)).
  { intros r s E. apply (NRT r s). unfold mbind at 1. rewrite CV. unfold mbind at 1. rewrite E1. exact E. }
  destruct (for_in (seq 0 (length (vin t))) (count_input args) _ (mkSt t 0)) as [[L1|r|e1] s1] eqn:E2; [|exfalso; apply (NRT2 r s1); unfold mbind at 1; cbn [get_tx s_tx]; unfold mbind at 1; rewrite E2; reflexivity|destruct (LK _ CO)].
  assert (K2 := E2). apply (keeps_eq _ _ _ _ (keeps_for _ _ (keeps_count_input args) _)) in K2. subst s1.
  destruct (for_in (combine _ _) (count_output z) L1 (mkSt t 0)) as [[L2|r|e1] s1] eqn:E3; [|exfalso; apply (NRT2 r s1); unfold mbind at 1; cbn [get_tx s_tx]; unfold mbind at 1; rewrite E2; unfold mbind at 1; rewrite E3; reflexivity|destruct (LK _ CO)].
  assert (K3 := E3). apply (keeps_eq _ _ _ _ (keeps_for _ _ (keeps_count_output z) _)) in K3. subst s1.
  exists L2. split; [exact ST|]. split; [exact (Counted_of _ _ _ _ _ NB E2 E3)|]. intros k.
  unfold mbind at 1. rewrite CV. unfold mbind at 1. rewrite E1. unfold mbind at 1. cbn [get_tx s_tx]. unfold mbind at 1. rewrite E2. unfold mbind at 1. rewrite E3. reflexivity.
Qed.

(** * The second phase blinds all *)
Definition Done (r : blind_ret) : Prop := exists bfs abfs, r = BSuccess (K + N) bfs abfs.
Definition Cnt (m : nat) (L : Loc) : Prop := l_attempts L = m /\ l_success L = m /\ l_toblind L = (K + N)%nat /\ l_blindsin L = length (blinded_inputs args).
Lemma done_all L : Cnt (K + N) L -> Done (blinding_result args L).
Proof. intros (_ & E1 & E2 & _). unfold blinding_result. rewrite E1, E2, Nat.eqb_refl, andb_false_r. do 2 eexists. reflexivity. Qed.
Lemma N_pos : (1 <= N)%nat.
Proof. destruct (output_tasks args) eqn:E; [destruct (cl_output _ _ _ _ CL E)|cbn; lia]. Qed.

Notation wants := (wants args).
Lemma pseudo_fin L0 n ps p L s : Counted z args t L0 -> (n < length (vin t))%nat -> ~ In (n, ps) p -> (wants (p ++ [(n, ps)]) <= K)%nat ->
  IssSt z rand args t p L s -> Cnt (wants p) L -> fin Done (fun L s => Cnt (wants (p ++ [(n, ps)])) L) (blind_pseudo z rand args n ps L) s.
Proof.
  intros CT LN NI LE [IL I1 I2 I3 _] (C1 & C2 & C3 & C4). assert (NP := N_pos). unfold blind_pseudo. rewrite wants_app in *. rewrite key_at_nth. destruct (nth n _ None) as [key|] eqn:KY.
  2:{ apply fin_ret. replace (wants [(n, ps)]) with 0%nat by (unfold wants; cbn [filter]; unfold wants_issuance; cbn [fst snd]; rewrite KY; reflexivity). rewrite Nat.add_0_r. repeat split; assumption. }
  assert (W : wants_issuance args (n, ps) = true) by (unfold wants_issuance; cbn [fst snd]; rewrite KY; reflexivity).
  assert (W1 : wants [(n, ps)] = 1%nat) by (unfold wants; cbn [filter]; rewrite W; reflexivity). rewrite W1 in *.
  cbv zeta. destruct (nth_lt (vin t) n LN) as [inp0 E0]. assert (IN0 := nth_error_In _ _ E0).
  assert (TA : In (n, ps) (issuance_tasks args t)).
  { unfold issuance_tasks. apply filter_In. split; [|exact W]. unfold issuance_slots. apply in_flat_map. exists n. split; [apply in_seq; lia|]. destruct ps; cbn; auto. }
  assert (NN : issuance_is_null (assetIssuance inp0) = false).
  { destruct (issuance_is_null (assetIssuance inp0)) eqn:X; [|reflexivity]. exfalso. apply NS. apply issuance_null in X. exists n, ps, inp0. tauto. }
  destruct (ct_iss _ _ _ _ CT n ps inp0 E0 W NN) as [EX _]. destruct (I2 n inp0 E0) as (inp & EI & (S1 & S2 & S3) & FI). specialize (FI ps NI).
  assert (U2 : ps = true -> is_nonce (assetIssuance inp0) = zeros 32).
  { intros ->. destruct (bytes_dec (is_nonce (assetIssuance inp0)) (zeros 32)) as [|U]; [assumption|]. exfalso. apply NR. exists n, inp0, key. auto. }
  apply fin_skip; [auto with nr|]. intros t1 s1 E1. apply get_Val in E1. destruct E1 as [-> ->].
  apply fin_skip; [auto with nr|]. intros inp' s1 E1. apply lift_Val in E1. destruct E1 as [E1 ->]. apply nth_res_Ok in E1. assert (inp' = inp) by congruence. subst inp'.
  change (if ps then is_keys (assetIssuance inp) else is_amount (assetIssuance inp)) with (iss_field ps inp). rewrite FI.
  destruct (conf_is_null (iss_field ps inp0)) eqn:CN; [exfalso; apply conf_null_eq in CN; rewrite CN in EX; discriminate EX|].
  apply fin_skip; [auto with nr|]. intros amount s1 E2. apply fin_bind.
  assert (G : forall asset s, fin Done (fun L s => Cnt (wants p + 1) L)
    (mbind (draw_uint256 rand) (fun b => let L := add_blind b (zeros 32) (add_amount amount (inc_attempts true L)) in
      if (l_attempts L =? l_toblind L)%nat then mreturn (blinding_result args L)
      else
      mbind get_tx (fun t => mbind (put_tx (set_inwits t (pad_to (S n) inwit_null (vtxinwit (wit t))))) (fun _ => mbind (blinded_asset z asset (zeros 32)) (fun ag => let gen := snd ag in
      mbind (create_value_commitment z b gen amount) (fun '(confValue, commit) =>
      mbind (mod_vin n (fun i => set_issuance i
             (if ps then mkIssuance (is_nonce (assetIssuance inp)) (is_entropy (assetIssuance inp)) (is_amount (assetIssuance inp)) confValue
              else mkIssuance (is_nonce (assetIssuance inp)) (is_entropy (assetIssuance inp)) confValue (is_keys (assetIssuance inp))))) (fun _ =>
      mbind (lift (uint256_new key)) (fun nonce =>
      mbind (generate_rangeproof z (l_blinds L) nonce amount [] commit gen asset (l_assetblinds L) (a_ct_exponent args) (a_ct_bits args)) (fun proof =>
      mbind (mod_inwit n (fun w => if ps then mkInWit (iw_script w) (iw_issproof w) proof (iw_pegin w) else mkInWit (iw_script w) proof (iw_keysproof w) (iw_pegin w))) (fun _ =>
      mret (inc_success L))))))))))) s).
  { intros asset s2. apply fin_skip; [auto with nr|]. intros b s3 _. cbv zeta. cbn [add_blind add_amount inc_attempts l_attempts l_toblind]. rewrite C1, C3.
    destruct (Nat.eqb_spec (S (wants p)) (K + N)) as [EQ|_]; [lia|].
    do 3 (apply fin_skip; [auto with nr|]; intros ? ? _). apply fin_skip; [auto with nr|]. intros [cv c] s7 _. do 4 (apply fin_skip; [auto with nr|]; intros ? ? _). apply fin_ret. unfold Cnt. cbn. lia. }
  destruct (uint256_is_null (is_nonce (assetIssuance inp))) eqn:U.
  - apply fin_skip; [auto with nr|]. intros e s3 _. apply fin_skip; [auto with nr|]. intros asset s4 _. apply fin_ret. exact (G asset s4).
  - destruct ps.
    + exfalso. rewrite S2, (U2 eq_refl) in U. discriminate U.
    + apply fin_skip; [auto with nr|]. intros asset s3 _. apply fin_ret. exact (G asset s3).
Qed.
Lemma inputs_fin L0 : Counted z args t L0 -> l_toblind L0 = (K + N)%nat ->
  fin Done (fun L s => (Lens z rand args t L /\ vout (s_tx s) = vout t /\ (s_draws s <= K)%nat) /\ Cnt K L) (for_in (seq 0 (length (vin t))) (blind_input z rand args) L0) (mkSt t 0).
Proof.
  intros CT TB. apply (fin_tri _ (fun e => e = ERuntime /\ Refused z rand args t)); [exact (inputs_tri z rand args t SZ RO WT NS NR L0 CT)|].
  eapply fin_conseq.
  { apply (fin_for _ (fun p L s => let q := flat_map (fun i => [(i, false); (i, true)]) p in IssSt z rand args t q L s /\ Cnt (wants q) L)).
    - intros p x r st s HS (H & HC). apply seq_split in HS as HX. destruct HX as [-> HL]. cbn [Nat.add]. unfold blind_input.
      assert (NP : forall q, ~ In (length p, q) (flat_map (fun i => [(i, false); (i, true)]) p)).
      { intros q X. apply in_flat_map in X. destruct X as (i & IP & X). assert (i = length p) by (destruct X as [X|[X|[]]]; congruence). subst i.
        assert (ND := seq_NoDup (length (vin t)) 0). rewrite HS in ND. apply NoDup_remove_2 in ND. apply ND. apply in_or_app. left. exact IP. }
      assert (SL : issuance_slots (length (vin t)) = ((flat_map (fun i => [(i, false); (i, true)]) p ++ [(length p, false)]) ++ [(length p, true)]) ++ flat_map (fun i => [(i, false); (i, true)]) r).
      { unfold issuance_slots. rewrite HS, flat_map_app. cbn [flat_map Nat.add]. rewrite <- !app_assoc. reflexivity. }
      assert (WS2 : (wants (flat_map (fun i => [(i, false); (i, true)]) p ++ [(length p, false)]) <= K)%nat) by (rewrite <- app_assoc in SL; exact (wants_slots _ _ _ _ SL)).
      cbv zeta. rewrite flat_map_app. cbn [flat_map app]. change [(length p, false); (length p, true)] with ([(length p, false)] ++ [(length p, true)]). rewrite app_assoc.
      apply fin_bind. eapply fin_conseq; [eapply fin_tri; [exact (pseudo_tri z rand args t SZ RO WT NS NR L0 (length p) false _ st s CT HL (NP _) (WS2) H)|]|].
      + eapply pseudo_fin; [exact CT|exact HL|apply NP| |exact H|exact HC]. rewrite <- app_assoc in SL. exact (wants_slots _ _ _ _ SL).
      + intros L1 s1 (H1 & C1). assert (NP2 : ~ In (length p, true) (flat_map (fun i => [(i, false); (i, true)]) p ++ [(length p, false)])) by (intros X; apply in_app_or in X; destruct X as [X|[X|[]]]; [exact (NP _ X)|discriminate]).
        eapply fin_tri; [exact (pseudo_tri z rand args t SZ RO WT NS NR L0 (length p) true _ L1 s1 CT HL NP2 (wants_slots _ _ _ _ SL) H1)|]. eapply pseudo_fin; [exact CT|exact HL|exact NP2| |exact H1|exact C1]. exact (wants_slots _ _ _ _ SL).
    - cbn. split; [exact (IssSt_init z rand args t L0 CT)|]. unfold wants. cbn. unfold Cnt. rewrite (ct_attempts _ _ _ _ CT), (ct_success _ _ _ _ CT), (ct_blindsin _ _ _ _ CT). auto. }
  intros L s (_ & C). exact C.
Qed.

Lemma finish_fin targets n pub o asset amount L s abl ab m : SurjectionTargets z args t targets -> nth_error (a_pubkeys args) n = Some pub -> pub <> [] -> nth_error (vout t) n = Some o ->
  ExplicitAsset (nAsset o) asset -> l_assetblinds L = abl ++ [ab] -> (s_draws s + 2 <= draws args t)%nat -> l_attempts L = S m -> l_success L = m -> l_toblind L = (K + N)%nat -> l_blindsin L = length (blinded_inputs args) ->
  fin Done (fun L s => Cnt (S m) L) (finish_output z rand args (map tg_tag targets) (map tg_gen targets) (map tg_blind targets) n pub asset amount L) s.
Proof.
  intros ST EP NP EO EA EAB DB C1 C2 C3 C4. destruct (targets_sizes z args t SZ WT targets NB ST) as [TZ1 TZ2]. unfold finish_output.
  do 2 (apply fin_skip; [auto with nr|]; let E := fresh "E" in intros ? ? E; still E; clear E). cbv zeta.
  apply fin_skip; [auto with nr|]. intros [ca g] s1 E; still E; clear E. apply fin_skip; [auto with nr|]. intros ? ? E; still E; clear E. apply fin_skip; [auto with nr|]. intros [cv c] s2 E; still E; clear E.
  apply fin_skip; [auto with nr|]. intros ? ? E; still E; clear E.
  apply fin_skip; [auto with nr|]. intros [nonce eph] s3 E. apply nonce_draws in E. do 5 (apply fin_skip; [auto with nr|]; let E := fresh "E" in intros ? ? E; still E; clear E). apply fin_bind.
  unfold generate_surjectionproof. cbv zeta. rewrite !map_length. apply fin_skip; [auto with nr|]. intros seed s8 E8. unfold draw in E8. injection E8 as <- _.
  apply fin_skip; [auto with nr|]. intros tags s9 E9. apply lift_Val in E9. destruct E9 as [E9 ->]. rewrite (aligned_ok 32 _ (or_introl eq_refl) TZ1) in E9. injection E9 as <-.
  match goal with |- context [sp_init z _ _ _ _ _ (rand ?kk)] => assert (DK : Drawn rand args t (rand kk)) by (exists kk; split; [clear - DB D D0 D1 D2 D3 D4 E D5 D6 D7 D8 D9; lia|reflexivity]);
    destruct (pv_init _ _ _ _ (cl_provable _ _ _ _ CL) targets n pub o asset (rand kk) ST EP NP EO EA DK) as (p0 & ix & EI) end. rewrite EI.
  do 3 (apply fin_skip; [auto with nr|]; intros ? ? _). apply fin_skip; [auto with nr|]. intros pr s13 EP13. apply lib_Val in EP13. destruct EP13 as [EP13 _].
  apply fin_skip; [nr|]. intros u s14 _. apply fin_ret. assert (NE := pv_bytes _ _ _ _ (cl_provable _ _ _ _ CL) _ _ _ _ _ _ _ _ EP13). destruct (sp_serialize z pr) as [|y ys]; [congruence|].
  apply fin_skip; [auto with nr|]. intros ? ? _. apply fin_ret. unfold Cnt. cbn. auto.
Qed.
Lemma output_fin targets L0 n pub L s : Counted z args t L0 -> SurjectionTargets z args t targets -> nth_error (a_pubkeys args) n = Some pub -> OutSt t n s -> (s_draws s <= K + 4 * length (outs_to args n))%nat ->
  Cnt (K + length (outs_to args n)) L -> fin Done (fun L s => Cnt (K + length (outs_to args (S n))) L) (blind_output z rand args (map tg_tag targets) (map tg_gen targets) (map tg_blind targets) (n, pub) L) s.
Proof.
  intros CT ST EP OS DR (C1 & C2 & C3 & C4). rewrite outs_S, app_length, (wants_nonempty _ _ _ EP). unfold blind_output.
  destruct (is_nonempty pub) eqn:NE.
  2:{ unfold is_fullyvalid. rewrite NE. cbn [andb negb length]. apply fin_ret. rewrite Nat.add_0_r. repeat split; assumption. }
  destruct (ct_outs _ _ _ _ CT n pub EP NE) as (FV & o & EO & XV & XA & _). rewrite FV. cbn [negb length].
  assert (BD : (K + 4 * (length (outs_to args n) + 1) <= draws args t)%nat).
  { unfold draws. rewrite output_tasks_outs. destruct (outs_app args (S n) (length (a_pubkeys args))) as [r ER]; [apply nth_error_Some; congruence|].
    rewrite ER, outs_S, (wants_nonempty _ _ _ EP), NE, !app_length. cbn [length]. lia. }
  assert (NP : pub <> []) by (intros ->; discriminate NE).
  apply fin_skip; [auto with nr|]. intros t1 s1 E1. apply get_Val in E1. destruct E1 as [-> ->].
  apply fin_skip; [auto with nr|]. intros o1 s1 E1. apply lift_Val in E1. destruct E1 as [E1 ->]. apply nth_res_Ok in E1. rewrite (os_rest _ _ _ OS n (le_n n)) in E1. assert (o1 = o) by congruence. subst o1. cbv zeta.
  apply fin_skip; [auto with nr|]. intros amount s1 E2. still E2. apply fin_skip; [auto with nr|]. intros asset s2 E3. apply lift_Val in E3. destruct E3 as [E3 ->]. apply to_asset_explicit in E3.
  apply fin_skip; [auto with nr|]. intros b s3 E5. apply draw256_Val in E5. destruct E5 as (_ & _ & ->). apply fin_skip; [auto with nr|]. intros ab s4 E4. apply draw256_Val in E4. destruct E4 as (_ & _ & ->).
  match goal with |- fin _ _ _ ?X => set (s4 := X) end. assert (DS : (s_draws s4 + 2 <= draws args t)%nat) by (unfold s4; cbn [s_draws]; lia). clearbody s4.
  match goal with |- context [finish_output _ _ _ _ _ _ _ _ _ _ ?X] => match X with add_blind _ _ _ => set (LL := X) end end.
  assert (D1 : l_attempts LL = S (K + length (outs_to args n))) by (unfold LL; cbn; lia). assert (D2 : l_success LL = (K + length (outs_to args n))%nat) by exact C2.
  assert (D3 : l_toblind LL = (K + N)%nat) by exact C3. assert (D4 : l_blindsin LL = length (blinded_inputs args)) by exact C4.
  replace (K + (length (outs_to args n) + 1))%nat with (S (K + length (outs_to args n))) by lia.
  rewrite D1, D3, D4. destruct (Nat.eqb_spec (S (K + length (outs_to args n))) (K + N)) as [EQ|NQ].
  - destruct (Nat.eqb_spec (S (K + length (outs_to args n))) 1) as [Q1|Q1]; cbn [andb].
    + destruct (Nat.eqb_spec (length (blinded_inputs args)) 0) as [Q2|Q2].
      * exfalso. destruct (cl_alone _ _ _ _ CL) as [H|[H|H]]; [lia| |]; apply H, length_zero_iff_nil; lia.
      * apply fin_skip; [auto with nr|]. intros ob s5 E5. apply nodraw_Val in E5; [|auto with nr]. rewrite <- E5 in DS. clear E5. destruct ob as [b'|]; [eapply finish_fin; try eassumption; reflexivity|]. apply fin_return, done_all. unfold Cnt. cbn. cbn in D1, D2, D3, D4. lia.
    + apply fin_skip; [auto with nr|]. intros ob s5 E5. apply nodraw_Val in E5; [|auto with nr]. rewrite <- E5 in DS. clear E5. destruct ob as [b'|]; [eapply finish_fin; try eassumption; reflexivity|]. apply fin_return, done_all. unfold Cnt. cbn. cbn in D1, D2, D3, D4. lia.
  - eapply finish_fin; try eassumption; reflexivity.
Qed.
Lemma acts_fin targets L0 : Counted z args t L0 -> SurjectionTargets z args t targets ->
  fin Done (fun r _ => Done r) (blind_acts z rand args (map tg_tag targets) (map tg_gen targets) (map tg_blind targets) L0) (mkSt t 0).
Proof.
  intros CT ST.
  assert (TB : l_toblind L0 = (K + N)%nat).
  { apply (counted_eq _ _ _ _ CT). intros i ps Hin. assert (W := Hin). apply filter_In in W. destruct W as [Sl W]. apply slots_In in Sl.
    destruct (nth_error (vin t) i) as [inp|] eqn:Ei; [|apply nth_error_None in Ei; lia]. unfold counted. cbn [fst]. rewrite W, Ei. cbn [andb]. apply negb_true_iff.
    destruct (issuance_is_null (assetIssuance inp)) eqn:IN; [|reflexivity]. exfalso. apply NS. apply issuance_null in IN. destruct IN as [N1 N2]. exists i, ps, inp. auto. }
  unfold blind_acts. apply fin_skip; [auto with nr|]. intros t1 s1 E1. apply get_Val in E1. destruct E1 as [-> ->]. cbn [s_tx]. apply fin_bind.
  eapply fin_conseq; [apply inputs_fin; assumption|]. intros L1 s1 ((LE & EV & DR) & C1).
  apply fin_skip; [auto with nr|]. intros t1 s2 E1. apply get_Val in E1. destruct E1 as [-> ->]. apply fin_skip; [auto with nr|]. intros u s2 E2. injection E2 as _ <-. apply fin_bind.
  eapply fin_conseq.
  { apply (fin_for _ (fun p L s => ((Lens z rand args t L /\ OutSt t (length p) s) /\ (s_draws s <= K + 4 * length (outs_to args (length p)))%nat) /\ Cnt (K + length (outs_to args (length p))) L)).
    - intros p [j pub] r st s HS (((HL & HO) & HD) & HC). apply enum_split in HS. destruct HS as (-> & EP & _). cbn [Nat.add]. rewrite app_length. cbn [length]. rewrite Nat.add_1_r.
      eapply fin_tri; [exact (output_tri z rand args t SZ RO WT NB IO targets L0 (length p) pub st s CT ST EP HO HL HD)|]. eapply output_fin; eauto.
    - split; [split; [split; [exact LE|]|cbn; lia]|unfold outs_to; cbn [length seq filter]; rewrite Nat.add_0_r; exact C1]. constructor; cbn; rewrite ?EV; [reflexivity|rewrite pad_to_length; lia|reflexivity|]. intros j o o' Q1 Q2. congruence. }
  intros L2 s2 (_ & C2). apply fin_ret. rewrite enum_length, <- output_tasks_outs in C2. exact (done_all _ C2).
Qed.
Theorem blind_live : exists bfs abfs s, blind_transaction z rand args t = (Ret (BSuccess (K + N) bfs abfs), s).
Proof.
  destruct looks_run as (targets & L & ST & CT & RUN). assert (F := acts_fin targets L CT ST). assert (T := acts_tri z rand args t SZ RO WT NB NS NR IO targets L CT ST). unfold fin in F. unfold tri in T.
  unfold blind_transaction. rewrite body_split, RUN. destruct (blind_acts z rand args _ _ _ L (mkSt t 0)) as [[r|r|e] s].
  - destruct F as (bfs & abfs & ->). eauto.
  - destruct F as (bfs & abfs & ->). eauto.
  - destruct T as [_ T]. destruct (cl_lib _ _ _ _ CL T).
Qed.
End L.

(** * With nothing but issuances to blind, the last is not blinded *)
Lemma only_issuances z rand args t n bfs abfs s : a_strict args = true -> ~ stray_key args t -> output_tasks args = [] -> issuance_tasks args t <> [] ->
  blind_transaction z rand args t <> (Ret (BSuccess n bfs abfs), s).
Proof.
  intros ST NS NO NI H. unfold blind_transaction in H. rewrite body_split in H.
  destruct (blind_looks z args (blind_acts z rand args) (mkSt t 0)) as [o s1] eqn:E.
  assert (HO : o = Val (BSuccess n bfs abfs) \/ o = Ret (BSuccess n bfs abfs)).
  { destruct o as [r|r|e]; try discriminate H; injection H as H1 H2; subst; auto. }
  clear H. apply looks_Counted in E. destruct E as [(targets & L & E & _ & _ & C)|E].
  2: { destruct E as [_ E]. destruct HO as [-> | ->]; [exact E|]. destruct E as [f E]. discriminate E. }
  assert (TB : l_toblind L = length (issuance_tasks args t)).
  { rewrite (counted_eq z args t L C); [rewrite NO; cbn; lia|]. intros i ps Hin. assert (W := Hin). apply filter_In in W. destruct W as [Sl W]. apply slots_In in Sl.
    destruct (nth_error (vin t) i) as [inp|] eqn:Ei; [|apply nth_error_None in Ei; lia]. unfold counted. cbn [fst]. rewrite W, Ei. cbn [andb]. apply negb_true_iff.
    destruct (issuance_is_null (assetIssuance inp)) eqn:IN; [|reflexivity]. exfalso. apply NS. apply issuance_null in IN. destruct IN as [N1 N2]. exists i, ps, inp. auto. }
  assert (KP : (1 <= length (issuance_tasks args t))%nat) by (destruct (issuance_tasks args t); [congruence|cbn; lia]).
  assert (BAD : forall L1, l_toblind L1 = l_toblind L -> (l_success L1 < l_toblind L)%nat -> BSuccess n bfs abfs <> blinding_result args L1).
  { intros L1 T1 S1. unfold blinding_result. rewrite ST, T1. destruct (Nat.eqb_spec (l_success L1) (l_toblind L)); [lia|discriminate]. }
  unfold blind_acts in E. unfold mbind at 1 in E. cbn [get_tx s_tx] in E.
  unfold mbind at 1 in E. destruct (for_in (seq 0 (length (vin t))) (blind_input z rand args) L (mkSt t 0)) as [oi s2] eqn:EI.
  assert (EJ := EI). apply issuances_phase in EJ; [|apply C..].
  destruct oi as [La|r|e].
  2:{ destruct EJ as (L1 & -> & _ & T1 & _ & S1). injection E as <- _. destruct HO as [HO|HO]; [discriminate HO|]. injection HO as HO. symmetry in HO. exact (BAD L1 T1 S1 HO). }
  2:{ injection E as <- _. destruct HO as [HO|HO]; discriminate HO. }
  destruct EJ as (T1 & _ & _ & _ & A1 & _ & S1 & _). change (filter _ _) with (issuance_tasks args t) in A1.
  assert (LT : (l_success La < l_toblind L)%nat).
  { rewrite inputs_as_slots in EI.
    apply (for_in_inv (fun p L' s => l_toblind L' = l_toblind L /\ (l_success L' <= l_attempts L')%nat /\ (l_success L' = l_attempts L' -> l_attempts L' = 0%nat \/ l_attempts L' <> l_toblind L))) in EI.
    - cbn in EI. destruct EI as (_ & _ & X). destruct (Nat.eq_dec (l_success La) (l_attempts La)) as [Q|Q]; [destruct (X Q) as [Y|Y]; lia|lia].
    - intros p [i ps] r L1 s3 L2 s4 _ (J1 & J2 & J3) EB. cbn [fst snd] in EB. apply pseudo_Val in EB.
      destruct EB as [(_ & -> & _)|(_ & (C1 & C2 & C3 & C4 & C5 & C6) & EB)]; [split; [exact J1|split; [exact J2|exact J3]]|].
      destruct EB as [EB|(key & inp & amount & b & cv & proof & w & _ & _ & _ & _ & _ & X & -> & _)].
      + split; [congruence|]. split; lia.
      + cbn. split; [exact J1|]. split; [lia|]. intros _. right. congruence.
    - split; [reflexivity|]. rewrite (ct_success _ _ _ _ C), (ct_attempts _ _ _ _ C). split; [lia|]. auto. }
  unfold mbind at 1 in E. cbn [get_tx] in E. unfold mbind at 1 in E. cbn [put_tx] in E. unfold mbind at 1 in E.
  destruct (for_in (combine _ _) _ La _) as [oo s3] eqn:EO.
  assert (SK : forall k pub L1 s4, nth_error (a_pubkeys args) k = Some pub -> blind_output z rand args (map tg_tag targets) (map tg_gen targets) (map tg_blind targets) (k, pub) L1 s4 = (Val L1, s4)).
  { intros k pub L1 s4 EP. unfold blind_output, is_fullyvalid. destruct pub as [|x pub]; [reflexivity|]. exfalso. assert (IN : In k (output_tasks args)); [|rewrite NO in IN; exact IN].
    unfold output_tasks. apply filter_In. split; [apply in_seq; split; [lia|]; apply nth_error_Some; congruence|]. rewrite (nth_error_nth _ _ _ EP). reflexivity. }
  apply (for_in_inv (fun _ L' _ => L' = La)) in EO; [| |reflexivity].
  2:{ intros p [k pub] r L1 s4 L2 s5 HS -> EB. apply enum_split in HS. destruct HS as (-> & EP & _). cbn [Nat.add] in EB. rewrite (SK _ _ _ _ EP) in EB. injection EB as <- _. reflexivity. }
  destruct oo as [L2|r|e].
  - subst L2. injection E as <- _. destruct HO as [HO|HO]; [|discriminate HO]. injection HO as HO. symmetry in HO. exact (BAD La T1 LT HO).
  - destruct EO as (p & [k pub] & r0 & L1 & s4 & HS & -> & EB). apply enum_split in HS. destruct HS as (-> & EP & _). cbn [Nat.add] in EB. rewrite (SK _ _ _ _ EP) in EB. discriminate EB.
  - injection E as <- _. destruct HO as [HO|HO]; discriminate HO.
Qed.
