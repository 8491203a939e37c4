(** blind() and unblind with bytearray arguments. *)
From Coq Require Import ZArith List Bool Lia Strings.String.
From Verif Require Import Base BaseFacts Serialize TxModel IssuanceModel MiscModel BlindModel BlindFacts BlindFrame SpecFault FaultProofs UnblindModel ArrayModel SpecArray.
Import ListNotations.
Local Notation length := List.length (only parsing).
Local Open Scope Z_scope.

(** * Runs that may stop at a bytearray *)
Definition weak {A} (m m' : M A) : Prop := forall s, m s = m' s \/ m s = (Exc EArgument, s).
Lemma weak_refl {A} (m : M A) : weak m m. Proof. intros s. left. reflexivity. Qed.
Lemma weak_bind {A B} (m m' : M A) (k k' : A -> M B) : weak m m' -> keeps m' -> (forall a, weak (k a) (k' a)) -> weak (mbind m k) (mbind m' k').
Proof.
  intros H K H2 s. unfold mbind. specialize (K s). destruct (H s) as [E|E]; rewrite E; [|right; reflexivity]. destruct (m' s) as [[a|r|e] s1]; cbn [snd] in K; subst s1; [apply H2|left; reflexivity|left; reflexivity].
Qed.
Lemma weak_for {A L} (l : list A) (b b' : A -> L -> M L) : (forall x st, weak (b x st) (b' x st)) -> (forall x st, keeps (b' x st)) -> forall st, weak (for_in l b st) (for_in l b' st).
Proof. intros H K. induction l as [|x l IH]; intros st; cbn [for_in]; [apply weak_refl|]. apply weak_bind; auto. Qed.
Lemma for_eq {A L B} (f : B -> A) (l : list B) (b : B -> L -> M L) (b' : A -> L -> M L) s : (forall x st, In x l -> b x st s = b' (f x) st s) -> (forall x st, keeps (b' x st)) ->
  forall st, for_in l b st s = for_in (map f l) b' st s.
Proof.
  intros H K. induction l as [|x l IH]; intros st; [reflexivity|]. cbn [for_in map]. unfold mbind. rewrite H by (left; reflexivity). specialize (K (f x) st s). destruct (b' (f x) st s) as [[a|r|e] s1]; try reflexivity.
  cbn [snd] in K. subst s1. apply IH. intros y st' I. apply H. right. exact I.
Qed.
Lemma bind_at {A B} (m m' : M A) (k k' : A -> M B) s : m s = m' s -> (forall a s1, m s = (Val a, s1) -> k a s1 = k' a s1) -> mbind m k s = mbind m' k' s.
Proof. intros E H. unfold mbind. rewrite <- E. destruct (m s) as [[a|r|e] s1]; try reflexivity. apply H. reflexivity. Qed.
Lemma nth_skipn {A} (n k : nat) (l : list A) : nth_error (skipn n l) k = nth_error l (n + k).
Proof. revert l. induction n as [|n IH]; intros l; [reflexivity|]. destruct l; [destruct k; reflexivity|]. apply IH. Qed.
Definition no_val {A} (m : M A) (s : St) : Prop := forall a s', m s <> (Val a, s').
Lemma for_no_val {A L} (l : list A) (b : A -> L -> M L) s x : (forall st, no_val (b x st) s) -> (forall y st, keeps (b y st)) -> In x l -> forall st, no_val (for_in l b st) s.
Proof.
  intros H K. induction l as [|y l IH]; intros I st; [destruct I|]. intros a s' E. cbn [for_in] in E. unfold mbind in E. specialize (K y st s). destruct (b y st s) as [[st'|r|e] s1] eqn:EB; try discriminate E. cbn [snd] in K. subst s1.
  destruct I as [<-|I]; [exact (H _ _ _ EB)|exact (IH I _ _ _ E)].
Qed.
Definition early {A} (m : M A) : Prop := forall s r s', m s = (Ret r, s') -> exists f, r = BFailure f /\ EarlyFailure f.
Lemma early_bind {A B} (m : M A) (k : A -> M B) : early m -> (forall a, early (k a)) -> early (mbind m k).
Proof.
  intros H K s r s'. unfold mbind. destruct (m s) as [[a|q|e] s1] eqn:E; [apply K| |discriminate]. intros X. injection X as -> ->. exact (H _ _ _ E).
Qed.
Lemma early_mret {A} (a : A) : early (mret a). Proof. intros s r s'. discriminate. Qed.
Lemma early_raise {A} e : early (mraise e : M A). Proof. intros s r s'. discriminate. Qed.
Lemma early_lift {A} (x : res A) : early (lift x). Proof. intros s r s'. destruct x; discriminate. Qed.
Lemma early_lib {A} (x : option A) : early (lib_call x). Proof. intros s r s'. destruct x; discriminate. Qed.
Lemma early_get : early get_tx. Proof. intros s r s'. discriminate. Qed.
Lemma early_return {A} f : EarlyFailure f -> early (mreturn (BFailure f) : M A). Proof. intros H s r s' E. injection E as <- _. eauto. Qed.
Lemma early_for {A L} (l : list A) (b : A -> L -> M L) : (forall x st, early (b x st)) -> forall st, early (for_in l b st).
Proof. intros H. induction l as [|x l IH]; intros st; cbn [for_in]; [apply early_mret|]. apply early_bind; auto. Qed.
Lemma early_add_target T a b c : early (add_target T a b c).
Proof. unfold add_target. repeat first [apply early_bind; [|intros ?]|apply early_mret|apply early_lift]. Qed.
Ltac early := repeat first
  [ apply early_bind; [|intros ?] | apply early_mret | apply early_raise | apply early_lift | apply early_lib | apply early_get | apply early_add_target | apply early_return; exact I
  | match goal with |- early (match ?x with _ => _ end) => destruct x end
  | match goal with |- early (let '_ := ?x in _) => destruct x end ].

Section Blind.
Variables (z : Crypto) (rand : nat -> bytes) (h : heap) (aux : list pybuf) (args0 : blind_args).
Let args := set_aux args0 (frozen h aux).

Lemma char_p_weak x : weak (lift (char_p x)) (mret (deref h x)).
Proof. intros s. destruct x; [left|right]; reflexivity. Qed.
Lemma gen_weak i : weak (mbind (lift (nth_res aux i)) (fun x => mbind (lift (char_p x)) (fun ag => match gen_parse z ag with Some g => mret g | None => mreturn (BFailure (F_aux_invalid i)) end)))
  (mbind (lift (nth_res (frozen h aux) i)) (fun ag => match gen_parse z ag with Some g => mret g | None => mreturn (BFailure (F_aux_invalid i)) end)).
Proof.
  intros s. unfold nth_res, frozen. rewrite nth_error_map. destruct (nth_error aux i) as [x|]; cbn [option_map]; [|left; reflexivity]. destruct x; [left; reflexivity|right; reflexivity].
Qed.
Lemma input_weak i T : weak (targets_input_buf z h aux args0 i T) (targets_input z args i T).
Proof.
  unfold targets_input_buf, targets_input. apply weak_bind; [apply weak_refl|apply keeps_lift|]. intros desc. apply weak_bind; [| |intros g; apply weak_refl].
  - destruct (uint256_is_null (d_asset desc)); [|apply weak_refl]. subst args. cbn [set_aux a_aux]. generalize (gen_weak i). unfold frozen. destruct aux as [|x l]; intros W; [apply weak_refl|exact W].
  - destruct (uint256_is_null _); [|apply keeps_lib]. destruct (a_aux args); keeps.
Qed.
Lemma aux_weak n x T : weak (targets_aux_buf z (n, x) T) (targets_aux z (n, deref h x) T).
Proof. intros s. destruct x; [left|right]; reflexivity. Qed.
Lemma aux_loop_weak n m l T : weak (for_in (combine (seq n m) l) (targets_aux_buf z) T) (for_in (combine (seq n m) (map (deref h) l)) (targets_aux z) T).
Proof.
  revert n m T. induction l as [|x l IH]; intros n m T; destruct m as [|m]; try apply weak_refl. cbn [seq combine map for_in]. apply weak_bind; [apply aux_weak|apply keeps_targets_aux|]. intros T'. apply IH.
Qed.
Lemma targets_weak : weak (surjection_targets_buf z h aux args0) (surjection_targets z args).
Proof.
  unfold surjection_targets_buf, surjection_targets. apply weak_bind; [apply weak_refl|apply keeps_get|]. intros t. cbv zeta.
  assert (EN : (match aux with [] => 0 | _ => length aux - length (vin t) end = match a_aux args with [] => 0 | _ => length (a_aux args) - length (vin t) end)%nat).
  { subst args. cbn [set_aux a_aux]. unfold frozen. rewrite map_length. destruct aux; reflexivity. }
  rewrite EN. apply weak_bind; [apply weak_for; intros; [apply input_weak|apply keeps_targets_input]|apply keeps_for; intros; apply keeps_targets_input|]. intros T.
  apply weak_bind; [| |intros T'; apply weak_refl].
  - assert (L := aux_loop_weak (length (vin t)) (length aux - length (vin t)) (skipn (length (vin t)) aux) T). subst args. cbn [set_aux a_aux]. unfold frozen. rewrite map_length, skipn_map. destruct aux; [apply weak_refl|exact L].
  - destruct (a_aux args); [apply keeps_mret|]. apply keeps_for. intros. apply keeps_targets_aux.
Qed.
Lemma keeps_input_buf i T : keeps (targets_input_buf z h aux args0 i T).
Proof. unfold targets_input_buf. cbv zeta. keeps; apply keeps_add_target. Qed.
Lemma keeps_aux_buf x T : keeps (targets_aux_buf z x T).
Proof. unfold targets_aux_buf. destruct x. keeps; apply keeps_add_target. Qed.

(** * No bytearray is read *)
Section NoArray.
Variable t : tx.
Hypothesis NA : ~ ReadsArray args aux t.
Lemma read_bytes i x : nth_error aux i = Some x -> Read args t i -> char_p x = Ok (deref h x).
Proof. intros E R. destruct x as [b|a]; [reflexivity|]. exfalso. apply NA. exists i, a. auto. Qed.
Lemma input_eq i T d : targets_input_buf z h aux args0 i T (mkSt t d) = targets_input z args i T (mkSt t d).
Proof.
  unfold targets_input_buf, targets_input. apply bind_at; [reflexivity|]. intros desc s1 D. unfold lift, nth_res in D. change (a_descs (set_aux args0 (map (deref h) aux))) with (a_descs args) in D.
  destruct (nth_error (a_descs args) i) as [x|] eqn:N; [|discriminate D]. injection D as <- <-. apply bind_at; [|intros; reflexivity].
  destruct (uint256_is_null (d_asset x)) eqn:Z0; [|reflexivity]. assert (RD : Read args t i) by (right; exists x; split; [exact N|apply null_eq, Z0]).
  assert (E : mbind (lift (nth_res aux i)) (fun y => mbind (lift (char_p y)) (fun ag => match gen_parse z ag with Some g => mret g | None => mreturn (BFailure (F_aux_invalid i)) end)) (mkSt t d)
    = mbind (lift (nth_res (a_aux args) i)) (fun ag => match gen_parse z ag with Some g => mret g | None => mreturn (BFailure (F_aux_invalid i)) end) (mkSt t d)).
  { unfold nth_res. change (a_aux args) with (map (deref h) aux). rewrite nth_error_map. destruct (nth_error aux i) as [y|] eqn:Y; [|reflexivity]. cbn [option_map]. unfold mbind, lift. cbn [mret]. rewrite (read_bytes i y Y RD). reflexivity. }
  revert E. change (a_aux args) with (map (deref h) aux). destruct aux; [reflexivity|]. intros E. exact E.
Qed.
Lemma aux_loop_eq m l T d : forall n, (forall k x, nth_error l k = Some x -> char_p x = Ok (deref h x)) ->
  for_in (combine (seq n m) l) (targets_aux_buf z) T (mkSt t d) = for_in (combine (seq n m) (map (deref h) l)) (targets_aux z) T (mkSt t d).
Proof.
  revert m T. induction l as [|x l IH]; intros m T n H; destruct m as [|m]; try reflexivity. cbn [seq combine map for_in]. apply bind_at.
  - unfold targets_aux_buf, targets_aux, mbind, lift. rewrite (H 0%nat x eq_refl). reflexivity.
  - intros T' s1 E. apply keeps_eq in E; [|apply keeps_aux_buf]. subst s1. apply IH. intros k y Y. exact (H (S k) y Y).
Qed.
Lemma targets_eq d : surjection_targets_buf z h aux args0 (mkSt t d) = surjection_targets z args (mkSt t d).
Proof.
  unfold surjection_targets_buf, surjection_targets. apply bind_at; [reflexivity|]. intros t' s1 E. injection E as <- <-. cbv zeta.
  assert (EN : (match aux with [] => 0 | _ => length aux - length (vin t) end = match a_aux args with [] => 0 | _ => length (a_aux args) - length (vin t) end)%nat).
  { subst args. cbn [set_aux a_aux]. unfold frozen. rewrite map_length. destruct aux; reflexivity. }
  rewrite EN. apply bind_at.
  - rewrite <- (map_id (seq 0 (length (vin t)))) at 2. apply for_eq; intros; [apply input_eq|apply keeps_targets_input].
  - intros T s1 E. apply keeps_eq in E; [|apply keeps_for; intros; apply keeps_input_buf]. subst s1. apply bind_at; [|intros; reflexivity].
    assert (L := aux_loop_eq (length aux - length (vin t)) (skipn (length (vin t)) aux) T d (length (vin t))).
    assert (NB : forall k x, nth_error (skipn (length (vin t)) aux) k = Some x -> char_p x = Ok (deref h x)).
    { intros k x X. rewrite nth_skipn in X. apply (read_bytes _ _ X). left. lia. }
    specialize (L NB). revert L. subst args. cbn [set_aux a_aux]. unfold frozen. rewrite map_length, skipn_map. destruct aux; [reflexivity|]. intros L. exact L.
Qed.
Theorem blind_bytes : blind_transaction_buf z rand h aux args0 t = blind_transaction z rand args t.
Proof.
  unfold blind_transaction_buf, blind_transaction. assert (E : blind_body_buf z rand h aux args0 (mkSt t 0) = blind_body z rand args (mkSt t 0)); [|rewrite E; reflexivity].
  unfold blind_body_buf, blind_body. apply bind_at; [reflexivity|]. intros [] s1 E. apply keeps_eq in E; [|apply keeps_check]. subst s1. apply bind_at; [apply targets_eq|]. intros; reflexivity.
Qed.
End NoArray.

(** * A bytearray is read *)
Lemma targets_no_val t d : ReadsArray args aux t -> no_val (surjection_targets_buf z h aux args0) (mkSt t d).
Proof.
  intros (i & a & NX & RD) r s' E. unfold surjection_targets_buf in E. apply bind_Val in E. destruct E as (t' & s1 & G & E). injection G as <- <-. cbv zeta in E.
  apply bind_Val in E. destruct E as (T & s1 & E1 & E). assert (K := E1). apply keeps_eq in K; [|apply keeps_for; intros; apply keeps_input_buf]. subst s1.
  apply bind_Val in E. destruct E as (T' & s1 & E2 & _). destruct (Nat.lt_ge_cases i (length (vin t))) as [LT|GE].
  - destruct RD as [?|(dd & N & Z0)]; [lia|]. revert E1. apply for_no_val with (x := i); [|intros; apply keeps_input_buf|apply in_seq; cbn [s_tx]; lia].
    intros st T1 s2 X. unfold targets_input_buf in X. apply bind_Val in X. destruct X as (x & s3 & X1 & X). unfold lift, nth_res in X1. change (a_descs (set_aux args0 (map (deref h) aux))) with (a_descs args) in X1. rewrite N in X1. injection X1 as <- <-.
    apply bind_Val in X. destruct X as (g & s3 & X & _). rewrite (proj2 (null_eq _) Z0) in X. revert NX X. destruct aux as [|y l]; intros NX X; [discriminate X|]. unfold nth_res in X. rewrite NX in X. discriminate X.
  - assert (SK : nth_error (skipn (length (vin t)) aux) (i - length (vin t)) = Some (PByteArray a)) by (rewrite nth_skipn; replace (length (vin t) + (i - length (vin t)))%nat with i by lia; exact NX).
    assert (LN : (i < length aux)%nat) by (apply nth_error_Some; rewrite NX; discriminate).
    assert (IN : In (i, PByteArray a) (combine (seq (length (vin t)) (length aux - length (vin t))) (skipn (length (vin t)) aux))).
    { apply nth_error_In with (n := (i - length (vin t))%nat). apply nth_error_nth with (d := PBytes []) in SK. rewrite <- SK. replace i with (nth (i - length (vin t)) (seq (length (vin t)) (length aux - length (vin t))) 0%nat) at 2 by (rewrite seq_nth; lia).
      rewrite <- combine_nth by (rewrite seq_length, skipn_length; reflexivity). apply nth_error_nth'. rewrite combine_length, seq_length, skipn_length. lia. }
    assert (NV : no_val (for_in (combine (seq (length (vin t)) (length aux - length (vin t))) (skipn (length (vin t)) aux)) (targets_aux_buf z) T) (mkSt t d)).
    { apply for_no_val with (x := (i, PByteArray a)); [intros st T1 s2 X; discriminate X|intros; apply keeps_aux_buf|exact IN]. }
    destruct aux as [|y l]; [cbn in LN; lia|]. exact (NV _ _ E2).
Qed.
Lemma early_targets : early (surjection_targets z args).
Proof.
  unfold surjection_targets. cbv zeta. early; apply early_for; intros.
  - unfold targets_input. cbv zeta. early.
  - unfold targets_aux. early.
Qed.
Lemma stops {A B} (c : M unit) (m m' : M A) (k k' : A -> M B) (b : M B) s o s' : b = mbind c (fun _ => mbind m' k') -> keeps c -> early c -> keeps m' -> weak m m' -> early m' -> no_val m s ->
  mbind c (fun _ => mbind m k) s = (o, s') ->
  s' = s /\ (o = Exc EArgument \/ (b s = (o, s') /\ ((exists f, o = Ret (BFailure f) /\ EarlyFailure f) \/ exists e, o = Exc e))).
Proof.
  intros -> KC EC KM W EM NV. unfold mbind. specialize (KC s). destruct (c s) as [[[]|r|e] s1] eqn:C; cbn [snd] in KC; subst s1.
  - destruct (W s) as [E|E]; [|rewrite E; intros X; injection X as <- <-; auto]. specialize (KM s). specialize (NV). rewrite E. destruct (m' s) as [[a|r|e] s1] eqn:C'; cbn [snd] in KM; subst s1.
    + exfalso. exact (NV _ _ E).
    + intros X; injection X as <- <-. split; [reflexivity|]. right. split; [reflexivity|]. left. destruct (EM _ _ _ C') as (f & -> & F). eauto.
    + intros X; injection X as <- <-. eauto 6.
  - intros X; injection X as <- <-. split; [reflexivity|]. right. split; [reflexivity|]. left. destruct (EC _ _ _ C) as (f & -> & F). eauto.
  - intros X; injection X as <- <-. eauto 6.
Qed.
Theorem blind_array t o s : ReadsArray args aux t -> blind_transaction_buf z rand h aux args0 t = (o, s) ->
  s = mkSt t 0 /\ (o = Exc EArgument \/ (blind_transaction z rand args t = (o, s) /\ ((exists f, o = Ret (BFailure f) /\ EarlyFailure f) \/ exists e, o = Exc e))).
Proof.
  intros RA. unfold blind_transaction_buf. destruct (blind_body_buf z rand h aux args0 (mkSt t 0)) as [o1 s1] eqn:E. unfold blind_body_buf in E.
  assert (EC : early (check_arguments args)) by (unfold check_arguments; early).
  eapply (stops _ _ _ _ _ (blind_body z rand args)) in E; [|unfold blind_body; reflexivity|apply keeps_check|exact EC|apply keeps_targets|exact targets_weak|exact early_targets|apply targets_no_val; exact RA].
  destruct E as (-> & [-> | (E & H)]); [intros X; injection X as <- <-; auto|].
  unfold blind_transaction.
  destruct H as [(f & -> & F)|(e & ->)]; intros X; injection X as <- <-; (split; [reflexivity|]); right.
  - split; [|eauto]. rewrite E. reflexivity.
  - split; [|eauto]. rewrite E. reflexivity.
Qed.

(** * Where ArgumentError comes from *)
Lemma for_exc {A L} (l : list A) (body : A -> L -> M L) st s e s' : (forall x st, keeps (body x st)) -> for_in l body st s = (Exc e, s') ->
  s' = s /\ exists l1 x l2 st1, l = l1 ++ x :: l2 /\ body x st1 s = (Exc e, s) /\ forall y, In y l1 -> exists st1 st2, body y st1 s = (Val st2, s).
Proof.
  intros K. revert st. induction l as [|x l IH]; intros st E; cbn [for_in] in E; [discriminate E|].
  unfold mbind in E. destruct (body x st s) as [[st1|r|e1] s1] eqn:EB; assert (s1 = s) by (exact (keeps_eq _ _ _ _ (K x st) EB)); subst s1; [|discriminate E|].
  - apply IH in E. destruct E as [-> (l1 & y & l2 & st2 & -> & EY & F)]. split; [reflexivity|]. exists (x :: l1), y, l2, st2. split; [reflexivity|]. split; [exact EY|]. intros w [<-|IN]; [eauto|apply F; exact IN].
  - injection E as <- <-. split; [reflexivity|]. exists [], x, l, st. split; [reflexivity|]. split; [exact EB|]. intros y [].
Qed.
Definition noarg {A} (m : M A) : Prop := forall s s', m s <> (Exc EArgument, s').
Lemma noarg_bind {A B} (m : M A) (k : A -> M B) : noarg m -> (forall a, noarg (k a)) -> noarg (mbind m k).
Proof. intros H K s s' E. unfold mbind in E. destruct (m s) as [[a|r|e] s1] eqn:EM; [exact (K _ _ _ E)|discriminate E|]. injection E as -> ->. exact (H _ _ EM). Qed.
Lemma noarg_mret {A} (a : A) : noarg (mret a). Proof. intros s s'. discriminate. Qed.
Lemma noarg_mreturn {A} r : noarg (mreturn r : M A). Proof. intros s s'. discriminate. Qed.
Lemma noarg_mraise {A} e : e <> EArgument -> noarg (mraise e : M A). Proof. intros H s s' E. injection E as E _. contradiction. Qed.
Lemma noarg_lift {A} (r : res A) : r <> Raise EArgument -> noarg (lift r). Proof. intros H s s' E. destruct r; [discriminate E|]. injection E as -> _. contradiction. Qed.
Lemma noarg_lib {A} (r : option A) : noarg (lib_call r). Proof. intros s s'. destruct r; discriminate. Qed.
Lemma noarg_get : noarg get_tx. Proof. intros s s'. discriminate. Qed.
Lemma nth_res_noarg {A} (l : list A) i : nth_res l i <> Raise EArgument. Proof. unfold nth_res. destruct (nth_error l i); discriminate. Qed.
Lemma set_res_noarg {A} (l : list A) i x : set_res l i x <> Raise EArgument. Proof. unfold set_res. destruct (_ <? _)%nat; discriminate. Qed.
Lemma rassert_noarg b : rassert b EAssert <> Raise EArgument. Proof. destruct b; discriminate. Qed.
Lemma asset_noarg mid e : calculate_asset mid e <> Raise EArgument.
Proof. unfold calculate_asset, uint256_new. repeat match goal with |- context [if ?b then _ else _] => destruct b end; discriminate. Qed.
Lemma token_noarg mid e b : calculate_reissuance_token mid e b <> Raise EArgument.
Proof. unfold calculate_reissuance_token, uint256_new. repeat match goal with |- context [if ?b then _ else _] => destruct b end; discriminate. Qed.
Lemma all_noarg {A} (l : list (option A)) : all_some l <> Raise EArgument.
Proof. unfold all_some. induction l as [|[x|] l IH]; cbn [rmap rbind]; [discriminate| |discriminate]. destruct (rmap _ l); [discriminate|]. cbn [rbind]. congruence. Qed.
Lemma entropy_noarg hash mid p c : generate_asset_entropy hash mid p c <> Raise EArgument.
Proof.
  unfold generate_asset_entropy, rassert, ser_outpoint, pack_le, uint256_new. repeat match goal with |- context [if ?b then _ else _] => destruct b; cbn [rbind]; try discriminate end.
Qed.
Ltac noarg := repeat first
  [ apply noarg_bind; [|intros ?] | apply noarg_mret | apply noarg_mreturn | apply noarg_mraise; discriminate | apply noarg_lib | apply noarg_get
  | apply noarg_lift; first [apply nth_res_noarg | apply set_res_noarg | apply rassert_noarg | apply asset_noarg | apply token_noarg | apply entropy_noarg]
  | match goal with |- noarg (match ?x with _ => _ end) => destruct x end
  | match goal with |- noarg (let '_ := ?x in _) => destruct x end ].
Lemma noarg_add_target T a b c : noarg (add_target T a b c). Proof. unfold add_target. noarg. Qed.
Lemma noarg_check : noarg (check_arguments args). Proof. unfold check_arguments. noarg. Qed.
Lemma bind_arg {A B} (m : M A) (k : A -> M B) s s' : mbind m k s = (Exc EArgument, s') -> m s = (Exc EArgument, s') \/ exists a s1, m s = (Val a, s1) /\ k a s1 = (Exc EArgument, s').
Proof. unfold mbind. destruct (m s) as [[a|r|e] s1]; intros E; [right; eauto|discriminate E|left; congruence]. Qed.
Lemma input_arg i T s s' : targets_input_buf z h aux args0 i T s = (Exc EArgument, s') ->
  (exists a, nth_error aux i = Some (PByteArray a)) /\ exists d, nth_error (a_descs args) i = Some d /\ d_asset d = zeros 32.
Proof.
  intros E. unfold targets_input_buf in E. apply bind_arg in E. destruct E as [E|(d & s1 & D & E)]; [exfalso; revert E; apply noarg_lift, nth_res_noarg|].
  apply lift_Val in D. destruct D as [D ->]. apply nth_res_Ok in D. apply bind_arg in E. destruct E as [E|(g & s1 & _ & E)].
  - destruct (uint256_is_null (d_asset d)) eqn:Z0; [|exfalso; revert E; apply noarg_lib]. split; [|exists d; split; [exact D|apply null_eq; exact Z0]].
    assert (X : mbind (lift (nth_res aux i)) (fun x => mbind (lift (char_p x)) (fun ag => match gen_parse z ag with Some g => mret g | None => mreturn (BFailure (F_aux_invalid i)) end)) s = (Exc EArgument, s')) by (destruct aux; [discriminate E|exact E]).
    apply bind_arg in X. destruct X as [X|(x & s1 & N & X)]; [exfalso; revert X; apply noarg_lift, nth_res_noarg|]. apply lift_Val in N. destruct N as [N _]. apply nth_res_Ok in N.
    destruct x as [b|a]; [|exists a; exact N]. exfalso. revert X. apply noarg_bind; [apply noarg_mret|]. intros ag. destruct (gen_parse z ag); [apply noarg_mret|apply noarg_mreturn].
  - exfalso. revert E. cbv zeta. noarg; apply noarg_add_target.
Qed.
Lemma aux_arg n x T s s' : targets_aux_buf z (n, x) T s = (Exc EArgument, s') -> exists a, x = PByteArray a.
Proof.
  destruct x as [b|a]; [|eauto]. intros E. exfalso. revert E. unfold targets_aux_buf. apply noarg_bind; [apply noarg_mret|]. intros ag. destruct (gen_parse z ag); [apply noarg_add_target|apply noarg_mreturn].
Qed.
Lemma weak_Val {A} (m m' : M A) s a s' : weak m m' -> m s = (Val a, s') -> m' s = (Val a, s').
Proof. intros W E. destruct (W s) as [X|X]; congruence. Qed.
Lemma targets_arg t d s' : surjection_targets_buf z h aux args0 (mkSt t d) = (Exc EArgument, s') ->
  exists i a, nth_error aux i = Some (PByteArray a) /\ Read args t i /\ forall p j k f, (p <= 1)%nat -> FaultAt z args t p j k f -> (i <= j)%nat.
Proof.
  intros E. unfold surjection_targets_buf in E. apply bind_arg in E. destruct E as [E|(t' & s1 & G & E)]; [discriminate E|]. injection G as <- <-. cbv zeta in E. cbn [s_tx] in E.
  assert (P1 : forall j k f, FaultAt z args t 1 j k f -> (length (vin t) <= j)%nat) by (intros j k f F; inversion F; subst; assumption).
  apply bind_arg in E. destruct E as [E|(T & s1 & E0 & E)].
  - apply for_exc in E; [|intros; apply keeps_input_buf]. destruct E as (-> & l1 & i & l2 & st1 & SQ & EB & CL). assert (IN : In i (seq 0 (length (vin t)))) by (rewrite SQ; apply in_elt). apply in_seq in IN.
    apply input_arg in EB. destruct EB as ((a & NA) & RD). exists i, a. split; [exact NA|]. split; [right; exact RD|]. intros p j k f LE F. destruct p as [|p]; [|destruct p; [|lia]; specialize (P1 _ _ _ F); lia].
    destruct (Nat.le_gt_cases i j) as [?|LT]; [assumption|exfalso].
    assert (L1 : l1 = seq 0 i).
    { assert (LL : i = length l1).
      { assert (X : nth_error (seq 0 (length (vin t))) (length l1) = Some i) by (rewrite SQ, nth_error_app2, Nat.sub_diag by lia; reflexivity).
        apply nth_error_nth with (d := 0%nat) in X. rewrite seq_nth in X; [lia|]. rewrite <- (seq_length (length (vin t)) 0), SQ, app_length. cbn. lia. }
      assert (X := SQ). replace (length (vin t)) with (i + (length (vin t) - i))%nat in X by lia. rewrite seq_app in X. apply (f_equal (firstn i)) in X. rewrite !firstn_app, seq_length, <- LL, Nat.sub_diag in X. cbn [firstn] in X. rewrite !app_nil_r in X.
      rewrite firstn_all2 in X by (rewrite seq_length; lia). rewrite firstn_all2 in X by lia. symmetry. exact X. }
    destruct (CL j) as (st2 & st3 & EJ); [rewrite L1; apply in_seq; lia|]. apply (weak_Val _ _ _ _ _ (input_weak j st2)) in EJ.
    destruct (nth_error (vin t) j) as [inp|] eqn:EI; [|apply nth_error_None in EI; lia]. exact (targets_input_ends z args j st2 (mkSt t d) inp _ _ EI EJ k f F).
  - assert (s1 = mkSt t d) by (exact (keeps_eq _ _ _ _ (keeps_for _ _ (fun x st => keeps_input_buf x st) _) E0)). subst s1.
    assert (C0 : CleanPhase z args t 0).
    { eapply weak_Val in E0; [|apply weak_for; intros; [apply input_weak|apply keeps_targets_input]]. exact (proj2 (phase0 z args _ (mkSt t d) _ _ E0)). }
    apply bind_arg in E. destruct E as [E|(T1 & s1 & _ & E)]; [|exfalso; revert E; apply noarg_bind; [apply noarg_lift, rassert_noarg|intros _]].
    + assert (X : for_in (combine (seq (length (vin t)) (length (skipn (length (vin t)) aux))) (skipn (length (vin t)) aux)) (targets_aux_buf z) T (mkSt t d) = (Exc EArgument, s')) by (rewrite skipn_length; destruct aux; [discriminate E|exact E]).
      clear E. apply for_exc in X; [|intros; apply keeps_aux_buf]. destruct X as (-> & l1 & [i x] & l2 & st1 & SQ & EB & CL). apply aux_arg in EB. destruct EB as [a ->].
      assert (IN : In (i, PByteArray a) (combine (seq (length (vin t)) (length (skipn (length (vin t)) aux))) (skipn (length (vin t)) aux))) by (rewrite SQ; apply in_elt). apply in_enum in IN. destruct IN as [LE NX]. rewrite nth_skipn in NX.
      replace (length (vin t) + (i - length (vin t)))%nat with i in NX by lia. exists i, a. split; [exact NX|]. split; [left; exact LE|].
      intros p j k f LP F. destruct p as [|p]; [exfalso; exact (C0 _ _ _ F)|]. destruct p; [|lia]. specialize (P1 _ _ _ F). destruct (Nat.le_gt_cases i j) as [?|LT]; [assumption|exfalso].
      assert (IJ : In j (map fst l1)).
      { assert (Y := fst_enum (length (vin t)) (skipn (length (vin t)) aux)). rewrite SQ, map_app in Y. cbn [map fst] in Y. rewrite app_length in Y. cbn [length] in Y.
        assert (LL : i = (length (vin t) + length l1)%nat).
        { assert (Q : nth_error (map fst l1 ++ i :: map fst l2) (length l1) = Some i) by (rewrite nth_error_app2 by (rewrite map_length; lia); rewrite map_length, Nat.sub_diag; reflexivity).
          rewrite Y in Q. apply nth_error_nth with (d := 0%nat) in Q. rewrite seq_nth in Q by lia. lia. }
        rewrite seq_app in Y. apply (f_equal (firstn (length l1))) in Y. rewrite !firstn_app, map_length, seq_length, Nat.sub_diag in Y. cbn [firstn] in Y. rewrite !app_nil_r in Y.
        rewrite firstn_all2 in Y by (rewrite map_length; lia). rewrite firstn_all2 in Y by (rewrite seq_length; lia). rewrite Y. apply in_seq. lia. }
      apply in_map_iff in IJ. destruct IJ as ([j' y] & EQ & IY). cbn [fst] in EQ. subst j'. destruct (CL _ IY) as (st2 & st3 & EJ). apply (weak_Val _ _ _ _ _ (aux_weak j y st2)) in EJ.
      assert (INY : In (j, y) (combine (seq (length (vin t)) (length (skipn (length (vin t)) aux))) (skipn (length (vin t)) aux))) by (rewrite SQ; apply in_or_app; left; exact IY). apply in_enum in INY. destruct INY as [_ NY]. rewrite nth_skipn in NY.
      replace (length (vin t) + (j - length (vin t)))%nat with j in NY by lia. refine (targets_aux_ends z args j (deref h y) st2 (mkSt t d) _ _ P1 _ EJ k f F). subst args. cbn [set_aux a_aux]. unfold frozen. rewrite nth_error_map, NY. reflexivity.
    + noarg; apply noarg_lift, all_noarg.
Qed.
Theorem blind_argument t s : ReadsArray args aux t -> blind_transaction_buf z rand h aux args0 t = (Exc EArgument, s) ->
  exists i a, nth_error aux i = Some (PByteArray a) /\ Read args t i /\ forall p j k f, (p <= 1)%nat -> FaultAt z args t p j k f -> (i <= j)%nat.
Proof.
  intros RA E. unfold blind_transaction_buf in E. destruct (blind_body_buf z rand h aux args0 (mkSt t 0)) as [o s1] eqn:B. assert (o = Exc EArgument) by (destruct o; [discriminate E| |]; congruence). subst o. clear E.
  unfold blind_body_buf in B. apply bind_arg in B. destruct B as [B|([] & s2 & C & B)]; [exfalso; exact (noarg_check _ _ B)|]. apply keeps_eq in C; [|apply keeps_check]. subst s2.
  apply bind_arg in B. destruct B as [B|(x & s2 & C & _)]; [exact (targets_arg _ _ _ B)|]. exfalso. exact (targets_no_val _ _ RA _ _ C).
Qed.
End Blind.

Section Unblind.
Variables (z : Crypto) (h : heap).
Lemma unblind_bytes key cv ca cn script b : unblind_confidential_pair_buf z h key cv ca cn script (PBytes b) = unblind_confidential_pair z key cv ca cn script b.
Proof. reflexivity. Qed.
(** until the proof is rewound, the run is that of a library that rewinds nothing *)
Lemma unblind_array key cv ca cn script a :
  unblind_confidential_pair_buf z h key cv ca cn script (PByteArray a) =
    match unblind_confidential_pair (without_rewind z) key cv ca cn script (h a) with
    | Ok (Failure m) => if String.eqb m "unable to rewind rangeproof" then Raise EArgument else Ok (Failure m)
    | r => r
    end.
Proof.
  unfold unblind_confidential_pair_buf, unblind_confidential_pair. cbn [deref char_p]. change (unblind_nonce (without_rewind z)) with (unblind_nonce z). change (unblind_generator (without_rewind z)) with (unblind_generator z). change (ped_parse (without_rewind z)) with (ped_parse z).
  destruct (_ =? 0); [reflexivity|].
  assert (NF : forall key cn script f, unblind_nonce z key cn script = Ok (inl f) -> f = Failure "nNonce.commitment is not a valid pubkey").
  { intros k c s f. unfold unblind_nonce. destruct (_ <? _); [|discriminate]. destruct (negb _); [intros E; injection E as <-; reflexivity|]. destruct (ecdh _ _ _); discriminate. }
  assert (GF : forall ca f, unblind_generator z ca = Ok (inl f) -> f = Failure "cannot parse asset commitment as a generator" \/ f = Failure "unable to create a generator out of asset explicit data").
  { intros c f. unfold unblind_generator. destruct (conf_is_commitment _ _); [destruct (gen_parse _ _); [discriminate|intros E; injection E as <-; auto]|]. destruct (conf_is_explicit _ _); [|discriminate].
    destruct (to_asset c); [|discriminate]. cbn [rbind]. destruct (gen_generate _ _); [discriminate|intros E; injection E as <-; auto]. }
  destruct (unblind_nonce z key cn script) as [[f|[nonce sc]]|e] eqn:N; cbn [rbind]; [rewrite (NF _ _ _ _ N); reflexivity| |reflexivity].
  destruct (negb _); [reflexivity|]. destruct (unblind_generator z ca) as [[f|g]|e] eqn:G; cbn [rbind]; [destruct (GF _ _ G) as [->| ->]; reflexivity| |reflexivity].
  destruct (ped_parse z cv); reflexivity.
Qed.
(** a library that rewinds nothing gives the same exceptions and failures before that point *)
Lemma rewind_only key cv ca cn script b :
  unblind_confidential_pair (without_rewind z) key cv ca cn script b = Ok (Failure "unable to rewind rangeproof")
  \/ (unblind_confidential_pair (without_rewind z) key cv ca cn script b = unblind_confidential_pair z key cv ca cn script b
     /\ ((exists m, unblind_confidential_pair z key cv ca cn script b = Ok (Failure m)) \/ exists e, unblind_confidential_pair z key cv ca cn script b = Raise e)).
Proof.
  unfold unblind_confidential_pair. change (unblind_nonce (without_rewind z)) with (unblind_nonce z). change (unblind_generator (without_rewind z)) with (unblind_generator z). change (ped_parse (without_rewind z)) with (ped_parse z).
  destruct (_ =? 0); [right; split; [reflexivity|left; eexists; reflexivity]|].
  assert (NF : forall key cn script f, unblind_nonce z key cn script = Ok (inl f) -> exists m, f = Failure m).
  { intros k c s f. unfold unblind_nonce. destruct (_ <? _); [|discriminate]. destruct (negb _); [intros E; injection E as <-; eauto|]. destruct (ecdh _ _ _); discriminate. }
  assert (GF : forall ca f, unblind_generator z ca = Ok (inl f) -> exists m, f = Failure m).
  { intros c f. unfold unblind_generator. destruct (conf_is_commitment _ _); [destruct (gen_parse _ _); [discriminate|intros E; injection E as <-; eauto]|]. destruct (conf_is_explicit _ _); [|discriminate].
    destruct (to_asset c); [|discriminate]. cbn [rbind]. destruct (gen_generate _ _); [discriminate|intros E; injection E as <-; eauto]. }
  destruct (unblind_nonce z key cn script) as [[f|[nonce sc]]|e] eqn:N; cbn [rbind]; [destruct (NF _ _ _ _ N) as [m ->]; right; split; [reflexivity|eauto]| |right; split; [reflexivity|eauto]].
  destruct (negb _); [right; split; [reflexivity|left; eexists; reflexivity]|]. destruct (unblind_generator z ca) as [[f|g]|e] eqn:G; cbn [rbind]; [destruct (GF _ _ G) as [m ->]; right; split; [reflexivity|eauto]| |right; split; [reflexivity|eauto]].
  destruct (ped_parse z cv); [left; reflexivity|right; split; [reflexivity|left; eexists; reflexivity]].
Qed.
End Unblind.
