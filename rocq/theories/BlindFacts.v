(** Reasoning about the state / exception / early-return monad of BlindModel. *)
From Verif Require Import Base BaseFacts Serialize TxModel IssuanceModel ScriptModel MiscModel BlindModel.
From Coq Require Import Lia.
Local Open Scope Z_scope.

Lemma bind_Val {A B} (m : M A) (k : A -> M B) s b s' :
  mbind m k s = (Val b, s') <-> exists a s1, m s = (Val a, s1) /\ k a s1 = (Val b, s').
Proof.
  unfold mbind. destruct (m s) as [[a|r|e] s1].
  - split; [eauto|]. intros (a' & s1' & E & K). injection E as <- <-. exact K.
  - split; [discriminate|intros (? & ? & E & _); discriminate].
  - split; [discriminate|intros (? & ? & E & _); discriminate].
Qed.
Lemma bind_Ret {A B} (m : M A) (k : A -> M B) s r s' :
  mbind m k s = (Ret r, s') <-> m s = (Ret r, s') \/ exists a s1, m s = (Val a, s1) /\ k a s1 = (Ret r, s').
Proof.
  unfold mbind. destruct (m s) as [[a|r'|e] s1].
  - split; [eauto|]. intros [E|(a' & s1' & E & K)]; [discriminate|]. injection E as <- <-. exact K.
  - split; [intros E; left; injection E as <- <-; reflexivity|].
    intros [E|(? & ? & E & _)]; [injection E as <- <-; reflexivity|discriminate].
  - split; [discriminate|intros [E|(? & ? & E & _)]; discriminate].
Qed.
Lemma bind_Exc {A B} (m : M A) (k : A -> M B) s e s' :
  mbind m k s = (Exc e, s') <-> m s = (Exc e, s') \/ exists a s1, m s = (Val a, s1) /\ k a s1 = (Exc e, s').
Proof.
  unfold mbind. destruct (m s) as [[a|r'|e'] s1].
  - split; [eauto|]. intros [E|(a' & s1' & E & K)]; [discriminate|]. injection E as <- <-. exact K.
  - split; [discriminate|intros [E|(? & ? & E & _)]; discriminate].
  - split; [intros E; left; injection E as <- <-; reflexivity|].
    intros [E|(? & ? & E & _)]; [injection E as <- <-; reflexivity|discriminate].
Qed.

Lemma mret_Val {A} (a : A) s b s' : mret a s = (Val b, s') -> b = a /\ s' = s.
Proof. intros E. injection E; auto. Qed.
Lemma mret_Ret {A} (a : A) s r s' : mret a s <> (Ret r, s'). Proof. discriminate. Qed.
Lemma mret_Exc {A} (a : A) s r s' : mret a s <> (Exc r, s'). Proof. discriminate. Qed.
Lemma mreturn_Ret {A} r0 s r s' : (mreturn r0 : M A) s = (Ret r, s') -> r = r0 /\ s' = s.
Proof. intros E. injection E; auto. Qed.
Lemma lift_Val {A} (r : res A) s a s' : lift r s = (Val a, s') -> r = Ok a /\ s' = s.
Proof. destruct r; intros E; inversion E; auto. Qed.
Lemma lift_Ret {A} (r : res A) s x s' : lift r s <> (Ret x, s').
Proof. destruct r; discriminate. Qed.
Lemma lift_Exc {A} (r : res A) s e s' : lift r s = (Exc e, s') -> r = Raise e /\ s' = s.
Proof. destruct r; intros E; inversion E; auto. Qed.
Lemma lib_Val {A} (r : option A) s a s' : lib_call r s = (Val a, s') -> r = Some a /\ s' = s.
Proof. destruct r; intros E; inversion E; auto. Qed.
Lemma lib_Ret {A} (r : option A) s x s' : lib_call r s <> (Ret x, s').
Proof. destruct r; discriminate. Qed.
Lemma lib_Exc {A} (r : option A) s e s' : lib_call r s = (Exc e, s') -> r = None /\ e = ERuntime /\ s' = s.
Proof. destruct r; intros E; inversion E; auto. Qed.
Lemma get_Val s t s' : get_tx s = (Val t, s') -> t = s_tx s /\ s' = s.
Proof. intros E. injection E; auto. Qed.
Lemma put_Val t s u s' : put_tx t s = (Val u, s') -> s' = mkSt t (s_draws s).
Proof. intros E. injection E; auto. Qed.
Lemma draw_Val rand s b s' : draw rand s = (Val b, s') -> b = rand (s_draws s) /\ s' = mkSt (s_tx s) (S (s_draws s)).
Proof. intros E. injection E; auto. Qed.
Lemma draw256_Val rand s b s' : draw_uint256 rand s = (Val b, s') ->
  b = rand (s_draws s) /\ blen b = 32 /\ s' = mkSt (s_tx s) (S (s_draws s)).
Proof.
  intros E. unfold draw_uint256 in E. apply bind_Val in E. destruct E as (b0 & s1 & E1 & E).
  apply draw_Val in E1. destruct E1 as [-> ->]. apply lift_Val in E. destruct E as [E ->].
  unfold uint256_new in E. destruct (Z.eqb_spec (blen (rand (s_draws s))) 32); [|discriminate].
  apply Ok_inj in E. subst b. auto.
Qed.
Lemma draw256_Ret rand s r s' : draw_uint256 rand s <> (Ret r, s').
Proof.
  intros E. unfold draw_uint256 in E. apply bind_Ret in E. destruct E as [E|(b0 & s1 & E1 & E)]; [discriminate|].
  exact (lift_Ret _ _ _ _ E).
Qed.

Lemma nth_res_Ok {A} (l : list A) i x : nth_res l i = Ok x <-> nth_error l i = Some x.
Proof. unfold nth_res. destruct (nth_error l i); split; intros E; inversion E; auto. Qed.

(** Loops. *)
Lemma for_in_inv {A L} (I : list A -> L -> St -> Prop) (body : A -> L -> M L) : forall l,
  (forall p x r st s st' s', l = p ++ x :: r -> I p st s -> body x st s = (Val st', s') -> I (p ++ [x]) st' s') ->
  forall st s o s', I [] st s -> for_in l body st s = (o, s') ->
  match o with
  | Val st' => I l st' s'
  | Ret y => exists p x r st1 s1, l = p ++ x :: r /\ I p st1 s1 /\ body x st1 s1 = (Ret y, s')
  | Exc e => exists p x r st1 s1, l = p ++ x :: r /\ I p st1 s1 /\ body x st1 s1 = (Exc e, s')
  end.
Proof.
  intros l STEP.
  assert (G : forall l0 p, p ++ l0 = l -> forall st s o s', I p st s -> for_in l0 body st s = (o, s') ->
    match o with
    | Val st' => I l st' s'
    | Ret y => exists p x r st1 s1, l = p ++ x :: r /\ I p st1 s1 /\ body x st1 s1 = (Ret y, s')
    | Exc e => exists p x r st1 s1, l = p ++ x :: r /\ I p st1 s1 /\ body x st1 s1 = (Exc e, s')
    end).
  { induction l0 as [|x l0 IH]; intros p E st s o s' HI HF.
    - cbn in HF. injection HF as <- <-. rewrite app_nil_r in E. subst p. exact HI.
    - cbn [for_in] in HF. unfold mbind in HF. destruct (body x st s) as [[st1|y|e] s1] eqn:B.
      + assert (HI' : I (p ++ [x]) st1 s1) by (eapply STEP; [symmetry; exact E|exact HI|exact B]).
        assert (E' : (p ++ [x]) ++ l0 = l) by (rewrite <- app_assoc; exact E).
        exact (IH _ E' _ _ _ _ HI' HF).
      + injection HF as <- <-. exists p, x, l0, st, s. auto.
      + injection HF as <- <-. exists p, x, l0, st, s. auto. }
  intros st s o s'. exact (G l [] eq_refl st s o s').
Qed.

(** [enumerate] *)
Lemma seq_split n k p x r : seq k n = p ++ x :: r -> x = (k + length p)%nat /\ (length p < n)%nat.
Proof.
  revert k p. induction n as [|n IH]; intros k p E; [destruct p; discriminate|].
  destruct p as [|y p]; cbn in E.
  - injection E as <- _. cbn. split; lia.
  - injection E as <- E. apply IH in E. cbn. lia.
Qed.
Lemma enum_split {A} (l : list A) : forall k p i x r,
  combine (seq k (length l)) l = p ++ (i, x) :: r ->
  i = (k + length p)%nat /\ nth_error l (length p) = Some x /\ map snd p = firstn (length p) l /\ map snd r = skipn (S (length p)) l.
Proof.
  induction l as [|y l IH]; intros k p i x r E; [destruct p; discriminate|].
  cbn [length seq combine] in E. destruct p as [|q p].
  - cbn in E. injection E as <- <- <-. cbn. split; [lia|]. split; [reflexivity|]. split; [reflexivity|].
    clear IH. revert k. induction l as [|y' l IH]; intros k; [reflexivity|]. cbn. f_equal. apply IH.
  - cbn in E. injection E as <- E. apply IH in E. destruct E as (-> & N & P & R). cbn. split; [lia|]. split; [assumption|].
    split; [f_equal; assumption|assumption].
Qed.
Lemma enum_fst {A} (l : list A) k : map snd (combine (seq k (length l)) l) = l.
Proof. revert k. induction l as [|y l IH]; intros k; [reflexivity|]. cbn. f_equal. apply IH. Qed.
Lemma enum_length {A} (l : list A) k : length (combine (seq k (length l)) l) = length l.
Proof. rewrite combine_length, seq_length. lia. Qed.

(** Updates. *)
Lemma upd_length {A} (l : list A) i x : length (upd l i x) = length l.
Proof. revert i. induction l as [|y l IH]; intros [|i]; cbn; auto. Qed.
Lemma upd_nth_same {A} (l : list A) i x : (i < length l)%nat -> nth_error (upd l i x) i = Some x.
Proof. revert i. induction l as [|y l IH]; intros [|i] H; cbn in *; try lia; auto. apply IH. lia. Qed.
Lemma upd_nth_other {A} (l : list A) i j x : i <> j -> nth_error (upd l i x) j = nth_error l j.
Proof. revert i j. induction l as [|y l IH]; intros [|i] [|j] H; cbn; auto; try contradiction. Qed.
Lemma upd_nth {A} (l : list A) i j x : nth_error (upd l i x) j =
  if (i =? j)%nat && (i <? length l)%nat then Some x else nth_error l j.
Proof.
  destruct (Nat.eqb_spec i j) as [<-|N]; cbn [andb].
  - destruct (Nat.ltb_spec i (length l)); [apply upd_nth_same; assumption|].
    rewrite (proj2 (nth_error_None _ _)); [|rewrite upd_length; lia]. symmetry. apply nth_error_None. lia.
  - apply upd_nth_other. assumption.
Qed.
Lemma upd_app {A} (l l' : list A) i x : (i < length l)%nat -> upd (l ++ l') i x = upd l i x ++ l'.
Proof. revert i. induction l as [|y l IH]; intros [|i] H; cbn in *; try lia; auto. f_equal. apply IH. lia. Qed.
Lemma upd_at {A} (l l' : list A) x y : upd (l ++ y :: l') (length l) x = l ++ x :: l'.
Proof. induction l as [|z l IH]; cbn; [reflexivity|f_equal; exact IH]. Qed.
Lemma upd_upd {A} (l : list A) i x y : upd (upd l i x) i y = upd l i y.
Proof. revert i. induction l as [|z l IH]; intros [|i]; cbn; auto. f_equal. apply IH. Qed.
Lemma pad_to_length {A} n (x : A) l : length (pad_to n x l) = Nat.max n (length l).
Proof. unfold pad_to. rewrite app_length, repeat_length. lia. Qed.
Lemma pad_to_nth {A} n (x : A) l i : nth i (pad_to n x l) x = nth i l x.
Proof.
  unfold pad_to. destruct (Nat.lt_ge_cases i (length l)) as [H|H].
  - apply app_nth1. exact H.
  - rewrite app_nth2 by lia. rewrite (nth_overflow l) by lia. generalize (i - length l)%nat.
    induction (n - length l)%nat as [|m IH]; intros [|j]; cbn; auto.
Qed.
Lemma pad_to_nth_error {A} n (x : A) l i : (i < length l)%nat -> nth_error (pad_to n x l) i = nth_error l i.
Proof. intros H. unfold pad_to. apply nth_error_app1. exact H. Qed.
Lemma nth_error_default {A} (l : list A) i d x : nth_error l i = Some x -> nth i l d = x.
Proof. intros H. apply nth_error_nth. exact H. Qed.

Lemma mod_vin_Val n f s u s' : mod_vin n f s = (Val u, s') ->
  exists i, nth_error (vin (s_tx s)) n = Some i
    /\ s' = mkSt (set_vin (s_tx s) (upd (vin (s_tx s)) n (f i))) (s_draws s).
Proof.
  unfold mod_vin. intros E. apply bind_Val in E. destruct E as (t & s1 & E1 & E). apply get_Val in E1. destruct E1 as [-> ->].
  apply bind_Val in E. destruct E as (i & s1 & E1 & E). apply lift_Val in E1. destruct E1 as [E1 ->]. apply nth_res_Ok in E1.
  apply put_Val in E. eauto.
Qed.
Lemma mod_vout_Val n f s u s' : mod_vout n f s = (Val u, s') ->
  exists i, nth_error (vout (s_tx s)) n = Some i
    /\ s' = mkSt (set_vout (s_tx s) (upd (vout (s_tx s)) n (f i))) (s_draws s).
Proof.
  unfold mod_vout. intros E. apply bind_Val in E. destruct E as (t & s1 & E1 & E). apply get_Val in E1. destruct E1 as [-> ->].
  apply bind_Val in E. destruct E as (i & s1 & E1 & E). apply lift_Val in E1. destruct E1 as [E1 ->]. apply nth_res_Ok in E1.
  apply put_Val in E. eauto.
Qed.
Lemma mod_inwit_Val n f s u s' : mod_inwit n f s = (Val u, s') ->
  exists i, nth_error (vtxinwit (wit (s_tx s))) n = Some i
    /\ s' = mkSt (set_inwits (s_tx s) (upd (vtxinwit (wit (s_tx s))) n (f i))) (s_draws s).
Proof.
  unfold mod_inwit. intros E. apply bind_Val in E. destruct E as (t & s1 & E1 & E). apply get_Val in E1. destruct E1 as [-> ->].
  apply bind_Val in E. destruct E as (i & s1 & E1 & E). apply lift_Val in E1. destruct E1 as [E1 ->]. apply nth_res_Ok in E1.
  apply put_Val in E. eauto.
Qed.
Lemma mod_outwit_Val n f s u s' : mod_outwit n f s = (Val u, s') ->
  exists i, nth_error (vtxoutwit (wit (s_tx s))) n = Some i
    /\ s' = mkSt (set_outwits (s_tx s) (upd (vtxoutwit (wit (s_tx s))) n (f i))) (s_draws s).
Proof.
  unfold mod_outwit. intros E. apply bind_Val in E. destruct E as (t & s1 & E1 & E). apply get_Val in E1. destruct E1 as [-> ->].
  apply bind_Val in E. destruct E as (i & s1 & E1 & E). apply lift_Val in E1. destruct E1 as [E1 ->]. apply nth_res_Ok in E1.
  apply put_Val in E. eauto.
Qed.

(** Computations that never [return] early from blind_transaction. *)
Definition noret {A} (m : M A) : Prop := forall s r s', m s <> (Ret r, s').
Lemma noret_bind {A B} (m : M A) (k : A -> M B) : noret m -> (forall a, noret (k a)) -> noret (mbind m k).
Proof. intros Hm Hk s r s' E. apply bind_Ret in E. destruct E as [E|(a & s1 & _ & E)]; [exact (Hm _ _ _ E)|exact (Hk _ _ _ _ E)]. Qed.
Lemma noret_mret {A} (a : A) : noret (mret a). Proof. intros s r s' E. discriminate. Qed.
Lemma noret_mraise {A} e : noret (mraise e : M A). Proof. intros s r s' E. discriminate. Qed.
Lemma noret_lift {A} (r : res A) : noret (lift r). Proof. intros s x s'. apply lift_Ret. Qed.
Lemma noret_lib {A} (r : option A) : noret (lib_call r). Proof. intros s x s'. apply lib_Ret. Qed.
Lemma noret_get : noret get_tx. Proof. intros s x s'. discriminate. Qed.
Lemma noret_put t : noret (put_tx t). Proof. intros s x s'. discriminate. Qed.
Lemma noret_draw rand : noret (draw rand). Proof. intros s x s'. discriminate. Qed.
Ltac noret := repeat first
  [ apply noret_bind; [|intros ?] | apply noret_mret | apply noret_mraise | apply noret_lift | apply noret_lib
  | apply noret_get | apply noret_put | apply noret_draw
  | match goal with |- noret (match ?x with _ => _ end) => destruct x end
  | match goal with |- noret (let '_ := ?x in _) => destruct x end ].
Lemma noret_mod_vin n f : noret (mod_vin n f). Proof. unfold mod_vin. noret. Qed.
Lemma noret_mod_vout n f : noret (mod_vout n f). Proof. unfold mod_vout. noret. Qed.
Lemma noret_mod_inwit n f : noret (mod_inwit n f). Proof. unfold mod_inwit. noret. Qed.
Lemma noret_mod_outwit n f : noret (mod_outwit n f). Proof. unfold mod_outwit. noret. Qed.
Lemma noret_draw256 rand : noret (draw_uint256 rand). Proof. unfold draw_uint256. noret. Qed.
Lemma noret_blinded_asset z a b : noret (blinded_asset z a b). Proof. unfold blinded_asset. noret. Qed.
Lemma noret_cvc z a b c : noret (create_value_commitment z a b c). Proof. unfold create_value_commitment. noret. Qed.
Lemma noret_rangeproof z a b c d e f g h i j : noret (generate_rangeproof z a b c d e f g h i j).
Proof. unfold generate_rangeproof. cbv zeta. noret. Qed.
Lemma noret_nonce z rand p : noret (generate_output_rangeproof_nonce z rand p).
Proof. unfold generate_output_rangeproof_nonce. cbv zeta. noret. Qed.
Lemma noret_surj z rand a b c d e f : noret (generate_surjectionproof z rand a b c d e f).
Proof. unfold generate_surjectionproof. cbv zeta. noret. Qed.
Lemma noret_finish z rand args a b c d e f g h : noret (finish_output z rand args a b c d e f g h).
Proof.
  unfold finish_output. cbv zeta. noret; try apply noret_blinded_asset; try apply noret_mod_vout; try apply noret_cvc;
    try apply noret_nonce; try apply noret_rangeproof; try apply noret_surj; apply noret_mod_outwit.
Qed.
Lemma noret_balance z L : noret (balance_last z L).
Proof. unfold balance_last. cbv zeta. noret. Qed.

(** Computations that do not touch the transaction, and draw nothing. *)
Definition keeps {A} (m : M A) : Prop := forall s, snd (m s) = s.
Lemma keeps_bind {A B} (m : M A) (k : A -> M B) : keeps m -> (forall a, keeps (k a)) -> keeps (mbind m k).
Proof.
  intros Hm Hk s. unfold mbind. specialize (Hm s). destruct (m s) as [[a|r|e] s1]; cbn [snd] in *; subst s1; auto. apply Hk.
Qed.
Lemma keeps_mret {A} (a : A) : keeps (mret a). Proof. intros s. reflexivity. Qed.
Lemma keeps_mreturn {A} r : keeps (mreturn r : M A). Proof. intros s. reflexivity. Qed.
Lemma keeps_mraise {A} e : keeps (mraise e : M A). Proof. intros s. reflexivity. Qed.
Lemma keeps_lift {A} (r : res A) : keeps (lift r). Proof. intros s. destruct r; reflexivity. Qed.
Lemma keeps_lib {A} (r : option A) : keeps (lib_call r). Proof. intros s. destruct r; reflexivity. Qed.
Lemma keeps_get : keeps get_tx. Proof. intros s. reflexivity. Qed.
Lemma keeps_for {A L} (l : list A) (body : A -> L -> M L) : (forall x st, keeps (body x st)) -> forall st, keeps (for_in l body st).
Proof. intros Hb. induction l as [|x l IH]; intros st; cbn [for_in]; [apply keeps_mret|]. apply keeps_bind; auto. Qed.
Ltac keeps := repeat first
  [ apply keeps_bind; [|intros ?] | apply keeps_mret | apply keeps_mraise | apply keeps_mreturn | apply keeps_lift | apply keeps_lib
  | apply keeps_get
  | match goal with |- keeps (match ?x with _ => _ end) => destruct x end
  | match goal with |- keeps (let '_ := ?x in _) => destruct x end ].
Lemma keeps_eq {A} (m : M A) s o s' : keeps m -> m s = (o, s') -> s' = s.
Proof. intros K E. specialize (K s). rewrite E in K. exact K. Qed.
Lemma keeps_blinded_asset z a b : keeps (blinded_asset z a b). Proof. unfold blinded_asset. keeps. Qed.
Lemma keeps_cvc z a b c : keeps (create_value_commitment z a b c). Proof. unfold create_value_commitment. keeps. Qed.
Lemma keeps_rangeproof z a b c d e f g h i j : keeps (generate_rangeproof z a b c d e f g h i j).
Proof. unfold generate_rangeproof. cbv zeta. keeps. Qed.
Lemma keeps_balance z L : keeps (balance_last z L).
Proof. unfold balance_last. cbv zeta. keeps. Qed.
Lemma keeps_check args : keeps (check_arguments args).
Proof. unfold check_arguments. keeps. Qed.
Lemma keeps_add_target T a b c : keeps (add_target T a b c).
Proof. unfold add_target. keeps. Qed.
Lemma keeps_targets_input z args i T : keeps (targets_input z args i T).
Proof. unfold targets_input. cbv zeta. keeps; apply keeps_add_target. Qed.
Lemma keeps_targets_aux z x T : keeps (targets_aux z x T).
Proof. unfold targets_aux. destruct x. keeps; apply keeps_add_target. Qed.
Lemma keeps_targets z args : keeps (surjection_targets z args).
Proof.
  unfold surjection_targets. cbv zeta.
  keeps; apply keeps_for; intros; first [apply keeps_targets_input|apply keeps_targets_aux].
Qed.
Lemma keeps_count_input args i L : keeps (count_input args i L).
Proof. unfold count_input. cbv zeta. keeps. Qed.
Lemma keeps_count_output z x L : keeps (count_output z x L).
Proof. unfold count_output. destruct x. keeps. Qed.

(** Computations whose early returns are all failures. *)
Definition retfail {A} (m : M A) : Prop := forall s r s', m s = (Ret r, s') -> exists f, r = BFailure f.
Lemma retfail_bind {A B} (m : M A) (k : A -> M B) : retfail m -> (forall a, retfail (k a)) -> retfail (mbind m k).
Proof. intros Hm Hk s r s' E. apply bind_Ret in E. destruct E as [E|(a & s1 & _ & E)]; [exact (Hm _ _ _ E)|exact (Hk _ _ _ _ E)]. Qed.
Lemma retfail_noret {A} (m : M A) : noret m -> retfail m.
Proof. intros H s r s' E. exfalso. exact (H _ _ _ E). Qed.
Lemma retfail_mreturn {A} f : retfail (mreturn (BFailure f) : M A).
Proof. intros s r s' E. apply mreturn_Ret in E. destruct E as [-> _]. eauto. Qed.
Lemma retfail_for {A L} (l : list A) (body : A -> L -> M L) : (forall x st, retfail (body x st)) -> forall st, retfail (for_in l body st).
Proof.
  intros H. induction l as [|x l IH]; intros st; cbn [for_in]; [apply retfail_noret, noret_mret|].
  apply retfail_bind; [apply H|intros a; apply IH].
Qed.
Ltac retfail := repeat first
  [ apply retfail_bind; [|intros ?] | apply retfail_mreturn | apply retfail_noret, noret_mret | apply retfail_noret, noret_mraise
  | apply retfail_noret, noret_lift | apply retfail_noret, noret_lib | apply retfail_noret, noret_get
  | match goal with |- retfail (match ?x with _ => _ end) => destruct x end
  | match goal with |- retfail (let '_ := ?x in _) => destruct x end ].
Lemma retfail_check args : retfail (check_arguments args).
Proof. unfold check_arguments. retfail. Qed.
Lemma retfail_targets z args : retfail (surjection_targets z args).
Proof.
  unfold surjection_targets. cbv zeta. retfail.
  all: apply retfail_for; intros.
  - unfold targets_input, add_target. cbv zeta. retfail.
  - unfold targets_aux, add_target. destruct x as [i g]. retfail.
Qed.
Lemma retfail_count_input args i L : retfail (count_input args i L).
Proof. unfold count_input. cbv zeta. retfail. Qed.
Lemma retfail_count_output z x L : retfail (count_output z x L).
Proof. unfold count_output. destruct x. retfail. Qed.
