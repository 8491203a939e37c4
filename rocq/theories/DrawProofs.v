(** How blind() uses the random source: amount, and dependence on what was drawn only. *)
From Verif Require Import Base BaseFacts Serialize TxModel IssuanceModel ScriptModel MiscModel BlindModel BlindFacts SpecBlind BlindFrame BlindFails.
From Coq Require Import Lia.
Local Open Scope nat_scope.

Section L.
Variables r1 r2 : nat -> bytes.
(** [m1], run with [r1], draws at most [n] times; [m2], run with [r2], does the same if the draws made agree. *)
Definition loc {A} (n : nat) (m1 m2 : M A) : Prop := forall s o s', m1 s = (o, s') ->
  s_draws s <= s_draws s' <= s_draws s + n /\ ((forall i, s_draws s <= i < s_draws s' -> r1 i = r2 i) -> m2 s = (o, s')).

Lemma loc_bind {A B} n k (m1 m2 : M A) (f1 f2 : A -> M B) : loc n m1 m2 -> (forall a, loc k (f1 a) (f2 a)) -> loc (n + k) (mbind m1 f1) (mbind m2 f2).
Proof.
  intros Hm Hf s o s' E. unfold mbind in E |- *. destruct (m1 s) as [x s1] eqn:E1. apply Hm in E1. destruct E1 as [D1 Q1].
  destruct x as [a|r|e].
  - destruct (Hf a s1 o s' E) as [D2 Q2]. split; [lia|]. intros H. rewrite Q1 by (intros i I; apply H; lia). apply Q2. intros i I. apply H. lia.
  - injection E as <- <-. split; [lia|]. intros H. rewrite Q1 by exact H. reflexivity.
  - injection E as <- <-. split; [lia|]. intros H. rewrite Q1 by exact H. reflexivity.
Qed.
Lemma loc_le {A} n k (m1 m2 : M A) : n <= k -> loc n m1 m2 -> loc k m1 m2.
Proof. intros L H s o s' E. destruct (H s o s' E) as [D Q]. split; [lia|exact Q]. Qed.
Definition calm {A} (m : M A) : Prop := forall s, s_draws (snd (m s)) = s_draws s.
Lemma loc_calm {A} n (m : M A) : calm m -> loc n m m.
Proof. intros K s o s' E. assert (X := K s). rewrite E in X. cbn [snd] in X. split; [lia|auto]. Qed.
Lemma calm_keeps {A} (m : M A) : keeps m -> calm m.
Proof. intros K s. rewrite (K s). reflexivity. Qed.
Lemma loc_keeps {A} n (m : M A) : keeps m -> loc n m m.
Proof. intros K. apply loc_calm, calm_keeps, K. Qed.
Lemma loc_bind0 {A B} k (m : M A) (f1 f2 : A -> M B) : calm m -> (forall a, loc k (f1 a) (f2 a)) -> loc k (mbind m f1) (mbind m f2).
Proof. intros K H. change k with (0 + k). apply loc_bind; [apply loc_calm, K|exact H]. Qed.
Lemma loc_draw : loc 1 (draw r1) (draw r2).
Proof. intros s o s' E. unfold draw in *. injection E as <- <-. cbn [s_draws]. split; [lia|]. intros H. rewrite (H (s_draws s)) by lia. reflexivity. Qed.
Lemma loc_draw256 : loc 1 (draw_uint256 r1) (draw_uint256 r2).
Proof. unfold draw_uint256. change 1 with (1 + 0). apply loc_bind; [apply loc_draw|]. intros a. apply loc_keeps, keeps_lift. Qed.
Lemma loc_for {A L} (c : A -> nat) (l : list A) (b1 b2 : A -> L -> M L) : (forall x st, loc (c x) (b1 x st) (b2 x st)) ->
  forall st, loc (list_sum (map c l)) (for_in l b1 st) (for_in l b2 st).
Proof.
  intros H. induction l as [|x l IH]; intros st; cbn [for_in map list_sum fold_right]; [apply loc_keeps, keeps_mret|].
  apply loc_bind; [apply H|]. intros a. apply IH.
Qed.
Lemma calm_put t : calm (put_tx t). Proof. intros s. reflexivity. Qed.
Lemma calm_bind {A B} (m : M A) (f : A -> M B) : calm m -> (forall a, calm (f a)) -> calm (mbind m f).
Proof. intros K H s. unfold mbind. assert (X := K s). destruct (m s) as [[a|r|e] s1]; cbn [snd] in *; [rewrite (H a s1)|..]; exact X. Qed.
Lemma calm_lift {A} (r : res A) : calm (lift r). Proof. apply calm_keeps, keeps_lift. Qed.
Lemma calm_get : calm get_tx. Proof. apply calm_keeps, keeps_get. Qed.
Lemma calm_vin n f : calm (mod_vin n f).
Proof. unfold mod_vin. apply calm_bind; [apply calm_get|]. intros t. apply calm_bind; [apply calm_lift|]. intros i. apply calm_put. Qed.
Lemma calm_vout n f : calm (mod_vout n f).
Proof. unfold mod_vout. apply calm_bind; [apply calm_get|]. intros t. apply calm_bind; [apply calm_lift|]. intros i. apply calm_put. Qed.
Lemma calm_inwit n f : calm (mod_inwit n f).
Proof. unfold mod_inwit. apply calm_bind; [apply calm_get|]. intros t. apply calm_bind; [apply calm_lift|]. intros i. apply calm_put. Qed.
Lemma calm_outwit n f : calm (mod_outwit n f).
Proof. unfold mod_outwit. apply calm_bind; [apply calm_get|]. intros t. apply calm_bind; [apply calm_lift|]. intros i. apply calm_put. Qed.

Ltac calm := first [ apply calm_put | apply calm_get | apply calm_lift | apply calm_vin | apply calm_vout | apply calm_inwit | apply calm_outwit
  | apply calm_keeps; first [ apply keeps_blinded_asset | apply keeps_cvc | apply keeps_rangeproof | apply keeps_balance | solve [keeps] ] ].
Ltac lo := repeat (cbv zeta; first
  [ match goal with |- loc _ ?m ?m => apply loc_keeps; first [apply keeps_mret | apply keeps_mreturn | apply keeps_mraise | apply keeps_lift | apply keeps_lib] end
  | match goal with |- loc _ (mbind ?m _) (mbind ?m _) => apply loc_bind0; [calm|intros ?] end
  | match goal with |- loc _ (match ?x with _ => _ end) _ => destruct x end
  | match goal with |- loc _ (let '_ := ?x in _) _ => destruct x end ]).

Variables (z : Crypto) (args : blind_args).
Lemma loc_nonce p : loc 1 (generate_output_rangeproof_nonce z r1 p) (generate_output_rangeproof_nonce z r2 p).
Proof. unfold generate_output_rangeproof_nonce. change 1 with (1 + 0). apply loc_bind; [apply loc_draw|]. intros a. lo. Qed.
Lemma loc_surj a b c d e f : loc 1 (generate_surjectionproof z r1 a b c d e f) (generate_surjectionproof z r2 a b c d e f).
Proof. unfold generate_surjectionproof. cbv zeta. change 1 with (1 + 0). apply loc_bind; [apply loc_draw|]. intros x. lo. Qed.
Lemma loc_pseudo i ps L : loc (if wants_issuance args (i, ps) then 1 else 0) (blind_pseudo z r1 args i ps L) (blind_pseudo z r2 args i ps L).
Proof.
  unfold blind_pseudo, wants_issuance. cbn [fst snd]. rewrite key_at_nth. destruct (nth i _ None) as [key|]; [|apply loc_keeps, keeps_mret].
  lo. change 1 with (1 + 0). apply loc_bind; [apply loc_draw256|]. intros bb. lo.
Qed.
Definition slot_cost (i : nat) : nat := (if wants_issuance args (i, false) then 1 else 0) + (if wants_issuance args (i, true) then 1 else 0).
Lemma loc_input i L : loc (slot_cost i) (blind_input z r1 args i L) (blind_input z r2 args i L).
Proof. unfold blind_input, slot_cost. apply loc_bind; [apply loc_pseudo|]. intros a. apply loc_pseudo. Qed.
Lemma loc_finish tags gens blinders n pub asset am L : loc 2 (finish_output z r1 args tags gens blinders n pub asset am L) (finish_output z r2 args tags gens blinders n pub asset am L).
Proof.
  unfold finish_output. lo. change 2 with (1 + 1). apply loc_bind; [apply loc_nonce|]. intros [nonce e]. lo. change 1 with (1 + 0). apply loc_bind; [apply loc_surj|]. intros sp. lo.
Qed.
Definition pub_cost (np : nat * bytes) : nat := if is_fullyvalid z (snd np) then 4 else 0.
Lemma loc_output tags gens blinders np L : loc (pub_cost np) (blind_output z r1 args tags gens blinders np L) (blind_output z r2 args tags gens blinders np L).
Proof.
  destruct np as [n pub]. unfold blind_output, pub_cost. cbn [snd]. destruct (is_fullyvalid z pub); cbn [negb]; [|apply loc_keeps, keeps_mret].
  lo. change 4 with (1 + (1 + 2)). apply loc_bind; [apply loc_draw256|]. intros bb. apply loc_bind; [apply loc_draw256|]. intros ab. lo; apply loc_finish.
Qed.
Lemma slots_cost n : list_sum (map slot_cost (seq 0 n)) = length (filter (wants_issuance args) (issuance_slots n)).
Proof.
  unfold issuance_slots. induction (seq 0 n) as [|i l IH]; [reflexivity|]. cbn [map list_sum fold_right flat_map app]. change (fold_right Nat.add 0 (map slot_cost l)) with (list_sum (map slot_cost l)).
  rewrite IH. unfold slot_cost. cbn [filter]. destruct (wants_issuance args (i, false)), (wants_issuance args (i, true)); cbn [length]; lia.
Qed.
Lemma filter_map_len {A B} (f : A -> B) (p : B -> bool) l : length (filter p (map f l)) = length (filter (fun a => p (f a)) l).
Proof. induction l as [|a l IH]; [reflexivity|]. cbn [map filter]. destruct (p (f a)); cbn [length]; lia. Qed.
Lemma pubs_cost : list_sum (map pub_cost (combine (seq 0 (length (a_pubkeys args))) (a_pubkeys args))) <= 4 * length (output_tasks args).
Proof.
  unfold output_tasks.
  assert (Q : length (filter (fun j => match nth j (a_pubkeys args) [] with [] => false | _ => true end) (seq 0 (length (a_pubkeys args))))
              = length (filter is_nonempty (a_pubkeys args))).
  { generalize (a_pubkeys args). intros l. induction l as [|p l IH]; [reflexivity|]. cbn [length seq filter nth]. rewrite <- seq_shift, <- (map_id (filter is_nonempty l)).
    assert (E : (match p with [] => false | _ :: _ => true end) = is_nonempty p).
    { destruct (is_nonempty p) eqn:N; [apply nonempty_iff in N; destruct p; [contradiction|reflexivity]|]. destruct p; [reflexivity|]. assert (X : is_nonempty (b :: p) = true) by (apply nonempty_iff; discriminate). congruence. }
    rewrite E. destruct (is_nonempty p); cbn [length]; rewrite filter_map_len, map_id in *; cbn [nth]; lia. }
  rewrite Q. clear Q. generalize 0 at 1. generalize (a_pubkeys args). intros l. induction l as [|p l IH]; intros k; [cbn; lia|]. cbn [length seq combine map list_sum fold_right].
  specialize (IH (S k)). unfold list_sum in IH. unfold pub_cost at 1. cbn [snd]. cbn [filter]. destruct (is_fullyvalid z p) eqn:V.
  - unfold is_fullyvalid in V. apply andb_prop in V. destruct V as [-> _]. cbn [length]. lia.
  - destruct (is_nonempty p); cbn [length]; lia.
Qed.

Lemma looks_dep k1 k2 s o s' : blind_looks z args k1 s = (o, s') ->
  (exists tags gens blinders L, k1 tags gens blinders L s = (o, s') /\ blind_looks z args k2 s = k2 tags gens blinders L s)
  \/ s' = s /\ blind_looks z args k2 s = (o, s').
Proof.
  intros E. remember (blind_looks z args k2 s) as X eqn:EX. unfold blind_looks in E, EX. unfold mbind at 1 in E. unfold mbind at 1 in EX.
  assert (K1 := keeps_check args s). destruct (check_arguments args s) as [[u|r|e] s1]; cbn [snd] in K1; subst s1; [|right; injection E as <- <-; auto..].
  unfold mbind at 1 in E. unfold mbind at 1 in EX.
  assert (K1 := keeps_targets z args s). destruct (surjection_targets z args s) as [[[[tags gens] blinders]|r|e] s1]; cbn [snd] in K1; subst s1; [|right; injection E as <- <-; auto..].
  unfold mbind at 1 in E. unfold mbind at 1 in EX. unfold get_tx at 1 in E. unfold get_tx at 1 in EX. unfold mbind at 1 in E. unfold mbind at 1 in EX.
  match type of E with (match ?f s with _ => _ end) = _ => assert (K1 := keeps_for _ _ (keeps_count_input args) _ s : snd (f s) = s); destruct (f s) as [[L|r|e] s1]; cbn [snd] in K1; subst s1 end; [|right; injection E as <- <-; auto..].
  unfold mbind at 1 in E. unfold mbind at 1 in EX.
  match type of E with (match ?f s with _ => _ end) = _ => assert (K1 := keeps_for _ _ (keeps_count_output z) _ s : snd (f s) = s); destruct (f s) as [[L'|r|e] s1]; cbn [snd] in K1; subst s1 end; [|right; injection E as <- <-; auto..].
  left. exists tags, gens, blinders, L'. auto.
Qed.
Lemma loc_acts tags gens blinders L t o s' : blind_acts z r1 args tags gens blinders L (mkSt t 0) = (o, s') ->
  s_draws s' <= length (issuance_tasks args t) + 4 * length (output_tasks args)
  /\ ((forall i, i < s_draws s' -> r1 i = r2 i) -> blind_acts z r2 args tags gens blinders L (mkSt t 0) = (o, s')).
Proof.
  intros E. unfold blind_acts in E |- *. unfold mbind at 1 in E. unfold mbind at 1. cbn [get_tx s_tx] in E |- *.
  assert (Q : forall m1 m2 : M blind_ret, loc (length (issuance_tasks args t) + 4 * length (output_tasks args)) m1 m2 -> m1 (mkSt t 0) = (o, s') ->
    s_draws s' <= length (issuance_tasks args t) + 4 * length (output_tasks args) /\ ((forall i, i < s_draws s' -> r1 i = r2 i) -> m2 (mkSt t 0) = (o, s'))).
  { intros m1 m2 H X. destruct (H _ _ _ X) as [D G]. cbn [s_draws] in D, G. split; [lia|]. intros A. apply G. intros i I. apply A. lia. }
  refine (Q _ _ _ E). apply loc_bind.
  - unfold issuance_tasks. rewrite <- slots_cost. apply loc_for. intros i M. apply loc_input.
  - intros L1. lo. apply (loc_le (list_sum (map pub_cost (combine (seq 0 (length (a_pubkeys args))) (a_pubkeys args))) + 0)); [pose proof pubs_cost; lia|].
    apply loc_bind; [apply loc_for; intros np M; apply loc_output|]. intros L2. lo.
Qed.
Theorem blind_draws t o s : blind_transaction z r1 args t = (o, s) ->
  s_draws s <= length (issuance_tasks args t) + 4 * length (output_tasks args)
  /\ ((forall i, i < s_draws s -> r1 i = r2 i) -> blind_transaction z r2 args t = (o, s)).
Proof.
  unfold blind_transaction. rewrite !body_split. destruct (blind_looks z args (blind_acts z r1 args) (mkSt t 0)) as [o1 s1] eqn:E. intros H.
  assert (X : s1 = s /\ o = match o1 with Val r => Ret r | Ret r => Ret r | Exc e => Exc e end) by (destruct o1; injection H as <- <-; auto). destruct X as [-> ->]. clear H.
  apply (looks_dep _ (blind_acts z r2 args)) in E. destruct E as [(tags & gens & blinders & L & E & ->)|[-> ->]].
  - apply loc_acts in E. destruct E as [D G]. split; [exact D|]. intros A. rewrite (G A). destruct o1; reflexivity.
  - split; [cbn; lia|]. intros _. destruct o1; reflexivity.
Qed.
End L.
