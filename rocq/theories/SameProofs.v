(** blind() on two transactions that give it the same work: the two runs go in step. *)
From Verif Require Import Base BaseFacts Serialize TxModel IssuanceModel BlindModel SpecBlind SpecSame.
From Coq Require Import Lia.
Local Open Scope Z_scope.

Lemma nth_error_upd {A} (l : list A) n x i : (n < length l)%nat -> nth_error (upd l n x) i = if (i =? n)%nat then Some x else nth_error l i.
Proof.
  revert n i. induction l as [|y l IH]; intros n i L; [cbn in L; lia|]. destruct n as [|n], i as [|i]; cbn; try reflexivity. apply IH. cbn in L. lia.
Qed.
Lemma length_upd {A} (l : list A) n x : length (upd l n x) = length l.
Proof. revert n. induction l as [|y l IH]; intros [|n]; cbn; congruence. Qed.
Lemma nth_upd {A} (l : list A) n x i d : (n < length l)%nat -> nth i (upd l n x) d = if (i =? n)%nat then x else nth i l d.
Proof.
  revert n i. induction l as [|y l IH]; intros n i L; [cbn in L; lia|]. destruct n as [|n], i as [|i]; cbn; try reflexivity. apply IH. cbn in L. lia.
Qed.
Lemma nth_pad {A} (l : list A) n (d : A) i : nth i (pad_to n d l) d = nth i l d.
Proof.
  unfold pad_to. destruct (Nat.lt_ge_cases i (length l)) as [L|L]; [rewrite app_nth1 by exact L; reflexivity|]. rewrite app_nth2 by exact L. rewrite (nth_overflow l) by exact L.
  destruct (Nat.lt_ge_cases (i - length l) (n - length l)) as [K|K]; [apply nth_repeat|]. apply nth_overflow. rewrite repeat_length. exact K.
Qed.
Lemma length_pad {A} (l : list A) n (d : A) : (n <= length (pad_to n d l))%nat /\ (length l <= length (pad_to n d l))%nat.
Proof. unfold pad_to. rewrite app_length, repeat_length. lia. Qed.

Section S.
Variables (z : Crypto) (rand : nat -> bytes) (args : blind_args) (NO X : nat).

(** The relation between the two transactions; [a] and [b] are lengths that the witness lists of both have reached. *)
Definition W (a b : nat) (t t' : tx) : Prop := SameWork args X t t' /\ length (vout t) = NO
  /\ (a <= length (vtxinwit (wit t)))%nat /\ (a <= length (vtxinwit (wit t')))%nat /\ (b <= length (vtxoutwit (wit t)))%nat /\ (b <= length (vtxoutwit (wit t')))%nat.
Definition Rel (a b : nat) (s s' : St) : Prop := s_draws s' = s_draws s /\ W a b (s_tx s) (s_tx s').
Definition more_ret (r : blind_ret) : blind_ret :=
  match r with BSuccess n bfs abfs => BSuccess n (bfs ++ repeat (zeros 32) X) (abfs ++ repeat (zeros 32) X) | BFailure f => BFailure f end.
Definition simR {A} (RV : A -> A -> Prop) (a b a' b' : nat) (m m' : M A) : Prop := forall s s', Rel a b s s' ->
  match m s, m' s' with
  | (Val x, u), (Val x', u') => RV x x' /\ Rel a' b' u u'
  | (Ret r, u), (Ret r', u') => r' = more_ret r /\ Rel 0 0 u u'
  | (Exc e, u), (Exc e', u') => e' = e /\ Rel 0 0 u u'
  | _, _ => False
  end.
Notation sim := (simR eq).
(** Local variables: more factors, none of them known. *)
Definition more_loc (L : Loc) : Loc := mkL (l_toblind L) (l_success L) (l_attempts L) (l_issattempts L) (l_blindsin L) (l_blinds L) (l_assetblinds L) (l_amounts L)
  (l_bfs L ++ repeat None X) (l_abfs L ++ repeat None X).
Definition RL (L L' : Loc) : Prop := L' = more_loc L /\ length (l_bfs L) = NO /\ length (l_abfs L) = NO.

Lemma W_le a b c d t t' : (c <= a)%nat -> (d <= b)%nat -> W a b t t' -> W c d t t'.
Proof. intros L K (A & B & C1 & C2 & C3 & C4). split; [exact A|]. split; [exact B|]. lia. Qed.
Lemma Rel_le a b c d s s' : (c <= a)%nat -> (d <= b)%nat -> Rel a b s s' -> Rel c d s s'.
Proof. intros L K [A B]. split; [exact A|]. eapply W_le; eassumption. Qed.
Lemma sim_weak {A} (RV : A -> A -> Prop) a b a' b' c d (m m' : M A) : (c <= a')%nat -> (d <= b')%nat -> simR RV a b a' b' m m' -> simR RV a b c d m m'.
Proof.
  intros L K S s s' R. assert (Q := S s s' R). destruct (m s) as [[x|r|e] u], (m' s') as [[x'|r'|e'] u']; try exact Q. split; [apply Q|]. eapply Rel_le; [exact L|exact K|apply Q].
Qed.
Lemma sim_bindR {A B} (RV : A -> A -> Prop) (RQ : B -> B -> Prop) a b c d e f (m m' : M A) (k k' : A -> M B) : simR RV a b c d m m' ->
  (forall x x', RV x x' -> simR RQ c d e f (k x) (k' x')) -> simR RQ a b e f (mbind m k) (mbind m' k').
Proof.
  intros S K s s' R. assert (Q := S s s' R). unfold mbind. destruct (m s) as [[x|r|x] u], (m' s') as [[x'|r'|x'] u']; try contradiction; try exact Q.
  exact (K x x' (proj1 Q) u u' (proj2 Q)).
Qed.
Lemma sim_bind {A B} (RQ : B -> B -> Prop) a b c d e f (m m' : M A) (k k' : A -> M B) : sim a b c d m m' -> (forall x, simR RQ c d e f (k x) (k' x)) -> simR RQ a b e f (mbind m k) (mbind m' k').
Proof. intros S K. eapply sim_bindR; [exact S|]. intros x x' <-. apply K. Qed.
Lemma sim_mretR {A} (RV : A -> A -> Prop) a b (x x' : A) : RV x x' -> simR RV a b a b (mret x) (mret x').
Proof. intros H s s' R. split; [exact H|exact R]. Qed.
Lemma sim_mret {A} a b (x : A) : sim a b a b (mret x) (mret x).
Proof. apply sim_mretR. reflexivity. Qed.
Lemma sim_fail {A} (RV : A -> A -> Prop) a b c d f : simR RV a b c d (mreturn (BFailure f) : M A) (mreturn (BFailure f)).
Proof. intros s s' R. split; [reflexivity|]. eapply Rel_le; [| |exact R]; lia. Qed.
Lemma more_result L : blinding_result args (more_loc L) = more_ret (blinding_result args L).
Proof.
  assert (E : map or_zero (repeat None X) = repeat (zeros 32) X) by (induction X as [|n IH]; [reflexivity|cbn [repeat map]; rewrite IH; reflexivity]).
  unfold blinding_result. cbn [more_loc l_success l_toblind l_bfs l_abfs]. destruct (a_strict args && negb (l_success L =? l_toblind L)%nat); [reflexivity|].
  cbn [more_ret]. rewrite !map_app, E. reflexivity.
Qed.
Lemma sim_result {A} (RV : A -> A -> Prop) a b c d L : simR RV a b c d (mreturn (blinding_result args L) : M A) (mreturn (blinding_result args (more_loc L))).
Proof. intros s s' R. split; [apply more_result|]. eapply Rel_le; [| |exact R]; lia. Qed.
Lemma sim_mraise {A} (RV : A -> A -> Prop) a b c d e : simR RV a b c d (mraise e : M A) (mraise e).
Proof. intros s s' R. split; [reflexivity|]. eapply Rel_le; [| |exact R]; lia. Qed.
Lemma sim_lift {A} a b (r : res A) : sim a b a b (lift r) (lift r).
Proof. destruct r; [apply sim_mret|apply sim_mraise]. Qed.
Lemma sim_lib {A} a b (r : option A) : sim a b a b (lib_call r) (lib_call r).
Proof. destruct r; [apply sim_mret|apply sim_mraise]. Qed.
Lemma sim_draw a b : sim a b a b (draw rand) (draw rand).
Proof. intros s s' [D R]. unfold draw. rewrite D. split; [reflexivity|]. split; [reflexivity|exact R]. Qed.
Lemma sim_draw256 a b : sim a b a b (draw_uint256 rand) (draw_uint256 rand).
Proof. unfold draw_uint256. eapply sim_bind; [apply sim_draw|intros x; apply sim_lift]. Qed.
Lemma sim_get {B} (RQ : B -> B -> Prop) a b c d (k k' : tx -> M B) : (forall t t', W a b t t' -> simR RQ a b c d (k t) (k' t')) -> simR RQ a b c d (mbind get_tx k) (mbind get_tx k').
Proof. intros K s s' R. exact (K _ _ (proj2 R) s s' R). Qed.
Lemma sim_put a b c d t t' : W c d t t' -> sim a b c d (put_tx t) (put_tx t').
Proof. intros R s s' [D _]. unfold put_tx. split; [reflexivity|]. split; [exact D|exact R]. Qed.
Lemma sim_for {A L} (RV : L -> L -> Prop) a b (l : list A) (f f' : A -> L -> M L) : (forall x st st', In x l -> RV st st' -> simR RV a b a b (f x st) (f' x st')) ->
  forall st st', RV st st' -> simR RV a b a b (for_in l f st) (for_in l f' st').
Proof.
  induction l as [|x l IH]; intros H st st' E; cbn [for_in]; [apply sim_mretR; exact E|]. eapply sim_bindR; [apply H; [left; reflexivity|exact E]|]. intros u u' E'.
  apply IH; [|exact E']. intros y s s' I. apply H. right. exact I.
Qed.

(** Reading and writing parts of the transaction. *)
Lemma sim_vin {B} (RQ : B -> B -> Prop) a b c d e f t t' n (k k' : txin -> M B) : W e f t t' ->
  (forall i i', nth_error (vin t) n = Some i -> prevout i' = prevout i -> assetIssuance i' = assetIssuance i -> simR RQ a b c d (k i) (k' i')) ->
  simR RQ a b c d (mbind (lift (nth_res (vin t) n)) k) (mbind (lift (nth_res (vin t') n)) k').
Proof.
  intros (S & _) K. unfold nth_res. assert (N := sw_nin _ _ _ _ S). assert (I := sw_in _ _ _ _ S n).
  destruct (nth_error (vin t) n) as [i|] eqn:E, (nth_error (vin t') n) as [i'|] eqn:E'.
  - destruct (I i i' eq_refl eq_refl) as [P Q]. exact (K i i' eq_refl P Q).
  - exfalso. apply nth_error_None in E'. assert (n < length (vin t))%nat by (apply nth_error_Some; congruence). lia.
  - exfalso. apply nth_error_None in E. assert (n < length (vin t'))%nat by (apply nth_error_Some; congruence). lia.
  - apply (sim_mraise RQ a b c d EIndex).
Qed.
Lemma sim_vout {B} (RQ : B -> B -> Prop) a b c d e f t t' n (k k' : txout -> M B) : wants_output args n -> W e f t t' ->
  (forall o, (n < NO)%nat -> simR RQ a b c d (k o) (k' o)) ->
  simR RQ a b c d (mbind (lift (nth_res (vout t) n)) k) (mbind (lift (nth_res (vout t') n)) k').
Proof.
  intros WO (S & LN & _) K. unfold nth_res. rewrite (sw_out _ _ _ _ S n WO). destruct (nth_error (vout t) n) as [o|] eqn:E.
  - apply (K o). rewrite <- LN. apply nth_error_Some. congruence.
  - apply (sim_mraise RQ a b c d EIndex).
Qed.
Lemma sim_mod_vin a b n (f f' : txin -> txin) :
  (forall i i', prevout i' = prevout i -> assetIssuance i' = assetIssuance i -> prevout (f' i') = prevout (f i) /\ assetIssuance (f' i') = assetIssuance (f i)) ->
  sim a b a b (mod_vin n f) (mod_vin n f').
Proof.
  intros F. unfold mod_vin. apply sim_get. intros t t' R. eapply sim_vin; [exact R|]. intros i i' EI P Q. apply sim_put.
  destruct R as (S & LN & LL). split; [|split; [exact LN|exact LL]].
  assert (LI : (n < length (vin t))%nat) by (apply nth_error_Some; congruence). assert (LI' : (n < length (vin t'))%nat) by (rewrite (sw_nin _ _ _ _ S); exact LI).
  destruct S as [S1 S2 S3 S4 S5 S6]. constructor; cbn [vin vout wit set_vin]; try assumption.
  - rewrite !length_upd. exact S1.
  - intros j x x'. rewrite !nth_error_upd by assumption. destruct (j =? n)%nat; [intros E E'; injection E as <-; injection E' as <-; apply F; assumption|apply S3].
Qed.
Lemma sim_mod_vout a b n (f : txout -> txout) : wants_output args n -> sim a b a b (mod_vout n f) (mod_vout n f).
Proof.
  intros WO. unfold mod_vout. apply sim_get. intros t t' R. eapply sim_vout; [exact WO|exact R|]. intros o LO. apply sim_put.
  destruct R as (S & LN & LL). split; [|split; [cbn [vout set_vout]; rewrite length_upd; exact LN|exact LL]].
  assert (L : (n < length (vout t))%nat) by (rewrite LN; exact LO). assert (L' : (n < length (vout t'))%nat) by (rewrite (sw_nout _ _ _ _ S); lia).
  destruct S as [S1 S2 S3 S4 S5 S6]. constructor; cbn [vin vout wit set_vout]; try assumption.
  - rewrite !length_upd. exact S2.
  - intros j WJ. rewrite !nth_error_upd by assumption. rewrite (S4 j WJ). reflexivity.
Qed.
Lemma sim_mod_inwit a b n (f : inwit -> inwit) : (n < a)%nat ->
  (forall w w', iw_issproof w' = iw_issproof w -> iw_keysproof w' = iw_keysproof w -> iw_issproof (f w') = iw_issproof (f w) /\ iw_keysproof (f w') = iw_keysproof (f w)) ->
  sim a b a b (mod_inwit n f) (mod_inwit n f).
Proof.
  intros LA F. unfold mod_inwit. apply sim_get. intros t t' R. destruct R as (S & LN & L1 & L2 & L3 & L4). unfold nth_res.
  destruct (nth_error (vtxinwit (wit t)) n) as [w|] eqn:E; [|apply nth_error_None in E; lia]. destruct (nth_error (vtxinwit (wit t')) n) as [w'|] eqn:E'; [|apply nth_error_None in E'; lia].
  change (sim a b a b (put_tx (set_inwits t (upd (vtxinwit (wit t)) n (f w)))) (put_tx (set_inwits t' (upd (vtxinwit (wit t')) n (f w'))))). apply sim_put.
  split; [|split; [exact LN|cbn [wit set_inwits vtxinwit vtxoutwit]; rewrite !length_upd; auto]].
  destruct S as [S1 S2 S3 S4 S5 S6]. constructor; cbn [vin vout set_inwits]; try assumption.
  intros i. assert (Q := S5 i). assert (Q0 := S5 n). unfold inwit_at in *. cbn [wit set_inwits vtxinwit]. rewrite !nth_upd by lia.
  destruct (i =? n)%nat; [|exact Q]. rewrite (nth_error_nth _ _ _ E), (nth_error_nth _ _ _ E') in Q0. apply F; apply Q0.
Qed.
Lemma sim_mod_outwit a b n (w : outwit) : (n < b)%nat -> sim a b a b (mod_outwit n (fun _ => w)) (mod_outwit n (fun _ => w)).
Proof.
  intros LA. unfold mod_outwit. apply sim_get. intros t t' R. destruct R as (S & LN & L1 & L2 & L3 & L4). unfold nth_res.
  destruct (nth_error (vtxoutwit (wit t)) n) as [x|] eqn:E; [|apply nth_error_None in E; lia]. destruct (nth_error (vtxoutwit (wit t')) n) as [x'|] eqn:E'; [|apply nth_error_None in E'; lia].
  change (sim a b a b (put_tx (set_outwits t (upd (vtxoutwit (wit t)) n w))) (put_tx (set_outwits t' (upd (vtxoutwit (wit t')) n w)))). apply sim_put.
  split; [|split; [exact LN|cbn [wit set_outwits vtxinwit vtxoutwit]; rewrite !length_upd; auto]].
  destruct S as [S1 S2 S3 S4 S5 S6]. constructor; cbn [vin vout set_outwits]; try assumption.
  intros j WJ. assert (Q := S6 j WJ). unfold outwit_at in *. cbn [wit set_outwits vtxoutwit]. rewrite !nth_upd by lia. rewrite Q. reflexivity.
Qed.
Lemma W_pad_in a b n t t' : W a b t t' -> W n b (set_inwits t (pad_to n inwit_null (vtxinwit (wit t)))) (set_inwits t' (pad_to n inwit_null (vtxinwit (wit t')))).
Proof.
  intros (S & LN & L1 & L2 & L3 & L4). destruct (length_pad (vtxinwit (wit t)) n inwit_null) as [P _]. destruct (length_pad (vtxinwit (wit t')) n inwit_null) as [P' _].
  split; [|split; [exact LN|cbn [wit set_inwits vtxinwit vtxoutwit]; auto]].
  destruct S as [S1 S2 S3 S4 S5 S6]. constructor; cbn [vin vout set_inwits]; try assumption.
  intros i. assert (Q := S5 i). unfold inwit_at in *. cbn [wit set_inwits vtxinwit]. fold inwit_null in *. rewrite !nth_pad. exact Q.
Qed.
Lemma W_pad_out a b n n' t t' : (n <= n')%nat -> W a b t t' -> W a n (set_outwits t (pad_to n outwit_null (vtxoutwit (wit t)))) (set_outwits t' (pad_to n' outwit_null (vtxoutwit (wit t')))).
Proof.
  intros NN (S & LN & L1 & L2 & L3 & L4). destruct (length_pad (vtxoutwit (wit t)) n outwit_null) as [P _]. destruct (length_pad (vtxoutwit (wit t')) n' outwit_null) as [P' _].
  split; [|split; [exact LN|cbn [wit set_outwits vtxinwit vtxoutwit]; repeat split; try assumption; lia]].
  destruct S as [S1 S2 S3 S4 S5 S6]. constructor; cbn [vin vout set_outwits]; try assumption.
  intros j WJ. assert (Q := S6 j WJ). unfold outwit_at in *. cbn [wit set_outwits vtxoutwit]. fold outwit_null in *. rewrite !nth_pad. exact Q.
Qed.

Ltac st := repeat first
  [ apply sim_mret | apply sim_fail | apply sim_mraise | apply sim_lift | apply sim_lib | apply sim_draw | apply sim_draw256
  | match goal with |- simR _ _ _ _ _ (if ?c then _ else _) (if ?c then _ else _) => destruct c end
  | match goal with |- simR _ _ _ _ _ (match ?x with _ => _ end) (match ?x with _ => _ end) => destruct x end
  | match goal with |- simR _ _ _ _ _ (mbind (lift _) _) (mbind (lift _) _) => eapply sim_bind; [apply sim_lift|intro] end
  | match goal with |- simR _ _ _ _ _ (mbind (lib_call _) _) (mbind (lib_call _) _) => eapply sim_bind; [apply sim_lib|intro] end
  | match goal with |- simR _ _ _ _ _ (mbind (draw _) _) (mbind (draw _) _) => eapply sim_bind; [apply sim_draw|intro] end
  | match goal with |- simR _ _ _ _ _ (mbind (draw_uint256 _) _) (mbind (draw_uint256 _) _) => eapply sim_bind; [apply sim_draw256|intro] end ].
Ltac stb := eapply sim_bind; [|intro].

Lemma sim_add_target a b T x y w : sim a b a b (add_target T x y w) (add_target T x y w).
Proof. unfold add_target. st. Qed.
Lemma sim_blinded_asset a b x y : sim a b a b (blinded_asset z x y) (blinded_asset z x y).
Proof. unfold blinded_asset. st. Qed.
Lemma sim_vc a b x y v : sim a b a b (create_value_commitment z x y v) (create_value_commitment z x y v).
Proof. unfold create_value_commitment. st. Qed.
Lemma sim_rp a b x1 x2 x3 x4 x5 x6 x7 x8 x9 x10 : sim a b a b (generate_rangeproof z x1 x2 x3 x4 x5 x6 x7 x8 x9 x10) (generate_rangeproof z x1 x2 x3 x4 x5 x6 x7 x8 x9 x10).
Proof. unfold generate_rangeproof. cbv zeta. eapply sim_bind; [st|intro]. eapply sim_bind; [st|intro]. st. Qed.
Lemma sim_nonce a b p : sim a b a b (generate_output_rangeproof_nonce z rand p) (generate_output_rangeproof_nonce z rand p).
Proof. unfold generate_output_rangeproof_nonce. cbv zeta. st. eapply sim_bind; [st|intro]. st. Qed.
Lemma sim_sp a b x1 x2 x3 x4 x5 x6 : sim a b a b (generate_surjectionproof z rand x1 x2 x3 x4 x5 x6) (generate_surjectionproof z rand x1 x2 x3 x4 x5 x6).
Proof. unfold generate_surjectionproof. cbv zeta. st. eapply sim_bind; [st|intro]. st. Qed.
Lemma sim_balance a b L : sim a b a b (balance_last z L) (balance_last z L).
Proof. unfold balance_last. cbv zeta. st. Qed.

Hypothesis HX : X = 0%nat \/ (length (a_pubkeys args) <= NO)%nat.
Lemma sim_check : sim 0 0 0 0 (check_arguments args) (check_arguments args).
Proof.
  unfold check_arguments. apply sim_get. intros t t' R. rewrite (sw_nin _ _ _ _ (proj1 R)), (sw_nout _ _ _ _ (proj1 R)).
  assert (E : (length (a_pubkeys args) <=? length (vout t) + X)%nat = (length (a_pubkeys args) <=? length (vout t))%nat).
  { rewrite (proj1 (proj2 R)). destruct HX as [-> |Q]; [rewrite Nat.add_0_r; reflexivity|]. rewrite !(proj2 (Nat.leb_le _ _)) by lia. reflexivity. }
  rewrite E. do 4 (eapply sim_bind; [st|intro]). destruct (a_aux args); [st|]. eapply sim_bind; [st|intro]. st.
Qed.
Lemma sim_targets_input i T : sim 0 0 0 0 (targets_input z args i T) (targets_input z args i T).
Proof.
  unfold targets_input. eapply sim_bind; [apply sim_lift|intros desc]. eapply sim_bind; [st|intros ag]. eapply sim_bind; [apply sim_add_target|intros T1].
  apply sim_get. intros t t' R. eapply sim_vin; [exact R|]. intros inp inp' _ P Q. cbv zeta. rewrite P, Q. st.
  eapply sim_bind; [st|intros [x T2]]. eapply sim_bind; [|intros T3]; [destruct (conf_is_null (is_amount (assetIssuance inp))); [st|]; stb; [st|]; apply sim_add_target|].
  st. apply sim_add_target.
Qed.
Lemma sim_targets : sim 0 0 0 0 (surjection_targets z args) (surjection_targets z args).
Proof.
  unfold surjection_targets. apply sim_get. intros t t' R. rewrite (sw_nin _ _ _ _ (proj1 R)). cbv zeta.
  eapply sim_bind; [apply sim_for; [intros i T ? _ <-; apply sim_targets_input|reflexivity]|intros T]. eapply sim_bind.
  { destruct (a_aux args) as [|x l]; [st|]. apply sim_for; [|reflexivity]. intros [n ag] T' ? _ <-. unfold targets_aux. st. apply sim_add_target. }
  intros T'. st.
Qed.
Lemma pip_same a b t t' i : W a b t t' -> proof_in_place (vtxinwit (wit t')) i iw_issproof = proof_in_place (vtxinwit (wit t)) i iw_issproof
  /\ proof_in_place (vtxinwit (wit t')) i iw_keysproof = proof_in_place (vtxinwit (wit t)) i iw_keysproof.
Proof.
  intros (S & _). assert (XX : forall u f, f (mkInWit [] [] [] []) = [] -> proof_in_place (vtxinwit (wit u)) i f = negb (blen (f (inwit_at u i)) =? 0)).
  { intros u f F. unfold proof_in_place, inwit_at. destruct (nth_error (vtxinwit (wit u)) i) as [w|] eqn:E; [rewrite (nth_error_nth _ _ _ E); reflexivity|].
    apply nth_error_None in E. rewrite nth_overflow by exact E. rewrite F. reflexivity. }
  destruct (sw_inwit _ _ _ _ S i) as [A B]. split; rewrite !XX by reflexivity; congruence.
Qed.
(** the pairs the loops over the outputs run through *)
Lemma pubs_wanted n pub : In (n, pub) (combine (seq 0 (length (a_pubkeys args))) (a_pubkeys args)) -> is_nonempty pub = true -> wants_output args n.
Proof.
  intros I N W0. assert (Q : nth n (a_pubkeys args) [] = pub).
  { assert (G : forall (l : list bytes) k, In (n, pub) (combine (seq k (length l)) l) -> (k <= n)%nat /\ nth (n - k) l [] = pub).
    { induction l as [|x l IH]; intros k J; [destruct J|]. cbn [length seq combine] in J. destruct J as [J|J].
      - injection J as -> ->. rewrite Nat.sub_diag. split; [lia|reflexivity].
      - destruct (IH _ J) as [A B]. split; [lia|]. replace (n - k)%nat with (S (n - S k)) by lia. exact B. }
    destruct (G _ _ I) as [_ B]. rewrite Nat.sub_0_r in B. exact B. }
  rewrite W0 in Q. subst pub. discriminate N.
Qed.
Lemma fv_nonempty pub : is_fullyvalid z pub = true -> is_nonempty pub = true.
Proof. unfold is_fullyvalid. intros H. apply andb_true_iff in H. apply H. Qed.
Lemma outwit_check a b t t' n : wants_output args n -> W a b t t' ->
  match nth_error (vtxoutwit (wit t')) n with Some w => negb (outwit_is_null w) | None => false end = match nth_error (vtxoutwit (wit t)) n with Some w => negb (outwit_is_null w) | None => false end.
Proof.
  intros WO (S & _). assert (XX : forall u, match nth_error (vtxoutwit (wit u)) n with Some w => negb (outwit_is_null w) | None => false end = negb (outwit_is_null (outwit_at u n))).
  { intros u. unfold outwit_at. destruct (nth_error (vtxoutwit (wit u)) n) as [w|] eqn:E; [rewrite (nth_error_nth _ _ _ E); reflexivity|].
    apply nth_error_None in E. rewrite nth_overflow by exact E. reflexivity. }
  rewrite !XX, (sw_outwit _ _ _ _ S n WO). reflexivity.
Qed.

Definition LL (L : Loc) : Prop := length (l_bfs L) = NO /\ length (l_abfs L) = NO.
Lemma sim_mretL a b L : LL L -> simR RL a b a b (mret L) (mret (more_loc L)).
Proof. intros [A B]. apply sim_mretR. split; [reflexivity|]. split; assumption. Qed.
Ltac push := repeat match goal with
  | |- context [inc_attempts ?i (more_loc ?L)] => change (inc_attempts i (more_loc L)) with (more_loc (inc_attempts i L))
  | |- context [inc_toblind (more_loc ?L)] => change (inc_toblind (more_loc L)) with (more_loc (inc_toblind L))
  | |- context [inc_success (more_loc ?L)] => change (inc_success (more_loc L)) with (more_loc (inc_success L))
  | |- context [add_amount ?x (more_loc ?L)] => change (add_amount x (more_loc L)) with (more_loc (add_amount x L))
  | |- context [add_blind ?x ?y (more_loc ?L)] => change (add_blind x y (more_loc L)) with (more_loc (add_blind x y L))
  | |- context [add_input ?x ?y ?v (more_loc ?L)] => change (add_input x y v (more_loc L)) with (more_loc (add_input x y v L))
  | |- context [set_last_blind ?x (more_loc ?L)] => change (set_last_blind x (more_loc L)) with (more_loc (set_last_blind x L))
  | |- context [balance_last z (more_loc ?L)] => change (balance_last z (more_loc L)) with (balance_last z L)
  | |- context [l_attempts (more_loc ?L)] => change (l_attempts (more_loc L)) with (l_attempts L)
  | |- context [l_toblind (more_loc ?L)] => change (l_toblind (more_loc L)) with (l_toblind L)
  | |- context [l_blindsin (more_loc ?L)] => change (l_blindsin (more_loc L)) with (l_blindsin L)
  | |- context [l_blinds (more_loc ?L)] => change (l_blinds (more_loc L)) with (l_blinds L)
  | |- context [l_assetblinds (more_loc ?L)] => change (l_assetblinds (more_loc L)) with (l_assetblinds L)
  end.
Ltac sl := repeat first [ apply sim_mretL; assumption | apply sim_result | apply sim_fail | apply sim_mraise
  | match goal with |- simR _ _ _ _ _ (if ?c then _ else _) (if ?c then _ else _) => destruct c end
  | match goal with |- simR _ _ _ _ _ (match ?x with _ => _ end) (match ?x with _ => _ end) => destruct x end ].

Lemma sim_count_input n L : LL L -> simR RL 0 0 0 0 (count_input args n L) (count_input args n (more_loc L)).
Proof.
  intros HL. unfold count_input. eapply sim_bind; [apply sim_lift|intros desc]. apply sim_get. intros t t' R. destruct (pip_same _ _ _ _ n R) as [P1 P2]. rewrite P1, P2. push.
  eapply (sim_bindR RL); [sl|intros L1 L1' (-> & H1)]. eapply sim_vin; [exact R|]. intros inp inp' _ P Q. cbv zeta. rewrite Q. push.
  match goal with |- simR _ _ _ _ _ (if ?c then _ else _) _ => destruct c end; [sl|]. eapply (sim_bindR RL); [sl|intros L2 L2' (-> & H2)]. push. sl.
Qed.
Lemma sim_count_output n pub L : LL L -> In (n, pub) (combine (seq 0 (length (a_pubkeys args))) (a_pubkeys args)) -> simR RL 0 0 0 0 (count_output z (n, pub) L) (count_output z (n, pub) (more_loc L)).
Proof.
  intros HL I. unfold count_output. push. destruct (is_nonempty pub) eqn:N; cbn [negb]; [|sl]. assert (WO := pubs_wanted n pub I N). destruct (negb (is_fullyvalid z pub)); [sl|].
  apply sim_get. intros t t' R. rewrite (outwit_check _ _ _ _ n WO R). eapply sim_vout; [exact WO|exact R|]. intros o _.
  destruct (negb (conf_is_explicit CConfValue (nValue o))); [sl|]. destruct (negb (conf_is_explicit CConfAsset (nAsset o))); [sl|].
  destruct (match nth_error (vtxoutwit (wit t)) n with Some w => negb (outwit_is_null w) | None => false end); sl.
Qed.
Lemma sim_pseudo n (ps : bool) L : LL L -> simR RL 0 0 0 0 (blind_pseudo z rand args n ps L) (blind_pseudo z rand args n ps (more_loc L)).
Proof.
  intros HL. unfold blind_pseudo. destruct (key_at (if ps then a_token_keys args else a_asset_keys args) n) as [key|]; [|sl]. cbv zeta. push.
  apply sim_get. intros t t' R. eapply sim_vin; [exact R|]. intros inp inp' _ P Q. rewrite P, Q. set (iss := assetIssuance inp).
  destruct (conf_is_null (if ps then is_keys iss else is_amount iss)); [sl|]. eapply sim_bind; [apply sim_lift|intros amount]. push.
  eapply sim_bind; [destruct (uint256_is_null (is_nonce iss)); [st|]; destruct ps; st|intros [asset|]]; [|sl].
  eapply sim_bind; [apply sim_draw256|intros b]. push. match goal with |- simR _ _ _ _ _ (if ?c then _ else _) _ => destruct c end; [sl|].
  apply (sim_weak RL 0 0 (S n) 0); [lia|lia|]. apply sim_get. intros t2 t2' R2. eapply sim_bind; [apply sim_put; exact (W_pad_in _ _ (S n) _ _ R2)|intros _].
  eapply sim_bind; [apply sim_blinded_asset|intros ag]. eapply sim_bind; [apply sim_vc|intros [cv commit]].
  eapply sim_bind; [apply sim_mod_vin; intros i i' PI QI; unfold set_issuance; cbn [prevout assetIssuance]; split; [exact PI|reflexivity]|intros _].
  eapply sim_bind; [apply sim_lift|intros nonce]. push. eapply sim_bind; [apply sim_rp|intros proof].
  eapply sim_bind; [apply sim_mod_inwit; [lia|]; intros w w' E1 E2; destruct ps; cbn [iw_issproof iw_keysproof]; auto|intros _]. sl.
Qed.
Lemma upd_app {A} (l r : list A) n x : (n < length l)%nat -> upd (l ++ r) n x = upd l n x ++ r.
Proof. revert n. induction l as [|y l IH]; intros n Q; [cbn in Q; lia|]. destruct n as [|n]; [reflexivity|]. cbn. f_equal. apply IH. cbn in Q. lia. Qed.
Lemma more_factors n b ab L : LL L -> (n < NO)%nat -> set_factors n b ab (more_loc L) = more_loc (set_factors n b ab L) /\ LL (set_factors n b ab L).
Proof.
  intros [A B] Q. split.
  - unfold set_factors, more_loc. cbn [l_toblind l_success l_attempts l_issattempts l_blindsin l_blinds l_assetblinds l_amounts l_bfs l_abfs]. rewrite !upd_app by lia. reflexivity.
  - unfold LL, set_factors. cbn [l_bfs l_abfs]. rewrite !length_upd. split; assumption.
Qed.
Lemma sim_finish tags gens bl n pub asset amount L : LL L -> wants_output args n -> (n < NO)%nat ->
  simR RL 0 NO 0 NO (finish_output z rand args tags gens bl n pub asset amount L) (finish_output z rand args tags gens bl n pub asset amount (more_loc L)).
Proof.
  intros HL WO LN. unfold finish_output. cbv zeta. push. eapply sim_bind; [apply sim_lift|intros b]. eapply sim_bind; [apply sim_lift|intros ab].
  destruct (more_factors n b ab L HL LN) as [-> HL2]. push. set (L2 := set_factors n b ab L) in *. clearbody L2.
  eapply sim_bind; [apply sim_blinded_asset|intros [ca gen]]. eapply sim_bind; [apply sim_mod_vout; exact WO|intros _].
  eapply sim_bind; [apply sim_vc|intros [cv commit]]. eapply sim_bind; [apply sim_mod_vout; exact WO|intros _].
  eapply sim_bind; [apply sim_nonce|intros [nonce eph]]. eapply sim_bind; [apply sim_lift|intros cn]. eapply sim_bind; [apply sim_mod_vout; exact WO|intros _].
  apply sim_get. intros t t' R. eapply sim_vout; [exact WO|exact R|]. intros o _. eapply sim_bind; [apply sim_rp|intros rp]. eapply sim_bind; [apply sim_sp|intros [[|x sp]|]]; [sl| |sl].
  eapply sim_bind; [apply sim_mod_outwit; exact LN|intros _]. sl.
Qed.
Lemma sim_output tags gens bl n pub L : LL L -> In (n, pub) (combine (seq 0 (length (a_pubkeys args))) (a_pubkeys args)) ->
  simR RL 0 NO 0 NO (blind_output z rand args tags gens bl (n, pub) L) (blind_output z rand args tags gens bl (n, pub) (more_loc L)).
Proof.
  intros HL I. unfold blind_output. destruct (is_fullyvalid z pub) eqn:N; cbn [negb]; [|sl]. assert (WO := pubs_wanted n pub I (fv_nonempty _ N)).
  apply sim_get. intros t t' R. eapply sim_vout; [exact WO|exact R|]. intros o LN. cbv zeta.
  eapply sim_bind; [apply sim_lift|intros amount]. eapply sim_bind; [apply sim_lift|intros asset]. eapply sim_bind; [apply sim_draw256|intros b]. eapply sim_bind; [apply sim_draw256|intros ab]. push.
  match goal with |- simR _ _ _ _ _ (if ?c then _ else _) _ => destruct c end; [|apply sim_finish; assumption].
  match goal with |- simR _ _ _ _ _ (if ?c then _ else _) _ => destruct c end; [sl|].
  eapply sim_bind; [apply sim_balance|intros [b2|]]; push; [apply sim_finish; assumption|sl].
Qed.
Lemma sim_body : simR (fun r r' => r' = more_ret r) 0 0 0 0 (blind_body z rand args) (blind_body z rand args).
Proof.
  unfold blind_body. eapply sim_bind; [apply sim_check|intros _]. eapply sim_bind; [apply sim_targets|intros [[tags gens] bl]].
  apply sim_get. intros t t' R. rewrite (sw_nin _ _ _ _ (proj1 R)), (sw_nout _ _ _ _ (proj1 R)), (proj1 (proj2 R)). cbv zeta.
  eapply (sim_bindR RL).
  { apply sim_for; [intros i L ? _ (-> & H); apply sim_count_input; exact H|]. split; [unfold more_loc; cbn; rewrite repeat_app; reflexivity|]. cbn [l_bfs l_abfs]. rewrite repeat_length. auto. }
  intros L1 L1' R1. eapply (sim_bindR RL); [apply sim_for; [intros [n pub] L ? I (-> & H); apply sim_count_output; [exact H|exact I]|exact R1]|intros L2 L2' R2].
  eapply (sim_bindR RL).
  { apply sim_for; [|exact R2]. intros i L ? _ (-> & H). unfold blind_input. eapply (sim_bindR RL); [apply sim_pseudo; exact H|intros L' ? (-> & H')]. apply sim_pseudo. exact H'. }
  intros L3 L3' R3. eapply (sim_weak _ 0 0 0 NO); [lia|lia|]. apply sim_get. intros t2 t2' RR. rewrite (sw_nout _ _ _ _ (proj1 RR)), (proj1 (proj2 RR)).
  eapply sim_bind; [apply sim_put; apply (W_pad_out _ _ NO (NO + X) _ _ ltac:(lia) RR)|intros _].
  eapply (sim_bindR RL); [apply sim_for; [intros [n pub] L ? I (-> & H); apply sim_output; [exact H|exact I]|exact R3]|intros L4 L4' (-> & _)].
  apply sim_mretR. apply more_result.
Qed.
End S.

Theorem blind_in_step z rand args more t t' : SameWork args more t t' -> more = 0%nat \/ (length (a_pubkeys args) <= length (vout t))%nat ->
  fst (blind_transaction z rand args t') = MoreFactors more (fst (blind_transaction z rand args t))
  /\ s_draws (snd (blind_transaction z rand args t')) = s_draws (snd (blind_transaction z rand args t))
  /\ SameWork args more (s_tx (snd (blind_transaction z rand args t))) (s_tx (snd (blind_transaction z rand args t'))).
Proof.
  intros S HX. assert (R : Rel args (length (vout t)) more 0 0 (mkSt t 0) (mkSt t' 0)).
  { split; [reflexivity|]. cbn [s_tx]. split; [exact S|]. split; [reflexivity|]. lia. }
  assert (Q := sim_body z rand args _ _ HX _ _ R). unfold blind_transaction.
  destruct (blind_body z rand args (mkSt t 0)) as [[r|r|e] u], (blind_body z rand args (mkSt t' 0)) as [[r'|r'|e'] u']; try contradiction; destruct Q as (-> & D & Q & _); cbn [fst snd].
  - split; [destruct r; reflexivity|]. split; assumption.
  - split; [destruct r; reflexivity|]. split; assumption.
  - split; [reflexivity|]. split; assumption.
Qed.
