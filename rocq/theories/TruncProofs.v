(** blind() sees its integer arguments only through the library's integer types. *)
From Coq Require Import ZArith List Bool Lia.
From Verif Require Import Base BaseFacts Serialize TxModel IssuanceModel ScriptModel MiscModel BlindModel BlindFacts BlindSteps SpecBlind SpecTrunc.
Import ListNotations.
Local Open Scope Z_scope.

(** * Two runs with related values *)
Definition rel {A B} (R : A -> B -> Prop) (m : M A) (m' : M B) : Prop := forall s, match m s, m' s with
  | (Val a, s1), (Val b, s2) => R a b /\ s1 = s2
  | (Ret r, s1), (Ret r', s2) => r = r' /\ s1 = s2
  | (Exc e, s1), (Exc e', s2) => e = e' /\ s1 = s2
  | _, _ => False
  end.
Lemma rel_bind {A A' B B'} (R : A -> A' -> Prop) (Q : B -> B' -> Prop) m m' k k' : rel R m m' -> (forall a a', R a a' -> rel Q (k a) (k' a')) -> rel Q (mbind m k) (mbind m' k').
Proof.
  intros H K s. unfold mbind. specialize (H s). destruct (m s) as [[a|r|e] s1], (m' s) as [[a'|r'|e'] s2]; try contradiction; destruct H as [H ->]; auto. apply K. exact H.
Qed.
Lemma rel_refl {A} (m : M A) : rel eq m m. Proof. intros s. destruct (m s) as [[a|r|e] s1]; auto. Qed.
Lemma rel_ret {A B} (R : A -> B -> Prop) a b : R a b -> rel R (mret a) (mret b). Proof. intros H s. cbn. auto. Qed.
Lemma rel_return {A B} (R : A -> B -> Prop) r r' : r = r' -> rel R (mreturn r) (mreturn r'). Proof. intros <- s. cbn. auto. Qed.
Lemma rel_same {A B C} (R : B -> C -> Prop) (m : M A) k k' : (forall a, rel R (k a) (k' a)) -> rel R (mbind m k) (mbind m k').
Proof. intros H. apply rel_bind with (R := eq); [apply rel_refl|]. intros a a' <-. apply H. Qed.
Lemma rel_for {A L L'} (l : list A) (body : A -> L -> M L) (body' : A -> L' -> M L') (R : L -> L' -> Prop) :
  (forall x st st', R st st' -> rel R (body x st) (body' x st')) -> forall st st', R st st' -> rel R (for_in l body st) (for_in l body' st').
Proof. intros H. induction l as [|x l IH]; intros st st' I; cbn [for_in]; [apply rel_ret; exact I|]. apply rel_bind with (R := R); [apply H; exact I|]. apply IH. Qed.

Lemma mod_u64 a b : same_mod (2 ^ 64) a b -> c_uint64 a = c_uint64 b.
Proof. intros [k ->]. unfold c_uint64. apply Z.mod_add. discriminate. Qed.
Lemma mod_int a b : same_mod (2 ^ 32) a b -> c_int a = c_int b.
Proof. intros [k ->]. unfold c_int. rewrite Z.mod_add by discriminate. reflexivity. Qed.

Definition LRel (L L' : Loc) : Prop :=
  l_toblind L = l_toblind L' /\ l_success L = l_success L' /\ l_attempts L = l_attempts L' /\ l_issattempts L = l_issattempts L' /\ l_blindsin L = l_blindsin L'
  /\ l_blinds L = l_blinds L' /\ l_assetblinds L = l_assetblinds L' /\ map c_uint64 (l_amounts L) = map c_uint64 (l_amounts L') /\ l_bfs L = l_bfs L' /\ l_abfs L = l_abfs L'.

Section W.
Variables (z : Crypto) (rand : nat -> bytes) (args args' : blind_args).
Hypothesis W : SameButWrapped args args'.

Lemma result_eq L L' : LRel L L' -> blinding_result args L = blinding_result args' L'.
Proof. intros (E1 & E2 & E3 & E4 & E5 & E6 & E7 & E8 & E9 & E10). unfold blinding_result. rewrite (sw_strict _ _ W), E1, E2, E9, E10. reflexivity. Qed.
Lemma descs_len : length (a_descs args) = length (a_descs args').
Proof. induction (sw_descs _ _ W); cbn; congruence. Qed.
Lemma descs_nth i : rel SameInput (lift (nth_res (a_descs args) i)) (lift (nth_res (a_descs args') i)).
Proof.
  intros s. unfold nth_res. pose proof (sw_descs _ _ W) as F. revert i. induction F as [|d d' l l' D F IH]; intros i; [destruct i; cbn; auto|]. destruct i as [|i]; [cbn; auto|]. apply IH.
Qed.
Lemma check_rel : check_arguments args = check_arguments args'.
Proof. unfold check_arguments. rewrite (sw_pubkeys _ _ W), (sw_asset_keys _ _ W), (sw_token_keys _ _ W), (sw_aux _ _ W), descs_len. reflexivity. Qed.
Lemma targets_input_rel i T : rel eq (targets_input z args i T) (targets_input z args' i T).
Proof.
  unfold targets_input. rewrite <- (sw_aux _ _ W), <- (sw_token_keys _ _ W). apply rel_bind with (R := SameInput); [apply descs_nth|]. intros d d' (E1 & E2 & E3 & _). rewrite <- E1, <- E3. apply rel_refl.
Qed.
Lemma targets_rel : rel eq (surjection_targets z args) (surjection_targets z args').
Proof.
  unfold surjection_targets. rewrite <- (sw_aux _ _ W). apply rel_same. intros t. cbv zeta. apply rel_bind with (R := eq).
  - apply rel_for; [|reflexivity]. intros x st st' <-. apply targets_input_rel.
  - intros T T' <-. apply rel_refl.
Qed.
Lemma key_at_rel (ps : bool) i : key_at (if ps then a_token_keys args else a_asset_keys args) i = key_at (if ps then a_token_keys args' else a_asset_keys args') i.
Proof. rewrite (sw_asset_keys _ _ W), (sw_token_keys _ _ W). reflexivity. Qed.
Lemma count_input_rel i L L' : LRel L L' -> rel LRel (count_input args i L) (count_input args' i L').
Proof.
  intros I. unfold count_input. rewrite <- (sw_asset_keys _ _ W), <- (sw_token_keys _ _ W). apply rel_bind with (R := SameInput); [apply descs_nth|]. intros d d' (E1 & E2 & E3 & P1 & P2 & EM).
  apply rel_same. intros t. rewrite <- E2, <- E3. apply rel_bind with (R := LRel).
  { destruct (_ || _); [|apply rel_ret; exact I]. destruct (Z.ltb_spec (d_amount d) 0); [lia|]. destruct (Z.ltb_spec (d_amount d') 0); [lia|]. apply rel_ret.
    destruct I as (I1 & I2 & I3 & I4 & I5 & I6 & I7 & I8 & I9 & I10). unfold LRel, add_input. cbn [l_toblind l_success l_attempts l_issattempts l_blindsin l_blinds l_assetblinds l_amounts l_bfs l_abfs].
    rewrite !map_app, I8. cbn [map]. rewrite (mod_u64 _ _ EM). repeat split; congruence. }
  clear L L' I. intros L L' I. apply rel_same. intros inp. cbv zeta.
  assert (II : LRel (inc_toblind L) (inc_toblind L')) by (destruct I as (I1 & I); unfold LRel, inc_toblind; cbn [l_toblind l_success l_attempts l_issattempts l_blindsin l_blinds l_assetblinds l_amounts l_bfs l_abfs]; split; [congruence|exact I]).
  destruct (issuance_is_null _); [apply rel_ret; exact I|]. apply rel_bind with (R := LRel).
  { destruct (key_at _ _); [|apply rel_ret; exact I]. destruct (negb _); [apply rel_return; reflexivity|]. destruct (proof_in_place _ _ _); [apply rel_return; reflexivity|]. apply rel_ret. exact II. }
  clear L L' I II. intros L L' I.
  assert (II : LRel (inc_toblind L) (inc_toblind L')) by (destruct I as (I1 & I); unfold LRel, inc_toblind; cbn [l_toblind l_success l_attempts l_issattempts l_blindsin l_blinds l_assetblinds l_amounts l_bfs l_abfs]; split; [congruence|exact I]).
  destruct (key_at _ _); [|apply rel_ret; exact I]. destruct (negb _); [apply rel_return; reflexivity|]. destruct (proof_in_place _ _ _); [apply rel_return; reflexivity|]. apply rel_ret. exact II.
Qed.
Ltac fields := unfold LRel, inc_toblind, inc_success, inc_attempts, add_amount, add_blind, set_last_blind, set_factors in *; cbn [l_toblind l_success l_attempts l_issattempts l_blindsin l_blinds l_assetblinds l_amounts l_bfs l_abfs] in *.
Lemma inc_toblind_rel L L' : LRel L L' -> LRel (inc_toblind L) (inc_toblind L'). Proof. fields. intuition congruence. Qed.
Lemma inc_success_rel L L' : LRel L L' -> LRel (inc_success L) (inc_success L'). Proof. fields. intuition congruence. Qed.
Lemma inc_attempts_rel b L L' : LRel L L' -> LRel (inc_attempts b L) (inc_attempts b L'). Proof. fields. destruct b; intuition congruence. Qed.
Lemma add_amount_rel a L L' : LRel L L' -> LRel (add_amount a L) (add_amount a L'). Proof. fields. rewrite !map_app. intuition congruence. Qed.
Lemma add_blind_rel b ab L L' : LRel L L' -> LRel (add_blind b ab L) (add_blind b ab L'). Proof. fields. intuition congruence. Qed.
Lemma set_last_rel b L L' : LRel L L' -> LRel (set_last_blind b L) (set_last_blind b L'). Proof. fields. intuition congruence. Qed.
Lemma set_factors_rel n b ab L L' : LRel L L' -> LRel (set_factors n b ab L) (set_factors n b ab L'). Proof. fields. intuition congruence. Qed.
Lemma count_output_rel np L L' : LRel L L' -> rel LRel (count_output z np L) (count_output z np L').
Proof.
  intros I. destruct np as [n pub]. unfold count_output. destruct (negb _); [apply rel_ret; exact I|]. destruct (negb _); [apply rel_return; reflexivity|].
  apply rel_same. intros t. apply rel_same. intros o. repeat match goal with |- rel _ (if ?b then _ else _) _ => destruct b; [apply rel_return; reflexivity|] end. apply rel_ret. apply inc_toblind_rel. exact I.
Qed.
Lemma parameter_eq (o o' : option Z) d : SameParameter o o' -> c_int (match o with Some e => e | None => d end) = c_int (match o' with Some e => e | None => d end).
Proof. destruct o, o'; cbn [SameParameter]; intros H; try contradiction; [apply mod_int; exact H|reflexivity]. Qed.
Lemma rangeproof_rel bl nonce amount script commit gen asset abl :
  generate_rangeproof z bl nonce amount script commit gen asset abl (a_ct_exponent args) (a_ct_bits args) = generate_rangeproof z bl nonce amount script commit gen asset abl (a_ct_exponent args') (a_ct_bits args').
Proof. unfold generate_rangeproof. cbv zeta. rewrite (parameter_eq _ _ CT_EXPONENT (sw_exponent _ _ W)), (parameter_eq _ _ CT_BITS (sw_bits _ _ W)). reflexivity. Qed.
Lemma blind_pseudo_rel i ps L L' : LRel L L' -> rel LRel (blind_pseudo z rand args i ps L) (blind_pseudo z rand args' i ps L').
Proof.
  intros I. unfold blind_pseudo. rewrite <- key_at_rel. destruct (key_at _ _) as [key|]; [|apply rel_ret; exact I]. cbv zeta. apply rel_same. intros t. apply rel_same. intros inp.
  apply inc_attempts_rel with (b := true) in I. revert I. generalize (inc_attempts true L) (inc_attempts true L'). clear L L'. intros L L' I.
  destruct (conf_is_null _); [apply rel_ret; exact I|]. apply rel_same. intros amount. apply rel_same. intros [asset|]; [|apply rel_ret; apply add_amount_rel; exact I].
  apply rel_same. intros b. apply add_amount_rel with (a := amount) in I. apply add_blind_rel with (b := b) (ab := zeros 32) in I. revert I. generalize (add_blind b (zeros 32) (add_amount amount L)) (add_blind b (zeros 32) (add_amount amount L')). clear L L'. intros L L' I.
  assert (EQ := I). destruct EQ as (E1 & E2 & E3 & E4 & E5 & E6 & E7 & E8 & E9 & E10). rewrite <- E1, <- E3, <- E6, <- E7. destruct (_ =? _)%nat; [apply rel_return; apply result_eq; exact I|].
  apply rel_same. intros t1. apply rel_same. intros _. apply rel_same. intros [ca gen]. cbn [snd]. apply rel_same. intros [cv commit]. apply rel_same. intros _. apply rel_same. intros nonce. rewrite <- rangeproof_rel.
  apply rel_same. intros proof. apply rel_same. intros _. apply rel_ret. apply inc_success_rel. exact I.
Qed.
Lemma balance_rel L L' : LRel L L' -> balance_last z L = balance_last z L'.
Proof.
  intros (E1 & E2 & E3 & E4 & E5 & E6 & E7 & E8 & E9 & E10). assert (EL : length (l_amounts L) = length (l_amounts L')) by (rewrite <- (map_length c_uint64), E8; apply map_length).
  unfold balance_last. cbv zeta. rewrite E3, E4, E5, E6, E7, E8, EL. reflexivity.
Qed.
Lemma finish_rel tags gens blinders n pub asset amount L L' : LRel L L' ->
  rel LRel (finish_output z rand args tags gens blinders n pub asset amount L) (finish_output z rand args' tags gens blinders n pub asset amount L').
Proof.
  intros I. assert (EQ := I). destruct EQ as (E1 & E2 & E3 & E4 & E5 & E6 & E7 & E8 & E9 & E10). unfold finish_output. rewrite <- E6, <- E7. apply rel_same. intros b. apply rel_same. intros ab. cbv zeta.
  apply set_factors_rel with (n := n) (b := b) (ab := ab) in I. revert I. generalize (set_factors n b ab L) (set_factors n b ab L'). clear L L' E1 E2 E3 E4 E5 E6 E7 E8 E9 E10. intros L L' I.
  assert (EQ := I). destruct EQ as (E1 & E2 & E3 & E4 & E5 & E6 & E7 & E8 & E9 & E10). rewrite <- E6, <- E7.
  apply rel_same. intros [ca gen]. apply rel_same. intros _. apply rel_same. intros [cv commit]. apply rel_same. intros _. apply rel_same. intros [nonce eph]. apply rel_same. intros cn. apply rel_same. intros _.
  apply rel_same. intros t. apply rel_same. intros o. rewrite <- rangeproof_rel. apply rel_same. intros proof. apply rel_same. intros sp. destruct sp as [[|x sp]|]; [apply rel_ret; exact I| |apply rel_ret; exact I].
  apply rel_same. intros _. apply rel_ret. apply inc_success_rel. exact I.
Qed.
Lemma blind_output_rel tags gens blinders np L L' : LRel L L' ->
  rel LRel (blind_output z rand args tags gens blinders np L) (blind_output z rand args' tags gens blinders np L').
Proof.
  intros I. destruct np as [n pub]. unfold blind_output. destruct (negb _); [apply rel_ret; exact I|]. apply rel_same. intros t. apply rel_same. intros o. cbv zeta. apply rel_same. intros amount. apply rel_same. intros asset.
  apply rel_same. intros b. apply rel_same. intros ab. apply inc_attempts_rel with (b := false) in I. apply add_amount_rel with (a := amount) in I. apply add_blind_rel with (b := b) (ab := ab) in I.
  revert I. generalize (add_blind b ab (add_amount amount (inc_attempts false L))) (add_blind b ab (add_amount amount (inc_attempts false L'))). clear L L'. intros L L' I.
  assert (EQ := I). destruct EQ as (E1 & E2 & E3 & E4 & E5 & E6 & E7 & E8 & E9 & E10). rewrite <- E1, <- E3, <- E5. destruct (_ =? _)%nat; [|apply finish_rel; exact I].
  destruct (_ && _); [apply rel_return; apply result_eq; exact I|]. rewrite <- (balance_rel _ _ I). apply rel_same. intros [b'|]; [|apply rel_return; apply result_eq; apply inc_success_rel; exact I].
  apply finish_rel. apply set_last_rel. exact I.
Qed.
Theorem body_rel : rel eq (blind_body z rand args) (blind_body z rand args').
Proof.
  unfold blind_body. rewrite <- check_rel, <- (sw_pubkeys _ _ W). apply rel_same. intros _. apply rel_bind with (R := eq); [exact targets_rel|]. intros tgb tgb' <-. destruct tgb as [[tags gens] blinders].
  apply rel_same. intros t. cbv zeta. apply rel_bind with (R := LRel); [apply rel_for; [|repeat split]; intros; apply count_input_rel; assumption|]. intros L L' I.
  apply rel_bind with (R := LRel); [apply rel_for; [|exact I]; intros; apply count_output_rel; assumption|]. clear L L' I. intros L L' I.
  apply rel_bind with (R := LRel).
  { apply rel_for; [|exact I]. intros x st st' J. unfold blind_input. apply rel_bind with (R := LRel); [apply blind_pseudo_rel; exact J|]. intros. apply blind_pseudo_rel. assumption. }
  clear L L' I. intros L L' I. apply rel_same. intros t1. apply rel_same. intros _. apply rel_bind with (R := LRel); [apply rel_for; [|exact I]; intros; apply blind_output_rel; assumption|].
  clear L L' I. intros L L' I. apply rel_ret. apply result_eq. exact I.
Qed.
Theorem blind_wrapped t : blind_transaction z rand args t = blind_transaction z rand args' t.
Proof.
  unfold blind_transaction. assert (R := body_rel (mkSt t 0)). destruct (blind_body z rand args (mkSt t 0)) as [[a|r|e] s1], (blind_body z rand args' (mkSt t 0)) as [[a'|r'|e'] s2]; try contradiction; destruct R as [-> ->]; reflexivity.
Qed.
End W.

(** * Which parameters reach the range proofs *)
Section P.
Variables (z : Crypto) (sign : Z -> bytes -> bytes -> bytes -> Z -> Z -> Z -> bytes -> bytes -> bytes -> option bytes) (rand : nat -> bytes) (args : blind_args).
Let z' := mkCrypto (c_hash z) (c_sha z) (c_mid z) (gen_parse z) (gen_generate z) (gen_generate_blinded z) (gen_serialize z) (ped_commit z) (ped_serialize z) (ped_parse z) (blind_sum z)
       sign (rp_rewind z) (sp_init z) (sp_generate z) (sp_verify z) (sp_serialize z) (pk_fullyvalid z) (sk_valid z) (sk_pub z) (ecdh z).
Hypothesis SG : forall minv c bl nonce v msg extra g, sign minv c bl nonce (int32 (given_exponent args)) (int32 (given_bits args)) v msg extra g
  = rp_sign z minv c bl nonce (int32 (given_exponent args)) (int32 (given_bits args)) v msg extra g.
Lemma sign_rangeproof bl nonce amount script commit gen asset abl :
  rel eq (generate_rangeproof z bl nonce amount script commit gen asset abl (a_ct_exponent args) (a_ct_bits args)) (generate_rangeproof z' bl nonce amount script commit gen asset abl (a_ct_exponent args) (a_ct_bits args)).
Proof.
  unfold generate_rangeproof. apply rel_same. intros _. apply rel_same. intros _. apply rel_same. intros b. apply rel_same. intros ab. cbv zeta. rewrite !c_int_eq.
  change (match a_ct_exponent args with Some e => e | None => CT_EXPONENT end) with (given_exponent args). change (match a_ct_bits args with Some e => e | None => CT_BITS end) with (given_bits args).
  subst z'. cbn [rp_sign]. rewrite SG. apply rel_refl.
Qed.
Lemma sign_pseudo i ps L : rel eq (blind_pseudo z rand args i ps L) (blind_pseudo z' rand args i ps L).
Proof.
  unfold blind_pseudo. destruct (key_at _ _) as [key|]; [|apply rel_refl]. cbv zeta. apply rel_same. intros t. apply rel_same. intros inp. destruct (conf_is_null _); [apply rel_refl|].
  apply rel_same. intros amount. apply rel_same. intros [asset|]; [|apply rel_refl]. apply rel_same. intros b. destruct (_ =? _)%nat; [apply rel_refl|].
  apply rel_same. intros t1. apply rel_same. intros _. apply rel_same. intros [ca gen]. cbn [snd]. apply rel_same. intros [cv commit]. apply rel_same. intros _. apply rel_same. intros nonce.
  apply rel_bind with (R := eq); [apply sign_rangeproof|]. intros proof proof' <-. apply rel_refl.
Qed.
Lemma sign_finish tags gens blinders n pub asset amount L : rel eq (finish_output z rand args tags gens blinders n pub asset amount L) (finish_output z' rand args tags gens blinders n pub asset amount L).
Proof.
  unfold finish_output. apply rel_same. intros b. apply rel_same. intros ab. cbv zeta.
  apply rel_same. intros [ca gen]. apply rel_same. intros _. apply rel_same. intros [cv commit]. apply rel_same. intros _. apply rel_same. intros [nonce eph]. apply rel_same. intros cn. apply rel_same. intros _.
  apply rel_same. intros t. apply rel_same. intros o. apply rel_bind with (R := eq); [apply sign_rangeproof|]. intros proof proof' <-. apply rel_refl.
Qed.
Lemma sign_output tags gens blinders np L : rel eq (blind_output z rand args tags gens blinders np L) (blind_output z' rand args tags gens blinders np L).
Proof.
  destruct np as [n pub]. unfold blind_output. destruct (negb _); [apply rel_refl|]. apply rel_same. intros t. apply rel_same. intros o. cbv zeta. apply rel_same. intros amount. apply rel_same. intros asset.
  apply rel_same. intros b. apply rel_same. intros ab. destruct (_ =? _)%nat; [|apply sign_finish]. destruct (_ && _); [apply rel_refl|]. apply rel_same. intros [b'|]; [|apply rel_refl]. apply sign_finish.
Qed.
Lemma sign_body : rel eq (blind_body z rand args) (blind_body z' rand args).
Proof.
  unfold blind_body. apply rel_same. intros _. apply rel_same. intros tgb. destruct tgb as [[tags gens] blinders].
  apply rel_same. intros t. cbv zeta. apply rel_same. intros L. apply rel_same. intros L1. apply rel_bind with (R := eq).
  { apply rel_for; [|reflexivity]. intros x st st' <-. unfold blind_input. apply rel_bind with (R := eq); [apply sign_pseudo|]. intros a a' <-. apply sign_pseudo. }
  intros L2 L2' <-. apply rel_same. intros t1. apply rel_same. intros _. apply rel_bind with (R := eq); [apply rel_for; [|reflexivity]; intros x st st' <-; apply sign_output|].
  intros L3 L3' <-. apply rel_refl.
Qed.
Lemma sign_same t : blind_transaction z rand args t = blind_transaction z' rand args t.
Proof.
  unfold blind_transaction. assert (R := sign_body (mkSt t 0)). destruct (blind_body z rand args (mkSt t 0)) as [[a|r|e] s1], (blind_body z' rand args (mkSt t 0)) as [[a'|r'|e'] s2]; try contradiction; destruct R as [-> ->]; reflexivity.
Qed.
End P.
