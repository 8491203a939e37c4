(** The signatures that the parties of an asset swap put into the transaction are signatures of that transaction. *)
From Verif Require Import Base BaseFacts Serialize TxModel MiscModel BlindModel UnblindModel SpendModel WalletModel SighashModel LegacyModel ScriptModel
  SpecBlind SpecSighash SpecLegacy SpecSign BlindFacts BlindBalance BlindFrame TxProofs PropSighash PropLegacy PropSign PropUnblind ExampleProofs SwapModel SpecSwap SwapProofs.
From Coq Require Import Lia.
Local Open Scope Z_scope.

Lemma only_in i t t' : OnlyInput i t t' -> forall k x, nth_error (vin t) k = Some x -> exists ss, nth_error (vin t') k = Some (mkTxIn (prevout x) ss (nSequence x) (assetIssuance x) (is_pegin x)) /\ (k <> i -> ss = scriptSig x).
Proof.
  intros O k x E. destruct (oi_in _ _ _ O) as (a & y & b & ss & EA & LA & EB). rewrite EA in E. rewrite EB. destruct (lt_eq_lt_dec k (length a)) as [[L| ->]|L].
  - rewrite nth_error_app1 in * by exact L. exists (scriptSig x). split; [|reflexivity]. rewrite E. destruct x; reflexivity.
  - rewrite nth_error_app2 in * by lia. rewrite Nat.sub_diag in *. cbn [nth_error] in *. injection E as <-. exists ss. split; [reflexivity|]. intros N. congruence.
  - rewrite nth_error_app2 in * by lia. destruct (k - length a)%nat eqn:K; [lia|]. cbn [nth_error] in *. exists (scriptSig x). split; [|reflexivity]. rewrite E. destruct x; reflexivity.
Qed.
Lemma only_map {B} (f : txin -> B) i t t' : OnlyInput i t t' ->
  (forall y y', prevout y = prevout y' -> nSequence y = nSequence y' -> assetIssuance y = assetIssuance y' -> is_pegin y = is_pegin y' -> f y = f y') -> map f (vin t) = map f (vin t').
Proof. intros O H. destruct (oi_in _ _ _ O) as (a & x & b & ss & -> & _ & ->). rewrite !map_app. cbn [map]. f_equal. f_equal. apply H; reflexivity. Qed.
(** Filling in one input changes no hash. *)
Lemma only_hash H script i t t' k ht a sv h : OnlyInput i t t' -> (k < length (vin t))%nat -> sv = SIGVERSION_BASE \/ sv = SIGVERSION_WITNESS_V0 ->
  sighash (legacy_sighash H) H script t (Z.of_nat k) ht a sv = Ok h <-> sighash (legacy_sighash H) H script t' (Z.of_nat k) ht a sv = Ok h.
Proof.
  intros O L S. destruct (nth_error (vin t) k) as [x|] eqn:E; [|apply nth_error_None in E; lia]. destruct (only_in _ _ _ O k x E) as (ss & E' & _).
  pose (y := mkTxIn (prevout x) ss (nSequence x) (assetIssuance x) (is_pegin x)). fold y in E'. assert (OV := oi_out _ _ _ O).
  assert (P1 : map prevout (vin t) = map prevout (vin t')) by (apply (only_map _ _ _ _ O); auto).
  assert (P2 : map nSequence (vin t) = map nSequence (vin t')) by (apply (only_map _ _ _ _ O); auto).
  assert (P3 : map written_issuance (vin t) = map written_issuance (vin t')) by (apply (only_map _ _ _ _ O); intros; apply written_same; assumption).
  assert (P4 : map issuance_of (vin t) = map issuance_of (vin t')) by (apply (only_map _ _ _ _ O); intros; apply issuance_same; assumption).
  destruct S as [->| ->].
  - exact (C64_not_covered H script t t' k k ht a x y h (eq_sym (oi_version _ _ _ O)) (eq_sym (oi_locktime _ _ _ O)) E E' eq_refl eq_refl (written_same x y eq_refl eq_refl)
      (fun _ => conj eq_refl (conj P1 P3)) (fun _ => P2) (fun _ => eq_sym OV) (fun _ => conj eq_refl (f_equal (fun l => nth_error l k) (eq_sym OV)))).
  - rewrite (C20_only_covered (legacy_sighash H) H script t t' k k ht a x y (eq_sym (oi_version _ _ _ O)) (eq_sym (oi_locktime _ _ _ O)) E E' eq_refl eq_refl (issuance_same x y eq_refl)
      (fun _ => conj P1 P4) (fun _ => P2) (fun _ => eq_sym OV) (fun _ => f_equal (fun l => nth_error l k) (eq_sym OV))). reflexivity.
Qed.
Section S.
Variables (z : Crypto) (Hash160 : bytes -> bytes) (sign : bytes -> bytes -> bytes).
Lemma signature_kept t i t' k u : OnlyInput i t t' -> k <> i -> Signature z Hash160 sign t k u -> Signature z Hash160 sign t' k u.
Proof.
  intros O NE (x & v & h & sig & E & EV & EH & ES & M). destruct (only_in _ _ _ O k x E) as (ss & E' & Q). specialize (Q NE). subst ss.
  exists x, v, h, sig. split; [rewrite E'; destruct x; reflexivity|]. split; [exact EV|]. split.
  { apply (only_hash _ _ _ _ _ _ _ _ _ _ O); [apply nth_error_Some; congruence| |exact EH]. destruct (kind_eqb _ P2PKH); auto. }
  split; [exact ES|]. rewrite (oi_inwit _ _ _ O k NE). exact M.
Qed.
Lemma sign_signature t i u t' : sign_input z (legacy_sighash (c_hash z)) Hash160 sign t i u = Ok t' -> Signature z Hash160 sign t' i u.
Proof.
  intros SG. assert (F := SG). apply sign_filled in F. destruct F as (ss0 & st0 & h0 & F0 & _). assert (O := filled_only _ _ _ _ _ F0). clear ss0 st0 h0 F0.
  unfold sign_input, rbind in SG. destruct (rassert _ EAssert) as [uu|e] eqn:RA; [|discriminate SG].
  destruct (match u_value u with Some b => conf_new CConfValue b | None => conf_value_of_amount (u_amount u) end) as [am|e] eqn:AM; [|discriminate SG].
  destruct (sighash _ _ _ _ _ _ _ _) as [h|e] eqn:SH; [|discriminate SG].
  assert (LT : (i < length (vin t))%nat) by (destruct (oi_in _ _ _ O) as (a & x & b & ss & -> & <- & _); rewrite app_length; cbn [length]; lia).
  apply (only_hash _ _ _ _ _ _ _ _ _ _ O LT) in SH; [|destruct (kind_eqb _ P2PKH); auto].
  assert (EV : match u_value u with Some b => am = b | None => to_amount am = Ok (u_amount u) end).
  { destruct (u_value u) as [b|]; [|apply value_back; exact AM]. unfold conf_new in AM. repeat match type of AM with context[if ?b then _ else _] => destruct b; try discriminate AM end; apply Ok_inj in AM; congruence. }
  assert (K : forall ss st, set_input t i ss st = Ok t' -> exists x, nth_error (vin t') i = Some x /\ scriptSig x = ss
            /\ match st with None => True | Some st => exists w, nth_error (vtxinwit (wit t')) i = Some w /\ iw_script w = st end).
  { intros ss st SI. apply set_filled in SI. destruct SI as (x & E & EV' & _ & _ & _ & _ & EW & LW). eexists. rewrite EV'. split; [apply upd_nth_same; exact LT|]. split; [reflexivity|].
    destruct st as [st|]; [|exact I]. eexists. rewrite EW. split; [apply upd_nth_same, LW; discriminate|reflexivity]. }
  unfold Signature. cbv zeta. change (zb SIGHASH_ALL) with x01 in *. change SIGHASH_ALL with 1 in *.
  destruct (ad_kind (u_addr u)); cbn [kind_eqb] in SH, RA, SG |- *; try (rewrite andb_false_r in RA; discriminate RA).
  - destruct (encode_op_pushdata (sign (u_pub u) h ++ [x01])) as [a|e] eqn:P1; [|discriminate SG]. destruct (encode_op_pushdata (u_pub u)) as [b|e] eqn:P2; [|discriminate SG].
    destruct (K _ _ SG) as (x & E1 & E2 & _). exists x, am, h, (sign (u_pub u) h ++ [x01]). repeat (split; [assumption || reflexivity|]). exists a, b. auto.
  - destruct (encode_op_pushdata ([x00; x14] ++ Hash160 (u_pub u))) as [a|e] eqn:P1; [|discriminate SG].
    destruct (K _ _ SG) as (x & E1 & E2 & E3). exists x, am, h, (sign (u_pub u) h ++ [x01]). repeat (split; [assumption || reflexivity|]). rewrite E2. split; [reflexivity|exact E3].
  - destruct (K _ _ SG) as (x & E1 & E2 & E3). exists x, am, h, (sign (u_pub u) h ++ [x01]). repeat (split; [assumption || reflexivity|]). exact E3.
Qed.
Lemma sign_all_signatures us : forall t i t', sign_all z (legacy_sighash (c_hash z)) Hash160 sign t i us = Ok t' ->
  (forall n u, nth_error us n = Some u -> Signature z Hash160 sign t' (i + n) u)
  /\ (forall k u, (k < i)%nat -> Signature z Hash160 sign t k u -> Signature z Hash160 sign t' k u)
  /\ (forall k, (k < i)%nat -> nth_error (vin t') k = nth_error (vin t) k /\ nth_error (vtxinwit (wit t')) k = nth_error (vtxinwit (wit t)) k).
Proof.
  induction us as [|u us IH]; intros t i t' H; cbn [sign_all] in H.
  - apply Ok_inj in H. subst t'. split; [intros [|n] u E; discriminate E|]. auto.
  - unfold rbind in H. destruct (sign_input z _ Hash160 sign t i u) as [t1|e] eqn:E; [|discriminate H].
    assert (S1 := sign_signature _ _ _ _ E). apply sign_filled in E. destruct E as (ss & st & h & F & _). assert (O := filled_only _ _ _ _ _ F).
    destruct (IH _ _ _ H) as (A & B & C). split; [|split].
    + intros [|n] v EV.
      * injection EV as <-. rewrite Nat.add_0_r. apply B; [lia|exact S1].
      * specialize (A n v EV). replace (i + S n)%nat with (S i + n)%nat by lia. exact A.
    + intros k v L S0. apply B; [lia|]. apply (signature_kept _ _ _ _ _ O); [lia|exact S0].
    + intros k L. destruct (C k ltac:(lia)) as [C1 C2]. rewrite C1, C2. rewrite (oi_inwit _ _ _ O k ltac:(lia)). split; [|reflexivity].
      destruct (nth_error (vin t) k) as [x|] eqn:EX.
      * destruct (only_in _ _ _ O k x EX) as (ss' & E' & Q). rewrite E', (Q ltac:(lia)). destruct x; reflexivity.
      * destruct (oi_in _ _ _ O) as (a & y & b & s0 & EA & LA & EB). rewrite EA in EX. rewrite EB. apply nth_error_None in EX. apply nth_error_None. rewrite app_length in *. cbn [length] in *. lia.
Qed.
End S.
