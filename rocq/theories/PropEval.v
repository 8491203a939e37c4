(** C97: evaluating what [repr] prints. *)
From Coq Require Import Strings.String Strings.Ascii ZArith Lia.
From Verif Require Import Base BaseFacts TxModel PrintModel SpecPrint PropText PropCodec PrintFacts PropPrint SpecEval.
Import ListNotations.
Local Open Scope string_scope.

Section Proofs.
Variable scripts : string -> bytes -> Prop.
Notation Ev := (Ev scripts).
Notation Args := (Args scripts).
Notation Arg := (Arg scripts).

Lemma ev_bytes b : Ev (bytes_repr b) (VBytes b).
Proof. apply Ev_x, unhex_b2x. Qed.
Lemma args_space t l : Args t l -> l <> [] -> Args (" " ++ t) l.
Proof.
  intros A N. destruct A as [|s a A|s a t l A B M]; [contradiction|apply A_last, A_space, A|].
  change (" " ++ s ++ "," ++ t) with ((" " ++ s) ++ "," ++ t). apply A_more; [apply A_space, A|exact B|exact M].
Qed.
Lemma args_cons s v t l : Ev s v -> Args t l -> l <> [] -> Args (s ++ ", " ++ t) (pos v :: l).
Proof. intros E A N. change (", " ++ t) with ("," ++ (" " ++ t)). apply A_more; [apply A_positional, E|apply args_space; assumption|exact N]. Qed.
Lemma args_one s v : Ev s v -> Args s [pos v].
Proof. intros E. apply A_last, A_positional, E. Qed.
Lemma args_join {A} (f : A -> string) (g : A -> pyval) l : (forall a, Ev (f a) (g a)) -> Args (join "," (map f l)) (map pos (map g l)).
Proof.
  intros E. induction l as [|a l IH]; [apply A_none|]. rewrite join_cons. destruct l as [|b l]; [rewrite app_nil_s; apply args_one, E|].
  cbn [map]. apply A_more; [apply A_positional, E|exact IH|discriminate].
Qed.
Lemma call f t l v s : Args t l -> Calls f l v -> s = f ++ "(" ++ t ++ ")" -> Ev s v.
Proof. intros A C ->. exact (Ev_call _ _ _ _ _ A C). Qed.
Ltac text := rewrite ?app_assoc_s; cbn [append]; rewrite ?app_assoc_s; reflexivity.
Lemma ev_list {A} (f : A -> string) (g : A -> pyval) l : (forall a, Ev (f a) (g a)) -> Ev ("[" ++ join "," (map f l) ++ "]") (VList (map g l)).
Proof. intros E. apply Ev_list, args_join, E. Qed.
Lemma ev_stack st : Ev (stack_repr st) (VStack st).
Proof. eapply call; [apply args_one, (ev_list bytes_repr VBytes st ev_bytes)|apply C_stack|]. unfold stack_repr. text. Qed.
Lemma ev_outwit m w : Ev (outwit_text m w) (VOutWit m w).
Proof.
  unfold outwit_text. destruct (outwit_is_null w) eqn:N.
  - rewrite (outwit_null_inv w N). eapply call; [apply A_none|apply C_no_outwit|destruct m; reflexivity].
  - destruct w as [s r]. cbn [ow_surj ow_range]. eapply call; [apply args_cons; [apply ev_bytes|apply args_one, ev_bytes|discriminate]|apply C_outwit|]. destruct m; unfold outwit_name, class; text.
Qed.
Lemma ev_inwit p m w : Ev (inwit_text p Repr m w) (VInWit m w).
Proof.
  unfold inwit_text. destruct (inwit_is_null w) eqn:N.
  - rewrite (inwit_null_inv w N). eapply call; [apply A_none|apply C_no_inwit|destruct m; reflexivity].
  - destruct w as [s a k g]. cbn [iw_script iw_issproof iw_keysproof iw_pegin stack_text].
    eapply call; [apply args_cons; [apply ev_stack|apply args_cons; [apply ev_bytes|apply args_cons; [apply ev_bytes|apply args_one, ev_stack|discriminate]|discriminate]|discriminate]|apply C_inwit|].
    destruct m; unfold inwit_name, class; text.
Qed.
Lemma ev_txwit p m w : Ev (txwit_text p Repr m w) (VTxWit m w).
Proof.
  destruct w as [i o]. unfold txwit_text. cbn [vtxinwit vtxoutwit].
  eapply call; [apply args_cons; [apply (ev_list (inwit_text p Repr m) (VInWit m) i), ev_inwit|apply args_one, (ev_list (outwit_text m) (VOutWit m) o), ev_outwit|discriminate]|apply C_txwit|].
  destruct m; unfold txwit_name, class; text.
Qed.
Lemma ev_field c x : conf_new c x = Ok x -> ~ (c = CConfAsset /\ conf_is_explicit c x = true) -> Ev (field c x) (VField c x).
Proof.
  intros N A. assert (B : body c x = bytes_repr x -> Ev (field c x) (VField c x)) by (unfold field; intros ->; eapply call; [apply args_one, ev_bytes|apply C_field, N|destruct c; reflexivity]).
  unfold field in *. destruct c; cbn [body] in *.
  - destruct (conf_is_explicit CConfAsset x) eqn:E; [exfalso; auto|auto].
  - destruct (to_amount x) as [v|] eqn:E; [|auto]. eapply call; [apply args_one, (Ev_decimal _ (decz v)), decz_literal|apply C_amount; rewrite literal_decz; apply C01_amount_unique, E|reflexivity].
  - auto.
Qed.
Lemma hexadecimal_acc d : forall p, hexadecimal (Zpos p) (HexadecimalString.NilEmpty.string_of_uint d) = Some (Zpos (Pos.of_hex_uint_acc d p)).
Proof.
  induction d; intros p; [reflexivity|..]; cbn [HexadecimalString.NilEmpty.string_of_uint hexadecimal Pos.of_hex_uint_acc]; rewrite <- IHd;
    match goal with |- context [digit_value ?c] => let n := eval compute in (digit_value c) in change (digit_value c) with n end; cbv iota; f_equal; lia.
Qed.
Lemma hexadecimal_uint d : hexadecimal 0 (HexadecimalString.NilEmpty.string_of_uint d) = Some (Z.of_N (Pos.of_hex_uint d)).
Proof. induction d; [reflexivity|exact IHd|..]; cbn [HexadecimalString.NilEmpty.string_of_uint Pos.of_hex_uint Z.of_N]; rewrite <- hexadecimal_acc; reflexivity. Qed.
Lemma ev_hexz z : (0 <= z)%Z -> Ev (hexz z) (VInt z).
Proof.
  intros P. rewrite hexz_ne. apply Ev_hexadecimal.
  - pose proof (hex_nonnil (Z.to_N z)) as N. destruct (N.to_hex_uint (Z.to_N z)); [contradiction|discriminate..].
  - rewrite hexadecimal_uint. f_equal. pose proof (HexadecimalN.Unsigned.of_to (Z.to_N z)) as R. unfold N.of_hex_uint in R. rewrite R. lia.
Qed.
Lemma ev_outpoint m o : blen (op_hash o) = 32%Z -> (0 <= op_n o < 2 ^ 32)%Z -> Ev (outpoint_repr m o) (VOutPoint m o).
Proof.
  intros L R. unfold outpoint_repr. destruct (outpoint_is_null o) eqn:N.
  - rewrite (outpoint_null_inv o) by (try exact N; unfold blen in L; lia). eapply call; [apply A_none|apply C_no_outpoint|destruct m; reflexivity].
  - destruct o as [h n]. cbn [op_hash op_n] in *.
    assert (EH : Ev ("lx('" ++ b2lx h ++ "')") (VBytes h)) by (rewrite <- (rev_involutive h) at 2; apply Ev_lx, unhex_b2x).
    assert (EN : Ev (decz n) (VInt n)) by (rewrite <- (literal_decz n) at 2; apply Ev_decimal, decz_literal).
    eapply call; [apply args_cons; [exact EH|apply args_one; exact EN|discriminate]|apply C_outpoint; assumption|]. destruct m; unfold outpoint_name, class; text.
Qed.

(** what a text that has a value begins with *)
Definition first (s : string) (c : ascii) : Prop := exists r, s = String c r.
Lemma first_app s c t : first s c -> first (s ++ t) c. Proof. intros [r ->]. exists (r ++ t). reflexivity. Qed.
Lemma first_inj s c d : first s c -> first s d -> c = d. Proof. intros [r ->] [q E]. injection E as E _. exact E. Qed.
Lemma bytes_first s b : Ev s (VBytes b) -> first s "x" \/ first s "l".
Proof. intros E. inversion E as [h b' _|h b' _| | | | | | |f t l v _ C]; subst; [left|right|]; try (eexists; reflexivity). inversion C. Qed.
Lemma uint_first s b : Ev s (VUint256 b) -> first s "U".
Proof. intros E. inversion E as [| | | | | | | |f t l v _ C]; subst. inversion C. eexists. reflexivity. Qed.
Lemma int_first s z : Ev s (VInt z) -> ~ first s "C".
Proof.
  intros E [r ->]. inversion E as [| |s L E1 E2|s z' _ _ E1| | | | |f t l v _ C]; subst; [discriminate L|inversion C].
Qed.
Lemma arg_first s v : Arg s (pos v) -> first s " " \/ Ev s v.
Proof. intros A. inversion A; subst; [left; eexists; reflexivity|right; assumption]. Qed.
Lemma args_first t a l : Args t (a :: l) -> exists s r, t = s ++ r /\ Arg s a.
Proof. intros A. inversion A; subst; [exists t, ""; rewrite app_nil_s; auto|eauto]. Qed.
Lemma args_nil t : Args t [] -> t = "".
Proof. intros A. inversion A. reflexivity. Qed.
Lemma args_single t v : Args t [pos v] -> first t " " \/ Ev t v.
Proof. intros A. inversion A as [|s a B|s a u l B C N]; subst; [apply arg_first, B|contradiction]. Qed.
Lemma call_inv f t t' : f ++ "(" ++ t ++ ")" = f ++ "(" ++ t' ++ ")" -> t = t'.
Proof. intros E. apply prefix_cancel in E. cbn [append] in E. apply Sinj in E. exact (proj1 (split_last ")" t t' "" "" eq_refl eq_refl E)). Qed.
Lemma shown_first x l : exists c, first (join ", " (map shown_text (x :: l))) c /\ (c = "x"%char \/ c = "C"%char).
Proof. rewrite join_cons. destruct x as [d|f]; cbn [shown_text]; eexists; (split; [apply first_app; eexists; reflexivity|auto]). Qed.
Lemma issuance_ev i j : Ev (issuance_repr i) (VIssuance j) <-> shown_list i = [] /\ j = mkIssuance zero256 zero256 [] [].
Proof.
  split.
  - intros E. unfold issuance_repr in E. inversion E as [| | | | | | | |f t l v A C Ef]; subst. inversion C as [| | | | | | | | | | | | | |n e v k l' -> q| |]; subst.
    change ("CAssetIssuance" ++ "(" ++ t ++ ")" = "CAssetIssuance" ++ "(" ++ join ", " (map shown_text (shown_list i)) ++ ")") in Ef. apply call_inv in Ef. subst t.
    destruct q as [|q].
    + split; [|reflexivity]. destruct (shown_list i) as [|x sl] eqn:ES; [reflexivity|]. exfalso. destruct (shown_first x sl) as (c & F & _). cbn [firstn] in A. apply args_nil in A. rewrite A in F. destruct F as [r F]. discriminate F.
    + exfalso. cbn [firstn] in A. destruct (args_first _ _ _ A) as (s & r & ET & B). destruct (shown_list i) as [|x sl].
      * cbn in ET. destruct (arg_first _ _ B) as [[u ->]|[u ->]%uint_first]; discriminate ET.
      * destruct (shown_first x sl) as (c & F & K). rewrite ET in F. destruct (arg_first _ _ B) as [G|G%uint_first]; apply (first_app _ _ r) in G; pose proof (first_inj _ _ _ F G); destruct K; subst; discriminate.
  - intros [S ->]. unfold issuance_repr. rewrite S. apply (call "CAssetIssuance" "" [] _ _ (A_none _)); [exact (C_issuance [] [] [] [] _ eq_refl 0)|reflexivity].
Qed.
End Proofs.

(** ** The theorems *)
(** Witnesses: all of them. *)
Theorem C97_witness : forall (scripts : string -> bytes -> Prop) p m, (forall w, Ev scripts (txwit_text p Repr m w) (VTxWit m w)) /\ (forall w, Ev scripts (inwit_text p Repr m w) (VInWit m w))
  /\ (forall w, Ev scripts (outwit_text m w) (VOutWit m w)).
Proof. intros. split; [intros; apply ev_txwit|]. split; intros; [apply ev_inwit|apply ev_outwit]. Qed.
(** Fields that the constructors make: all but explicit assets, whose text has no value. *)
Theorem C97_field : forall (scripts : string -> bytes -> Prop) p c x s, conf_new c x = Ok x -> conf_text p Repr c x = Ok s ->
  (~ (c = CConfAsset /\ conf_is_explicit c x = true) -> Ev scripts s (VField c x)) /\ (c = CConfAsset /\ conf_is_explicit c x = true -> forall d y, ~ Ev scripts s (VField d y)).
Proof.
  intros scripts p c x s N T. rewrite conf_repr in T. apply Ok_inj in T. subst s. split; [apply ev_field, N|]. intros [-> X] d y E. cbn [body] in E. rewrite X in E. cbn [conf_name] in E.
  inversion E as [| | | | | | | |f t l v A C Ef]; subst.
  assert (F : f = "CConfidentialAsset" -> t = "CAsset('" ++ b2lx (tl x) ++ "')") by (intros ->; apply (call_inv "CConfidentialAsset"); exact Ef).
  assert (NX : forall c', field_class c' ++ "(" ++ t ++ ")" = "CConfidentialAsset(" ++ asset_repr (tl x) ++ ")" -> c' = CConfAsset) by (intros [] Q; [reflexivity|discriminate Q..]).
  inversion C as [| |c' H1|c' b f' CN H1|z f' CN H1|a f' CN H1| | | | | | | | | | |]; subst f l.
  - rewrite (NX _ Ef) in F. specialize (F eq_refl). inversion A; subst; discriminate.
  - rewrite (NX _ Ef) in F. specialize (F eq_refl). subst t. apply args_single in A. destruct A as [[r A]|A]; [discriminate A|]. apply bytes_first in A. destruct A as [[r A]|[r A]]; discriminate A.
  - discriminate (NX CConfValue Ef).
  - specialize (F eq_refl). subst t. apply args_single in A. destruct A as [[r A]|A]; [discriminate A|]. inversion A as [| | | | | | | |g u l v B D Eg]; subst. inversion D; subst.
    change ("CAsset('" ++ b2lx (tl x) ++ "')") with ("CAsset" ++ "(" ++ ("'" ++ b2lx (tl x) ++ "')")) in Eg. cbn [append] in Eg. repeat apply Sinj in Eg.
    assert (FU : first u "'" \/ u = ""). { destruct u as [|k u]; [right; reflexivity|left]. cbn [append] in Eg. injection Eg as -> _. eexists. reflexivity. }
    apply args_single in B. destruct FU as [FU| ->].
    + destruct B as [B|B]; [discriminate (first_inj _ _ _ FU B)|]. apply bytes_first in B. destruct B as [B|B]; discriminate (first_inj _ _ _ FU B).
    + destruct B as [[r B]|B]; [discriminate B|]. apply bytes_first in B. destruct B as [[r B]|[r B]]; discriminate B.
Qed.
(** Issuances: exactly those that print as [CAssetIssuance()], as the ones that hold anything print bytes or amounts in the place of a Uint256. *)
Theorem C97_issuance : forall (scripts : string -> bytes -> Prop) p i s j, issuance_text p Repr i = Ok s -> (Ev scripts s (VIssuance j) <-> Shown i [] /\ j = mkIssuance zero256 zero256 [] []).
Proof. intros scripts p i s j T. rewrite issuance_repr_ok in T. apply Ok_inj in T. subst s. rewrite issuance_ev, Shown_iff. split; intros [A B]; auto. Qed.
(** Outpoints. *)
Theorem C97_outpoint : forall (scripts : string -> bytes -> Prop) p m o, blen (op_hash o) = 32%Z -> (0 <= op_n o < 2 ^ 32)%Z -> Ev scripts (outpoint_text p Repr m o) (VOutPoint m o).
Proof. intros. cbn [outpoint_text]. apply ev_outpoint; assumption. Qed.
(** Inputs without issuance. *)
Theorem C97_input : forall (scripts : string -> bytes -> Prop) p m i s, (forall b, scripts (p_script p b) b) -> blen (op_hash (prevout i)) = 32%Z -> (0 <= op_n (prevout i) < 2 ^ 32)%Z -> (0 <= nSequence i < 2 ^ 32)%Z ->
  assetIssuance i = mkIssuance zero256 zero256 [] [] -> txin_text p Repr m i = Ok s -> Ev scripts s (VTxIn m i).
Proof.
  intros scripts p m i s SC L R Q I T. destruct i as [o b q iss g]. cbn [prevout scriptSig nSequence assetIssuance is_pegin] in *. unfold txin_text in T. cbn [prevout scriptSig nSequence assetIssuance is_pegin] in T.
  rewrite issuance_repr_ok in T. cbn [rbind] in T. apply Ok_inj in T. subst s.
  assert (EI : Ev scripts (issuance_repr iss) (VIssuance iss)) by (apply issuance_ev; subst iss; split; reflexivity).
  assert (EG : Args scripts ("is_pegin=" ++ bool_repr g) [(Some "is_pegin", VBool g)]) by (apply A_last; change ("is_pegin=" ++ bool_repr g) with ("is_pegin" ++ "=" ++ bool_repr g); apply A_named; destruct g; [apply Ev_true|apply Ev_false]).
  eapply call; [apply args_cons; [apply (ev_outpoint scripts m o L R)|apply args_cons; [apply Ev_script, SC|apply args_cons; [apply ev_hexz, Q|apply args_cons; [exact EI|exact EG|discriminate]|discriminate]|discriminate]|discriminate]
    |apply C_txin; exact Q|].
  destruct m; unfold txin_name, class; cbn [outpoint_text]; rewrite ?app_assoc_s; cbn [append]; rewrite ?app_assoc_s; reflexivity.
Qed.
(** Outputs without explicit asset. *)
Theorem C97_output : forall (scripts : string -> bytes -> Prop) p m o s, (forall b, scripts (p_script p b) b) ->
  conf_new CConfValue (nValue o) = Ok (nValue o) -> conf_new CConfAsset (nAsset o) = Ok (nAsset o) -> conf_new CConfNonce (nNonce o) = Ok (nNonce o) -> conf_is_explicit CConfAsset (nAsset o) = false ->
  txout_text p Repr m o = Ok s -> Ev scripts s (VTxOut m o).
Proof.
  intros scripts p m o s SC NV NA NN X T. destruct o as [v b a n]. cbn [nValue scriptPubKey nAsset nNonce] in *. unfold txout_text in T. cbn [nValue scriptPubKey nAsset nNonce] in T.
  rewrite !conf_repr in T. cbn [rbind] in T. apply Ok_inj in T. subst s. fold (field CConfValue v) (field CConfAsset a) (field CConfNonce n).
  eapply call; [apply args_cons; [apply ev_field; [exact NV|intros [Y _]; discriminate Y]|apply args_cons; [apply Ev_script, SC|apply args_cons; [apply ev_field; [exact NA|intros [_ Y]; congruence]|
    apply args_one, ev_field; [exact NN|intros [Y _]; discriminate Y]|discriminate]|discriminate]|discriminate]|apply C_txout|].
  destruct m; unfold txout_name, class; rewrite ?app_assoc_s; cbn [append]; rewrite ?app_assoc_s; reflexivity.
Qed.

(** ** The claims on concrete objects *)
(** bitcointx: [CElementsScript(x('51'))] for a script that does not parse, and the like *)
Definition demo_scripts (s : string) (b : bytes) : Prop := s = p_script demo_printer b.
(** Of what [eval(repr(obj)) == obj] would say for all objects, this fails: an explicit asset, and so the asset of nearly every output; ... *)
Theorem C97_asset_refuted : exists x s, conf_new CConfAsset x = Ok x /\ conf_text demo_printer Repr CConfAsset x = Ok s /\ forall c y, ~ Ev demo_scripts s (VField c y).
Proof.
  exists (x01 :: repeat x05 32). eexists. assert (N : conf_new CConfAsset (x01 :: repeat x05 32) = Ok (x01 :: repeat x05 32)) by (vm_compute; reflexivity).
  split; [exact N|]. split; [reflexivity|]. apply (C97_field demo_scripts demo_printer CConfAsset (x01 :: repeat x05 32) _ N eq_refl). split; reflexivity.
Qed.
(** ... an issuance that issues anything ... *)
Theorem C97_issuance_refuted : exists i s, issuance_text demo_printer Repr i = Ok s /\ forall j, ~ Ev demo_scripts s (VIssuance j).
Proof.
  exists assets_only. eexists. split; [reflexivity|]. intros j E. apply (C97_issuance demo_scripts demo_printer assets_only _ j eq_refl) in E.
  destruct E as [S _]. apply Shown_iff in S. discriminate S.
Qed.

Example C97_ex1 : Ev demo_scripts
  "CElementsTxIn(CElementsOutPoint(lx('0707070707070707070707070707070707070707070707070707070707070707'), 1), CElementsScript(x('51')), 0xfffffffe, CAssetIssuance(), is_pegin=True)"
  (VTxIn false (mkTxIn (mkOutPoint (repeat x07 32) 1) [x51] 0xfffffffe (mkIssuance zero256 zero256 [] []) true)).
Proof. apply (C97_input demo_scripts demo_printer); try reflexivity; cbn; lia. Qed.
Example C97_ex2 : Ev demo_scripts "CElementsMutableTxOut(CConfidentialValue(5), CElementsScript(x('51')), CConfidentialAsset(x('')), CConfidentialNonce(x('')))"
  (VTxOut true (mkTxOut (x01 :: zeros 7 ++ [x05]) [x51] [] [])).
Proof. apply (C97_output demo_scripts demo_printer); reflexivity. Qed.
Example C97_ex3 : Ev demo_scripts
  "CElementsMutableTxWitness([CElementsMutableTxInWitness(CScriptWitness([x('01'),x('02')]), x(''), x(''), CScriptWitness([])),CElementsMutableTxInWitness()], [CElementsMutableTxOutWitness(x('ab'), x('cd'))])"
  (VTxWit true (mkTxWit [mkInWit [[x01]; [x02]] [] [] []; mkInWit [] [] [] []] [mkOutWit [xab] [xcd]])).
Proof. exact (proj1 (C97_witness demo_scripts demo_printer true) (mkTxWit [mkInWit [[x01]; [x02]] [] [] []; mkInWit [] [] [] []] [mkOutWit [xab] [xcd]])). Qed.
Example C97_ex4 : Ev demo_scripts "CConfidentialValue(-3)" (VField CConfValue (x01 :: repeat xff 7 ++ [xfd])).
Proof. refine (proj1 (C97_field demo_scripts demo_printer CConfValue (x01 :: repeat xff 7 ++ [xfd]) _ _ _) _); [vm_compute; reflexivity|vm_compute; reflexivity|intros [E _]; discriminate E]. Qed.

Print Assumptions C97_witness.
Print Assumptions C97_field.
Print Assumptions C97_issuance.
Print Assumptions C97_outpoint.
Print Assumptions C97_input.
Print Assumptions C97_output.
Print Assumptions C97_asset_refuted.
Print Assumptions C97_issuance_refuted.
