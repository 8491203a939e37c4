(** Structure of the strings accepted by [decode] and produced by [encode]. *)
From Coq Require Import ZArith List Bool Lia Ring.
From Verif Require Import Base BaseFacts GF32 CodeSearch CodeFacts Blech32Model SpecBits ConvertFacts Blech32Code.
Import ListNotations.
Local Open Scope Z_scope.

Lemma zl_eqb_eq a b : zl_eqb a b = true <-> a = b.
Proof.
  revert b. induction a as [|x a IH]; intros [|y b]; cbn; split; intros H; try discriminate; auto.
  - apply andb_prop in H. destruct H as [H1 H2]. apply Z.eqb_eq in H1. apply IH in H2. congruence.
  - injection H as -> ->. rewrite Z.eqb_refl. apply IH. reflexivity.
Qed.

(** Character of a symbol. *)
Definition chr (s : f32) : Z := nth (Z.to_nat (f32_z s)) charset 0.

Lemma charset_find_chr s : charset_find (chr s) = f32_z s.
Proof. destruct s; vm_compute; reflexivity. Qed.

Lemma in_charset_chr s : in_charset (chr s) = true.
Proof. destruct s; vm_compute; reflexivity. Qed.

Lemma in_charset_inv c : in_charset c = true -> exists s, c = chr s.
Proof.
  unfold in_charset. intros H. apply existsb_exists in H. destruct H as (x & Hin & E).
  apply Z.eqb_eq in E. subst x.
  assert (Hc : charset = map chr all32) by reflexivity.
  rewrite Hc in Hin. apply in_map_iff in Hin. destruct Hin as (s & E & _). exists s. auto.
Qed.

Lemma in_charset_map l : forallb in_charset l = true -> exists syms, l = map chr syms.
Proof.
  induction l as [|c l IH]; intros H; [exists []; reflexivity|].
  cbn [forallb] in H. apply andb_prop in H. destruct H as [H1 H2].
  destruct (in_charset_inv _ H1) as [s ->]. destruct (IH H2) as [syms ->].
  exists (s :: syms). reflexivity.
Qed.

Lemma forallb_chr l : forallb in_charset (map chr l) = true.
Proof. induction l; [reflexivity|]. cbn [map forallb]. rewrite in_charset_chr. assumption. Qed.

Lemma map_find_chr l : map charset_find (map chr l) = map f32_z l.
Proof. rewrite map_map. apply map_ext. intros a. apply charset_find_chr. Qed.

Lemma chr_inj a b : chr a = chr b -> a = b.
Proof. intros H. apply f32_z_inj. rewrite <- !charset_find_chr, H. reflexivity. Qed.

Lemma map_chr_inj a b : map chr a = map chr b -> a = b.
Proof.
  revert b. induction a; intros [|y b] H; try discriminate H; [reflexivity|].
  cbn in H. injection H as H1 H2. apply chr_inj in H1. f_equal; auto.
Qed.

Lemma chr_not_sep l : ~ In 49 (map chr l).
Proof. rewrite in_map_iff. intros (s & E & _). destruct s; discriminate E. Qed.

Lemma charset_at_f32 s : charset_at (f32_z s) = Ok (chr s).
Proof. destruct s; vm_compute; reflexivity. Qed.

Lemma rmap_charset l : rmap charset_at (map f32_z l) = Ok (map chr l).
Proof. induction l; [reflexivity|]. cbn [map rmap]. rewrite charset_at_f32. cbn [rbind]. rewrite IHl. reflexivity. Qed.

Lemma words5_f32 l : words 5 l -> exists syms, l = map f32_z syms.
Proof.
  induction 1 as [|z l Hz H IH]; [exists []; reflexivity|].
  destruct IH as [syms ->]. exists (f32_of z :: syms). cbn [map]. rewrite f32_z_of; [reflexivity|].
  change (2 ^ Z.of_nat 5) with 32 in Hz. assumption.
Qed.

Lemma f32_words5 l : words 5 (map f32_z l).
Proof. unfold words. rewrite Forall_map. apply Forall_forall. intros s _. apply f32_z_range. Qed.

Lemma map_f32_z_inj a b : map f32_z a = map f32_z b -> a = b.
Proof.
  revert b. induction a; intros [|y b] H; try discriminate H; [reflexivity|].
  cbn in H. injection H as H1 H2. apply f32_z_inj in H1. f_equal; auto.
Qed.

(** ** Case *)

Definition printable (s : pystr) : Prop := Forall (fun c => 33 <= c <= 126) s.
Definition no_upper (s : pystr) : Prop := Forall (fun c => ~ (65 <= c <= 90)) s.

Lemma lower_c_chr s : lower_c (chr s) = chr s.
Proof. destruct s; reflexivity. Qed.

Lemma lower_length s : length (lower s) = length s. Proof. apply map_length. Qed.
Lemma upper_length s : length (upper s) = length s. Proof. apply map_length. Qed.

Lemma lower_c_idem c : lower_c (lower_c c) = lower_c c.
Proof. unfold lower_c. destruct (65 <=? c) eqn:E1, (c <=? 90) eqn:E2; cbn [andb]; rewrite ?E1, ?E2; cbn [andb]; auto.
  assert ((65 <=? c + 32) && (c + 32 <=? 90) = false) as -> by lia. reflexivity. Qed.

Lemma lower_idem s : lower (lower s) = lower s.
Proof. unfold lower. rewrite map_map. apply map_ext. apply lower_c_idem. Qed.

Lemma lower_app a b : lower (a ++ b) = lower a ++ lower b. Proof. apply map_app. Qed.

Lemma lower_map_chr l : lower (map chr l) = map chr l.
Proof. unfold lower. rewrite map_map. apply map_ext. apply lower_c_chr. Qed.

Lemma lower_no_upper s : no_upper s <-> lower s = s.
Proof.
  unfold no_upper, lower. split.
  - induction 1; [reflexivity|]. cbn [map]. rewrite IHForall. f_equal.
    unfold lower_c. destruct ((65 <=? x) && (x <=? 90)) eqn:E; [exfalso; lia|reflexivity].
  - induction s; intros H; [constructor|]. cbn [map] in H. injection H as H1 H2.
    constructor; [|auto]. intros Hc. unfold lower_c in H1.
    assert ((65 <=? a) && (a <=? 90) = true) as E by lia. rewrite E in H1. lia.
Qed.

Lemma lower_upper s : printable s -> lower (upper s) = lower s.
Proof.
  intros H. unfold lower, upper. rewrite map_map. apply map_ext_in. intros c _.
  unfold lower_c, upper_c.
  destruct ((97 <=? c) && (c <=? 122)) eqn:E1.
  - assert ((65 <=? c - 32) && (c - 32 <=? 90) = true) as -> by lia.
    assert ((65 <=? c) && (c <=? 90) = false) as -> by lia. lia.
  - reflexivity.
Qed.

Lemma upper_upper s : upper (upper s) = upper s.
Proof.
  unfold upper. rewrite map_map. apply map_ext. intros c. unfold upper_c.
  destruct ((97 <=? c) && (c <=? 122)) eqn:E1; [|rewrite E1; reflexivity].
  assert ((97 <=? c - 32) && (c - 32 <=? 122) = false) as -> by lia. reflexivity.
Qed.

Lemma printable_lower s : printable s -> printable (lower s).
Proof.
  unfold printable, lower. intros H. rewrite Forall_map. eapply Forall_impl; [|exact H].
  intros c Hc. cbv beta in *. unfold lower_c. destruct ((65 <=? c) && (c <=? 90)) eqn:E; lia.
Qed.

Lemma printable_upper s : printable s -> printable (upper s).
Proof.
  unfold printable, upper. intros H. rewrite Forall_map. eapply Forall_impl; [|exact H].
  intros c Hc. cbv beta in *. unfold upper_c. destruct ((97 <=? c) && (c <=? 122)) eqn:E; lia.
Qed.

Lemma printable_lower_inv s : printable (lower s) -> printable s.
Proof.
  unfold printable, lower. rewrite Forall_map. intros H. eapply Forall_impl; [|exact H].
  intros c Hc. cbv beta in *. unfold lower_c in Hc. destruct ((65 <=? c) && (c <=? 90)) eqn:E; lia.
Qed.

Lemma printable_chr l : printable (map chr l).
Proof.
  unfold printable. rewrite Forall_map. apply Forall_forall. intros s _.
  destruct s; vm_compute; split; congruence.
Qed.

Lemma not_printable s : existsb (fun x => (x <? 33) || (x >? 126)) s = false <-> printable s.
Proof.
  unfold printable. induction s as [|c s IH]; cbn [existsb]; [split; [constructor|reflexivity]|].
  rewrite orb_false_iff, IH. split.
  - intros [H1 H2]. constructor; [lia|assumption].
  - intros H. inversion H; subst. split; [lia|assumption].
Qed.

(** ** The separator *)

Lemma rfind1_from_notin s : forall i f, ~ In 49 s -> rfind1_from s i f = f.
Proof.
  induction s as [|c s IH]; intros i f H; [reflexivity|]. cbn [rfind1_from].
  destruct (Z.eqb_spec c 49); [exfalso; apply H; left; assumption|].
  apply IH. intros Hin. apply H. right. assumption.
Qed.

Lemma rfind1_from_app a b : forall i f, ~ In 49 b ->
  rfind1_from (a ++ 49 :: b) i f = i + Z.of_nat (length a).
Proof.
  induction a as [|c a IH]; intros i f H.
  - cbn [app rfind1_from length]. rewrite Z.eqb_refl, rfind1_from_notin by assumption. lia.
  - cbn [app rfind1_from length]. rewrite IH by assumption. lia.
Qed.

Lemma rfind1_app a b : ~ In 49 b -> rfind1 (a ++ 49 :: b) = Z.of_nat (length a).
Proof. intros H. unfold rfind1. rewrite rfind1_from_app by assumption. lia. Qed.

Lemma rfind1_inv s : 0 <= rfind1 s ->
  exists a b, s = a ++ 49 :: b /\ ~ In 49 b /\ rfind1 s = Z.of_nat (length a).
Proof.
  intros H.
  assert (D : In 49 s \/ ~ In 49 s) by (destruct (in_dec Z.eq_dec 49 s); tauto).
  destruct D as [D|D].
  - assert (exists a b, s = a ++ 49 :: b /\ ~ In 49 b) as (a & b & -> & Hb).
    { clear H. induction s as [|c s IH] using rev_ind; [destruct D|].
      destruct (Z.eq_dec c 49) as [->|Hne].
      - exists s, []. split; [reflexivity|intros []].
      - apply in_app_or in D. destruct D as [D|D].
        + destruct (IH D) as (a & b & -> & Hb). exists a, (b ++ [c]). split.
          * rewrite <- app_assoc. reflexivity.
          * intros Hin. apply in_app_or in Hin. destruct Hin as [|[|[]]]; tauto.
        + destruct D as [D|[]]; congruence. }
    exists a, b. split; [reflexivity|]. split; [assumption|]. apply rfind1_app. assumption.
  - unfold rfind1 in H. rewrite rfind1_from_notin in H by assumption. lia.
Qed.

(** ** [blech32_decode] *)

Definition const_of (enc : encoding) : Z :=
  match enc with BECH32 => BECH32_CONST | BECH32M => BECH32M_CONST end.

Lemma verify_spec h d enc :
  blech32_verify_checksum h d = Some enc <-> blech32_polymod (blech32_hrp_expand h ++ d) = const_of enc.
Proof.
  unfold blech32_verify_checksum. cbv zeta.
  destruct (Z.eqb_spec (blech32_polymod (blech32_hrp_expand h ++ d)) BECH32_CONST) as [E|E].
  - rewrite E. destruct enc; split; intros H; try discriminate; reflexivity.
  - destruct (Z.eqb_spec (blech32_polymod (blech32_hrp_expand h ++ d)) BECH32M_CONST) as [E2|E2].
    + rewrite E2. destruct enc; split; intros H; try discriminate; reflexivity.
    + destruct enc; split; intros H; try discriminate; contradiction.
Qed.

Lemma blech32_decode_spec s enc h d :
  blech32_decode s = Some (enc, h, d) <->
  printable s /\ (lower s = s \/ upper s = s) /\ h <> [] /\ Z.of_nat (length s) <= 1000 /\
  exists syms chk,
    length chk = 12%nat /\ lower s = h ++ 49 :: map chr (syms ++ chk) /\ d = map f32_z syms /\
    blech32_polymod (blech32_hrp_expand h ++ map f32_z (syms ++ chk)) = const_of enc.
Proof.
  unfold blech32_decode. split.
  - intros H.
    destruct (existsb _ s) eqn:Ep; [discriminate|]. apply not_printable in Ep. cbn [orb] in H.
    destruct (negb (zl_eqb (lower s) s) && negb (zl_eqb (upper s) s)) eqn:Ec; [discriminate|].
    cbv zeta in H. rewrite lower_length in H.
    destruct ((rfind1 (lower s) <? 1) || _ || _) eqn:El; [discriminate|].
    apply orb_false_iff in El. destruct El as [El El3]. apply orb_false_iff in El. destruct El as [El1 El2].
    destruct (rfind1_inv (lower s)) as (a & b & E & Hb & Er); [lia|].
    rewrite E in H.
    assert (Hsk : skipn (Z.to_nat (Z.of_nat (length a) + 1)) (a ++ 49 :: b) = b).
    { replace (Z.to_nat (Z.of_nat (length a) + 1)) with (length (a ++ [49])) by (rewrite app_length; cbn; lia).
      change (49 :: b) with ([49] ++ b). rewrite app_assoc. apply skipn_len_app. }
    assert (Hfi : firstn (Z.to_nat (Z.of_nat (length a))) (a ++ 49 :: b) = a)
      by (rewrite Nat2Z.id; apply firstn_len_app).
    assert (Hr2 : rfind1 (a ++ 49 :: b) = Z.of_nat (length a)) by (apply rfind1_app; assumption).
    rewrite Hr2, Hsk, Hfi in H.
    destruct (forallb in_charset b) eqn:Eb; [|discriminate]. cbn [negb] in H.
    destruct (in_charset_map b Eb) as [all ->].
    rewrite map_find_chr in H.
    destruct (blech32_verify_checksum a (map f32_z all)) as [enc'|] eqn:Ev; [|discriminate].
    injection H as -> -> <-.
    apply verify_spec in Ev.
    assert (HL : (12 <= length all)%nat).
    { pose proof (f_equal (@length _) E) as HL. rewrite lower_length, app_length in HL. cbn [length] in HL.
      rewrite map_length in HL. lia. }
    split; [assumption|]. split.
    { apply andb_false_iff in Ec. destruct Ec as [Ec|Ec]; apply negb_false_iff in Ec; apply zl_eqb_eq in Ec; auto. }
    split; [intros ->; cbn [length] in Er; lia|]. split; [lia|].
    exists (firstn (length all - 12) all), (skipn (length all - 12) all).
    rewrite firstn_skipn. split; [rewrite skipn_length; lia|]. split; [assumption|].
    split; [|assumption]. rewrite map_length. apply firstn_map.
  - intros (Hp & Hc & Hh & Hlen & syms & chk & Hk & E & -> & Ev).
    apply not_printable in Hp. rewrite Hp. cbn [orb].
    assert (negb (zl_eqb (lower s) s) && negb (zl_eqb (upper s) s) = false) as ->.
    { destruct Hc as [Hc|Hc]; apply zl_eqb_eq in Hc; rewrite Hc; [reflexivity|apply andb_false_r]. }
    cbv zeta. rewrite lower_length, E.
    rewrite rfind1_app by apply chr_not_sep.
    assert (HLs : Z.of_nat (length s) = Z.of_nat (length h) + 1 + Z.of_nat (length syms) + 12).
    { rewrite <- lower_length, E, app_length. cbn [length]. rewrite map_length, app_length. lia. }
    assert (0 < length h)%nat by (destruct h; [contradiction|cbn; lia]).
    assert ((Z.of_nat (length h) <? 1) || (Z.of_nat (length h) + 13 >? Z.of_nat (length s))
            || (Z.of_nat (length s) >? 1000) = false) as -> by lia.
    assert (Hsk : skipn (Z.to_nat (Z.of_nat (length h) + 1)) (h ++ 49 :: map chr (syms ++ chk)) = map chr (syms ++ chk)).
    { replace (Z.to_nat (Z.of_nat (length h) + 1)) with (length (h ++ [49])) by (rewrite app_length; cbn; lia).
      change (49 :: map chr (syms ++ chk)) with ([49] ++ map chr (syms ++ chk)). rewrite app_assoc. apply skipn_len_app. }
    rewrite Hsk, Nat2Z.id, firstn_len_app, forallb_chr, map_find_chr. cbn [negb].
    apply verify_spec in Ev. rewrite Ev. repeat f_equal.
    rewrite map_length, app_length, Hk, Nat.add_sub, map_app.
    rewrite <- (map_length f32_z syms). apply firstn_len_app.
Qed.

(** ** [decode] *)

Definition enc_of (v : Z) : encoding := if v =? 0 then BECH32 else BECH32M.

Definition prog_ok (v : Z) (p : bytes) : Prop :=
  0 <= v <= 16 /\ 2 <= blen p <= 73 /\ (v = 0 -> blen p = 53 \/ blen p = 65).

Lemma bytes_of_words l : words 8 l -> bytes_of_list l = Ok (map zb l) /\ map bz (map zb l) = l.
Proof.
  intros H. unfold bytes_of_list. split.
  - assert (forallb (fun z => (0 <=? z) && (z <? 256)) l = true) as ->; [|reflexivity].
    apply forallb_forall. intros z Hz. unfold words in H. rewrite Forall_forall in H.
    specialize (H z Hz). change (2 ^ Z.of_nat 8) with 256 in H. lia.
  - rewrite map_map. rewrite <- (map_id l) at 2. apply map_ext_in. intros z Hz.
    unfold words in H. rewrite Forall_forall in H. specialize (H z Hz).
    change (2 ^ Z.of_nat 8) with 256 in H. rewrite bz_zb. apply Z.mod_small. lia.
Qed.

Lemma decode_spec hrp s v p :
  decode hrp s = Ok (Some (v, p)) <->
  prog_ok v p /\
  printable s /\ (lower s = s \/ upper s = s) /\ hrp <> [] /\ Z.of_nat (length s) <= 1000 /\
  exists v5 syms chk,
    v = f32_z v5 /\ convertbits (map bz p) 8 5 true = Some (map f32_z syms) /\
    length chk = 12%nat /\ lower s = hrp ++ 49 :: map chr (v5 :: syms ++ chk) /\
    blech32_polymod (blech32_hrp_expand hrp ++ map f32_z (v5 :: syms ++ chk)) = const_of (enc_of v).
Proof.
  unfold decode. split.
  - intros H. destruct (blech32_decode s) as [[[enc h] d]|] eqn:Ed; [|discriminate].
    destruct (zl_eqb h hrp) eqn:Eh; [|discriminate]. cbn [negb] in H. apply zl_eqb_eq in Eh. subst h.
    apply blech32_decode_spec in Ed.
    destruct Ed as (Hp & Hc & Hh & Hlen & all & chk & Hk & E & -> & Ev).
    destruct (convertbits (skipn 1 (map f32_z all)) 5 8 false) as [dec|] eqn:Ecv; [|discriminate].
    cbv zeta in H.
    destruct ((Z.of_nat (length dec) <? 2) || (Z.of_nat (length dec) >? 40 + 33)) eqn:El; [discriminate|].
    destruct all as [|v5 syms]; [cbn [map rbind] in H; discriminate|].
    cbn [map rbind skipn] in *.
    destruct (pad_of_strict _ _ Ecv) as [Hw8 Hpad].
    destruct (bytes_of_words _ Hw8) as [Hb Hbz].
    destruct (f32_z v5 >? 16) eqn:E16; [discriminate|].
    destruct ((f32_z v5 =? 0) && negb (Z.of_nat (length dec) =? 20 + 33) && negb (Z.of_nat (length dec) =? 32 + 33)) eqn:E0; [discriminate|].
    destruct ((f32_z v5 =? 0) && negb (encoding_eqb enc BECH32) || negb (f32_z v5 =? 0) && negb (encoding_eqb enc BECH32M)) eqn:Ee; [discriminate|].
    rewrite Hb in H. cbn [rbind] in H. apply Ok_inj in H.
    assert (v = f32_z v5) by congruence. assert (p = map zb dec) by congruence. subst v p.
    assert (Henc : enc = enc_of (f32_z v5)).
    { unfold enc_of. destruct (f32_z v5 =? 0) eqn:Ez; destruct enc; cbn in Ee; congruence. }
    subst enc. pose proof (f32_z_range v5).
    split.
    { unfold prog_ok, blen. rewrite map_length. split; [lia|]. split; [lia|].
      intros Hz. rewrite Hz in E0. cbn in E0. lia. }
    split; [assumption|]. split; [assumption|]. split; [assumption|]. split; [assumption|].
    exists v5, syms, chk. split; [reflexivity|]. rewrite Hbz. split; [assumption|].
    split; [assumption|]. split; assumption.
  - intros (Hok & Hp & Hc & Hh & Hlen & v5 & syms & chk & Hv & Hcv & Hk & E & Ev).
    assert (Ed : blech32_decode s = Some (enc_of v, hrp, map f32_z (v5 :: syms))).
    { apply blech32_decode_spec. split; [assumption|]. split; [assumption|]. split; [assumption|].
      split; [assumption|]. exists (v5 :: syms), chk.
      split; [assumption|]. split; [assumption|]. split; [reflexivity|assumption]. }
    rewrite Ed. assert (zl_eqb hrp hrp = true) as -> by (apply zl_eqb_eq; reflexivity). cbn [negb].
    cbn [map skipn]. rewrite (strict_of_pad _ _ Hcv). cbv zeta.
    destruct Hok as (Hv16 & Hpl & Hp0). unfold blen in *. rewrite map_length.
    assert ((Z.of_nat (length p) <? 2) || (Z.of_nat (length p) >? 40 + 33) = false) as -> by lia.
    cbn [rbind]. rewrite <- Hv.
    assert (v >? 16 = false) as -> by lia.
    assert ((v =? 0) && negb (Z.of_nat (length p) =? 20 + 33) && negb (Z.of_nat (length p) =? 32 + 33) = false) as ->.
    { destruct (Z.eqb_spec v 0) as [Hz|]; [|reflexivity]. specialize (Hp0 Hz). cbn [andb].
      destruct Hp0 as [-> | ->]; reflexivity. }
    unfold enc_of. destruct (Z.eqb_spec v 0); cbn [negb andb orb encoding_eqb];
      destruct (bytes_of_words _ (words8_bz p)) as [-> _]; cbn [rbind];
      rewrite map_map; rewrite (map_ext _ (fun b => b) zb_bz), map_id; reflexivity.
Qed.

(** [decode] never raises. *)
Lemma decode_total hrp s : exists r, decode hrp s = Ok r.
Proof.
  unfold decode. destruct (blech32_decode s) as [[[enc h] d]|]; [|eexists; reflexivity].
  destruct (negb (zl_eqb h hrp)); [eexists; reflexivity|].
  destruct (convertbits (skipn 1 d) 5 8 false) as [dec|] eqn:Ecv; [|eexists; reflexivity].
  cbv zeta.
  destruct ((Z.of_nat (length dec) <? 2) || (Z.of_nat (length dec) >? 40 + 33)) eqn:El; [eexists; reflexivity|].
  destruct d as [|d0 d].
  - exfalso. vm_compute in Ecv. injection Ecv as <-. discriminate El.
  - cbn [rbind]. destruct (d0 >? 16); [eexists; reflexivity|].
    destruct ((d0 =? 0) && _ && _); [eexists; reflexivity|].
    destruct ((d0 =? 0) && _ || _); [eexists; reflexivity|].
    destruct (pad_of_strict _ _ Ecv) as [Hw8 _].
    destruct (bytes_of_words _ Hw8) as [-> _]. eexists; reflexivity.
Qed.

Lemma decode_none_or hrp s : decode hrp s = Ok None \/ exists v p, decode hrp s = Ok (Some (v, p)).
Proof.
  destruct (decode_total hrp s) as [[[v p]|] E]; [right; eauto|left; assumption].
Qed.

(** ** Checksum creation *)

Ltac xor_bits :=
  apply Z.bits_inj'; intros ? _; rewrite ?Z.lxor_spec, ?Z.bits_0;
  repeat match goal with |- context [Z.testbit ?a ?i] => destruct (Z.testbit a i) end; reflexivity.

Lemma polymod_gen_top gens : forall i a b, 0 <= i ->
  polymod_gen gens (Z.lxor a b) i 0 = Z.lxor (polymod_gen gens a i 0) (polymod_gen gens b i 0).
Proof.
  induction gens as [|g gens IH]; intros i a b Hi; [reflexivity|].
  cbn [polymod_gen]. rewrite !(polymod_gen_lxor gens _ (i + 1) (Z.lxor 0 _)), IH by lia.
  rewrite !Z.lxor_0_l.
  assert (Hbit : forall t, Z.land (Z.shiftr t i) 1 = Z.b2z (Z.testbit t i)).
  { intros t. change 1 with (Z.ones 1) at 1. rewrite Z.land_ones by lia. change (2 ^ 1) with 2.
    rewrite <- Z.bit0_mod, Z.shiftr_spec, Z.add_0_l by lia. reflexivity. }
  rewrite !Hbit, Z.lxor_spec.
  set (x := polymod_gen gens a (i + 1) 0). set (y := polymod_gen gens b (i + 1) 0).
  destruct (Z.testbit a i), (Z.testbit b i); cbn [xorb Z.b2z Z.eqb]; xor_bits.
Qed.

Lemma land_lxor_distr a b m : Z.land (Z.lxor a b) m = Z.lxor (Z.land a m) (Z.land b m).
Proof.
  apply Z.bits_inj'. intros i Hi. rewrite !Z.land_spec, !Z.lxor_spec, !Z.land_spec.
  destruct (Z.testbit a i), (Z.testbit b i), (Z.testbit m i); reflexivity.
Qed.

Lemma lxor_mid a b c d : Z.lxor (Z.lxor a b) (Z.lxor c d) = Z.lxor (Z.lxor a c) (Z.lxor b d).
Proof.
  rewrite !Z.lxor_assoc. f_equal. rewrite <- !Z.lxor_assoc. f_equal. apply Z.lxor_comm.
Qed.

(** The checksum step is linear over all integers. *)
Lemma polymod_step_lxor a b u w :
  polymod_step (Z.lxor a b) (Z.lxor u w) = Z.lxor (polymod_step a u) (polymod_step b w).
Proof.
  unfold polymod_step. cbv zeta.
  rewrite Z.shiftr_lxor, land_lxor_distr, Z.shiftl_lxor.
  rewrite (polymod_gen_lxor _ _ _ (Z.lxor (Z.lxor _ _) _)), polymod_gen_top by lia.
  rewrite (polymod_gen_lxor _ (Z.shiftr a 55) 0 (Z.lxor _ u)), (polymod_gen_lxor _ (Z.shiftr b 55) 0 (Z.lxor _ w)).
  rewrite (lxor_mid _ _ u w), lxor_mid. reflexivity.
Qed.

Fixpoint zl_xor (a b : list Z) : list Z :=
  match a, b with x :: a', y :: b' => Z.lxor x y :: zl_xor a' b' | _, _ => [] end.

Lemma polymod_fold_lxor vs : forall ws a b, length vs = length ws ->
  fold_left polymod_step (zl_xor vs ws) (Z.lxor a b)
  = Z.lxor (fold_left polymod_step vs a) (fold_left polymod_step ws b).
Proof.
  induction vs as [|v vs IH]; intros [|w ws] a b HL; try discriminate HL; [reflexivity|].
  cbn [zl_xor fold_left]. rewrite polymod_step_lxor. apply IH. simpl in HL; congruence.
Qed.

Lemma symrun_12 chk : length chk = 12%nat -> symrun (vz 12) chk = chk.
Proof.
  intros H. do 12 (destruct chk as [|? chk]; [discriminate H|]). destruct chk; [|discriminate H].
  unfold symrun, symstep, vz. cbn [fold_left tl hd repeat app vscale gcoef vadd f32_mul].
  rewrite !f32_add_0_r. reflexivity.
Qed.

(** Values 0..2^60-1 as 12 symbols. *)
Definition unpack (z : Z) : vec := map (fun i => f32_of (Z.land (Z.shiftr z (5 * (11 - i))) 31)) range12.

Lemma pack_testbit l i : 0 <= i -> 
  Z.testbit (pack l) i =
  Z.testbit (f32_z (nth (length l - 1 - Z.to_nat (i / 5)) l F0)) (i mod 5)
  && (i <? 5 * Z.of_nat (length l)).
Proof.
  revert i. induction l as [|s l IH]; intros i Hi.
  - cbn [pack length]. rewrite Z.bits_0. symmetry. apply andb_false_iff. right. lia.
  - cbn [pack length]. rewrite block_lxor by (try lia; apply pack_range).
    rewrite Z.lxor_spec, Z.shiftl_spec by lia.
    pose proof (pack_range l) as Hr. pose proof (f32_z_range s) as Hs.
    destruct (Z_lt_le_dec i (5 * Z.of_nat (length l))) as [Hlt|Hge].
    + rewrite Z.testbit_neg_r by lia. rewrite xorb_false_l, IH by lia.
      replace (S (length l) - 1 - Z.to_nat (i / 5))%nat with (S (length l - 1 - Z.to_nat (i / 5)))%nat by lia.
      cbn [nth]. f_equal.
      assert (i <? 5 * Z.of_nat (length l) = true) as -> by lia. symmetry. apply Z.ltb_lt. lia.
    + rewrite (testbit_high (pack l) _ i Hr) by lia. rewrite xorb_false_r.
      destruct (Z_lt_le_dec i (5 * Z.of_nat (S (length l)))) as [Hlt2|Hge2].
      * replace (S (length l) - 1 - Z.to_nat (i / 5))%nat with 0%nat by lia. cbn [nth].
        replace (i - 5 * Z.of_nat (length l)) with (i mod 5) by lia.
        assert (i <? 5 * Z.of_nat (S (length l)) = true) as -> by lia. rewrite andb_true_r. reflexivity.
      * rewrite (testbit_high (f32_z s) 5) by (change (2 ^ 5) with 32; lia).
        symmetry. apply andb_false_iff. right. lia.
Qed.

Lemma unpack_length z : length (unpack z) = 12%nat. Proof. reflexivity. Qed.

Lemma unpack_z z :
  map (fun i => Z.land (Z.shiftr z (5 * (11 - i))) 31) range12 = map f32_z (unpack z).
Proof.
  unfold unpack. rewrite map_map. apply map_ext. intros i. symmetry. apply f32_z_of.
  change 31 with (Z.ones 5). rewrite Z.land_ones by lia.
  pose proof (Z.mod_pos_bound (Z.shiftr z (5 * (11 - i))) (2 ^ 5)). lia.
Qed.

Lemma pack_unpack z : 0 <= z < 2 ^ 60 -> pack (unpack z) = z.
Proof.
  intros Hz. apply Z.bits_inj'. intros i Hi. rewrite pack_testbit by lia.
  rewrite unpack_length. change (5 * Z.of_nat 12) with 60.
  destruct (Z.ltb_spec i 60) as [Hlt|Hge].
  - rewrite andb_true_r.
    assert (Hnth : forall j, (j < 12)%nat -> f32_z (nth (12 - 1 - j) (unpack z) F0) = Z.land (Z.shiftr z (5 * Z.of_nat j)) 31).
    { intros j Hj.
      assert (Hm : forall n, (n < 12)%nat -> nth n (unpack z) F0 = f32_of (Z.land (Z.shiftr z (5 * (11 - Z.of_nat n))) 31)).
      { intros n Hn. do 12 (destruct n as [|n]; [reflexivity|]). lia. }
      rewrite Hm by lia.
      replace (11 - Z.of_nat (12 - 1 - j)) with (Z.of_nat j) by lia.
      apply f32_z_of. change 31 with (Z.ones 5). rewrite Z.land_ones by lia.
      pose proof (Z.mod_pos_bound (Z.shiftr z (5 * Z.of_nat j)) (2 ^ 5)). lia. }
    rewrite Hnth by lia. rewrite Z.land_spec, Z.shiftr_spec by lia.
    change 31 with (Z.ones 5). rewrite Z.ones_spec_low by lia. rewrite andb_true_r. f_equal. lia.
  - rewrite andb_false_r. symmetry. apply (testbit_high z 60); lia.
Qed.

Lemma pack_unpack_pack l : length l = 12%nat -> unpack (pack l) = l.
Proof.
  intros H. pose proof (pack_range l) as R. rewrite H in R. change (5 * Z.of_nat 12) with 60 in R.
  apply pack_inj; [rewrite unpack_length; auto|]. apply pack_unpack. assumption.
Qed.

(** Appending symbols: the checksum of the values followed by [chk] is the
    checksum of the values followed by zeros, xor the packed [chk]. *)
Lemma zl_xor_zero_l l : zl_xor (repeat 0 (length l)) l = l.
Proof. induction l; [reflexivity|]. cbn [length repeat zl_xor]. rewrite IHl, Z.lxor_0_l. reflexivity. Qed.

Lemma polymod_app_chk values chk : length chk = 12%nat ->
  blech32_polymod (values ++ map f32_z chk)
  = Z.lxor (blech32_polymod (values ++ repeat 0 12)) (pack chk).
Proof.
  intros H. unfold blech32_polymod. rewrite !fold_left_app.
  set (st := fold_left polymod_step values 1).
  rewrite <- (Z.lxor_0_r st) at 1.
  rewrite <- (zl_xor_zero_l (map f32_z chk)) at 1. rewrite map_length, H.
  rewrite polymod_fold_lxor by (rewrite map_length, H; reflexivity).
  f_equal. change 0 with (pack (vz 12)). rewrite polymod_sym by reflexivity.
  rewrite symrun_12 by assumption. reflexivity.
Qed.

Lemma polymod_step_range chk v : 0 <= v < 32 -> 0 <= polymod_step chk v < 2 ^ 60.
Proof.
  intros Hv. unfold polymod_step. cbv zeta. rewrite polymod_gen_lxor.
  apply lxor_lt; [lia| |].
  - apply lxor_lt; [lia| |lia].
    change 0x7fffffffffffff with (Z.ones 55). rewrite Z.land_ones by lia.
    pose proof (Z.mod_pos_bound chk (2 ^ 55)). rewrite Z.shiftl_mul_pow2 by lia. lia.
  - set (top := Z.shiftr chk 55). unfold generator. cbn [polymod_gen].
    repeat (match goal with |- context [if ?c then _ else _] => destruct c end); vm_compute; split; congruence.
Qed.

Lemma polymod_zeros_range values : 0 <= blech32_polymod (values ++ repeat 0 12) < 2 ^ 60.
Proof.
  unfold blech32_polymod. rewrite fold_left_app. change (repeat 0 12) with (repeat 0 11 ++ [0]).
  rewrite fold_left_app. cbn [fold_left]. apply polymod_step_range. lia.
Qed.

Definition checksum (enc : encoding) (h : pystr) (data : list Z) : vec :=
  unpack (Z.lxor (blech32_polymod ((blech32_hrp_expand h ++ data) ++ repeat 0 12)) (const_of enc)).

Lemma const_of_range enc : 0 <= const_of enc < 2 ^ 60.
Proof. destruct enc; vm_compute; split; congruence. Qed.

Lemma create_checksum_unpack enc h data :
  blech32_create_checksum enc h data = map f32_z (checksum enc h data).
Proof.
  unfold blech32_create_checksum, checksum. cbv zeta. rewrite unpack_z.
  destruct enc; reflexivity.
Qed.

Lemma checksum_iff enc h data chk : length chk = 12%nat ->
  blech32_polymod (blech32_hrp_expand h ++ data ++ map f32_z chk) = const_of enc <->
  chk = checksum enc h data.
Proof.
  intros H. rewrite app_assoc, polymod_app_chk by assumption. unfold checksum.
  set (z := blech32_polymod ((blech32_hrp_expand h ++ data) ++ repeat 0 12)).
  assert (Hz : 0 <= z < 2 ^ 60) by apply polymod_zeros_range.
  pose proof (const_of_range enc) as Hc.
  split.
  - intros E. rewrite <- E, <- Z.lxor_assoc, Z.lxor_nilpotent, Z.lxor_0_l.
    symmetry. apply pack_unpack_pack. assumption.
  - intros ->. rewrite pack_unpack by (apply lxor_lt; lia).
    rewrite <- Z.lxor_assoc, Z.lxor_nilpotent. apply Z.lxor_0_l.
Qed.
