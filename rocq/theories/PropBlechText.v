(** Property C63: the text of a blech32 address. *)
From Coq Require Import Strings.String.
From Coq Require Import ZArith List Bool Lia.
From Verif Require Import Base BaseFacts PyStr GF32 Blech32Model SpecBits ConvertFacts Blech32Code Blech32Facts Blech32Proofs
  SpecBlech32 Blech32Text PropBlech32.
Import ListNotations.
Local Open Scope Z_scope.

Lemma domain_printable h v p : address_domain h v p -> printable h /\ 0 <= v < 32.
Proof.
  intros (_ & H & Hv & _). split; [|lia]. eapply Forall_impl; [|exact H]. intros c Hc. apply Hc.
Qed.

(** [encode] returns [s] exactly when the arguments are in the documented domain
    and [s] is their text. *)
Theorem C63_encode_text : forall hrp witver prog s,
  encode hrp witver prog = Ok (Some s) <->
  address_domain hrp witver prog /\ AddressText hrp witver prog s.
Proof.
  intros h v p s. destruct (to5_syms p) as [syms Hcv]. split.
  - intros E. assert (D : address_domain h v p) by (apply C30_encode_domain; eauto).
    split; [exact D|]. destruct (domain_printable _ _ _ D) as [Ph Hv].
    apply (text_iff h v p s Ph Hv).
    destruct (encode_char h v p syms Hcv) as [[A B]|[(A & B & C)|(A & B & C)]]; try congruence.
    rewrite B in E. injection E as <-.
    exists (f32_of v), syms, (checksum (enc_of v) h (map f32_z (f32_of v :: syms))).
    split; [symmetry; apply f32_z_of; exact Hv|]. split; [exact Hcv|].
    assert (L : length (checksum (enc_of v) h (map f32_z (f32_of v :: syms))) = 12%nat) by apply unpack_length.
    split; [exact L|]. split; [reflexivity|].
    change (f32_of v :: syms ++ ?c) with ((f32_of v :: syms) ++ c). rewrite map_app.
    apply checksum_iff; [exact L|reflexivity].
  - intros (D & T). destruct (domain_printable _ _ _ D) as [Ph Hv].
    apply (text_iff h v p s Ph Hv) in T. destruct T as (v5 & syms' & k & -> & Hcv' & L & -> & E).
    rewrite Hcv in Hcv'. injection Hcv' as HH. apply map_f32_z_inj in HH. subst syms'.
    apply (domain_iff _ _ _ _ Hcv) in D.
    destruct (encode_char h (f32_z v5) p syms Hcv) as [[A B]|[(A & B & C)|(A & B & C)]].
    + lia.
    + contradiction.
    + rewrite B. f_equal. f_equal. unfold built. rewrite f32_of_z.
      change (v5 :: syms ++ k) with ((v5 :: syms) ++ k) in E. rewrite map_app in E.
      apply checksum_iff in E; [|exact L]. subst k. reflexivity.
Qed.
Print Assumptions C63_encode_text.

Lemma small_form_lower s t : small_form s t <-> t = lower s.
Proof.
  assert (L : forall c d, (is_capital c /\ d = c + 32) \/ (~ is_capital c /\ d = c) <-> d = lower_c c).
  { intros c d. unfold is_capital, lower_c.
    destruct (Z.leb_spec 65 c), (Z.leb_spec c 90); cbn [andb]; lia. }
  unfold small_form. revert t. induction s as [|c s IH]; intros t; split; intros H.
  - inversion H. reflexivity.
  - subst t. constructor.
  - inversion H; subst. cbn [lower map]. f_equal; [apply L; assumption|apply IH; assumption].
  - subst t. cbn [lower map]. constructor; [apply L; reflexivity|apply IH; reflexivity].
Qed.

Lemma one_case_iff s : OneCase s <-> lower s = s \/ upper s = s.
Proof.
  unfold OneCase, lower, upper. split; intros [H|H].
  - left. induction H as [|c s Hc H IH]; [reflexivity|]. cbn [map]. rewrite IH. f_equal.
    unfold is_capital in Hc. unfold lower_c. destruct (Z.leb_spec 65 c), (Z.leb_spec c 90); cbn [andb]; lia.
  - right. induction H as [|c s Hc H IH]; [reflexivity|]. cbn [map]. rewrite IH. f_equal.
    unfold is_small in Hc. unfold upper_c. destruct (Z.leb_spec 97 c), (Z.leb_spec c 122); cbn [andb]; lia.
  - left. induction s as [|c s IH]; [constructor|]. cbn [map] in H. injection H as H1 H2. constructor; [|auto].
    revert H1. unfold is_capital, lower_c. destruct (Z.leb_spec 65 c), (Z.leb_spec c 90); cbn [andb]; lia.
  - right. induction s as [|c s IH]; [constructor|]. cbn [map] in H. injection H as H1 H2. constructor; [|auto].
    revert H1. unfold is_small, upper_c. destruct (Z.leb_spec 97 c), (Z.leb_spec c 122); cbn [andb]; lia.
Qed.

(** [decode] returns version and program exactly when the string is, up to letter
    case but not in mixed case, their text. *)
Theorem C63_decode_text : forall hrp s witver prog,
  decode hrp s = Ok (Some (witver, prog)) <->
  OneCase s /\ address_domain hrp witver prog /\
  exists t, small_form s t /\ AddressText hrp witver prog t.
Proof.
  intros h s v p. split.
  - intros D. pose proof (C31_decode_canonical _ _ _ _ D) as E. apply C63_encode_text in E. destruct E as [A T].
    apply decode_spec in D. destruct D as (_ & _ & Hc & _).
    split; [apply one_case_iff; exact Hc|]. split; [exact A|]. exists (lower s). split; [apply small_form_lower; reflexivity|exact T].
  - intros (Hc & A & t & Ht & T). apply small_form_lower in Ht. subst t.
    assert (E : encode h v p = Ok (Some (lower s))) by (apply C63_encode_text; auto).
    pose proof (C30_encode_decode _ _ _ _ E) as D.
    apply decode_spec in D. rewrite lower_idem, lower_length in D.
    destruct D as (Hok & Hp & _ & Hh & Hlen & X). apply decode_spec.
    split; [exact Hok|]. split.
    { unfold printable, lower in *. rewrite Forall_map in Hp. eapply Forall_impl; [|exact Hp].
      intros c. unfold lower_c. cbn beta. destruct (Z.leb_spec 65 c), (Z.leb_spec c 90); cbn [andb]; lia. }
    split; [apply one_case_iff; exact Hc|]. split; [exact Hh|]. split; [exact Hlen|exact X].
Qed.
Print Assumptions C63_decode_text.

(** The text determines the arguments and is determined by them. *)
Theorem C63_text_unique : forall hrp witver prog s s',
  address_domain hrp witver prog ->
  AddressText hrp witver prog s -> AddressText hrp witver prog s' -> s = s'.
Proof.
  intros h v p s s' D T T'.
  assert (E : encode h v p = Ok (Some s)) by (apply C63_encode_text; auto).
  assert (E' : encode h v p = Ok (Some s')) by (apply C63_encode_text; auto).
  congruence.
Qed.
Print Assumptions C63_text_unique.

(** The text of an address of the test suite's kind, as produced. *)
Example C63_ex : exists s, AddressText (str "lq") 0 ex_prog53 s /\ firstn 4 s = str "lq1q".
Proof.
  destruct C30_ex_encode as (s & E & _). exists s. split; [apply C63_encode_text in E; apply E|].
  vm_compute in E. injection E as <-. vm_compute. reflexivity.
Qed.
(** One wrong symbol is not the text. *)
Example C63_ex_other : ~ AddressText (str "lq") 0 ex_prog53 (str "lq1q").
Proof.
  intros (g & k & _ & (L & _) & E). apply (f_equal (@length _)) in E.
  rewrite !app_length, map_length in E. cbn [length] in E. rewrite app_length, L in E. cbn in E. lia.
Qed.
