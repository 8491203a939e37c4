(** Properties C29-C35: blech32 addresses (liquid_addr.py). *)
From Coq Require Import Strings.String.
From Coq Require Import ZArith List Bool Lia.
From Verif Require Import Base BaseFacts PyStr Blech32Model SpecBits ConvertFacts Blech32Facts Blech32Proofs.
Import ListNotations.
Local Open Scope Z_scope.

(** * C29: 5/8-bit regrouping *)

(** Regrouping bytes to 5-bit words always succeeds; the words are the bits of
    the bytes, in order, followed by fewer than five zero bits; regrouping back
    strictly gives the bytes. *)
Theorem C29_regroup_lossless : forall data : bytes,
  exists out,
    convertbits (map bz data) 8 5 true = Some out /\
    words 5 out /\
    (exists p, (p < 5)%nat /\ bitstring 5 out = bitstring 8 (map bz data) ++ repeat false p) /\
    convertbits out 5 8 false = Some (map bz data).
Proof.
  intros data. destruct (to5_exists data) as (out & E & Hw & Hp).
  exists out. split; [assumption|]. split; [assumption|]. split; [assumption|].
  apply strict_of_pad. assumption.
Qed.
Print Assumptions C29_regroup_lossless.

(** The strict direction accepts a list iff all words are 5-bit and, read as one
    bit string, it is whole bytes followed by fewer than five zero bits; the
    result is then those bytes, and regrouping them gives the list back. *)
Theorem C29_strict_exact : forall l out,
  convertbits l 5 8 false = Some out <->
  words 5 l /\ words 8 out /\
  exists p, (p < 5)%nat /\ bitstring 5 l = bitstring 8 out ++ repeat false p.
Proof.
  intros l out. split.
  - intros E. pose proof (convertbits_strict_spec 5 8 l ltac:(lia) ltac:(lia)) as H. rewrite E in H. exact H.
  - intros (H1 & H2 & p & Hp & HB).
    pose proof (convertbits_strict_spec 5 8 l ltac:(lia) ltac:(lia)) as H.
    change (Z.to_nat 5) with 5%nat in *. change (Z.to_nat 8) with 8%nat in *.
    destruct (convertbits l 5 8 false) as [out'|].
    + destruct H as (_ & Hw & p' & Hp' & HB'). f_equal.
      rewrite HB in HB'. pose proof (f_equal (@length _) HB') as HL.
      rewrite !app_length, !bitstring_length, !repeat_length in HL.
      apply app_inj_len in HB'; [|rewrite !bitstring_length; lia].
      symmetry. apply (bitstring_inj 8); auto; [lia|apply HB'].
    + exfalso. apply H. split; [assumption|]. exists out, p.
      split; [assumption|]. split; [assumption|]. split; [lia|assumption].
Qed.
Print Assumptions C29_strict_exact.

Theorem C29_strict_then_pad : forall l out,
  convertbits l 5 8 false = Some out -> convertbits out 8 5 true = Some l.
Proof. intros l out H. apply pad_of_strict. assumption. Qed.
Print Assumptions C29_strict_then_pad.

Example C29_ex_accept : convertbits [31; 28] 5 8 false = Some [255].
Proof. reflexivity. Qed.
Example C29_ex_reject_nonzero_pad : convertbits [31; 29] 5 8 false = None.
Proof. reflexivity. Qed.
Example C29_ex_reject_extra_word : convertbits [31; 28; 0] 5 8 false = None.
Proof. reflexivity. Qed.
Example C29_ex_reject_large : convertbits [32; 0] 5 8 false = None.
Proof. reflexivity. Qed.

(** * C30: encode *)

(** The documented domain of addresses. *)
Definition address_domain (hrp : pystr) (witver : Z) (prog : bytes) : Prop :=
  hrp <> [] /\
  Forall (fun c => 33 <= c <= 126 /\ ~ (65 <= c <= 90)) hrp /\
  0 <= witver <= 16 /\
  2 <= blen prog <= 73 /\
  (witver = 0 -> blen prog = 53 \/ blen prog = 65) /\
  Z.of_nat (length hrp) + 14 + (8 * blen prog + 4) / 5 <= 1000.

Lemma domain_iff h v p syms :
  convertbits (map bz p) 8 5 true = Some (map GF32.f32_z syms) ->
  address_domain h v p <->
  (prog_ok v p /\ valid_hrp h /\ Z.of_nat (length h) + 14 + Z.of_nat (length syms) <= 1000).
Proof.
  intros Hcv. apply to5_length in Hcv. rewrite !map_length in Hcv.
  unfold address_domain, prog_ok, valid_hrp. rewrite Hcv. unfold blen. tauto.
Qed.

(** [encode] returns a string exactly on the domain. *)
Theorem C30_encode_domain : forall hrp witver prog,
  (exists s, encode hrp witver prog = Ok (Some s)) <-> address_domain hrp witver prog.
Proof.
  intros h v p. destruct (to5_syms p) as [syms Hcv]. rewrite (domain_iff h v p syms Hcv).
  destruct (encode_char h v p syms Hcv) as [[A B]|[(A & B & C)|(A & B & C)]].
  - split; [intros [s E]; congruence|]. intros [(Q & _) _]. lia.
  - split; [intros [s E]; congruence|]. tauto.
  - split; [intros _; assumption|]. intros _. eexists. exact B.
Qed.
Print Assumptions C30_encode_domain.

(** The only exception is IndexError, exactly for versions outside -32..31. *)
Theorem C30_encode_raises : forall hrp witver prog e,
  encode hrp witver prog = Raise e <-> e = EIndex /\ (witver < -32 \/ witver > 31).
Proof.
  intros h v p e. destruct (to5_syms p) as [syms Hcv].
  destruct (encode_char h v p syms Hcv) as [[A B]|[(A & B & C)|(A & B & C)]].
  - rewrite B. split; [intros [= <-]; auto|]. intros [-> _]. reflexivity.
  - rewrite C. split; [discriminate|]. intros [_ D]. lia.
  - rewrite B. split; [discriminate|]. intros [_ D]. destruct A as [(Q & _) _]. lia.
Qed.
Print Assumptions C30_encode_raises.

(** What [encode] returns decodes to what was encoded. *)
Theorem C30_encode_decode : forall hrp witver prog s,
  encode hrp witver prog = Ok (Some s) -> decode hrp s = Ok (Some (witver, prog)).
Proof.
  intros h v p s E. destruct (to5_syms p) as [syms Hcv].
  destruct (encode_char h v p syms Hcv) as [[A B]|[(A & B & C)|(A & B & C)]]; try congruence.
  rewrite B in E. assert (s = built h (enc_of v) (GF32.f32_of v) syms) by congruence. subst s. exact C.
Qed.
Print Assumptions C30_encode_decode.

Definition ex_prog53 : bytes := repeat x02 53.

Example C30_ex_domain : address_domain (str "lq") 0 ex_prog53.
Proof.
  split; [discriminate|]. split; [repeat constructor; cbn; lia|].
  split; [lia|]. split; [vm_compute; split; congruence|]. split; [intros _; left; reflexivity|].
  vm_compute. congruence.
Qed.
Example C30_ex_encode : exists s, encode (str "lq") 0 ex_prog53 = Ok (Some s) /\ length s = 101%nat.
Proof. eexists. split; vm_compute; reflexivity. Qed.
Example C30_ex_outside : encode (str "lq") 17 ex_prog53 = Ok None.
Proof. vm_compute. reflexivity. Qed.
Example C30_ex_negative : encode (str "lq") (-16) (repeat x02 65) = Ok None.
Proof. vm_compute. reflexivity. Qed.
Example C30_ex_raise : encode (str "lq") 32 ex_prog53 = Raise EIndex.
Proof. vm_compute. reflexivity. Qed.

(** * C31: canonicity *)

Theorem C31_decode_canonical : forall hrp s witver prog,
  decode hrp s = Ok (Some (witver, prog)) -> encode hrp witver prog = Ok (Some (lower s)).
Proof. exact decode_encode. Qed.
Print Assumptions C31_decode_canonical.

Theorem C31_unique_string : forall hrp s s' r,
  decode hrp s = Ok (Some r) -> decode hrp s' = Ok (Some r) -> lower s = lower s'.
Proof.
  intros h s s' [v p] H H'. apply decode_encode in H. apply decode_encode in H'. congruence.
Qed.
Print Assumptions C31_unique_string.

Example C31_ex :
  decode (str "lq")
    (str "lq1qqqqqqqqqqqqqqqqqqqqqqqqqqqqqqqqqqqqqqqqqqqqqqqqqqqqqqqqqqqqqqqqqqqqqqqqqqqqqqqqqqqqqq5dqnxlt6zst4")
  = Ok (Some (0, zeros 53)).
Proof. vm_compute. reflexivity. Qed.

(** * C32: totality and range *)

Theorem C32_decode_never_raises : forall hrp s, exists r, decode hrp s = Ok r.
Proof. exact decode_total. Qed.
Print Assumptions C32_decode_never_raises.

Theorem C32_decode_in_range : forall hrp s witver prog,
  decode hrp s = Ok (Some (witver, prog)) ->
  0 <= witver <= 16 /\ 2 <= blen prog <= 73 /\ (witver = 0 -> blen prog = 53 \/ blen prog = 65) /\
  13 <= Z.of_nat (length s) - Z.of_nat (length hrp) /\ Z.of_nat (length s) <= 1000.
Proof.
  intros h s v p H. apply decode_spec in H.
  destruct H as ((A & B & C) & _ & _ & _ & Hlen & v5 & syms & chk & _ & _ & Hk & E & _).
  split; [assumption|]. split; [assumption|]. split; [assumption|]. split; [|assumption].
  pose proof (f_equal (@length _) E) as HL. rewrite lower_length, app_length in HL. cbn [length map] in HL.
  rewrite map_length, app_length in HL. lia.
Qed.
Print Assumptions C32_decode_in_range.

Example C32_ex_nonascii : decode (str "lq") [108; 113; 49; 233; 8364] = Ok None.
Proof. vm_compute. reflexivity. Qed.
Example C32_ex_empty : decode [] [] = Ok None.
Proof. vm_compute. reflexivity. Qed.

(** * C33: error detection *)

(** One to five changed characters (anywhere: prefix, separator, data or
    checksum; letter case aside) are always rejected. *)
Theorem C33_five_errors_detected : forall hrp s s' r,
  decode hrp s = Ok (Some r) ->
  length s' = length s ->
  (1 <= differing (lower s) (lower s') <= 5)%nat ->
  decode hrp s' = Ok None.
Proof.
  intros h s s' [v p] H HL Hd.
  destruct (decode_none_or h s') as [E|(v' & p' & E)]; [assumption|exfalso].
  assert (Heq : lower s = lower s') by (eapply detect5; try eassumption; [congruence|lia]).
  rewrite Heq, differing_refl in Hd. lia.
Qed.
Print Assumptions C33_five_errors_detected.

(** Six changes too, when the version character (the one after the separator)
    does not change between version zero ('q') and a non-zero version. *)
Theorem C33_six_errors_detected : forall hrp s s' r,
  decode hrp s = Ok (Some r) ->
  length s' = length s ->
  (1 <= differing (lower s) (lower s') <= 6)%nat ->
  (nth (length hrp + 1) (lower s) 0 = 113 <-> nth (length hrp + 1) (lower s') 0 = 113) ->
  decode hrp s' = Ok None.
Proof.
  intros h s s' [v p] H HL Hd Hq.
  destruct (decode_none_or h s') as [E|(v' & p' & E)]; [assumption|exfalso].
  assert (Hver : forall t w q, decode h t = Ok (Some (w, q)) ->
                 (nth (length h + 1) (lower t) 0 = 113 <-> w = 0)).
  { intros t w q Ht. apply decode_spec in Ht.
    destruct Ht as (_ & _ & _ & _ & _ & v5 & syms & chk & Hv & _ & _ & El & _).
    rewrite El, app_nth2 by lia. replace (length h + 1 - length h)%nat with 1%nat by lia.
    cbn [nth map]. subst w. destruct v5; vm_compute; split; congruence. }
  assert (Heq : lower s = lower s').
  { eapply detect6; try eassumption; [congruence| |lia].
    rewrite (Hver _ _ _ H), (Hver _ _ _ E) in Hq.
    unfold enc_of. destruct (Z.eqb_spec v 0); destruct (Z.eqb_spec v' 0); try reflexivity; exfalso; tauto. }
  rewrite Heq, differing_refl in Hd. lia.
Qed.
Print Assumptions C33_six_errors_detected.

(** Seven changes are not always detected: the natural stronger claim is false. *)
Theorem C33_seven_errors_refuted : exists hrp s s',
  length s' = length s /\ differing (lower s) (lower s') = 7%nat /\
  (exists r, decode hrp s = Ok (Some r)) /\ (exists r', decode hrp s' = Ok (Some r')).
Proof.
  exists (str "lq"),
   (str "lq1qqqqqqqqqqqqqqqqqqqqqqqqqqqqqqqqqqqqqqqqqqqqqqqqqqqqqqqqqqqqqqqqqqqqqqqqqqqqqqqqqqqqqq5dqnxlt6zst4"),
   (str "lq18qqqqqqqqqqqqqqtqqqqqqqqqqqqqqqqqqsqqqqqqqqqqqqtqqqqqqqqqqqqqqqqqqqqqqqqqqqqqqqqqqqqcq3dqnxlm6zst4").
  split; [vm_compute; reflexivity|]. split; [vm_compute; reflexivity|].
  split; eexists; vm_compute; reflexivity.
Qed.
Print Assumptions C33_seven_errors_refuted.

Example C33_ex_hypotheses :
  let s := str "lq1qqqqqqqqqqqqqqqqqqqqqqqqqqqqqqqqqqqqqqqqqqqqqqqqqqqqqqqqqqqqqqqqqqqqqqqqqqqqqqqqqqqqqq5dqnxlt6zst4" in
  let s' := str "lq1qqqqqqqqqpqqqqqqqqqqqqqqqqqqqqqqqqqqqzqqqqqqqqqqqqqqqqqqqqqqqqqqqqqqqqqqqqqqqqqqqqqqqq5dqnxlt6zst5" in
  (exists r, decode (str "lq") s = Ok (Some r)) /\ length s' = length s /\
  differing (lower s) (lower s') = 3%nat /\ decode (str "lq") s' = Ok None.
Proof.
  cbv zeta. split; [eexists; vm_compute; reflexivity|].
  split; [vm_compute; reflexivity|]. split; vm_compute; reflexivity.
Qed.

(** * C34: letter case *)

Theorem C34_mixed_case_rejected : forall hrp s,
  lower s <> s -> upper s <> s -> decode hrp s = Ok None.
Proof.
  intros h s H1 H2. destruct (decode_none_or h s) as [E|(v & p & E)]; [assumption|exfalso].
  apply decode_spec in E. destruct E as (_ & _ & [C|C] & _); contradiction.
Qed.
Print Assumptions C34_mixed_case_rejected.

Theorem C34_case_insensitive : forall hrp s,
  Forall (fun c => 33 <= c <= 126) s -> decode hrp (upper s) = decode hrp (lower s).
Proof.
  intros h s Hp.
  assert (A : forall r, decode h (upper s) = Ok (Some r) <-> decode h (lower s) = Ok (Some r)).
  { intros [v p]. rewrite !decode_spec, lower_upper, lower_idem, upper_upper, lower_length, upper_length by assumption.
    split; intros (H1 & H2 & H3 & H4); (split; [assumption|]); (split; [|split; [auto|assumption]]).
    - apply printable_lower. assumption.
    - apply printable_upper. assumption. }
  destruct (decode_total h (upper s)) as [[r|] E]; destruct (decode_total h (lower s)) as [[r'|] E'].
  - pose proof (proj1 (A r) E). congruence.
  - pose proof (proj1 (A r) E). congruence.
  - pose proof (proj2 (A r') E'). congruence.
  - congruence.
Qed.
Print Assumptions C34_case_insensitive.

(** An upper-case hrp never matches. *)
Theorem C34_uppercase_hrp_never_matches : forall hrp s c,
  In c hrp -> 65 <= c <= 90 -> decode hrp s = Ok None.
Proof.
  intros h s c Hin Hc. destruct (decode_none_or h s) as [E|(v & p & E)]; [assumption|exfalso].
  apply decode_encode in E.
  assert (D : address_domain h v p) by (apply C30_encode_domain; eauto).
  destruct D as (_ & D & _). rewrite Forall_forall in D. destruct (D c Hin). contradiction.
Qed.
Print Assumptions C34_uppercase_hrp_never_matches.

Example C34_ex_upper :
  decode (str "lq")
    (str "LQ1QQQQQQQQQQQQQQQQQQQQQQQQQQQQQQQQQQQQQQQQQQQQQQQQQQQQQQQQQQQQQQQQQQQQQQQQQQQQQQQQQQQQQQ5DQNXLT6ZST4")
  = Ok (Some (0, zeros 53)).
Proof. vm_compute. reflexivity. Qed.
Example C34_ex_mixed :
  decode (str "lq")
    (str "lq1QQQQQQQQQQQQQQQQQQQQQQQQQQQQQQQQQQQQQQQQQQQQQQQQQQQQQQQQQQQQQQQQQQQQQQQQQQQQQQQQQQQQQQ5DQNXLT6ZST4")
  = Ok None.
Proof. vm_compute. reflexivity. Qed.

(** * C35: the version selects the checksum *)

(** Of the two strings with correct blech32 / blech32m checksums over the same
    payload, [decode] can only accept the one [encode] produces for the version. *)
Theorem C35_version_selects_checksum : forall hrp enc witver prog data s,
  0 <= witver <= 31 ->
  convertbits (map bz prog) 8 5 true = Some data ->
  blech32_encode enc hrp (witver :: data) = Ok s ->
  (witver = 0 /\ enc = BECH32M) \/ (witver <> 0 /\ enc = BECH32) ->
  decode hrp s = Ok None.
Proof.
  intros h enc v p data s Hv Hcv Hs Hw.
  destruct (decode_none_or h s) as [E|(v' & p' & E)]; [assumption|exfalso].
  destruct (to5_syms p) as [syms Hcv']. rewrite Hcv in Hcv'.
  assert (data = map GF32.f32_z syms) by congruence. subst data. clear Hcv'.
  pose proof (GF32.f32_z_of v ltac:(lia)) as Hz. rewrite <- Hz in Hs.
  rewrite blech32_encode_f32 in Hs. apply Ok_inj in Hs. subst s.
  apply decode_spec in E.
  destruct E as (_ & _ & _ & _ & _ & v5 & syms' & chk & Hv' & Hcv' & Hk & El & Ev).
  assert (Hlow : lower (built h enc (GF32.f32_of v) syms)
     = lower h ++ 49 :: map chr (GF32.f32_of v :: syms ++ checksum enc h (map GF32.f32_z (GF32.f32_of v :: syms)))).
  { unfold built. rewrite lower_app. f_equal. cbn [lower map]. f_equal.
    rewrite lower_c_chr. f_equal. apply lower_map_chr. }
  rewrite Hlow in El. apply sep_inj in El. destruct El as [_ El]. injection El as E1 E2.
  assert (HLs : length syms = length syms').
  { pose proof (f_equal (@length _) E2) as HL. rewrite !app_length in HL. unfold checksum in HL.
    rewrite unpack_length in HL. lia. }
  apply app_inj_len in E2; [|assumption]. destruct E2 as [<- E2].
  change (v5 :: syms ++ chk) with ((v5 :: syms) ++ chk) in Ev. rewrite map_app in Ev.
  assert (Ec : blech32_polymod (blech32_hrp_expand h ++ map GF32.f32_z (v5 :: syms) ++ map GF32.f32_z chk) = const_of enc).
  { apply checksum_iff; [assumption|]. rewrite <- E2, E1. reflexivity. }
  rewrite Ec in Ev.
  assert (v' = v) by (rewrite Hv', <- E1; assumption). subst v'.
  rewrite H in Ev. unfold enc_of in Ev.
  destruct Hw as [[W ->]|[W ->]].
  - rewrite W in Ev. vm_compute in Ev. discriminate Ev.
  - destruct (Z.eqb_spec v 0); [contradiction|]. vm_compute in Ev. discriminate Ev.
Qed.
Print Assumptions C35_version_selects_checksum.

Example C35_ex :
  exists s, blech32_encode BECH32M (str "lq") (0 :: repeat 0 85) = Ok s /\
            decode (str "lq") s = Ok None /\
            blech32_decode s = Some (BECH32M, str "lq", 0 :: repeat 0 85).
Proof. eexists. split; [vm_compute; reflexivity|]. split; vm_compute; reflexivity. Qed.
