(** [encode] against its domain, canonicity and error detection. *)
From Coq Require Import ZArith List Bool Lia Ring.
From Verif Require Import Base BaseFacts GF32 CodeSearch CodeFacts Blech32Model SpecBits ConvertFacts Blech32Code Blech32Facts.
Import ListNotations.
Local Open Scope Z_scope.

Lemma sep_inj (h h' : pystr) a b :
  h ++ 49 :: map chr a = h' ++ 49 :: map chr b -> h = h' /\ a = b.
Proof.
  intros E.
  assert (HL : length h = length h').
  { apply Nat2Z.inj. rewrite <- (rfind1_app h (map chr a)), <- (rfind1_app h' (map chr b)) by apply chr_not_sep.
    rewrite E. reflexivity. }
  apply app_inj_len in E; [|assumption]. destruct E as [-> E]. split; [reflexivity|].
  injection E as E. apply map_chr_inj. assumption.
Qed.

Lemma to5_syms p : exists syms, convertbits (map bz p) 8 5 true = Some (map f32_z syms).
Proof.
  destruct (to5_exists p) as (out & E & Hw & _). destruct (words5_f32 _ Hw) as [syms ->]. exists syms. assumption.
Qed.

Lemma to5_inj p q l : convertbits (map bz p) 8 5 true = Some l -> convertbits (map bz q) 8 5 true = Some l -> p = q.
Proof.
  intros H1 H2. apply strict_of_pad in H1. apply strict_of_pad in H2. rewrite H1 in H2.
  injection H2 as H2. revert q H2. clear. induction p; intros [|b q] H; try discriminate H; [reflexivity|].
  cbn in H. injection H as H1 H2. apply bz_inj in H1. f_equal; auto.
Qed.

Definition valid_hrp (h : pystr) : Prop :=
  h <> [] /\ Forall (fun c => 33 <= c <= 126 /\ ~ (65 <= c <= 90)) h.

Lemma valid_hrp_split h : valid_hrp h <-> h <> [] /\ printable h /\ no_upper h.
Proof.
  unfold valid_hrp, printable, no_upper.
  split; intros [H1 H2]; (split; [assumption|]).
  - split; eapply Forall_impl; try exact H2; intros c Hc; apply Hc.
  - destruct H2 as [H2 H3]. rewrite Forall_forall in *. intros c Hc. auto.
Qed.

(** The string built by [encode] for 5-bit version [v5]. *)
Definition built (h : pystr) (enc : encoding) (v5 : f32) (syms : list f32) : pystr :=
  h ++ 49 :: map chr (v5 :: syms ++ checksum enc h (map f32_z (v5 :: syms))).

Lemma blech32_encode_f32 enc h v5 syms :
  blech32_encode enc h (f32_z v5 :: map f32_z syms) = Ok (built h enc v5 syms).
Proof.
  unfold blech32_encode. cbv zeta. rewrite create_checksum_unpack.
  change (f32_z v5 :: map f32_z syms) with (map f32_z (v5 :: syms)).
  rewrite <- map_app, rmap_charset. cbn [rbind]. unfold built. reflexivity.
Qed.

Lemma built_length h enc v5 syms :
  length (built h enc v5 syms) = (length h + 14 + length syms)%nat.
Proof.
  unfold built. rewrite app_length. cbn [map length]. rewrite map_length, app_length.
  unfold checksum. rewrite unpack_length. lia.
Qed.

Lemma decode_built h v5 syms p :
  convertbits (map bz p) 8 5 true = Some (map f32_z syms) ->
  (exists r, decode h (built h (enc_of (f32_z v5)) v5 syms) = Ok (Some r)) <->
  prog_ok (f32_z v5) p /\ valid_hrp h /\ Z.of_nat (length h) + 14 + Z.of_nat (length syms) <= 1000.
Proof.
  intros Hcv. split.
  - intros [[v' p'] H]. apply decode_spec in H.
    destruct H as (Hok & Hp & Hc & Hh & Hlen & v5' & syms' & chk & Hv & Hcv' & Hk & E & Ev).
    rewrite built_length in Hlen.
    assert (Hlow : lower (built h (enc_of (f32_z v5)) v5 syms) = lower h ++ 49 :: map chr (v5 :: syms ++ checksum (enc_of (f32_z v5)) h (map f32_z (v5 :: syms)))).
    { unfold built. rewrite lower_app. f_equal. cbn [lower map]. f_equal.
      rewrite lower_c_chr. f_equal. apply lower_map_chr. }
    rewrite Hlow in E. apply sep_inj in E. destruct E as [El E].
    injection E as E1 E2. subst v5'.
    assert (HLs : length syms = length syms').
    { pose proof (f_equal (@length _) E2) as HL. rewrite !app_length in HL. unfold checksum in HL.
      rewrite unpack_length in HL. lia. }
    apply app_inj_len in E2; [|assumption]. destruct E2 as [<- E2].
    assert (p' = p) by (eapply to5_inj; eassumption). subst p' v'.
    split; [assumption|]. split; [|lia].
    apply valid_hrp_split. split; [assumption|]. split; [|apply lower_no_upper; assumption].
    unfold built in Hp. apply Forall_app in Hp. apply Hp.
  - intros (Hok & Hh & Hlen). exists (f32_z v5, p).
    apply valid_hrp_split in Hh. destruct Hh as (Hh & Hpr & Hnu).
    apply lower_no_upper in Hnu.
    assert (Hlow : lower (built h (enc_of (f32_z v5)) v5 syms) = built h (enc_of (f32_z v5)) v5 syms).
    { unfold built. rewrite lower_app, Hnu. f_equal. cbn [lower map]. f_equal.
      rewrite lower_c_chr. f_equal. apply lower_map_chr. }
    apply decode_spec. split; [assumption|]. split.
    { unfold built. apply Forall_app. split; [assumption|]. constructor; [lia|]. apply printable_chr. }
    split; [left; assumption|]. split; [assumption|]. split; [rewrite built_length; lia|].
    exists v5, syms, (checksum (enc_of (f32_z v5)) h (map f32_z (v5 :: syms))).
    split; [reflexivity|]. split; [assumption|]. split; [reflexivity|]. split; [rewrite Hlow; reflexivity|].
    change (v5 :: syms ++ checksum (enc_of (f32_z v5)) h (map f32_z (v5 :: syms)))
      with ((v5 :: syms) ++ checksum (enc_of (f32_z v5)) h (map f32_z (v5 :: syms))).
    rewrite map_app. apply checksum_iff; reflexivity.
Qed.

Lemma decode_built_val h v5 syms p r :
  convertbits (map bz p) 8 5 true = Some (map f32_z syms) ->
  decode h (built h (enc_of (f32_z v5)) v5 syms) = Ok (Some r) -> r = (f32_z v5, p).
Proof.
  intros Hcv H. destruct r as [v' p']. apply decode_spec in H.
  destruct H as (Hok & Hp & Hc & Hh & Hlen & v5' & syms' & chk & Hv & Hcv' & Hk & E & Ev).
  assert (Hlow : lower (built h (enc_of (f32_z v5)) v5 syms) = lower h ++ 49 :: map chr (v5 :: syms ++ checksum (enc_of (f32_z v5)) h (map f32_z (v5 :: syms)))).
  { unfold built. rewrite lower_app. f_equal. cbn [lower map]. f_equal.
    rewrite lower_c_chr. f_equal. apply lower_map_chr. }
  rewrite Hlow in E. apply sep_inj in E. destruct E as [El E].
  injection E as E1 E2. subst v5'.
  assert (HLs : length syms = length syms').
  { pose proof (f_equal (@length _) E2) as HL. rewrite !app_length in HL. unfold checksum in HL.
    rewrite unpack_length in HL. lia. }
  apply app_inj_len in E2; [|assumption]. destruct E2 as [<- E2].
  assert (p' = p) by (eapply to5_inj; eassumption). subst p' v'. reflexivity.
Qed.

(** ** Negative witness versions *)

Lemma neg_lxor v : -32 <= v < 0 -> v = Z.lxor (v + 32) (-32).
Proof.
  intros H.
  assert (D : In v (map (fun k => - Z.of_nat k) (seq 1 32))).
  { apply in_map_iff. exists (Z.to_nat (- v)). split; [lia|]. apply in_seq. lia. }
  cbn in D. repeat (destruct D as [<-|D]; [reflexivity|]). destruct D.
Qed.

Definition neg_state : vec := unpack (polymod_step (-32) 0).

Lemma neg_state_pack : pack neg_state = polymod_step (-32) 0.
Proof. vm_compute. reflexivity. Qed.

Lemma zl_xor_zero_r l : zl_xor l (repeat 0 (length l)) = l.
Proof. induction l; [reflexivity|]. cbn [length repeat zl_xor]. rewrite IHl, Z.lxor_0_r. reflexivity. Qed.

Lemma lxor_fix k x : Z.lxor k x = k -> x = 0.
Proof.
  intros H. rewrite <- (Z.lxor_0_l x), <- (Z.lxor_nilpotent k), Z.lxor_assoc, H. reflexivity.
Qed.

Lemma step_neg32 : polymod_step 0 (-32) = -32.
Proof. vm_compute. reflexivity. Qed.

Lemma map_repeat n : map f32_z (repeat F0 n) = repeat 0 n.
Proof. induction n; [reflexivity|]. cbn [repeat map]. rewrite IHn. reflexivity. Qed.

Lemma polymod_perturb st v d rest :
  fold_left polymod_step (Z.lxor v d :: rest) st
  = Z.lxor (fold_left polymod_step (v :: rest) st)
           (fold_left polymod_step (d :: repeat 0 (length rest)) 0).
Proof.
  rewrite <- polymod_fold_lxor by (cbn [length]; rewrite repeat_length; reflexivity).
  cbn [zl_xor]. rewrite zl_xor_zero_r, Z.lxor_0_r. reflexivity.
Qed.

Lemma neg_fold n :
  fold_left polymod_step (-32 :: repeat 0 (S n)) 0 = pack (symrun neg_state (repeat F0 n)).
Proof.
  rewrite <- (polymod_sym neg_state) by apply unpack_length.
  rewrite map_repeat, neg_state_pack.
  cbn [fold_left repeat]. rewrite step_neg32. reflexivity.
Qed.

Lemma polymod_negative pre v x rest :
  -32 <= v < 0 ->
  blech32_polymod (pre ++ v :: x :: rest)
  = Z.lxor (blech32_polymod (pre ++ (v + 32) :: x :: rest))
           (pack (symrun neg_state (repeat F0 (length rest)))).
Proof.
  intros Hv. unfold blech32_polymod. rewrite !fold_left_app.
  generalize (fold_left polymod_step pre 1). intros st.
  rewrite <- neg_fold. rewrite (neg_lxor v Hv) at 1. rewrite polymod_perturb. reflexivity.
Qed.

Lemma symrun_zeros_nz n : forall st, length st = 12%nat -> st <> vz 12 -> symrun st (repeat F0 n) <> vz 12.
Proof.
  induction n; intros st HL Hne; [assumption|].
  cbn [repeat]. unfold symrun. cbn [fold_left]. apply IHn; [apply symstep_length; assumption|].
  intros E. apply Hne. apply Mx_inj0; assumption.
Qed.

Lemma neg_not_cross n : (n = 96 \/ n = 115)%nat -> symrun neg_state (repeat F0 n) <> const_diff.
Proof.
  assert (A : veqb (symrun neg_state (repeat F0 96)) const_diff = false) by (vm_compute; reflexivity).
  assert (B : veqb (symrun neg_state (repeat F0 115)) const_diff = false) by (vm_compute; reflexivity).
  assert (R : forall v, v = const_diff -> veqb v const_diff = false -> False)
    by (intros v -> Q; rewrite veqb_refl in Q; discriminate Q).
  intros [->| ->] E; [exact (R _ E A)|exact (R _ E B)].
Qed.

Lemma charset_at_neg v : -32 <= v < 0 -> charset_at v = Ok (chr (f32_of (v + 32))).
Proof.
  intros H. unfold charset_at. assert (v <? 0 = true) as -> by lia. cbv zeta.
  assert ((0 <=? v + 32) && (v + 32 <? 32) = true) as -> by lia.
  unfold chr. rewrite f32_z_of by lia. reflexivity.
Qed.

(** [encode] on a negative version either raises or returns None. *)
Lemma encode_negative h v p : -32 <= v < 0 -> encode h v p = Ok None.
Proof.
  intros Hv. unfold encode. cbv zeta.
  destruct (to5_syms p) as [syms Hcv]. rewrite Hcv.
  assert (v =? 0 = false) as -> by lia.
  unfold blech32_encode. cbv zeta. rewrite create_checksum_unpack.
  cbn [app rmap]. rewrite charset_at_neg by assumption. cbn [rbind].
  rewrite <- map_app, rmap_charset. cbn [rbind].
  set (chk := checksum BECH32M h (v :: map f32_z syms)).
  set (v5 := f32_of (v + 32)).
  change (h ++ 49 :: chr v5 :: map chr (syms ++ chk)) with (h ++ 49 :: map chr (v5 :: syms ++ chk)).
  assert (Hv5 : f32_z v5 = v + 32) by (apply f32_z_of; lia).
  destruct (decode_none_or h (h ++ 49 :: map chr (v5 :: syms ++ chk))) as [-> | (v' & p' & H)]; [reflexivity|].
  exfalso. apply decode_spec in H.
  destruct H as (Hok & Hp & Hc & Hh & Hlen & v5' & syms' & chk' & Hv' & Hcv' & Hk & E & Ev).
  assert (Hlow : lower (h ++ 49 :: map chr (v5 :: syms ++ chk)) = lower h ++ 49 :: map chr (v5 :: syms ++ chk)).
  { rewrite lower_app. f_equal. cbn [lower map]. f_equal. rewrite lower_c_chr. f_equal. apply lower_map_chr. }
  rewrite Hlow in E. apply sep_inj in E. destruct E as [El E]. injection E as E1 E2. subst v5'.
  rewrite <- E2 in Ev.
  assert (Hlc : length chk = 12%nat) by reflexivity.
  assert (HLs : length syms = length syms').
  { pose proof (f_equal (@length _) E2) as HL. rewrite !app_length in HL. lia. }
  apply app_inj_len in E2; [|assumption]. destruct E2 as [<- <-].
  assert (Hchk : blech32_polymod (blech32_hrp_expand h ++ (v :: map f32_z syms) ++ map f32_z chk) = const_of BECH32M)
    by (apply checksum_iff; reflexivity).
  cbn [app] in Hchk. rewrite <- map_app in Hchk.
  cbn [map] in Ev. rewrite Hv5 in Ev.
  destruct (syms ++ chk) as [|x rest] eqn:Er.
  { pose proof (f_equal (@length _) Er) as HL. rewrite app_length, Hlc in HL. cbn in HL. lia. }
  assert (HLr : length rest = (length syms + 11)%nat).
  { pose proof (f_equal (@length _) Er) as HL. rewrite app_length, Hlc in HL. cbn in HL. lia. }
  cbn [map] in Hchk, Ev.
  rewrite polymod_negative, Ev, map_length in Hchk by assumption.
  assert (Hlen12 : length (symrun neg_state (repeat F0 (length rest))) = 12%nat) by (apply symrun_length; reflexivity).
  destruct (Z.eq_dec v (-32)) as [Hm|Hm].
  - assert (v' = 0) by lia. 
    assert (Hd : pack (symrun neg_state (repeat F0 (length rest))) = pack const_diff).
    { rewrite const_diff_pack.
      assert (Z.lxor (const_of (enc_of v')) (const_of BECH32M)
              = pack (symrun neg_state (repeat F0 (length rest)))) as <-.
      { rewrite <- Hchk, <- Z.lxor_assoc, Z.lxor_nilpotent. apply Z.lxor_0_l. }
      rewrite H. reflexivity. }
    apply pack_inj in Hd; [|rewrite Hlen12; reflexivity].
    refine (neg_not_cross _ _ Hd).
    destruct Hok as (_ & _ & H0). specialize (H0 H).
    assert (p' = p) by (eapply to5_inj; eassumption). subst p'.
    apply to5_length in Hcv. rewrite !map_length in Hcv. unfold blen in H0. lia.
  - assert (Henc : enc_of v' = BECH32M) by (unfold enc_of; destruct (Z.eqb_spec v' 0); [lia|reflexivity]).
    rewrite Henc in Hchk.
    assert (Hz : pack (symrun neg_state (repeat F0 (length rest))) = pack (vz 12)).
    { change (pack (vz 12)) with 0. apply (lxor_fix (const_of BECH32M)). exact Hchk. }
    apply pack_inj in Hz; [|rewrite Hlen12; reflexivity].
    revert Hz. apply symrun_zeros_nz; [reflexivity|]. vm_compute. congruence.
Qed.

Lemma charset_at_err v : v < -32 \/ v > 31 -> charset_at v = Raise EIndex.
Proof.
  intros H. unfold charset_at. cbv zeta.
  destruct (Z.ltb_spec v 0);
    match goal with |- (if ?c then _ else _) = _ => assert (c = false) as -> by lia end; reflexivity.
Qed.

Lemma encode_f32 h v5 p syms :
  convertbits (map bz p) 8 5 true = Some (map f32_z syms) ->
  encode h (f32_z v5) p =
  (let! back := decode h (built h (enc_of (f32_z v5)) v5 syms) in
   match back with None => Ok None | Some _ => Ok (Some (built h (enc_of (f32_z v5)) v5 syms)) end).
Proof.
  intros Hcv. unfold encode. cbv zeta. rewrite Hcv. rewrite blech32_encode_f32. reflexivity.
Qed.

(** Everything [encode] can do. *)
Lemma encode_char h v p syms :
  convertbits (map bz p) 8 5 true = Some (map f32_z syms) ->
  (v < -32 \/ v > 31) /\ encode h v p = Raise EIndex
  \/ -32 <= v <= 31 /\
     ~ (prog_ok v p /\ valid_hrp h /\ Z.of_nat (length h) + 14 + Z.of_nat (length syms) <= 1000) /\
     encode h v p = Ok None
  \/ (prog_ok v p /\ valid_hrp h /\ Z.of_nat (length h) + 14 + Z.of_nat (length syms) <= 1000) /\
     encode h v p = Ok (Some (built h (enc_of v) (f32_of v) syms)) /\
     decode h (built h (enc_of v) (f32_of v) syms) = Ok (Some (v, p)).
Proof.
  intros Hcv.
  destruct (Z_lt_le_dec v (-32)) as [H1|H1].
  { left. split; [lia|]. unfold encode. cbv zeta. rewrite Hcv.
    unfold blech32_encode. cbn [app rmap]. rewrite charset_at_err by lia. reflexivity. }
  destruct (Z_lt_le_dec 31 v) as [H2|H2].
  { left. split; [lia|]. unfold encode. cbv zeta. rewrite Hcv.
    unfold blech32_encode. cbn [app rmap]. rewrite charset_at_err by lia. reflexivity. }
  right.
  destruct (Z_lt_le_dec v 0) as [H3|H3].
  { left. split; [lia|]. split; [|apply encode_negative; lia].
    intros [(A & _) _]. lia. }
  pose proof (f32_z_of v ltac:(lia)) as Hv. pose proof (encode_f32 h (f32_of v) p syms Hcv) as E.
  pose proof (decode_built h (f32_of v) syms p Hcv) as D.
  pose proof (decode_built_val h (f32_of v) syms p) as DV.
  rewrite Hv in *.
  destruct (decode_total h (built h (enc_of v) (f32_of v) syms)) as [[r|] Ed].
  - right. rewrite Ed in E. cbn [rbind] in E. split; [apply D; eauto|]. split; [assumption|].
    rewrite Ed. rewrite (DV r Hcv Ed). reflexivity.
  - left. split; [lia|]. rewrite Ed in E. cbn [rbind] in E. split; [|assumption].
    intros H. apply D in H. destruct H as [r Hr]. congruence.
Qed.

(** Decoding is canonical. *)
Lemma decode_encode h s v p : decode h s = Ok (Some (v, p)) -> encode h v p = Ok (Some (lower s)).
Proof.
  intros H. pose proof H as H0. apply decode_spec in H.
  destruct H as (Hok & Hp & Hc & Hh & Hlen & v5 & syms & chk & Hv & Hcv & Hk & E & Ev).
  change (v5 :: syms ++ chk) with ((v5 :: syms) ++ chk) in Ev. rewrite map_app in Ev.
  apply checksum_iff in Ev; [|assumption].
  assert (Hb : lower s = built h (enc_of v) (f32_of v) syms).
  { rewrite E, Hv, f32_of_z. unfold built. rewrite Ev, Hv. reflexivity. }
  assert (Hvh : valid_hrp h).
  { apply valid_hrp_split. split; [assumption|].
    assert (Hl : lower (lower s) = lower s) by apply lower_idem.
    pose proof (printable_lower _ Hp) as Hpl. rewrite E in Hpl, Hl.
    rewrite lower_app in Hl. apply app_inj_len in Hl; [|apply lower_length]. destruct Hl as [Hl _].
    apply Forall_app in Hpl. split; [apply Hpl|]. apply lower_no_upper. assumption. }
  assert (HL : Z.of_nat (length h) + 14 + Z.of_nat (length syms) <= 1000).
  { pose proof (f_equal (@length _) Hb) as HL. rewrite lower_length, built_length in HL. lia. }
  destruct (encode_char h v p syms Hcv) as [[A _]|[(A & B & _)|(_ & A & _)]].
  - destruct Hok. lia.
  - exfalso. apply B. auto.
  - rewrite A, Hb. reflexivity.
Qed.

(** ** Error detection *)

(** Number of positions at which two strings of the same length differ. *)
Fixpoint differing (a b : pystr) : nat :=
  match a, b with
  | x :: a', y :: b' => if x =? y then differing a' b' else S (differing a' b')
  | _, _ => O
  end.

Lemma differing_refl a : differing a a = O.
Proof. induction a; [reflexivity|]. cbn. rewrite Z.eqb_refl. assumption. Qed.

Lemma differing_app a b c d : length a = length b ->
  differing (a ++ c) (b ++ d) = (differing a b + differing c d)%nat.
Proof.
  revert b. induction a as [|x a IH]; intros [|y b] H; try discriminate H; [reflexivity|].
  cbn [app differing]. rewrite IH by (simpl in H; congruence). destruct (x =? y); reflexivity.
Qed.

Lemma differing_0 a b : length a = length b -> differing a b = O -> a = b.
Proof.
  revert b. induction a as [|x a IH]; intros [|y b] H E; try discriminate H; [reflexivity|].
  cbn [differing] in E. destruct (Z.eqb_spec x y); [|discriminate]. subst. f_equal. apply IH; [simpl in H; congruence|assumption].
Qed.

Lemma differing_chr a b : length a = length b -> differing (map chr a) (map chr b) = weight (vadd a b).
Proof.
  revert b. induction a as [|x a IH]; intros [|y b] H; try discriminate H; [reflexivity|].
  cbn [map differing vadd]. rewrite weight_cons, IH by (simpl in H; congruence).
  destruct (Z.eqb_spec (chr x) (chr y)) as [E|E].
  - apply chr_inj in E. subst y. rewrite f32_add_self. reflexivity.
  - destruct (f32_nz (f32_add x y)) eqn:En; [reflexivity|]. exfalso. apply E. f_equal.
    apply f32_eqb_eq. unfold f32_eqb. destruct (f32_add x y); try discriminate En. reflexivity.
Qed.

Lemma hrp_expand_f32 h : printable h -> exists H5, blech32_hrp_expand h = map f32_z H5.
Proof.
  intros Hp. apply words5_f32. unfold blech32_hrp_expand, words. change (2 ^ Z.of_nat 5) with 32.
  unfold printable in Hp.
  apply Forall_app. split; [|constructor; [lia|]].
  - rewrite Forall_map. eapply Forall_impl; [|exact Hp]. intros c Hc. cbv beta in *.
    rewrite Z.shiftr_div_pow2 by lia. change (2 ^ 5) with 32. lia.
  - rewrite Forall_map. eapply Forall_impl; [|exact Hp]. intros c Hc. cbv beta in *.
    change 31 with (Z.ones 5). rewrite Z.land_ones by lia. change (2 ^ 5) with 32. lia.
Qed.

(** Two accepted strings under the same hrp and of the same length. *)
Lemma two_accepted h s s' v p v' p' :
  decode h s = Ok (Some (v, p)) -> decode h s' = Ok (Some (v', p')) ->
  length s = length s' ->
  exists v5 v5' a b,
    v = f32_z v5 /\ v' = f32_z v5' /\
    lower s = h ++ 49 :: map chr (v5 :: a) /\ lower s' = h ++ 49 :: map chr (v5' :: b) /\
    length a = length b /\ (length a <= 1000)%nat /\
    (v = 0 \/ v' = 0 -> length a = 97%nat \/ length a = 116%nat) /\
    differing (lower s) (lower s') = weight (vadd (v5 :: a) (v5' :: b)) /\
    pack (symrun (vz 12) (vadd (v5 :: a) (v5' :: b))) = Z.lxor (const_of (enc_of v)) (const_of (enc_of v')).
Proof.
  intros H H' HL. apply decode_spec in H. apply decode_spec in H'.
  destruct H as (Hok & Hp & Hc & Hh & Hlen & v5 & syms & chk & Hv & Hcv & Hk & E & Ev).
  destruct H' as (Hok' & Hp' & Hc' & _ & Hlen' & v5' & syms' & chk' & Hv' & Hcv' & Hk' & E' & Ev').
  exists v5, v5', (syms ++ chk), (syms' ++ chk').
  assert (HLL : length (syms ++ chk) = length (syms' ++ chk')).
  { pose proof (f_equal (@length _) E) as A. pose proof (f_equal (@length _) E') as B.
    rewrite lower_length, app_length in A, B. cbn [length map] in A, B. rewrite map_length in A, B. lia. }
  assert (Hs : forall q sy, convertbits (map bz q) 8 5 true = Some (map f32_z sy) ->
               Z.of_nat (length sy) = (8 * blen q + 4) / 5).
  { intros q sy Hq. apply to5_length in Hq. rewrite !map_length in Hq. exact Hq. }
  split; [assumption|]. split; [assumption|]. split; [assumption|]. split; [assumption|].
  split; [assumption|]. split.
  { pose proof (f_equal (@length _) E) as A. rewrite lower_length, app_length in A. cbn [length map] in A.
    rewrite map_length in A. lia. }
  split.
  { rewrite !app_length in HLL. rewrite !app_length. pose proof (Hs _ _ Hcv) as S1. pose proof (Hs _ _ Hcv') as S2.
    destruct Hok as (_ & _ & Z0). destruct Hok' as (_ & _ & Z0').
    intros [D|D]; [destruct (Z0 D) as [Q|Q]|destruct (Z0' D) as [Q|Q]]; rewrite Q in *; cbn in S1, S2; lia. }
  split.
  { rewrite E, E', differing_app, differing_refl by reflexivity. cbn [Nat.add differing]. rewrite Z.eqb_refl.
    rewrite differing_chr by (cbn [length]; congruence). reflexivity. }
  assert (Hph : printable h).
  { pose proof (printable_lower _ Hp) as Q. rewrite E in Q. apply Forall_app in Q. apply Q. }
  destruct (hrp_expand_f32 h Hph) as [H5 EH]. rewrite EH, <- map_app, blech32_polymod_sym in Ev, Ev'.
  unfold symrun in Ev, Ev'. rewrite fold_left_app in Ev, Ev'.
  fold (symrun c0 H5) in Ev, Ev'.
  change (pack (symrun (symrun c0 H5) (v5 :: syms ++ chk)) = const_of (enc_of v)) in Ev.
  change (pack (symrun (symrun c0 H5) (v5' :: syms' ++ chk')) = const_of (enc_of v')) in Ev'.
  assert (Hst : length (symrun c0 H5) = 12%nat) by (apply symrun_length; reflexivity).
  rewrite <- (symrun_diff (symrun c0 H5)); [|cbn [length]; congruence|assumption].
  rewrite pack_vadd by (rewrite !symrun_length; auto).
  rewrite Ev, Ev'. reflexivity.
Qed.

Lemma vadd_nil a b : length a = length b -> weight (vadd a b) = O -> a = b.
Proof.
  intros HL Hw. apply weight0 in Hw. rewrite (vadd_length a b (length a)) in Hw by congruence.
  apply vadd_eq0; assumption.
Qed.

(** Up to six changes, versions in the same class. *)
Lemma detect6 h s s' v p v' p' :
  decode h s = Ok (Some (v, p)) -> decode h s' = Ok (Some (v', p')) ->
  length s = length s' -> enc_of v = enc_of v' ->
  (differing (lower s) (lower s') <= 6)%nat -> lower s = lower s'.
Proof.
  intros H H' HL He Hd.
  destruct (two_accepted _ _ _ _ _ _ _ H H' HL) as (v5 & v5' & a & b & Hv & Hv' & E & E' & HLL & HLen & _ & HD & HP).
  rewrite He, Z.lxor_nilpotent in HP. change 0 with (pack (vz 12)) in HP.
  apply pack_inj in HP; [|rewrite symrun_length; reflexivity].
  apply bch6 in HP.
  - apply vadd_nil in HP; [|cbn [length]; congruence]. rewrite E, E', HP. reflexivity.
  - rewrite (vadd_length _ _ (S (length a))) by (cbn [length]; congruence). lia.
  - rewrite <- HD. assumption.
Qed.

(** Up to five changes otherwise. *)
Lemma detect5 h s s' v p v' p' :
  decode h s = Ok (Some (v, p)) -> decode h s' = Ok (Some (v', p')) ->
  length s = length s' ->
  (differing (lower s) (lower s') <= 5)%nat -> lower s = lower s'.
Proof.
  intros H H' HL Hd.
  destruct (Z.eq_dec v 0) as [Hz|Hz]; destruct (Z.eq_dec v' 0) as [Hz'|Hz'].
  1,4: eapply detect6; try eassumption; [|lia]; unfold enc_of;
    destruct (Z.eqb_spec v 0); destruct (Z.eqb_spec v' 0); congruence.
  all: exfalso;
    destruct (two_accepted _ _ _ _ _ _ _ H H' HL) as (v5 & v5' & a & b & Hv & Hv' & E & E' & HLL & HLen & Hspec & HD & HP);
    assert (HP2 : pack (symrun (vz 12) (vadd (v5 :: a) (v5' :: b))) = pack const_diff)
      by (rewrite HP, const_diff_pack; unfold enc_of;
          destruct (Z.eqb_spec v 0); destruct (Z.eqb_spec v' 0); try lia; vm_compute; reflexivity);
    apply pack_inj in HP2; [|rewrite symrun_length; reflexivity];
    rewrite HD in Hd; cbn [vadd] in Hd, HP2; rewrite weight_cons in Hd;
    assert (Hne : f32_add v5 v5' <> F0)
      by (intros Q; assert (v5 = v5') by (apply f32_eqb_eq; unfold f32_eqb; rewrite Q; reflexivity); congruence);
    apply f32_nz_spec in Hne as Hnz; rewrite Hnz in Hd;
    specialize (Hspec ltac:(tauto));
    destruct Hspec as [Hl|Hl];
    [apply (cross5 97 (f32_add v5 v5') (vadd a b) cross_ok_97)
    |apply (cross5 116 (f32_add v5 v5') (vadd a b) cross_ok_116)]; try assumption; try lia;
    apply vadd_length; congruence.
Qed.
