(** Proofs about script pushes. *)
From Verif Require Import Base BaseFacts Serialize ScriptModel SpecScript.
From Coq Require Import Lia.
Local Open Scope Z_scope.

Lemma take_data_spec op n s o d rest :
  take_data op n s = NextOp o d rest <-> exists x, d = Some x /\ o = op /\ s = x ++ rest /\ blen x = Z.max 0 n.
Proof.
  unfold take_data. destruct (Z.ltb_spec (blen s) n) as [L|L].
  - split; [discriminate|]. intros (x & _ & _ & -> & E). rewrite blen_app in L. pose proof (blen_nonneg rest). lia.
  - split.
    + intros E. injection E as <- <- <-. exists (firstn (Z.to_nat n) s). split; [reflexivity|]. split; [reflexivity|].
      split; [symmetry; apply firstn_skipn|]. unfold blen in *. rewrite firstn_length. lia.
    + intros (x & -> & -> & -> & E). unfold blen in E.
      assert (Hn : Z.to_nat n = length x) by lia. rewrite Hn, firstn_len_app, skipn_len_app. reflexivity.
Qed.
Lemma take_data_err op n s e : take_data op n s = NextErr e -> e = EScript.
Proof. unfold take_data. destruct (_ <? _); intros E; [injection E as <-; reflexivity|discriminate]. Qed.
Lemma take_data_nostop op n s : take_data op n s <> NextStop.
Proof. unfold take_data. destruct (_ <? _); discriminate. Qed.

Lemma raw_next_err s e : raw_next s = NextErr e -> e = EScript.
Proof.
  unfold raw_next. destruct s as [|o s]; [discriminate|]. cbv zeta.
  destruct (_ >? _); [discriminate|]. destruct (_ <? _); [apply take_data_err|].
  destruct (_ =? _); [destruct s; [intros E; injection E as <-; reflexivity|apply take_data_err]|].
  destruct (_ =? _).
  - destruct s as [|a [|b s]]; try (intros E; injection E as <-; reflexivity). apply take_data_err.
  - destruct s as [|a [|b [|c [|d s]]]]; try (intros E; injection E as <-; reflexivity). apply take_data_err.
Qed.

Lemma raw_next_none s op rest : raw_next s = NextOp op None rest <->
  exists o, s = o :: rest /\ op = bz o /\ 78 < bz o.
Proof.
  unfold raw_next. destruct s as [|o s]; [split; [discriminate|intros (o & E & _); discriminate]|]. cbv zeta.
  unfold OP_PUSHDATA1, OP_PUSHDATA2, OP_PUSHDATA4.
  assert (T : forall n t, take_data (bz o) n t <> NextOp op None rest).
  { intros n t E. apply take_data_spec in E. destruct E as (x & E & _). discriminate. }
  destruct (bz o >? 0x4e) eqn:G.
  - apply Z.gtb_lt in G. split.
    + intros E. injection E as <- <-. exists o. auto.
    + intros (o' & E & -> & L). injection E as <- <-. reflexivity.
  - rewrite Z.gtb_ltb in G. apply Z.ltb_ge in G. split.
    + intros E. exfalso. revert E. destruct (_ <? _); [apply T|].
      destruct (_ =? _); [destruct s; [discriminate|apply T]|].
      destruct (_ =? _).
      * destruct s as [|a [|b s]]; try discriminate. apply T.
      * destruct s as [|a [|b [|c [|d s]]]]; try discriminate. apply T.
    + intros (o' & E & -> & L). injection E as <- <-. lia.
Qed.

Lemma shl8 x : Z.shiftl x 8 = 256 * x. Proof. rewrite Z.shiftl_mul_pow2 by lia. lia. Qed.
Lemma shl16 x : Z.shiftl x 16 = 65536 * x. Proof. rewrite Z.shiftl_mul_pow2 by lia. lia. Qed.
Lemma shl24 x : Z.shiftl x 24 = 16777216 * x. Proof. rewrite Z.shiftl_mul_pow2 by lia. lia. Qed.

Lemma raw_next_push s d rest : (exists op, raw_next s = NextOp op (Some d) rest) <->
  exists p, s = p ++ rest /\ Push d p.
Proof.
  split.
  - intros (op & E). unfold raw_next in E. destruct s as [|o s]; [discriminate|]. cbv zeta in E.
    unfold OP_PUSHDATA1, OP_PUSHDATA2, OP_PUSHDATA4 in E.
    destruct (bz o >? 0x4e) eqn:G; [discriminate|]. rewrite Z.gtb_ltb in G. apply Z.ltb_ge in G.
    pose proof (bz_range o) as R.
    destruct (Z.ltb_spec (bz o) 0x4c) as [L|L].
    { apply take_data_spec in E. destruct E as (x & Ex & _ & -> & El). injection Ex as <-.
      exists (o :: d). split; [reflexivity|]. constructor; lia. }
    destruct (Z.eqb_spec (bz o) 0x4c) as [E1|E1].
    { assert (o = x4c) by (apply bz_inj; exact E1). subst o. destruct s as [|a s]; [discriminate|].
      apply take_data_spec in E. destruct E as (x & Ex & _ & -> & El). injection Ex as <-.
      exists (x4c :: a :: d). split; [reflexivity|]. pose proof (bz_range a). constructor; lia. }
    destruct (Z.eqb_spec (bz o) 0x4d) as [E2|E2].
    { assert (o = x4d) by (apply bz_inj; exact E2). subst o. destruct s as [|a [|b s]]; try discriminate.
      apply take_data_spec in E. destruct E as (x & Ex & _ & -> & El). injection Ex as <-.
      rewrite shl8 in El. exists (x4d :: a :: b :: d). split; [reflexivity|].
      pose proof (bz_range a). pose proof (bz_range b). constructor; lia. }
    assert (o = x4e) by (apply bz_inj; change (bz x4e) with 78; lia). subst o.
    destruct s as [|a [|b [|c [|d' s]]]]; try discriminate.
    apply take_data_spec in E. destruct E as (x & Ex & _ & -> & El). injection Ex as <-.
    rewrite shl8, shl16, shl24 in El. exists (x4e :: a :: b :: c :: d' :: d). split; [reflexivity|].
    pose proof (bz_range a). pose proof (bz_range b). pose proof (bz_range c). pose proof (bz_range d'). constructor; lia.
  - intros (p & -> & P). destruct P as [o L E|l E|l0 l1 E|l0 l1 l2 l3 E]; cbn [app].
    + exists (bz o). unfold raw_next. cbv zeta. unfold OP_PUSHDATA1, OP_PUSHDATA4.
      rewrite Z.gtb_ltb, (proj2 (Z.ltb_ge 78 (bz o))), (proj2 (Z.ltb_lt (bz o) 76)) by lia.
      apply take_data_spec. exists d. pose proof (blen_nonneg d). repeat split. lia.
    + exists 0x4c. change (take_data 0x4c (bz l) (d ++ rest) = NextOp 0x4c (Some d) rest).
      apply take_data_spec. exists d. pose proof (blen_nonneg d). repeat split. lia.
    + exists 0x4d. change (take_data 0x4d (bz l0 + Z.shiftl (bz l1) 8) (d ++ rest) = NextOp 0x4d (Some d) rest).
      apply take_data_spec. exists d. pose proof (blen_nonneg d). repeat split. rewrite shl8. lia.
    + exists 0x4e. change (take_data 0x4e (bz l0 + Z.shiftl (bz l1) 8 + Z.shiftl (bz l2) 16 + Z.shiftl (bz l3) 24) (d ++ rest)
        = NextOp 0x4e (Some d) rest).
      apply take_data_spec. exists d. pose proof (blen_nonneg d). repeat split. rewrite shl8, shl16, shl24. lia.
Qed.

Lemma next_op_iff {A} s (k : Z -> option bytes -> bytes -> res (option A)) a :
  next_op s k = Ok (Some a) <-> exists op d rest, raw_next s = NextOp op d rest /\ k op d rest = Ok (Some a).
Proof.
  unfold next_op. destruct (raw_next s) as [|e|op d rest] eqn:E.
  - split; [discriminate|intros (?&?&?&?&_); discriminate].
  - apply raw_next_err in E. subst e. split; [discriminate|intros (?&?&?&?&_); discriminate].
  - split; [intros K; exists op, d, rest; auto|]. intros (op' & d' & rest' & E' & K). injection E' as <- <- <-. exact K.
Qed.
Lemma next_op_total {A} s (k : Z -> option bytes -> bytes -> res (option A)) :
  (forall op d rest, exists r, k op d rest = Ok r) -> exists r, next_op s k = Ok r.
Proof.
  intros K. unfold next_op. destruct (raw_next s) as [|e|op d rest] eqn:E; eauto.
  apply raw_next_err in E. subst e. eauto.
Qed.

Lemma pegout_total s : exists r, get_pegout_data s = Ok r.
Proof.
  unfold get_pegout_data. apply next_op_total. intros op _ r1. destruct (negb _); [eauto|].
  apply next_op_total. intros _ [d|] r2; [|eauto]. destruct (negb _); [eauto|].
  apply next_op_total. intros _ [d'|] r3; [|eauto]. destruct (_ =? _); eauto.
Qed.

Lemma pegout_iff script g s : get_pegout_data script = Ok (Some (g, s)) <-> PegoutScript g s script.
Proof.
  unfold get_pegout_data. split.
  - intros E. apply next_op_iff in E. destruct E as (op & d & r1 & E1 & E).
    destruct (Z.eqb_spec op OP_RETURN) as [->|]; [|discriminate]. cbn [negb] in E.
    apply next_op_iff in E. destruct E as (op2 & d2 & r2 & E2 & E). destruct d2 as [g'|]; [|discriminate].
    destruct (Z.eqb_spec (blen g') 32) as [Lg|]; [|discriminate]. cbn [negb] in E.
    apply next_op_iff in E. destruct E as (op3 & d3 & r3 & E3 & E). destruct d3 as [s'|]; [|discriminate].
    destruct (Z.eqb_spec (blen s') 0) as [|Ls]; [discriminate|]. apply Ok_inj in E. injection E as <- <-.
    assert (R : script = x6a :: r1).
    { destruct d as [d|].
      - assert (X : exists op, raw_next script = NextOp op (Some d) r1) by eauto.
        unfold raw_next in E1. destruct script as [|o sc]; [discriminate|]. cbv zeta in E1.
        exfalso. assert (N : bz o = OP_RETURN -> False).
        { intros B. rewrite B in E1. cbn in E1. discriminate. }
        unfold OP_PUSHDATA1, OP_PUSHDATA2, OP_PUSHDATA4 in E1.
        destruct (_ >? _); [discriminate|].
        destruct (_ <? _). { apply take_data_spec in E1. destruct E1 as (x & _ & E1 & _). congruence. }
        destruct (_ =? _). { destruct sc; [discriminate|]. apply take_data_spec in E1. destruct E1 as (x & _ & E1 & _). congruence. }
        destruct (_ =? _).
        { destruct sc as [|a [|b sc]]; try discriminate. apply take_data_spec in E1. destruct E1 as (x & _ & E1 & _). congruence. }
        destruct sc as [|a [|b [|c [|d' sc]]]]; try discriminate. apply take_data_spec in E1. destruct E1 as (x & _ & E1 & _). congruence.
      - apply raw_next_none in E1. destruct E1 as (o & -> & Eo & _). f_equal. apply bz_inj. symmetry. exact Eo. }
    assert (X2 : exists op, raw_next r1 = NextOp op (Some g') r2) by eauto. apply raw_next_push in X2.
    assert (X3 : exists op, raw_next r2 = NextOp op (Some s') r3) by eauto. apply raw_next_push in X3.
    destruct X2 as (p & -> & P), X3 as (q & -> & Q). exists p, q, r3. split; [exact R|]. split; [assumption|]. split; [assumption|].
    split; [unfold blen in Lg; lia|]. intros ->. apply Ls. reflexivity.
  - intros (p & q & rest & -> & P & Q & Lg & Ls).
    apply next_op_iff. exists OP_RETURN, None, (p ++ q ++ rest). split; [reflexivity|]. cbn [negb]. rewrite Z.eqb_refl. cbn [negb].
    destruct (proj2 (raw_next_push (p ++ q ++ rest) g (q ++ rest))) as (op2 & E2); [exists p; auto|].
    apply next_op_iff. exists op2, (Some g), (q ++ rest). split; [exact E2|].
    assert (B : blen g = 32) by (unfold blen; lia). rewrite B. cbn [negb]. change (32 =? 32) with true. cbn [negb].
    destruct (proj2 (raw_next_push (q ++ rest) s rest)) as (op3 & E3); [exists q; auto|].
    apply next_op_iff. exists op3, (Some s), rest. split; [exact E3|].
    destruct (Z.eqb_spec (blen s) 0) as [Z0|]; [|reflexivity]. exfalso. apply Ls. destruct s; [reflexivity|]. rewrite blen_cons in Z0. pose proof (blen_nonneg s). lia.
Qed.

Lemma encode_push d p : encode_op_pushdata d = Ok p -> Push d p.
Proof.
  pose proof (blen_nonneg d) as N. unfold encode_op_pushdata.
  destruct (Z.ltb_spec (blen d) 0x4c).
  { intros E. apply Ok_inj in E. subst p. constructor; rewrite bz_zb, Z.mod_small; lia. }
  destruct (Z.leb_spec (blen d) 0xff).
  { intros E. apply Ok_inj in E. subst p. apply (push_1 d (zb (blen d))). rewrite bz_zb, Z.mod_small; lia. }
  destruct (Z.leb_spec (blen d) 0xffff).
  { unfold pack_le. destruct (_ && _) eqn:B; cbn [rbind]; [|discriminate]. intros E. apply Ok_inj in E. subst p.
    rewrite !le_bytes_S. cbn [le_bytes app]. apply push_2. rewrite !bz_zb.
    change (zb 0x4d) with x4d. pose proof (Z.div_mod (blen d) 256 ltac:(lia)).
    rewrite (Z.mod_small (blen d / 256)); [lia|]. split; [apply Z.div_pos; lia|apply Z.div_lt_upper_bound; lia]. }
  destruct (Z.leb_spec (blen d) 0xffffffff); [|discriminate].
  unfold pack_le. destruct (_ && _) eqn:B; cbn [rbind]; [|discriminate]. intros E. apply Ok_inj in E. subst p.
  rewrite !le_bytes_S. cbn [le_bytes app]. apply push_4. rewrite !bz_zb.
  pose proof (Z.div_mod (blen d) 256 ltac:(lia)).
  pose proof (Z.div_mod (blen d / 256) 256 ltac:(lia)).
  pose proof (Z.div_mod (blen d / 256 / 256) 256 ltac:(lia)).
  rewrite (Z.mod_small (blen d / 256 / 256 / 256)); [lia|]. rewrite !Z.div_div by lia.
  split; [apply Z.div_pos; lia|apply Z.div_lt_upper_bound; lia].
Qed.
Lemma encode_push_total d : (exists p, encode_op_pushdata d = Ok p) <-> blen d <= 0xffffffff.
Proof.
  pose proof (blen_nonneg d) as N. unfold encode_op_pushdata.
  destruct (Z.ltb_spec (blen d) 0x4c); [split; [lia|eauto]|].
  destruct (Z.leb_spec (blen d) 0xff); [split; [lia|eauto]|].
  destruct (Z.leb_spec (blen d) 0xffff).
  { unfold pack_le. rewrite (proj2 (Z.leb_le 0 (blen d))), (proj2 (Z.ltb_lt (blen d) (256 ^ Z.of_nat 2))) by lia.
    cbn [andb rbind]. split; [lia|eauto]. }
  destruct (Z.leb_spec (blen d) 0xffffffff).
  { unfold pack_le. rewrite (proj2 (Z.leb_le 0 (blen d))), (proj2 (Z.ltb_lt (blen d) (256 ^ Z.of_nat 4))) by lia.
    cbn [andb rbind]. split; [lia|eauto]. }
  split; [intros (p & E); discriminate|lia].
Qed.
