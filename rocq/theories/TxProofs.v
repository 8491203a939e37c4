(** Serializers write the wire format of [SpecWire.v]; deserializers read it. *)
From Verif Require Import Base BaseFacts Serialize ParserFacts TxModel SpecWire.
Local Open Scope Z_scope.

(** * Integers *)
Lemma pack_le_iff n z b : pack_le n z = Ok b <-> le_int n z b.
Proof.
  unfold pack_le, le_int. split.
  - destruct ((0 <=? z) && (z <? 256 ^ Z.of_nat n)) eqn:E; [|discriminate].
    intros H; inversion H; subst. split; [apply le_bytes_length|].
    rewrite le_val_le_bytes. apply Z.mod_small. lia.
  - intros [HL HV]. pose proof (le_val_range b) as HR. unfold blen in HR. rewrite HL, HV in HR.
    replace ((0 <=? z) && (z <? 256 ^ Z.of_nat n)) with true by lia.
    rewrite <- HL, <- HV, le_bytes_le_val. reflexivity.
Qed.

Lemma le_int_range n z b : le_int n z b -> 0 <= z < 256 ^ Z.of_nat n.
Proof. intros [<- <-]. apply le_val_range. Qed.

Lemma le_int_inj n z z' b : le_int n z b -> le_int n z' b -> z = z'.
Proof. intros [_ <-] [_ <-]. reflexivity. Qed.

Lemma le_int_ex n z : 0 <= z < 256 ^ Z.of_nat n -> exists b, le_int n z b.
Proof.
  intros H. exists (le_bytes n z). split; [apply le_bytes_length|].
  rewrite le_val_le_bytes. apply Z.mod_small. assumption.
Qed.

Lemma read_le_W n z b r : (n <= 8)%nat -> le_int n z b -> read_le n (b ++ r) = Ok (z, r).
Proof. intros Hn [HL <-]. apply read_le_app; [assumption|]. unfold MAX_SIZE. lia. Qed.

Lemma pack_sint32_iff z b : pack_le_signed 4 z = Ok b <-> le_sint32 z b.
Proof.
  unfold pack_le_signed, le_sint32. change (256 ^ Z.of_nat 4) with (2 ^ 32).
  change (2 ^ 32 / 2) with (2 ^ 31).
  split.
  - destruct ((- 2 ^ 31 <=? z) && (z <? 2 ^ 31)) eqn:E; [|discriminate].
    intros H; apply Ok_inj in H; subst. split; [lia|]. split; [apply le_bytes_length|].
    rewrite le_val_le_bytes. change (256 ^ Z.of_nat 4) with (2 ^ 32).
    destruct (Z.ltb_spec z 0).
    + rewrite <- (Z.mod_add z 1) by lia. rewrite Z.mod_small; lia.
    + apply Z.mod_small; lia.
  - intros [Hz [HL HV]]. replace ((- 2 ^ 31 <=? z) && (z <? 2 ^ 31)) with true by lia.
    f_equal. rewrite <- (le_bytes_le_val b), HL, HV.
    destruct (Z.ltb_spec z 0); [|reflexivity].
    rewrite <- (le_bytes_mod 4 z), <- (le_bytes_mod 4 (z + 2 ^ 32)).
    change (256 ^ Z.of_nat 4) with (2 ^ 32). f_equal.
    rewrite <- (Z.mod_add z 1 (2 ^ 32)) by lia. f_equal.
Qed.

Lemma read_sint32_W z b r : le_sint32 z b ->
  exists u, read_le 4 (b ++ r) = Ok (u, r) /\ to_signed 4 u = z.
Proof.
  intros [Hz H]. eexists. split; [apply read_le_W; [lia|exact H]|].
  unfold to_signed. change (256 ^ Z.of_nat 4) with (2 ^ 32). change (2 ^ 32 / 2) with (2 ^ 31).
  destruct (Z.ltb_spec z 0).
  - destruct (Z.ltb_spec (z + 2 ^ 32) (2 ^ 31)); lia.
  - destruct (Z.ltb_spec z (2 ^ 31)); lia.
Qed.

Lemma le_sint32_ex z : - 2 ^ 31 <= z < 2 ^ 31 -> exists b, le_sint32 z b.
Proof.
  intros H. destruct (le_int_ex 4 (if z <? 0 then z + 2 ^ 32 else z)) as [b Hb].
  { change (256 ^ Z.of_nat 4) with (2 ^ 32). destruct (Z.ltb_spec z 0); lia. }
  exists b. split; assumption.
Qed.

(** * Compact size *)
Lemma le_int_1 z b : le_int 1 z b <-> 0 <= z < 256 /\ b = [zb z].
Proof.
  split.
  - intros H. split; [apply (le_int_range 1 z b H)|]. destruct H as [HL HV].
    destruct b as [|x [|]]; try discriminate. simpl in HV. rewrite Z.add_0_r in HV. subst z.
    rewrite zb_bz. reflexivity.
  - intros [Hz ->]. split; [reflexivity|]. cbn [le_val]. rewrite bz_zb, Z.mod_small; lia.
Qed.

Lemma ser_varint_iff z b : 0 <= z -> ser_varint z = Ok b <-> W_varint z b.
Proof.
  intros Hz. unfold ser_varint. split.
  - intros H. destruct (Z.ltb_spec z 253).
    { inversion H; subst. apply Wv1; [lia|]. apply le_int_1. split; [lia|reflexivity]. }
    destruct (Z.leb_spec z 65535).
    { rinv H. apply Wv2; [lia|]. apply pack_le_iff, E. }
    destruct (Z.leb_spec z 4294967295).
    { rinv H. apply Wv4; [lia|]. apply pack_le_iff, E. }
    rinv H. apply pack_le_iff in E. pose proof (le_int_range _ _ _ E) as R.
    change (256 ^ Z.of_nat 8) with (2 ^ 64) in R.
    apply Wv8; [lia|assumption].
  - intros H; destruct H as [b Hr H|b Hr H|b Hr H|b Hr H].
    + apply le_int_1 in H. destruct H as [_ ->]. destruct (Z.ltb_spec z 253); [reflexivity|lia].
    + apply pack_le_iff in H. destruct (Z.ltb_spec z 253); [lia|].
      destruct (Z.leb_spec z 65535); [|lia]. rewrite H. reflexivity.
    + apply pack_le_iff in H. destruct (Z.ltb_spec z 253); [lia|].
      destruct (Z.leb_spec z 65535); [lia|]. destruct (Z.leb_spec z 4294967295); [|lia]. rewrite H. reflexivity.
    + apply pack_le_iff in H. destruct (Z.ltb_spec z 253); [lia|].
      destruct (Z.leb_spec z 65535); [lia|]. destruct (Z.leb_spec z 4294967295); [lia|]. rewrite H. reflexivity.
Qed.

Lemma W_varint_ex z : 0 <= z < 2 ^ 64 -> exists b, W_varint z b.
Proof.
  intros Hz. destruct (Z_lt_le_dec z 253).
  { exists [zb z]. apply Wv1; [lia|]. apply le_int_1. split; [lia|reflexivity]. }
  destruct (Z_lt_le_dec z (2 ^ 16)).
  { destruct (le_int_ex 2 z) as [b Hb]; [change (256 ^ Z.of_nat 2) with (2^16); lia|].
    exists (xfd :: b). apply Wv2; [lia|assumption]. }
  destruct (Z_lt_le_dec z (2 ^ 32)).
  { destruct (le_int_ex 4 z) as [b Hb]; [change (256 ^ Z.of_nat 4) with (2^32); lia|].
    exists (xfe :: b). apply Wv4; [lia|assumption]. }
  destruct (le_int_ex 8 z) as [b Hb]; [change (256 ^ Z.of_nat 8) with (2^64); lia|].
  exists (xff :: b). apply Wv8; [lia|assumption].
Qed.

Lemma W_varint_range z b : W_varint z b -> 0 <= z < 2 ^ 64.
Proof. intros []; lia. Qed.

Lemma ser_read_1 x r : ser_read 1 (x :: r) = Ok ([x], r).
Proof. apply (ser_read_app 1 [x] r); [reflexivity|]. unfold MAX_SIZE; lia. Qed.

Lemma deser_varint_W z b r : W_varint z b -> deser_varint (b ++ r) = Ok (z, r).
Proof.
  intros H. unfold deser_varint, pbind.
  destruct H as [b Hr H|b Hr H|b Hr H|b Hr H].
  - apply le_int_1 in H. destruct H as [_ ->]. cbn [app]. rewrite ser_read_1.
    cbn [le_val]. rewrite bz_zb, Z.mod_small by lia.
    replace (z + 256 * 0) with z by lia.
    destruct (Z.ltb_spec z 253); [reflexivity|lia].
  - cbn [app]. rewrite ser_read_1. change (le_val [xfd]) with 253. cbn [Z.ltb Z.eqb Z.compare Pos.compare Pos.compare_cont].
    apply read_le_W; [lia|assumption].
  - cbn [app]. rewrite ser_read_1. change (le_val [xfe]) with 254.
    apply read_le_W; [lia|assumption].
  - cbn [app]. rewrite ser_read_1. change (le_val [xff]) with 255.
    apply read_le_W; [lia|assumption].
Qed.

(** * Byte strings, sequences, vectors *)
Lemma ser_bytes_iff d b : ser_bytes d = Ok b <-> W_bytes d b.
Proof.
  unfold ser_bytes, W_bytes. rewrite rbind_Ok. split.
  - intros (n & Hn & H). inversion H; subst. exists n. split; [|reflexivity].
    apply ser_varint_iff; [apply blen_nonneg|assumption].
  - intros (n & Hn & ->). exists n. split; [|reflexivity].
    apply ser_varint_iff; [apply blen_nonneg|assumption].
Qed.

Lemma W_bytes_ex d : small d -> exists b, W_bytes d b.
Proof.
  unfold small. intros H. pose proof (blen_nonneg d).
  destruct (W_varint_ex (blen d)) as [n Hn]; [lia|]. exists (n ++ d), n. auto.
Qed.

Lemma deser_bytes_W d b r : small d -> W_bytes d b -> deser_bytes (b ++ r) = Ok (d, r).
Proof.
  intros Hs (n & Hn & ->). unfold deser_bytes, pbind. rewrite <- app_assoc, (deser_varint_W _ _ _ Hn).
  apply ser_read_app; [reflexivity|exact Hs].
Qed.

Lemma ser_list_iff {A} (f : A -> res bytes) (W : A -> bytes -> Prop) l b :
  (forall x b, f x = Ok b <-> W x b) -> ser_list f l = Ok b <-> W_seq W l b.
Proof.
  intros Hf. revert b; induction l as [|x l IH]; intros b; simpl.
  - split; intros H; inversion H; subst; constructor.
  - rewrite rbind_Ok. split.
    + intros (b1 & H1 & H2). rewrite rbind_Ok in H2. destruct H2 as (b2 & H2 & H3). inversion H3; subst.
      constructor; [apply Hf, H1|apply IH, H2].
    + intros H. inversion H; subst. exists b0. split; [apply Hf; assumption|].
      rewrite rbind_Ok. exists bs. split; [apply IH; assumption|reflexivity].
Qed.

Lemma ser_vector_iff {A} (f : A -> res bytes) (W : A -> bytes -> Prop) l b :
  (forall x b, f x = Ok b <-> W x b) -> ser_vector f l = Ok b <-> W_vec W l b.
Proof.
  intros Hf. unfold ser_vector, W_vec. rewrite rbind_Ok. split.
  - intros (n & Hn & H). rinv H. exists n, a. split; [apply ser_varint_iff; [lia|assumption]|].
    split; [|reflexivity]. apply (ser_list_iff f W); assumption.
  - intros (n & s & Hn & Hs & ->). exists n. split; [apply ser_varint_iff; [lia|assumption]|].
    apply (ser_list_iff f W l s Hf) in Hs. rewrite Hs. reflexivity.
Qed.

Lemma W_seq_ex {A} (W : A -> bytes -> Prop) (P : A -> Prop) l :
  (forall x, P x -> exists b, W x b) -> Forall P l -> exists b, W_seq W l b.
Proof.
  intros HW HF. induction HF as [|x l Hx HF IH].
  - exists []. constructor.
  - destruct (HW x Hx) as [b Hb]. destruct IH as [bs Hbs]. exists (b ++ bs). constructor; assumption.
Qed.

Lemma W_vec_ex {A} (W : A -> bytes -> Prop) (P : A -> Prop) l :
  (forall x, P x -> exists b, W x b) -> Forall P l -> Z.of_nat (length l) < 2 ^ 64 -> exists b, W_vec W l b.
Proof.
  intros HW HF HL. destruct (W_seq_ex W P l HW HF) as [s Hs].
  destruct (W_varint_ex (Z.of_nat (length l))) as [n Hn]; [lia|].
  exists (n ++ s), n, s. auto.
Qed.

Lemma prep_nat_W {A} (p : parser A) (W : A -> bytes -> Prop) (f : A -> A) l b r :
  Forall (fun x => forall b r, W x b -> p (b ++ r) = Ok (f x, r)) l ->
  W_seq W l b -> prep_nat p (length l) (b ++ r) = Ok (map f l, r).
Proof.
  intros HF. revert b r. induction HF as [|x l Hx HF IH]; intros b r H; inversion H; subst.
  - reflexivity.
  - cbn [length prep_nat map]. unfold pbind. rewrite <- app_assoc, (Hx _ _ H2), (IH _ _ H4). reflexivity.
Qed.

Lemma deser_vector_Wf {A} (p : parser A) (W : A -> bytes -> Prop) (f : A -> A) l b r :
  Forall (fun x => forall b r, W x b -> p (b ++ r) = Ok (f x, r)) l ->
  W_vec W l b -> deser_vector p (b ++ r) = Ok (map f l, r).
Proof.
  intros HF (n & s & Hn & Hs & ->). unfold deser_vector, pbind.
  rewrite <- app_assoc, (deser_varint_W _ _ _ Hn).
  rewrite prep_nat_Z by lia. rewrite Nat2Z.id. apply (prep_nat_W p W); assumption.
Qed.

Lemma deser_vector_W {A} (p : parser A) (W : A -> bytes -> Prop) (P : A -> Prop) l b r :
  (forall x b r, P x -> W x b -> p (b ++ r) = Ok (x, r)) -> Forall P l ->
  W_vec W l b -> deser_vector p (b ++ r) = Ok (l, r).
Proof.
  intros HP HF HW. rewrite (deser_vector_Wf p W (fun x => x) l b r); [rewrite map_id; reflexivity| |assumption].
  eapply Forall_impl; [|exact HF]. cbn. intros; apply HP; assumption.
Qed.

Lemma deser_stack_W st b r : small_stack st -> W_vec W_bytes st b -> deser_scriptwitness (b ++ r) = Ok (st, r).
Proof.
  intros [_ HF] H. apply (deser_vector_W deser_bytes W_bytes small); [|assumption|assumption].
  intros; apply deser_bytes_W; assumption.
Qed.

(** * Confidential fields *)
Lemma bz_eq_byte b z : 0 <= z < 256 -> bz b =? z = true <-> b = zb z.
Proof.
  intros Hz. rewrite Z.eqb_eq. split.
  - intros <-. symmetry. apply zb_bz.
  - intros ->. rewrite bz_zb. apply Z.mod_small; lia.
Qed.

Lemma conf_is_valid_iff c x : conf_is_valid c x = true <-> ConfForm c x.
Proof.
  unfold conf_is_valid. rewrite !orb_true_iff. split.
  - intros [[H|H]|H].
    + unfold conf_is_null in H. destruct x; [constructor|]. rewrite blen_cons in H. pose proof (blen_nonneg x). lia.
    + unfold conf_is_explicit in H. apply andb_true_iff in H. destruct H as [HL HB].
      destruct x as [|b d]; [discriminate|]. apply (bz_eq_byte b 1) in HB; [|lia]. subst b.
      change (zb 1) with x01. apply CF_explicit. rewrite blen_cons in HL. unfold explicitSize in *; destruct c; lia.
    + unfold conf_is_commitment in H. apply andb_true_iff in H. destruct H as [HL HB].
      destruct x as [|b d]; [discriminate|]. rewrite blen_cons in HL. unfold committedSize in HL.
      apply CF_commit; [|lia].
      apply orb_true_iff in HB. destruct HB as [HB|HB]; apply bz_eq_byte in HB;
        try (destruct c; simpl; lia); subst b; destruct c; simpl; auto.
  - intros H; destruct H as [|d Hd|p d Hp Hd].
    + left; left; reflexivity.
    + left; right. unfold conf_is_explicit. rewrite blen_cons. apply andb_true_iff. split; [|reflexivity].
      unfold explicitSize in *; destruct c; lia.
    + right. unfold conf_is_commitment. rewrite blen_cons. unfold committedSize. apply andb_true_iff. split; [lia|].
      destruct c; simpl in Hp; destruct Hp as [<-|[<-|[]]]; reflexivity.
Qed.

Lemma conf_new_valid c x : ConfForm c x -> conf_new c x = Ok x.
Proof.
  intros H. unfold conf_new, committedSize. destruct H as [|d Hd|p d Hp Hd]; rewrite ?blen_cons.
  - reflexivity.
  - replace ((1 + blen d =? 0) || (1 + blen d =? explicitSize c) || (1 + blen d =? 33)) with true; [reflexivity|].
    unfold explicitSize in *; destruct c; lia.
  - replace ((1 + blen d =? 0) || (1 + blen d =? explicitSize c) || (1 + blen d =? 33)) with true; [reflexivity|].
    lia.
Qed.

Lemma ser_conf_W x : W_conf x (ser_conf x).
Proof. destruct x; [left|right]; simpl; auto. split; [discriminate|reflexivity]. Qed.

Lemma W_conf_ser x b : W_conf x b <-> b = ser_conf x.
Proof.
  split; [|intros ->; apply ser_conf_W].
  intros [[-> ->]|[Hne ->]]; [reflexivity|]. destruct x; [contradiction|reflexivity].
Qed.

Lemma ser_conf_nonempty x : ser_conf x <> [].
Proof. destruct x; discriminate. Qed.

Lemma deser_conf_W c x b r : ConfForm c x -> W_conf x b -> deser_conf c (b ++ r) = Ok (x, r).
Proof.
  intros HC HW. apply W_conf_ser in HW. subst b.
  pose proof (conf_new_valid c x HC) as HN.
  unfold deser_conf, pbind.
  destruct HC as [|d Hd|p d Hp Hd].
  - cbn [ser_conf app]. rewrite ser_read_1. change (le_val [x00]) with 0. cbn. reflexivity.
  - cbn [ser_conf app]. rewrite ser_read_1. change (le_val [x01]) with 1.
    change (1 =? 0) with false. change (1 =? 1) with true. cbv iota. unfold pret at 1.
    replace (0 <? explicitSize c) with true by (destruct c; reflexivity).
    rewrite ser_read_app; [|unfold explicitSize in *; destruct c; lia|unfold explicitSize, MAX_SIZE in *; destruct c; lia].
    unfold pret. change (zb 1) with x01. cbn [app]. rewrite HN. reflexivity.
  - cbn [ser_conf app]. rewrite ser_read_1.
    assert (E : le_val [p] = bz p) by (cbn [le_val]; lia). rewrite E. clear E.
    assert (HP : (bz p =? 0) = false /\ (bz p =? 1) = false
                 /\ ((bz p =? prefixA c) || (bz p =? prefixB c)) = true).
    { destruct c; simpl in Hp; destruct Hp as [<-|[<-|[]]]; auto. }
    destruct HP as (-> & -> & ->). cbv iota. unfold pret at 1.
    change (0 <? committedSize) with true. cbv beta iota.
    rewrite ser_read_app; [|unfold committedSize; lia|unfold committedSize, MAX_SIZE; lia].
    unfold pret. rewrite zb_bz. cbn [app]. rewrite HN. reflexivity.
Qed.

Lemma local_deser_conf c : local (deser_conf c).
Proof.
  apply local_pbind; [apply local_ser_read; lia|]. intros vb. cbv zeta.
  assert (Hq : forall q, local (if 0 <? q then do! t := ser_read (q - 1) in pret ([zb (le_val vb)] ++ t) else pret [])).
  { intros q. destruct (Z.ltb_spec 0 q); [|apply local_pret].
    apply local_pbind; [apply local_ser_read; lia|]. intros; apply local_pret. }
  apply local_pbind.
  - repeat match goal with |- context [if ?b then _ else _] => destruct b end;
    first [apply local_pret | apply local_pfail].
  - intros q. apply local_pbind; [apply Hq|]. intros x. apply local_lift.
Qed.

Lemma deser_conf_inv c s x r :
  deser_conf c s = Ok (x, r) -> ConfForm c x /\ s = ser_conf x ++ r.
Proof.
  unfold deser_conf. intros H. unfold pbind at 1 in H.
  destruct (ser_read 1 s) as [[v rest]|] eqn:E; [|discriminate].
  apply ser_read_inv in E; [|lia]. destruct E as (-> & HL & _).
  unfold blen in HL. destruct v as [|y [|]]; cbn [length] in HL; try lia. clear HL.
  cbv zeta in H.
  assert (EV : le_val [y] = bz y) by (cbn [le_val]; lia). rewrite EV in H. clear EV.
  destruct (bz y =? 0) eqn:E0.
  - apply (bz_eq_byte y 0) in E0; [|lia]. change (zb 0) with x00 in E0. subst y.
    cbn in H. apply Ok_pair_inj in H. destruct H; subst. split; [constructor|reflexivity].
  - destruct (bz y =? 1) eqn:E1.
    + apply (bz_eq_byte y 1) in E1; [|lia]. change (zb 1) with x01 in E1. subst y.
      unfold pbind, pret at 1 in H.
      replace (0 <? explicitSize c) with true in H by (destruct c; reflexivity).
      destruct (ser_read (explicitSize c - 1) rest) as [[d r2]|] eqn:Er; [|discriminate].
      apply ser_read_inv in Er; [|unfold explicitSize; destruct c; lia]. destruct Er as (-> & HL & _).
      unfold pret in H. change (zb (bz x01)) with x01 in H. cbn [app] in H.
      assert (HC : ConfForm c (x01 :: d)) by (apply CF_explicit; unfold explicitSize in HL; destruct c; lia).
      rewrite (conf_new_valid _ _ HC) in H. apply Ok_pair_inj in H. destruct H; subst. split; [assumption|reflexivity].
    + destruct ((bz y =? prefixA c) || (bz y =? prefixB c)) eqn:E2; [|discriminate].
      unfold pbind, pret at 1 in H. change (0 <? committedSize) with true in H. cbv beta iota in H.
      destruct (ser_read (committedSize - 1) rest) as [[d r2]|] eqn:Er; [|discriminate].
      apply ser_read_inv in Er; [|unfold committedSize; lia]. destruct Er as (-> & HL & _).
      unfold pret in H. rewrite zb_bz in H. cbn [app] in H.
      assert (HC : ConfForm c (y :: d)).
      { apply CF_commit; [|unfold committedSize in HL; lia].
        apply orb_true_iff in E2. destruct E2 as [E2|E2]; apply bz_eq_byte in E2;
          try (destruct c; simpl; lia); subst y; destruct c; simpl; auto. }
      rewrite (conf_new_valid _ _ HC) in H. apply Ok_pair_inj in H. destruct H; subst. split; [assumption|reflexivity].
Qed.

(** * Witnesses *)
Lemma ser_stack_iff st b : ser_scriptwitness st = Ok b <-> W_vec W_bytes st b.
Proof. apply ser_vector_iff. intros; apply ser_bytes_iff. Qed.

Lemma ser_inwit_iff w b : ser_inwit w = Ok b <-> W_inwit w b.
Proof.
  unfold ser_inwit, W_inwit. split.
  - intros H. rinv H. exists a, a0, a1, a2.
    apply ser_bytes_iff in E, E0. apply ser_stack_iff in E1, E2. auto.
  - intros (a & k & s & p & Ha & Hk & Hs & Hp & ->).
    apply ser_bytes_iff in Ha, Hk. apply ser_stack_iff in Hs, Hp.
    rewrite Ha; cbn [rbind]; rewrite Hk; cbn [rbind]; rewrite Hs; cbn [rbind]; rewrite Hp. reflexivity.
Qed.

Lemma ser_outwit_iff w b : ser_outwit w = Ok b <-> W_outwit w b.
Proof.
  unfold ser_outwit, W_outwit. split.
  - intros H. rinv H. exists a, a0. apply ser_bytes_iff in E, E0. auto.
  - intros (s & r & Hs & Hr & ->). apply ser_bytes_iff in Hs, Hr.
    rewrite Hs; cbn [rbind]; rewrite Hr. reflexivity.
Qed.

Lemma small_stack_ex st : small_stack st -> exists b, W_vec W_bytes st b.
Proof. intros [HL HF]. apply (W_vec_ex W_bytes small); [apply W_bytes_ex|assumption|assumption]. Qed.

Lemma W_inwit_ex w : wf_inwit w -> exists b, W_inwit w b.
Proof.
  intros (H1 & H2 & H3 & H4).
  destruct (W_bytes_ex _ H1), (W_bytes_ex _ H2), (small_stack_ex _ H3), (small_stack_ex _ H4).
  eexists; do 4 eexists; eauto 10.
Qed.

Lemma W_outwit_ex w : wf_outwit w -> exists b, W_outwit w b.
Proof.
  intros (H1 & H2). destruct (W_bytes_ex _ H1), (W_bytes_ex _ H2).
  eexists; do 2 eexists; eauto 10.
Qed.

Lemma deser_inwit_W w b r : wf_inwit w -> W_inwit w b -> deser_inwit (b ++ r) = Ok (w, r).
Proof.
  intros (H1 & H2 & H3 & H4) (a & k & s & p & Ha & Hk & Hs & Hp & ->).
  unfold deser_inwit, pbind. rewrite <- !app_assoc.
  rewrite (deser_bytes_W _ _ _ H1 Ha), (deser_bytes_W _ _ _ H2 Hk), (deser_stack_W _ _ _ H3 Hs), (deser_stack_W _ _ _ H4 Hp).
  destruct w; reflexivity.
Qed.

Lemma deser_outwit_W w b r : wf_outwit w -> W_outwit w b -> deser_outwit (b ++ r) = Ok (w, r).
Proof.
  intros (H1 & H2) (s & p & Hs & Hp & ->).
  unfold deser_outwit, pbind. rewrite <- !app_assoc.
  rewrite (deser_bytes_W _ _ _ H1 Hs), (deser_bytes_W _ _ _ H2 Hp).
  destruct w; reflexivity.
Qed.

Lemma local_deser_inwit : local deser_inwit.
Proof.
  repeat (apply local_pbind; [first [apply local_deser_bytes | apply local_scriptwitness] | intros]).
  apply local_pret.
Qed.

Lemma local_deser_outwit : local deser_outwit.
Proof.
  repeat (apply local_pbind; [apply local_deser_bytes | intros]). apply local_pret.
Qed.

Lemma deser_stack_inv s st r : deser_scriptwitness s = Ok (st, r) -> small_stack st.
Proof.
  intros H. apply (deser_vector_inv deser_bytes small) in H; [exact H|].
  intros ? ? ? HH. apply deser_bytes_inv in HH. exact HH.
Qed.

Lemma deser_inwit_inv s w r : deser_inwit s = Ok (w, r) -> wf_inwit w.
Proof.
  unfold deser_inwit. intros H. pinv H.
  apply deser_bytes_inv in E, E0. apply deser_stack_inv in E1, E2.
  repeat split; try assumption; try apply E1; try apply E2.
Qed.

Lemma deser_outwit_inv s w r : deser_outwit s = Ok (w, r) -> wf_outwit w.
Proof.
  unfold deser_outwit. intros H. pinv H. apply deser_bytes_inv in E, E0. split; assumption.
Qed.

Lemma inwit_is_null_iff w : inwit_is_null w = true <-> NullIn w.
Proof.
  unfold inwit_is_null, NullIn. destruct w as [sc ia ik pg]; simpl. split.
  - intros H. destruct sc; [|rewrite andb_false_r in H; discriminate]. destruct pg; [|rewrite !andb_false_r in H; discriminate].
    destruct ia; [|discriminate]. destruct ik; [reflexivity|discriminate].
  - intros H; inversion H; reflexivity.
Qed.

Lemma outwit_is_null_iff w : outwit_is_null w = true <-> NullOut w.
Proof.
  unfold outwit_is_null, NullOut. destruct w as [a b]; simpl. split.
  - destruct a; [|discriminate]. destruct b; [reflexivity|discriminate].
  - intros H; inversion H; reflexivity.
Qed.

Lemma forallb_Forall_iff {A} (f : A -> bool) (P : A -> Prop) l :
  (forall x, f x = true <-> P x) -> forallb f l = true <-> Forall P l.
Proof.
  intros H. rewrite forallb_forall, Forall_forall. split; intros HH x Hx; apply H, HH, Hx.
Qed.

Lemma txwit_is_null_iff w : txwit_is_null w = true <-> NullWit w.
Proof.
  unfold txwit_is_null, NullWit. rewrite andb_true_iff.
  rewrite (forallb_Forall_iff _ NullIn) by apply inwit_is_null_iff.
  rewrite (forallb_Forall_iff _ NullOut) by apply outwit_is_null_iff. reflexivity.
Qed.

Lemma txwit_not_null_iff w : txwit_is_null w = false <-> ~ NullWit w.
Proof. rewrite <- txwit_is_null_iff. destruct (txwit_is_null w); split; congruence. Qed.

(** * Issuance *)
Lemma W_issuance_ser i b : W_issuance i b <-> b = ser_issuance i.
Proof.
  unfold W_issuance, ser_issuance. split.
  - intros (a & k & Ha & Hk & ->). apply W_conf_ser in Ha, Hk. subst. reflexivity.
  - intros ->. do 2 eexists. split; [apply ser_conf_W|]. split; [apply ser_conf_W|]. reflexivity.
Qed.

Lemma deser_uint256_app h r : blen h = 32 -> deser_uint256 (h ++ r) = Ok (h, r).
Proof. intros H. apply ser_read_app; [assumption|]. unfold MAX_SIZE; lia. Qed.

Lemma deser_issuance_W i b r : wf_issuance i -> W_issuance i b -> deser_issuance (b ++ r) = Ok (i, r).
Proof.
  intros (H1 & H2 & H3 & H4) (a & k & Ha & Hk & ->).
  unfold deser_issuance, pbind. rewrite <- !app_assoc.
  rewrite (deser_uint256_app _ _ H1), (deser_uint256_app _ _ H2),
    (deser_conf_W _ _ _ _ H3 Ha), (deser_conf_W _ _ _ _ H4 Hk).
  destruct i; reflexivity.
Qed.

Lemma local_deser_issuance : local deser_issuance.
Proof.
  repeat (apply local_pbind; [first [apply local_deser_conf | apply local_ser_read; lia] | intros]).
  apply local_pret.
Qed.

Lemma deser_issuance_inv s i r : deser_issuance s = Ok (i, r) ->
  wf_issuance i /\ s = ser_issuance i ++ r.
Proof.
  unfold deser_issuance. intros H. pinv H.
  unfold deser_uint256 in *.
  apply ser_read_inv in E; [|lia]. apply ser_read_inv in E0; [|lia].
  apply deser_conf_inv in E1, E2. destruct E as (-> & ? & _), E0 as (-> & ? & _), E1 as (? & ->), E2 as (? & ->).
  split; [repeat split; assumption|]. unfold ser_issuance; cbn. rewrite <- !app_assoc. reflexivity.
Qed.

Lemma issuance_is_null_has i : issuance_is_null (assetIssuance i) = negb (has_issuance i).
Proof.
  unfold issuance_is_null, has_issuance, conf_is_null.
  destruct (is_amount (assetIssuance i)) as [|x l]; [|rewrite blen_cons].
  - destruct (is_keys (assetIssuance i)) as [|x l]; [reflexivity|]. rewrite blen_cons. pose proof (blen_nonneg l). cbn [negb]. rewrite ?blen_nil. lia.
  - pose proof (blen_nonneg l). cbn [negb]. rewrite ?blen_nil. lia.
Qed.

Lemma issuance_default_wf : wf_issuance issuance_default.
Proof. repeat split; constructor. Qed.

(** * Index flags *)
Lemma land_pow2_testbit w k : 0 <= k -> negb (Z.land w (2 ^ k) =? 0) = Z.testbit w k.
Proof.
  intros Hk. destruct (Z.testbit w k) eqn:E.
  - destruct (Z.eqb_spec (Z.land w (2 ^ k)) 0) as [H|H]; [|reflexivity].
    apply (f_equal (fun z => Z.testbit z k)) in H.
    rewrite Z.land_spec, E, Z.pow2_bits_true, Z.bits_0 in H by lia. discriminate.
  - replace (Z.land w (2 ^ k)) with 0; [reflexivity|].
    symmetry. apply Z.bits_inj'. intros n Hn. rewrite Z.land_spec, Z.bits_0, Z.pow2_bits_eqb by lia.
    destruct (Z.eqb_spec k n); [subst; rewrite E; reflexivity|apply andb_false_r].
Qed.

Lemma land_mask w : Z.land w OUTPOINT_INDEX_MASK = w mod 2 ^ 30.
Proof. unfold OUTPOINT_INDEX_MASK. change 0x3fffffff with (Z.ones 30). apply Z.land_ones. lia. Qed.

Lemma land_lnot_mask w : Z.land w (Z.lnot OUTPOINT_INDEX_MASK) = w - w mod 2 ^ 30.
Proof.
  pose proof (land_mask w) as H.
  assert (E : w = Z.land w OUTPOINT_INDEX_MASK + Z.land w (Z.lnot OUTPOINT_INDEX_MASK)).
  { assert (H0 : Z.land (Z.land w OUTPOINT_INDEX_MASK) (Z.land w (Z.lnot OUTPOINT_INDEX_MASK)) = 0).
    { apply Z.bits_inj'. intros n Hn. rewrite !Z.land_spec, Z.lnot_spec, Z.bits_0 by lia.
      destruct (Z.testbit w n), (Z.testbit OUTPOINT_INDEX_MASK n); reflexivity. }
    rewrite Z.add_nocarry_lxor, Z.lxor_lor by assumption.
    apply Z.bits_inj'. intros n Hn. rewrite Z.lor_spec, !Z.land_spec, Z.lnot_spec by lia.
    destruct (Z.testbit w n), (Z.testbit OUTPOINT_INDEX_MASK n); reflexivity. }
  lia.
Qed.

Lemma high_bits_iff w :
  (Z.land w (Z.lnot OUTPOINT_INDEX_MASK) =? 0) = (0 <=? w) && (w <? 2 ^ 30).
Proof. rewrite land_lnot_mask. lia. Qed.

Lemma testbit_b2z w k : 0 <= k -> Z.b2z (Z.testbit w k) = (w / 2 ^ k) mod 2.
Proof. intros. apply Z.testbit_spec'. assumption. Qed.

Lemma lor_pow2 n k : 0 <= k -> 0 <= n -> Z.testbit n k = false -> Z.lor n (2 ^ k) = n + 2 ^ k.
Proof.
  intros Hk Hn Ht. symmetry.
  assert (Z.land n (2 ^ k) = 0) as HL.
  { apply Z.bits_inj'. intros j Hj. rewrite Z.land_spec, Z.bits_0, Z.pow2_bits_eqb by lia.
    destruct (Z.eqb_spec k j); [subst; rewrite Ht; reflexivity|apply andb_false_r]. }
  rewrite Z.add_nocarry_lxor by assumption. apply Z.lxor_lor. assumption.
Qed.

Lemma testbit_false_small n k : 0 <= k -> (n / 2 ^ k) mod 2 = 0 -> Z.testbit n k = false.
Proof. intros Hk H. pose proof (testbit_b2z n k Hk). destruct (Z.testbit n k); simpl in *; lia. Qed.

Lemma testbit_true n k : 0 <= k -> (n / 2 ^ k) mod 2 = 1 -> Z.testbit n k = true.
Proof. intros Hk H. pose proof (testbit_b2z n k Hk). destruct (Z.testbit n k); simpl in *; lia. Qed.

Definition idx_flags (n : Z) (a b : bool) : Z := n + (if a then 2 ^ 31 else 0) + (if b then 2 ^ 30 else 0).

Lemma set_flags n (a b : bool) : 0 <= n < 2 ^ 30 ->
  (let n := Z.land n OUTPOINT_INDEX_MASK in
   let n := if a then Z.lor n OUTPOINT_ISSUANCE_FLAG else n in
   if b then Z.lor n OUTPOINT_PEGIN_FLAG else n) = idx_flags n a b.
Proof.
  intros Hn. cbv zeta. rewrite land_mask, Z.mod_small by lia.
  unfold idx_flags, OUTPOINT_ISSUANCE_FLAG, OUTPOINT_PEGIN_FLAG.
  assert (H31 : Z.lor n (2 ^ 31) = n + 2 ^ 31).
  { apply lor_pow2; try lia. apply testbit_false_small; [lia|]. change (2 ^ 31) with 2147483648. lia. }
  destruct a, b; rewrite ?H31; try lia.
  - rewrite lor_pow2; try lia. apply testbit_false_small; [lia|]. change (2 ^ 31) with 2147483648. change (2^30) with 1073741824 in *. lia.
  - rewrite lor_pow2; try lia. apply testbit_false_small; [lia|]. change (2^30) with 1073741824 in *. lia.
Qed.

Lemma get_flags n a b : 0 <= n < 2 ^ 30 ->
  negb (Z.land (idx_flags n a b) OUTPOINT_ISSUANCE_FLAG =? 0) = a
  /\ negb (Z.land (idx_flags n a b) OUTPOINT_PEGIN_FLAG =? 0) = b
  /\ Z.land (idx_flags n a b) OUTPOINT_INDEX_MASK = n.
Proof.
  intros Hn. unfold OUTPOINT_ISSUANCE_FLAG, OUTPOINT_PEGIN_FLAG.
  rewrite !land_pow2_testbit, land_mask by lia. unfold idx_flags.
  change (2 ^ 31) with 2147483648 in *. change (2^30) with 1073741824 in *.
  repeat split.
  - destruct a; [apply testbit_true|apply testbit_false_small]; try lia;
    change (2 ^ 31) with 2147483648; destruct b; lia.
  - destruct b; [apply testbit_true|apply testbit_false_small]; try lia;
    change (2^30) with 1073741824; destruct a; lia.
  - destruct a, b; lia.
Qed.

Lemma split_flags w : 0 <= w < 2 ^ 32 ->
  exists n a b, 0 <= n < 2 ^ 30 /\ w = idx_flags n a b.
Proof.
  intros Hw. exists (w mod 2 ^ 30), ((w / 2 ^ 31) =? 1), ((w / 2 ^ 30) mod 2 =? 1).
  unfold idx_flags.
  change (2 ^ 32) with 4294967296 in *. change (2 ^ 31) with 2147483648 in *. change (2^30) with 1073741824 in *.
  split; [lia|].
  destruct (Z.eqb_spec (w / 2147483648) 1), (Z.eqb_spec ((w / 1073741824) mod 2) 1); lia.
Qed.

(** * Outpoints *)
Lemma ser_outpoint_iff o b :
  ser_outpoint o = Ok b <-> blen (op_hash o) = 32 /\ exists n, le_int 4 (op_n o) n /\ b = op_hash o ++ n.
Proof.
  unfold ser_outpoint. split.
  - destruct (blen (op_hash o) =? 32) eqn:E; [|discriminate]. cbn [negb]. intros H. rinv H.
    split; [lia|]. exists a. apply pack_le_iff in E0. auto.
  - intros (HL & n & Hn & ->). rewrite HL. cbn. apply pack_le_iff in Hn. rewrite Hn. reflexivity.
Qed.

Lemma outpoint_new_ok h n : blen h = 32 -> 0 <= n < 2 ^ 32 -> outpoint_new h n = Ok (mkOutPoint h n).
Proof.
  intros H Hn. unfold outpoint_new. rewrite H. cbn [Z.eqb negb].
  replace (negb (32 =? 32)) with false by reflexivity.
  replace ((0 <=? n) && (n <=? 4294967295)) with true by lia. reflexivity.
Qed.

Lemma outpoint_new_inv h n o : outpoint_new h n = Ok o -> blen h = 32 /\ 0 <= n < 2 ^ 32 /\ o = mkOutPoint h n.
Proof.
  unfold outpoint_new. destruct (blen h =? 32) eqn:E; [|discriminate]. cbn [negb].
  destruct ((0 <=? n) && (n <=? 4294967295)) eqn:E2; [|discriminate].
  intros H; apply Ok_inj in H. subst. repeat split; lia.
Qed.

Lemma deser_outpoint_app h n w r : blen h = 32 -> le_int 4 w n ->
  deser_outpoint (h ++ n ++ r) = Ok (mkOutPoint h w, r).
Proof.
  intros HL Hn. unfold deser_outpoint, pbind. rewrite ser_read_app; [|assumption|unfold MAX_SIZE; lia].
  rewrite (read_le_W 4 w); [|lia|assumption].
  pose proof (le_int_range _ _ _ Hn) as R. change (256 ^ Z.of_nat 4) with (2^32) in R.
  rewrite outpoint_new_ok by assumption. reflexivity.
Qed.

Lemma deser_outpoint_inv s o r : deser_outpoint s = Ok (o, r) ->
  blen (op_hash o) = 32 /\ 0 <= op_n o < 2 ^ 32 /\ exists n, le_int 4 (op_n o) n /\ s = op_hash o ++ n ++ r.
Proof.
  unfold deser_outpoint. intros H. pinv H.
  destruct (outpoint_new v v0) as [o'|] eqn:EO; [|discriminate].
  apply Ok_pair_inj in H. destruct H; subst.
  apply outpoint_new_inv in EO. destruct EO as (HL & HR & ->). cbn.
  apply ser_read_inv in E; [|lia]. destruct E as (-> & _ & _).
  apply read_le_inv in E0. destruct E0 as (a & -> & Ha & ->).
  split; [assumption|]. split; [assumption|]. exists a. split; [split; auto|]. reflexivity.
Qed.

Lemma local_deser_outpoint : local deser_outpoint.
Proof.
  apply local_pbind; [apply local_ser_read; lia|]. intros h.
  apply local_pbind; [apply local_read_le|]. intros n. apply local_lift.
Qed.

(** * Inputs *)
Lemma issuance_ser_if (b : bool) i iss :
  (if b then W_issuance i iss else iss = []) <-> iss = (if b then ser_issuance i else []).
Proof. destruct b; [apply W_issuance_ser|reflexivity]. Qed.

Lemma ser_txin_iff sh i b : ser_txin sh i = Ok b <-> W_txin sh i b.
Proof.
  unfold ser_txin, W_txin, wire_index, writes_issuance.
  change 0xffffffff with (2 ^ 32 - 1).
  destruct (Z.eqb_spec (op_n (prevout i)) (2 ^ 32 - 1)) as [EN|EN].
  - cbn [rbind]. split.
    + intros H. rinv H. apply ser_outpoint_iff in E. destruct E as (HL & n & Hn & ->).
      apply ser_bytes_iff in E0. apply pack_le_iff in E1.
      exists (2 ^ 32 - 1), n, a0, a1, []. rewrite EN in Hn.
      split; [left; auto|]. do 4 (split; [assumption|]). split; [reflexivity|].
      rewrite <- !app_assoc. reflexivity.
    + intros (w & n & s & q & iss & [[_ ->]|[? _]] & HL & Hn & Hs & Hq & HI & ->); [|lia].
      cbn [negb andb] in HI. subst iss.
      assert (HO : ser_outpoint (prevout i) = Ok (op_hash (prevout i) ++ n)).
      { apply ser_outpoint_iff. rewrite EN. eauto. }
      apply ser_bytes_iff in Hs. apply pack_le_iff in Hq.
      rewrite HO; cbn [rbind]; rewrite Hs; cbn [rbind]; rewrite Hq; cbn [rbind].
      rewrite <- !app_assoc. reflexivity.
  - rewrite high_bits_iff. destruct ((0 <=? op_n (prevout i)) && (op_n (prevout i) <? 2 ^ 30)) eqn:HB.
    + cbn [negb]. cbn [andb].
      pose proof (set_flags (op_n (prevout i)) (negb sh && has_issuance i) (negb sh && is_pegin i) ltac:(lia)) as SF.
      cbv zeta in SF. rewrite issuance_is_null_has, negb_involutive.
      assert (HW : 0 <= idx_flags (op_n (prevout i)) (negb sh && has_issuance i) (negb sh && is_pegin i) < 2 ^ 32).
      { unfold idx_flags. destruct (negb sh && has_issuance i), (negb sh && is_pegin i); lia. }
      cbv zeta. rewrite SF. split.
      * intros H. apply rbind_Ok in H. destruct H as ([h o] & H1 & H2). apply rbind_Ok in H1.
        destruct H1 as (o' & HO & H1). apply Ok_inj in H1. inversion H1; subst; clear H1.
        apply outpoint_new_inv in HO. destruct HO as (HL & _ & ->).
        rinv H2. apply ser_outpoint_iff in E. destruct E as (_ & n & Hn & ->). cbn in Hn.
        apply ser_bytes_iff in E0. apply pack_le_iff in E1.
        eexists _, n, a0, a1, _. split; [right; split; [lia|reflexivity]|].
        split; [assumption|]. split; [exact Hn|]. split; [assumption|]. split; [assumption|].
        split; [apply issuance_ser_if; reflexivity|]. cbn. rewrite <- !app_assoc. reflexivity.
      * intros (w & n & s & q & iss & [[? _]|[_ Hw]] & HL & Hn & Hs & Hq & HI & ->); [lia|].
        apply issuance_ser_if in HI. subst iss.
        change (w = idx_flags (op_n (prevout i)) (negb sh && has_issuance i) (negb sh && is_pegin i)) in Hw.
        subst w. rewrite outpoint_new_ok by assumption. cbn [rbind].
        rewrite (proj2 (ser_outpoint_iff _ (op_hash (prevout i) ++ n))); [|cbn; eauto].
        apply ser_bytes_iff in Hs. apply pack_le_iff in Hq.
        cbn [rbind]; rewrite Hs; cbn [rbind]; rewrite Hq; cbn [rbind].
        rewrite <- !app_assoc. reflexivity.
    + cbn [negb]. cbn [rbind]. split; [discriminate|].
      intros (w & n & s & q & iss & [[? _]|[? _]] & _); lia.
Qed.
