(** Base58 *)
From Verif Require Import Base BaseFacts PyStr Blech32Model WalletModel Base58Model SpecBase58.
From Coq Require Import ZArith List Bool Lia.
Import ListNotations.
Local Open Scope Z_scope.

(** * Positional notation *)
Section Value.
Variable B : Z.
Hypothesis B2 : 2 <= B.
Lemma value_app l m : value B (l ++ m) = value B l * B ^ Z.of_nat (length m) + value B m.
Proof.
  induction l as [|d l IH]; cbn [app value]; [lia|]. rewrite IH, app_length, Nat2Z.inj_add, Z.pow_add_r by lia. ring.
Qed.
Lemma value_zeros k l : value B (repeat 0 k ++ l) = value B l.
Proof. induction k as [|k IH]; cbn [repeat app value]; [reflexivity|]. rewrite IH. lia. Qed.
Lemma value_range l : Digits B l -> 0 <= value B l < B ^ Z.of_nat (length l).
Proof.
  induction 1 as [|d l Hd _ IH]; cbn [value length]; [cbn; lia|]. rewrite Nat2Z.inj_succ, Z.pow_succ_r by lia.
  assert (0 < B ^ Z.of_nat (length l)) by (apply Z.pow_pos_nonneg; lia). nia.
Qed.
Lemma value_lead d l : Digits B (d :: l) -> d <> 0 -> B ^ Z.of_nat (length l) <= value B (d :: l).
Proof.
  intros D N. inversion D as [|? ? Hd Hl]; subst. cbn [value]. assert (R := value_range l Hl).
  assert (0 < B ^ Z.of_nat (length l)) by (apply Z.pow_pos_nonneg; lia). nia.
Qed.
Lemma value_inj_len l : forall m, length l = length m -> Digits B l -> Digits B m -> value B l = value B m -> l = m.
Proof.
  induction l as [|d l IH]; intros [|e m] L Dl Dm E; try discriminate; [reflexivity|]. injection L as L.
  inversion Dl as [|? ? Hd Hl]; subst. inversion Dm as [|? ? He Hm]; subst. cbn [value] in E. rewrite L in E.
  assert (R1 := value_range l Hl). assert (R2 := value_range m Hm). rewrite L in R1.
  assert (P : 0 < B ^ Z.of_nat (length m)) by (apply Z.pow_pos_nonneg; lia).
  assert (d = e) by nia. subst e. f_equal. apply IH; auto. lia.
Qed.
Lemma value_inj l m : Digits B l -> Digits B m -> no_zero_first l -> no_zero_first m -> value B l = value B m -> l = m.
Proof.
  intros Dl Dm Nl Nm E. apply value_inj_len; auto.
  assert (Rl := value_range l Dl). assert (Rm := value_range m Dm).
  destruct l as [|d l], m as [|e m]; cbn [length]; [reflexivity| | |].
  - exfalso. assert (X := value_lead e m Dm (fun Q => Nm (f_equal Some Q))). cbn [value] in E, X. assert (0 < B ^ Z.of_nat (length m)) by (apply Z.pow_pos_nonneg; lia). cbn in Rl. lia.
  - exfalso. assert (X := value_lead d l Dl (fun Q => Nl (f_equal Some Q))). cbn [value] in E, X. assert (0 < B ^ Z.of_nat (length l)) by (apply Z.pow_pos_nonneg; lia). lia.
  - assert (Xl := value_lead d l Dl (fun Q => Nl (f_equal Some Q))). assert (Xm := value_lead e m Dm (fun Q => Nm (f_equal Some Q))).
    cbn [length] in Rl, Rm. rewrite Nat2Z.inj_succ in Rl, Rm.
    assert (A : Z.of_nat (length l) < Z.succ (Z.of_nat (length m))) by (apply (Z.pow_lt_mono_r_iff B); lia).
    assert (A' : Z.of_nat (length m) < Z.succ (Z.of_nat (length l))) by (apply (Z.pow_lt_mono_r_iff B); lia). lia.
Qed.
Lemma digits_of_spec fuel : forall n acc, 0 <= n < B ^ Z.of_nat fuel ->
  exists ds, digits_of B fuel n acc = ds ++ acc /\ Digits B ds /\ no_zero_first ds /\ value B ds = n.
Proof.
  induction fuel as [|f IH]; intros n acc R.
  - cbn in R. assert (n = 0) by lia. subst n. exists []. repeat split; try constructor; try discriminate.
  - cbn [digits_of]. destruct (Z.leb_spec n 0) as [LE|GT].
    + assert (n = 0) by lia. subst n. exists []. repeat split; try constructor; try discriminate.
    + rewrite Nat2Z.inj_succ, Z.pow_succ_r in R by lia.
      destruct (IH (n / B) (n mod B :: acc)) as (ds & E & D & N & V).
      { split; [apply Z.div_pos; lia|]. apply Z.div_lt_upper_bound; lia. }
      exists (ds ++ [n mod B]). rewrite E, <- app_assoc. split; [reflexivity|]. assert (M := Z.mod_pos_bound n B ltac:(lia)). assert (DM := Z.div_mod n B ltac:(lia)).
      split; [apply Forall_app; split; [exact D|constructor; [exact M|constructor]]|]. split.
      * destruct ds as [|d ds]; [|exact N]. cbn [value] in V. unfold no_zero_first. cbn. intros Q. injection Q as Q. rewrite <- V, Q in DM. lia.
      * rewrite value_app, V. cbn [value length]. change (Z.of_nat 1) with 1. change (Z.of_nat 0) with 0. rewrite Z.pow_1_r, Z.pow_0_r. lia.
Qed.
End Value.

Lemma be_val_value b : be_val b = value 256 (map bz b).
Proof.
  rewrite be_val_eq. induction b as [|x b IH]; [reflexivity|]. cbn [rev map value].
  assert (A : forall l m, le_val (l ++ m) = le_val l + 256 ^ Z.of_nat (length l) * le_val m).
  { induction l as [|y l IHl]; intros m; [cbn [app length le_val]; change (Z.of_nat 0) with 0; rewrite Z.pow_0_r; lia|].
    cbn [app le_val length]. rewrite IHl, Nat2Z.inj_succ, Z.pow_succ_r by lia. ring. }
  rewrite A, IH, rev_length, map_length. cbn [le_val]. lia.
Qed.
Lemma bz_digits b : Digits 256 (map bz b).
Proof. apply Forall_forall. intros x I. apply in_map_iff in I. destruct I as (y & <- & _). apply bz_range. Qed.
Lemma map_bz_inj a b : map bz a = map bz b -> a = b.
Proof. intros E. rewrite <- (map_id a), <- (map_id b). rewrite (map_ext (fun x => x) (fun x => zb (bz x)) (fun x => eq_sym (zb_bz x)) a), (map_ext (fun x => x) (fun x => zb (bz x)) (fun x => eq_sym (zb_bz x)) b), <- !(map_map bz zb). congruence. Qed.
Lemma map_bz_zb l : Digits 256 l -> map bz (map zb l) = l.
Proof. induction 1 as [|d l Hd _ IH]; cbn [map]; [reflexivity|]. rewrite IH, bz_zb, Z.mod_small by exact Hd. reflexivity. Qed.

(** * The alphabet *)
Lemma digits_alphabet : b58_digits = alphabet. Proof. reflexivity. Qed.
Lemma char_letter d : b58_char d = letter d. Proof. unfold b58_char, letter. rewrite digits_alphabet. reflexivity. Qed.
Lemma index_some c l : forall d, index_of c l = Some d -> 0 <= d < Z.of_nat (length l) /\ nth (Z.to_nat d) l 0 = c.
Proof.
  induction l as [|x l IH]; intros d; cbn [index_of]; [discriminate|]. destruct (Z.eqb_spec x c) as [->|N].
  - intros E. injection E as <-. cbn [length]. split; [lia|reflexivity].
  - destruct (index_of c l) as [i|]; [|discriminate]. intros E. injection E as <-. destruct (IH i eq_refl) as [R E].
    cbn [length]. split; [lia|]. replace (Z.to_nat (i + 1)) with (S (Z.to_nat i)) by lia. exact E.
Qed.
Lemma index_letter d : 0 <= d < 58 -> index_of (letter d) b58_digits = Some d.
Proof.
  intros R. assert (A : forallb (fun i => match index_of (letter (Z.of_nat i)) b58_digits with Some d => d =? Z.of_nat i | None => false end) (seq 0 58) = true) by (vm_compute; reflexivity).
  rewrite forallb_forall in A. specialize (A (Z.to_nat d)). rewrite Z2Nat.id in A by lia. specialize (A ltac:(apply in_seq; lia)).
  destruct (index_of (letter d) b58_digits) as [e|]; [|discriminate]. apply Z.eqb_eq in A. congruence.
Qed.
Lemma index_iff c d : index_of c b58_digits = Some d <-> 0 <= d < 58 /\ letter d = c.
Proof.
  split; [|intros [R <-]; apply index_letter; exact R]. intros E. apply index_some in E. change (length b58_digits) with 58%nat in E.
  destruct E as [R E]. split; [lia|]. rewrite <- char_letter. exact E.
Qed.
Lemma letter_inj d e : 0 <= d < 58 -> 0 <= e < 58 -> letter d = letter e -> d = e.
Proof. intros Hd He E. apply index_letter in Hd. apply index_letter in He. rewrite E in Hd. congruence. Qed.
Lemma map_letter_inj l : forall m, Digits 58 l -> Digits 58 m -> map letter l = map letter m -> l = m.
Proof.
  induction l as [|d l IH]; intros [|e m] Dl Dm E; try discriminate; [reflexivity|]. cbn [map] in E. injection E as E1 E2.
  inversion Dl; subst. inversion Dm; subst. f_equal; [apply letter_inj; assumption|apply IH; assumption].
Qed.
Lemma letter0 : letter 0 = 49. Proof. reflexivity. Qed.
Lemma letter_one d : 0 <= d < 58 -> letter d = 49 -> d = 0.
Proof. intros R E. apply letter_inj; [exact R|lia|exact E]. Qed.

(** * Leading zeros *)
Lemma split_zeros (l : list Z) : exists k r, l = repeat 0 k ++ r /\ no_zero_first r.
Proof.
  induction l as [|x l (k & r & E & N)]; [exists 0%nat, []; split; [reflexivity|discriminate]|].
  destruct (Z.eq_dec x 0) as [->|NZ]; [exists (S k), r; cbn; rewrite <- E; auto|]. exists 0%nat, (x :: l). split; [reflexivity|]. unfold no_zero_first. cbn. congruence.
Qed.
Lemma count_repeat x k r : nth_error r 0 <> Some x -> count_leading x (repeat x k ++ r) = k.
Proof.
  intros N. induction k as [|k IH]; cbn [repeat app count_leading].
  - destruct r as [|y r]; [reflexivity|]. cbn [count_leading]. destruct (Z.eqb_spec y x) as [->|]; [|reflexivity]. exfalso. apply N. reflexivity.
  - rewrite Z.eqb_refl, IH. reflexivity.
Qed.
Lemma repeat_split {A} (x : A) k l : forall k' l', nth_error l 0 <> Some x -> nth_error l' 0 <> Some x -> repeat x k ++ l = repeat x k' ++ l' -> k = k' /\ l = l'.
Proof.
  induction k as [|k IH]; intros [|k'] l' N N' E; cbn [repeat app] in E.
  - auto.
  - exfalso. subst l. apply N. reflexivity.
  - exfalso. subst l'. apply N'. reflexivity.
  - injection E as E. destruct (IH k' l' N N' E) as [-> ->]. auto.
Qed.
Lemma letters_first ds : Digits 58 ds -> no_zero_first ds -> nth_error (map letter ds) 0 <> Some 49.
Proof. intros D N E. destruct ds as [|d ds]; [discriminate E|]. cbn in E. injection E as E. inversion D; subst. apply N. cbn. f_equal. apply letter_one; assumption. Qed.

(** * The text of bytes, the bytes of a text *)
Lemma text_fun b s s' : Base58Text b s -> Base58Text b s' -> s = s'.
Proof.
  intros (k & r & ds & E & N & -> & D & ND & V) (k' & r' & ds' & E' & N' & -> & D' & ND' & V'). rewrite E in E'.
  apply repeat_split in E'; [|exact N|exact N']. destruct E' as [-> ->]. assert (ds = ds') by (apply (value_inj 58); auto; lia). subst. reflexivity.
Qed.
Lemma text_inj b b' s : Base58Text b s -> Base58Text b' s -> b = b'.
Proof.
  intros (k & r & ds & E & N & -> & D & ND & V) (k' & r' & ds' & E' & N' & ES & D' & ND' & V').
  apply repeat_split in ES; [|apply letters_first; assumption|apply letters_first; assumption]. destruct ES as [-> EL]. apply map_letter_inj in EL; auto. subst ds'.
  apply map_bz_inj. rewrite E, E'. f_equal. apply (value_inj 256); auto; try lia.
  - assert (X := bz_digits b). rewrite E in X. apply Forall_app in X. tauto.
  - assert (X := bz_digits b'). rewrite E' in X. apply Forall_app in X. tauto.
Qed.
Lemma encode_text b : Base58Text b (b58_encode b).
Proof.
  destruct (split_zeros (map bz b)) as (k & r & E & N). unfold b58_encode. rewrite E, count_repeat by exact N.
  assert (R := be_val_range b).
  destruct (digits_of_spec 58 ltac:(lia) (2 * length b) (be_val b) []) as (ds & ED & D & ND & V).
  { split; [lia|]. replace (Z.of_nat (2 * length b)) with (2 * blen b) by (unfold blen; lia). rewrite Z.pow_mul_r by (unfold blen; lia).
    eapply Z.lt_le_trans; [apply R|]. apply Z.pow_le_mono_l. unfold blen. lia. }
  exists k, r, ds. split; [exact E|]. split; [exact N|]. split; [rewrite ED, app_nil_r; f_equal; apply map_ext; intros d; apply char_letter|]. split; [exact D|]. split; [exact ND|].
  rewrite V, be_val_value, E. apply value_zeros.
Qed.
Theorem encode_iff b s : b58_encode b = s <-> Base58Text b s.
Proof. split; [intros <-; apply encode_text|]. intros T. exact (text_fun _ _ _ (encode_text b) T). Qed.

Lemma number_ok s : forall n m, b58_number s n = Ok m -> exists ds, Digits 58 ds /\ s = map letter ds /\ m = n * 58 ^ Z.of_nat (length ds) + value 58 ds.
Proof.
  induction s as [|c s IH]; intros n m; cbn [b58_number].
  - intros E. injection E as <-. exists []. split; [constructor|]. split; [reflexivity|]. cbn [length value]. change (Z.of_nat 0) with 0. rewrite Z.pow_0_r. lia.
  - destruct (index_of c b58_digits) as [d|] eqn:I; [|discriminate]. intros E. apply index_iff in I. destruct I as [R <-]. apply IH in E. destruct E as (ds & D & -> & ->).
    exists (d :: ds). split; [constructor; assumption|]. split; [reflexivity|]. cbn [length value]. rewrite Nat2Z.inj_succ, Z.pow_succ_r by lia. ring.
Qed.
Lemma number_letters ds : forall n, Digits 58 ds -> exists m, b58_number (map letter ds) n = Ok m.
Proof. induction ds as [|d ds IH]; intros n D; cbn [map b58_number]; [eauto|]. inversion D; subst. rewrite index_letter by assumption. apply IH. assumption. Qed.
Lemma number_err s : forall n e, b58_number s n = Raise e -> e = EBase58.
Proof. induction s as [|c s IH]; intros n e; cbn [b58_number]; [discriminate|]. destruct (index_of c b58_digits); [apply IH|congruence]. Qed.
Lemma removelast_map {A B} (f : A -> B) l : removelast (map f l) = map f (removelast l).
Proof. induction l as [|x l IH]; [reflexivity|]. cbn [map removelast]. destruct l; [reflexivity|]. cbn [map] in *. rewrite IH. reflexivity. Qed.
Lemma removelast_repeat {A} (x : A) k : removelast (repeat x (S k)) = repeat x k.
Proof. induction k as [|k IH]; [reflexivity|]. cbn [repeat removelast] in *. rewrite IH. reflexivity. Qed.

Lemma map_bz_zeros k : map bz (zeros k) = repeat 0 k.
Proof. unfold zeros. induction k as [|k IH]; cbn [repeat map]; [reflexivity|]. rewrite IH. reflexivity. Qed.
Lemma decode_text s b : b58_decode s = Ok b -> Base58Text b s.
Proof.
  intros E. destruct s as [|c0 s0]; [injection E as <-; exists 0%nat, [], []; repeat split; try constructor; discriminate|].
  unfold b58_decode in E. remember (c0 :: s0) as s eqn:Es. destruct (b58_number s 0) as [n|e] eqn:EN; [|discriminate]. cbn [rbind] in E. injection E as <-.
  apply number_ok in EN. destruct EN as (ds & D & ES & ->). rewrite Z.mul_0_l, Z.add_0_l. assert (NE : ds <> []) by (intros ->; subst; discriminate). clear Es c0 s0. subst s.
  destruct (split_zeros ds) as (k & r & ED & N). assert (Dr : Digits 58 r) by (rewrite ED in D; apply Forall_app in D; tauto).
  assert (VR := value_range 58 ltac:(lia) ds D). rewrite map_length, char_letter, letter0.
  assert (V : value 58 ds = value 58 r) by (rewrite ED; apply value_zeros). rewrite ED at 1 4. rewrite map_app. replace (map letter (repeat 0 k)) with (repeat 49 k) by (clear; induction k; cbn [repeat map]; [reflexivity|]; rewrite <- IHk; reflexivity).
  destruct r as [|d r].
  - cbn [value] in V. rewrite V. cbn [map int_bytes Z.eqb]. rewrite app_nil_r. destruct k as [|k]; [exfalso; apply NE; exact ED|]. rewrite removelast_repeat.
    rewrite <- (app_nil_r (repeat 49 k)) at 1. rewrite count_repeat by discriminate. exists (S k), [], [].
    split; [rewrite map_app, map_bz_zeros, app_nil_r; change (map bz [x00]) with [0]; cbn [repeat]; symmetry; apply repeat_cons|].
    split; [discriminate|]. split; [cbn [map]; rewrite app_nil_r; reflexivity|]. repeat split; try constructor. discriminate.
  - rewrite removelast_app by discriminate. rewrite count_repeat.
    2:{ rewrite removelast_map. destruct r as [|d' r]; [discriminate|]. cbn [removelast map nth_error]. intros Q. injection Q as Q. apply (letters_first (d :: d' :: r) Dr N). cbn [map nth_error]. congruence. }
    assert (NZ : value 58 (d :: r) <> 0).
    { assert (X := value_lead 58 ltac:(lia) d r Dr (fun Q => N (f_equal Some Q))). assert (0 < 58 ^ Z.of_nat (length r)) by (apply Z.pow_pos_nonneg; lia). lia. }
    rewrite V. unfold int_bytes. rewrite (proj2 (Z.eqb_neq _ _) NZ).
    destruct (digits_of_spec 256 ltac:(lia) (length ds) (value 58 (d :: r)) []) as (es & EE & DE & NE' & VE).
    { rewrite <- V. split; [lia|]. eapply Z.lt_le_trans; [apply VR|]. apply Z.pow_le_mono_l. lia. }
    rewrite EE, app_nil_r. exists k, es, (d :: r). split. { rewrite map_app, map_bz_zb by exact DE. f_equal. apply map_bz_zeros. }
    split; [exact NE'|]. split; [reflexivity|]. split; [exact Dr|]. split; [exact N|]. congruence.
Qed.
Theorem decode_iff s b : b58_decode s = Ok b <-> Base58Text b s.
Proof.
  split; [apply decode_text|]. intros T. assert (Q : exists b', b58_decode s = Ok b').
  { destruct T as (k & r & ds & _ & _ & -> & D & _ & _). unfold b58_decode.
    replace (repeat 49 k) with (map letter (repeat 0 k)) by (clear; induction k; cbn [repeat map]; [reflexivity|]; rewrite IHk; reflexivity). rewrite <- map_app.
    destruct (number_letters (repeat 0 k ++ ds) 0) as [m Em]. { apply Forall_app. split; [|exact D]. apply Forall_forall. intros x I. apply repeat_spec in I. lia. }
    rewrite Em. cbn [rbind]. destruct (map letter (repeat 0 k ++ ds)); eauto. }
  destruct Q as [b' E]. rewrite E. f_equal. exact (text_inj _ _ _ (decode_text _ _ E) T).
Qed.
Lemma decode_err s e : b58_decode s = Raise e -> e = EBase58.
Proof. destruct s as [|c s]; [discriminate|]. unfold b58_decode. destruct (b58_number (c :: s) 0) as [n|x] eqn:E; [discriminate|]. cbn [rbind]. intros Q. injection Q as <-. exact (number_err _ _ _ E). Qed.

(** * Base58Check *)
Lemma check_encode H data s : b58check_encode H data = s <-> Base58CheckText H data s.
Proof. apply encode_iff. Qed.
Lemma check_decode H s data : (forall x, (4 <= length (H x))%nat) -> b58check_decode H s = Ok data <-> Base58CheckText H data s.
Proof.
  intros LH. unfold b58check_decode, Base58CheckText. split.
  - destruct (b58_decode s) as [k|e] eqn:E; [|discriminate]. cbn [rbind]. destruct (Z.ltb_spec (blen k) 4) as [|GE]; [discriminate|]. destruct (bytes_eqb _ _) eqn:C; [|discriminate].
    intros Q. injection Q as Q. apply bytes_eqb_eq in C. apply decode_iff in E. rewrite <- Q at 1. rewrite <- Q, <- C, firstn_skipn. exact E.
  - intros T. rewrite (proj2 (decode_iff _ _) T). cbn [rbind]. assert (L : length (firstn 4 (H data)) = 4%nat) by (rewrite firstn_length; specialize (LH data); lia).
    unfold blen. rewrite app_length, L. destruct (Z.ltb_spec (Z.of_nat (length data + 4)) 4); [lia|].
    replace (length data + 4 - 4)%nat with (length data) by lia. rewrite firstn_app, firstn_all, Nat.sub_diag, skipn_app, skipn_all, Nat.sub_diag. cbn [firstn skipn app]. rewrite app_nil_r, bytes_eqb_refl. reflexivity.
Qed.
Lemma check_err H s e : b58check_decode H s = Raise e -> e = EBase58.
Proof.
  unfold b58check_decode. destruct (b58_decode s) as [k|x] eqn:E; cbn [rbind]; [|intros Q; injection Q as <-; exact (decode_err _ _ E)].
  destruct (blen k <? 4); [congruence|]. destruct (bytes_eqb _ _); congruence.
Qed.
