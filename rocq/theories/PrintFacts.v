(** Lemmas about printed forms: texts that can be read back. *)
From Coq Require Import Strings.String Strings.Ascii Numbers.DecimalString Numbers.HexadecimalString Numbers.DecimalZ Numbers.HexadecimalN ZArith Lia.
From Verif Require Import Base BaseFacts TxModel PrintModel SpecText SpecPrint PropText PropCodec.
Import ListNotations.
Local Open Scope string_scope.

(** * Splitting texts at a character *)
Fixpoint has (c : ascii) (s : string) : bool :=
  match s with EmptyString => false | String d r => Ascii.eqb c d || has c r end.
Lemma has_app c a b : has c (a ++ b) = has c a || has c b.
Proof. induction a as [|d a IH]; cbn; [reflexivity|]. rewrite IH. apply Bool.orb_assoc. Qed.
Lemma app_assoc_s (a b c : string) : (a ++ b) ++ c = a ++ b ++ c.
Proof. induction a as [|d a IH]; cbn; [reflexivity|]. rewrite IH. reflexivity. Qed.
Lemma app_nil_s (a : string) : a ++ "" = a.
Proof. induction a as [|d a IH]; cbn; [reflexivity|]. rewrite IH. reflexivity. Qed.
Lemma split_first c a : forall b x y, has c a = false -> has c b = false -> a ++ String c x = b ++ String c y -> a = b /\ x = y.
Proof.
  induction a as [|d a IH]; intros [|e b] x y A B E; cbn in *.
  - injection E as E. auto.
  - injection E as Ec E. subst e. rewrite Ascii.eqb_refl in B. discriminate B.
  - injection E as Ec E. subst d. rewrite Ascii.eqb_refl in A. discriminate A.
  - injection E as -> E. apply Bool.orb_false_iff in A. apply Bool.orb_false_iff in B. destruct A as [_ A], B as [_ B].
    destruct (IH _ _ _ A B E) as [-> ->]. auto.
Qed.
Lemma split_last c a : forall b x y, has c x = false -> has c y = false -> a ++ String c x = b ++ String c y -> a = b /\ x = y.
Proof.
  induction a as [|d a IH]; intros [|e b] x y X Y E; cbn in *.
  - injection E as E. auto.
  - injection E as Ec E. subst x. rewrite has_app in X. cbn in X. rewrite Ascii.eqb_refl, Bool.orb_true_r in X. discriminate X.
  - injection E as Ec E. subst y. rewrite has_app in Y. cbn in Y. rewrite Ascii.eqb_refl, Bool.orb_true_r in Y. discriminate Y.
  - injection E as -> E. destruct (IH _ _ _ X Y E) as [-> ->]. auto.
Qed.

(** * Hexadecimal and decimal texts *)
Lemma nibble_value n : (0 <= n < 16)%Z -> digit_value (nibble n) = Some n.
Proof.
  intros H. assert (C : (n = 0 \/ n = 1 \/ n = 2 \/ n = 3 \/ n = 4 \/ n = 5 \/ n = 6 \/ n = 7 \/ n = 8 \/ n = 9 \/ n = 10 \/ n = 11 \/ n = 12 \/ n = 13 \/ n = 14 \/ n = 15)%Z) by lia.
  repeat (destruct C as [->|C]; [reflexivity|]). subst n. reflexivity.
Qed.
Definition hexdigits (s : string) : Prop := forall c, has c s = true -> digit_value c <> None.
Lemma nibbles b : (0 <= bz b / 16 < 16)%Z /\ (0 <= bz b mod 16 < 16)%Z.
Proof. pose proof (bz_range b). split; [split; [apply Z.div_pos; lia|apply Z.div_lt_upper_bound; lia]|apply Z.mod_pos_bound; lia]. Qed.
Lemma unhex_b2x b : unhex (b2x b) = Some b.
Proof.
  induction b as [|c b IH]; [reflexivity|]. cbn [b2x unhex]. destruct (nibbles c) as [A B].
  rewrite (nibble_value _ A), (nibble_value _ B), IH. f_equal. f_equal. rewrite <- Z.div_mod by lia. apply zb_bz.
Qed.
Lemma b2x_inj a b : b2x a = b2x b -> a = b.
Proof. intros E. apply (f_equal unhex) in E. rewrite !unhex_b2x in E. injection E as E. exact E. Qed.
Lemma b2x_free c b : digit_value c = None -> has c (b2x b) = false.
Proof.
  intros N. induction b as [|d b IH]; [reflexivity|]. cbn [b2x has]. destruct (nibbles d) as [A B].
  rewrite IH. apply nibble_value in A, B.
  destruct (Ascii.eqb_spec c (nibble (bz d / 16))) as [->|_]; [congruence|].
  destruct (Ascii.eqb_spec c (nibble (bz d mod 16))) as [->|_]; [congruence|]. reflexivity.
Qed.
Lemma hex_sep a b x y : b2x a ++ String "'" x = b2x b ++ String "'" y -> a = b /\ x = y.
Proof.
  intros E. apply split_first in E; [|apply b2x_free; reflexivity..]. destruct E as [E ->]. apply b2x_inj in E. auto.
Qed.
Lemma lhex_sep a b x y : b2lx a ++ String "'" x = b2lx b ++ String "'" y -> a = b /\ x = y.
Proof.
  unfold b2lx. intros E. apply hex_sep in E. destruct E as [E ->]. apply (f_equal (@rev _)) in E. rewrite !rev_involutive in E. auto.
Qed.
Lemma bytes_repr_sep a b x y : bytes_repr a ++ x = bytes_repr b ++ y -> a = b /\ x = y.
Proof.
  unfold bytes_repr. rewrite !app_assoc_s. cbn [append]. intros E. injection E as E. apply hex_sep in E.
  destruct E as [-> E]. injection E as ->. auto.
Qed.

Lemma dec_char d c : has c (DecimalString.NilEmpty.string_of_uint d) = true -> is_digit c = true.
Proof.
  induction d; cbn [DecimalString.NilEmpty.string_of_uint has]; intros H; [discriminate H|..];
    (apply Bool.orb_true_iff in H; destruct H as [H|H]; [apply Ascii.eqb_eq in H; subst c; reflexivity|auto]).
Qed.
Lemma zint_nonnil z : match Z.to_int z with Decimal.Pos d => d <> Decimal.Nil | Decimal.Neg d => d <> Decimal.Nil end.
Proof. destruct z; cbn; [discriminate|apply DecimalPos.Unsigned.to_uint_nonnil|apply DecimalPos.Unsigned.to_uint_nonnil]. Qed.
Lemma nz_ne d : d <> Decimal.Nil -> DecimalString.NilZero.string_of_uint d = DecimalString.NilEmpty.string_of_uint d.
Proof. destruct d; [contradiction|reflexivity..]. Qed.
Lemma decz_cases z : exists d, d <> Decimal.Nil /\
  (decz z = DecimalString.NilEmpty.string_of_uint d /\ Z.to_int z = Decimal.Pos d
   \/ decz z = String "-" (DecimalString.NilEmpty.string_of_uint d) /\ Z.to_int z = Decimal.Neg d).
Proof.
  unfold decz. pose proof (zint_nonnil z) as N. destruct (Z.to_int z) as [d|d]; exists d; split; try exact N; [left|right];
    cbn [DecimalString.NilZero.string_of_int]; rewrite (nz_ne _ N); auto.
Qed.
Lemma decz_free c z : is_digit c = false -> c <> "-"%char -> has c (decz z) = false.
Proof.
  intros D M. destruct (has c (decz z)) eqn:H; [|reflexivity]. exfalso.
  destruct (decz_cases z) as (d & _ & [[E _]|[E _]]); rewrite E in H.
  - apply dec_char in H. congruence.
  - cbn in H. apply Bool.orb_true_iff in H. destruct H as [H|H]; [apply Ascii.eqb_eq in H; auto|apply dec_char in H; congruence].
Qed.
Lemma decz_inj a b : decz a = decz b -> a = b.
Proof.
  destruct (decz_cases a) as (d & N & C), (decz_cases b) as (e & M & C').
  destruct (digit_char _ N) as (c & r & Ed & D), (digit_char _ M) as (c' & r' & Ee & D').
  intros E. apply DecimalZ.to_int_inj.
  destruct C as [[A A']|[A A']], C' as [[B B']|[B B']]; rewrite A, B in E; rewrite A', B'.
  - f_equal. apply (f_equal DecimalString.NilEmpty.uint_of_string) in E. rewrite !DecimalString.NilEmpty.usu in E. congruence.
  - rewrite Ed in E. injection E as -> _. discriminate D.
  - rewrite Ee in E. injection E as E _. subst c'. discriminate D'.
  - f_equal. injection E as E. apply (f_equal DecimalString.NilEmpty.uint_of_string) in E. rewrite !DecimalString.NilEmpty.usu in E. congruence.
Qed.
Lemma decz_sep a b x y : decz a ++ String ")" x = decz b ++ String ")" y -> a = b /\ x = y.
Proof.
  intros E. apply split_first in E; [|apply decz_free; [reflexivity|discriminate]..]. destruct E as [E ->]. apply decz_inj in E. auto.
Qed.
Lemma decz_not_x z r s : decz z ++ r <> String "x" s.
Proof.
  destruct (decz_cases z) as (d & N & [[-> _]|[-> _]]); [|discriminate].
  destruct (digit_char _ N) as (c & t & -> & D). cbn. intros E. injection E as -> _. discriminate D.
Qed.

(** * Fields *)
(** What [repr] puts between the parentheses. *)
Definition body (c : cclass) (x : bytes) : string :=
  match c with
  | CConfNonce => bytes_repr x
  | CConfAsset => if conf_is_explicit c x then asset_repr (tl x) else bytes_repr x
  | CConfValue => match to_amount x with Ok v => decz v | Raise _ => bytes_repr x end
  end.
Lemma to_asset_tl x a : to_asset x = Ok a -> a = tl x.
Proof. unfold to_asset, uint256_new. destruct (conf_is_explicit _ _); [|discriminate]. destruct (_ =? _)%Z; [|discriminate]. intros E. apply Ok_inj in E. auto. Qed.
Lemma conf_repr p c x : conf_text p Repr c x = Ok (conf_name c ++ "(" ++ body c x ++ ")").
Proof.
  unfold conf_text, body. destruct (C03_getters x) as (A & B & C & D). destruct c.
  - destruct (conf_is_explicit CConfAsset x) eqn:E; [|reflexivity]. destruct (D eq_refl) as (d & Ed). cbn [explicit_text].
    rewrite Ed. cbn [rbind]. rewrite (to_asset_tl _ _ Ed). reflexivity.
  - destruct (conf_is_explicit CConfValue x) eqn:E.
    + destruct (C eq_refl) as (a & Ea). cbn [explicit_text]. rewrite Ea. reflexivity.
    + rewrite (proj2 A eq_refl). reflexivity.
  - reflexivity.
Qed.
Lemma conf_str p c x : exists s, conf_text p Str c x = Ok s.
Proof.
  unfold conf_text. destruct (C03_getters x) as (A & B & C & D).
  destruct (conf_is_explicit c x) eqn:E; [|destruct c; eexists; reflexivity].
  destruct c; cbn [explicit_text]; [destruct (D E) as (d & ->)|destruct (C E) as (d & ->)|]; eexists; reflexivity.
Qed.
Lemma expl_tl c x : conf_is_explicit c x = true -> x = x01 :: tl x.
Proof.
  unfold conf_is_explicit. intros E. apply andb_prop in E. destruct E as [_ E]. destruct x as [|b d]; [discriminate|].
  cbn [tl]. f_equal. apply bz_inj. rewrite bz_x01. lia.
Qed.

Lemma body_sep c x y r s : body c x ++ String ")" r = body c y ++ String ")" s -> x = y /\ r = s.
Proof.
  destruct c; unfold body.
  - destruct (conf_is_explicit CConfAsset x) eqn:E, (conf_is_explicit CConfAsset y) eqn:F.
    + unfold asset_repr. rewrite !app_assoc_s. cbn [append]. intros H. injection H as H. apply lhex_sep in H. destruct H as [H H'].
      injection H' as <-. split; [|reflexivity]. rewrite (expl_tl _ _ E), (expl_tl _ _ F), H. reflexivity.
    + discriminate.
    + discriminate.
    + intros H. apply bytes_repr_sep in H. destruct H as [-> H]. injection H as ->. auto.
  - destruct (to_amount x) as [v|] eqn:E, (to_amount y) as [w|] eqn:F.
    + intros H. apply decz_sep in H. destruct H as [<- ->]. split; [|reflexivity].
      apply C01_amount_unique in E, F. rewrite E in F. apply Ok_inj in F. exact F.
    + unfold bytes_repr at 1. cbn [append]. intros H. exfalso. exact (decz_not_x _ _ _ H).
    + unfold bytes_repr at 1. cbn [append]. intros H. exfalso. symmetry in H. exact (decz_not_x _ _ _ H).
    + intros H. apply bytes_repr_sep in H. destruct H as [-> H]. injection H as ->. auto.
  - intros H. apply bytes_repr_sep in H. destruct H as [-> H]. injection H as ->. auto.
Qed.
Definition field (c : cclass) (x : bytes) : string := conf_name c ++ "(" ++ body c x ++ ")".
Lemma field_sep c d x y r s : field c x ++ r = field d y ++ s -> c = d /\ x = y /\ r = s.
Proof.
  intros H. assert (c = d) as ->.
  { unfold field in H. destruct c, d; try reflexivity; rewrite !app_assoc_s in H; cbn in H; discriminate H. }
  split; [reflexivity|]. unfold field in H. rewrite !app_assoc_s in H. apply prefix_cancel in H. cbn [append] in H. injection H as H.
  apply body_sep in H. exact H.
Qed.
Lemma free_lit c a b : has c a = false -> has c b = false -> has c (a ++ b) = false.
Proof. intros A B. rewrite has_app, A, B. reflexivity. Qed.
Lemma bytes_repr_free c b : digit_value c = None -> has c "x('" = false -> has c "')" = false -> has c (bytes_repr b) = false.
Proof. intros D A B. unfold bytes_repr. apply free_lit; [exact A|]. apply free_lit; [apply b2x_free; exact D|exact B]. Qed.
(** No comma and no capital I in the printed form of a field. *)
Lemma field_free c x k : k = ","%char \/ k = "I"%char -> has k (field c x) = false.
Proof.
  intros K. unfold field. apply free_lit; [destruct K as [-> | ->], c; reflexivity|]. apply free_lit; [destruct K as [-> | ->]; reflexivity|].
  apply free_lit; [|destruct K as [-> | ->]; reflexivity].
  assert (BR : forall b, has k (bytes_repr b) = false) by (intros b; destruct K as [-> | ->]; apply bytes_repr_free; reflexivity).
  destruct c; unfold body; [destruct (conf_is_explicit _ _)|destruct (to_amount x)|]; try apply BR.
  - unfold asset_repr, b2lx. destruct K as [-> | ->]; (apply free_lit; [reflexivity|]; apply free_lit; [apply b2x_free; reflexivity|reflexivity]).
  - destruct K as [-> | ->]; (apply decz_free; [reflexivity|discriminate]).
Qed.

(** * Witnesses *)
Lemma blen_nil (b : bytes) : (blen b =? 0)%Z = true -> b = [].
Proof. destruct b; [reflexivity|]. unfold blen. cbn [length]. intros H. apply Z.eqb_eq in H. lia. Qed.
Lemma outwit_null_inv w : outwit_is_null w = true -> w = mkOutWit [] [].
Proof. destruct w as [a b]. unfold outwit_is_null. cbn. intros H. apply andb_prop in H. destruct H as [A B]. rewrite (blen_nil _ A), (blen_nil _ B). reflexivity. Qed.
Lemma inwit_null_inv w : inwit_is_null w = true -> w = mkInWit [] [] [] [].
Proof.
  destruct w as [a b c d]. unfold inwit_is_null. cbn. intros H. apply andb_prop in H. destruct H as [H D]. apply andb_prop in H.
  destruct H as [H A]. apply andb_prop in H. destruct H as [B C]. rewrite (blen_nil _ B), (blen_nil _ C).
  destruct a; [|discriminate]. destruct d; [|discriminate]. reflexivity.
Qed.
Lemma Sinj c a b : String c a = String c b -> a = b.
Proof. intros H. injection H as H. exact H. Qed.
Ltac peel H := repeat match type of H with String _ _ = String _ _ => apply Sinj in H end.
Lemma outwit_sep m w v r s : outwit_text m w ++ r = outwit_text m v ++ s -> w = v /\ r = s.
Proof.
  unfold outwit_text. destruct (outwit_is_null w) eqn:E, (outwit_is_null v) eqn:F; intros H; rewrite ?app_assoc_s in H; apply prefix_cancel in H;
    cbn [append] in H; peel H.
  - apply outwit_null_inv in E, F. subst. auto.
  - discriminate H.
  - discriminate H.
  - rewrite ?app_assoc_s in H. apply bytes_repr_sep in H. destruct H as [A H]. cbn [append] in H. peel H.
    rewrite ?app_assoc_s in H. apply bytes_repr_sep in H. destruct H as [B H]. cbn [append] in H. peel H; subst.
    destruct w, v. cbn in *. subst. auto.
Qed.

(** A printed list: elements that can be told apart, joined, closed by a bracket that starts no element. *)
Definition Sep {A} (f : A -> string) : Prop := forall a b r s, f a ++ r = f b ++ s -> a = b /\ r = s.
Lemma join_cons {A} (f : A -> string) sp a l :
  join sp (map f (a :: l)) = f a ++ match l with [] => "" | _ => sp ++ join sp (map f l) end.
Proof. destruct l; cbn; [rewrite app_nil_s|]; reflexivity. Qed.
Lemma join_sep {A} (f : A -> string) sp c : Sep f -> (forall a r s, f a ++ r <> String c s) -> (forall r s, sp ++ r <> String c s) ->
  forall l k r s, join sp (map f l) ++ String c r = join sp (map f k) ++ String c s -> l = k /\ r = s.
Proof.
  intros S N P. induction l as [|a l IH]; intros [|b k] r s H.
  - cbn [map join append] in H. peel H. subst. auto.
  - rewrite join_cons, app_assoc_s in H. cbn [map join append] in H. exfalso. symmetry in H. exact (N _ _ _ H).
  - rewrite join_cons, app_assoc_s in H. cbn [map join append] in H. exfalso. exact (N _ _ _ H).
  - rewrite !join_cons, !app_assoc_s in H. apply S in H. destruct H as [<- H].
    destruct l as [|a' l], k as [|b' k].
    + cbn [append] in H. peel H. subst. auto.
    + rewrite app_assoc_s in H. exfalso. symmetry in H. exact (P _ _ H).
    + rewrite app_assoc_s in H. exfalso. exact (P _ _ H).
    + rewrite !app_assoc_s in H. apply prefix_cancel in H. apply IH in H. destruct H as [-> ->]. auto.
Qed.
Lemma stack_sep a b r s : stack_repr a ++ r = stack_repr b ++ s -> a = b /\ r = s.
Proof.
  unfold stack_repr. rewrite !app_assoc_s. cbn [append]. intros H. peel H.
  apply join_sep in H; [|exact bytes_repr_sep|discriminate|discriminate]. destruct H as [-> H]. peel H; subst. auto.
Qed.
Lemma inwit_sep p q m w v r s : inwit_text p Repr m w ++ r = inwit_text q Repr m v ++ s -> w = v /\ r = s.
Proof.
  unfold inwit_text, stack_text. destruct (inwit_is_null w) eqn:E, (inwit_is_null v) eqn:F; intros H; rewrite ?app_assoc_s in H;
    apply prefix_cancel in H; cbn [append] in H; peel H.
  - apply inwit_null_inv in E, F. subst. auto.
  - discriminate H.
  - discriminate H.
  - rewrite ?app_assoc_s in H. apply stack_sep in H. destruct H as [A H]. cbn [append] in H. peel H.
    rewrite ?app_assoc_s in H. apply bytes_repr_sep in H. destruct H as [B H]. cbn [append] in H. peel H.
    rewrite ?app_assoc_s in H. apply bytes_repr_sep in H. destruct H as [C H]. cbn [append] in H. peel H.
    rewrite ?app_assoc_s in H. apply stack_sep in H. destruct H as [D H]. cbn [append] in H. peel H; subst.
    destruct w, v. cbn in *. subst. auto.
Qed.
Lemma inwit_nobracket p m w r s : inwit_text p Repr m w ++ r <> String "]" s.
Proof. unfold inwit_text. destruct (inwit_is_null w), m; cbn; discriminate. Qed.
Lemma outwit_nobracket m w r s : outwit_text m w ++ r <> String "]" s.
Proof. unfold outwit_text. destruct (outwit_is_null w), m; cbn; discriminate. Qed.
Lemma inwit_text_printer p q m w : inwit_text p Repr m w = inwit_text q Repr m w.
Proof. reflexivity. Qed.
Lemma txwit_sep p q m n w v r s : txwit_text p Repr m w ++ r = txwit_text q Repr n v ++ s -> m = n /\ w = v /\ r = s.
Proof.
  intros H. assert (m = n) as ->.
  { unfold txwit_text in H. destruct m, n; try reflexivity; rewrite ?app_assoc_s in H; cbn in H; discriminate H. }
  split; [reflexivity|]. unfold txwit_text in H. rewrite ?app_assoc_s in H. apply prefix_cancel in H. cbn [append] in H. peel H.
  rewrite ?app_assoc_s in H. cbn [append] in H.
  change (map (inwit_text q Repr n) (vtxinwit v)) with (map (inwit_text p Repr n) (vtxinwit v)) in H.
  apply join_sep in H; [|intros a b; apply inwit_sep|apply inwit_nobracket|discriminate]. destruct H as [A H]. cbn [append] in H. peel H.
  rewrite ?app_assoc_s in H. cbn [append] in H.
  apply join_sep in H; [|intros a b; apply outwit_sep|apply outwit_nobracket|discriminate]. destruct H as [B H]. peel H; subst.
  destruct w, v. cbn in *. subst. auto.
Qed.

(** * Issuances *)
Definition shown_text (x : shown) : string := match x with Data d => bytes_repr d | Amount f => field CConfValue f end.
Definition shown_list (i : issuance) : list shown :=
  ((if uint256_true (is_nonce i) then [Data (is_nonce i)] else [])
   ++ (if uint256_true (is_entropy i) then [Data (is_entropy i)] else [])
   ++ (if negb (conf_is_null (is_amount i)) then [Amount (is_amount i)] else [])
   ++ (if negb (conf_is_null (is_keys i)) then [Amount (is_keys i)] else []))%list.
Definition issuance_repr (i : issuance) : string := "CAssetIssuance(" ++ join ", " (map shown_text (shown_list i)) ++ ")".
Lemma issuance_repr_ok p i : issuance_text p Repr i = Ok (issuance_repr i).
Proof.
  unfold issuance_text, issuance_repr, shown_list. rewrite !conf_repr. cbn [rbind].
  destruct (uint256_true (is_nonce i)), (uint256_true (is_entropy i)), (negb (conf_is_null (is_amount i))), (negb (conf_is_null (is_keys i))); reflexivity.
Qed.
Lemma uint256_true_spec d : uint256_true d = false <-> Zeros d.
Proof.
  unfold uint256_true, Zeros. rewrite Bool.negb_false_iff, forallb_forall. split; intros H b I; specialize (H b I).
  - apply bz_inj. rewrite bz_x00. lia.
  - subst b. reflexivity.
Qed.
Lemma conf_is_null_spec x : conf_is_null x = true <-> x = [].
Proof. split; [apply blen_nil|intros ->; reflexivity]. Qed.
Lemma Shown_iff i l : Shown i l <-> l = shown_list i.
Proof.
  split.
  - intros H. destruct H as [a b c d A B C D]. unfold shown_list.
    assert (E : forall x y, (Zeros x /\ y = [] \/ ~ Zeros x /\ y = [Data x]) -> y = if uint256_true x then [Data x] else []).
    { intros x y [[Z ->]|[Z ->]]; destruct (uint256_true x) eqn:T; try reflexivity; exfalso;
        [apply uint256_true_spec in Z; congruence|apply Z, uint256_true_spec; exact T]. }
    assert (F : forall x y, (x = [] /\ y = [] \/ x <> [] /\ y = [Amount x]) -> y = if negb (conf_is_null x) then [Amount x] else []).
    { intros x y [[-> ->]|[Z ->]]; [reflexivity|]. destruct (conf_is_null x) eqn:T; [|reflexivity]. apply conf_is_null_spec in T. contradiction. }
    rewrite <- (E _ _ A), <- (E _ _ B), <- (F _ _ C), <- (F _ _ D). reflexivity.
  - intros ->. unfold shown_list. constructor.
    1,2: match goal with |- context [uint256_true ?x] => destruct (uint256_true x) eqn:T end; [right|left]; split; auto;
      [intros Z; apply uint256_true_spec in Z; congruence|apply uint256_true_spec; exact T].
    1,2: match goal with |- context [conf_is_null ?x] => destruct (conf_is_null x) eqn:T end; cbn [negb]; [left|right]; split; auto;
      [apply conf_is_null_spec; exact T|intros Z; apply conf_is_null_spec in Z; congruence].
Qed.
Lemma ShownAlike_iff i j : ShownAlike i j <-> shown_list i = shown_list j.
Proof.
  unfold ShownAlike. split.
  - intros (l & A & B). apply Shown_iff in A, B. congruence.
  - intros E. exists (shown_list i). rewrite !Shown_iff. auto.
Qed.
Lemma shown_sep : Sep shown_text.
Proof.
  intros [d|f] [e|g] r s H; unfold shown_text in H.
  - apply bytes_repr_sep in H. destruct H as [-> ->]. auto.
  - unfold bytes_repr, field in H. cbn in H. discriminate H.
  - unfold bytes_repr, field in H. cbn in H. discriminate H.
  - apply field_sep in H. destruct H as (_ & -> & ->). auto.
Qed.
Lemma shown_noparen a r s : shown_text a ++ r <> String ")" s.
Proof. destruct a; unfold shown_text, bytes_repr, field; cbn; discriminate. Qed.
Lemma issuance_sep i j r s : issuance_repr i ++ r = issuance_repr j ++ s -> shown_list i = shown_list j /\ r = s.
Proof.
  unfold issuance_repr. rewrite !app_assoc_s. cbn [append]. intros H. peel H.
  apply join_sep in H; [exact H|exact shown_sep|exact shown_noparen|discriminate].
Qed.
Lemma join_free c sp l : has c sp = false -> Forall (fun s => has c s = false) l -> has c (join sp l) = false.
Proof.
  intros S. induction l as [|s l IH]; intros F; [reflexivity|]. inversion F as [|? ? A B]; subst. specialize (IH B).
  destruct l as [|t l]; [exact A|]. cbn [join] in IH |- *. rewrite !has_app, A, S. exact IH.
Qed.
Lemma shown_free x : has "I" (shown_text x) = false.
Proof. destruct x; [apply bytes_repr_free; reflexivity|apply field_free; auto]. Qed.

(** * Inputs *)
Lemma outpoint_null_inv o : length (op_hash o) = 32%nat -> outpoint_is_null o = true -> o = mkOutPoint (zeros 32) 0xffffffff.
Proof.
  destruct o as [h n]. unfold outpoint_is_null. cbn [op_hash op_n]. intros L H. apply andb_prop in H. destruct H as [A B].
  apply Bool.negb_true_iff in A. apply uint256_true_spec in A. apply Z.eqb_eq in B. subst n. f_equal.
  apply (nth_ext _ _ x00 x00); [exact L|]. intros k K. unfold zeros. rewrite nth_repeat. apply A, nth_In. exact K.
Qed.
Lemma outpoint_sep m o q r s : length (op_hash o) = 32%nat -> length (op_hash q) = 32%nat ->
  outpoint_repr m o ++ r = outpoint_repr m q ++ s -> o = q /\ r = s.
Proof.
  unfold outpoint_repr. intros L M. destruct (outpoint_is_null o) eqn:E, (outpoint_is_null q) eqn:F; intros H; rewrite ?app_assoc_s in H;
    apply prefix_cancel in H; cbn [append] in H; peel H.
  - apply outpoint_null_inv in E, F; auto. subst. auto.
  - discriminate H.
  - discriminate H.
  - rewrite ?app_assoc_s in H. cbn [append] in H. apply lhex_sep in H. destruct H as [A H]. peel H. rewrite ?app_assoc_s in H. cbn [append] in H.
    apply decz_sep in H. destruct H as [B ->]. destruct o, q. cbn in *. subst. auto.
Qed.
Lemma hex_char d c : has c (HexadecimalString.NilEmpty.string_of_uint d) = true -> digit_value c <> None.
Proof.
  induction d; cbn [HexadecimalString.NilEmpty.string_of_uint has]; intros H; [discriminate H|..];
    (apply Bool.orb_true_iff in H; destruct H as [H|H]; [apply Ascii.eqb_eq in H; subst c; discriminate|auto]).
Qed.
Lemma hex_nonnil n : N.to_hex_uint n <> Hexadecimal.Nil.
Proof. destruct n; cbn; [discriminate|apply HexadecimalPos.Unsigned.to_uint_nonnil]. Qed.
Lemma hexz_ne z : hexz z = "0x" ++ HexadecimalString.NilEmpty.string_of_uint (N.to_hex_uint (Z.to_N z)).
Proof. unfold hexz. f_equal. pose proof (hex_nonnil (Z.to_N z)) as N. destruct (N.to_hex_uint (Z.to_N z)); [contradiction|reflexivity..]. Qed.
Lemma hexz_free z : has "," (hexz z) = false.
Proof.
  rewrite hexz_ne, has_app. cbn [has]. destruct (has _ _) eqn:H; [|reflexivity]. apply hex_char in H. exfalso. apply H. reflexivity.
Qed.
Lemma hexz_inj a b : (0 <= a)%Z -> (0 <= b)%Z -> hexz a = hexz b -> a = b.
Proof.
  intros A B. rewrite !hexz_ne. intros H. apply prefix_cancel in H.
  apply (f_equal HexadecimalString.NilEmpty.uint_of_string) in H. rewrite !HexadecimalString.NilEmpty.usu in H.
  assert (E : N.to_hex_uint (Z.to_N a) = N.to_hex_uint (Z.to_N b)) by congruence.
  apply HexadecimalN.Unsigned.to_uint_inj in E. lia.
Qed.

(** * Reading numbers back *)
Lemma decimal_acc d : forall p, decimal (Npos p) (DecimalString.NilEmpty.string_of_uint d) = Npos (Pos.of_uint_acc d p).
Proof.
  induction d; intros p; [reflexivity|..]; cbn [DecimalString.NilEmpty.string_of_uint decimal Pos.of_uint_acc]; rewrite <- IHd; f_equal;
    match goal with |- context [N_of_ascii ?c] => let n := eval compute in (N_of_ascii c) in change (N_of_ascii c) with n end; lia.
Qed.
Lemma decimal_uint d : decimal 0 (DecimalString.NilEmpty.string_of_uint d) = Pos.of_uint d.
Proof. induction d; [reflexivity|exact IHd|..]; cbn [DecimalString.NilEmpty.string_of_uint Pos.of_uint]; rewrite <- decimal_acc; reflexivity. Qed.
Lemma literal_decz z : literal (decz z) = z.
Proof.
  destruct (decz_cases z) as (d & N & [[E I]|[E I]]); rewrite E; pose proof (DecimalZ.of_to z) as R; rewrite I in R; cbn [Z.of_int] in R; unfold Z.of_uint in R.
  - unfold literal. destruct (digit_char _ N) as (c & r & Ec & D). rewrite Ec. destruct (Ascii.eqb_spec c "-") as [->|Nc]; [discriminate D|].
    transitivity (Z.of_N (decimal 0 (String c r))).
    + destruct c as [[|] [|] [|] [|] [|] [|] [|] [|]]; try reflexivity; exfalso; apply Nc; reflexivity.
    + rewrite <- Ec, decimal_uint. exact R.
  - cbn [literal]. rewrite decimal_uint. exact R.
Qed.
Lemma all_digits_uint d : all_digits (DecimalString.NilEmpty.string_of_uint d) = true.
Proof. induction d; [reflexivity|..]; exact IHd. Qed.
Lemma decz_literal z : is_literal (decz z) = true.
Proof.
  destruct (decz_cases z) as (d & N & [[-> _]|[-> _]]); pose proof (all_digits_uint d) as A; destruct (digit_char _ N) as (c & r & E & D); rewrite E in *.
  - cbn [is_literal]. destruct (Ascii.eqb_spec c "-") as [->|_]; [discriminate D|exact A].
  - cbn [is_literal Ascii.eqb Bool.eqb]. exact A.
Qed.
