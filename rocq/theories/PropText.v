(** C74: what the texts of BlindingFailure tell. *)
From Coq Require Import Strings.String Strings.Ascii Numbers.DecimalString Numbers.DecimalNat Numbers.DecimalFacts.
From Coq Require Import NArith ZArith Lia.
From Verif Require Import Base TxModel MiscModel BlindModel TextModel SpecBlind SpecFault SpecText PropFault ToyCrypto ToyTx.
Import ListNotations.
Local Open Scope string_scope.

(** * Decimal numbers *)
Lemma digit_char d : d <> Decimal.Nil -> exists c r, NilEmpty.string_of_uint d = String c r /\ is_digit c = true.
Proof. destruct d; intros H; [contradiction|..]; cbn; eauto. Qed.
Lemma to_uint_nonnil n : Nat.to_uint n <> Decimal.Nil.
Proof. intros E. pose proof (Unsigned.of_to n) as U. rewrite E in U. cbn in U. subst n. discriminate E. Qed.
Lemma dec_inj n m : dec n = dec m -> n = m.
Proof.
  unfold dec. intros E. apply (f_equal NilEmpty.uint_of_string) in E. rewrite !NilEmpty.usu in E. injection E as E.
  apply (f_equal Nat.of_uint) in E. rewrite !Unsigned.of_to in E. exact E.
Qed.

Definition no_digit (s : string) : Prop := match s with EmptyString => True | String c _ => is_digit c = false end.
Lemma uint_sep d : forall d' q q', no_digit q -> no_digit q' ->
  NilEmpty.string_of_uint d ++ q = NilEmpty.string_of_uint d' ++ q' -> d = d' /\ q = q'.
Proof.
  induction d; destruct d'; cbn; intros q q' N N' E; try (injection E as E);
    try (destruct (IHd _ _ _ N N' E) as [-> ->]; split; reflexivity); try discriminate E;
    try (split; [reflexivity|exact E]);
    try (subst q; cbn in N; discriminate N); try (subst q'; cbn in N'; discriminate N').
Qed.
Lemma dec_sep n m q q' : no_digit q -> no_digit q' -> dec n ++ q = dec m ++ q' -> n = m /\ q = q'.
Proof.
  unfold dec. intros N N' E. destruct (uint_sep _ _ _ _ N N' E) as [D Q]. split; [|exact Q].
  apply (f_equal Nat.of_uint) in D. rewrite !Unsigned.of_to in D. exact D.
Qed.
Lemma prefix_cancel p : forall a b, p ++ a = p ++ b -> a = b.
Proof. induction p as [|c p IH]; cbn; intros a b E; [exact E|injection E as E; auto]. Qed.
Lemma dec_not_percent n q r : dec n ++ q <> "%" ++ r.
Proof.
  unfold dec. destruct (digit_char _ (to_uint_nonnil n)) as (c & s & -> & D). cbn. intros E. injection E as -> _. discriminate D.
Qed.

Lemma uint_numbers d q : d <> Decimal.Nil -> no_digit q -> numbers (NilEmpty.string_of_uint d ++ q) = NilEmpty.string_of_uint d :: numbers q.
Proof.
  intros H N. induction d; [contradiction|..];
    (destruct d as [|d0|d0|d0|d0|d0|d0|d0|d0|d0|d0];
     [destruct q as [|c q]; [reflexivity|cbn in N |- *; rewrite N; reflexivity]|..];
     match goal with |- numbers (NilEmpty.string_of_uint (?C ?d) ++ q) = _ =>
       change (match numbers (NilEmpty.string_of_uint d ++ q) with h :: t => String (match NilEmpty.string_of_uint (C Decimal.Nil) with String c _ => c | _ => zero end) h :: t | [] => [] end
               = NilEmpty.string_of_uint (C d) :: numbers q); rewrite IHd by discriminate; reflexivity end).
Qed.
Lemma dec_numbers n q : no_digit q -> numbers (dec n ++ q) = dec n :: numbers q.
Proof. intros N. apply uint_numbers; [apply to_uint_nonnil|exact N]. Qed.

Lemma numbers_skip p : forall s, (forall c, In c (list_ascii_of_string p) -> is_digit c = false) -> numbers (p ++ s) = numbers s.
Proof. induction p as [|c p IH]; intros s H; [reflexivity|]. cbn [append numbers]. rewrite (H c) by (left; reflexivity). apply IH. intros x I. apply H. right. exact I. Qed.

Lemma skip_lit p s : forallb (fun c => negb (is_digit c)) (list_ascii_of_string p) = true -> numbers (p ++ s) = numbers s.
Proof. intros H. apply numbers_skip. intros c I. rewrite forallb_forall in H. specialize (H c I). destruct (is_digit c); [discriminate H|reflexivity]. Qed.

Lemma uint_decimal d : forall acc, decimal (N.of_nat acc) (NilEmpty.string_of_uint d) = N.of_nat (Nat.of_uint_acc d acc).
Proof.
  induction d; intros acc; [reflexivity|..]; cbn [NilEmpty.string_of_uint decimal Nat.of_uint_acc];
    rewrite <- IHd; f_equal; rewrite Nat.tail_mul_spec; match goal with |- context [N_of_ascii ?c] => let v := eval vm_compute in (N_of_ascii c) in change (N_of_ascii c) with v end; lia.
Qed.
Lemma dec_decimal n : decimal 0 (dec n) = N.of_nat n.
Proof. unfold dec. change 0%N with (N.of_nat 0). rewrite uint_decimal. change (Nat.of_uint_acc (Nat.to_uint n) 0) with (Nat.of_uint (Nat.to_uint n)). rewrite Unsigned.of_to. reflexivity. Qed.

Lemma text_numbers f : numbers (failure_text f) = map dec (position f).
Proof.
  destruct f; unfold failure_text, position; cbn [map]; try reflexivity;
    (rewrite skip_lit by reflexivity; rewrite dec_numbers by reflexivity); try reflexivity.
  rewrite skip_lit by reflexivity. rewrite dec_numbers by reflexivity. reflexivity.
Qed.

(** * The theorems *)
(** The numbers in the text are exactly the position of the fault. *)
Theorem C74_position : forall f, map (decimal 0) (numbers (failure_text f)) = map N.of_nat (position f).
Proof. intros f. rewrite text_numbers, map_map. apply map_ext. exact dec_decimal. Qed.

(** The text tells which check failed, and its position when it gives one. *)
Theorem C74_check : forall f g, failure_text f = failure_text g -> SameFault f g.
Proof.
  intros f g E.
  assert (P : position f = position g).
  { pose proof (f_equal numbers E) as N. rewrite !text_numbers in N. clear E. revert N. generalize (position g). induction (position f) as [|a l IH]; intros [|b l'] N; try discriminate N; [reflexivity|].
    cbn in N. injection N as A N. apply dec_inj in A. rewrite A, (IH _ N). reflexivity. }
  destruct f, g; try (left; reflexivity); try (right; left; eauto; fail); try (right; right; eauto; fail); cbn in P; try discriminate P;
    try (injection P as P; subst; left; reflexivity);
    exfalso; unfold failure_text in E; try (cbn [append] in E; discriminate E).
  all: apply prefix_cancel in E; apply dec_sep in E; [|reflexivity|reflexivity]; destruct E as [_ E]; discriminate E.
Qed.

(** blind() returns an object for every result, never raises for want of a text; [ok] and [error] say what happened. *)
Theorem C74_object : forall r, exists o, blind_object r = Ok o
  /\ (forall f, r = BFailure f -> result_ok o = false /\ result_error o = failure_text f)
  /\ (forall n bfs abfs, r = BSuccess n bfs abfs -> result_ok o = true /\ o = BlindingSuccess (Z.of_nat n) bfs abfs).
Proof.
  intros [n bfs abfs|f].
  - exists (BlindingSuccess (Z.of_nat n) bfs abfs). split; [reflexivity|]. split; [discriminate|]. intros n' b' a' E. injection E as <- <- <-. split; reflexivity.
  - exists (Failure (failure_text f)). assert (N : String.eqb (failure_text f) "" = false) by (destruct f; reflexivity).
    split; [cbn; unfold new_failure; rewrite N; reflexivity|]. split; [|discriminate].
    intros g E. injection E as <-. split; [unfold result_ok; cbn [result_error]; rewrite N; reflexivity|reflexivity].
Qed.

(** Two calls, on whatever transactions and arguments, that refuse with the same text refuse for the same reason:
    the first fault of each (C69) is of the same kind and, when the text gives a position, at that position. *)
Theorem C74_error : forall z rand args t z' rand' args' t' m,
  blind_call z rand args t = Ok (Failure m) -> blind_call z' rand' args' t' = Ok (Failure m) ->
  (exists f f', SameFault f f' /\ FirstFault z args t f /\ FirstFault z' args' t' f')
  \/ (~ Faulty z args t /\ ~ Faulty z' args' t' /\ exists a b, m = failure_text (F_count a b) /\ a <> b).
Proof.
  assert (A : forall z rand args t m, blind_call z rand args t = Ok (Failure m) ->
    exists f s, blind_transaction z rand args t = (Ret (BFailure f), s) /\ m = failure_text f).
  { intros z rand args t m E. unfold blind_call in E. destruct (blind_transaction z rand args t) as [[v|r|e] s] eqn:B; [| |discriminate E].
    - exfalso. unfold blind_transaction in B. destruct (blind_body z rand args (mkSt t 0)) as [[v'|r'|e'] s']; discriminate B.
    - destruct (C74_object r) as (o & O & F & S). rewrite O in E. injection E as ->. destruct r as [n b a|f]; [destruct (S _ _ _ eq_refl) as [K _]|destruct (F _ eq_refl) as [_ K]].
      + exfalso. destruct (S _ _ _ eq_refl) as [_ X]. discriminate X.
      + exists f, s. split; [reflexivity|]. cbn in K. exact K. }
  intros z rand args t z' rand' args' t' m E E'. destruct (A _ _ _ _ _ E) as (f & s & B & M). destruct (A _ _ _ _ _ E') as (f' & s' & B' & M').
  assert (Q : SameFault f f') by (apply C74_check; congruence).
  destruct (C69_failure_names_first _ _ _ _ _ _ B) as [F|(NF & _ & a & b & -> & AB)]; destruct (C69_failure_names_first _ _ _ _ _ _ B') as [F'|(NF' & _ & a' & b' & -> & AB')].
  - left. eauto.
  - exfalso. destruct F as (p & i & k & F & _). destruct Q as [-> |[(x & y & _ & X)|(x & y & _ & X)]]; [inversion F|discriminate X|discriminate X].
  - exfalso. destruct F' as (p & i & k & F & _). destruct Q as [<- |[(x & y & X & _)|(x & y & X & _)]]; [inversion F|discriminate X|discriminate X].
  - right. split; [exact NF|]. split; [exact NF'|]. exists a, b. auto.
Qed.

(** Natural, but false: the error text of a refusal names the input or output at fault. Two calls on one transaction, refused
    because of the proofs of different issuances, give the same text, which contains no number. *)
Definition proved_in (k : Z) : txin := mkTxIn (mkOutPoint (b32 k) 0) [] 0xffffffff (mkIssuance (zeros 32) contract (expl 500) []) false.
Definition proved_tx : tx := mkTx [proved_in 1; proved_in 2] [toy_out 700 asset_A [x51]] 0 2
  (mkTxWit [mkInWit [] [x01] [] []; mkInWit [] [x01] [] []] []).
Definition proved_args (first : bool) : blind_args := mkArgs [mkDesc asset_A 1000 (b32 12345) (b32 67890); mkDesc asset_A 1000 (b32 12345) (b32 67890)]
  [toy_pub 901] (if first then [Some (b32 5001)] else [None; Some (b32 5001)]) [] [] None None true.
Theorem C74_position_always_given_refuted : exists z rand t args args' m f f',
  blind_call z rand args t = Ok (Failure m) /\ blind_call z rand args' t = Ok (Failure m) /\ numbers m = []
  /\ FirstFault z args t f /\ FirstFault z args' t f' /\ ~ FirstFault z args' t f /\ ~ FirstFault z args t f'.
Proof.
  exists toy, toy_rand, proved_tx, (proved_args true), (proved_args false), (failure_text (F_amount_proof_in_place 0)), (F_amount_proof_in_place 0), (F_amount_proof_in_place 1).
  assert (R : forall b, blind_transaction toy toy_rand (proved_args b) proved_tx = (Ret (BFailure (F_amount_proof_in_place (if b then 0 else 1))), mkSt proved_tx 0)).
  { intros [|]; vm_compute; reflexivity. }
  assert (F : forall b : bool, FirstFault toy (proved_args b) proved_tx (F_amount_proof_in_place (if b then 0 else 1))).
  { intros b. destruct (C69_failure_names_first _ _ _ _ _ _ (R b)) as [F|(_ & _ & a & c & X & _)]; [exact F|discriminate X]. }
  split; [unfold blind_call; rewrite (R true); reflexivity|]. split; [unfold blind_call; rewrite (R false); reflexivity|]. split; [reflexivity|].
  split; [exact (F true)|]. split; [exact (F false)|].
  split; intros X; [pose proof (C69_first_unique _ _ _ _ _ X (F false)) as Y|pose proof (C69_first_unique _ _ _ _ _ X (F true)) as Y]; discriminate Y.
Qed.

(** Non-vacuity: a text with its position. *)
Example C74_ex : blind_call toy toy_rand two_args two_faults
  = Ok (Failure "valid blinding pubkey specified for output 1, but txout witness for this output is already in place").
Proof. destruct C69_ex as (_ & _ & _ & R). unfold blind_call. rewrite R. reflexivity. Qed.
Example C74_ex2 : failure_text (F_count 12 340) = "blinded 12 outputs/issuances, but should have blinded 340 (this check can be turned off with is_blind_success_strict=False)"
  /\ map (decimal 0) (numbers (failure_text (F_count 12 340))) = [12; 340]%N.
Proof. split; reflexivity. Qed.

Print Assumptions C74_position.
Print Assumptions C74_check.
Print Assumptions C74_object.
Print Assumptions C74_error.
Print Assumptions C74_position_always_given_refuted.
