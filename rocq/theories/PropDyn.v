(** C83: arguments of wrong types. *)
From Verif Require Import Base BaseFacts TxModel BlindModel SpecBlind BlindFails DynModel SpecDyn DynProofs ToyCrypto ToyTx.
From Coq Require Import Lia.
Local Open Scope Z_scope.

(** Arguments of the documented types: the type checks change nothing, so everything proved about blind_transaction holds. *)
Theorem C83_documented z rand a t : SizesOk z -> blind_dyn z rand (dyn_of a) t = blind_transaction z rand a t.
Proof.
  intros SZ. destruct (dyn_of_right a) as (NT & NP & NF).
  destruct (check_dyn_cases (dyn_of a) t) as [(_ & _ & NC)|(e & E & C)].
  - destruct (dyn_late z rand (dyn_of a) [] SZ t NT NC) as [E|(e & s & _ & [[[_ X]|[_ [x X]]] _])]; [|contradiction|exfalso; exact (NF x X)].
    unfold args in E. rewrite args_dyn_of in E. exact E.
  - assert (WC : WrongCount (dyn_of a) t /\ e = EValue).
    { destruct C as [[_ X]|[[-> X]|[_ X]]]; [contradiction|auto|]. exfalso. apply NT. right; right; right; left. exists NotDesc. split; [exact X|]. intros (? & ? & ? & ? & Y). discriminate. }
    destruct WC as [WC ->].
    rewrite bad_arguments_refused.
    + destruct (dyn_early z rand (dyn_of a) t (or_intror WC)) as (e & E1 & C1). rewrite E1. f_equal.
      destruct C1 as [[_ X]|[[-> X]|[_ X]]]; [contradiction|reflexivity|]. exfalso. apply NT. right; right; right; left. exists NotDesc. split; [exact X|]. intros (? & ? & ? & ? & Y). discriminate.
    + unfold WrongCount, dyn_of in WC. cbn in WC. rewrite !map_length in WC. unfold bad_arguments.
      destruct WC as [X|[X|[X|[X|[X Y]]]]]; auto 10. right; right; right; right. split; [intros Z; apply X; rewrite Z; reflexivity|].
      destruct Y as [Y|(g & Ig & N)]; [auto|]. right. exists g. split; [|exact N]. apply in_map_iff in Ig. destruct Ig as (g' & Eg & Ig). injection Eg as <-. exact Ig.
Qed.
Print Assumptions C83_documented.

(** Blinding keys, truthy issuance keys, descriptors and generators: refused before anything is touched or drawn. *)
Theorem C83_early z rand y t : WrongType y \/ WrongCount y t ->
  exists e, blind_dyn z rand y t = (Exc e, mkSt t 0)
    /\ ((e = EType /\ WrongType y) \/ (e = EValue /\ WrongCount y t) \/ (e = EAttribute /\ In NotDesc (y_descs y))).
Proof. exact (dyn_early z rand y t). Qed.
Print Assumptions C83_early.

(** The other wrong types: the call goes as with right arguments in their place, or it stops in the middle. *)
Theorem C83_late z rand y w t : SizesOk z -> ~ WrongType y -> ~ WrongCount y t ->
  blind_dyn z rand y t = blind_transaction z rand (args_of w y) t
  \/ exists e s, blind_dyn z rand y t = (Exc e, s)
       /\ ((e = EType /\ WrongParameter y) \/ (e = EAttribute /\ exists x, falsy_key y x))
       /\ (HalfIssuance t (s_tx s) \/ HalfOutput t (s_tx s)).
Proof. intros SZ. exact (dyn_late z rand y w SZ t). Qed.
Print Assumptions C83_late.

(** ... so a call with such an argument that returns has not blinded what the argument was for. *)
Theorem C83_parameter z rand y t r s : SizesOk z -> WrongParameter y -> blind_dyn z rand y t = (Ret r, s) ->
  Still t (s_tx s) /\ forall n bfs abfs, r = BSuccess n bfs abfs -> (n <= 1)%nat.
Proof. intros SZ. exact (dyn_no_effect z rand y [] t r s). Qed.
Print Assumptions C83_parameter.
Theorem C83_falsy z rand y t r s i ps : SizesOk z -> falsy_key y (i, ps) -> blind_dyn z rand y t = (Ret r, s) -> SameIn t (s_tx s) i ps.
Proof. intros SZ. exact (dyn_falsy z rand y [] SZ t r s i ps). Qed.
Print Assumptions C83_falsy.

(** With what blinds two things or more, a wrong parameter stops half-way. *)
Theorem C83_stops z rand y w t n bfs abfs s : SizesOk z -> ~ WrongType y -> WrongParameter y ->
  blind_transaction z rand (args_of w y) t = (Ret (BSuccess n bfs abfs), s) -> (2 <= n)%nat ->
  exists e s', blind_dyn z rand y t = (Exc e, s') /\ (e = EType \/ e = EAttribute) /\ (HalfIssuance t (s_tx s') \/ HalfOutput t (s_tx s')).
Proof.
  intros SZ NT WP E N.
  destruct (check_dyn_cases y t) as [(_ & _ & NC)|(e & C & X)].
  - destruct (C83_late z rand y w t SZ NT NC) as [D|(e & s' & D & X & H)].
    + rewrite E in D. destruct (C83_parameter z rand y t _ _ SZ WP D) as [_ B]. specialize (B _ _ _ eq_refl). lia.
    + exists e, s'. split; [exact D|]. split; [|exact H]. destruct X as [[-> _]|[-> _]]; auto.
  - exfalso. destruct X as [[_ X]|[[_ X]|[_ X]]]; [contradiction| |].
    + rewrite bad_arguments_refused in E; [discriminate|]. unfold WrongCount in X. unfold bad_arguments, args_of. cbn. rewrite !map_length.
      destruct X as [X|[X|[X|[X|[X Y]]]]]; auto 10. right; right; right; right. split; [destruct (y_aux y); [contradiction|discriminate]|].
      destruct Y as [Y|(g & Ig & Ng)]; [auto|]. right. exists g. split; [|exact Ng]. apply in_map_iff. exists (Good g). auto.
    + apply NT. right; right; right; left. exists NotDesc. split; [exact X|]. intros (? & ? & ? & ? & Y). discriminate.
Qed.
Print Assumptions C83_stops.

Definition with_bits (a : blind_args) (b : pyint) : dyn_args :=
  let y := dyn_of a in mkDyn (y_descs y) (y_pubkeys y) (y_asset_keys y) (y_token_keys y) (y_aux y) (y_ct_exponent y) b (y_strict y).
Definition with_asset_keys (a : blind_args) (ks : list pykey) : dyn_args :=
  let y := dyn_of a in mkDyn (y_descs y) (y_pubkeys y) ks (y_token_keys y) (y_aux y) (y_ct_exponent y) (y_ct_bits y) (y_strict y).
Definition with_pubkeys (a : blind_args) (ps : list (typed bytes)) : dyn_args :=
  let y := dyn_of a in mkDyn (y_descs y) ps (y_asset_keys y) (y_token_keys y) (y_aux y) (y_ct_exponent y) (y_ct_bits y) (y_strict y).

Lemma pair_fst {A B} (p : A * B) a : fst p = a -> p = (a, snd p). Proof. destruct p. cbn. congruence. Qed.
(** Not every TypeError comes before the first change. *)
Theorem C83_type_error_leaves_transaction_refuted : exists z rand y t s, SizesOk z
  /\ (exists r s', blind_transaction z rand (args_of [] y) t = (Ret r, s')) /\ blind_dyn z rand y t = (Exc EType, s) /\ s_tx s <> t.
Proof.
  exists toy, toy_rand, (with_bits toy_args IOther), toy_tx, (snd (blind_dyn toy toy_rand (with_bits toy_args IOther) toy_tx)).
  split; [exact toy_sizes|]. split.
  - destruct (blind_transaction toy toy_rand (args_of [] (with_bits toy_args IOther)) toy_tx) as [o s'] eqn:E. apply (f_equal fst) in E. cbn [fst] in E.
    assert (Q : exists r, o = Ret r); [|destruct Q as [r ->]; eauto]. rewrite <- E. vm_compute. eexists. reflexivity.
  - split.
    + apply pair_fst. vm_compute. reflexivity.
    + intros E. apply (f_equal (fun t => option_map (fun i => hd x00 (iss_field false i)) (nth_error (vin t) 1))) in E. vm_compute in E. discriminate.
Qed.
Print Assumptions C83_type_error_leaves_transaction_refuted.

(** The hypotheses are met: each way of going wrong, on a call that blinds two issuances and two outputs when right. *)
Example C83_ex : fst (blind_dyn toy toy_rand (dyn_of toy_args) toy_tx) = fst (blind_transaction toy toy_rand toy_args toy_tx)
  /\ WrongType (with_pubkeys toy_args [Bad]) /\ blind_dyn toy toy_rand (with_pubkeys toy_args [Bad]) toy_tx = (Exc EType, mkSt toy_tx 0)
  /\ falsy_key (with_asset_keys toy_args [KNone; KFalsy]) (1%nat, false)
  /\ fst (blind_dyn toy toy_rand (with_asset_keys toy_args [KNone; KFalsy]) toy_tx) = Exc EAttribute
  /\ fst (blind_dyn toy toy_rand (with_bits toy_args (IInt 36)) toy_tx) = fst (blind_transaction toy toy_rand toy_args toy_tx).
Proof.
  split; [vm_compute; reflexivity|]. split; [left; left; reflexivity|]. split; [vm_compute; reflexivity|]. split; [reflexivity|]. split; vm_compute; reflexivity.
Qed.
(** Without issuances: the first output is left half blinded. *)
Definition out_only : blind_args := mkArgs toy_descs (a_pubkeys toy_args) [] [] [] None None true.
Example C83_ex2 : HalfOutput toy_tx (s_tx (snd (blind_dyn toy toy_rand (with_bits out_only IOther) toy_tx)))
  /\ fst (blind_dyn toy toy_rand (with_bits out_only IOther) toy_tx) = Exc EType.
Proof.
  split; [|vm_compute; reflexivity].
  destruct (C83_late toy toy_rand (with_bits out_only IOther) [] toy_tx toy_sizes) as [E|(e & s & E & _ & [H|H])].
  - exact (proj1 (dyn_of_right out_only)).
  - intros [X|[X|[X|[X|[X _]]]]]; [vm_compute in X; lia|vm_compute in X; lia|vm_compute in X; lia|apply X; reflexivity|apply X; reflexivity].
  - exfalso. assert (Q : match fst (blind_transaction toy toy_rand (args_of [] (with_bits out_only IOther)) toy_tx) with Exc EType => False | _ => True end) by (vm_compute; exact I).
    rewrite <- E in Q. assert (Q1 : fst (blind_dyn toy toy_rand (with_bits out_only IOther) toy_tx) = Exc EType) by (vm_compute; reflexivity). rewrite Q1 in Q. exact Q.
  - exfalso. rewrite <- (f_equal snd E : snd _ = s) in H. destruct H as (i & ps & inp & inp' & v & E1 & E2 & _ & [L C] & _).
    assert (V : vin (s_tx (snd (blind_dyn toy toy_rand (with_bits out_only IOther) toy_tx))) = vin toy_tx) by (vm_compute; reflexivity). rewrite V in E2.
    assert (Q : inp' = toy_in0 \/ inp' = toy_in1).
    { destruct i as [|[|[|i]]]; [left|right|discriminate E2|discriminate E2]; apply (f_equal (fun o => match o with Some x => x | None => inp' end)) in E2; symmetry; exact E2. }
    assert (Q0 : forall p i, i = toy_in0 \/ i = toy_in1 -> (length (iss_field p i) <? 33)%nat = true) by (intros p i0 [-> | ->]; destruct p; vm_compute; reflexivity).
    specialize (Q0 ps inp' Q). rewrite L in Q0. discriminate Q0.
  - rewrite E. exact H.
Qed.
