(** Properties C55 to C58. *)
From Coq Require Import Strings.String.
From Verif Require Import Base BaseFacts Serialize TxModel SpecWire TxProofs MiscModel.
From Coq Require Import Lia.
Local Open Scope Z_scope.

(** C55. Accepted exactly when the total size is right. *)
Theorem C55_accepted_iff : forall l n buf,
  build_aligned_data_array l n = Ok buf <->
  n mod 32 = 0 /\ n <> 0 /\ buf = concat l /\ blen buf = n * Z.of_nat (length l).
Proof.
  intros l n buf. unfold build_aligned_data_array. cbv zeta. split.
  - intros E. apply rbind_Ok in E. destruct E as (u & E1 & E). apply rassert_Ok in E1. apply Z.eqb_eq in E1.
    destruct (Z.eqb_spec n 0) as [|N]; [discriminate|]. cbn [rbind] in E.
    apply rbind_Ok in E. destruct E as (u2 & E2 & E). apply rassert_Ok in E2. apply Z.eqb_eq in E2.
    apply rbind_Ok in E. destruct E as (u3 & E3 & E). apply rassert_Ok in E3. apply Z.eqb_eq in E3.
    apply Ok_inj in E. subst buf. repeat split; auto.
    rewrite <- E3. rewrite (Z.div_mod (blen (concat l)) n N) at 1. lia.
  - intros (E1 & N & -> & E). rewrite E1. cbn [rassert rbind]. change (0 =? 0) with true. cbn [rassert rbind].
    destruct (Z.eqb_spec n 0); [contradiction|]. cbn [rbind]. rewrite E.
    rewrite (Z.mul_comm n), Z.mod_mul, Z.div_mul by assumption. rewrite !Z.eqb_refl. reflexivity.
Qed.
(** The i-th slot of the array handed to the library. *)
Definition slot (n : nat) (buf : bytes) (i : nat) : bytes := firstn n (skipn (i * n) buf).
Theorem C55_slots : forall l n, (0 < n)%nat -> Z.of_nat n mod 32 = 0 -> Forall (fun d => length d = n) l ->
  exists buf, build_aligned_data_array l (Z.of_nat n) = Ok buf
    /\ forall i d, nth_error l i = Some d -> slot n buf i = d.
Proof.
  intros l n Hn H32 F. exists (concat l). split.
  - apply C55_accepted_iff. split; [assumption|]. split; [lia|]. split; [reflexivity|].
    clear Hn H32. induction F as [|d l Hd F IH]; [cbn; lia|]. cbn [concat List.length]. rewrite blen_app, IH.
    unfold blen. rewrite Hd. lia.
  - clear Hn H32. unfold slot. induction F as [|d l Hd F IH]; intros i x N; [destruct i; discriminate|].
    destruct i as [|i].
    + cbn in N. injection N as <-. cbn [Nat.mul skipn concat]. rewrite <- Hd. apply firstn_len_app.
    + cbn [nth_error] in N. cbn [concat]. rewrite <- (IH i x N). f_equal.
      replace (S i * n)%nat with (length d + i * n)%nat by lia. rewrite skipn_app, skipn_all2 by lia. cbn [app]. f_equal. lia.
Qed.
(** A wrong total is always refused. *)
Theorem C55_wrong_total : forall l n, blen (concat l) <> n * Z.of_nat (length l) ->
  build_aligned_data_array l n = Raise EAssert \/ build_aligned_data_array l n = Raise EZeroDivision.
Proof.
  intros l n H. destruct (build_aligned_data_array l n) as [buf|e] eqn:E.
  - apply C55_accepted_iff in E. destruct E as (_ & _ & -> & E). contradiction.
  - revert E. unfold build_aligned_data_array. cbv zeta.
    destruct (n mod 32 =? 0); cbn [rassert rbind]; [|intros X; injection X as <-; auto].
    destruct (n =? 0); cbn [rbind]; [intros X; injection X as <-; auto|].
    destruct (blen (concat l) mod n =? 0); cbn [rassert rbind]; [|intros X; injection X as <-; auto].
    unfold rassert. destruct (_ / n =? _); cbn [rbind]; intros X; [congruence|]. injection X as <-. auto.
Qed.
(** "Accepted lists have elements of the expected size" is false. *)
Theorem C55_sizes_refuted : exists l n buf i d,
  build_aligned_data_array l (Z.of_nat n) = Ok buf /\ nth_error l i = Some d /\ slot n buf i <> d /\ length d <> n.
Proof.
  exists [repeat x01 31; repeat x02 33], 32%nat, (repeat x01 31 ++ repeat x02 33), 0%nat, (repeat x01 31).
  repeat split; vm_compute; intros X; discriminate.
Qed.
Example C55_ex : exists buf, build_aligned_data_array [repeat x01 64; repeat x02 64; repeat x03 64] 64 = Ok buf
  /\ slot 64 buf 1 = repeat x02 64.
Proof. eexists. split; [vm_compute; reflexivity|reflexivity]. Qed.

(** C56. A history is a list of calls; [run w 0 init_state evs] lists, per call, the answer
    and the path given to the loader if the loader was called. *)
Definition answers {lib} (w : world lib) (evs : list event) := run w 0 init_state evs.
(** [PathBefore w evs k q]: [q] is the path set by the last accepted
    set_custom_secp256k1_path among the first [k] calls, None if there is none. *)
Definition accepted_set {lib} (w : world lib) (evs : list event) (k : nat) (p : string) : Prop :=
  nth_error evs k = Some (ESetPath p) /\ isfile w k p = true.
Definition PathBefore {lib} (w : world lib) (evs : list event) (k : nat) (q : option string) : Prop :=
  match q with
  | None => forall j p, (j < k)%nat -> ~ accepted_set w evs j p
  | Some p => exists j, (j < k)%nat /\ accepted_set w evs j p
                /\ forall m p', (j < m < k)%nat -> ~ accepted_set w evs m p'
  end.

(** State after the first [k] calls. *)
Fixpoint after {lib} (w : world lib) (n : nat) (s : lstate lib) (evs : list event) (k : nat) : lstate lib :=
  match k, evs with
  | S k', e :: evs' => after w (S n) (snd (fst (step w n s e))) evs' k'
  | _, _ => s
  end.
Lemma run_nth {lib} (w : world lib) evs : forall n s k a l,
  nth_error (run w n s evs) k = Some (a, l) <->
  exists e, nth_error evs k = Some e /\ a = fst (fst (step w (n + k) (after w n s evs k) e))
            /\ l = snd (step w (n + k) (after w n s evs k) e).
Proof.
  induction evs as [|e evs IH]; intros n s k a l.
  - destruct k; (split; [discriminate|intros (? & ? & _); discriminate]).
  - cbn [run]. destruct (step w n s e) as [[a0 s'] l0] eqn:E. destruct k as [|k]; cbn [nth_error after].
    + rewrite Nat.add_0_r. split.
      * intros X. injection X as <- <-. exists e. rewrite E. auto.
      * intros (e' & X & -> & ->). injection X as <-. rewrite E. reflexivity.
    + rewrite E. cbn [fst snd]. rewrite Nat.add_succ_r. apply IH.
Qed.
Lemma after_S {lib} (w : world lib) evs : forall n s k e, nth_error evs k = Some e ->
  after w n s evs (S k) = snd (fst (step w (n + k) (after w n s evs k) e)).
Proof.
  induction evs as [|e0 evs IH]; intros n s k e N; [destruct k; discriminate|].
  destruct k as [|k].
  - cbn in N. injection N as ->. cbn [after]. rewrite Nat.add_0_r. destruct evs; reflexivity.
  - cbn [nth_error] in N. change (after w n s (e0 :: evs) (S (S k))) with (after w (S n) (snd (fst (step w n s e0))) evs (S k)).
    rewrite (IH _ _ _ _ N). cbn [after]. rewrite Nat.add_succ_r. reflexivity.
Qed.
Lemma after_None {lib} (w : world lib) evs : forall n s k, nth_error evs k = None ->
  after w n s evs (S k) = after w n s evs k.
Proof.
  induction evs as [|e0 evs IH]; intros n s k N; [destruct k; reflexivity|].
  destruct k as [|k]; [discriminate|]. cbn [nth_error] in N. exact (IH _ _ _ N).
Qed.
Lemma after_path {lib} (w : world lib) evs k : PathBefore w evs k (lib_path (after w 0 init_state evs k)).
Proof.
  induction k as [|k IH].
  - destruct evs; cbn; intros j p L; lia.
  - assert (KEEP : lib_path (after w 0 init_state evs (S k)) = lib_path (after w 0 init_state evs k) ->
                   (forall p, ~ accepted_set w evs k p) -> PathBefore w evs (S k) (lib_path (after w 0 init_state evs (S k)))).
    { intros -> NA. destruct (lib_path (after w 0 init_state evs k)) as [p|]; cbn [PathBefore] in *.
      - destruct IH as (j & L & A & B). exists j. split; [lia|]. split; [assumption|].
        intros m p' Lm. destruct (Nat.eq_dec m k) as [->|]; [apply NA|apply B; lia].
      - intros j p L. destruct (Nat.eq_dec j k) as [->|]; [apply NA|apply IH; lia]. }
    destruct (nth_error evs k) as [e|] eqn:N.
    + pose proof (after_S w evs 0 init_state k e N) as ES. cbn [Nat.add] in ES.
      destruct e as [p| |].
      * unfold step in ES. destruct (isfile w k p) eqn:F; cbn [fst snd] in ES.
        -- rewrite ES. cbn [lib_path PathBefore]. exists k. split; [lia|]. split; [split; assumption|]. intros; lia.
        -- apply KEEP; [rewrite ES; reflexivity|]. intros p' [N' F']. rewrite N in N'. injection N' as <-. congruence.
      * apply KEEP; [rewrite ES; reflexivity|]. intros p' [N' F']. congruence.
      * apply KEEP; [|intros p' [N' F']; congruence]. rewrite ES. cbn [step].
        destruct (the_handle _); [reflexivity|]. destruct (load_library _ _ _); reflexivity.
    + apply KEEP; [rewrite after_None; auto|]. intros p [N' _]. congruence.
Qed.
Lemma after_handle_stable {lib} (w : world lib) evs h : forall d k,
  the_handle (after w 0 init_state evs k) = Some h -> the_handle (after w 0 init_state evs (k + d)) = Some h.
Proof.
  induction d as [|d IH]; intros k H; [rewrite Nat.add_0_r; assumption|].
  specialize (IH k H). rewrite Nat.add_succ_r. destruct (nth_error evs (k + d)) as [e|] eqn:N.
  - rewrite (after_S w evs 0 init_state _ e N). cbn [Nat.add]. destruct e as [p| |]; cbn [step].
    + destruct (isfile _ _ _); exact IH.
    + exact IH.
    + rewrite IH. exact IH.
  - rewrite after_None; assumption.
Qed.
Lemma answer_handle {lib} (w : world lib) evs k h l :
  nth_error (answers w evs) k = Some (AHandle h, l) ->
  nth_error evs k = Some EGetLib /\ the_handle (after w 0 init_state evs (S k)) = Some h
  /\ ((l = None /\ the_handle (after w 0 init_state evs k) = Some h)
      \/ exists lb q, l = Some q /\ q = lib_path (after w 0 init_state evs k) /\ the_handle (after w 0 init_state evs k) = None
           /\ load_library w k q = Ok lb
           /\ h = mkHandle lb (has_rangeproof_info w lb) (has_rangeproof_info w lb)).
Proof.
  intros N. apply run_nth in N. destruct N as (e & N & A & L). cbn [Nat.add] in A, L.
  pose proof (after_S w evs 0 init_state k e N) as ES. cbn [Nat.add] in ES.
  destruct e as [p| |]; cbn [step] in *.
  - destruct (isfile _ _ _); discriminate.
  - discriminate.
  - split; [assumption|]. destruct (the_handle (after w 0 init_state evs k)) as [h0|] eqn:EH; cbn [fst snd] in *.
    + injection A as ->. rewrite ES. split; [assumption|]. left. auto.
    + destruct (load_library w k (lib_path (after w 0 init_state evs k))) as [lb|x] eqn:LD; cbn [fst snd] in *; [|discriminate].
      injection A as ->. rewrite ES. split; [reflexivity|]. right. exists lb, (lib_path (after w 0 init_state evs k)). auto 10.
Qed.

(** All gets that succeed return one and the same handle. *)
Theorem C56_one_handle : forall lib (w : world lib) evs i j h1 h2 l1 l2,
  nth_error (answers w evs) i = Some (AHandle h1, l1) -> nth_error (answers w evs) j = Some (AHandle h2, l2) -> h1 = h2.
Proof.
  intros lib w evs i j h1 h2 l1 l2 A B. apply answer_handle in A. apply answer_handle in B.
  destruct A as (_ & A & _), B as (_ & B & _).
  destruct (Nat.le_ge_cases i j) as [L|L].
  - apply (after_handle_stable w evs h1 (j - i)) in A. replace (S i + (j - i))%nat with (S j) in A by lia. congruence.
  - apply (after_handle_stable w evs h2 (i - j)) in B. replace (S j + (i - j))%nat with (S i) in B by lia. congruence.
Qed.
(** That handle comes from one load, made with the last path accepted before it;
    has_zkp says whether a blinding context exists. *)
Theorem C56_loaded_from : forall lib (w : world lib) evs i h l,
  nth_error (answers w evs) i = Some (AHandle h, l) ->
  exists k q lb, (k <= i)%nat /\ nth_error (answers w evs) k = Some (AHandle h, Some q)
    /\ PathBefore w evs k q /\ load_library w k q = Ok lb
    /\ h_lib h = lb /\ h_has_zkp h = has_rangeproof_info w lb /\ h_blind_ctx h = h_has_zkp h.
Proof.
  intros lib w evs i h l A. pose proof (answer_handle w evs i h l A) as (G & _ & C).
  assert (LOAD : forall k, (k <= i)%nat -> the_handle (after w 0 init_state evs k) = Some h ->
     exists k0 q, (k0 <= i)%nat /\ nth_error (answers w evs) k0 = Some (AHandle h, Some q)).
  { induction k as [|k IH]; intros L H. { destruct evs; discriminate. }
    destruct (the_handle (after w 0 init_state evs k)) as [h0|] eqn:EH.
    - apply IH; [lia|]. pose proof (after_handle_stable w evs h0 1 k EH) as X. rewrite Nat.add_1_r in X. congruence.
    - destruct (nth_error evs k) as [e|] eqn:N; [|rewrite after_None in H by assumption; congruence].
      pose proof (after_S w evs 0 init_state k e N) as ES. cbn [Nat.add] in ES. rewrite ES in H.
      exists k, (lib_path (after w 0 init_state evs k)). split; [lia|]. apply run_nth. exists e. split; [assumption|]. cbn [Nat.add].
      destruct e as [p| |]; cbn [step] in *.
      + destruct (isfile w k p); cbn [fst snd the_handle] in H; congruence.
      + cbn [fst snd] in H. congruence.
      + rewrite EH in *. destruct (load_library w k _); cbn [fst snd the_handle] in *; [|congruence].
        injection H as <-. split; reflexivity. }
  assert (EX : exists k q, (k <= i)%nat /\ nth_error (answers w evs) k = Some (AHandle h, Some q)).
  { destruct C as [(-> & H)|(lb & q & -> & _)]; [exact (LOAD i (le_n i) H)|eauto]. }
  destruct EX as (k & q & L & N). pose proof (answer_handle w evs k h _ N) as (_ & _ & [(X & _)|(lb & q' & X & Y & _ & LD & ->)]); [discriminate|].
  injection X as <-. exists k, q, lb. split; [exact L|]. split; [exact N|]. split; [rewrite Y; apply after_path|]. auto.
Qed.
(** After a get succeeded the loader is never called again, whatever paths are set. *)
Theorem C56_loaded_once : forall lib (w : world lib) evs i j h l a l',
  nth_error (answers w evs) i = Some (AHandle h, l) -> (i < j)%nat -> nth_error (answers w evs) j = Some (a, l') ->
  l' = None /\ (nth_error evs j = Some EGetLib -> a = AHandle h).
Proof.
  intros lib w evs i j h l a l' A L B. apply answer_handle in A. destruct A as (_ & A & _).
  apply (after_handle_stable w evs h (j - S i)) in A. replace (S i + (j - S i))%nat with j in A by lia.
  apply run_nth in B. destruct B as (e & N & -> & ->). cbn [Nat.add]. destruct e as [p| |]; cbn [step].
  - split; [destruct (isfile _ _ _); reflexivity|congruence].
  - split; [reflexivity|congruence].
  - rewrite A. auto.
Qed.
(** get_custom_secp256k1_path() reports the last accepted path, used or not. *)
Theorem C56_reported_path : forall lib (w : world lib) evs k a l,
  nth_error evs k = Some EGetPath -> nth_error (answers w evs) k = Some (a, l) ->
  exists q, a = APath q /\ PathBefore w evs k q.
Proof.
  intros lib w evs k a l N A. apply run_nth in A. destruct A as (e & N' & -> & _). rewrite N in N'. injection N' as <-.
  cbn [step fst]. eexists. split; [reflexivity|]. apply after_path.
Qed.
(** Two failed loads, a path change, a load, a path change that comes too late. *)
Example C56_ex :
  let w := @mkWorld string (fun _ p => negb (String.eqb p "bad")) (fun _ p => match p with None => Raise EOS | Some p => Ok p end) (fun _ => true) in
  map fst (answers w [EGetLib; ESetPath "bad"; EGetLib; ESetPath "a"; EGetLib; ESetPath "b"; EGetLib; EGetPath])
  = [AExc EOS; AExc EValue; AExc EOS; AUnit; AHandle (mkHandle "a" true true); AUnit;
     AHandle (mkHandle "a" true true); APath (Some "b")]%string.
Proof. reflexivity. Qed.

(** C57. Result objects as the constructors produce them. *)
Definition constructible (r : result) : Prop :=
  (exists m, new_failure m = Ok r) \/ (exists n a b, new_blinding_success n a b = Ok r)
  \/ (exists a v b c, new_unblinding_success a v b c = Ok r).
Theorem C57_ok_iff : forall r, constructible r ->
  (result_ok r = true <-> forall m, r <> Failure m) /\ (result_ok r = true <-> result_error r = EmptyString)
  /\ (forall m, r = Failure m -> result_error r = m /\ m <> EmptyString)
  /\ result_bool r = Raise EType
  /\ (forall a v b c, r = UnblindingSuccess a v b c -> 0 <= v <= 2100000000000000).
Proof.
  intros r C. unfold result_ok.
  assert (F : forall m, r = Failure m -> m <> EmptyString).
  { intros m ->. destruct C as [(m' & E)|[(n & a & b & E)|(a & v & b & c & E)]].
    - unfold new_failure in E. destruct (String.eqb_spec m' EmptyString); cbn [rassert negb rbind] in E; [discriminate|].
      apply Ok_inj in E. injection E as <-. assumption.
    - discriminate.
    - unfold new_unblinding_success in E. destruct (MoneyRange v); discriminate. }
  split; [|split; [|split; [|split]]].
  - destruct r as [m|n a b|a v b c]; cbn [result_error].
    + specialize (F m eq_refl). destruct (String.eqb_spec m EmptyString); [contradiction|].
      split; [discriminate|]. intros X. exfalso. exact (X m eq_refl).
    + split; [discriminate|reflexivity].
    + split; [discriminate|reflexivity].
  - destruct (String.eqb_spec (result_error r) EmptyString); split; congruence.
  - intros m ->. split; [reflexivity|auto].
  - reflexivity.
  - intros a v b c ->. destruct C as [(m' & E)|[(n & a' & b' & E)|(a' & v' & b' & c' & E)]].
    + unfold new_failure in E. destruct (String.eqb m' EmptyString); discriminate.
    + discriminate.
    + unfold new_unblinding_success, MoneyRange in E. destruct (_ && _) eqn:M; cbn [rassert rbind] in E; [|discriminate].
      apply Ok_inj in E. injection E as <- <- <- <-. apply andb_prop in M. destruct M as [M1 M2].
      apply Z.leb_le in M1. apply Z.leb_le in M2. change MAX_MONEY with 2100000000000000 in M2. lia.
Qed.
Theorem C57_empty_error_refused : new_failure EmptyString = Raise EAssert.
Proof. reflexivity. Qed.
Example C57_ex : constructible (Failure "x") /\ constructible (BlindingSuccess 0 [] []) /\ result_ok (Failure "x") = false.
Proof. split; [left; exists "x"%string; reflexivity|]. split; [right; left; exists 0, [], []; reflexivity|reflexivity]. Qed.

(** C58. Input witnesses do not see later changes of the caller's buffers. *)
Theorem C58_inwit_insulated : forall h sw iss keys pegin ms,
  serialize_in (mutations h ms) (new_in_witness h sw iss keys pegin)
  = ser_inwit (mkInWit sw (deref h iss) (deref h keys) pegin).
Proof. reflexivity. Qed.
(** Output witnesses do. *)
Theorem C58_outwit_insulated_refuted : exists h surj range ms,
  serialize_out (mutations h ms) (new_out_witness h surj range) <> serialize_out h (new_out_witness h surj range).
Proof. exists (fun _ => [x01]), (PByteArray 0), (PBytes []), [(0%nat, [])]. vm_compute. discriminate. Qed.
(** They serialize whatever the buffers hold at serialization time ... *)
Theorem C58_outwit_live : forall h surj range ms,
  serialize_out (mutations h ms) (new_out_witness h surj range)
  = ser_outwit (mkOutWit (deref (mutations h ms) surj) (deref (mutations h ms) range)).
Proof. reflexivity. Qed.
(** ... so they are insulated exactly when both arguments are bytes. *)
Theorem C58_outwit_iff : forall h surj range b,
  serialize_out h (new_out_witness h surj range) = Ok b ->
  ((forall ms, serialize_out (mutations h ms) (new_out_witness h surj range) = Ok b)
   <-> (exists x y, surj = PBytes x /\ range = PBytes y)).
Proof.
  intros h surj range b S. split.
  - intros X.
    assert (LEN : forall x y s, ser_outwit (mkOutWit x y) = Ok s ->
              exists sx sy, ser_bytes x = Ok sx /\ ser_bytes y = Ok sy /\ s = sx ++ sy).
    { intros x y s E. unfold ser_outwit in E. cbn [ow_surj ow_range] in E.
      apply rbind_Ok in E. destruct E as (sx & E1 & E). apply rbind_Ok in E. destruct E as (sy & E2 & E).
      apply Ok_inj in E. subst s. eauto. }
    assert (NIL : ser_bytes [] = Ok [x00]) by reflexivity.
    assert (ONE : ser_bytes [x00] = Ok [x01; x00]) by reflexivity.
    destruct surj as [a|a].
    + destruct range as [c|c]; [eauto|]. exfalso.
      pose proof (X [(c, [])]) as X1. pose proof (X [(c, [x00])]) as X2.
      unfold serialize_out, mutations, mutate in X1, X2. cbn [fold_left new_out_witness oo_surj oo_range deref fst snd] in X1, X2.
      rewrite Nat.eqb_refl in X1, X2. apply LEN in X1. apply LEN in X2.
      destruct X1 as (s1 & t1 & A1 & B1 & ->), X2 as (s2 & t2 & A2 & B2 & E).
      rewrite A1 in A2. apply Ok_inj in A2. subst s2. rewrite NIL in B1. rewrite ONE in B2. apply Ok_inj in B1. apply Ok_inj in B2. subst.
      apply (f_equal (@List.length _)) in E. rewrite !app_length in E. cbn in E. lia.
    + exfalso. pose proof (X [(a, [])]) as X1. pose proof (X [(a, [x00])]) as X2.
      unfold serialize_out, mutations, mutate in X1, X2. cbn [fold_left new_out_witness oo_surj oo_range deref fst snd] in X1, X2.
      rewrite Nat.eqb_refl in X1, X2. apply LEN in X1. apply LEN in X2.
      destruct X1 as (s1 & t1 & A1 & B1 & ->), X2 as (s2 & t2 & A2 & B2 & E).
      rewrite NIL in A1. rewrite ONE in A2. apply Ok_inj in A1. apply Ok_inj in A2. subst s1 s2.
      apply (f_equal (@List.length _)) in E. rewrite !app_length in E. cbn in E.
      destruct range as [c|c]; cbn [deref] in B1, B2.
      * rewrite B1 in B2. apply Ok_inj in B2. subst t2. lia.
      * destruct (Nat.eqb c a).
        -- rewrite NIL in B1. rewrite ONE in B2. apply Ok_inj in B1. apply Ok_inj in B2. subst. cbn in E. lia.
        -- rewrite B1 in B2. apply Ok_inj in B2. subst t2. lia.
  - intros (x & y & -> & ->) ms. exact S.
Qed.
Example C58_ex : exists h b, serialize_out h (new_out_witness h (PByteArray 3) (PBytes [x01])) = Ok b
  /\ serialize_in (mutations h [(3%nat, [x07])]) (new_in_witness h [] (PByteArray 3) (PBytes []) []) = serialize_in h (new_in_witness h [] (PByteArray 3) (PBytes []) []).
Proof. exists (fun _ => [x05; x06]). eexists. split; reflexivity. Qed.

Print Assumptions C55_accepted_iff.
Print Assumptions C55_slots.
Print Assumptions C55_wrong_total.
Print Assumptions C55_sizes_refuted.
Print Assumptions C56_one_handle.
Print Assumptions C56_loaded_from.
Print Assumptions C56_loaded_once.
Print Assumptions C56_reported_path.
Print Assumptions C57_ok_iff.
Print Assumptions C57_empty_error_refused.
Print Assumptions C58_inwit_insulated.
Print Assumptions C58_outwit_insulated_refuted.
Print Assumptions C58_outwit_live.
Print Assumptions C58_outwit_iff.
