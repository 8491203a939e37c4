(** Calls through memory give the results of the library. *)
From Coq Require Import ZArith List Bool Lia.
From Verif Require Import Base BaseFacts TxModel BlindModel SpecBlind SpecContract SpecMem MemModel.
Import ListNotations.
Local Open Scope Z_scope.

Definition ext (m m' : mem) : Prop := exists new, m' = m ++ new.
Lemma ext_refl m : ext m m. Proof. exists []. symmetry. apply app_nil_r. Qed.
Lemma ext_trans a b c : ext a b -> ext b c -> ext a c.
Proof. intros [x ->] [y ->]. exists (x ++ y). rewrite app_assoc. reflexivity. Qed.
Lemma ext_app m x : ext m (m ++ x). Proof. exists x. reflexivity. Qed.
Lemma holds_lt m a b : holds m a b -> (a < length m)%nat. Proof. intros H. apply nth_error_Some. unfold holds in H. congruence. Qed.
Lemma holds_ext m m' a b : ext m m' -> holds m a b -> holds m' a b.
Proof. intros [x ->] H. unfold holds. rewrite nth_error_app1; [exact H|]. exact (holds_lt _ _ _ H). Qed.
Lemma read_holds m a b n : holds m a b -> length b = n -> kread a n m = Some (b, m).
Proof. unfold holds, kread. intros -> <-. cbn [o_data]. rewrite Nat.ltb_irrefl, firstn_all. reflexivity. Qed.
Lemma raw_holds m a b : holds m a b -> kraw a m = Some (b, m).
Proof. unfold holds, kraw. intros ->. reflexivity. Qed.
Lemma raw_new m o : kraw (length m) (m ++ [o]) = Some (o_data o, m ++ [o]).
Proof. unfold kraw. rewrite nth_error_app2, Nat.sub_diag by lia. reflexivity. Qed.
Lemma nth_new m (o : mobj) x : nth_error (m ++ o :: x) (length m) = Some o.
Proof. rewrite nth_error_app2, Nat.sub_diag by lia. reflexivity. Qed.
Lemma write_mid m d x b : (length b <= length d)%nat ->
  kwrite (length m) b (m ++ mkObj true d :: x) = Some (tt, m ++ mkObj true (b ++ skipn (length b) d) :: x).
Proof.
  intros L. unfold kwrite. rewrite nth_new. destruct (Nat.ltb_spec (length d) (length b)); [lia|].
  rewrite firstn_app, Nat.sub_diag, firstn_all. cbn [firstn]. rewrite app_nil_r.
  do 3 f_equal. f_equal. change (S (length m)) with (1 + length m)%nat. rewrite skipn_app, skipn_all2 by lia. cbn [app].
  replace (1 + length m - length m)%nat with 1%nat by lia. reflexivity.
Qed.
Lemma zeros_length n : length (zeros n) = n. Proof. apply repeat_length. Qed.
Lemma debris_length junk n : length (debris junk n) = n.
Proof. unfold debris. rewrite firstn_length, app_length, zeros_length. lia. Qed.
Lemma find_obj_sound m b : forall k a, find_obj m b k = Some a -> (k <= a)%nat /\ holds m (a - k) b.
Proof.
  induction m as [|[w d] m IH]; intros k a H; [discriminate|]. cbn [find_obj] in H.
  assert (N : find_obj m b (S k) = Some a -> (k <= a)%nat /\ holds (mkObj w d :: m) (a - k) b).
  { intros E. apply IH in E. destruct E as [L E]. split; [lia|]. unfold holds. replace (a - k)%nat with (S (a - S k)) by lia. exact E. }
  destruct w; [apply N; exact H|]. destruct (bytes_eqb d b) eqn:E; [|apply N; exact H].
  injection H as <-. apply bytes_eqb_eq in E. subst d. split; [lia|]. rewrite Nat.sub_diag. reflexivity.
Qed.
Lemma obj_of_spec share b m : exists a m', obj_of share b m = Some (a, m') /\ ext m m' /\ holds m' a b.
Proof.
  unfold obj_of, kalloc. destruct (if share b then find_obj m b O else None) as [a|] eqn:E.
  - exists a, m. split; [reflexivity|]. split; [apply ext_refl|]. destruct (share b); [|discriminate]. apply find_obj_sound in E. rewrite Nat.sub_0_r in E. apply E.
  - eexists _, _. split; [reflexivity|]. split; [apply ext_app|]. apply nth_new.
Qed.
Lemma objs_of_spec share bs : forall m, exists as_ m', kmap (obj_of share) bs m = Some (as_, m') /\ ext m m' /\ Forall2 (holds m') as_ bs.
Proof.
  induction bs as [|b bs IH]; intros m; cbn [kmap].
  - exists [], m. split; [reflexivity|]. split; [apply ext_refl|constructor].
  - destruct (obj_of_spec share b m) as (a & m1 & E1 & X1 & H1). destruct (IH m1) as (as_ & m2 & E2 & X2 & H2).
    exists (a :: as_), m2. unfold kbind. rewrite E1, E2. split; [reflexivity|]. split; [exact (ext_trans _ _ _ X1 X2)|]. constructor; [exact (holds_ext _ _ _ _ X2 H1)|exact H2].
Qed.
Lemma reads_hold m as_ bs n : Forall2 (holds m) as_ bs -> Forall (fun b => length b = n) bs -> kmap (fun a => kread a n) as_ m = Some (bs, m).
Proof.
  intros H. induction H as [|a b as_ bs H _ IH]; intros F; [reflexivity|]. inversion F; subst. cbn [kmap]. unfold kbind.
  rewrite (read_holds m a b _ H eq_refl), (IH ltac:(assumption)). reflexivity.
Qed.
Lemma raws_hold m as_ bs : Forall2 (holds m) as_ bs -> kmap kraw as_ m = Some (bs, m).
Proof. intros H. induction H as [|a b as_ bs H _ IH]; [reflexivity|]. cbn [kmap]. unfold kbind. rewrite (raw_holds m a b H), IH. reflexivity. Qed.
Lemma holds_all_ext m m' as_ bs : ext m m' -> Forall2 (holds m) as_ bs -> Forall2 (holds m') as_ bs.
Proof. intros X H. induction H; constructor; [exact (holds_ext _ _ _ _ X H)|assumption]. Qed.
Lemma kmap_app {A B} (f : A -> K B) l1 : forall l2 m r1 m1 r2 m2, kmap f l1 m = Some (r1, m1) -> kmap f l2 m1 = Some (r2, m2) -> kmap f (l1 ++ l2) m = Some (r1 ++ r2, m2).
Proof.
  induction l1 as [|x l1 IH]; intros l2 m r1 m1 r2 m2 H1 H2; cbn [kmap app] in *.
  - injection H1 as <- <-. exact H2.
  - unfold kbind in *. destruct (f x m) as [[y my]|]; [|discriminate]. destruct (kmap f l1 my) as [[ys m1']|] eqn:E; [|discriminate].
    cbn in H1. injection H1 as <- <-. rewrite (IH l2 _ _ _ _ _ E H2). reflexivity.
Qed.
Lemma mem_eqb_refl m : mem_eqb m m = true.
Proof.
  induction m as [|[w d] m IH]; [reflexivity|]. cbn [mem_eqb]. rewrite IH. rewrite (proj2 (bytes_eqb_eq d d) eq_refl). destruct w; reflexivity.
Qed.
Lemma mem_eqb_eq m : forall m', mem_eqb m m' = true -> m = m'.
Proof.
  induction m as [|[w d] m IH]; intros [|[w' d'] m'] H; try discriminate; [reflexivity|]. cbn [mem_eqb] in H.
  apply andb_prop in H. destruct H as [H H3]. apply andb_prop in H. destruct H as [H1 H2]. apply eqb_prop in H1. apply bytes_eqb_eq in H2. apply IH in H3. congruence.
Qed.
Lemma run_ok {A} m0 (u : A) k a m : k m0 = Some (a, m) -> ext m0 m -> run m0 u k = a.
Proof. unfold run. intros -> [x ->]. rewrite firstn_app, Nat.sub_diag, firstn_all. cbn [firstn]. rewrite app_nil_r, mem_eqb_refl. reflexivity. Qed.

(** The result of a function that writes to a fresh buffer *)
Lemma py_out_spec n f m junk r : (forall out, ext m (m ++ [out]) -> f (length m) (m ++ [out]) = c_out junk (length m) n r (m ++ [out])) ->
  (forall b, r = Some b -> length b = n) -> exists m', py_out n f m = Some (r, m') /\ ext m m'.
Proof.
  intros F L. unfold py_out, new_buffer, kalloc, kbind. rewrite F by apply ext_app. unfold c_out, kbind. destruct r as [b|].
  - rewrite write_mid by (rewrite zeros_length, (L b eq_refl); lia). unfold kret. rewrite raw_new. cbn [o_data].
    rewrite (L b eq_refl), skipn_all2 by (rewrite zeros_length; lia). rewrite app_nil_r. eexists. split; [reflexivity|apply ext_app].
  - rewrite write_mid by (rewrite zeros_length, debris_length; lia). eexists. split; [reflexivity|apply ext_app].
Qed.

Definition yields {A} (m : mem) (k : K A) (r : A) : Prop := exists m', k m = Some (r, m') /\ ext m m'.
Lemma run_yields {A} m0 (u : A) k a : yields m0 k a -> run m0 u k = a.
Proof. intros (m & H & X). exact (run_ok _ _ _ _ _ H X). Qed.
Lemma obj_step {A} share b m (f : nat -> K A) r : (forall a m', ext m m' -> holds m' a b -> yields m' (f a) r) -> yields m (kbind (obj_of share b) f) r.
Proof.
  intros F. destruct (obj_of_spec share b m) as (a & m1 & E & X & H). destruct (F a m1 X H) as (m2 & E2 & X2).
  exists m2. unfold kbind. rewrite E, E2. split; [reflexivity|exact (ext_trans _ _ _ X X2)].
Qed.
Lemma objs_step {A} share bs m (f : list nat -> K A) r : (forall as_ m', ext m m' -> Forall2 (holds m') as_ bs -> yields m' (f as_) r) -> yields m (kbind (kmap (obj_of share) bs) f) r.
Proof.
  intros F. destruct (objs_of_spec share bs m) as (a & m1 & E & X & H). destruct (F a m1 X H) as (m2 & E2 & X2).
  exists m2. unfold kbind. rewrite E, E2. split; [reflexivity|exact (ext_trans _ _ _ X X2)].
Qed.
Lemma read_step {A} m a b n (f : bytes -> K A) x : holds m a b -> length b = n -> kbind (kread a n) f (m ++ x) = f b (m ++ x).
Proof. intros H L. unfold kbind. rewrite (read_holds (m ++ x) a b n (holds_ext _ _ _ _ (ext_app _ _) H) L). reflexivity. Qed.
Lemma read_step0 {A} m a b n (f : bytes -> K A) : holds m a b -> length b = n -> kbind (kread a n) f m = f b m.
Proof. intros H L. unfold kbind. rewrite (read_holds m a b n H L). reflexivity. Qed.
Lemma len_nat b n : blen b = Z.of_nat n -> length b = n. Proof. unfold blen. lia. Qed.
Lemma len32 b : is_32 b -> length b = 32%nat. Proof. intros H. apply (len_nat b 32). exact H. Qed.

Lemma last_split {A} (l : list A) d : l <> [] -> l = removelast l ++ [last l d].
Proof. apply app_removelast_last. Qed.
Lemma Forall2_snoc {A B} (R : A -> B -> Prop) l a l' : Forall2 R (l ++ [a]) l' -> exists k b, l' = k ++ [b] /\ Forall2 R l k /\ R a b.
Proof.
  intros H. apply Forall2_app_inv_l in H. destruct H as (k & k2 & H1 & H2 & ->). inversion H2 as [|? b ? ? R1 R2]; subst. inversion R2; subst. eauto.
Qed.

Section Same.
Variables (z : Crypto) (junk : bytes) (m0 : mem) (share : bytes -> bool).
Hypothesis SO : SizesOk z.
Hypothesis OF : OutputsFit z.

Lemma blind_sum_yields m vs ga gs ba bs n k : Forall2 (holds m) ga gs -> Forall2 (holds m) ba bs ->
  length vs = n -> length gs = n -> length bs = n -> (k < n)%nat -> Forall is_32 gs -> Forall is_32 bs ->
  yields m (py_blind_sum z junk vs ga ba n k) (blind_sum z vs gs bs n k).
Proof.
  intros HG HB LV LG LB KN FG FB.
  assert (LGA : length ga = n) by (rewrite <- LG; clear -HG; induction HG; cbn; congruence).
  assert (LBA : length ba = n) by (rewrite <- LB; clear -HB; induction HB; cbn; congruence).
  assert (NB : ba <> []) by (intros ->; cbn in LBA; lia).
  assert (FG' : Forall (fun b => length b = 32%nat) gs) by (apply Forall_impl with (2 := FG); apply len32).
  assert (FB' : Forall (fun b => length b = 32%nat) bs) by (apply Forall_impl with (2 := FB); apply len32).
  assert (HB' := HB). rewrite (last_split ba O NB) in HB'. apply Forall2_snoc in HB'. destruct HB' as (pre & d & -> & HP & HD).
  assert (FP : Forall (fun b => length b = 32%nat) pre) by (apply Forall_app in FB'; apply FB').
  assert (LD : length d = 32%nat) by (apply Forall_app in FB'; destruct FB' as [_ FB']; inversion FB'; assumption).
  unfold yields, py_blind_sum. unfold kbind at 1. rewrite (raw_holds _ _ _ HD). unfold kbind at 1. unfold kalloc at 1.
  set (m1 := m ++ [mkObj true d]). assert (X1 : ext m m1) by apply ext_app.
  cbv zeta. unfold kbind at 1. rewrite (raws_hold m1 _ _ (holds_all_ext _ _ _ _ X1 HB)).
  unfold kbind at 1. unfold c_blind_sum.
  assert (LP : length (removelast ba ++ [length m]) = n).
  { rewrite app_length. cbn. rewrite (last_split ba O NB), app_length in LBA. cbn in LBA. lia. }
  rewrite LV, LGA, LP, !Nat.ltb_irrefl. destruct (Nat.leb_spec n k); [lia|]. cbn [orb].
  rewrite (firstn_all2 ga) by lia. rewrite (firstn_all2 vs) by lia. rewrite (firstn_all2 (_ ++ _)) by lia.
  unfold kbind at 1. rewrite (reads_hold m1 _ _ 32 (holds_all_ext _ _ _ _ X1 HG) FG').
  unfold kbind at 1.
  assert (RL : kread (length m) 32 m1 = Some (d, m1)).
  { unfold kread, m1. rewrite nth_new. cbn [o_data]. rewrite LD, Nat.ltb_irrefl, <- LD, firstn_all. reflexivity. }
  rewrite (kmap_app _ (removelast ba) [length m] m1 pre m1 [d] m1); [|exact (reads_hold m1 _ _ 32 (holds_all_ext _ _ _ _ X1 HP) FP)|cbn [kmap]; unfold kbind; rewrite RL; reflexivity].
  assert (NL : nth (n - 1) (removelast ba ++ [length m]) O = length m).
  { rewrite app_nth2 by (rewrite app_length in LP; cbn in LP; lia). rewrite app_length in LP. cbn in LP. replace (n - 1 - length (removelast ba))%nat with O by lia. reflexivity. }
  rewrite NL. unfold c_out. destruct (blind_sum z vs gs (pre ++ [d]) n k) as [r|] eqn:ES.
  - assert (LR := so_sum z SO _ _ _ _ _ _ ES). apply (len_nat r 32) in LR.
    unfold kbind at 1. unfold m1. rewrite write_mid by lia. unfold kret at 1.
    set (m2 := m ++ _). assert (X2 : ext m m2) by apply ext_app.
    unfold kbind at 1. rewrite (raws_hold m2 _ _ (holds_all_ext _ _ _ _ X2 HB)). rewrite (proj2 (bytes_eqb_eq _ _) eq_refl).
    unfold kbind. unfold m2. rewrite raw_new. cbn [o_data]. rewrite LR, <- LD, skipn_all, app_nil_r. eexists. split; [reflexivity|apply ext_app].
  - unfold kbind at 1. unfold m1. rewrite write_mid by (rewrite debris_length; lia). eexists. split; [reflexivity|apply ext_app].
Qed.

Lemma read_opt_holds m a b n : holds m a b -> length b = n -> read_opt (if (n =? 0)%nat then None else Some a) n m = Some (b, m).
Proof.
  intros H L. destruct (Nat.eqb_spec n 0) as [E|E]; cbn [read_opt].
  - rewrite E, Nat.eqb_refl. destruct b; [reflexivity|cbn in L; lia].
  - exact (read_holds _ _ _ _ H L).
Qed.
Lemma sign_yields m minv c' c b' b n' nonce e bits v m' msg x' extra g' g :
  holds m c' c -> holds m b' b -> holds m n' nonce -> holds m m' msg -> holds m x' extra -> holds m g' g ->
  length c = 64%nat -> length b = 32%nat -> length nonce = 32%nat -> length g = 64%nat ->
  yields m (py_rangeproof_sign z junk minv c' b' n' e bits v m' (length msg) x' (length extra) g') (rp_sign z minv c b nonce e bits v msg extra g).
Proof.
  intros H1 H2 H3 H4 H5 H6 L1 L2 L3 L4. unfold yields, py_rangeproof_sign, new_buffer. unfold kbind at 1. unfold kalloc at 1.
  set (N := Z.to_nat 5134). unfold kbind at 1. unfold c_rangeproof_sign.
  rewrite (read_step _ _ _ _ _ _ H1 L1), (read_step _ _ _ _ _ _ H2 L2), (read_step _ _ _ _ _ _ H3 L3), (read_step _ _ _ _ _ _ H4 eq_refl).
  unfold kbind at 1. rewrite (read_opt_holds _ _ _ _ (holds_ext _ _ _ _ (ext_app _ _) H5) eq_refl). rewrite (read_step _ _ _ _ _ _ H6 L4).
  destruct (rp_sign z minv c b nonce e bits v msg extra g) as [p|] eqn:E.
  - apply (of_sign z OF) in E. assert (LP : (length p <= N)%nat) by (unfold blen in E; unfold N; lia).
    destruct (Nat.ltb_spec N (length p)); [lia|]. unfold kbind at 1. rewrite write_mid by (rewrite zeros_length; exact LP).
    unfold kret at 1, kbind. rewrite raw_new. cbn [o_data]. unfold kret. rewrite firstn_app, Nat.sub_diag, firstn_all. cbn [firstn]. rewrite app_nil_r.
    eexists. split; [reflexivity|apply ext_app].
  - unfold kbind at 1. rewrite write_mid by (rewrite debris_length, zeros_length; lia). eexists. split; [reflexivity|apply ext_app].
Qed.
Lemma rewind_yields m n' nonce c' c p' proof x' extra g' g :
  holds m n' nonce -> holds m c' c -> holds m p' proof -> holds m x' extra -> holds m g' g ->
  length nonce = 32%nat -> length c = 64%nat -> length g = 64%nat ->
  yields m (py_rangeproof_rewind z junk n' c' p' (length proof) x' (length extra) g') (rp_rewind z nonce c proof extra g).
Proof.
  intros H1 H2 H3 H4 H5 L1 L2 L3. unfold yields, py_rangeproof_rewind, new_buffer. set (N := Z.to_nat 4096).
  unfold kbind at 1. unfold kalloc at 1. unfold kbind at 1. unfold kalloc at 1. unfold kbind at 1. unfold c_rangeproof_rewind.
  rewrite app_length. cbn [length]. rewrite <- app_assoc. cbn [app].
  rewrite (read_step _ _ _ _ _ _ H1 L1), (read_step _ _ _ _ _ _ H2 L2), (read_step _ _ _ _ _ _ H3 eq_refl).
  unfold kbind at 1. rewrite (read_opt_holds _ _ _ _ (holds_ext _ _ _ _ (ext_app _ _) H4) eq_refl). rewrite (read_step _ _ _ _ _ _ H5 L3).
  assert (W : forall d x b, (length b <= 32)%nat -> kwrite (length m + 1) b (m ++ [mkObj true d; mkObj true (zeros 32)] ++ x) = Some (tt, m ++ [mkObj true d; mkObj true (b ++ skipn (length b) (zeros 32))] ++ x)).
  { intros d x b L. assert (W := write_mid (m ++ [mkObj true d]) (zeros 32) x b). rewrite app_length in W. cbn [length] in W. rewrite <- !app_assoc in W. cbn [app] in W. apply W. rewrite zeros_length. exact L. }
  destruct (rp_rewind z nonce c proof extra g) as [[[b v] ms]|] eqn:E.
  - destruct (of_rewind z OF _ _ _ _ _ _ _ _ E) as [LB LM]. apply (len_nat b 32) in LB. assert (LN : (length ms <= N)%nat) by (unfold blen in LM; unfold N; lia).
    unfold kbind at 1. assert (W1 := W (zeros N) [] b). cbn [app] in W1. rewrite W1 by lia.
    unfold kbind at 1. rewrite write_mid by (rewrite zeros_length; exact LN). unfold kret at 1. unfold kbind at 1.
    assert (RW : forall o1 o2, kraw (length m + 1) (m ++ [o1; o2]) = Some (o_data o2, m ++ [o1; o2])).
    { intros o1 o2. unfold kraw. rewrite nth_error_app2 by lia. replace (length m + 1 - length m)%nat with 1%nat by lia. reflexivity. }
    rewrite RW. cbn [o_data]. rewrite LB, (skipn_all2 (zeros 32)) by (rewrite zeros_length; lia). rewrite app_nil_r.
    unfold kbind, kraw. rewrite nth_new. cbn [o_data]. unfold kret. rewrite firstn_app, Nat.sub_diag, firstn_all. cbn [firstn]. rewrite app_nil_r.
    eexists. split; [reflexivity|apply ext_app].
  - unfold kbind at 1. assert (W1 := W (zeros N) [] (debris junk 32)). cbn [app] in W1. rewrite W1 by (rewrite debris_length; lia). eexists. split; [reflexivity|apply ext_app].
Qed.
Lemma surj_yields m p : yields m (py_surjectionproof_serialize z p) (sp_serialize z p).
Proof.
  unfold yields, py_surjectionproof_serialize, c_surjectionproof_serialized_size. assert (B := of_surj z OF p).
  assert (P : 0 <= blen (sp_serialize z p)) by (unfold blen; lia). set (s := sp_serialize z p) in *.
  assert (CI : c_int (blen s) = blen s).
  { unfold c_int. cbv zeta. rewrite Z.mod_small by lia. destruct (Z.ltb_spec (blen s) (2 ^ 31)); [reflexivity|lia]. }
  rewrite CI. destruct (Z.ltb_spec (blen s) 0); [lia|]. assert (EN : Z.to_nat (blen s) = length s) by (unfold blen; lia). rewrite EN.
  unfold new_buffer. unfold kbind at 1. unfold kalloc at 1. unfold kbind at 1. unfold c_surjectionproof_serialize. cbv zeta. fold s.
  rewrite Nat.ltb_irrefl. unfold kbind at 1. rewrite write_mid by (rewrite zeros_length; lia). unfold kret at 1. rewrite (proj2 (Z.eqb_eq (Z.of_nat (length s)) (blen s)) eq_refl).
  rewrite raw_new. cbn [o_data]. rewrite skipn_all2 by (rewrite zeros_length; lia). rewrite app_nil_r. eexists. split; [reflexivity|apply ext_app].
Qed.

Lemma generator_len g : LibGenerator z g -> length g = 64%nat.
Proof. intros H. apply (len_nat g 64). destruct H as [(x & _ & E)|[(a & _ & E)|(a & b & _ & _ & E)]]; [exact (so_parse z SO _ _ E)|exact (so_gen z SO _ _ E)|exact (so_genb z SO _ _ _ E)]. Qed.
Lemma commitment_len c : LibCommitment z c -> length c = 64%nat.
Proof. intros H. apply (len_nat c 64). destruct H as [(x & _ & E)|(b & v & g & _ & _ & _ & E)]; [exact (of_parse z OF _ _ E)|exact (so_commit z SO _ _ _ _ E)]. Qed.
Lemma genser_len g s : gen_serialize z g = Some s -> length s = 33%nat.
Proof. intros E. destruct (so_genser z SO _ _ E) as (d & L & [-> | ->]); apply (len_nat d 32) in L; cbn [length]; lia. Qed.
Lemma comser_len g s : ped_serialize z g = Some s -> length s = 33%nat.
Proof. intros E. destruct (so_comser z SO _ _ E) as (d & L & [-> | ->]); apply (len_nat d 32) in L; cbn [length]; lia. Qed.
Lemma concat_length gs n : Forall (LibGenerator z) gs -> length gs = n -> length (concat gs) = (64 * n)%nat.
Proof. intros F <-. induction F as [|g gs H _ IH]; [reflexivity|]. cbn [concat length]. rewrite app_length, IH, (generator_len g H). lia. Qed.

Ltac objs := repeat (apply obj_step; intros ? ? ? ?).
Ltac lens := try (match goal with H : blen ?x = 33 |- length ?x = 33%nat => apply (len_nat x 33); exact H end); try (apply len32; assumption); try (apply generator_len; assumption); try (apply commitment_len; assumption).
Ltac carry := repeat match goal with X : ext ?m ?m', H : holds ?m ?a ?b |- _ => lazymatch goal with _ : holds m' a b |- _ => fail | _ => pose proof (holds_ext _ _ _ _ X H) end end.

Theorem same_through_memory ub ur ui uo : SameInContract z (through_memory z junk m0 share ub ur ui uo).
Proof.
  constructor; cbn [through_memory c_hash c_sha c_mid gen_parse gen_generate gen_generate_blinded gen_serialize ped_commit ped_serialize ped_parse blind_sum rp_sign rp_rewind sp_init sp_generate sp_verify sp_serialize pk_fullyvalid sk_valid sk_pub ecdh];
    intros; try reflexivity; symmetry; apply run_yields.
  - objs. apply py_out_spec with (junk := junk); [intros out _; unfold c_generator_parse; erewrite read_step; [reflexivity|eassumption|lens]|intros b E; apply (len_nat b 64); exact (so_parse z SO _ _ E)].
  - objs. apply py_out_spec with (junk := junk); [intros out _; unfold c_generator_generate; erewrite read_step; [reflexivity|eassumption|lens]|intros b E; apply (len_nat b 64); exact (so_gen z SO _ _ E)].
  - objs. carry. apply py_out_spec with (junk := junk); [intros out _; unfold c_generator_generate_blinded|intros g E; apply (len_nat g 64); exact (so_genb z SO _ _ _ E)].
    rewrite (read_step _ _ a) by (assumption || lens). rewrite (read_step _ _ b) by (assumption || lens). reflexivity.
  - objs. apply py_out_spec with (junk := junk); [intros out _; unfold c_generator_serialize; erewrite read_step; [reflexivity|eassumption|lens]|intros b E; exact (genser_len _ _ E)].
  - objs. carry. apply py_out_spec with (junk := junk); [intros out _; unfold c_pedersen_commit|intros c E; apply (len_nat c 64); exact (so_commit z SO _ _ _ _ E)].
    rewrite (read_step _ _ b) by (assumption || lens). rewrite (read_step _ _ g) by (assumption || lens). reflexivity.
  - objs. apply py_out_spec with (junk := junk); [intros out _; unfold c_pedersen_commitment_serialize; erewrite read_step; [reflexivity|eassumption|lens]|intros b E; exact (comser_len _ _ E)].
  - objs. apply py_out_spec with (junk := junk); [intros out _; unfold c_pedersen_commitment_parse; erewrite read_step; [reflexivity|eassumption|lens]|intros b E; apply (len_nat b 64); exact (of_parse z OF _ _ E)].
  - apply objs_step. intros ga m1 X1 HG. apply objs_step. intros ba m2 X2 HB. apply blind_sum_yields; try assumption. exact (holds_all_ext _ _ _ _ X2 HG).
  - objs. carry. apply sign_yields; try assumption; lens.
  - objs. carry. apply rewind_yields; try assumption; lens.
  - objs. carry. match goal with L : LawfulInit _ _ _ _ _ _ |- _ => destruct L as (L1 & _ & _ & L4 & L5 & _) end.
    unfold yields, c_surjectionproof_init. rewrite (read_step0 _ _ tags) by (assumption || (unfold blen in L1; lia)).
    rewrite (read_step0 _ _ a) by (assumption || lens). rewrite (read_step0 _ _ seed) by (assumption || lens). eexists. split; [reflexivity|apply ext_refl].
  - objs. carry. match goal with L : LawfulGenerate _ _ _ _ _ _ _ _ |- _ => destruct L as (_ & (gs & F & LN & EB) & L3 & L4 & L5) end.
    unfold yields, c_surjectionproof_generate. rewrite (read_step0 _ _ buf) by (assumption || (rewrite EB; apply concat_length; assumption)).
    rewrite (read_step0 _ _ gen) by (assumption || lens). rewrite (read_step0 _ _ ib) by (assumption || lens). rewrite (read_step0 _ _ ob) by (assumption || lens). eexists. split; [reflexivity|apply ext_refl].
  - objs. carry. match goal with L : MadeProof _ _ _ _ _ |- _ => destruct L as (? & ? & ? & ? & (_ & (gs & F & LN & EB) & L3 & _) & _) end.
    unfold yields, c_surjectionproof_verify. rewrite (read_step0 _ _ buf) by (assumption || (rewrite EB; apply concat_length; assumption)).
    rewrite (read_step0 _ _ gen) by (assumption || lens). eexists. split; [reflexivity|apply ext_refl].
  - apply surj_yields.
Qed.
End Same.
