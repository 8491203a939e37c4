(** C75: the memory of the library over a call of blind(). *)
From Coq Require Import Lia.
From Verif Require Import Base BaseFacts Serialize TxModel MiscModel BlindModel BlindFacts LifeModel SpecLife SpecBlind ToyCrypto ToyTx.
Import ListNotations.
Local Open Scope heap_scope.

(** [hm] never meets undefined behaviour and leaves the memory as it was. *)
Definition safe {A} (hm : HM A) : Prop := forall st m, exists o st', hm (mkHSt st m) = Some (o, mkHSt st' m).
(** ... and does what [m0] does. *)
Definition sim {A} (hm : HM A) (m0 : M A) : Prop := forall st m, hm (mkHSt st m) = Some (fst (m0 st), mkHSt (snd (m0 st)) m).

Lemma safe_pure {A} (m : M A) : safe (pure m).
Proof. intros st mem. unfold pure. cbn. destruct (m st) as [o st']. eauto. Qed.
Lemma safe_ret {A} (a : A) : safe (hret a).
Proof. intros st mem. unfold hret. eauto. Qed.
Lemma safe_bind {A B} (m : HM A) (k : A -> HM B) : safe m -> (forall a, safe (k a)) -> safe (hbind m k).
Proof. intros S K st mem. unfold hbind. destruct (S st mem) as (o & st' & ->). destruct o as [a|r|e]; [apply K|eauto|eauto]. Qed.
Lemma safe_for {A L} (body : A -> L -> HM L) : (forall x s, safe (body x s)) -> forall l s, safe (hfor l body s).
Proof. intros B l. induction l as [|x l IH]; intros s; [apply safe_ret|]. cbn [hfor]. apply safe_bind; auto. Qed.

Lemma sim_pure {A} (m : M A) : sim (pure m) m.
Proof. intros st mem. unfold pure. cbn. destruct (m st) as [o st']. reflexivity. Qed.
Lemma sim_ret {A} (a : A) : sim (hret a) (mret a).
Proof. intros st mem. reflexivity. Qed.
Lemma sim_bind {A B} (m : HM A) (m0 : M A) (k : A -> HM B) (k0 : A -> M B) : sim m m0 -> (forall a, sim (k a) (k0 a)) -> sim (hbind m k) (mbind m0 k0).
Proof. intros S K st mem. unfold hbind, mbind. rewrite S. destruct (m0 st) as [[a|r|e] st']; cbn [fst snd]; [apply K|reflexivity|reflexivity]. Qed.
Lemma sim_for {A L} (body : A -> L -> HM L) (body0 : A -> L -> M L) : (forall x s, sim (body x s) (body0 x s)) -> forall l s, sim (hfor l body s) (for_in l body0 s).
Proof. intros B l. induction l as [|x l IH]; intros s; [apply sim_ret|]. cbn [hfor for_in]. apply sim_bind; auto. Qed.

(** While an object [p] lives at [a], on top of [m]: [hm] is defined, and what is left at [a] is one object, the rest as before. *)
Definition holds {A} (a : nat) (hm : HM A) : Prop := forall st p m, exists o st' p', hm (mkHSt st ((a, p) :: m)) = Some (o, mkHSt st' ((a, p') :: m)).
Lemma holds_safe {A} a (hm : HM A) : safe hm -> holds a hm.
Proof. intros S st p m. destruct (S st ((a, p) :: m)) as (o & st' & ->). eauto. Qed.
Lemma holds_bind {A B} a (m : HM A) (k : A -> HM B) : holds a m -> (forall x, holds a (k x)) -> holds a (hbind m k).
Proof. intros S K st p mem. unfold hbind. destruct (S st p mem) as (o & st' & p' & ->). destruct o as [x|r|e]; [apply K|eauto|eauto]. Qed.
Lemma holds_read {A} a (f : bytes -> A) : holds a (sp_read a f).
Proof. intros st p m. unfold sp_read. cbn. rewrite Nat.eqb_refl. eauto. Qed.
Lemma holds_fill z a buf n gen i ib ob : holds a (sp_fill z a buf n gen i ib ob).
Proof. intros st p m. unfold sp_fill. cbn. rewrite Nat.eqb_refl. destruct (sp_generate z p buf n gen i ib ob); eauto. Qed.
Lemma holds_check {b : bool} {e} a : holds a (if b then hret tt else hraise e).
Proof. intros st p m. destruct b; unfold hret, hraise; eauto. Qed.
Lemma finally_destroy {A} a (hm : HM A) : holds a hm -> forall st p m, exists o st', try_finally hm (sp_destroy a) (mkHSt st ((a, p) :: m)) = Some (o, mkHSt st' m).
Proof.
  intros H st p m. unfold try_finally. destruct (H st p m) as (o & st' & p' & ->). unfold sp_destroy. cbn. rewrite Nat.eqb_refl. eauto.
Qed.

Section Safe.
Variables (z : Crypto) (addr : objs -> nat) (size : bytes -> nat) (rand : nat -> bytes) (args : blind_args).
Lemma safe_surjection T G B ab gen asset : safe (generate_surjectionproof_mem z addr size rand T G B ab gen asset).
Proof.
  unfold generate_surjectionproof_mem. apply safe_bind; [apply safe_pure|intros seed]. apply safe_bind; [apply safe_pure|intros tags].
  intros st m. unfold hbind at 1, sp_alloc. cbn [hs_mem hs_st].
  destruct (sp_init z tags (length T) (Nat.min 3 (length T)) asset 100 seed) as [[p i]|]; [|unfold hret; eauto].
  apply finally_destroy.
  repeat first [apply holds_bind; [|intros ?] | apply holds_read | apply holds_fill | apply holds_check | apply holds_safe, safe_pure | apply holds_safe, safe_ret].
Qed.
Lemma safe_finish T G B n pub asset amount L : safe (finish_output_mem z addr size rand args T G B n pub asset amount L).
Proof.
  unfold finish_output_mem.
  repeat first [apply safe_bind; [first [apply safe_pure|apply safe_surjection]|intros ?] | apply safe_ret
               | match goal with |- safe (let '(_, _) := ?x in _) => destruct x end
               | match goal with |- safe (match ?x with None => _ | Some _ => _ end) => destruct x as [[|? ?]|] end].
Qed.
Lemma safe_output T G B np L : safe (blind_output_mem z addr size rand args T G B np L).
Proof.
  unfold blind_output_mem. destruct np as [n pub]. destruct (negb (is_fullyvalid z pub)); [apply safe_ret|].
  do 6 (apply safe_bind; [apply safe_pure|intros ?]). cbv zeta.
  match goal with |- safe (if ?c then _ else _) => destruct c end; [|apply safe_finish].
  match goal with |- safe (if ?c then _ else _) => destruct c end; [apply safe_pure|].
  apply safe_bind; [apply safe_pure|intros [b'|]]; [apply safe_finish|apply safe_pure].
Qed.
Lemma safe_body : safe (blind_body_mem z addr size rand args).
Proof.
  unfold blind_body_mem. apply safe_bind; [apply safe_pure|intros _]. apply safe_bind; [apply safe_pure|intros [[T G] B]].
  apply safe_bind; [apply safe_pure|intros t]. cbv zeta. do 3 (apply safe_bind; [apply safe_pure|intros ?]). apply safe_bind; [apply safe_pure|intros t'].
  apply safe_bind; [apply safe_pure|intros _]. apply safe_bind; [apply safe_for; intros x s; apply safe_output|intros L']. apply safe_ret.
Qed.
End Safe.

(** * The theorems *)
(** Whatever the library answers, whatever the outcome - success, failure or exception -, no address is used that holds no live object, and
    every object that the call put into the library's memory has been destroyed: the memory is as before. *)
Theorem C75_memory : forall z addr size rand args t m, exists o s,
  blind_transaction_mem z addr size rand args t m = Some (o, mkHSt s m).
Proof.
  intros. unfold blind_transaction_mem. destruct (safe_body z addr size rand args (mkSt t 0) m) as (o & s & ->).
  destruct o as [r|r|e]; eauto.
Qed.

Section Sim.
Variables (z : Crypto) (addr : objs -> nat) (size : bytes -> nat) (rand : nat -> bytes) (args : blind_args).
Hypothesis SZ : SizeOk z size.
Lemma write_exact p : sp_write z (size p) p = (sp_serialize z p, size p).
Proof. unfold sp_write. cbv zeta. rewrite !SZ, Nat.ltb_irrefl, ?SZ, Nat.sub_diag. cbn [repeat]. rewrite app_nil_r. reflexivity. Qed.
Lemma lift_step {A} (r : res A) st m : pure (lift r) (mkHSt st m) = Some (match r with Ok a => Val a | Raise e => Exc e end, mkHSt st m).
Proof. destruct r; reflexivity. Qed.
Lemma sim_surjection T G B ab gen asset : sim (generate_surjectionproof_mem z addr size rand T G B ab gen asset) (generate_surjectionproof z rand T G B ab gen asset).
Proof.
  unfold generate_surjectionproof_mem, generate_surjectionproof. apply sim_bind; [apply sim_pure|intros seed]. apply sim_bind; [apply sim_pure|intros tags].
  intros st m. unfold hbind at 1, sp_alloc. cbn [hs_mem hs_st].
  destruct (sp_init z tags (length T) (Nat.min 3 (length T)) asset 100 seed) as [[p i]|]; [|reflexivity].
  set (a := addr m). unfold try_finally, hbind, mbind. rewrite lift_step.
  assert (D : forall A (o : outcome A) st' p', match sp_destroy a (mkHSt st' ((a, p') :: m)) with
     | None => None | Some (Val _, s2) => Some (o, s2) | Some (Ret r, s2) => Some (Ret r, s2) | Some (Exc e, s2) => Some (Exc e, s2) end = Some (o, mkHSt st' m)).
  { intros. unfold sp_destroy. cbn. rewrite Nat.eqb_refl. reflexivity. }
  destruct (build_aligned_data_array G 64) as [buf|e]; [|rewrite D; reflexivity]. cbn [lift mret]. rewrite lift_step.
  destruct (nth_res B i) as [ib|e]; [|rewrite D; reflexivity]. cbn [lift mret]. rewrite lift_step.
  destruct (last_res ab) as [ob|e]; [|rewrite D; reflexivity]. cbn [lift mret]. unfold sp_fill at 1. cbn [hs_mem hs_st obj_at]. rewrite Nat.eqb_refl.
  destruct (sp_generate z p buf (length G) gen i ib ob) as [p'|]; [|cbn [lib_call hraise mraise]; rewrite D; reflexivity].
  cbn [obj_set]. rewrite Nat.eqb_refl. unfold hret at 1. unfold sp_read. cbn [hs_mem hs_st obj_at lib_call mret]. rewrite Nat.eqb_refl.
  destruct (sp_verify z p' buf (length G) gen); [|unfold hraise; rewrite D; reflexivity]. unfold hret. cbn [hs_mem obj_at mret]. rewrite Nat.eqb_refl. cbn [hs_mem obj_at]. rewrite ?Nat.eqb_refl, write_exact. cbn [fst snd].
  rewrite Nat.eqb_refl. rewrite D. reflexivity.
Qed.
Lemma sim_finish T G B n pub asset amount L : sim (finish_output_mem z addr size rand args T G B n pub asset amount L) (finish_output z rand args T G B n pub asset amount L).
Proof.
  unfold finish_output_mem, finish_output.
  repeat first [apply sim_bind; [first [apply sim_pure|apply sim_surjection]|intros ?] | apply sim_ret
               | match goal with |- sim (let '(_, _) := ?x in _) _ => destruct x end
               | match goal with |- sim (match ?x with None => _ | Some _ => _ end) _ => destruct x as [[|? ?]|] end].
Qed.
Lemma sim_output T G B np L : sim (blind_output_mem z addr size rand args T G B np L) (blind_output z rand args T G B np L).
Proof.
  unfold blind_output_mem, blind_output. destruct np as [n pub]. destruct (negb (is_fullyvalid z pub)); [apply sim_ret|].
  do 6 (apply sim_bind; [apply sim_pure|intros ?]). cbv zeta.
  match goal with |- sim (if ?c then _ else _) _ => destruct c end; [|apply sim_finish].
  match goal with |- sim (if ?c then _ else _) _ => destruct c end; [apply sim_pure|].
  apply sim_bind; [apply sim_pure|intros [b'|]]; [apply sim_finish|apply sim_pure].
Qed.
Lemma sim_body : sim (blind_body_mem z addr size rand args) (blind_body z rand args).
Proof.
  unfold blind_body_mem, blind_body. apply sim_bind; [apply sim_pure|intros _]. apply sim_bind; [apply sim_pure|intros [[T G] B]].
  apply sim_bind; [apply sim_pure|intros t]. cbv zeta. do 3 (apply sim_bind; [apply sim_pure|intros ?]). apply sim_bind; [apply sim_pure|intros t'].
  apply sim_bind; [apply sim_pure|intros _]. apply sim_bind; [apply sim_for; intros x s; apply sim_output|intros L']. apply sim_ret.
Qed.
End Sim.

(** With a library that tells the size of its proofs right, the call is the one of the other theorems: the objects in memory change nothing of
    its outcome, and neither do the addresses. *)
Theorem C75_same : forall z addr size rand args t m, SizeOk z size ->
  blind_transaction_mem z addr size rand args t m
  = Some (fst (blind_transaction z rand args t), mkHSt (snd (blind_transaction z rand args t)) m).
Proof.
  intros. unfold blind_transaction_mem, blind_transaction. rewrite (sim_body z addr size rand args H).
  destruct (blind_body z rand args (mkSt t 0)) as [[r|r|e] s]; reflexivity.
Qed.

(** Natural, but false: a proof that the library does not write out is noticed. The return value of serialize is not looked at, and the length that
    is looked at is the one passed in: were the announced size too small, the call would report success with a proof of zero bytes. *)
Definition one_tx : tx := mkTx [toy_in0] [toy_out 990 asset_A [x51]; toy_out 10 asset_A []] 0 2 (mkTxWit [] []).
Definition one_args : blind_args := mkArgs [mkDesc asset_A 1000 (b32 12345) (b32 67890)] [toy_pub 901] [] [] [] None None true.
Definition run_is (p : blind_ret -> tx -> objs -> bool) (x : option (outcome blind_ret * HSt)) : bool :=
  match x with Some (Ret r, s) => p r (s_tx (hs_st s)) (hs_mem s) | _ => false end.
Definition toy_long : Crypto := mkCrypto (c_hash toy) (c_sha toy) (c_mid toy) (gen_parse toy) (gen_generate toy) (gen_generate_blinded toy) (gen_serialize toy)
  (ped_commit toy) (ped_serialize toy) (ped_parse toy) (blind_sum toy) (rp_sign toy) (rp_rewind toy) (sp_init toy) (sp_generate toy) (sp_verify toy)
  (fun p => x01 :: x02 :: p) (pk_fullyvalid toy) (sk_valid toy) (sk_pub toy) (ecdh toy).
Theorem C75_short_proof_noticed_refuted : exists z addr size rand args t m n bfs abfs s,
  (forall p, size p < length (sp_serialize z p))%nat
  /\ blind_transaction_mem z addr size rand args t m = Some (Ret (BSuccess n bfs abfs), mkHSt s m)
  /\ n = 1%nat /\ exists w, nth_error (vtxoutwit (wit (s_tx s))) 0 = Some w /\ ow_surj w = [x00].
Proof.
  pose (size := fun _ : bytes => 1%nat).
  assert (H : run_is (fun r t m => match r with BSuccess 1 _ _ => match nth_error (vtxoutwit (wit t)) 0 with Some w => bytes_eqb (ow_surj w) [x00] | None => false end | _ => false end)
                (blind_transaction_mem toy_long (fun _ => 7%nat) size toy_rand one_args one_tx []) = true) by (vm_compute; reflexivity).
  exists toy_long, (fun _ => 7%nat), size, toy_rand, one_args, one_tx, [].
  destruct (C75_memory toy_long (fun _ => 7%nat) size toy_rand one_args one_tx []) as (o & s & E). rewrite E in H. unfold run_is in H.
  destruct o as [v|[n bfs abfs|f]|e]; try discriminate H. cbn [hs_st hs_mem] in H. destruct n as [|[|n]]; try discriminate H.
  destruct (nth_error (vtxoutwit (wit (s_tx s))) 0) as [w|] eqn:W; [|discriminate H]. apply bytes_eqb_eq in H.
  exists 1%nat, bfs, abfs, s. split; [|split; [exact E|]; split; [reflexivity|]; exists w; auto].
  intros p. unfold size. cbn. lia.
Qed.

(** Non-vacuity: a successful call, with a live object of someone else in memory; a call that raises after the object was made; what undefined
    behaviour looks like. *)
Definition toy_fails : Crypto := mkCrypto (c_hash toy) (c_sha toy) (c_mid toy) (gen_parse toy) (gen_generate toy) (gen_generate_blinded toy) (gen_serialize toy)
  (ped_commit toy) (ped_serialize toy) (ped_parse toy) (blind_sum toy) (rp_sign toy) (rp_rewind toy) (sp_init toy) (fun _ _ _ _ _ _ _ => None) (sp_verify toy)
  (sp_serialize toy) (pk_fullyvalid toy) (sk_valid toy) (sk_pub toy) (ecdh toy).
Definition fresh (m : objs) : nat := S (list_max (map fst m)).
Example C75_ex : (exists bfs abfs s, blind_transaction_mem toy fresh (@length byte) toy_rand one_args one_tx [(5%nat, [x01])] = Some (Ret (BSuccess 1 bfs abfs), mkHSt s [(5%nat, [x01])]))
  /\ SizeOk toy (@length byte).
Proof.
  split; [|intros p; reflexivity].
  assert (H : run_is (fun r _ _ => match r with BSuccess 1 _ _ => true | _ => false end) (blind_transaction_mem toy fresh (@length byte) toy_rand one_args one_tx [(5%nat, [x01])]) = true)
    by (vm_compute; reflexivity).
  destruct (C75_memory toy fresh (@length byte) toy_rand one_args one_tx [(5%nat, [x01])]) as (o & s & E). rewrite E in H. unfold run_is in H.
  destruct o as [v|[n bfs abfs|f]|e]; try discriminate H. destruct n as [|[|n]]; try discriminate H. eauto.
Qed.
Example C75_ex2 : exists s, blind_transaction_mem toy_fails fresh (@length byte) toy_rand one_args one_tx [(5%nat, [x01])] = Some (Exc ERuntime, mkHSt s [(5%nat, [x01])]).
Proof.
  assert (H : match blind_transaction_mem toy_fails fresh (@length byte) toy_rand one_args one_tx [(5%nat, [x01])] with Some (Exc ERuntime, _) => true | _ => false end = true)
    by (vm_compute; reflexivity).
  destruct (C75_memory toy_fails fresh (@length byte) toy_rand one_args one_tx [(5%nat, [x01])]) as (o & s & E). rewrite E in H.
  destruct o as [v|r|e]; try discriminate H. destruct e; try discriminate H. eauto.
Qed.
Example C75_ex3 : forall s, (_ <~ sp_destroy 5 ;; sp_read 5 (fun p => p)) (mkHSt s [(5%nat, [x01])]) = None
  /\ (_ <~ sp_destroy 5 ;; sp_destroy 5) (mkHSt s [(5%nat, [x01])]) = None.
Proof. intros s. split; reflexivity. Qed.

Print Assumptions C75_memory.
Print Assumptions C75_same.
Print Assumptions C75_short_proof_noticed_refuted.
