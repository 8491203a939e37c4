(** Properties C27, C28 and C59: peg-out scripts, unspendable scripts, opcode table. *)
From Coq Require Import Strings.String.
From Verif Require Import Base BaseFacts Serialize ScriptModel SpecScript ScriptProofs.
From Coq Require Import Lia.
Local Open Scope Z_scope.

(** C27. get_pegout_data() never raises, and returns (g, s) exactly for scripts of
    the form OP_RETURN <push of 32 bytes g> <non-empty push s> anything. *)
Theorem C27_pegout_iff : forall script g s,
  get_pegout_data script = Ok (Some (g, s)) <-> PegoutScript g s script.
Proof. exact pegout_iff. Qed.
Theorem C27_never_raises : forall script,
  (exists g s, get_pegout_data script = Ok (Some (g, s))) \/ get_pegout_data script = Ok None.
Proof. intros script. destruct (pegout_total script) as ([[g s]|] & E); eauto. Qed.
Theorem C27_is_pegout : forall script,
  (is_pegout script = Ok true <-> exists g s, PegoutScript g s script)
  /\ (is_pegout script = Ok false <-> ~ exists g s, PegoutScript g s script).
Proof.
  intros script. unfold is_pegout. destruct (pegout_total script) as (r & E). rewrite E. cbn [rbind].
  destruct r as [[g s]|].
  - apply pegout_iff in E. split; split; intros X; try reflexivity; try discriminate; eauto. exfalso. eauto.
  - assert (N : ~ exists g s, PegoutScript g s script).
    { intros (g & s & P). apply pegout_iff in P. congruence. }
    split; split; intros X; try reflexivity; try discriminate; auto. contradiction.
Qed.
(** The data read is determined by the script. *)
Theorem C27_unique : forall script g s g' s',
  PegoutScript g s script -> PegoutScript g' s' script -> g = g' /\ s = s'.
Proof. intros script g s g' s' A B. apply pegout_iff in A. apply pegout_iff in B. rewrite A in B. injection B. auto. Qed.
(** A script assembled by CScript([OP_RETURN, g, s]) plus any trailing bytes is read back. *)
Theorem C27_built : forall g s extra script,
  build_pegout g s extra = Ok script ->
  (get_pegout_data script = Ok (Some (g, s)) <-> length g = 32%nat /\ s <> []).
Proof.
  intros g s extra script E. unfold build_pegout in E.
  apply rbind_Ok in E. destruct E as (p & Ep & E). apply rbind_Ok in E. destruct E as (q & Eq & E).
  apply Ok_inj in E. subst script. apply encode_push in Ep. apply encode_push in Eq. rewrite pegout_iff. split.
  - intros P. destruct P as (p' & q' & r & E & P' & Q' & L & S).
    injection E as E. change (zb OP_RETURN) with x6a in *.
    assert (X1 : exists op, raw_next (p ++ q ++ extra) = NextOp op (Some g) (q ++ extra)) by (apply raw_next_push; eauto).
    auto.
  - intros [L S]. exists p, q, extra. auto.
Qed.
(** ... and that assembly works for all sizes a script can have. *)
Theorem C27_buildable : forall g s extra, length g = 32%nat -> blen s <= 0xffffffff ->
  exists script, build_pegout g s extra = Ok script.
Proof.
  intros g s extra L B. unfold build_pegout.
  destruct (proj2 (encode_push_total g)) as (p & ->); [unfold blen; lia|]. cbn [rbind].
  destruct (proj2 (encode_push_total s) B) as (q & ->). cbn [rbind]. eauto.
Qed.
(** A non-minimal push of the hash, and a truncated push after the data. *)
Example C27_ex : get_pegout_data ([x6a; x4c; x20] ++ repeat x11 32 ++ [x4d; x02; x00; x51; x52] ++ [x4b; x00])
  = Ok (Some (repeat x11 32, [x51; x52])).
Proof. reflexivity. Qed.
Example C27_ex_none : get_pegout_data ([x6a; x20] ++ repeat x11 31) = Ok None
  /\ get_pegout_data ([x6a; x20] ++ repeat x11 32 ++ [x00]) = Ok None
  /\ get_pegout_data ([x6a; x20] ++ repeat x11 32 ++ [x51]) = Ok None
  /\ get_pegout_data ([x6a; x20] ++ repeat x11 32) = Ok None.
Proof. repeat split. Qed.

(** C28. *)
Theorem C28_is_unspendable : forall script,
  is_unspendable script = true <-> script = [] \/ exists rest, script = x6a :: rest.
Proof.
  intros script. unfold is_unspendable, base_is_unspendable. destruct script as [|o s].
  - cbn. split; auto.
  - rewrite blen_cons. pose proof (blen_nonneg s). destruct (Z.eqb_spec (1 + blen s) 0); [lia|].
    rewrite Z.eqb_eq. split.
    + intros E. right. exists s. f_equal. apply bz_inj. exact E.
    + intros [E|(r & E)]; [discriminate|]. injection E as -> _. reflexivity.
Qed.
(** Coins sent to a peg-out script or to the fee script can never be spent. *)
Theorem C28_pegout_unspendable : forall script g s, PegoutScript g s script -> is_unspendable script = true.
Proof. intros script g s (p & q & r & -> & _). apply C28_is_unspendable. right. eauto. Qed.
Example C28_ex : is_unspendable [] = true /\ is_unspendable [x6a; x4c] = true /\ is_unspendable [x51; x6a] = false.
Proof. repeat split. Qed.

(** C59. *)
Theorem C59_opcodes_distinct_refuted : exists n1 n2 v,
  n1 <> n2 /\ In (n1, v) elements_opcodes /\ In (n2, v) elements_opcodes.
Proof.
  exists "OP_DETERMINISTICRANDOM"%string, "OP_CHECKSIGFROMSTACK"%string, 0xc1.
  split; [discriminate|]. split; [left; reflexivity|right; left; reflexivity].
Qed.
(** Apart from that name, the table is exactly the Elements assignment
    0xc1..0xe4 and has no collision. *)
Theorem C59_table : forall name v,
  name <> "OP_DETERMINISTICRANDOM"%string -> (In (name, v) elements_opcodes <-> In (name, v) reference_opcodes).
Proof.
  intros name v N. unfold elements_opcodes, reference_opcodes.
  cbn [In]. split; (intros [E|X]; [injection E as <- <-; contradiction|]; right; exact X).
Qed.
Theorem C59_injective : forall n1 n2 v,
  In (n1, v) elements_opcodes -> In (n2, v) elements_opcodes ->
  n1 = n2 \/ (v = 0xc1 /\ In n1 ["OP_DETERMINISTICRANDOM"; "OP_CHECKSIGFROMSTACK"]%string
                       /\ In n2 ["OP_DETERMINISTICRANDOM"; "OP_CHECKSIGFROMSTACK"]%string).
Proof.
  assert (ND : NoDup (map snd (tl elements_opcodes))).
  { apply (NoDup_count_occ' Z.eq_dec). intros x Hx. cbn in Hx.
    repeat (destruct Hx as [<-|Hx]; [reflexivity|]). destruct Hx. }
  intros n1 n2 v H1 H2.
  assert (INJ : forall a b, In (a, v) (tl elements_opcodes) -> In (b, v) (tl elements_opcodes) -> a = b).
  { clear H1 H2. revert ND. generalize (tl elements_opcodes). induction l as [|[m w] l IH]; [intros _ ? ? []|].
    cbn [map snd]. intros ND a b HA HB. apply NoDup_cons_iff in ND. destruct ND as [NI ND].
    destruct HA as [EA|HA], HB as [EB|HB].
    - congruence.
    - exfalso. apply NI. injection EA as <- <-. apply in_map_iff. exists (b, w). auto.
    - exfalso. apply NI. injection EB as <- <-. apply in_map_iff. exists (a, w). auto.
    - auto. }
  assert (C1 : forall a, In (a, 0xc1) (tl elements_opcodes) -> a = "OP_CHECKSIGFROMSTACK"%string).
  { intros a. cbn. intros [E|X]; [injection E as <-; reflexivity|]. exfalso.
    repeat (destruct X as [E|X]; [discriminate|]). destruct X. }
  destruct H1 as [E1|H1], H2 as [E2|H2].
  - left. congruence.
  - injection E1 as <- <-. right. split; [reflexivity|]. split; [left; reflexivity|]. right. left. symmetry. apply C1. exact H2.
  - injection E2 as <- <-. right. split; [reflexivity|]. split; [right; left; symmetry; apply C1; exact H1|left; reflexivity].
  - left. exact (INJ _ _ H1 H2).
Qed.

Print Assumptions C27_pegout_iff.
Print Assumptions C27_never_raises.
Print Assumptions C27_is_pegout.
Print Assumptions C27_unique.
Print Assumptions C27_built.
Print Assumptions C27_buildable.
Print Assumptions C28_is_unspendable.
Print Assumptions C28_pegout_unspendable.
Print Assumptions C59_opcodes_distinct_refuted.
Print Assumptions C59_table.
Print Assumptions C59_injective.
