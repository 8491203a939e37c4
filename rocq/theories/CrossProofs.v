(** The contracts of the cross-chain swap: parsing, running, signatures. *)
From Verif Require Import Base BaseFacts Serialize BlindModel ScriptModel SpecScript ScriptProofs BlindFacts CrossModel SpecCross.
From Coq Require Import Lia.
Local Open Scope Z_scope.

(** * Parsing what was built *)
Inductive ItemOp : item -> Z * option bytes -> Prop :=
| IO_data b op : 0 <= op <= 0x4e -> ItemOp (Data b) (op, Some b)
| IO_false : ItemOp (Op x00) (0, Some [])
| IO_op c : 0x4e < bz c -> ItemOp (Op c) (bz c, None).
Definition plain (i : item) : Prop := match i with Data _ => True | Op c => c = x00 \/ 0x4e < bz c end.
Lemma push_op s op d rest : raw_next s = NextOp op (Some d) rest -> 0 <= op <= 0x4e.
Proof.
  unfold raw_next. destruct s as [|o s]; [discriminate|]. cbv zeta. assert (B := bz_range o). unfold OP_PUSHDATA4, OP_PUSHDATA1, OP_PUSHDATA2.
  destruct (bz o >? 0x4e) eqn:G; [discriminate|]. rewrite Z.gtb_ltb in G. apply Z.ltb_ge in G.
  assert (Q : forall n s, take_data (bz o) n s = NextOp op (Some d) rest -> 0 <= op <= 0x4e) by (intros n s' H; apply take_data_spec in H; destruct H as (x & _ & -> & _); lia).
  destruct (bz o <? 0x4c); [apply Q|]. destruct (bz o =? 0x4c); [destruct s; [discriminate|apply Q]|].
  destruct (bz o =? 0x4d); [destruct s as [|? [|? ?]]; try discriminate; apply Q|]. destruct s as [|? [|? [|? [|? ?]]]]; try discriminate; apply Q.
Qed.
Lemma raw_next_zero s d rest : raw_next s = NextOp 0 (Some d) rest -> d = [].
Proof.
  unfold raw_next. destruct s as [|o s]; [discriminate|]. cbv zeta. assert (B := bz_range o). unfold OP_PUSHDATA4, OP_PUSHDATA1, OP_PUSHDATA2.
  destruct (bz o >? 0x4e) eqn:G; [discriminate|]. assert (Q : forall m s', take_data (bz o) m s' = NextOp 0 (Some d) rest -> bz o = 0) by (intros m s' H; apply take_data_spec in H; destruct H as (x & _ & H & _); congruence).
  destruct (Z.ltb_spec (bz o) 0x4c).
  - intros H'. pose proof (Q _ _ H') as Z0. rewrite Z0 in H'. apply take_data_spec in H'. destruct H' as (x & X & _ & _ & L). injection X as <-. change (Z.max 0 0) with 0 in L. destruct d; [reflexivity|]. unfold blen in L. cbn [length] in L. lia.
  - destruct (bz o =? 0x4c); [destruct s; [discriminate|]; intros H'; apply Q in H'; lia|].
    destruct (bz o =? 0x4d); [destruct s as [|? [|? ?]]; try discriminate; intros H'; apply Q in H'; lia|]. destruct s as [|? [|? [|? [|? ?]]]]; try discriminate; intros H'; apply Q in H'; lia.
Qed.
Lemma item_next i a rest : plain i -> item_bytes i = Ok a -> exists op d, raw_next (a ++ rest) = NextOp op d rest /\ ItemOp i (op, d) /\ (0 < length a)%nat.
Proof.
  intros PL H. destruct i as [b|c]; cbn [item_bytes plain] in *.
  - apply encode_push in H. destruct (proj2 (raw_next_push (a ++ rest) b rest) (ex_intro _ a (conj eq_refl H))) as [op E]. exists op, (Some b). split; [exact E|]. split; [constructor; exact (push_op _ _ _ _ E)|].
    inversion H; subst; cbn [length]; lia.
  - apply Ok_inj in H. subst a. destruct PL as [->|G].
    + exists 0, (Some []). split; [|split; [constructor|cbn; lia]]. cbn [app]. unfold raw_next. cbv zeta. change (bz x00) with 0. cbn [Z.gtb Z.compare Z.ltb OP_PUSHDATA4 OP_PUSHDATA1].
      apply take_data_spec. exists []. repeat split; reflexivity.
    + exists (bz c), None. split; [|split; [constructor; exact G|cbn; lia]]. apply raw_next_none. exists c. auto.
Qed.
Lemma ops_of_items l : forall s fuel, Forall plain l -> script_of l = Ok s -> (length s <= length fuel)%nat -> exists os, ops_of fuel s = Some os /\ Forall2 ItemOp l os.
Proof.
  induction l as [|i l IH]; intros s fuel PL H L; cbn [script_of] in H.
  - apply Ok_inj in H. subst s. exists []. split; [destruct fuel; reflexivity|constructor].
  - unfold rbind in H. destruct (item_bytes i) as [a|e] eqn:EA; [|discriminate H]. destruct (script_of l) as [b|e] eqn:EB; [|discriminate H]. apply Ok_inj in H. subst s.
    inversion PL as [|i' l' P1 P2]; subst. destruct (item_next i a b P1 EA) as (op & d & EN & IO & LA). rewrite app_length in L.
    destruct fuel as [|f fuel]; [cbn [length] in L; lia|]. destruct (IH b fuel P2 eq_refl) as (os & EO & F2); [cbn [length] in L; lia|].
    exists ((op, d) :: os). split; [|constructor; assumption]. cbn [ops_of]. rewrite EN, EO. reflexivity.
Qed.
Lemma ops_items l s : Forall plain l -> script_of l = Ok s -> exists os, ops s = Some os /\ Forall2 ItemOp l os.
Proof. intros P H. apply ops_of_items; auto. Qed.
Lemma next_item l i s : plain i -> script_of (i :: l) = Ok s -> exists a b, item_bytes i = Ok a /\ script_of l = Ok b /\ s = a ++ b
  /\ exists op d, raw_next s = NextOp op d b /\ ItemOp i (op, d).
Proof.
  intros PL H. cbn [script_of] in H. unfold rbind in H. destruct (item_bytes i) as [a|e] eqn:EA; [|discriminate H]. destruct (script_of l) as [b|e] eqn:EB; [|discriminate H]. apply Ok_inj in H. subst s.
  destruct (item_next i a b PL EA) as (op & d & EN & IO & _). exists a, b. repeat (split; [reflexivity|]). exists op, d. auto.
Qed.

(** * Running *)
Section R.
Variables (csfs : bytes -> bytes -> bytes -> Prop) (chk : bytes -> bytes -> Prop) (csv : Z -> Prop).
Notation runs := (runs csfs chk csv).
Lemma runs_push op b l conds st k : 0 <= op <= 0x4e -> runs ((op, Some b) :: l) conds st k = if forallb (fun b => b) conds then (blen b <= 520 /\ runs l conds (b :: st) k) else runs l conds st k.
Proof.
  intros R. cbn [SpecCross.runs]. replace (op =? 0x63) with false by (symmetry; apply Z.eqb_neq; lia). replace (op =? 0x67) with false by (symmetry; apply Z.eqb_neq; lia).
  replace (op =? 0x68) with false by (symmetry; apply Z.eqb_neq; lia). destruct (forallb (fun b => b) conds); reflexivity.
Qed.
Definition TrueTop (st : list bytes) : Prop := exists top rest, st = top :: rest /\ truthy top = true.
Lemma checksig_true key st : runs [(bz xac, None)] [] (key :: st) TrueTop <-> exists sig rest, st = sig :: rest /\ chk sig key.
Proof.
  cbn [SpecCross.runs forallb]. change (bz xac) with 0xac. cbn [Z.eqb Pos.eqb negb Z.leb Z.compare Pos.compare Pos.compare_cont andb]. destruct st as [|sig st].
  - split; [intros []|]. intros (sig & rest & E & _). discriminate E.
  - split.
    + intros [[A _]|[_ [_ (top & rest & E & T)]]]; [exists sig, st; auto|]. injection E as <- <-. discriminate T.
    + intros (s & rest & E & C). injection E as <- <-. left. split; [exact C|]. split; [reflexivity|]. exists [x01], st. split; reflexivity.
Qed.

Lemma runs_skip n d l cs st k : (n =? 0x63) = false -> (n =? 0x67) = false -> (n =? 0x68) = false -> runs ((n, d) :: l) (false :: cs) st k = runs l (false :: cs) st k.
Proof. intros A B C. cbn [SpecCross.runs forallb andb negb]. rewrite A, B, C. reflexivity. Qed.
Lemma runs_if l c st k : runs ((bz x63, None) :: l) [] (c :: st) k = runs l [truthy c] st k. Proof. reflexivity. Qed.
Lemma runs_if_empty l k : runs ((bz x63, None) :: l) [] [] k = False. Proof. reflexivity. Qed.
Lemma runs_else l b cs st k : runs ((bz x67, None) :: l) (b :: cs) st k = runs l (negb b :: cs) st k. Proof. reflexivity. Qed.
Lemma runs_endif l b cs st k : runs ((bz x68, None) :: l) (b :: cs) st k = runs l cs st k. Proof. reflexivity. Qed.
Lemma runs_cat l st k : runs ((bz x7e, None) :: l) [true] st k = match st with a :: b :: st => blen (b ++ a) <= 520 /\ runs l [true] ((b ++ a) :: st) k | _ => False end. Proof. reflexivity. Qed.
Lemma runs_swap l st k : runs ((bz x7c, None) :: l) [true] st k = match st with a :: b :: st => runs l [true] (b :: a :: st) k | _ => False end. Proof. reflexivity. Qed.
Lemma runs_drop l a st k : runs ((bz x75, None) :: l) [true] (a :: st) k = runs l [true] st k. Proof. reflexivity. Qed.
Lemma runs_csfs l st k : runs ((bz xc2, None) :: l) [true] st k = match st with key :: msg :: sig :: st => csfs key msg sig /\ runs l [true] st k | _ => False end. Proof. reflexivity. Qed.
Lemma runs_csv l n st k : runs ((bz xb2, None) :: l) [true] (n :: st) k = (csv (le_val n) /\ runs l [true] (n :: st) k). Proof. reflexivity. Qed.
Lemma runs_one l st k : runs ((bz (zb (0x50 + 1)), None) :: l) [true] st k = runs l [true] ([x01] :: st) k. Proof. reflexivity. Qed.
Lemma runs_ten l st k : runs ((bz (zb (0x50 + 10)), None) :: l) [true] st k = runs l [true] ([x0a] :: st) k. Proof. reflexivity. Qed.
Lemma runs_fifteen l st k : runs ((bz (zb (0x50 + 15)), None) :: l) [true] st k = runs l [true] ([x0f] :: st) k. Proof. reflexivity. Qed.
Lemma runs_one_out l st k : runs ((bz x51, None) :: l) [] st k = runs l [] ([x01] :: st) k. Proof. reflexivity. Qed.
Ltac skip := rewrite runs_skip by (try reflexivity; apply Z.eqb_neq; lia).
Ltac pushed := rewrite runs_push by assumption; cbn [forallb andb].
Lemma elt_accepts E reveal buyer seller c : blen reveal <= 520 -> blen buyer <= 520 -> blen seller <= 520 -> blen (r_bytes E) <= 520 ->
  make_elt_contract E reveal buyer seller = Ok c -> forall st, Accepts csfs chk csv c st <->
  (exists cond prefix suffix sig rest, st = cond :: prefix :: suffix :: sig :: rest /\ truthy cond = true
     /\ blen (prefix ++ r_bytes E ++ suffix) <= 520 /\ csfs reveal [x01] (prefix ++ r_bytes E ++ suffix) /\ chk sig buyer)
  \/ (exists cond sig rest, st = cond :: sig :: rest /\ truthy cond = false /\ csv 10 /\ chk sig seller).
Proof.
  intros Lr Lb Ls Lx H st. unfold make_elt_contract in H. unfold Accepts.
  match type of H with script_of ?l = _ => assert (P : Forall plain l) by (repeat constructor; cbn [plain small_int]; try exact I; right; reflexivity) end.
  destruct (ops_items _ _ P H) as (os & EO & F2).
  repeat match goal with F : Forall2 ItemOp (_ :: _) _ |- _ => inversion F; clear F; subst | F : Forall2 ItemOp [] _ |- _ => inversion F; clear F; subst end.
  repeat match goal with I : ItemOp _ _ |- _ => inversion I; clear I; subst end.
  match type of EO with _ = Some ?os => enough (Q : runs os [] st TrueTop <-> 
  (exists cond prefix suffix sig rest, st = cond :: prefix :: suffix :: sig :: rest /\ truthy cond = true
     /\ blen (prefix ++ r_bytes E ++ suffix) <= 520 /\ csfs reveal [x01] (prefix ++ r_bytes E ++ suffix) /\ chk sig buyer)
  \/ (exists cond sig rest, st = cond :: sig :: rest /\ truthy cond = false /\ csv 10 /\ chk sig seller)) end.
  { rewrite <- Q. split; [intros (os & EO' & R); rewrite EO in EO'; injection EO' as <-; exact R|intros R; eexists; split; [exact EO|exact R]]. }
  clear EO P H c.
  destruct st as [|cond st].
  { rewrite runs_if_empty. split; [intros []|]. intros [(? & ? & ? & ? & ? & X & _)|(? & ? & ? & X & _)]; discriminate X. }
  rewrite runs_if. destruct (truthy cond) eqn:TC.
  - pushed. rewrite runs_cat. destruct st as [|prefix st]; [split; [intros [_ []]|intros [(? & ? & ? & ? & ? & X & _)|(? & ? & ? & X & T & _)]; [discriminate X|congruence]]|].
    rewrite runs_swap. destruct st as [|suffix st]; [split; [intros [_ [_ []]]|intros [(? & ? & ? & ? & ? & X & _)|(? & ? & ? & X & T & _)]; [discriminate X|congruence]]|].
    rewrite runs_cat, runs_one. pushed. rewrite runs_csfs. pushed. rewrite runs_else. cbn [negb]. do 4 skip. rewrite runs_endif, checksig_true, <- app_assoc. split.
    + intros (_ & _ & A & _ & B & _ & sig & rest & -> & C). left. exists cond, prefix, suffix, sig, rest. auto.
    + intros [(c & p & q & sig & rest & X & T & A & B & C)|(? & ? & ? & X & T & _)]; [|congruence]. injection X as <- <- <- ->.
      assert (L : blen (prefix ++ r_bytes E) <= 520) by (revert A; unfold blen; rewrite !app_length; lia).
      do 6 (split; [assumption|]). exists sig, rest. auto.
  - do 8 skip. rewrite runs_else. cbn [negb]. rewrite runs_ten, runs_csv, runs_drop. pushed. rewrite runs_endif, checksig_true. split.
    + intros (A & _ & sig & rest & -> & C). right. exists cond, sig, rest. auto.
    + intros [(c & p & q & sig & rest & X & T & _)|(c & sig & rest & X & T & A & C)]; [congruence|]. injection X as <- ->. split; [exact A|]. split; [exact Ls|]. exists sig, rest. auto.
Qed.
Lemma btc_accepts buyer seller c : blen buyer <= 520 -> blen seller <= 520 -> make_btc_contract buyer seller = Ok c -> forall st, Accepts csfs chk csv c st <->
  (exists cond sig rest, st = cond :: sig :: rest /\ truthy cond = true /\ chk sig buyer)
  \/ (exists cond sig rest, st = cond :: sig :: rest /\ truthy cond = false /\ csv 15 /\ chk sig seller).
Proof.
  intros Lb Ls H st. unfold make_btc_contract in H. unfold Accepts.
  match type of H with script_of ?l = _ => assert (P : Forall plain l) by (repeat constructor; cbn [plain small_int]; try exact I; right; reflexivity) end.
  destruct (ops_items _ _ P H) as (os & EO & F2).
  repeat match goal with F : Forall2 ItemOp (_ :: _) _ |- _ => inversion F; clear F; subst | F : Forall2 ItemOp [] _ |- _ => inversion F; clear F; subst end.
  repeat match goal with I : ItemOp _ _ |- _ => inversion I; clear I; subst end.
  match type of EO with _ = Some ?os => enough (Q : runs os [] st TrueTop <->
  (exists cond sig rest, st = cond :: sig :: rest /\ truthy cond = true /\ chk sig buyer)
  \/ (exists cond sig rest, st = cond :: sig :: rest /\ truthy cond = false /\ csv 15 /\ chk sig seller)) end.
  { rewrite <- Q. split; [intros (os & EO' & R); rewrite EO in EO'; injection EO' as <-; exact R|intros R; eexists; split; [exact EO|exact R]]. }
  clear EO P H c. destruct st as [|cond st].
  { rewrite runs_if_empty. split; [intros []|]. intros [(? & ? & ? & X & _)|(? & ? & ? & X & _)]; discriminate X. }
  rewrite runs_if. destruct (truthy cond) eqn:TC.
  - pushed. rewrite runs_else. cbn [negb]. do 4 skip. rewrite runs_endif, checksig_true. split.
    + intros (_ & sig & rest & -> & C). left. exists cond, sig, rest. auto.
    + intros [(c & sig & rest & X & T & C)|(? & ? & ? & X & T & _)]; [|congruence]. injection X as <- ->. split; [exact Lb|]. exists sig, rest. auto.
  - skip. rewrite runs_else. cbn [negb]. rewrite runs_fifteen, runs_csv, runs_drop. pushed. rewrite runs_endif, checksig_true. split.
    + intros (A & _ & sig & rest & -> & C). right. exists cond, sig, rest. auto.
    + intros [(c & sig & rest & X & T & _)|(c & sig & rest & X & T & A & C)]; [congruence|]. injection X as <- ->. split; [exact A|]. split; [exact Ls|]. exists sig, rest. auto.
Qed.
End R.

(** * Bytes of numbers *)
Lemma be_val_zeros k s : be_val (repeat x00 k ++ s) = be_val s.
Proof.
  rewrite !be_val_eq. rewrite rev_app_distr. replace (rev (repeat x00 k)) with (repeat x00 k).
  - induction (rev s) as [|a l IH]; cbn [app le_val]; [|rewrite IH; reflexivity]. induction k; cbn [repeat le_val]; [reflexivity|]. rewrite IHk. reflexivity.
  - induction k as [|k IH]; cbn [repeat rev]; [reflexivity|]. rewrite <- IH. change [x00] with (repeat x00 1). rewrite <- repeat_app, Nat.add_comm. reflexivity.
Qed.
Definition clean (b : bytes) : Prop := match b with [] => True | c :: _ => c <> x00 end.
Lemma lstrip_spec s : exists k, s = repeat x00 k ++ lstrip s /\ clean (lstrip s).
Proof.
  induction s as [|a s (k & E & C)]; [exists 0%nat; repeat split|]. destruct a eqn:EA; try (exists 0%nat; split; [reflexivity|cbn [lstrip clean]; discriminate]).
  exists (S k). cbn [lstrip repeat app]. split; [rewrite E at 1; reflexivity|exact C].
Qed.
Lemma lstrip_zeros k b : clean b -> lstrip (repeat x00 k ++ b) = b.
Proof. intros C. induction k as [|k IH]; cbn [repeat app lstrip]; [|exact IH]. destruct b as [|c d]; [reflexivity|]. cbn [clean] in C. destruct c; try reflexivity. congruence. Qed.
Lemma lstrip_be n b : clean b -> (length b <= n)%nat -> lstrip (be_bytes n (be_val b)) = b.
Proof.
  intros C L. rewrite <- (be_val_zeros (n - length b) b). replace n with (length (repeat x00 (n - length b) ++ b)) at 1 by (rewrite app_length, repeat_length; lia).
  rewrite be_bytes_be_val. apply lstrip_zeros. exact C.
Qed.
Lemma lstrip_val n v : 0 <= v < 256 ^ Z.of_nat n -> be_val (lstrip (be_bytes n v)) = v /\ (length (lstrip (be_bytes n v)) <= n)%nat /\ clean (lstrip (be_bytes n v)).
Proof.
  intros R. destruct (lstrip_spec (be_bytes n v)) as (k & EK & C). split; [|split; [|exact C]].
  - rewrite <- (be_val_zeros k), <- EK, be_val_be_bytes, Z.mod_small by exact R. reflexivity.
  - apply (f_equal (@length byte)) in EK. rewrite app_length, repeat_length, be_bytes_length in EK. lia.
Qed.
Lemma zb_inj a b : 0 <= a < 256 -> 0 <= b < 256 -> zb a = zb b -> a = b.
Proof. intros A B E0. apply (f_equal bz) in E0. rewrite !bz_zb, !Z.mod_small in E0 by assumption. exact E0. Qed.
Lemma bz0 c : bz c = 0 -> c = x00.
Proof. intros H. rewrite <- (zb_bz c), H. reflexivity. Qed.

(** * Signatures *)
Section S.
Variable E : Curve.
Variable field : Z.
Hypothesis L : CurveLaws E field.
Notation n := (ec_order E).
Notation G := (ec_gen E).
Notation "a +' b" := (ec_add E a b) (at level 50, left associativity).
Notation "a *' b" := (ec_mul E a b) (at level 40).
Notation O := (ec_zero E).
Lemma n_pos : 0 < n. Proof. generalize (el_order _ _ L). lia. Qed.
Lemma mul0 p : 0 *' p = O.
Proof. assert (H : (n + 0) *' p = n *' p) by (f_equal; lia). rewrite (el_mul_add _ _ L), (el_mul_order _ _ L), (el_comm _ _ L), (el_zero _ _ L) in H. exact H. Qed.
Lemma mulO a : a *' O = O.
Proof. rewrite <- (el_mul_order _ _ L G), <- (el_mul_mul _ _ L), Z.mul_comm, (el_mul_mul _ _ L), !(el_mul_order _ _ L). reflexivity. Qed.
Lemma mul_mod a p : (a mod n) *' p = a *' p.
Proof.
  rewrite (Z.div_mod a n) at 2 by (generalize n_pos; lia). rewrite (el_mul_add _ _ L), Z.mul_comm, (el_mul_mul _ _ L), (el_mul_order _ _ L), mulO, (el_comm _ _ L), (el_zero _ _ L). reflexivity.
Qed.
Lemma mul_congr a b p : a mod n = b mod n -> a *' p = b *' p.
Proof. intros H. rewrite <- (mul_mod a), <- (mul_mod b), H. reflexivity. Qed.
Lemma neg_r p : p +' (-1) *' p = O.
Proof. rewrite <- (el_mul1 _ _ L p) at 1. rewrite <- (el_mul_add _ _ L). apply mul0. Qed.
Lemma cancel p q r : p +' q = p +' r -> q = r.
Proof.
  intros H. apply (f_equal (ec_add E ((-1) *' p))) in H. rewrite !(el_assoc _ _ L), (el_comm _ _ L ((-1) *' p)), neg_r, !(el_comm _ _ L O), !(el_zero _ _ L) in H. exact H.
Qed.
Lemma inv_l a p : a mod n <> 0 -> ec_inv E a *' (a *' p) = p.
Proof.
  intros H. rewrite <- (el_mul_mul _ _ L), (mul_congr _ 1), (el_mul1 _ _ L); [reflexivity|]. rewrite Z.mul_comm, (el_inv _ _ L) by exact H. rewrite Z.mod_small; [reflexivity|]. generalize (el_order _ _ L). lia.
Qed.
Lemma inv_r a p : a mod n <> 0 -> a *' (ec_inv E a *' p) = p.
Proof. intros H. rewrite <- (el_mul_mul _ _ L), Z.mul_comm, (el_mul_mul _ _ L). apply inv_l. exact H. Qed.
Lemma mul_swap a b p : a *' (b *' p) = b *' (a *' p).
Proof. rewrite <- !(el_mul_mul _ _ L), Z.mul_comm. reflexivity. Qed.
Lemma mul_cancel a p q : a mod n <> 0 -> a *' p = a *' q -> p = q.
Proof. intros H H'. rewrite <- (inv_l a p), H', inv_l by exact H. reflexivity. Qed.
Lemma mul_nonzero a p : a mod n <> 0 -> p <> O -> a *' p <> O.
Proof. intros H P Q. apply P. apply (mul_cancel a); [exact H|]. rewrite Q, mulO. reflexivity. Qed.
Lemma dlog a b : a *' G = b *' G -> a mod n = b mod n.
Proof.
  intros H. destruct (Z.eq_dec ((a - b) mod n) 0) as [Z0|NZ].
  - replace a with (b + (a - b)) by lia. rewrite Z.add_mod, Z0, Z.add_0_r, Z.mod_mod by (generalize n_pos; lia). reflexivity.
  - exfalso. apply (mul_nonzero (a - b) G NZ (el_gen _ _ L)). replace (a - b) with (a + -1 * b) by lia. rewrite (el_mul_add _ _ L), (el_mul_mul _ _ L), H. apply neg_r.
Qed.
Lemma k_mod : known_k E mod n <> 0 /\ (2 * known_k E) mod n = 1.
Proof.
  assert (B := el_order _ _ L). assert (D := el_odd _ _ L). assert (K : 2 * known_k E = n + 1) by (unfold known_k; generalize (Z.div_mod (n + 1) 2) (Z.div_mod n 2) (Z.mod_pos_bound (n+1) 2); lia).
  split; [rewrite Z.mod_small; lia|]. rewrite K. replace (n + 1) with (1 + 1 * n) by lia. rewrite Z.mod_add, Z.mod_small; lia.
Qed.
Definition Rp := known_k E *' G.
Lemma Rp_nonzero : Rp <> O. Proof. apply mul_nonzero; [apply k_mod|apply (el_gen _ _ L)]. Qed.
Lemma neg_nonzero p : p <> O -> (-1) *' p <> O.
Proof. intros H. apply mul_nonzero; [|exact H]. assert (B := el_order _ _ L). replace (-1) with (n - 1 + (-1) * n) by lia. rewrite Z.mod_add, Z.mod_small; lia. Qed.
Lemma neg_neg p : (-1) *' ((-1) *' p) = p.
Proof. rewrite <- (el_mul_mul _ _ L). apply (el_mul1 _ _ L). Qed.
Lemma pub_parse d : 0 < d < n -> ec_parse E (pub E d) = Some (d *' G).
Proof. intros R. apply (el_parse _ _ L). apply mul_nonzero; [rewrite Z.mod_small; lia|apply (el_gen _ _ L)]. Qed.
Lemma ser_inj p q : p <> O -> q <> O -> ec_ser E p = ec_ser E q -> p = q.
Proof. intros P Q H. assert (A := el_parse _ _ L p P). rewrite H, (el_parse _ _ L q Q) in A. congruence. Qed.

(** ** DER *)
Lemma pow_len : 256 ^ Z.of_nat (S (ec_len E)) = 256 * 256 ^ Z.of_nat (ec_len E).
Proof. rewrite Nat2Z.inj_succ, Z.pow_succ_r by lia. reflexivity. Qed.
Lemma der_int_body v : 0 <= v < n -> exists b, der_int E v = x02 :: zb (blen b) :: b /\ StrictInt b v /\ blen b <= 33.
Proof.
  intros R. assert (B := el_len _ _ L). assert (R' : 0 <= v < 256 ^ Z.of_nat (ec_len E)) by lia.
  assert (R2 : 0 <= v < 256 ^ Z.of_nat (S (ec_len E))) by (rewrite pow_len; lia).
  destruct (lstrip_val _ _ R') as (V & LN & C). destruct (lstrip_val _ _ R2) as (V2 & LN2 & C2).
  assert (EQ : lstrip (be_bytes (S (ec_len E)) v) = lstrip (be_bytes (ec_len E) v)).
  { rewrite <- V at 1. apply lstrip_be; [exact C|lia]. }
  unfold der_int. rewrite EQ. remember (lstrip (be_bytes (ec_len E) v)) as b eqn:EB. clear EB EQ V2 LN2 C2. destruct b as [|c d].
  - exists [x00]. split; [reflexivity|]. split; [|cbn; lia]. exists x00, []. repeat split; [exact V|congruence].
  - destruct (Z.ltb_spec (bz c) 128) as [H|H].
    + exists (c :: d). split; [reflexivity|]. split; [|unfold blen; lia]. exists c, d. repeat split; [exact H|exact V|]. intros ->. cbn [clean] in C. congruence.
    + exists (x00 :: c :: d). split; [reflexivity|]. split; [|unfold blen in *; cbn [length] in *; lia]. exists x00, (c :: d). repeat split; [|intros; exists c, d; auto].
      rewrite <- V. apply (be_val_zeros 1).
Qed.
Lemma der_sig_Der r s : 0 <= r < n -> 0 <= s < n -> Der (der_sig E r s) r s.
Proof.
  intros R S. destruct (der_int_body r R) as (a & EA & SA & LA). destruct (der_int_body s S) as (b & EB & SB & LB). exists a, b. unfold der_sig. rewrite EA, EB. cbv zeta.
  split; [|split; [exact SA|split; [exact SB|]]].
  - cbn [app]. do 2 f_equal. f_equal. unfold blen. cbn [length app]. rewrite app_length. cbn [length]. lia.
  - unfold blen in *. cbn [length app]. rewrite app_length. cbn [length]. lia.
Qed.
(** the bytes of r when its first byte is below 128 *)
Lemma der_int_clean b : clean b -> b <> [] -> (forall c d, b = c :: d -> bz c < 128) -> (length b <= S (ec_len E))%nat -> der_int E (be_val b) = x02 :: zb (blen b) :: b.
Proof.
  intros C NE H LB. unfold der_int. rewrite lstrip_be by assumption. destruct b as [|c d]; [congruence|]. specialize (H c d eq_refl). apply Z.ltb_lt in H. rewrite H. reflexivity.
Qed.

(** ** The signature that makes the key public *)
Variable sha : bytes -> bytes.
Hypothesis K : KnownPoint E field.
Notation r := (known_r E).
Notation h := (mhash sha).
Lemma r_facts : be_val (r_bytes E) = r /\ (length (r_bytes E) <= ec_len E)%nat /\ clean (r_bytes E) /\ r_bytes E <> [] /\ (forall c d, r_bytes E = c :: d -> bz c < 128).
Proof.
  assert (B := el_len _ _ L). assert (R := kp_range _ _ K). assert (R' : 0 <= r < 256 ^ Z.of_nat (ec_len E)) by lia. destruct (lstrip_val _ _ R') as (V & LN & C).
  destruct (kp_byte _ _ K) as (b & c & EB & HB). fold (r_bytes E) in *. repeat split; try assumption; [congruence|]. intros c' d' EB'. rewrite EB in EB'. injection EB' as <- <-. exact HB.
Qed.
Lemma r_mod : r mod n = r. Proof. apply Z.mod_small. generalize (kp_range _ _ K). lia. Qed.
Lemma r_mod0 : r mod n <> 0. Proof. rewrite r_mod. generalize (kp_range _ _ K). lia. Qed.
Lemma x_Rp : ec_x E Rp = r. Proof. reflexivity. Qed.

Lemma sign_eq d : reveal_s E sha d *' Rp = h *' G +' r *' (d *' G).
Proof.
  unfold reveal_s, Rp. rewrite mul_mod, (mul_swap _ (known_k E)), (el_mul_mul _ _ L (ec_inv E _)), inv_r by apply k_mod.
  rewrite (el_mul_add _ _ L), r_mod, Z.mul_comm, (el_mul_mul _ _ L). reflexivity.
Qed.
Lemma reveal_verifies (flip : Z -> bool) d : reveal_s E sha d <> 0 -> Verifies E (d *' G) h r (if flip (reveal_s E sha d) then n - reveal_s E sha d else reveal_s E sha d).
Proof.
  intros NZ. assert (B : 0 <= reveal_s E sha d < n) by (apply Z.mod_pos_bound; generalize (el_order _ _ L); lia). split; [apply (kp_range _ _ K)|].
  assert (Q := sign_eq d). remember (reveal_s E sha d) as s eqn:ES. clear ES. destruct (flip s).
  - split; [lia|]. exists ((-1) *' Rp). split; [apply neg_nonzero, Rp_nonzero|]. split; [|rewrite (el_x_neg _ _ L), x_Rp; apply r_mod].
    rewrite <- Q, <- (el_mul_mul _ _ L). apply mul_congr. replace ((n - s) * -1) with (s + (-1) * n) by lia. apply Z.mod_add. generalize (el_order _ _ L). lia.
  - split; [lia|]. exists Rp. split; [apply Rp_nonzero|]. split; [exact Q|rewrite x_Rp; apply r_mod].
Qed.
Lemma reveal_form (flip : Z -> bool) d : exists ll s, 0 <= s < n /\ s = (if flip (reveal_s E sha d) then n - reveal_s E sha d else reveal_s E sha d) mod n
  /\ (reveal_s E sha d <> 0 -> reveal_sig E sha flip d = der_sig E r s
  /\ reveal_sig E sha flip d = [x30; ll; x02; zb (blen (r_bytes E))] ++ r_bytes E ++ der_int E s).
Proof.
  assert (B : 0 <= reveal_s E sha d < n) by (apply Z.mod_pos_bound; generalize (el_order _ _ L); lia). destruct r_facts as (V & LN & C & NE & H8).
  set (s := if flip _ then _ else _). exists (zb (blen (der_int E r ++ der_int E s))), (s mod n). split; [apply Z.mod_pos_bound; lia|]. split; [reflexivity|]. intros NZ.
  assert (EM : s mod n = s) by (unfold s; destruct (flip _); apply Z.mod_small; lia). rewrite EM. unfold reveal_sig. rewrite r_mod. fold s. split; [reflexivity|].
  unfold der_sig. rewrite <- V at 2. rewrite (der_int_clean _ C NE H8) by lia. reflexivity.
Qed.

(** * Recovery *)
Lemma exponent_spec t P : t *' Rp = h *' G +' r *' P -> recover_exponent E sha t *' G = P.
Proof.
  intros Q. unfold recover_exponent. rewrite mul_mod, Z.mul_comm, (el_mul_mul _ _ L), mul_mod. apply (mul_cancel r); [apply r_mod0|]. rewrite inv_r by apply r_mod0.
  apply (cancel (h *' G)). rewrite <- Q, <- (el_mul_add _ _ L). unfold Rp. rewrite <- (el_mul_mul _ _ L). f_equal. lia.
Qed.
Lemma exponent_range t : 0 <= recover_exponent E sha t < n. Proof. apply Z.mod_pos_bound. apply n_pos. Qed.
Lemma verified_R P s : Verifies E P h r s -> s *' Rp = h *' G +' r *' P \/ (- s) *' Rp = h *' G +' r *' P.
Proof.
  intros (_ & _ & R & NR & Q & X). assert (B := el_x_range _ _ L R). assert (KO := kp_only _ _ K). assert (KR := kp_range _ _ K).
  assert (XR : ec_x E R = r).
  { rewrite (Z.div_mod (ec_x E R) n), X in B by lia. rewrite (Z.div_mod (ec_x E R) n), X by lia. destruct (Z.eq_dec (ec_x E R / n) 0) as [->|NZ]; [lia|].
    assert (0 <= ec_x E R / n) by (apply Z.div_pos; [apply (el_x_range _ _ L)|lia]). nia. }
  rewrite <- x_Rp in XR. destruct (el_x _ _ L R Rp NR Rp_nonzero XR) as [->| ->]; [left; exact Q|right].
  rewrite <- (el_mul_mul _ _ L) in Q. rewrite <- Q. f_equal. lia.
Qed.
Lemma der_split (a b c : byte) suffix r' s : Der ([a; b; c; zb (blen (r_bytes E))] ++ r_bytes E ++ suffix) r' s -> r' = r /\ exists body, suffix = x02 :: zb (blen body) :: body /\ be_val body = s /\ body <> [].
Proof.
  intros (u & w & EQ & SU & SW & LN). cbn [app] in EQ. injection EQ as _ _ _ EL ER. destruct r_facts as (V & LR & _). assert (B := el_len _ _ L).
  assert (LU : blen u < 256). { revert LN. cbn [app]. unfold blen in *. cbn [length]. rewrite ER, app_length. lia. }
  assert (ELn : blen (r_bytes E) = blen u) by (apply zb_inj; [unfold blen; lia|unfold blen in *; lia|exact EL]).
  assert (EU : r_bytes E = u /\ suffix = x02 :: zb (blen w) :: w).
  { clear - ER ELn. unfold blen in ELn. apply Nat2Z.inj in ELn. revert ER ELn. generalize (r_bytes E) as v. intros v. revert u. induction v as [|x v IH]; intros [|y u] ER ELn; try discriminate ELn; [auto|].
    cbn [app] in ER. injection ER as -> ER. injection ELn as ELn. destruct (IH u ER ELn) as [-> ->]. auto. }
  destruct EU as [EU ES]. destruct SU as (? & ? & _ & _ & VU & _). split; [rewrite <- VU, <- EU; exact V|]. exists w. destruct SW as (? & ? & EW & _ & VW & _). split; [exact ES|]. split; [exact VW|]. rewrite EW. discriminate.
Qed.
Lemma key_new_Ok d k : key_new E d = Ok k -> k = d /\ 0 < d < n.
Proof. unfold key_new. destruct (Z.ltb_spec 0 d); cbn [andb]; [|discriminate]. destruct (Z.ltb_spec d n); [|discriminate]. intros H2. apply Ok_inj in H2. subst. auto. Qed.
Lemma key_new_total d : 0 < d < n -> key_new E d = Ok d.
Proof. intros [A B]. unfold key_new. apply Z.ltb_lt in A. apply Z.ltb_lt in B. rewrite A, B. reflexivity. Qed.
Lemma mod_nonzero a : a *' G <> O -> 0 < a mod n < n.
Proof.
  intros H. assert (B := Z.mod_pos_bound a n n_pos). destruct (Z.eq_dec (a mod n) 0) as [Z0|]; [|lia]. exfalso. apply H. rewrite <- mul_mod, Z0. apply mul0.
Qed.
Lemma pub_add_Ok p q t : pub_add E p q = Ok t -> exists P Q, ec_parse E p = Some P /\ ec_parse E q = Some Q /\ P +' Q <> O /\ t = ec_ser E (P +' Q).
Proof.
  unfold pub_add. destruct (ec_parse E p) as [P|]; [|discriminate]. destruct (ec_parse E q) as [Q|]; [|discriminate]. destruct (ec_is_zero E (P +' Q)) eqn:Z0; [discriminate|]. intros H. apply Ok_inj in H. subst t.
  exists P, Q. repeat split. intros X. apply (el_is_zero _ _ L) in X. congruence.
Qed.
Lemma exponent_zero t : recover_exponent E sha t = 0 -> (t * known_k E - h) mod n = 0.
Proof.
  intros H. assert (Q : recover_exponent E sha t *' G = O) by (rewrite H; apply mul0). unfold recover_exponent in Q. rewrite mul_mod, Z.mul_comm, (el_mul_mul _ _ L), mul_mod in Q.
  assert (X : (t * known_k E - h) *' G = 0 *' G). { rewrite mul0. apply (f_equal (ec_mul E r)) in Q. rewrite inv_r, mulO in Q by apply r_mod0. exact Q. }
  apply dlog in X. rewrite X. apply Z.mod_0_l. generalize n_pos. lia.
Qed.
Lemma try_right target d : forall l, try_keys E sha target l = Ok (Some d) -> 0 < d < n /\ target = pub E d /\ exists t, In t l /\ d = recover_exponent E sha t.
Proof.
  induction l as [|t l IH]; cbn [try_keys]; [discriminate|]. unfold rbind. destruct (key_new E _) as [d'|e] eqn:EK; [|discriminate]. apply key_new_Ok in EK. destruct EK as [-> R].
  destruct (bytes_eqb _ target) eqn:EB.
  - intros H. apply Ok_inj in H. injection H as <-. apply bytes_eqb_eq in EB. split; [exact R|]. split; [congruence|]. exists t. split; [left; reflexivity|reflexivity].
  - intros H. destruct (IH H) as (A & B & t' & I & C). split; [exact A|]. split; [exact B|]. exists t'. split; [right; exact I|exact C].
Qed.
Lemma unblinded cpub target combined a b d : 0 < a < n -> 0 < b < n -> 0 < d < n -> pub_add E cpub (pub E b) = Ok target -> pub_add E cpub (pub E a) = Ok combined -> target = pub E d ->
  exists c k, key_sub E d b = Ok c /\ key_add E c a = Ok k /\ 0 < k < n /\ pub E k = combined /\ k = (d - b + a) mod n.
Proof.
  intros RA RB RD HT HC ->. apply pub_add_Ok in HT, HC. destruct HT as (C & B & PC & PB & NT & ET). destruct HC as (C' & A & PC' & PA & NC & EC). rewrite PC in PC'. injection PC' as <-.
  rewrite pub_parse in PA, PB by assumption. injection PA as <-. injection PB as <-. assert (NzD : d *' G <> O) by (apply mul_nonzero; [rewrite Z.mod_small; lia|apply (el_gen _ _ L)]).
  apply ser_inj in ET; [|exact NzD|exact NT].
  assert (EC' : (d - b) *' G = C). { replace (d - b) with (d + -1 * b) by lia. rewrite (el_mul_add _ _ L), ET, (el_mul_mul _ _ L), <- (el_assoc _ _ L), neg_r, (el_zero _ _ L). reflexivity. }
  assert (NZC : (d - b) *' G <> O) by (rewrite EC'; exact (el_parsed _ _ L _ _ PC)). apply mod_nonzero in NZC.
  assert (EK : ((d - b) mod n + a) *' G = C +' a *' G) by (rewrite (el_mul_add _ _ L), mul_mod, EC'; reflexivity).
  assert (NZK : ((d - b) mod n + a) *' G <> O) by (rewrite EK; exact NC). apply mod_nonzero in NZK.
  exists ((d - b) mod n), (((d - b) mod n + a) mod n). split; [apply key_new_total; exact NZC|]. split; [apply key_new_total; exact NZK|]. split; [exact NZK|].
  split; [unfold pub; rewrite mul_mod, EK; symmetry; exact EC|]. rewrite Zplus_mod_idemp_l. reflexivity.
Qed.
Definition read_second (scriptsig v : bytes) : Prop := exists x rest rest', script_next scriptsig = INext x rest /\ script_next rest = INext (EBytes v) rest'.
Lemma recover_Key target b a scriptsig k : recover_from E sha target b a scriptsig = Key k ->
  exists v d c, read_second scriptsig v /\ 0 < d < n /\ target = pub E d /\ (d = recover_exponent E sha (be_val (skipn 2 v)) \/ d = recover_exponent E sha (- be_val (skipn 2 v)))
  /\ key_sub E d b = Ok c /\ key_add E c a = Ok k.
Proof.
  unfold recover_from. destruct (script_next scriptsig) as [|e|x rest] eqn:E1; try discriminate. destruct (script_next rest) as [|e|[v|v|v] rest'] eqn:E2; try discriminate.
  destruct (skipn 2 v) as [|y z] eqn:EV; [discriminate|]. rewrite <- EV. destruct (try_keys _ _ _ _) as [[d|]|e] eqn:ET; try discriminate.
  apply try_right in ET. destruct ET as (R & T & t & I & D). unfold rbind. destruct (key_sub E d b) as [c|e] eqn:ES; [|discriminate]. destruct (key_add E c a) as [k'|e] eqn:EA; [|discriminate].
  intros H. injection H as <-. exists v, d, c. split; [exists x, rest, rest'; auto|]. split; [exact R|]. split; [exact T|]. split; [|auto].
  destruct I as [<-|[<-|[]]]; auto.
Qed.
Lemma recover_found cpub target combined a b scriptsig v : 0 < a < n -> 0 < b < n -> pub_add E cpub (pub E b) = Ok target -> pub_add E cpub (pub E a) = Ok combined ->
  read_second scriptsig v -> skipn 2 v <> [] -> (be_val (skipn 2 v) * known_k E + h) mod n <> 0 ->
  (exists P, ec_parse E target = Some P /\ Verifies E P h r (be_val (skipn 2 v))) ->
  exists k, recover_from E sha target b a scriptsig = Key k /\ 0 < k < n /\ pub E k = combined.
Proof.
  intros RA RB HT HC (x & rest & rest' & E1 & E2) NE ND (P & PP & V). unfold recover_from. rewrite E1, E2. remember (skipn 2 v) as w eqn:EW. clear EW. destruct w as [|y z]; [congruence|]. remember (be_val (y :: z)) as s eqn:ES. clear ES NE.
  assert (NP := el_parsed _ _ L _ _ PP).
  assert (TP : target = ec_ser E P). { destruct (pub_add_Ok _ _ _ HT) as (C & B & _ & _ & NT & ET). rewrite ET in PP. rewrite (el_parse _ _ L) in PP by exact NT. injection PP as <-. exact ET. }
  assert (X1 : 0 < recover_exponent E sha (- s) < n).
  { assert (B := exponent_range (- s)). destruct (Z.eq_dec (recover_exponent E sha (- s)) 0) as [Z0|]; [|lia]. exfalso. apply ND. apply exponent_zero in Z0.
    replace (- s * known_k E - h) with (- (s * known_k E + h)) in Z0 by lia. apply Z.mod_opp_l_z in Z0; [|generalize n_pos; lia]. rewrite Z.opp_involutive in Z0. exact Z0. }
  assert (F : exists d, try_keys E sha target [- s; s] = Ok (Some d)).
  { cbn [try_keys]. rewrite (key_new_total _ X1). cbn [rbind]. destruct (bytes_eqb (pub E (recover_exponent E sha (- s))) target) eqn:E3; [eauto|]. destruct (verified_R _ _ V) as [Q|Q]; apply exponent_spec in Q.
    - assert (X2 : recover_exponent E sha s *' G <> O) by congruence. apply mod_nonzero in X2. rewrite (Z.mod_small _ n (exponent_range s)) in X2. rewrite (key_new_total _ X2). cbn [rbind].
      unfold pub. rewrite Q, <- TP. rewrite (proj2 (bytes_eqb_eq target target) eq_refl). eauto.
    - exfalso. unfold pub in E3. rewrite Q, <- TP in E3. rewrite (proj2 (bytes_eqb_eq target target) eq_refl) in E3. discriminate. }
  destruct F as (d & F). rewrite F. apply try_right in F. destruct F as (R & T & _). destruct (unblinded cpub target combined a b d RA RB R HT HC T) as (c & k & ES & EA & RK & PK & _). rewrite ES. cbn [rbind]. rewrite EA. eauto.
Qed.
End S.

(** * The pushes of a scriptSig *)
Definition Pushed (o : Z * option bytes) (v : bytes) : Prop := snd o = Some v \/ (snd o = None /\ v = [zb (fst o - 0x50)]).
Lemma runs_pushes csfs chk csv l : forall st k, Forall (fun o => fst o <= 0x60) l -> runs csfs chk csv l [] st k -> exists vs, Forall2 Pushed l vs /\ k (rev vs ++ st).
Proof.
  induction l as [|[op d] l IH]; intros st k F R; [destruct R as [_ R]; exists []; split; [constructor|exact R]|]. inversion F as [|o l' F1 F2]; subst. cbn [fst] in F1.
  cbn [runs forallb negb] in R. replace (op =? 0x63) with false in R by (symmetry; apply Z.eqb_neq; lia). replace (op =? 0x67) with false in R by (symmetry; apply Z.eqb_neq; lia). replace (op =? 0x68) with false in R by (symmetry; apply Z.eqb_neq; lia).
  destruct d as [b|].
  - destruct R as [_ R]. destruct (IH _ _ F2 R) as (vs & P & Q). exists (b :: vs). split; [constructor; [left; reflexivity|exact P]|]. cbn [rev]. rewrite <- app_assoc. exact Q.
  - destruct ((0x51 <=? op) && (op <=? 0x60)).
    + destruct (IH _ _ F2 R) as (vs & P & Q). exists ([zb (op - 0x50)] :: vs). split; [constructor; [right; split; reflexivity|exact P]|]. cbn [rev]. rewrite <- app_assoc. exact Q.
    + repeat (match type of R with context[op =? ?c] => replace (op =? c) with false in R by (symmetry; apply Z.eqb_neq; lia) end). destruct R.
Qed.
Lemma ops_cons fuel s o l : ops_of fuel s = Some (o :: l) -> exists rest fuel', raw_next s = NextOp (fst o) (snd o) rest /\ ops_of fuel' rest = Some l.
Proof.
  destruct fuel as [|f fuel]; cbn [ops_of]; destruct (raw_next s) as [|e|op d rest]; try discriminate. destruct (ops_of fuel rest) as [l'|] eqn:EL; [|discriminate]. intros H. injection H as <- <-. exists rest, fuel. auto.
Qed.
Lemma read_pushed s o1 o2 l v : ops s = Some (o1 :: o2 :: l) -> Pushed o2 v -> (2 <= length v)%nat -> read_second s v.
Proof.
  intros H P LV. apply ops_cons in H. destruct H as (rest & f & E1 & H). apply ops_cons in H. destruct H as (rest' & f' & E2 & _).
  destruct P as [P|[_ ->]]; [|cbn in LV; lia]. destruct o1 as [op1 d1], o2 as [op2 d2]. cbn [fst snd] in *. subst d2. assert (R2 := push_op _ _ _ _ E2).
  unfold read_second, script_next. rewrite E1. do 3 eexists. split; [reflexivity|]. rewrite E2. destruct (Z.eqb_spec op2 0) as [->|]; [exfalso|reflexivity].
  assert (X : v = []); [|subst v; cbn in LV; lia]. apply raw_next_zero in E2. exact E2.
Qed.
