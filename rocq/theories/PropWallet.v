(** Properties C36-C40: confidential addresses (wallet.py, blech32.py). *)
From Coq Require Import Strings.String.
From Coq Require Import ZArith List Bool Lia Permutation.
From Verif Require Import Base BaseFacts Serialize TxModel SpecWire TxProofs TxProofs2 PyStr Blech32Model Blech32Facts Blech32Proofs PropBlech32 WalletModel PropBlind.
Import ListNotations.
Local Open Scope Z_scope.

(** * Specification *)
(** The three kinds of blech32 addresses: how many bytes they carry (blinding key and program) and their version. *)
Inductive blech32_kind : kind -> Z -> Z -> Prop :=
| bk_wpkh : blech32_kind P2WPKH 53 0
| bk_wsh : blech32_kind P2WSH 65 0
| bk_tr : blech32_kind P2TR 65 1.
(** The classes of chain [c] under which a user may parse a blech32 string: one of the leaf classes or the base
    class, whose candidates come in any order. *)
Inductive parse_class (c : chain) : bclass -> Prop :=
| pc_leaf k n v : blech32_kind k n v -> parse_class c (blech32_leaf c k)
| pc_base leaves : Permutation leaves [P2WPKH; P2WSH; P2TR] -> parse_class c (blech32_base c leaves).

Lemma kind_facts k n v : blech32_kind k n v -> data_length k true = n /\ witness_version k = v /\ is_segwit k = true /\ (v =? -1) = false.
Proof. intros []; repeat split. Qed.

Lemma from_bytes_leaf c k n v d w o : blech32_kind k n v ->
  from_bytes (leaf_info c k) d w = Ok o <->
  blen d = n /\ (w = None \/ w = Some v) /\ o = mkObj (leaf_info c k) v d.
Proof.
  intros K. unfold from_bytes, blech32_init. cbn [leaf_info b_wv b_dispatched b_len].
  assert (E : data_length k true = n /\ witness_version k = v /\ 0 <= v <= 16).
  { destruct K; (split; [reflexivity|split; [reflexivity|lia]]). }
  destruct E as (-> & -> & V).
  assert (V1 : (v <? 0) = false) by (apply Z.ltb_ge; lia).
  assert (V2 : (0 <=? v) = true) by (apply Z.leb_le; lia).
  assert (V3 : (v <=? 16) = true) by (apply Z.leb_le; lia).
  rewrite V1, V2. destruct w as [w|].
  - cbn [rbind andb]. destruct (w <? 0) eqn:W0.
    { apply Z.ltb_lt in W0. split; [discriminate|]. intros (_ & [A|A] & _); [discriminate|].
      assert (w = v) by congruence. lia. }
    destruct (w =? v) eqn:WE; cbn [negb rbind].
    + apply Z.eqb_eq in WE. subst w. rewrite V2, V3. cbn [andb negb].
      destruct (blen d =? n) eqn:L; cbn [negb rbind].
      * apply Z.eqb_eq in L. split; [intros A; apply Ok_inj in A; subst o; auto|].
        intros (_ & _ & ->). reflexivity.
      * apply Z.eqb_neq in L. split; [discriminate|]. tauto.
    + apply Z.eqb_neq in WE. split; [discriminate|]. intros (_ & [A|A] & _); [discriminate|]. congruence.
  - cbn [rbind]. rewrite V2, V3. cbn [andb negb].
    destruct (blen d =? n) eqn:L; cbn [negb rbind].
    + apply Z.eqb_eq in L. split; [intros A; apply Ok_inj in A; subst o; auto|].
      intros (_ & _ & ->). reflexivity.
    + apply Z.eqb_neq in L. split; [discriminate|]. tauto.
Qed.

Lemma hrp_domain c k n v d : blech32_kind k n v -> blen d = n -> address_domain (blech32_hrp c) v d.
Proof.
  intros K L.
  assert (R : 0 <= v <= 16 /\ 2 <= n <= 73 /\ (v = 0 -> n = 53 \/ n = 65) /\ 8 * n + 4 <= 600) by (destruct K; lia).
  destruct R as (R1 & R2 & R3 & R4). unfold address_domain. rewrite L.
  assert (Q : (8 * n + 4) / 5 <= 120) by (apply Z.div_le_upper_bound; lia).
  assert (Hc : blech32_hrp c <> [] /\ Forall (fun c => 33 <= c <= 126 /\ ~ (65 <= c <= 90)) (blech32_hrp c) /\ length (blech32_hrp c) = 2%nat).
  { destruct c; (split; [discriminate|split; [repeat constructor; cbn; lia|reflexivity]]). }
  destruct Hc as (H1 & H2 & H3). rewrite H3. repeat split; try assumption; try lia.
Qed.

Lemma str_leaf c k n v d : blech32_kind k n v -> blen d = n ->
  exists s, blech32_str (mkObj (leaf_info c k) v d) = Ok s /\ encode (blech32_hrp c) v d = Ok (Some s)
    /\ decode (blech32_hrp c) s = Ok (Some (v, d)).
Proof.
  intros K L. destruct (proj2 (C30_encode_domain _ _ _) (hrp_domain c k n v d K L)) as [s E].
  exists s. unfold blech32_str. cbn [o_cls o_wv o_data leaf_info b_hrp]. rewrite E. cbn [rbind].
  split; [reflexivity|]. split; [reflexivity|]. apply C30_encode_decode. exact E.
Qed.

(** Matching: what the classes do with decoded data. *)
Lemma match_leaf c k n v d w : blech32_kind k n v ->
  match_program (blech32_leaf c k) d w =
  if (blen d =? n) && (w =? v) then Ok (Some (mkObj (leaf_info c k) v d)) else Ok None.
Proof.
  intros K. destruct (kind_facts _ _ _ K) as (E1 & E2 & _).
  unfold blech32_leaf. cbn [match_program match_candidates leaf_info b_dispatched b_wv b_len].
  assert (V : (witness_version k <? 0) = false) by (destruct K; reflexivity).
  rewrite V, E1, E2. destruct ((blen d =? n) && (w =? v)) eqn:E; [|reflexivity].
  apply andb_prop in E. destruct E as [L W]. apply Z.eqb_eq in L, W. subst w.
  rewrite (proj2 (from_bytes_leaf c k n v d (Some v) (mkObj (leaf_info c k) v d) K)) by auto.
  reflexivity.
Qed.

Lemma perm_kinds leaves k : Permutation leaves [P2WPKH; P2WSH; P2TR] -> (In k leaves <-> exists n v, blech32_kind k n v).
Proof.
  intros P. split.
  - intros I. apply (Permutation_in _ P) in I. destruct I as [<-|[<-|[<-|[]]]]; eauto using blech32_kind.
  - intros (n & v & K). apply (Permutation_in _ (Permutation_sym P)). destruct K; cbn; auto.
Qed.

Lemma kind_unique k k' n v : blech32_kind k n v -> blech32_kind k' n v -> k = k'.
Proof. intros [] H; inversion H; reflexivity. Qed.

Lemma match_base c leaves d w : Permutation leaves [P2WPKH; P2WSH; P2TR] ->
  (exists k v, blech32_kind k (blen d) v /\ w = v /\ match_program (blech32_base c leaves) d w = Ok (Some (mkObj (leaf_info c k) v d)))
  \/ ((forall k, ~ blech32_kind k (blen d) w) /\ match_program (blech32_base c leaves) d w = Ok None).
Proof.
  intros P. unfold blech32_base. cbn [match_program match_candidates b_dispatched b_wv].
  set (rec := fun d0 => match_program d0 d w). clearbody rec.
  assert (NE : leaves <> []) by (intros ->; apply Permutation_length in P; discriminate).
  destruct (map (blech32_leaf c) leaves) as [|d0 l0] eqn:M.
  { destruct leaves; [congruence|discriminate]. }
  rewrite <- M. clear M d0 l0 NE.
  assert (A : forall k, In k leaves -> exists n v, blech32_kind k n v) by (intros k; apply perm_kinds; assumption).
  assert (B : forall k n v, blech32_kind k n v -> In k leaves) by (intros k n v K; apply (perm_kinds _ _ P); eauto).
  assert (T : forall l, (forall k, In k l -> exists n v, blech32_kind k n v) ->
    (exists k v, In k l /\ blech32_kind k (blen d) v /\ w = v /\ try_candidates rec (map (blech32_leaf c) l) d w = Ok (Some (mkObj (leaf_info c k) v d)))
    \/ ((forall k, In k l -> ~ blech32_kind k (blen d) w) /\ try_candidates rec (map (blech32_leaf c) l) d w = Ok None)).
  { induction l as [|k l IH]; intros H.
    - right. split; [intros k []|reflexivity].
    - destruct (H k (or_introl eq_refl)) as (n & v & K).
      destruct (kind_facts _ _ _ K) as (E1 & E2 & _).
      assert (V : (witness_version k <? 0) = false) by (destruct K; reflexivity).
      cbn [map try_candidates info blech32_leaf leaf_info b_wv b_len]. rewrite V, E1, E2.
      destruct ((blen d =? n) && (w =? v)) eqn:E.
      + apply andb_prop in E. destruct E as [L W]. apply Z.eqb_eq in L, W. subst w. rewrite <- L in K.
        left. exists k, v. split; [left; reflexivity|]. split; [exact K|]. split; [reflexivity|].
        fold (leaf_info c k).
        change (mkB (kind_number k) (blech32_hrp c) (witness_version k) (data_length k true) true) with (leaf_info c k).
        rewrite (proj2 (from_bytes_leaf c k _ v d (Some v) (mkObj (leaf_info c k) v d) K)) by auto.
        reflexivity.
      + destruct (IH (fun k' I => H k' (or_intror I))) as [(k' & v' & I & K' & W & EQ)|(N & EQ)].
        * left. exists k', v'. split; [right; exact I|]. auto.
        * right. split; [|exact EQ]. intros k' [<-|I]; [|apply N; exact I].
          intros K'. assert (Z2 : n = blen d /\ v = w) by (destruct K; inversion K'; auto).
          destruct Z2 as [-> ->]. rewrite !Z.eqb_refl in E. discriminate. }
  destruct (T leaves A) as [(k & v & _ & K & W & EQ)|(N & EQ)]; [left; eauto|].
  right. split; [|exact EQ]. intros k K. exact (N k (B _ _ _ K) K).
Qed.

(** * C36 *)
(** A blech32 address object has a string; parsing it as the object's class, or as the base class of its chain,
    gives the object back. *)
Theorem C36_str_parse : forall c k n v d o,
  blech32_kind k n v -> from_bytes (leaf_info c k) d None = Ok o ->
  exists s, blech32_str o = Ok s /\
    blech32_new (blech32_leaf c k) s = Ok o /\
    (forall leaves, Permutation leaves [P2WPKH; P2WSH; P2TR] -> blech32_new (blech32_base c leaves) s = Ok o).
Proof.
  intros c k n v d o K F. apply (from_bytes_leaf c k n v d None o K) in F. destruct F as (L & _ & ->).
  destruct (str_leaf c k n v d K L) as (s & S & E & D). exists s. split; [exact S|].
  assert (I : blech32_init (leaf_info c k) d = Ok tt).
  { unfold blech32_init. cbn [leaf_info b_dispatched b_wv b_len]. destruct (kind_facts _ _ _ K) as (E1 & E2 & _).
    assert (V : (witness_version k <? 0) = false) by (destruct K; reflexivity).
    rewrite V, E1, L, Z.eqb_refl. reflexivity. }
  split.
  - unfold blech32_new. cbn [info blech32_leaf leaf_info b_hrp]. rewrite D. cbn [rbind].
    fold (blech32_leaf c k). fold (leaf_info c k).
    change (BClass (mkB (kind_number k) (blech32_hrp c) (witness_version k) (data_length k true) true) []) with (blech32_leaf c k).
    rewrite (match_leaf c k n v d v K), L, !Z.eqb_refl. cbn [andb rbind o_cls o_data]. rewrite I. reflexivity.
  - intros leaves P. unfold blech32_new. cbn [info blech32_base b_hrp]. rewrite D. cbn [rbind].
    change (BClass (mkB 0 (blech32_hrp c) (-1) 0 true) (map (blech32_leaf c) leaves)) with (blech32_base c leaves).
    destruct (match_base c leaves d v P) as [(k' & v' & K' & W & EQ)|(N & _)].
    + subst v'. rewrite L in K'. rewrite (kind_unique _ _ _ _ K' K) in EQ. rewrite EQ. cbn [rbind o_cls o_data]. rewrite I. reflexivity.
    + exfalso. rewrite L in N. exact (N k K).
Qed.
Print Assumptions C36_str_parse.

Lemma parse_class_hrp c cls : parse_class c cls -> b_hrp (info cls) = blech32_hrp c.
Proof. intros []; reflexivity. Qed.

(** Parsing, whatever the text and whichever of a chain's classes is asked: either Blech32Error, or an object of
    one of the chain's leaf classes (the class asked for, if that was a leaf class) with a payload of the right
    size, whose string is the text in lower case. *)
Theorem C36_parse_sound : forall c cls s r, parse_class c cls -> blech32_new cls s = r ->
  r = Raise EBlech32 \/
  exists k n v d, blech32_kind k n v /\ blen d = n /\ r = Ok (mkObj (leaf_info c k) v d) /\
    (forall k', cls = blech32_leaf c k' -> k' = k) /\
    from_bytes (leaf_info c k) d None = r /\
    blech32_str (mkObj (leaf_info c k) v d) = Ok (lower s).
Proof.
  intros c cls s r P <-. unfold blech32_new. rewrite (parse_class_hrp c cls P).
  destruct (C32_decode_never_raises (blech32_hrp c) s) as [[[w d]|] D]; rewrite D; cbn [rbind]; [|left; reflexivity].
  assert (FIN : forall k n v, blech32_kind k n v -> blen d = n -> w = v ->
     blech32_init (leaf_info c k) d = Ok tt /\ from_bytes (leaf_info c k) d None = Ok (mkObj (leaf_info c k) v d) /\
     blech32_str (mkObj (leaf_info c k) v d) = Ok (lower s)).
  { intros k n v K L ->. split.
    - unfold blech32_init. cbn [leaf_info b_dispatched b_wv b_len]. destruct (kind_facts _ _ _ K) as (E1 & E2 & _).
      assert (V : (witness_version k <? 0) = false) by (destruct K; reflexivity).
      rewrite V, E1, L, Z.eqb_refl. reflexivity.
    - split; [apply (from_bytes_leaf c k n v d None); auto|].
      unfold blech32_str. cbn [o_cls o_wv o_data leaf_info b_hrp]. rewrite (C31_decode_canonical _ _ _ _ D). reflexivity. }
  destruct P as [k n v K|leaves P].
  - rewrite (match_leaf c k n v d w K). destruct ((blen d =? n) && (w =? v)) eqn:E; cbn [rbind]; [|left; reflexivity].
    apply andb_prop in E. destruct E as [L W]. apply Z.eqb_eq in L, W.
    destruct (FIN k n v K L W) as (I & F & S). cbn [o_cls o_data]. rewrite I. cbn [rbind].
    right. exists k, n, v, d. split; [exact K|]. split; [exact L|]. split; [reflexivity|].
    split; [|split; [exact F|exact S]]. intros k' Ek.
    assert (G : kind_number k = kind_number k') by (injection Ek; auto). destruct k, k'; (reflexivity || discriminate G).
  - destruct (match_base c leaves d w P) as [(k & v & K & W & EQ)|(_ & EQ)]; rewrite EQ; cbn [rbind]; [|left; reflexivity].
    destruct (FIN k _ v K eq_refl W) as (I & F & S). cbn [o_cls o_data]. rewrite I. cbn [rbind].
    right. exists k, (blen d), v, d. split; [exact K|]. split; [reflexivity|]. split; [reflexivity|].
    split; [|split; [exact F|exact S]]. intros k' Ek. exfalso. injection Ek as _ Ek _.
    destruct leaves; [apply Permutation_length in P; discriminate|discriminate].
Qed.
Print Assumptions C36_parse_sound.

(** The string of an address of one chain is refused, with Blech32Error, by every class of the other chain. *)
Theorem C36_other_network : forall c c' cls k n v d o s,
  c <> c' -> parse_class c' cls -> blech32_kind k n v ->
  from_bytes (leaf_info c k) d None = Ok o -> blech32_str o = Ok s ->
  blech32_new cls s = Raise EBlech32.
Proof.
  intros c c' cls k n v d o s NE P K F S.
  apply (from_bytes_leaf c k n v d None o K) in F. destruct F as (L & _ & ->).
  destruct (str_leaf c k n v d K L) as (s' & S' & E & D). assert (s' = s) by congruence. subst s'.
  destruct (decode_none_or (blech32_hrp c') s) as [N|(v' & p' & N)].
  - unfold blech32_new. rewrite (parse_class_hrp c' cls P), N. reflexivity.
  - exfalso.
    apply decode_spec in D. destruct D as (_ & _ & _ & _ & _ & v5 & syms & chk & _ & _ & _ & X & _).
    apply decode_spec in N. destruct N as (_ & _ & _ & _ & _ & v5' & syms' & chk' & _ & _ & _ & X' & _).
    rewrite X in X'. destruct c, c'; try congruence; cbv in X'; discriminate X'.
Qed.
Print Assumptions C36_other_network.

(** ... and by the leaf classes of the other types of address of the same chain. *)
Theorem C36_other_type : forall c k k' n v n' v' d o s,
  k <> k' -> blech32_kind k n v -> blech32_kind k' n' v' ->
  from_bytes (leaf_info c k) d None = Ok o -> blech32_str o = Ok s ->
  blech32_new (blech32_leaf c k') s = Raise EBlech32.
Proof.
  intros c k k' n v n' v' d o s NE K K' F S.
  apply (from_bytes_leaf c k n v d None o K) in F. destruct F as (L & _ & ->).
  destruct (str_leaf c k n v d K L) as (s' & S' & E & D). assert (s' = s) by congruence. subst s'.
  unfold blech32_new. rewrite (parse_class_hrp c _ (pc_leaf c k' n' v' K')), D. cbn [rbind].
  rewrite (match_leaf c k' n' v' d v K'), L. destruct ((n =? n') && (v =? v')) eqn:Q; [|reflexivity].
  exfalso. apply andb_prop in Q. destruct Q as [Q1 Q2]. apply Z.eqb_eq in Q1, Q2. subst n' v'.
  exact (NE (kind_unique _ _ _ _ K K')).
Qed.
Print Assumptions C36_other_type.

Definition ex_payload : bytes := x02 :: repeat x07 52.
Definition is_ok {A} (r : res A) : bool := match r with Ok _ => true | _ => false end.
Example C36_ex : exists s o,
  from_bytes (leaf_info LiquidV1 P2WPKH) ex_payload None = Ok o /\ blech32_str o = Ok s /\
  is_ok (blech32_new (blech32_base LiquidV1 [P2TR; P2WPKH; P2WSH]) (upper s)) = true /\ length s = 101%nat.
Proof. eexists _, _. split; [vm_compute; reflexivity|]. split; [vm_compute; reflexivity|]. split; vm_compute; reflexivity. Qed.

(** * C37 *)
(** Construction from bytes for the address classes: exactly the right size and version. *)
Theorem C37_from_bytes : forall c k n v d w o, blech32_kind k n v ->
  from_bytes (leaf_info c k) d w = Ok o <->
  blen d = n /\ (w = None \/ w = Some v) /\ o = mkObj (leaf_info c k) v d.
Proof. exact from_bytes_leaf. Qed.
Print Assumptions C37_from_bytes.

(** The base class of a chain is never instantiated. *)
Theorem C37_base_never : forall c leaves d w, exists e, from_bytes (info (blech32_base c leaves)) d w = Raise e /\ (e = EValue \/ e = EType).
Proof.
  intros c leaves d w. unfold from_bytes, blech32_init. cbn [info blech32_base b_wv b_dispatched].
  destruct w as [w|]; cbn [rbind]; [|change (-1 <? 0) with true; cbn [rbind]; eauto].
  change (0 <=? -1) with false. change (-1 <? 0) with true. cbn [andb].
  destruct (w <? 0); cbn [rbind]; [eauto|]. destruct (negb ((0 <=? w) && (w <=? 16))); cbn [rbind]; eauto.
Qed.
Print Assumptions C37_base_never.

(** An address object, from bytes or from text, always has a string form. *)
Theorem C37_has_string : forall c cls s k n v d w o, parse_class c cls -> blech32_kind k n v ->
  (from_bytes (leaf_info c k) d w = Ok o \/ blech32_new cls s = Ok o) ->
  exists t, blech32_str o = Ok t.
Proof.
  intros c cls s k n v d w o P K [F|F].
  - apply (from_bytes_leaf c k n v d w o K) in F. destruct F as (L & _ & ->).
    destruct (str_leaf c k n v d K L) as (t & S & _). eauto.
  - destruct (C36_parse_sound c cls s _ P F) as [A|(k' & n' & v' & d' & _ & _ & A & _ & _ & S)]; [discriminate|].
    assert (o = mkObj (leaf_info c k') v' d') by congruence. subst o. eauto.
Qed.
Print Assumptions C37_has_string.

(** For subclasses of CBlech32Data that do not check their data (derived from CBlech32Data itself), an object made
    with from_bytes has a string exactly when hrp, version and data are within the encoder's domain ... *)
Theorem C37_plain_class : forall cls d w o, b_dispatched cls = false -> from_bytes cls d w = Ok o ->
  o_data o = d /\ 0 <= o_wv o <= 16 /\ (0 <= b_wv cls -> o_wv o = b_wv cls) /\ (b_wv cls < 0 -> w = Some (o_wv o)) /\
  ((exists s, blech32_str o = Ok s) <-> address_domain (b_hrp cls) (o_wv o) d) /\
  (~ address_domain (b_hrp cls) (o_wv o) d -> blech32_str o = Raise EAssert).
Proof.
  intros cls d w o U F. unfold from_bytes in F. apply rbind_Ok in F. destruct F as (v & G & F).
  destruct (negb ((0 <=? v) && (v <=? 16))) eqn:R; [discriminate|].
  apply negb_false_iff, andb_prop in R. destruct R as [R1 R2]. apply Z.leb_le in R1, R2.
  unfold blech32_init in F. rewrite U in F. cbn [rbind] in F. apply Ok_inj in F. subst o.
  cbn [o_data o_wv o_cls].
  assert (Q : (if b_wv cls <? 0 then v else b_wv cls) = v /\ (b_wv cls < 0 -> w = Some v)).
  { destruct w as [w|].
    - destruct (w <? 0); [discriminate|]. destruct ((0 <=? b_wv cls) && negb (w =? b_wv cls)) eqn:B; [discriminate|].
      apply Ok_inj in G. subst w. split; [|auto].
      destruct (b_wv cls <? 0) eqn:N; [reflexivity|]. apply Z.ltb_ge in N. apply Z.leb_le in N. rewrite N in B. cbn [andb] in B.
      apply negb_false_iff, Z.eqb_eq in B. congruence.
    - destruct (b_wv cls <? 0) eqn:N; [discriminate|]. apply Z.ltb_ge in N. split; [congruence|lia]. }
  destruct Q as [Q1 Q2]. rewrite Q1. split; [reflexivity|]. split; [lia|].
  split. { intros H. destruct (b_wv cls <? 0) eqn:N; [apply Z.ltb_lt in N; lia|congruence]. }
  split; [exact Q2|].
  assert (S : forall t, blech32_str (mkObj cls v d) = Ok t <-> encode (b_hrp cls) v d = Ok (Some t)).
  { intros t. unfold blech32_str. cbn [o_cls o_wv o_data].
    destruct (encode (b_hrp cls) v d) as [[x|]|e]; cbn [rbind]; split; intros H; congruence. }
  split.
  - rewrite <- C30_encode_domain. split; intros [t H]; exists t; apply S; exact H.
  - intros N. unfold blech32_str. cbn [o_cls o_wv o_data].
    destruct (encode (b_hrp cls) v d) as [[x|]|e] eqn:E; cbn [rbind].
    + exfalso. apply N, C30_encode_domain. eauto.
    + reflexivity.
    + exfalso. apply C30_encode_raises in E. lia.
Qed.
Print Assumptions C37_plain_class.

(** ... so there the assertion of __str__ is reachable: from_bytes does not check the length. *)
Theorem C37_every_object_has_string_refuted : exists cls d w o,
  from_bytes cls d w = Ok o /\ blech32_str o = Raise EAssert.
Proof.
  exists (mkB 9 (str "lq") (-1) 0 false), (repeat x02 20), (Some 0), (mkObj (mkB 9 (str "lq") (-1) 0 false) 0 (repeat x02 20)).
  split; vm_compute; reflexivity.
Qed.
Print Assumptions C37_every_object_has_string_refuted.

Example C37_ex_ok : is_ok (from_bytes (leaf_info Elements P2TR) (repeat x02 65) (Some 1)) = true.
Proof. vm_compute. reflexivity. Qed.
Example C37_ex_version : from_bytes (leaf_info Elements P2TR) (repeat x02 65) (Some 0) = Raise EValue.
Proof. vm_compute. reflexivity. Qed.
Example C37_ex_length : from_bytes (leaf_info Elements P2TR) (repeat x02 64) None = Raise EType.
Proof. vm_compute. reflexivity. Qed.

(** * C38 *)
(** Which kinds of address a confidential class covers. *)
Definition covers (cls : conf_class) (k : kind) : Prop :=
  match cls with
  | CLeaf k' => k' = k
  | CAny => True
  | CBase58 => k = P2PKH \/ k = P2SH
  | CBlech32 => k = P2WPKH \/ k = P2WSH \/ k = P2TR
  end.
(** Addresses as constructed: the payload has the size of the kind. *)
Definition payload_of (k : kind) (n : Z) : Prop :=
  match k with P2PKH | P2SH | P2WPKH => n = 20 | P2WSH | P2TR => n = 32 end.
Definition valid_addr (a : addr) : Prop :=
  payload_of (ad_kind a) (blen (ad_data a) - if ad_conf a then 33 else 0).

Lemma payload_iff k n : payload_of k n <-> n = payload_length k.
Proof. destruct k; cbn; tauto. Qed.

Lemma addr_from_bytes_iff c k conf d a : addr_from_bytes c k conf d = Ok a <-> blen d = data_length k conf /\ a = mkAddr c k conf d.
Proof.
  unfold addr_from_bytes. destruct (is_segwit k && conf) eqn:B.
  - apply andb_prop in B. destruct B as [B ->].
    assert (K : blech32_kind k (data_length k true) (witness_version k)) by (destruct k; try discriminate; constructor).
    split.
    + intros H. apply rbind_Ok in H. destruct H as (o & F & H).
      apply (from_bytes_leaf c k _ _ d None o K) in F. destruct F as (L & _ & ->). apply Ok_inj in H. subst a. auto.
    + intros (L & ->).
      rewrite (proj2 (from_bytes_leaf c k _ _ d None (mkObj (leaf_info c k) (witness_version k) d) K)) by auto. reflexivity.
  - destruct (blen d =? data_length k conf) eqn:L.
    + apply Z.eqb_eq in L. split; [intros H; apply Ok_inj in H; subst a; auto|intros (_ & ->); reflexivity].
    + apply Z.eqb_neq in L. split; [discriminate|tauto].
Qed.
Lemma addr_from_bytes_raise c k conf d : blen d <> data_length k conf -> addr_from_bytes c k conf d = Raise EType.
Proof.
  intros L. unfold addr_from_bytes. destruct (is_segwit k && conf) eqn:B.
  - apply andb_prop in B. destruct B as [B ->]. unfold from_bytes, blech32_init. cbn [leaf_info b_wv b_dispatched b_len].
    assert (V : (witness_version k <? 0) = false /\ (0 <=? witness_version k) = true /\ (witness_version k <=? 16) = true) by (destruct k; try discriminate; repeat split).
    destruct V as (V1 & V2 & V3). rewrite V1. cbn [rbind]. rewrite V2, V3. cbn [andb negb].
    apply Z.eqb_neq in L. rewrite L. reflexivity.
  - apply Z.eqb_neq in L. rewrite L. reflexivity.
Qed.

Lemma chain_eqb_eq a b : chain_eqb a b = true <-> a = b.
Proof. destruct a, b; cbn; intuition congruence. Qed.
Lemma kind_eqb_eq a b : kind_eqb a b = true <-> a = b.
Proof. destruct a, b; cbn; intuition congruence. Qed.

Lemma try_classes_same c cls adr pk : covers cls (ad_kind adr) ->
  try_classes c c cls adr pk clsmap = addr_from_bytes c (ad_kind adr) true (pk ++ ad_data adr).
Proof.
  destruct adr as [ac k cf d]. cbn [ad_kind ad_data]. intros H.
  destruct cls; cbn [covers] in H.
  - subst k0. destruct k, c; reflexivity.
  - destruct k, c; reflexivity.
  - destruct H as [-> | ->], c; reflexivity.
  - destruct H as [-> |[-> | ->]], c; reflexivity.
Qed.
Lemma try_classes_other c cls adr pk : ~ covers cls (ad_kind adr) ->
  exists e, try_classes c c cls adr pk clsmap = Raise e /\ (e = EType \/ e = EAddress).
Proof.
  destruct adr as [ac k cf d]. cbn [ad_kind ad_data]. intros H.
  destruct cls; cbn [covers] in H.
  - destruct k, k0; try (exfalso; apply H; reflexivity); destruct c; cbn; eauto.
  - exfalso; apply H; exact I.
  - destruct k; try (exfalso; apply H; auto; fail); destruct c; cbn; eauto.
  - destruct k; try (exfalso; apply H; auto; fail); destruct c; cbn; eauto.
Qed.

Section Keys.
Variable fullyvalid : bytes -> bool.

(** When the chain of the class is the current one: exactly when it succeeds, and with what. *)
Theorem C38_from_unconfidential : forall c cls adr pk a, valid_addr adr ->
  from_unconfidential fullyvalid c c cls adr pk = Ok a <->
  fullyvalid pk = true /\ ad_chain adr = c /\ covers cls (ad_kind adr) /\
  blen pk + (if ad_conf adr then 33 else 0) = 33 /\
  a = mkAddr c (ad_kind adr) true (pk ++ ad_data adr).
Proof.
  intros c cls adr pk a VA. unfold from_unconfidential.
  destruct (fullyvalid pk); cbn [negb]; [|split; [discriminate|intros (A & _); discriminate]].
  destruct (chain_eqb c (ad_chain adr)) eqn:CE; cbn [negb].
  2: { split; [discriminate|]. intros (_ & A & _). symmetry in A. apply chain_eqb_eq in A. congruence. }
  apply chain_eqb_eq in CE. unfold valid_addr in VA. apply payload_iff in VA.
  assert (CD : covers cls (ad_kind adr) \/ ~ covers cls (ad_kind adr)).
  { destruct cls as [k| | |]; cbn [covers].
    - destruct (kind_eqb k (ad_kind adr)) eqn:E; [left; apply kind_eqb_eq; exact E|right; rewrite <- kind_eqb_eq; congruence].
    - auto.
    - destruct (ad_kind adr); auto; right; intros [A|A]; discriminate.
    - destruct (ad_kind adr); auto; right; intros [A|[A|A]]; discriminate. }
  destruct CD as [CV|CV].
  - rewrite (try_classes_same c cls adr pk CV), addr_from_bytes_iff, blen_app.
    unfold data_length. split.
    + intros (L & ->). repeat split; auto. lia.
    + intros (_ & _ & _ & L & ->). split; [lia|reflexivity].
  - destruct (try_classes_other c cls adr pk CV) as (e & -> & _). split; [discriminate|]. tauto.
Qed.

(** The result for an unconfidential address converts back, exposes the key, and pays the same script. *)
Theorem C38_lossless : forall c cls adr pk a, valid_addr adr -> pk <> [] ->
  from_unconfidential fullyvalid c c cls adr pk = Ok a ->
  ad_conf adr = false /\ valid_addr a /\
  to_unconfidential a = Ok adr /\ blinding_pubkey a = pk /\ to_scriptPubKey a = to_scriptPubKey adr.
Proof.
  intros c cls adr pk a VA NE H. assert (VA' := VA). apply C38_from_unconfidential in H; [|exact VA].
  destruct H as (_ & CH & _ & L & ->).
  assert (P : blen pk = 33 /\ ad_conf adr = false).
  { destruct (ad_conf adr); [|split; [lia|reflexivity]]. destruct pk as [|b pk']; [congruence|].
    rewrite blen_cons in L. assert (X := blen_nonneg pk'). lia. }
  destruct P as (L33 & CF). unfold valid_addr in VA. rewrite CF in VA. apply payload_iff in VA.
  assert (LN : length pk = 33%nat) by (unfold blen in L33; lia).
  assert (SK : skipn 33 (pk ++ ad_data adr) = ad_data adr).
  { rewrite <- LN, skipn_app, skipn_all, Nat.sub_diag. reflexivity. }
  assert (U : to_unconfidential (mkAddr c (ad_kind adr) true (pk ++ ad_data adr)) = Ok adr).
  { unfold to_unconfidential. cbn [ad_chain ad_kind ad_data]. rewrite SK. apply addr_from_bytes_iff.
    unfold data_length. split; [lia|]. destruct adr as [ac k cf d]. cbn [ad_kind ad_data ad_chain ad_conf] in *. congruence. }
  split; [exact CF|]. split.
  - unfold valid_addr. cbn [ad_kind ad_conf ad_data]. apply payload_iff. rewrite blen_app. lia.
  - split; [exact U|]. split.
    + unfold blinding_pubkey. cbn [ad_data]. rewrite <- LN, firstn_app, firstn_all, Nat.sub_diag, firstn_O, app_nil_r. reflexivity.
    + unfold to_scriptPubKey. cbn [ad_conf]. rewrite U, CF. reflexivity.
Qed.

(** Every confidential address arises this way: converting down and up again is the identity (given its key is valid). *)
Theorem C38_down_up : forall c cls a u, valid_addr a -> ad_conf a = true -> ad_chain a = c -> covers cls (ad_kind a) ->
  fullyvalid (blinding_pubkey a) = true -> to_unconfidential a = Ok u ->
  from_unconfidential fullyvalid c c cls u (blinding_pubkey a) = Ok a.
Proof.
  intros c cls a u VA CF CH CV FV U. unfold to_unconfidential in U. apply addr_from_bytes_iff in U. destruct U as (L & ->).
  unfold valid_addr in VA. rewrite CF in VA. apply payload_iff in VA.
  apply C38_from_unconfidential.
  - unfold valid_addr. cbn [ad_kind ad_conf ad_data]. apply payload_iff. unfold data_length in L. lia.
  - cbn [ad_chain ad_kind ad_data ad_conf]. split; [exact FV|]. split; [exact CH|]. split; [exact CV|]. split.
    + unfold blinding_pubkey. unfold blen in *. rewrite firstn_length. assert (0 <= payload_length (ad_kind a)) by (destruct (ad_kind a); cbn; lia). lia.
    + unfold blinding_pubkey. rewrite firstn_skipn. destruct a as [ac k cf d]; cbn [ad_chain ad_kind ad_data ad_conf] in *; congruence.
Qed.

(** With another chain current the conversion still accepts an address and a leaf class of one chain, but the
    result belongs to the current chain: the claim "the result is on the address's network" is false. *)
Theorem C38_result_on_same_network_refuted : forall pk, fullyvalid pk = true -> blen pk = 33 ->
  exists cur c cls adr a, valid_addr adr /\ ad_chain adr = c /\
    from_unconfidential fullyvalid cur c cls adr pk = Ok a /\ ad_chain a <> c.
Proof.
  intros pk FV L. exists Elements, LiquidV1, (CLeaf P2PKH), (mkAddr LiquidV1 P2PKH false (zeros 20)), (mkAddr Elements P2PKH true (pk ++ zeros 20)).
  split; [reflexivity|]. split; [reflexivity|]. split; [|discriminate].
  unfold from_unconfidential. rewrite FV. cbn [negb chain_eqb ad_chain try_classes clsmap ad_kind kind_eqb below_generic andb orb ad_data].
  apply addr_from_bytes_iff. split; [|reflexivity]. rewrite blen_app, L. reflexivity.
Qed.

(** General form: whichever chain is current, success needs a valid key, an address of the class's chain and a
    payload that fits; a base class (not a leaf class) only succeeds if its chain is the current one. *)
Theorem C38_any_current_chain : forall cur c cls adr pk a, valid_addr adr ->
  from_unconfidential fullyvalid cur c cls adr pk = Ok a ->
  fullyvalid pk = true /\ ad_chain adr = c /\ covers cls (ad_kind adr) /\
  a = mkAddr cur (ad_kind adr) true (pk ++ ad_data adr) /\
  (cur = c \/ cls = CLeaf (ad_kind adr)).
Proof.
  intros cur c cls adr pk a VA H. unfold from_unconfidential in H.
  destruct (fullyvalid pk) eqn:FV; cbn [negb] in H; [|discriminate].
  destruct (chain_eqb c (ad_chain adr)) eqn:CE; cbn [negb] in H; [|discriminate].
  apply chain_eqb_eq in CE. split; [reflexivity|]. split; [congruence|].
  assert (G : covers cls (ad_kind adr) /\ (cur = c \/ cls = CLeaf (ad_kind adr)) /\ addr_from_bytes cur (ad_kind adr) true (pk ++ ad_data adr) = Ok a).
  { clear CE VA FV. destruct adr as [ac k cf d]. cbn [ad_kind ad_data] in *.
    unfold clsmap in H. cbn [try_classes ad_kind ad_data] in H.
    destruct cls as [k'| | |], k; try destruct k'; destruct cur, c;
      cbn [kind_eqb below_generic above_leaf chain_eqb is_segwit andb orb negb] in H; try discriminate H;
      cbn [covers]; (split; [auto|split; [auto|exact H]]). }
  destruct G as (G1 & G2 & G3). apply addr_from_bytes_iff in G3. destruct G3 as (_ & ->). auto.
Qed.
End Keys.
Print Assumptions C38_from_unconfidential.
Print Assumptions C38_lossless.
Print Assumptions C38_down_up.
Print Assumptions C38_result_on_same_network_refuted.
Print Assumptions C38_any_current_chain.

Example C38_ex : exists a,
  from_unconfidential (fun _ => true) LiquidV1 LiquidV1 CAny (mkAddr LiquidV1 P2WSH false (repeat x07 32)) (x02 :: repeat x05 32) = Ok a
  /\ valid_addr a.
Proof. eexists. split; [vm_compute; reflexivity|]. vm_compute. reflexivity. Qed.
Example C38_ex_confidential :
  from_unconfidential (fun _ => true) LiquidV1 LiquidV1 CAny (mkAddr LiquidV1 P2WSH true (repeat x07 65)) (x02 :: repeat x05 32) = Raise EType.
Proof. vm_compute. reflexivity. Qed.
Example C38_ex_wrong_type :
  from_unconfidential (fun _ => true) LiquidV1 LiquidV1 (CLeaf P2SH) (mkAddr LiquidV1 P2PKH false (repeat x07 20)) (x02 :: repeat x05 32) = Raise EType.
Proof. vm_compute. reflexivity. Qed.

(** * C39 *)
Lemma script_length k d : blen d = payload_length k ->
  blen (unconf_script k d) = match k with P2PKH => 25 | P2SH => 23 | P2WPKH => 22 | P2WSH | P2TR => 34 end.
Proof. intros L. destruct k; cbn [unconf_script payload_length] in *; rewrite ?blen_app, L; reflexivity. Qed.

Lemma ser_bytes_short s : blen s < 253 -> exists b, ser_bytes s = Ok b /\ blen b = blen s + 1.
Proof.
  intros L. unfold ser_bytes, ser_varint.
  assert (E2 : (blen s <? 0xfd) = true) by (apply Z.ltb_lt; lia).
  rewrite E2. cbn [rbind]. eexists. split; [reflexivity|]. cbn [app]. rewrite blen_cons. lia.
Qed.
Lemma ser_conf_blen d : blen (ser_conf d) = Z.max 1 (blen d).
Proof.
  unfold ser_conf. destruct d as [|b d]; [reflexivity|].
  rewrite blen_cons. assert (X := blen_nonneg d). lia.
Qed.
Lemma txout_size o n : blen (scriptPubKey o) = n -> n < 253 -> exists b, ser_txout o = Ok b /\
  blen b = Z.max 1 (blen (nAsset o)) + Z.max 1 (blen (nValue o)) + Z.max 1 (blen (nNonce o)) + n + 1.
Proof.
  intros L H. destruct (ser_bytes_short (scriptPubKey o)) as (b & E & B); [lia|].
  unfold ser_txout. rewrite E. cbn [rbind]. eexists. split; [reflexivity|].
  rewrite !blen_app, !ser_conf_blen. lia.
Qed.
Definition script_size (k : kind) : Z := match k with P2PKH => 25 | P2SH => 23 | P2WPKH => 22 | P2WSH | P2TR => 34 end.
Lemma script_of a : valid_addr a -> exists s, to_scriptPubKey a = Ok s /\ blen s = script_size (ad_kind a).
Proof.
  intros VA. unfold valid_addr in VA. apply payload_iff in VA. unfold to_scriptPubKey.
  destruct (ad_conf a).
  - assert (L : blen (skipn 33 (ad_data a)) = payload_length (ad_kind a)).
    { unfold blen in *. rewrite skipn_length. assert (0 <= payload_length (ad_kind a)) by (destruct (ad_kind a); cbn; lia). lia. }
    unfold to_unconfidential.
    rewrite (proj2 (addr_from_bytes_iff _ _ false _ (mkAddr (ad_chain a) (ad_kind a) false (skipn 33 (ad_data a))))) by (unfold data_length; split; [lia|reflexivity]).
    cbn [rbind ad_kind ad_data]. eexists. split; [reflexivity|]. apply script_length. exact L.
  - eexists. split; [reflexivity|]. apply script_length. lia.
Qed.
Lemma output_size_value c k : get_output_size c k true = Ok (100 + script_size k) /\ get_output_size c k false = Ok (12 + script_size k).
Proof. destruct c, k; split; vm_compute; reflexivity. Qed.

(** The predicted size is the size of every confidential output paying an address of the class (in particular of the
    outputs blinded by blind(), see C45_success_blinds). *)
Theorem C39_confidential : forall a o w, valid_addr a -> ad_conf a = true ->
  to_scriptPubKey a = Ok (scriptPubKey o) -> ConfidentialOutput o w ->
  exists b, ser_txout o = Ok b /\ get_output_size (ad_chain a) (ad_kind a) true = Ok (blen b).
Proof.
  intros a o w VA _ S (V & A & N & _). destruct (script_of a VA) as (s & S' & L).
  assert (s = scriptPubKey o) by congruence. subst s.
  destruct (txout_size o _ L ltac:(destruct (ad_kind a); cbn; lia)) as (b & E & B). exists b. split; [exact E|].
  rewrite (proj1 (output_size_value _ _)). f_equal.
  assert (OO : forall x y d, OneOf x y d -> blen d = 33) by (intros x y d (d0 & L0 & [-> | ->]); rewrite blen_cons; lia).
  apply OO in V, A, N. rewrite B, V, A, N. lia.
Qed.
Print Assumptions C39_confidential.

(** The prediction for unconfidential addresses is 32 bytes less than the size of every output with explicit value
    and asset, and no nonce, that pays the address. *)
Theorem C39_unconfidential : forall a o av aa, valid_addr a -> ad_conf a = false ->
  to_scriptPubKey a = Ok (scriptPubKey o) ->
  nValue o = x01 :: av -> blen av = 8 -> nAsset o = x01 :: aa -> blen aa = 32 -> nNonce o = [] ->
  exists b n, ser_txout o = Ok b /\ get_output_size (ad_chain a) (ad_kind a) false = Ok n /\ blen b = n + 32.
Proof.
  intros a o av aa VA _ S V LV A LA N. destruct (script_of a VA) as (s & S' & L).
  assert (s = scriptPubKey o) by congruence. subst s.
  destruct (txout_size o _ L ltac:(destruct (ad_kind a); cbn; lia)) as (b & E & B).
  exists b, (12 + script_size (ad_kind a)). split; [exact E|]. split; [apply output_size_value|].
  rewrite B, V, A, N, !blen_cons, LV, LA. change (blen []) with 0. lia.
Qed.
Print Assumptions C39_unconfidential.

(** The claim that the prediction is right for unconfidential addresses is therefore false for every address. *)
Theorem C39_unconfidential_size_refuted : forall a, valid_addr a -> ad_conf a = false ->
  exists o b n, to_scriptPubKey a = Ok (scriptPubKey o) /\ txout_is_null o = false /\
    ser_txout o = Ok b /\ get_output_size (ad_chain a) (ad_kind a) false = Ok n /\ n < blen b.
Proof.
  intros a VA CF. destruct (script_of a VA) as (s & S & L).
  set (o := mkTxOut (x01 :: zeros 8) s (x01 :: zeros 32) []).
  destruct (C39_unconfidential a o (zeros 8) (zeros 32) VA CF S eq_refl eq_refl eq_refl eq_refl eq_refl) as (b & n & E & G & B).
  exists o, b, n. split; [exact S|]. split; [reflexivity|]. split; [exact E|]. split; [exact G|]. lia.
Qed.
Print Assumptions C39_unconfidential_size_refuted.

Definition ex_conf_addr : addr := mkAddr Elements P2TR true (x02 :: repeat x05 64).
Example C39_ex : valid_addr ex_conf_addr /\ (exists s, to_scriptPubKey ex_conf_addr = Ok s /\
  ConfidentialOutput (mkTxOut (x08 :: zeros 32) s (x0a :: zeros 32) (x02 :: zeros 32)) (mkOutWit [x01] [x01]))
  /\ get_output_size Elements P2TR true = Ok 134.
Proof.
  split; [reflexivity|]. split; [|vm_compute; reflexivity].
  eexists. split; [vm_compute; reflexivity|]. unfold ConfidentialOutput, OneOf.
  cbn [nValue nAsset nNonce ow_range ow_surj].
  split; [exists (zeros 32); auto|]. split; [exists (zeros 32); auto|]. split; [exists (zeros 32); auto|].
  split; discriminate.
Qed.
Example C39_ex_unconf : valid_addr (mkAddr Elements P2WPKH false (repeat x05 20)) /\ get_output_size Elements P2WPKH false = Ok 34.
Proof. split; [reflexivity|vm_compute; reflexivity]. Qed.

(** * C40 *)
(** A decoded base58 payload belongs to a class when it starts with the class's prefix. *)
Definition belongs (d : bytes) (b : base58_class) : Prop := exists p r, prefix_of b = Some p /\ map bz d = p ++ map bz r.
Definition is_key (b : base58_class) : Prop := match b with B58Key _ => True | _ => False end.

Lemma bz_inj_list a b : map bz a = map bz b -> a = b.
Proof.
  revert b. induction a as [|x a IH]; intros [|y b] H; try discriminate; [reflexivity|].
  injection H as H1 H2. f_equal; [|apply IH; exact H2].
  apply (f_equal zb) in H1. rewrite !zb_bz in H1. exact H1.
Qed.
Lemma starts_with_iff p d r : starts_with p d = Some r <-> map bz d = p ++ map bz r.
Proof.
  revert d. induction p as [|z p IH]; intros d; cbn [starts_with app].
  - split; [intros H; congruence|]. intros H. apply bz_inj_list in H. congruence.
  - destruct d as [|b d]; [split; discriminate|]. cbn [map]. destruct (bz b =? z) eqn:E.
    + apply Z.eqb_eq in E. subst z. rewrite IH. split; intros H; [congruence|injection H; auto].
    + apply Z.eqb_neq in E. split; [discriminate|]. intros H. injection H as H _. congruence.
Qed.

(** No payload belongs to two classes, over both networks, both confidentiality levels, keys and extended keys;
    the only coincidence is the private keys (WIF) of the two networks. *)
Theorem C40_unambiguous : forall d b b', belongs d b -> belongs d b' -> b = b' \/ (is_key b /\ is_key b').
Proof.
  intros d b b' (p & r & P & E) (p' & r' & P' & E'). rewrite E in E'. clear E.
  destruct b as [[] [] []|[]|[]|[]]; try discriminate P; destruct b' as [[] [] []|[]|[]|[]]; try discriminate P';
    cbn [prefix_of base58_prefix] in P, P'; injection P as <-; injection P' as <-; cbn [app] in E';
    try (left; reflexivity); try (right; split; exact I); discriminate E'.
Qed.
Print Assumptions C40_unambiguous.

(** Whatever the candidates (the classes of one network, or all) and their order, the data produced by an address
    class is read back as that class with the same bytes. *)
Theorem C40_match : forall cands c k conf p data d,
  In (B58Address c k conf) cands -> base58_prefix c k conf = Some p -> map bz d = p ++ map bz data ->
  base58_match cands d = Some (B58Address c k conf, data).
Proof.
  intros cands c k conf p data d I P E. induction cands as [|b l IH]; [destruct I|].
  assert (B : belongs d (B58Address c k conf)) by (exists p, data; auto).
  cbn [base58_match]. destruct (prefix_of b) as [q|] eqn:Q.
  - destruct (starts_with q d) as [r|] eqn:S.
    + assert (B' : belongs d b) by (exists q, r; split; [exact Q|apply starts_with_iff; exact S]).
      destruct (C40_unambiguous d _ _ B B') as [<-|(A & _)]; [|destruct A].
      cbn [prefix_of] in Q. rewrite P in Q. injection Q as <-.
      rewrite (proj2 (starts_with_iff p d data) E) in S. injection S as <-. reflexivity.
    + destruct I as [-> |I]; [|exact (IH I)]. cbn [prefix_of] in Q. rewrite P in Q. injection Q as <-.
      rewrite (proj2 (starts_with_iff p d data) E) in S. discriminate S.
  - destruct I as [-> |I]; [|exact (IH I)]. cbn [prefix_of] in Q. congruence.
Qed.
Print Assumptions C40_match.

(** Conversely a match means the payload starts with the matched class's prefix, followed by the data. *)
Theorem C40_match_sound : forall cands d b data, base58_match cands d = Some (b, data) ->
  In b cands /\ exists p, prefix_of b = Some p /\ map bz d = p ++ map bz data.
Proof.
  induction cands as [|c l IH]; intros d b data H; [discriminate|]. cbn [base58_match] in H.
  destruct (prefix_of c) as [q|] eqn:Q.
  - destruct (starts_with q d) as [r|] eqn:S.
    + assert (G : c = b /\ r = data) by (split; congruence). destruct G as [<- <-].
      split; [left; reflexivity|]. exists q. split; [exact Q|]. apply starts_with_iff. exact S.
    + destruct (IH _ _ _ H) as (A & B). split; [right; exact A|exact B].
  - destruct (IH _ _ _ H) as (A & B). split; [right; exact A|exact B].
Qed.
Print Assumptions C40_match_sound.

(** A private key's text does not tell the network. *)
Theorem C40_keys_tell_network_refuted : exists d, belongs d (B58Key Elements) /\ belongs d (B58Key LiquidV1).
Proof. exists (xef :: zeros 33). split; exists [239], (zeros 33); split; reflexivity. Qed.
Print Assumptions C40_keys_tell_network_refuted.

Example C40_ex : base58_match [B58Address LiquidV1 P2SH false; B58Address LiquidV1 P2PKH false; B58Address LiquidV1 P2PKH true]
  (x0c :: x39 :: repeat x02 53) = Some (B58Address LiquidV1 P2PKH true, repeat x02 53).
Proof. vm_compute. reflexivity. Qed.
