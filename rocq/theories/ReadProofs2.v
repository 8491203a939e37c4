(** Proofs for C91: what a truncation error means. *)
From Verif Require Import Base BaseFacts Serialize ParserFacts TxModel SpecWire CodecFacts TxProofs TxProofs2 SpecRead ReadProofs.
Local Open Scope Z_scope.

(** Rejected whatever follows, once [k] more bytes are there *)
Definition rejected (e : exn) : Prop := e = ESerialization \/ e = EValue.
Definition doomed {A} (p : parser A) (s : bytes) : Prop :=
  exists k, (k <= 8)%nat /\ forall q, (k <= length q)%nat -> exists e, p (s ++ q) = Raise e /\ rejected e.
Definition opens {A} (Q : A -> Prop) (p : parser A) : Prop := exists q a, p q = Ok (a, []) /\ Q a.
Definition fills {A} (Q : A -> Prop) (p : parser A) (s : bytes) : Prop := exists q a, p (s ++ q) = Ok (a, []) /\ Q a.
Definition ends {A} (Q : A -> Prop) (p : parser A) : Prop :=
  forall s, p s = Raise ETruncation -> fills Q p s \/ doomed p s.

Definition any {A} (a : A) : Prop := True.

Lemma ends_imp {A} (P Q : A -> Prop) p : ends P p -> (forall a, P a -> Q a) -> ends Q p.
Proof. intros H I s T. destruct (H s T) as [(q & a & X & Y)|D]; [left; exists q, a; auto|right; exact D]. Qed.
Lemma ends_pret {A} (Q : A -> Prop) a : ends Q (pret a).
Proof. intros s T. discriminate. Qed.
Lemma doomed_bind {A B} (p : parser A) (k : A -> parser B) s : doomed p s -> doomed (pbind p k) s.
Proof.
  intros (n & L & H). exists n. split; [exact L|]. intros q Lq. destruct (H q Lq) as (e & X & R).
  exists e. split; [unfold pbind; rewrite X; reflexivity|exact R].
Qed.
Lemma fills_bind {A B} (Q : B -> Prop) (p : parser A) (k : A -> parser B) s :
  local p -> fills (fun a => opens Q (k a)) p s -> fills Q (pbind p k) s.
Proof.
  intros L (q & a & X & q2 & b & Y & Z). exists (q ++ q2), b. split; [|exact Z].
  unfold pbind. rewrite app_assoc, (local_ext p _ _ _ q2 L X). exact Y.
Qed.
Lemma fills_in {A B} (Q : B -> Prop) (p : parser A) (k : A -> parser B) s a r :
  local p -> p s = Ok (a, r) -> fills Q (k a) r -> fills Q (pbind p k) s.
Proof.
  intros L X (q & b & Y & Z). exists q, b. split; [|exact Z].
  unfold pbind. rewrite (local_ext p _ _ _ q L X). exact Y.
Qed.
Lemma doomed_in {A B} (p : parser A) (k : A -> parser B) s a r :
  local p -> p s = Ok (a, r) -> doomed (k a) r -> doomed (pbind p k) s.
Proof.
  intros L X (n & Ln & H). exists n. split; [exact Ln|]. intros q Lq. destruct (H q Lq) as (e & Y & R).
  exists e. split; [|exact R]. unfold pbind. rewrite (local_ext p _ _ _ q L X). exact Y.
Qed.
Lemma ends_bind {A B} (Q : B -> Prop) (p : parser A) (k : A -> parser B) :
  local p -> ends (fun a => opens Q (k a)) p -> (forall s a r, p s = Ok (a, r) -> ends Q (k a)) ->
  ends Q (pbind p k).
Proof.
  intros L P K s T. unfold pbind in T. destruct (p s) as [[a r]|e] eqn:X.
  - destruct (K _ _ _ X _ T) as [F|D]; [left; eapply fills_in; eassumption|right; eapply doomed_in; eassumption].
  - injection T as ->. destruct (P s X) as [F|D]; [left; apply fills_bind; assumption|right; apply doomed_bind, D].
Qed.

Lemma opens_pret {A} (Q : A -> Prop) a : Q a -> opens Q (pret a).
Proof. intros H. exists [], a. split; [reflexivity|exact H]. Qed.
Lemma opens_bind {A B} (Q : B -> Prop) (p : parser A) (k : A -> parser B) :
  local p -> opens (fun a => opens Q (k a)) p -> opens Q (pbind p k).
Proof. intros L H. apply (fills_bind Q p k [] L H). Qed.
Lemma opens_any {A} (Q : A -> Prop) p : opens Q p -> opens any p.
Proof. intros (q & a & X & _). exists q, a. split; [exact X|exact I]. Qed.
Lemma opens_imp {A} (P Q : A -> Prop) p : opens P p -> (forall a, P a -> Q a) -> opens Q p.
Proof. intros (q & a & X & Y) H. exists q, a. auto. Qed.

Lemma zeros_blen n : blen (zeros n) = Z.of_nat n.
Proof. unfold blen, zeros. rewrite repeat_length. reflexivity. Qed.

(** ** Fixed-size reads *)
Lemma read_cut n s : 0 <= n -> ser_read n s = Raise ETruncation -> n <= MAX_SIZE /\ blen s < n.
Proof. intros N. unfold ser_read. destruct (Z.ltb_spec MAX_SIZE n); [discriminate|]. destruct (Z.ltb_spec (blen s) n); [auto|discriminate]. Qed.
Lemma fills_read n s : n <= MAX_SIZE -> blen s < n -> fills (fun b => blen b = n) (ser_read n) s.
Proof.
  intros M L. exists (zeros (Z.to_nat (n - blen s))), (s ++ zeros (Z.to_nat (n - blen s))).
  pose proof (blen_nonneg s).
  assert (E : blen (s ++ zeros (Z.to_nat (n - blen s))) = n) by (rewrite blen_app, zeros_blen; lia).
  split; [|exact E]. pose proof (ser_read_app n _ [] E M) as X. rewrite app_nil_r in X. exact X.
Qed.
Lemma ends_read n : 0 <= n -> ends (fun b => blen b = n) (ser_read n).
Proof. intros N s T. apply read_cut in T; [|exact N]. left. apply fills_read; apply T. Qed.
Lemma opens_read n : 0 <= n <= MAX_SIZE -> opens (fun b => blen b = n) (ser_read n).
Proof.
  intros N. exists (zeros (Z.to_nat n)), (zeros (Z.to_nat n)).
  assert (E : blen (zeros (Z.to_nat n)) = n) by (rewrite zeros_blen; lia). split; [|exact E].
  pose proof (ser_read_app n _ [] E (proj2 N)) as X. rewrite app_nil_r in X. exact X.
Qed.
Lemma ends_le n : ends (fun z => 0 <= z < 256 ^ Z.of_nat n) (read_le n).
Proof.
  apply ends_bind; [apply local_ser_read; lia| |intros; apply ends_pret].
  eapply ends_imp; [apply ends_read; lia|]. intros b L. apply opens_pret.
  pose proof (le_val_range b). rewrite L in *. assumption.
Qed.
Lemma opens_le n : Z.of_nat n <= MAX_SIZE -> opens (fun z => 0 <= z < 256 ^ Z.of_nat n) (read_le n).
Proof.
  intros M. apply opens_bind; [apply local_ser_read; lia|]. eapply opens_imp; [apply opens_read; lia|].
  intros b L. apply opens_pret. pose proof (le_val_range b). rewrite L in *. assumption.
Qed.

(** ** Compact sizes *)
Lemma le_val_app a b : le_val (a ++ b) = le_val a + 256 ^ blen a * le_val b.
Proof.
  induction a as [|x a IH]; [cbn [app le_val]; rewrite blen_nil; lia|].
  cbn [app le_val]. rewrite IH. unfold blen. cbn [length]. rewrite pow256_S. fold (blen a). unfold blen. ring.
Qed.
Lemma le_val_zeros n : le_val (zeros n) = 0.
Proof. induction n as [|n IH]; [reflexivity|]. unfold zeros in *. cbn [repeat le_val]. rewrite IH. reflexivity. Qed.

Lemma wide s w t q : ((s = xfd /\ w = 2) \/ (s = xfe /\ w = 4) \/ (s = xff /\ w = 8))%nat ->
  length t = w -> deser_varint (s :: t ++ q) = Ok (le_val t, q).
Proof.
  intros H L. unfold deser_varint, pbind. rewrite ser_read_1. cbv zeta.
  destruct H as [(-> & ->)|[(-> & ->)|(-> & ->)]];
    match goal with |- context [le_val [?b]] => let v := eval vm_compute in (le_val [b]) in change (le_val [b]) with v end;
    cbn [Z.ltb Z.eqb Z.compare Pos.compare Pos.compare_cont Pos.eqb]; apply read_le_app; try assumption; unfold MAX_SIZE; cbn; lia.
Qed.
Lemma varint_cut s : deser_varint s = Raise ETruncation ->
  s = [] \/ exists h w t, s = h :: t /\ (length t < w)%nat
            /\ ((h = xfd /\ w = 2) \/ (h = xfe /\ w = 4) \/ (h = xff /\ w = 8))%nat.
Proof.
  destruct s as [|h t]; [auto|]. intros H. right. unfold deser_varint, pbind in H. rewrite ser_read_1 in H. cbv zeta in H.
  assert (EV : le_val [h] = bz h) by (cbn [le_val]; lia). rewrite EV in H. pose proof (bz_range h) as R.
  assert (C : forall n, read_le n t = Raise ETruncation -> (length t < n)%nat).
  { intros n X. unfold read_le, pbind in X. destruct (ser_read (Z.of_nat n) t) as [[? ?]|e] eqn:Y; [discriminate|].
    injection X as ->. apply read_cut in Y; [|lia]. unfold blen in Y. lia. }
  destruct (Z.ltb_spec (bz h) 0xfd); [discriminate|].
  destruct (bz h =? 0xfd) eqn:E1.
  { apply bz_eq_byte in E1; [|lia]. exists h, 2%nat, t. repeat split; [apply C, H|]. left. auto. }
  destruct (bz h =? 0xfe) eqn:E2.
  { apply bz_eq_byte in E2; [|lia]. exists h, 4%nat, t. repeat split; [apply C, H|]. right; left. auto. }
  apply Z.eqb_neq in E1, E2. assert (E3 : bz h =? 0xff = true) by (apply Z.eqb_eq; lia).
  apply bz_eq_byte in E3; [|lia]. exists h, 8%nat, t. repeat split; [apply C, H|]. right; right. auto.
Qed.

(** A count can always be completed, and so that it is not zero *)
Lemma ends_count : ends (fun n => 0 < n < 2 ^ 64) deser_varint.
Proof.
  intros s T. left. destruct (varint_cut s T) as [->|(h & w & t & -> & L & C)].
  - exists [x01], 1. split; [reflexivity|lia].
  - exists (zeros (w - length t - 1) ++ [x01]).
    set (c := zeros (w - length t - 1) ++ [x01]).
    assert (Lc : length (t ++ c) = w).
    { subst c. rewrite !app_length. unfold zeros. rewrite repeat_length. cbn [length]. lia. }
    exists (le_val (t ++ c)). pose proof (wide h w (t ++ c) [] C Lc) as X. rewrite app_nil_r in X.
    split; [exact X|]. split; [|apply deser_varint_nonneg in X; apply X].
    subst c. rewrite le_val_app, le_val_app, le_val_zeros. change (le_val [x01]) with 1.
    pose proof (le_val_range t). pose proof (pow256_pos (length t)). pose proof (pow256_pos (length (zeros (w - length t - 1)))).
    unfold blen. nia.
Qed.

(** ** Byte strings *)
(** complete with something in it, or rejected, or complete only as empty *)
Definition only_empty (s : bytes) : Prop :=
  (exists q, deser_bytes (s ++ q) = Ok ([], []))
  /\ exists k, (k <= 8)%nat /\ forall q, (k <= length q)%nat ->
       deser_bytes (s ++ q) = Raise ESerialization \/ exists r, deser_bytes (s ++ q) = Ok ([], r).

Lemma bytes_of h w t q c : ((h = xfd /\ w = 2) \/ (h = xfe /\ w = 4) \/ (h = xff /\ w = 8))%nat ->
  length (t ++ c) = w -> deser_bytes ((h :: t) ++ c ++ q) = ser_read (le_val (t ++ c)) q.
Proof.
  intros C L. unfold deser_bytes, pbind. cbn [app]. rewrite app_assoc, (wide h w (t ++ c) q C L). reflexivity.
Qed.
Lemma bytes_full h w t c : ((h = xfd /\ w = 2) \/ (h = xfe /\ w = 4) \/ (h = xff /\ w = 8))%nat ->
  length (t ++ c) = w -> le_val (t ++ c) <= MAX_SIZE ->
  exists q b, deser_bytes ((h :: t) ++ q) = Ok (b, []) /\ blen b = le_val (t ++ c).
Proof.
  intros C L M. pose proof (le_val_range (t ++ c)) as R.
  destruct (opens_read (le_val (t ++ c)) ltac:(lia)) as (q & b & X & E).
  exists (c ++ q), b. rewrite (bytes_of h w t q c C L). auto.
Qed.
Lemma bytes_cut s : deser_bytes s = Raise ETruncation ->
  fills (fun b => blen b <> 0) deser_bytes s \/ doomed deser_bytes s \/ only_empty s.
Proof.
  intros T. unfold deser_bytes, pbind in T. destruct (deser_varint s) as [[n r]|e] eqn:V.
  - left. pose proof (deser_varint_nonneg _ _ _ V). apply read_cut in T; [|lia].
    pose proof (blen_nonneg r). destruct T as (M & L).
    destruct (fills_read n r M L) as (q & b & X & E). exists q, b. split; [|lia].
    unfold deser_bytes, pbind. rewrite (local_ext _ _ _ _ q local_deser_varint V). exact X.
  - injection T as ->. destruct (varint_cut s V) as [->|(h & w & t & -> & L & C)].
    { left. exists [x01; x00], [x00]. split; [reflexivity|discriminate]. }
    pose proof (le_val_range t) as R. pose proof (pow256_pos (length t)) as P.
    set (d := (w - length t)%nat).
    assert (Lz : length (t ++ zeros d) = w) by (rewrite app_length; unfold zeros; rewrite repeat_length; lia).
    assert (Vz : le_val (t ++ zeros d) = le_val t) by (rewrite le_val_app, le_val_zeros; lia).
    assert (W8 : (w <= 8)%nat) by (destruct C as [(_ & ->)|[(_ & ->)|(_ & ->)]]; lia).
    (* whatever follows, the number is [le_val t] plus a multiple of [256 ^ length t] *)
    assert (A : forall q, (d <= length q)%nat -> exists v r, 0 <= v
              /\ deser_bytes ((h :: t) ++ q) = ser_read (le_val t + 256 ^ blen t * v) r).
    { intros q Lq. exists (le_val (firstn d q)), (skipn d q).
      pose proof (le_val_range (firstn d q)) as Rq. split; [lia|].
      rewrite <- (firstn_skipn d q) at 1.
      rewrite (bytes_of h w t (skipn d q) (firstn d q) C), le_val_app; [reflexivity|].
      rewrite app_length, firstn_length. lia. }
    destruct (Z.ltb_spec MAX_SIZE (le_val t)) as [G|G].
    + right; left. exists d. split; [lia|]. intros q Lq. destruct (A q Lq) as (v & r & Pv & X).
      exists ESerialization. split; [|left; reflexivity]. rewrite X. unfold ser_read.
      destruct (Z.ltb_spec MAX_SIZE (le_val t + 256 ^ blen t * v)) as [|N]; [reflexivity|]. unfold blen in N. nia.
    + destruct (Z.eq_dec (le_val t) 0) as [Z0|NZ].
      2:{ left. destruct (bytes_full h w t (zeros d) C Lz ltac:(lia)) as (q & b & X & E).
          exists q, b. split; [exact X|]. lia. }
      destruct (Z.leb_spec (256 ^ blen t) MAX_SIZE) as [S|S].
      * left. set (c := [x01] ++ zeros (d - 1)).
        assert (Lc : length (t ++ c) = w) by (subst c; rewrite !app_length; unfold zeros; rewrite repeat_length; cbn [length]; lia).
        assert (Vc : le_val (t ++ c) = 256 ^ blen t).
        { subst c. rewrite le_val_app, le_val_app, le_val_zeros. change (le_val [x01]) with 1. lia. }
        destruct (bytes_full h w t c C Lc ltac:(lia)) as (q & b & X & E).
        exists q, b. split; [exact X|]. unfold blen in Vc. unfold blen in *. lia.
      * right; right. split.
        { exists (zeros d). pose proof (bytes_of h w t [] (zeros d) C Lz) as X. rewrite app_nil_r in X. rewrite X, Vz, Z0. reflexivity. }
        exists d. split; [lia|]. intros q Lq. destruct (A q Lq) as (v & r & Pv & X). rewrite X, Z0.
        destruct (Z.eq_dec v 0) as [->|Nv].
        { right. exists r. rewrite Z.mul_0_r. apply (ser_read_app 0 [] r); [reflexivity|unfold MAX_SIZE; lia]. }
        left. unfold ser_read. destruct (Z.ltb_spec MAX_SIZE (0 + 256 ^ blen t * v)) as [|N]; [reflexivity|]. unfold MAX_SIZE in *. nia.
Qed.
Lemma ends_bytes : ends any deser_bytes.
Proof.
  intros s T. destruct (bytes_cut s T) as [(q & b & X & _)|[D|((q & X) & _)]].
  - left. exists q, b. split; [exact X|exact I].
  - right. exact D.
  - left. exists q, []. split; [exact X|exact I].
Qed.
Lemma opens_bytes : opens (fun b => blen b <> 0) deser_bytes.
Proof. exists [x01; x00], [x00]. split; [reflexivity|discriminate]. Qed.

(** ** Repetition *)
Lemma opens_nat {A} (p : parser A) n : local p -> opens any p -> opens any (prep_nat p n).
Proof.
  intros L O. induction n as [|n IH]; cbn [prep_nat]; [apply opens_pret; exact I|].
  apply opens_bind; [exact L|]. eapply opens_imp; [exact O|]. intros a _.
  apply opens_bind; [apply local_prep_nat, L|]. eapply opens_imp; [exact IH|]. intros l _. apply opens_pret. exact I.
Qed.
Lemma ends_nat {A} (p : parser A) n : local p -> opens any p -> ends any p -> ends any (prep_nat p n).
Proof.
  intros L O E. induction n as [|n IH]; cbn [prep_nat]; [apply ends_pret|].
  apply ends_bind; [exact L| |].
  - eapply ends_imp; [exact E|]. intros a _. apply opens_bind; [apply local_prep_nat, L|].
    eapply opens_imp; [apply opens_nat; eassumption|]. intros l _. apply opens_pret. exact I.
  - intros _ a _ _. apply ends_bind; [apply local_prep_nat, L| |intros; apply ends_pret].
    eapply ends_imp; [exact IH|]. intros l _. apply opens_pret. exact I.
Qed.
Lemma local_nat_len {A} (p : parser A) n s l r : prep_nat p n s = Ok (l, r) -> length l = n.
Proof.
  revert s l r. induction n as [|n IH]; intros s l r; cbn [prep_nat]; [intros [= <- _]; reflexivity|].
  unfold pbind. destruct (p s) as [[a r1]|]; [|discriminate]. destruct (prep_nat p n r1) as [[l' r2]|] eqn:E; [|discriminate].
  intros [= <- _]. cbn [length]. f_equal. eapply IH, E.
Qed.
Lemma ends_vector {A} (p : parser A) : local p -> opens any p -> ends any p -> ends (fun l => l <> []) (deser_vector p).
Proof.
  intros L O E s T. unfold deser_vector in *.
  assert (X : ends (fun l => l <> []) (pbind deser_varint (fun n => prep_nat p (Z.to_nat n)))).
  { apply ends_bind; [apply local_deser_varint| |].
    - eapply ends_imp; [apply ends_count|]. intros n N.
      destruct (opens_nat p (Z.to_nat n) L O) as (q & l & X & _). exists q, l. split; [exact X|].
      apply local_nat_len in X. intros ->. cbv beta in N. cbn [length] in X. clear - X N. lia.
    - intros s0 n r _ s1 T1. destruct (Z.eq_dec (Z.of_nat (Z.to_nat n)) 0) as [Z0|NZ].
      + replace (Z.to_nat n) with 0%nat in T1 by lia. discriminate.
      + destruct (ends_nat p (Z.to_nat n) L O E s1 T1) as [(q & l & X & _)|D]; [left|right; exact D].
        exists q, l. split; [exact X|]. apply local_nat_len in X. intros ->. cbn [length] in X. lia. }
  assert (Q : forall u, pbind deser_varint (prep p) u = pbind deser_varint (fun n => prep_nat p (Z.to_nat n)) u).
  { intros u. unfold pbind. destruct (deser_varint u) as [[n r]|] eqn:V; [|reflexivity].
    apply deser_varint_nonneg in V. apply prep_nat_Z. lia. }
  rewrite Q in T. destruct (X s T) as [(q & l & Y & Z)|(k & Lk & D)].
  - left. exists q, l. rewrite Q. auto.
  - right. exists k. split; [exact Lk|]. intros q Lq. rewrite Q. auto.
Qed.
Lemma opens_vector {A} (p : parser A) : opens any p -> opens any (deser_vector p).
Proof. intros _. exists [x00], []. split; [reflexivity|exact I]. Qed.
Lemma opens_stack : opens any deser_scriptwitness.
Proof. apply opens_vector. eapply opens_any, opens_bytes. Qed.
Lemma opens_stack1 : opens (fun l => l <> []) deser_scriptwitness.
Proof. exists [x01; x00], [[]]. split; [reflexivity|discriminate]. Qed.
Lemma local_stack : local deser_scriptwitness.
Proof. apply local_deser_vector, local_deser_bytes. Qed.
Lemma ends_stack : ends (fun l => l <> []) deser_scriptwitness.
Proof. apply ends_vector; [apply local_deser_bytes|eapply opens_any, opens_bytes|apply ends_bytes]. Qed.

(** ** Fields *)
Lemma ends_conf c : ends any (deser_conf c).
Proof.
  intros s T. left. destruct s as [|y s].
  { exists [x00], []. split; [destruct c; reflexivity|exact I]. }
  unfold deser_conf in *. unfold pbind at 1 in T. unfold fills. unfold pbind at 1. rewrite ser_read_1 in T.
  cbn [app]. setoid_rewrite ser_read_1. cbv zeta in *. revert T.
  set (v := le_val [y]).
  assert (K : forall n, n = explicitSize c \/ n = committedSize ->
    let p := (do! commitment := (if 0 <? n then do! t := ser_read (n - 1) in pret ([zb v] ++ t) else pret []) in
              fun s => match conf_new c commitment with Ok x => Ok (x, s) | Raise e => Raise e end) in
    p s = Raise ETruncation -> exists q a, p (s ++ q) = Ok (a, []) /\ @any bytes a).
  { intros n N p T. assert (P : 0 < n <= MAX_SIZE) by (unfold MAX_SIZE, committedSize in *; destruct c; cbn in N; lia).
    subst p. cbv beta in *. destruct (Z.ltb_spec 0 n); [|lia].
    assert (J : forall t, blen t = n - 1 -> conf_new c ([zb v] ++ t) = Ok ([zb v] ++ t)).
    { intros t Lt. apply conf_new_size. right. rewrite blen_app. change (blen [zb v]) with 1. destruct N; [left|right]; lia. }
    unfold pbind in T. destruct (ser_read (n - 1) s) as [[t r]|e] eqn:Y.
    - apply ser_read_inv in Y; [|lia]. unfold pret in T. rewrite J in T; [discriminate|apply Y].
    - injection T as ->. apply read_cut in Y; [|lia].
      destruct (fills_read (n - 1) s ltac:(lia) ltac:(lia)) as (q & t & X & Lt).
      exists q, ([zb v] ++ t). split; [|exact I]. unfold pbind, pret. rewrite X. rewrite (J _ Lt). reflexivity. }
  destruct (v =? 0).
  { unfold pbind, pret. cbn. discriminate. }
  destruct (v =? 1); [apply K; auto|].
  destruct (_ || _); [apply K; auto|].
  discriminate.
Qed.
Lemma opens_conf c : opens any (deser_conf c).
Proof. exists [x00], []. split; [destruct c; reflexivity|exact I]. Qed.
Lemma ends_outpoint : ends any deser_outpoint.
Proof.
  assert (J : forall h n, blen h = 32 -> 0 <= n < 256 ^ Z.of_nat 4 -> exists o, outpoint_new h n = Ok o).
  { intros h n Lh Ln. change (256 ^ Z.of_nat 4) with 4294967296 in Ln. unfold outpoint_new. rewrite Lh. cbn [negb Z.eqb Pos.eqb].
    destruct (Z.leb_spec 0 n); [|lia]. destruct (Z.leb_spec n 0xffffffff); [|lia]. eexists. reflexivity. }
  assert (O : forall h n, blen h = 32 -> 0 <= n < 256 ^ Z.of_nat 4 ->
            opens (@any outpoint) (fun s => match outpoint_new h n with Ok o => Ok (o, s) | Raise e => Raise e end)).
  { intros h n Lh Ln. destruct (J h n Lh Ln) as (o & ->). exists [], o. split; [reflexivity|exact I]. }
  apply ends_bind; [apply local_ser_read; lia| |].
  - eapply ends_imp; [apply ends_read; lia|]. intros h Lh. apply opens_bind; [apply local_read_le|].
    eapply opens_imp; [apply opens_le; unfold MAX_SIZE; cbn; lia|]. intros n Ln. apply O; assumption.
  - intros s h r Hh. apply ser_read_inv in Hh; [|lia].
    apply ends_bind; [apply local_read_le| |].
    + eapply ends_imp; [apply ends_le|]. intros n Ln. apply O; [apply Hh|exact Ln].
    + intros s2 n r2 Hn t T. apply read_le_range in Hn. destruct (J h n (proj1 (proj2 Hh)) Hn) as (o & E). rewrite E in T. discriminate.
Qed.
Lemma opens_issuance : opens any deser_issuance.
Proof.
  apply opens_bind; [apply local_ser_read; lia|]. eapply opens_imp; [apply (opens_read 32); unfold MAX_SIZE; lia|]. intros n _.
  apply opens_bind; [apply local_ser_read; lia|]. eapply opens_imp; [apply (opens_read 32); unfold MAX_SIZE; lia|]. intros e _.
  apply opens_bind; [apply local_deser_conf|]. eapply opens_imp; [apply opens_conf|]. intros a _.
  apply opens_bind; [apply local_deser_conf|]. eapply opens_imp; [apply opens_conf|]. intros k _. apply opens_pret. exact I.
Qed.
Lemma ends_issuance : ends any deser_issuance.
Proof.
  assert (K2 : forall n e a, opens any (do! k := deser_conf CConfValue in pret (mkIssuance n e a k))).
  { intros. apply opens_bind; [apply local_deser_conf|]. eapply opens_imp; [apply opens_conf|]. intros k _. apply opens_pret. exact I. }
  assert (K1 : forall n e, opens any (do! a := deser_conf CConfValue in do! k := deser_conf CConfValue in pret (mkIssuance n e a k))).
  { intros. apply opens_bind; [apply local_deser_conf|]. eapply opens_imp; [apply opens_conf|]. intros a _. apply K2. }
  assert (K0 : forall n, opens any (do! e := deser_uint256 in do! a := deser_conf CConfValue in do! k := deser_conf CConfValue in pret (mkIssuance n e a k))).
  { intros. apply opens_bind; [apply local_ser_read; lia|]. eapply opens_imp; [apply (opens_read 32); unfold MAX_SIZE; lia|]. intros e _. apply K1. }
  apply ends_bind; [apply local_ser_read; lia|eapply ends_imp; [apply (ends_read 32); lia|intros; apply K0]|]. intros _ n _ _.
  apply ends_bind; [apply local_ser_read; lia|eapply ends_imp; [apply (ends_read 32); lia|intros; apply K1]|]. intros _ e _ _.
  apply ends_bind; [apply local_deser_conf|eapply ends_imp; [apply ends_conf|intros; apply K2]|]. intros _ a _ _.
  apply ends_bind; [apply local_deser_conf|eapply ends_imp; [apply ends_conf|intros; apply opens_pret; exact I]|]. intros. apply ends_pret.
Qed.

(** ** Inputs and outputs *)
Lemma local_mask o : local (fun s : bytes =>
  match outpoint_new (op_hash o) (Z.land (op_n o) OUTPOINT_INDEX_MASK) with
  | Ok x => Ok ((negb (Z.land (op_n o) OUTPOINT_ISSUANCE_FLAG =? 0), negb (Z.land (op_n o) OUTPOINT_PEGIN_FLAG =? 0), x), s)
  | Raise e => Raise e end).
Proof. destruct (outpoint_new _ _) as [x|e]; [apply local_pret|apply local_pfail]. Qed.

Definition hpp_of (bprev : outpoint) : parser (bool * bool * outpoint) :=
  if op_n bprev =? 0xffffffff then pret (false, false, bprev)
  else fun s => match outpoint_new (op_hash bprev) (Z.land (op_n bprev) OUTPOINT_INDEX_MASK) with
                | Ok o => Ok ((negb (Z.land (op_n bprev) OUTPOINT_ISSUANCE_FLAG =? 0),
                               negb (Z.land (op_n bprev) OUTPOINT_PEGIN_FLAG =? 0), o), s)
                | Raise e => Raise e end.
Lemma local_hpp o : local (hpp_of o).
Proof. unfold hpp_of. destruct (_ =? _); [apply local_pret|apply local_mask]. Qed.
Definition good_op (o : outpoint) : Prop := blen (op_hash o) = 32 /\ 0 <= op_n o.
Lemma outpoint_good s o r : deser_outpoint s = Ok (o, r) -> good_op o.
Proof.
  unfold deser_outpoint, pbind. destruct (ser_read 32 s) as [[h r1]|] eqn:Eh; [|discriminate].
  destruct (read_le 4 r1) as [[n r2]|] eqn:En; [|discriminate]. unfold outpoint_new.
  apply ser_read_inv in Eh; [|lia]. apply read_le_range in En.
  destruct (negb _); [discriminate|]. destruct (_ && _); [|discriminate]. intros [= <- _]. split; [apply Eh|cbn; lia].
Qed.
Lemma hpp_total o s : good_op o -> exists x, hpp_of o s = Ok (x, s).
Proof.
  intros (Wh & Wn). unfold hpp_of. destruct (_ =? _); [eexists; reflexivity|].
  unfold outpoint_new. rewrite Wh. cbn [negb Z.eqb Pos.eqb].
  assert (B : 0 <= Z.land (op_n o) OUTPOINT_INDEX_MASK <= 0xffffffff).
  { split; [apply Z.land_nonneg; auto|].
    change OUTPOINT_INDEX_MASK with (Z.ones 30). rewrite Z.land_ones by lia.
    pose proof (Z.mod_pos_bound (op_n o) (2 ^ 30) ltac:(lia)). change (2 ^ 30) with 1073741824 in *. lia. }
  destruct (Z.leb_spec 0 (Z.land (op_n o) OUTPOINT_INDEX_MASK)); [|lia].
  destruct (Z.leb_spec (Z.land (op_n o) OUTPOINT_INDEX_MASK) 0xffffffff); [|lia]. eexists. reflexivity.
Qed.
Definition rest_of (bsig : bytes) (bseq : Z) (hpp : bool * bool * outpoint) : parser txin :=
  let '(has_asset_issuance, peg, po) := hpp in
  do! iss := (if has_asset_issuance then deser_issuance else pret issuance_default) in
  pret (mkTxIn po bsig bseq iss peg).
Lemma txin_eq : deser_txin = (do! bprev := deser_outpoint in do! bsig := deser_bytes in do! bseq := read_le 4 in
  do! hpp := hpp_of bprev in rest_of bsig bseq hpp).
Proof. reflexivity. Qed.
Lemma opens_rest sg sq h : opens any (rest_of sg sq h).
Proof.
  destruct h as [[[|] peg] po]; cbn [rest_of].
  - apply opens_bind; [apply local_deser_issuance|]. eapply opens_imp; [apply opens_issuance|]. intros; apply opens_pret; exact I.
  - apply opens_bind; [apply local_pret|]. apply opens_pret, opens_pret. exact I.
Qed.
Lemma ends_rest sg sq h : ends any (rest_of sg sq h).
Proof.
  destruct h as [[[|] peg] po]; cbn [rest_of].
  - apply ends_bind; [apply local_deser_issuance| |intros; apply ends_pret].
    eapply ends_imp; [apply ends_issuance|]. intros; apply opens_pret; exact I.
  - intros s T. discriminate.
Qed.
Lemma opens_hpp o sg sq : good_op o -> opens any (do! hpp := hpp_of o in rest_of sg sq hpp).
Proof.
  intros G. destruct (hpp_total o [] G) as (x & E). apply opens_bind; [apply local_hpp|].
  exists [], x. split; [exact E|apply opens_rest].
Qed.
Lemma ends_txin : ends any deser_txin.
Proof.
  rewrite txin_eq.
  assert (K2 : forall o sg, good_op o -> opens any (do! bseq := read_le 4 in do! hpp := hpp_of o in rest_of sg bseq hpp)).
  { intros o sg G. apply opens_bind; [apply local_read_le|]. eapply opens_imp; [apply opens_le; unfold MAX_SIZE; cbn; lia|].
    intros sq _. apply opens_hpp, G. }
  assert (K1 : forall o, good_op o -> opens any (do! bsig := deser_bytes in do! bseq := read_le 4 in do! hpp := hpp_of o in rest_of bsig bseq hpp)).
  { intros o G. apply opens_bind; [apply local_deser_bytes|]. eapply opens_imp; [apply opens_bytes|]. intros sg _. apply K2, G. }
  apply ends_bind; [apply local_deser_outpoint| |].
  - intros s T. destruct (ends_outpoint s T) as [(q & o & X & _)|D]; [left|right; exact D].
    exists q, o. split; [exact X|]. apply K1, (outpoint_good _ _ _ X).
  - intros s o r Ho. apply outpoint_good in Ho.
    apply ends_bind; [apply local_deser_bytes|eapply ends_imp; [apply ends_bytes|]; intros sg _; apply K2, Ho|]. intros _ sg _ _.
    apply ends_bind; [apply local_read_le|eapply ends_imp; [apply ends_le|]; intros sq _; apply opens_hpp, Ho|]. intros _ sq _ _.
    apply ends_bind; [apply local_hpp| |intros; apply ends_rest].
    intros s2 T. destruct (hpp_total o s2 Ho) as (x & E). rewrite E in T. discriminate.
Qed.
Lemma opens_txin : opens any deser_txin.
Proof.
  rewrite txin_eq. apply opens_bind; [apply local_deser_outpoint|].
  exists (zeros 36), (mkOutPoint (zeros 32) 0). split; [reflexivity|].
  apply opens_bind; [apply local_deser_bytes|]. eapply opens_imp; [apply opens_bytes|]. intros sg _.
  apply opens_bind; [apply local_read_le|]. eapply opens_imp; [apply opens_le; unfold MAX_SIZE; cbn; lia|]. intros sq _.
  apply opens_hpp. split; [reflexivity|cbn; lia].
Qed.
Lemma opens_txout : opens any deser_txout.
Proof.
  do 3 (apply opens_bind; [apply local_deser_conf|]; eapply opens_imp; [apply opens_conf|]; intros ? _).
  apply opens_bind; [apply local_deser_bytes|]. eapply opens_imp; [apply opens_bytes|]. intros; apply opens_pret; exact I.
Qed.
Lemma ends_txout : ends any deser_txout.
Proof.
  assert (K3 : forall a v n, opens any (do! s := deser_bytes in pret (mkTxOut v s a n))).
  { intros. apply opens_bind; [apply local_deser_bytes|]. eapply opens_imp; [apply opens_bytes|]. intros; apply opens_pret; exact I. }
  assert (K2 : forall a v, opens any (do! n := deser_conf CConfNonce in do! s := deser_bytes in pret (mkTxOut v s a n))).
  { intros. apply opens_bind; [apply local_deser_conf|]. eapply opens_imp; [apply opens_conf|]. intros; apply K3. }
  assert (K1 : forall a, opens any (do! v := deser_conf CConfValue in do! n := deser_conf CConfNonce in do! s := deser_bytes in pret (mkTxOut v s a n))).
  { intros. apply opens_bind; [apply local_deser_conf|]. eapply opens_imp; [apply opens_conf|]. intros; apply K2. }
  apply ends_bind; [apply local_deser_conf|eapply ends_imp; [apply ends_conf|]; intros; apply K1|]. intros _ a _ _.
  apply ends_bind; [apply local_deser_conf|eapply ends_imp; [apply ends_conf|]; intros; apply K2|]. intros _ v _ _.
  apply ends_bind; [apply local_deser_conf|eapply ends_imp; [apply ends_conf|]; intros; apply K3|]. intros _ n _ _.
  apply ends_bind; [apply local_deser_bytes|eapply ends_imp; [apply ends_bytes|]; intros; apply opens_pret; exact I|]. intros. apply ends_pret.
Qed.

(** ** Witnesses: an input witness that is cut off can be completed so that it is not null *)
Definition iw_full (w : inwit) : Prop := inwit_is_null w = false.
Definition ow_full (w : outwit) : Prop := outwit_is_null w = false.
Lemma iw_full_pegin sw a b pw : pw <> [] -> iw_full (mkInWit sw a b pw).
Proof. unfold iw_full, inwit_is_null. cbn. destruct pw; [congruence|]. intros _. rewrite !andb_false_r. reflexivity. Qed.
Lemma ends_inwit : ends iw_full deser_inwit.
Proof.
  assert (K3 : forall a b sw, opens iw_full (do! pw := deser_scriptwitness in pret (mkInWit sw a b pw))).
  { intros. apply opens_bind; [apply local_stack|]. eapply opens_imp; [apply opens_stack1|]. intros pw N. apply opens_pret, iw_full_pegin, N. }
  assert (K2 : forall a b, opens iw_full (do! sw := deser_scriptwitness in do! pw := deser_scriptwitness in pret (mkInWit sw a b pw))).
  { intros. apply opens_bind; [apply local_stack|]. eapply opens_imp; [apply opens_stack|]. intros; apply K3. }
  assert (K1 : forall a, opens iw_full (do! b := deser_bytes in do! sw := deser_scriptwitness in do! pw := deser_scriptwitness in pret (mkInWit sw a b pw))).
  { intros. apply opens_bind; [apply local_deser_bytes|]. eapply opens_imp; [apply opens_bytes|]. intros; apply K2. }
  apply ends_bind; [apply local_deser_bytes|eapply ends_imp; [apply ends_bytes|]; intros; apply K1|]. intros _ a _ _.
  apply ends_bind; [apply local_deser_bytes|eapply ends_imp; [apply ends_bytes|]; intros; apply K2|]. intros _ b _ _.
  apply ends_bind; [apply local_stack|eapply ends_imp; [apply ends_stack|]; intros; apply K3|]. intros _ sw _ _.
  apply ends_bind; [apply local_stack|eapply ends_imp; [apply ends_stack|]; intros pw N; apply opens_pret, iw_full_pegin, N|].
  intros. apply ends_pret.
Qed.
Lemma opens_inwit : opens iw_full deser_inwit.
Proof. exists [x00; x00; x00; x01; x00], (mkInWit [] [] [] [[]]). split; reflexivity. Qed.
Lemma opens_outwit : opens ow_full deser_outwit.
Proof. exists [x00; x01; x00], (mkOutWit [] [x00]). split; reflexivity. Qed.

(** completed so that it is not null, or rejected, or completed as null only *)
Definition only_null {A} (null : A -> bool) (p : parser A) (s : bytes) : Prop :=
  (exists q a, p (s ++ q) = Ok (a, []))
  /\ exists k, (k <= 8)%nat /\ forall q, (k <= length q)%nat ->
       (exists e, p (s ++ q) = Raise e /\ rejected e) \/ exists a r, p (s ++ q) = Ok (a, r) /\ null a = true.
Lemma outwit_cut s : deser_outwit s = Raise ETruncation ->
  fills ow_full deser_outwit s \/ doomed deser_outwit s \/ only_null outwit_is_null deser_outwit s.
Proof.
  unfold deser_outwit. intros T. unfold pbind at 1 in T. destruct (deser_bytes s) as [[sj r]|e] eqn:X.
  - unfold pbind in T. destruct (deser_bytes r) as [[rg r2]|e] eqn:Y; [discriminate|]. injection T as ->.
    destruct (bytes_cut r Y) as [(q & b & Z & N)|[D|((q & Z) & k & Lk & F)]].
    + left. eapply fills_in; [apply local_deser_bytes|exact X|].
      exists q, (mkOutWit sj b). unfold pbind. rewrite Z. split; [reflexivity|].
      unfold ow_full, outwit_is_null. cbn. apply Z.eqb_neq in N. rewrite N. apply andb_false_r.
    + right; left. eapply doomed_in; [apply local_deser_bytes|exact X|]. apply doomed_bind, D.
    + destruct (Z.eq_dec (blen sj) 0) as [Z0|NZ].
      * right; right. split.
        { exists q, (mkOutWit sj []). unfold pbind. rewrite (local_ext _ _ _ _ q local_deser_bytes X), Z. reflexivity. }
        exists k. split; [exact Lk|]. intros q' Lq'. unfold pbind. rewrite (local_ext _ _ _ _ q' local_deser_bytes X).
        destruct (F q' Lq') as [->|(r' & ->)].
        { left. exists ESerialization. split; [reflexivity|left; reflexivity]. }
        right. exists (mkOutWit sj []), r'. split; [reflexivity|]. unfold outwit_is_null. cbn. rewrite Z0. reflexivity.
      * left. eapply fills_in; [apply local_deser_bytes|exact X|].
        exists q, (mkOutWit sj []). unfold pbind. rewrite Z. split; [reflexivity|].
        unfold ow_full, outwit_is_null. cbn. apply Z.eqb_neq in NZ. rewrite NZ. reflexivity.
  - injection T as ->. destruct (ends_bytes s X) as [F|D].
    + left. apply fills_bind; [apply local_deser_bytes|]. destruct F as (q & b & Y & _). exists q, b. split; [exact Y|].
      apply opens_bind; [apply local_deser_bytes|]. eapply opens_imp; [apply opens_bytes|]. intros rg N. apply opens_pret.
      unfold ow_full, outwit_is_null. cbn. apply Z.eqb_neq in N. rewrite N. apply andb_false_r.
    + right; left. apply doomed_bind, D.
Qed.
Lemma ends_outwit : ends any deser_outwit.
Proof.
  intros s T. destruct (outwit_cut s T) as [(q & a & X & _)|[D|((q & a & X) & _)]];
    [left; exists q, a; split; [exact X|exact I]|right; exact D|left; exists q, a; split; [exact X|exact I]].
Qed.

Definition some_full {A} (null : A -> bool) (l : list A) : Prop := forallb null l = false.
Lemma nat_full {A} (null : A -> bool) (p : parser A) n :
  local p -> opens (fun a => null a = false) p -> ends (fun a => null a = false) p ->
  ends (some_full null) (prep_nat p n).
Proof.
  intros L O E. induction n as [|n IH]; cbn [prep_nat]; [apply ends_pret|].
  apply ends_bind; [exact L| |].
  - eapply ends_imp; [exact E|]. intros a Na. apply opens_bind; [apply local_prep_nat, L|].
    eapply opens_imp; [apply opens_nat; [exact L|eapply opens_any, O]|]. intros l _. apply opens_pret.
    unfold some_full. cbn [forallb]. rewrite Na. reflexivity.
  - intros _ a _ _. apply ends_bind; [apply local_prep_nat, L| |intros; apply ends_pret].
    eapply ends_imp; [exact IH|]. intros l Nl. apply opens_pret. unfold some_full in *. cbn [forallb]. rewrite Nl. apply andb_false_r.
Qed.
Lemma nat_cut {A} (null : A -> bool) (p : parser A) n :
  local p -> opens (fun a => null a = false) p ->
  (forall s, p s = Raise ETruncation -> fills (fun a => null a = false) p s \/ doomed p s \/ only_null null p s) ->
  forall s, prep_nat p n s = Raise ETruncation ->
  fills (some_full null) (prep_nat p n) s \/ doomed (prep_nat p n) s \/ only_null (forallb null) (prep_nat p n) s.
Proof.
  intros L O C. induction n as [|n IH]; intros s T; cbn [prep_nat] in *; [discriminate|].
  unfold pbind at 1 in T. destruct (p s) as [[a r]|e] eqn:X.
  - assert (T' : prep_nat p n r = Raise ETruncation) by (unfold pbind in T; destruct (prep_nat p n r) as [[? ?]|]; [discriminate|congruence]).
    clear T. destruct (IH r T') as [(q & l & Y & N)|[D|((q & l & Y) & k & Lk & F)]].
    + left. eapply fills_in; [exact L|exact X|]. exists q, (a :: l). unfold pbind. rewrite Y. split; [reflexivity|].
      unfold some_full in *. cbn [forallb]. rewrite N. apply andb_false_r.
    + right; left. eapply doomed_in; [exact L|exact X|]. apply doomed_bind, D.
    + destruct (null a) eqn:Na.
      * right; right. split.
        { exists q, (a :: l). unfold pbind. rewrite (local_ext _ _ _ _ q L X), Y. reflexivity. }
        exists k. split; [exact Lk|]. intros q' Lq'. unfold pbind. rewrite (local_ext _ _ _ _ q' L X).
        destruct (F q' Lq') as [(e & -> & R)|(l' & r' & -> & N)]; [left; exists e; auto|].
        right. exists (a :: l'), r'. split; [reflexivity|]. cbn [forallb]. rewrite Na. exact N.
      * left. eapply fills_in; [exact L|exact X|]. exists q, (a :: l). unfold pbind. rewrite Y. split; [reflexivity|].
        unfold some_full. cbn [forallb]. rewrite Na. reflexivity.
  - injection T as ->. destruct (C s X) as [F|[D|((q & a & Y) & k & Lk & F)]].
    + left. apply fills_bind; [exact L|]. destruct F as (q & a & Y & Na). exists q, a. split; [exact Y|].
      apply opens_bind; [apply local_prep_nat, L|]. eapply opens_imp; [apply opens_nat; [exact L|eapply opens_any, O]|].
      intros l _. apply opens_pret. unfold some_full. cbn [forallb]. rewrite Na. reflexivity.
    + right; left. apply doomed_bind, D.
    + destruct n as [|n].
      * right; right. split; [exists q, [a]; unfold pbind; rewrite Y; reflexivity|].
        exists k. split; [exact Lk|]. intros q' Lq'. unfold pbind.
        destruct (F q' Lq') as [(e & -> & R)|(a' & r' & -> & N)]; [left; exists e; auto|].
        right. exists [a'], r'. split; [reflexivity|]. cbn [forallb]. rewrite N. reflexivity.
      * left. apply fills_bind; [exact L|]. exists q, a. split; [exact Y|].
        apply opens_bind; [apply local_prep_nat, L|]. cbn [prep_nat]. apply opens_bind; [exact L|].
        eapply opens_imp; [exact O|]. intros a' Na'. apply opens_bind; [apply local_prep_nat, L|].
        eapply opens_imp; [apply opens_nat; [exact L|eapply opens_any, O]|]. intros l _.
        apply opens_pret, opens_pret. unfold some_full. cbn [forallb]. cbv beta in Na'. rewrite Na'. apply andb_false_r.
Qed.

(** ** Transactions *)
Definition fin (vi : list txin) (vo : list txout) (lt ver : Z) : parser tx :=
  do! w := deser_txwit (length vi) (length vo) in
  if txwit_is_null w then pfail EValue else pret (mkTx vi vo lt ver w).
Lemma opens_txwit a b : (0 < a + b)%nat -> opens (fun w => txwit_is_null w = false) (deser_txwit a b).
Proof.
  intros P. unfold deser_txwit.
  assert (F : forall {A} (null : A -> bool) (p : parser A) n, local p -> opens (fun x => null x = false) p ->
            opens (some_full null) (prep_nat p (S n))).
  { intros A null p n L O. cbn [prep_nat]. apply opens_bind; [exact L|]. eapply opens_imp; [exact O|]. intros x Nx.
    apply opens_bind; [apply local_prep_nat, L|]. eapply opens_imp; [apply opens_nat; [exact L|eapply opens_any, O]|].
    intros l _. apply opens_pret. unfold some_full. cbn [forallb]. cbv beta in Nx. rewrite Nx. reflexivity. }
  apply opens_bind; [apply local_prep_nat, local_deser_inwit|].
  destruct a as [|a].
  - destruct b as [|b]; [lia|]. exists [], []. split; [reflexivity|].
    apply opens_bind; [apply local_prep_nat, local_deser_outwit|].
    eapply opens_imp; [apply F; [apply local_deser_outwit|apply opens_outwit]|]. intros l N. apply opens_pret. exact N.
  - eapply opens_imp; [apply F; [apply local_deser_inwit|apply opens_inwit]|]. intros l N.
    apply opens_bind; [apply local_prep_nat, local_deser_outwit|].
    eapply opens_imp; [apply opens_nat; [apply local_deser_outwit|eapply opens_any, opens_outwit]|]. intros lo _.
    apply opens_pret. unfold txwit_is_null. cbn. unfold some_full in N. rewrite N. reflexivity.
Qed.
Lemma opens_fin vi vo lt ver : (0 < length vi + length vo)%nat -> opens any (fin vi vo lt ver).
Proof.
  intros P. apply opens_bind; [apply local_deser_txwit|]. eapply opens_imp; [apply opens_txwit, P|].
  intros w N. cbv beta in N. rewrite N. apply opens_pret. exact I.
Qed.
Lemma ends_fin vi vo lt ver : ends any (fin vi vo lt ver).
Proof.
  intros s T. unfold fin, deser_txwit in *.
  set (pi := prep_nat deser_inwit (length vi)) in *. set (po := prep_nat deser_outwit (length vo)) in *.
  assert (Li : local pi) by apply local_prep_nat, local_deser_inwit.
  assert (Lo : local po) by apply local_prep_nat, local_deser_outwit.
  unfold pbind in T. destruct (pi s) as [[wi r]|e] eqn:X.
  - assert (T' : po r = Raise ETruncation).
    { destruct (po r) as [[wo r']|e] eqn:Y; [|congruence]. cbn [pret] in T. unfold pret in T. destruct (txwit_is_null _); discriminate. }
    clear T. destruct (forallb inwit_is_null wi) eqn:Ni.
    + destruct (nat_cut outwit_is_null deser_outwit (length vo) local_deser_outwit opens_outwit outwit_cut r T')
        as [(q & wo & Y & N)|[D|(_ & k & Lk & F)]].
      * left. exists q, (mkTx vi vo lt ver (mkTxWit wi wo)). split; [|exact I]. unfold pbind.
        rewrite (local_ext _ _ _ _ q Li X). fold po in Y. rewrite Y. unfold pret at 1, txwit_is_null. cbn [vtxinwit vtxoutwit].
        unfold some_full in N. rewrite N, andb_false_r. reflexivity.
      * right. apply doomed_bind. eapply doomed_in; [exact Li|exact X|]. apply doomed_bind, D.
      * right. exists k. split; [exact Lk|]. intros q Lq. unfold pbind. rewrite (local_ext _ _ _ _ q Li X).
        destruct (F q Lq) as [(e & Y & R)|(wo & r' & Y & N)]; fold po in Y; rewrite Y; [exists e; auto|].
        exists EValue. split; [|right; reflexivity]. unfold pret at 1, txwit_is_null. cbn [vtxinwit vtxoutwit]. rewrite Ni, N. reflexivity.
    + destruct (ends_nat deser_outwit (length vo) local_deser_outwit (opens_any _ _ opens_outwit) ends_outwit r T')
        as [(q & wo & Y & _)|D].
      * left. exists q, (mkTx vi vo lt ver (mkTxWit wi wo)). split; [|exact I]. unfold pbind.
        rewrite (local_ext _ _ _ _ q Li X). fold po in Y. rewrite Y. unfold pret at 1, txwit_is_null. cbn [vtxinwit vtxoutwit].
        rewrite Ni. reflexivity.
      * right. apply doomed_bind. eapply doomed_in; [exact Li|exact X|]. apply doomed_bind, D.
  - injection T as ->.
    destruct (nat_full inwit_is_null deser_inwit (length vi) local_deser_inwit opens_inwit ends_inwit s X) as [F|D].
    + left. apply fills_bind; [apply (local_deser_txwit (length vi) (length vo))|].
      apply fills_bind; [exact Li|]. destruct F as (q & wi & Y & N). exists q, wi. split; [exact Y|].
      apply opens_bind; [exact Lo|]. eapply opens_imp; [apply opens_nat; [apply local_deser_outwit|eapply opens_any, opens_outwit]|].
      intros wo _. apply opens_pret. unfold txwit_is_null. cbn [vtxinwit vtxoutwit]. unfold some_full in N. rewrite N. apply opens_pret. exact I.
    + right. apply doomed_bind, doomed_bind, D.
Qed.
Lemma opens_vin : opens (fun l => l <> []) (deser_vector deser_txin).
Proof.
  destruct opens_txin as (q & i & X & _). exists (x01 :: q), [i]. split; [|discriminate].
  assert (V : deser_varint (x01 :: q) = Ok (1, q)) by (unfold deser_varint, pbind; rewrite ser_read_1; reflexivity).
  unfold deser_vector, pbind. rewrite V. cbn [prep prep_pos]. unfold pbind. rewrite X. reflexivity.
Qed.
Lemma opens_vout : opens (fun l => l <> []) (deser_vector deser_txout).
Proof. exists [x01; x00; x00; x00; x00], [mkTxOut [] [] [] []]. split; [reflexivity|discriminate]. Qed.
Lemma ends_vin : ends (fun l => l <> []) (deser_vector deser_txin).
Proof. apply ends_vector; [apply local_deser_txin|apply opens_txin|apply ends_txin]. Qed.
Lemma ends_vout : ends (fun l => l <> []) (deser_vector deser_txout).
Proof. apply ends_vector; [apply local_deser_txout|apply opens_txout|apply ends_txout]. Qed.
Lemma nonempty_len {A} (l : list A) : l <> [] -> (0 < length l)%nat.
Proof. destruct l; [congruence|cbn; lia]. Qed.

Lemma ends_tx dw : ends any (deser_tx dw).
Proof.
  assert (V1 : local (deser_vector deser_txin)) by apply local_deser_vector, local_deser_txin.
  assert (V2 : local (deser_vector deser_txout)) by apply local_deser_vector, local_deser_txout.
  assert (M4 : Z.of_nat 4 <= MAX_SIZE) by (unfold MAX_SIZE; cbn; lia).
  (* flagged *)
  set (F3 := fun ver vi vo => do! lt := read_le 4 in fin vi vo lt ver).
  set (F2 := fun ver vi => do! vo := deser_vector deser_txout in F3 ver vi vo).
  set (F1 := fun ver => do! vi := deser_vector deser_txin in F2 ver vi).
  (* not flagged *)
  set (G3 := fun ver vi vo => do! lt := read_le 4 in pret (mkTx vi vo lt ver (dw vi vo))).
  set (G2 := fun ver vi => do! vo := deser_vector deser_txout in G3 ver vi vo).
  set (G1 := fun ver => do! vi := deser_vector deser_txin in G2 ver vi).
  assert (OF3 : forall ver vi vo, (0 < length vi + length vo)%nat -> opens any (F3 ver vi vo)).
  { intros ver vi vo P. apply opens_bind; [apply local_read_le|]. eapply opens_imp; [apply opens_le, M4|]. intros lt _. apply opens_fin, P. }
  assert (OF2 : forall ver vi, opens any (F2 ver vi)).
  { intros ver vi. apply opens_bind; [exact V2|]. eapply opens_imp; [apply opens_vout|]. intros vo N. apply OF3.
    apply nonempty_len in N. lia. }
  assert (OF1 : forall ver, opens any (F1 ver)).
  { intros ver. apply opens_bind; [exact V1|]. eapply opens_imp; [apply opens_vin|]. intros; apply OF2. }
  assert (OG3 : forall ver vi vo, opens any (G3 ver vi vo)).
  { intros. apply opens_bind; [apply local_read_le|]. eapply opens_imp; [apply opens_le, M4|]. intros lt _. apply opens_pret. exact I. }
  assert (OG2 : forall ver vi, opens any (G2 ver vi)).
  { intros. apply opens_bind; [exact V2|]. eapply opens_imp; [apply opens_vout|]. intros; apply OG3. }
  assert (OG1 : forall ver, opens any (G1 ver)).
  { intros. apply opens_bind; [exact V1|]. eapply opens_imp; [apply opens_vin|]. intros; apply OG2. }
  assert (EF3 : forall ver vi vo, ends any (F3 ver vi vo)).
  { intros ver vi vo. destruct (Nat.eq_dec (length vi + length vo) 0) as [Z0|NZ].
    - intros s T. right. unfold F3 in *.
      destruct vi; [|cbn [length] in Z0; lia]. destruct vo; [|cbn [length] in Z0; lia].
      unfold pbind in T. destruct (read_le 4 s) as [[lt r]|e] eqn:X; [discriminate|]. injection T as ->.
      exists 4%nat. split; [lia|]. intros q Lq. exists EValue. split; [|right; reflexivity].
      unfold pbind. destruct (read_le 4 (s ++ q)) as [[lt r]|e] eqn:Y; [reflexivity|]. exfalso.
      unfold read_le, pbind, ser_read in Y. destruct (Z.ltb_spec MAX_SIZE (Z.of_nat 4)); [unfold MAX_SIZE in *; lia|].
      destruct (Z.ltb_spec (blen (s ++ q)) (Z.of_nat 4)) as [B|B]; [|discriminate]. rewrite blen_app in B. unfold blen in B. lia.
    - apply ends_bind; [apply local_read_le|eapply ends_imp; [apply ends_le|]; intros; apply opens_fin; lia|].
      intros. apply ends_fin. }
  assert (EF1 : forall ver, ends any (F1 ver)).
  { intros ver. apply ends_bind; [exact V1|eapply ends_imp; [apply ends_vin|]; intros; apply OF2|]. intros _ vi _ _.
    apply ends_bind; [exact V2|eapply ends_imp; [apply ends_vout|]; intros vo N; apply OF3|].
    { apply nonempty_len in N. lia. }
    intros. apply EF3. }
  assert (EG1 : forall ver, ends any (G1 ver)).
  { intros ver. apply ends_bind; [exact V1|eapply ends_imp; [apply ends_vin|]; intros; apply OG2|]. intros _ vi _ _.
    apply ends_bind; [exact V2|eapply ends_imp; [apply ends_vout|]; intros; apply OG3|]. intros _ vo _ _.
    apply ends_bind; [apply local_read_le|eapply ends_imp; [apply ends_le|]; intros; apply opens_pret; exact I|]. intros. apply ends_pret. }
  assert (E : deser_tx dw = (do! ver := read_le 4 in do! fl := read_le 1 in
            if fl =? 1 then F1 (to_signed 4 ver) else G1 (to_signed 4 ver))) by reflexivity.
  rewrite E.
  assert (OE : forall ver fl, opens any (if fl =? 1 then F1 ver else G1 ver)) by (intros ver fl; destruct (fl =? 1); auto).
  apply ends_bind; [apply local_read_le| |].
  - eapply ends_imp; [apply ends_le|]. intros ver _. apply opens_bind; [apply local_read_le|].
    eapply opens_imp; [apply opens_le; unfold MAX_SIZE; cbn; lia|]. intros fl _. apply OE.
  - intros _ ver _ _. apply ends_bind; [apply local_read_le|eapply ends_imp; [apply ends_le|]; intros; apply OE|].
    intros _ fl _ _. destruct (fl =? 1); auto.
Qed.
