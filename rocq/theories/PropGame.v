(** C93: the timing of the cross-chain swap example as a game between the program of one party and the choices of the other. *)
From Verif Require Import Base CrossTxModel GameModel SpecGame GameProofs.
Local Open Scope Z_scope.

(** How the game ends for Alice's program, for all timeouts and everything Bob may do.  Her contract is in block a + 1, where [a] is the
    tip when Bob's message comes; n blocks later than Bob's contract: *)
Theorem C93_outcome : forall TB TE hB B a n, 2 <= TE -> 1 <= TB -> First (message B) hB a -> 6 <= a - hB + 1 ->
  a + 1 + TE + 1 <= hB + Z.of_nat n ->
  let g := play TB TE hB B n in
  (exists r, First (reveals B) (a + 1) r /\ r < a + 1 + TE /\ HasAt Bob r (g_elt g)
     /\ ((exists b, First (reclaims B) (hB + TB) b /\ b <= r + 1 /\ HasAt Bob b (g_btc g))
         \/ NotBefore (reclaims B) (hB + TB) (r + 2) /\ (HasAt Alice (r + 2) (g_btc g)
               \/ HasAt Bob (r + 2) (g_btc g) /\ First (reclaims B) (hB + TB) (r + 2) /\ tie_btc B (r + 2) = true)))
  \/ (First (reveals B) (a + 1) (a + 1 + TE) /\ HasAt Bob (a + 1 + TE) (g_elt g) /\ ~ Has Alice (g_btc g) /\ g_alice g = AEnded)
  \/ (NotBefore (reveals B) (a + 1) (a + 1 + TE + 1) /\ ~ Has Alice (g_btc g)
     /\ (HasAt Alice (a + 1 + TE + 1) (g_elt g)
         \/ HasAt Bob (a + 1 + TE + 1) (g_elt g) /\ reveals B (a + 1 + TE + 1) = true /\ tie_elt B (a + 1 + TE + 1) = true)).
Proof.
  intros TB TE hB B a n T2 T1 MS OK L g. assert (C := course TB TE hB B a T2 T1 MS OK n). fold g in C.
  assert (ET : g_tip g = hB + Z.of_nat n) by apply tip_at. rewrite <- ET in L. clear ET.
  assert (NA : forall h s, BobOnly TB hB B h s -> ~ Has Alice s) by (intros h s [|b] (x & E); discriminate E).
  destruct C as [h s L1 BO|s BO|s BO N|s BO F|h s L1 BO N|r s L1 BO F|r L1 F NB|h r L1 L2 F NB|h r b L1 L2 F Fb Lb|s BO N|h s L1 BO N|h s L1 BO F];
    cbn [g_tip g_elt g_btc g_alice] in *; try lia.
  - left. exists r. split; [exact F|]. split; [exact L1|]. split; [reflexivity|]. right. split; [exact NB|]. unfold HasAt.
    destruct (reclaims B (r + 2)) eqn:R; cbn [andb]; [|left; reflexivity]. destruct (Z.leb_spec (hB + TB) (r + 2)) as [X|X]; cbn [andb]; [|left; reflexivity].
    destruct (tie_btc B (r + 2)); [right|left; reflexivity]. split; [reflexivity|]. split; [|reflexivity]. split; [exact X|]. split; [exact R|exact NB].
  - left. exists r. split; [exact F|]. split; [exact L1|]. split; [reflexivity|]. left. exists b. split; [exact Fb|]. split; [exact Lb|reflexivity].
  - right. right. split; [exact N|]. split; [exact (NA h s BO)|]. unfold HasAt.
    destruct (reveals B (a + 1 + TE + 1)); cbn [andb]; [|left; reflexivity]. destruct (tie_elt B (a + 1 + TE + 1)); [right|left; reflexivity]. auto.
  - right. left. split; [exact F|]. split; [reflexivity|]. split; [exact (NA h s BO)|reflexivity].
Qed.

(** Bob keeps to the protocol: he takes the asset in one of the ten blocks from Alice's contract on and leaves the bitcoin alone until the
    second block after.  Each has what was agreed. *)
Theorem C93_both_honest : forall hB B a r n, First (message B) hB a -> 6 <= a - hB + 1 ->
  First (reveals B) (a + 1) r -> r < a + 11 -> NotBefore (reclaims B) hB (r + 3) -> a + 12 <= hB + Z.of_nat n ->
  let g := play bitcoin_timeout elements_timeout hB B n in HasAt Bob r (g_elt g) /\ HasAt Alice (r + 2) (g_btc g).
Proof.
  intros hB B a r n MS OK F LR NB L g. unfold bitcoin_timeout, elements_timeout in g.
  assert (UF : forall x y, First (reveals B) (a + 1) x -> First (reveals B) (a + 1) y -> x = y).
  { intros x y (X1 & X2 & X3) (Y1 & Y2 & Y3). destruct (Z.lt_trichotomy x y) as [H|[H|H]]; [rewrite Y3 in X2 by lia; discriminate|exact H|rewrite X3 in Y2 by lia; discriminate]. }
  destruct (C93_outcome 15 10 hB B a n ltac:(lia) ltac:(lia) MS OK ltac:(lia)) as [(r' & F' & L' & E & X)|[(F' & _)|(N & _)]].
  - rewrite <- (UF r r' F F') in *. split; [exact E|]. destruct X as [(b & (B1 & B2 & _) & LB & _)|(_ & [H|(_ & (B1 & B2 & _) & _)])]; [|exact H|]; rewrite NB in B2 by lia; discriminate B2.
  - pose proof (UF _ _ F F'). lia.
  - destruct F as (F1 & F2 & _). rewrite N in F2 by lia. discriminate F2.
Qed.
(** Bob does not take the asset: Alice has it back. *)
Theorem C93_refund : forall hB B a n, First (message B) hB a -> 6 <= a - hB + 1 -> NotBefore (reveals B) (a + 1) (a + 13) ->
  a + 12 <= hB + Z.of_nat n -> HasAt Alice (a + 12) (g_elt (play bitcoin_timeout elements_timeout hB B n)).
Proof.
  intros hB B a n MS OK N L. unfold bitcoin_timeout, elements_timeout.
  destruct (C93_outcome 15 10 hB B a n ltac:(lia) ltac:(lia) MS OK ltac:(lia)) as [(r & (F1 & F2 & _) & L' & _)|[((_ & F2 & _) & _)|(_ & _ & [E|(_ & R & _)])]].
  - rewrite N in F2 by lia. discriminate F2.
  - rewrite N in F2 by lia. discriminate F2.
  - replace (a + 12) with (a + 1 + 10 + 1) by lia. exact E.
  - rewrite N in R by lia. discriminate R.
Qed.
(** With the contract of the asset so early that Alice's last chance comes before Bob's timeout, and if Bob does not take the asset
    just when she gives up, she never ends with neither.  The timeouts of lines 103-104 never meet the premise, as her check asks for six confirmations: with them
    it says a + 12 < hB + 15. *)
Theorem C93_safe : forall TB TE hB B a n, 2 <= TE -> 1 <= TB -> First (message B) hB a -> 6 <= a - hB + 1 ->
  a + 1 + TE + 1 < hB + TB -> reveals B (a + 1 + TE) = false -> reveals B (a + 1 + TE + 1) = false -> a + 1 + TE + 1 <= hB + Z.of_nat n ->
  let g := play TB TE hB B n in Has Alice (g_btc g) \/ Has Alice (g_elt g).
Proof.
  intros TB TE hB B a n T2 T1 MS OK S R1 R2 L g.
  destruct (C93_outcome TB TE hB B a n T2 T1 MS OK L) as [(r & F & L' & _ & [(b & (B1 & _) & LB & _)|(_ & [E|(_ & (B1 & _) & _)])])|[((_ & F2 & _) & _)|(_ & _ & [E|(_ & R & _)])]].
  - lia.
  - left. eexists. exact E.
  - lia.
  - rewrite R1 in F2. discriminate F2.
  - right. eexists. exact E.
  - rewrite R2 in R. discriminate R.
Qed.
(** Alice's program never takes both. *)
Theorem C93_alice_not_both : forall TB TE hB B a n, 2 <= TE -> 1 <= TB -> First (message B) hB a -> 6 <= a - hB + 1 ->
  let g := play TB TE hB B n in ~ (Has Alice (g_btc g) /\ Has Alice (g_elt g)).
Proof.
  intros TB TE hB B a n T2 T1 MS OK g. assert (C := course TB TE hB B a T2 T1 MS OK n). fold g in C.
  intros ((x & E1) & (y & E2)). destruct C as [h s L1 BO|s BO|s BO N|s BO F|h s L1 BO N|r s L1 BO F|r L1 F NB|h r L1 L2 F NB|h r b L1 L2 F Fb Lb|s BO N|h s L1 BO N|h s L1 BO F];
    cbn [g_btc g_elt] in *; try discriminate. destruct BO; discriminate E1.
Qed.

(** She sends her contract only on a message at six confirmations; until then she has nothing of either. *)
Theorem C93_alice_sends : forall TB TE hB B n, let g := play TB TE hB B n in
  match g_home g with
  | Some e => exists a, First (message B) hB a /\ 6 <= a - hB + 1 /\ e = a + 1
  | None => g_elt g = None /\ ~ Has Alice (g_btc g)
  end.
Proof.
  intros TB TE hB B n g. assert (S := sane TB TE hB B n). fold g in S. unfold Sane in S. destruct (g_home g); [exact S|]. destruct S as (E & NA & _). auto.
Qed.

(** "Alice's timeout is less than Bob's, so Bob cannot take back his bitcoin and claim the asset after that" (lines 91-96) is false for
    every moment at which her check passes: Bob waits for his timeout, takes the bitcoin back and the asset after, within her ten blocks
    and without any race. *)
Theorem C93_timeouts_refuted : forall hB a, 6 <= a - hB + 1 ->
  exists B r b, First (message B) hB a /\ First (reveals B) (a + 1) r /\ r < a + 1 + elements_timeout
    /\ First (reclaims B) (hB + bitcoin_timeout) b /\ b <= r
    /\ (forall h, tie_btc B h = false /\ tie_elt B h = false)
    /\ forall n, a + 12 <= hB + Z.of_nat n -> let g := play bitcoin_timeout elements_timeout hB B n in HasAt Bob b (g_btc g) /\ HasAt Bob r (g_elt g).
Proof.
  intros hB a OK. unfold bitcoin_timeout, elements_timeout.
  set (B := mkBob (fun h => h =? a) (fun h => h =? a + 10) (fun h => h =? hB + 15) (fun _ => false) (fun _ => false)).
  assert (MS : First (message B) hB a) by (split; [lia|]; split; [apply Z.eqb_refl|]; intros x X; apply Z.eqb_neq; lia).
  assert (FR : First (reveals B) (a + 1) (a + 10)) by (split; [lia|]; split; [apply Z.eqb_refl|]; intros x X; apply Z.eqb_neq; lia).
  assert (FB : First (reclaims B) (hB + 15) (hB + 15)) by (split; [lia|]; split; [apply Z.eqb_refl|]; intros x X; lia).
  exists B, (a + 10), (hB + 15). split; [exact MS|]. split; [exact FR|]. split; [lia|]. split; [exact FB|]. split; [lia|]. split; [auto|].
  intros n L.
  assert (UF : forall P lo x y, First P lo x -> First P lo y -> x = y).
  { intros P lo x y (X1 & X2 & X3) (Y1 & Y2 & Y3). destruct (Z.lt_trichotomy x y) as [H|[H|H]]; [rewrite Y3 in X2 by lia; discriminate|exact H|rewrite X3 in Y2 by lia; discriminate]. }
  destruct (C93_outcome 15 10 hB B a n ltac:(lia) ltac:(lia) MS OK ltac:(lia)) as [(r' & F' & L' & E & X)|[(F' & _)|(N & _)]].
  - rewrite <- (UF _ _ _ _ FR F') in *. split; [|exact E]. destruct X as [(b & FB' & LB & H)|(N & _)].
    + rewrite <- (UF _ _ _ _ FB FB') in *. exact H.
    + destruct FB as (_ & B2 & _). rewrite N in B2 by lia. discriminate B2.
  - pose proof (UF _ _ _ _ FR F'). lia.
  - destruct FR as (_ & F2 & _). rewrite N in F2 by lia. discriminate F2.
Qed.
(** No other timeouts would do: Bob takes the asset in the very block with which she gives up; she does not look at that block, and has no
    second wish.  The key is public and the bitcoin free until Bob's timeout, but her program has ended. *)
Theorem C93_any_timeouts_refuted : forall TB TE hB a, 2 <= TE -> 1 <= TB -> 6 <= a - hB + 1 ->
  exists B, First (message B) hB a /\ (forall h, tie_btc B h = false /\ tie_elt B h = false)
    /\ exists N, forall n, (N <= n)%nat -> let g := play TB TE hB B n in Has Bob (g_btc g) /\ HasAt Bob (a + 1 + TE) (g_elt g).
Proof.
  intros TB TE hB a T2 T1 OK.
  set (B := mkBob (fun h => h =? a) (fun h => h =? a + 1 + TE) (fun h => hB + TB <=? h) (fun _ => false) (fun _ => false)).
  assert (MS : First (message B) hB a) by (split; [lia|]; split; [apply Z.eqb_refl|]; intros x X; apply Z.eqb_neq; lia).
  exists B. split; [exact MS|]. split; [auto|]. exists (Z.to_nat (Z.max (a + 1 + TE + 1) (hB + TB) - hB)). intros n L g.
  assert (C := course TB TE hB B a T2 T1 MS OK n). fold g in C. assert (ET : g_tip g = hB + Z.of_nat n) by apply tip_at.
  assert (L1 : a + 1 + TE + 1 <= g_tip g /\ hB + TB <= g_tip g) by lia. clear ET L.
  assert (RV : reveals B (a + 1 + TE) = true) by apply Z.eqb_refl.
  assert (RF : forall x, x <> a + 1 + TE -> reveals B x = false) by (intros x X; apply Z.eqb_neq; exact X).
  destruct C as [h s L BO|s BO|s BO N|s BO F|h s L BO N|r s L BO F|r L F NB|h r L L2 F NB|h r b L L2 F Fb Lb|s BO N|h s L BO N|h s L BO F];
    cbn [g_tip g_elt g_btc] in *; try lia.
  - destruct F as (_ & F & _). rewrite RF in F by lia. discriminate F.
  - destruct F as (_ & F & _). rewrite RF in F by lia. discriminate F.
  - rewrite N in RV by lia. discriminate RV.
  - split; [|reflexivity]. destruct BO as [NB|b]; [|eexists; reflexivity].
    assert (X : reclaims B (hB + TB) = true) by (cbn; apply Z.leb_refl). rewrite NB in X by lia. discriminate X.
Qed.
(** Nor does she look whether the bitcoin is still there. *)
Theorem C93_spent_already_refuted : forall hB a, bitcoin_timeout <= a - hB ->
  exists B, First (message B) hB a /\ let g := play bitcoin_timeout elements_timeout hB B (Z.to_nat (a - hB)) in
    g_tip g = a /\ Has Bob (g_btc g) /\ g_alice g = ASent.
Proof.
  intros hB a D. unfold bitcoin_timeout, elements_timeout in *.
  set (B := mkBob (fun h => h =? a) (fun _ => false) (fun h => hB + 15 <=? h) (fun _ => false) (fun _ => false)).
  assert (MS : First (message B) hB a) by (split; [lia|]; split; [apply Z.eqb_refl|]; intros x X; apply Z.eqb_neq; lia).
  exists B. split; [exact MS|]. set (g := play 15 10 hB B (Z.to_nat (a - hB))). assert (C := course 15 10 hB B a ltac:(lia) ltac:(lia) MS ltac:(lia) (Z.to_nat (a - hB))). fold g in C.
  assert (ET : g_tip g = hB + Z.of_nat (Z.to_nat (a - hB))) by apply tip_at. split; [lia|].
  destruct C as [h s L BO|s BO|s BO N|s BO F|h s L BO N|r s L BO F|r L F NB|h r L L2 F NB|h r b L L2 F Fb Lb|s BO N|h s L BO N|h s L BO F];
    cbn [g_tip g_btc g_alice] in *; try lia; try (destruct F as (F & _); lia).
  split; [|reflexivity]. destruct BO as [NB|b]; [|eexists; reflexivity].
  assert (X : reclaims B (hB + 15) = true) by (cbn; apply Z.leb_refl). rewrite NB in X by lia. discriminate X.
Qed.

(** * Bob's program against any Alice *)
(** If she tells him of her contract while its timeout is more than one block away, he has the asset. *)
Theorem C93_bob_gets : forall TB TE patience hB hE start A t n, First (tells A) start t -> t < start + patience -> hE + 1 <= t ->
  t + 1 < hE + TE -> t + 1 <= start + Z.of_nat n -> HasAt Bob (t + 1) (b_elt (play_b TB TE patience hB hE A start n)).
Proof.
  intros TB TE patience hB hE start A t n TL PT CF S L. assert (TL' := TL). destruct TL' as (T0 & _).
  assert (NT : forall h, h <= t -> takes_back A h && (hE + TE <=? h) = false) by (intros h H; destruct (Z.leb_spec (hE + TE) h); [lia|apply andb_false_r]).
  destruct (told_next TB TE patience hB hE start A t TL PT CF NT (Z.to_nat (t + 1 - start)) ltac:(lia)) as (E & _).
  destruct (Z.leb_spec (hE + TE) (t + 1)) as [X|_]; [lia|]. rewrite andb_false_r in E. cbn [mine] in E.
  exact (elt_keeps _ _ _ _ _ _ _ (Z.to_nat (t + 1 - start)) n _ ltac:(lia) E).
Qed.
(** ... and leaves the bitcoin to her: it is hers from the first block for which she has a transaction. *)
Theorem C93_bob_leaves : forall TB TE patience hB hE start A t n, First (tells A) start t -> t < start + patience -> hE + 1 <= t ->
  t + 1 < hE + TE -> t + 1 <= start + Z.of_nat n ->
  let g := play_b TB TE patience hB hE A start n in
  (forall c, First (claims A) (t + 1) c -> c <= start + Z.of_nat n -> HasAt Alice c (b_btc g))
  /\ (NotBefore (claims A) (t + 1) (start + Z.of_nat n + 1) -> b_btc g = None).
Proof.
  intros TB TE patience hB hE start A t n TL PT CF S L g. assert (M := leaves TB TE patience hB hE start A t TL PT CF S n L).
  assert (T := tip_b TB TE patience hB hE start A n). fold g in M, T. destruct M as [h p LH P N|h p c LH P F LC]; cbn [b_tip b_btc] in *.
  - split; [|reflexivity]. intros c (C1 & C2 & _) LC. rewrite N in C2 by lia. discriminate C2.
  - split.
    + intros c' (C1 & C2 & C3) LC'. unfold HasAt. do 2 f_equal. destruct F as (F1 & F2 & F3).
      destruct (Z.lt_trichotomy c c') as [H|[H|H]]; [rewrite C3 in F2 by lia; discriminate|exact H|rewrite F3 in C2 by lia; discriminate].
    + intros N. destruct F as (F1 & F2 & _). rewrite N in F2 by lia. discriminate F2.
Qed.
(** If she does not tell him in time, or of a contract with less than two confirmations, or when the asset is gone, at tip [q], he has his
    bitcoin back one block after his timeout has come, and the key was never shown. *)
Theorem C93_bob_refund : forall TB TE patience hB hE start A q n, start <= q <= start + patience -> NotBefore (tells A) start q ->
  (tells A q = false /\ q = start + patience
   \/ tells A q = true /\ (q < hE + 1 \/ exists x, start < x <= q /\ takes_back A x = true /\ hE + TE <= x)) ->
  let g := play_b TB TE patience hB hE A start n in
  b_known g = false /\ (Z.max q (hB + TB - 1) + 1 <= start + Z.of_nat n -> HasAt Bob (Z.max q (hB + TB - 1) + 1) (b_btc g)).
Proof.
  intros TB TE patience hB hE start A q n Q0 NO GU g. assert (U := untold TB TE patience hB hE start A q Q0 NO GU n).
  assert (T := tip_b TB TE patience hB hE start A n). fold g in U, T. fold (sending TB hB q).
  destruct U as [h s L1 _|h s L1|s|h s L1]; cbn [b_tip b_btc b_known] in *; (split; [reflexivity|]); unfold sending in *; try lia. reflexivity.
Qed.
(** Alice has the bitcoin only if she told Bob, in time, of a contract with two confirmations, and only in a later block. *)
Theorem C93_bob_key_first : forall TB TE patience hB hE start A n h, HasAt Alice h (b_btc (play_b TB TE patience hB hE A start n)) ->
  exists t, First (tells A) start t /\ hE + 1 <= t /\ t < h /\ t <= Z.max start (start + patience).
Proof.
  intros TB TE patience hB hE start A n h E. destruct (key_first TB TE patience hB hE start A n) as (_ & _ & K).
  destruct (K h E) as (k & L & t & F & A1 & A2 & A3). exists t. split; [exact F|]. split; [exact A1|]. split; [lia|exact A3].
Qed.
(** "Each has what was agreed or gets back its own" is false for Bob, too: the confirmations of Alice's contract have no upper limit, so she
    can tell him when her timeout has come; if her transactions are mined first she has both. *)
Theorem C93_bob_robbed_refuted : forall patience hB hE start t, start <= t < start + patience -> hE + elements_timeout <= t + 1 ->
  exists A, First (tells A) start t /\ forall n, t + 1 <= start + Z.of_nat n ->
    let g := play_b bitcoin_timeout elements_timeout patience hB hE A start n in HasAt Alice (t + 1) (b_elt g) /\ HasAt Alice (t + 1) (b_btc g).
Proof.
  intros patience hB hE start t PT S. unfold bitcoin_timeout, elements_timeout in *.
  set (A := mkAlice (fun h => h =? t) (fun h => h =? t + 1) (fun h => h =? t + 1) (fun _ => false) (fun _ => false)).
  assert (TL : First (tells A) start t) by (split; [lia|]; split; [apply Z.eqb_refl|]; intros x X; apply Z.eqb_neq; lia).
  exists A. split; [exact TL|]. intros n L.
  assert (NT : forall h, h <= t -> takes_back A h && (hE + 10 <=? h) = false).
  { intros h H. cbn [A takes_back]. destruct (Z.eqb_spec h (t + 1)); [lia|reflexivity]. }
  destruct (told_next 15 10 patience hB hE start A t TL ltac:(lia) ltac:(lia) NT (Z.to_nat (t + 1 - start)) ltac:(lia)) as (E1 & E2).
  cbn [A takes_back claims atie_elt atie_btc] in E1, E2. rewrite Z.eqb_refl in E1, E2. destruct (Z.leb_spec (hE + 10) (t + 1)) as [_|X]; [|lia]. cbn [mine andb] in E1, E2.
  split; [exact (elt_keeps _ _ _ _ _ _ _ (Z.to_nat (t + 1 - start)) n _ ltac:(lia) E1)|exact (btc_keeps _ _ _ _ _ _ _ (Z.to_nat (t + 1 - start)) n _ ltac:(lia) E2)].
Qed.

(** * Runs: Bob's contract in block 100, his message with six confirmations (tip 105), Alice's contract in block 106 *)
Definition at_ (l : list Z) (h : Z) : bool := existsb (Z.eqb h) l.
Definition ex_bob (reveal reclaim : list Z) : bob := mkBob (at_ [105]) (at_ reveal) (at_ reclaim) (fun _ => true) (fun _ => true).
Definition ex_end (reveal reclaim : list Z) : spent * spent := let g := play bitcoin_timeout elements_timeout 100 (ex_bob reveal reclaim) 30 in (g_btc g, g_elt g).
Lemma ex_first : First (message (ex_bob [] [])) 100 105.
Proof. split; [lia|]. split; [reflexivity|]. intros x X. cbn. destruct (Z.eqb_spec x 105); [lia|reflexivity]. Qed.
Example C93_ex :
  ex_end [109] [] = (Some (111, Alice), Some (109, Bob))                  (* as agreed *)
  /\ ex_end [115] [] = (Some (117, Alice), Some (115, Bob))               (* the last block she looks at *)
  /\ ex_end [115] [115] = (Some (115, Bob), Some (115, Bob))              (* robbed *)
  /\ ex_end [115] [117] = (Some (117, Bob), Some (115, Bob))              (* robbed after a race *)
  /\ ex_end [116] [120] = (Some (120, Bob), Some (116, Bob))              (* the block she does not look at *)
  /\ ex_end [116] [] = (None, Some (116, Bob))                            (* the bitcoin lies there *)
  /\ ex_end [] [115] = (Some (115, Bob), Some (117, Alice))               (* each has its own *)
  /\ ex_end [118] [115] = (Some (115, Bob), Some (117, Alice)).
Proof. vm_compute. repeat split. Qed.
Example C93_ex_safe : let B := ex_bob [110] [140] in reveals B (105 + 1 + 10) = false /\ reveals B (105 + 1 + 10 + 1) = false
  /\ 105 + 1 + 10 + 1 < 100 + 40 /\ First (message B) 100 105 /\ g_btc (play 40 10 100 B 50) = Some (112, Alice).
Proof. split; [reflexivity|]. split; [reflexivity|]. split; [lia|]. split; [exact ex_first|vm_compute; reflexivity]. Qed.
Example C93_ex_declines : g_home (play 15 10 100 (mkBob (at_ [104; 105]) (at_ []) (at_ []) (fun _ => true) (fun _ => true)) 30) = None
  /\ g_home (play 15 10 100 (ex_bob [] []) 30) = Some 106.
Proof. vm_compute. auto. Qed.
Definition ex_alice (tell take claim : list Z) : alice := mkAlice (at_ tell) (at_ take) (at_ claim) (fun _ => false) (fun _ => false).
Definition ex_end_b (tell take claim : list Z) : spent * spent :=
  let g := play_b bitcoin_timeout elements_timeout 30 100 106 (ex_alice tell take claim) 105 60 in (b_btc g, b_elt g).
Example C93_ex_bob :
  ex_end_b [107] [] [109] = (Some (109, Alice), Some (108, Bob))
  /\ ex_end_b [114] [115] [117] = (Some (117, Alice), Some (115, Bob))    (* the last tip that is safe for Bob *)
  /\ ex_end_b [115] [116] [116] = (Some (116, Alice), Some (116, Alice))  (* robbed *)
  /\ ex_end_b [] [120] [120] = (Some (136, Bob), Some (120, Alice))
  /\ ex_end_b [118] [117] [120] = (Some (119, Bob), Some (117, Alice))    (* the asset is gone *)
  /\ ex_end_b [106] [120] [120] = (Some (115, Bob), Some (120, Alice)).   (* too few confirmations *)
Proof. vm_compute. repeat split. Qed.

Print Assumptions C93_outcome.
Print Assumptions C93_both_honest.
Print Assumptions C93_refund.
Print Assumptions C93_safe.
Print Assumptions C93_alice_not_both.
Print Assumptions C93_alice_sends.
Print Assumptions C93_timeouts_refuted.
Print Assumptions C93_any_timeouts_refuted.
Print Assumptions C93_spent_already_refuted.
Print Assumptions C93_bob_gets.
Print Assumptions C93_bob_leaves.
Print Assumptions C93_bob_refund.
Print Assumptions C93_bob_key_first.
Print Assumptions C93_bob_robbed_refuted.
