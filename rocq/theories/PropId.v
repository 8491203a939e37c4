(** The transaction id through blind(): property C100. *)
From Verif Require Import Base BaseFacts Serialize TxModel SpecWire BlindModel SpecBlind BlindProps BlindComplete BlindFrame BlindSer EqModel SpecEq PropEq ToyCrypto ToyTx PropBlind PropBlindSer.
From Coq Require Import Lia.
Local Open Scope Z_scope.

Lemma nth_error_same {A} (l l' : list A) : (forall i, nth_error l i = nth_error l' i) -> l = l'.
Proof.
  revert l'. induction l as [|x l IH]; intros [|y l'] H; [reflexivity|discriminate (H 0%nat)|discriminate (H 0%nat)|].
  assert (E := H 0%nat). injection E as ->. f_equal. apply IH. intros i. exact (H (S i)).
Qed.
Lemma wf_plain_in i : wf_txin i -> plain_in i.
Proof.
  intros [R P]. split; [exact R|]. unfold good_index, full_index. destruct P as [(A & B & C)|(A & B & C)].
  - split; [right; exact A|]. intros (D & _). rewrite A in D. discriminate D.
  - split; [left; lia|exact C].
Qed.
Lemma wf_plain t : wf_body t -> plain_body t.
Proof.
  intros (A & B & C & D & E & F). unfold plain_body. split; [exact A|]. split; [exact B|]. split; [exact C|]. split; [exact D|]. split; [|exact F].
  eapply Forall_impl; [|exact E]. exact wf_plain_in.
Qed.

Lemma same_in_eq i j : wf_txin i -> wf_txin j -> SameIn i j -> i = j.
Proof.
  destruct i as [p c q a e], j as [p' c' q' a' e']. unfold SameIn, wf_txin, txin_representable. cbn [prevout scriptSig nSequence assetIssuance is_pegin].
  intros [_ W] [_ W'] (<- & <- & <- & S).
  assert (a = a' /\ e = e') as [<- <-]; [|reflexivity]. destruct W as [(A & B & C)|(A & B & C)], W' as [(A' & B' & C')|(A' & B' & C')]; try (exfalso; clear - A A'; lia).
  - split; congruence.
  - destruct S as [S|[S1 [S2|[S2 S3]]]]; [exfalso; clear - A S; lia|auto|]. split; [|exact S1]. rewrite (B S2), (B' S3). reflexivity.
Qed.
Lemma same_body_eq t u : wf_body t -> wf_body u -> (SameBody t u <-> nVersion u = nVersion t /\ nLockTime u = nLockTime t /\ vin u = vin t /\ vout u = vout t).
Proof.
  intros (_ & _ & _ & _ & W & _) (_ & _ & _ & _ & W' & _). unfold SameBody. split.
  - intros (A & B & C & D). repeat split; try congruence. clear - W W' C. induction C as [|x y l m S C IH]; [reflexivity|].
    inversion W; inversion W'; subst. f_equal; [symmetry; apply same_in_eq; assumption|apply IH; assumption].
  - intros (A & B & C & D). repeat split; try congruence. rewrite C. clear. induction (vin t) as [|x l IH]; constructor; [|exact IH]. unfold SameIn. auto 8.
Qed.
Lemma id_eq t u : wf_body t -> wf_body u -> (exists b, txid_eq t u = Ok b)
  /\ (txid_eq t u = Ok true <-> nVersion u = nVersion t /\ nLockTime u = nLockTime t /\ vin u = vin t /\ vout u = vout t).
Proof.
  intros W W'. destruct (C95_txid_eq t u (wf_plain _ W) (wf_plain _ W')) as [A B]. split; [exact B|]. rewrite A. apply same_body_eq; assumption.
Qed.

(** Whatever blind() did, and however it ended: the id is as before exactly if all inputs and outputs are. *)
Theorem C100_any : forall z rand args t, SizesOk z -> SmallProofs z -> wf_fields t ->
  let t' := s_tx (snd (blind_transaction z rand args t)) in
  (exists b, txid_eq t t' = Ok b) /\ (txid_eq t t' = Ok true <-> vin t' = vin t /\ vout t' = vout t).
Proof.
  intros z rand args t SZ SP W t'. assert (W' : wf_fields t') by (apply blind_wf; assumption).
  assert (FR : Frame args t t') by apply blind_transaction_frame. destruct (id_eq t t' (proj1 W) (proj1 W')) as [A B]. split; [exact A|]. rewrite B.
  assert (V := fr_version _ _ _ _ _ FR). assert (L := fr_locktime _ _ _ _ _ FR). tauto.
Qed.

Section Blinded.
Variables (z : Crypto) (rand : nat -> bytes) (args : blind_args) (t : tx).
Hypothesis SZ : SizesOk z.
Lemma issuance_differs ps key bf i i' w : BlindedIssuance z args ps key bf i i' w -> i' <> i.
Proof.
  intros (u & e & asset & gen & commit & EX & _ & _ & _ & _ & _ & S & _) ->. destruct (so_comser _ SZ _ _ S) as (d & L & D). unfold ExplicitValue in EX.
  destruct EX as (q & EX & _). destruct D as [D|D]; rewrite D in EX; discriminate.
Qed.
Lemma output_differs targets pub bf abf eph seed o o' w : BlindedOutput z args targets pub bf abf eph seed o o' w -> o' <> o.
Proof.
  intros (u & asset & gen & commit & shared & minv & EX & _ & _ & _ & _ & S & _) ->. destruct (so_comser _ SZ _ _ S) as (d & L & D). unfold ExplicitValue in EX.
  destruct EX as (q & EX & _). destruct D as [D|D]; rewrite D in EX; discriminate.
Qed.
End Blinded.

(** After a strict success without stray keys the id is another one, unless there was nothing to blind or the one output to be blinded was left as it was. *)
Theorem C100_success : forall z rand args t n bfs abfs s, SizesOk z -> SmallProofs z -> wf_fields t ->
  blind_transaction z rand args t = (Ret (BSuccess n bfs abfs), s) -> a_strict args = true -> ~ stray_key args t ->
  (txid_eq t (s_tx s) = Ok false \/ txid_eq t (s_tx s) = Ok true)
  /\ (txid_eq t (s_tx s) = Ok true <->
      issuance_tasks args t = []
      /\ (output_tasks args = [] \/ exists j, output_tasks args = [j] /\ nth_error (vout (s_tx s)) j = nth_error (vout t) j)).
Proof.
  intros z rand args t n bfs abfs s SZ SP W H ST NS. destruct (C100_any z rand args t SZ SP W) as [[b A] B]. rewrite H in A, B. cbn [snd] in A, B.
  split; [rewrite A; destruct b; auto|]. rewrite B. clear A B b.
  assert (FR := blind_transaction_frame z rand args t). rewrite H in FR. cbn [snd] in FR. assert (NB := good_of_success _ _ _ _ _ _ _ _ H).
  destruct (blind_success z rand args t _ _ _ _ H) as (_ & A & B). specialize (A ST NS). destruct (B A) as (targets & _ & C). clear A B.
  assert (AB : exists done, AllBlinded z rand args t targets done (s_tx s) bfs abfs /\ (output_tasks args = done \/ exists j, output_tasks args = done ++ [j] /\ ~ In j done)).
  { destruct C as [(X & _)|(pre & j & E & X & _)]; [eauto|]. exists pre. split; [exact X|]. right. exists j. split; [exact E|].
    assert (ND := output_tasks_NoDup args). rewrite E in ND. apply NoDup_remove_2 in ND. rewrite app_nil_r in ND. exact ND. }
  clear C. destruct AB as (done & AB & D). split.
  - intros [VI VO].
    assert (TI : issuance_tasks args t = []).
    { destruct (issuance_tasks args t) as [|[i ps] l] eqn:E; [reflexivity|exfalso]. assert (Q := ab_iss _ _ _ _ _ _ _ _ _ AB 0%nat i ps). rewrite E in Q. specialize (Q eq_refl).
      destruct Q as (key & inp & inp' & _ & Q1 & Q2 & Q3). apply (issuance_differs _ _ SZ) in Q3. apply Q3. congruence. }
    assert (TD : done = []).
    { destruct done as [|j l]; [reflexivity|exfalso]. assert (Q := ab_out _ _ _ _ _ _ _ _ _ AB 0%nat j eq_refl).
      destruct Q as (bf & abf & o & o' & _ & _ & Q1 & Q2 & _ & _ & Q3). apply (output_differs _ _ SZ) in Q3. apply Q3. congruence. }
    split; [exact TI|]. subst done. destruct D as [D|(j & D & _)]; [left; exact D|right]. exists j. split; [exact D|congruence].
  - intros [TI TO].
    assert (TD : forall j, In j done -> nth_error (vout (s_tx s)) j = nth_error (vout t) j).
    { intros j J. destruct TO as [TO|(j' & TO & Q)].
      - destruct D as [D|(x & D & _)]; rewrite TO in D; [rewrite <- D in J; destruct J|destruct done; discriminate].
      - destruct D as [D|(x & D & _)]; rewrite TO in D; [rewrite <- D in J; destruct J as [<-|[]]; exact Q|]. destruct done as [|y [|]]; try discriminate. destruct J. }
    split.
    + apply nth_error_same. intros i. destruct (nth_error (vin t) i) as [a|] eqn:E.
      * destruct (nth_error (vin (s_tx s)) i) as [a'|] eqn:E'; [|exfalso; apply nth_error_None in E'; rewrite (fr_nin _ _ _ _ _ FR) in E'; apply nth_error_None in E'; congruence].
        destruct (fr_in _ _ _ _ _ FR i a a' E E') as (F1 & F2 & F3 & F4 & F5 & F6 & F7 & F8).
        assert (L : (i < length (vin t))%nat) by (apply nth_error_Some; congruence).
        assert (NT : forall ps : bool, nth i (if ps then a_token_keys args else a_asset_keys args) None = None).
        { intros ps. destruct (nth i (if ps then a_token_keys args else a_asset_keys args) None) as [k|] eqn:K; [exfalso|reflexivity].
          assert (Q := issuance_task args t i ps k L K). rewrite TI in Q. destruct Q. }
        f_equal. specialize (F7 ltac:(intros [N _]; exact (N (NT false)))). specialize (F8 ltac:(intros [N _]; exact (N (NT true)))).
        destruct a as [p c q [x y u v] e], a' as [p' c' q' [x' y' u' v'] e']. cbn in *. congruence.
      * apply nth_error_None. rewrite (fr_nin _ _ _ _ _ FR). apply nth_error_None. exact E.
    + apply nth_error_same. intros j. destruct (in_dec Nat.eq_dec j done) as [J|J]; [exact (TD j J)|].
      destruct (Nat.lt_ge_cases j (length (vout t))) as [L|L]; [exact (proj2 (proj2 (ab_rest _ _ _ _ _ _ _ _ _ AB j L J)))|].
      transitivity (@None txout); [|symmetry]; apply nth_error_None; [rewrite (fr_nout _ _ _ _ _ FR)|]; exact L.
Qed.

(** Blinding the same transaction again with another ephemeral key for an output that is blinded both times gives another id.
    (Over the real curve distinct valid keys have distinct public keys.) *)
Theorem C100_again : forall z rand rand' args t n bfs abfs s n' bfs' abfs' s' k j, SizesOk z -> SmallProofs z -> wf_fields t ->
  a_strict args = true -> ~ stray_key args t ->
  blind_transaction z rand args t = (Ret (BSuccess n bfs abfs), s) -> blind_transaction z rand' args t = (Ret (BSuccess n' bfs' abfs'), s') ->
  nth_error (output_tasks args) k = Some j ->
  nth_error (vout (s_tx s)) j <> nth_error (vout t) j -> nth_error (vout (s_tx s')) j <> nth_error (vout t) j ->
  sk_pub z (rand (length (issuance_tasks args t) + 4 * k + 2)%nat) <> sk_pub z (rand' (length (issuance_tasks args t) + 4 * k + 2)%nat) ->
  txid_eq (s_tx s) (s_tx s') = Ok false.
Proof.
  intros z rand rand' args t n bfs abfs s n' bfs' abfs' s' k j SZ SP W ST NS H H' K D D' R.
  assert (N : forall rnd m b a x, blind_transaction z rnd args t = (Ret (BSuccess m b a), x) -> nth_error (vout (s_tx x)) j <> nth_error (vout t) j ->
    wf_fields (s_tx x) /\ exists o, nth_error (vout (s_tx x)) j = Some o /\ sk_valid z (rnd (length (issuance_tasks args t) + 4 * k + 2)%nat) = true
      /\ nNonce o = sk_pub z (rnd (length (issuance_tasks args t) + 4 * k + 2)%nat)).
  { clear - SZ SP W ST NS K. intros rnd m b a x H D. split; [assert (Q := blind_wf z rnd args SZ SP t W); rewrite H in Q; exact Q|].
    assert (NB := good_of_success _ _ _ _ _ _ _ _ H). destruct (blind_success z rnd args t _ _ _ _ H) as (_ & A & B). specialize (A ST NS). destruct (B A) as (targets & _ & C). clear A B.
    assert (LJ : (j < length (vout t))%nat).
    { apply nth_error_In in K. unfold output_tasks in K. apply filter_In in K. destruct K as [K _]. apply in_seq in K.
      assert (length (a_pubkeys args) <= length (vout t))%nat by (apply Nat.nlt_ge; intros Q; apply NB; left; lia). lia. }
    assert (AB : exists done, AllBlinded z rnd args t targets done (s_tx x) b a /\ nth_error done k = Some j).
    { destruct C as [(X & _)|(pre & i & E & X & _)]; [eauto|]. exists pre. split; [exact X|]. rewrite E in K.
      destruct (Nat.lt_ge_cases k (length pre)) as [L|L]; [rewrite nth_error_app1 in K by exact L; exact K|exfalso].
      rewrite nth_error_app2 in K by exact L. destruct (k - length pre)%nat as [|[|]]; try discriminate. injection K as ->.
      assert (ND := output_tasks_NoDup args). rewrite E in ND. apply NoDup_remove_2 in ND. rewrite app_nil_r in ND.
      apply D. exact (proj2 (proj2 (ab_rest _ _ _ _ _ _ _ _ _ X j LJ ND))). }
    destruct AB as (done & AB & Kd). destruct (ab_out _ _ _ _ _ _ _ _ _ AB k j Kd) as (bf & abf & o & o' & _ & _ & _ & Q2 & _ & _ & Q3).
    exists o'. split; [exact Q2|]. destruct Q3 as (u & asset & gen & commit & shared & minv & _ & _ & _ & _ & _ & _ & Q4 & Q5 & _). auto. }
  destruct (N rand _ _ _ _ H D) as (W1 & o1 & O1 & V1 & P1). destruct (N rand' _ _ _ _ H' D') as (W2 & o2 & O2 & V2 & P2).
  destruct (id_eq _ _ (proj1 W1) (proj1 W2)) as [[[|] Q] I]; [exfalso|exact Q]. apply I in Q. destruct Q as (_ & _ & _ & Q). apply R.
  rewrite Q in O2. congruence.
Qed.

(** Six things blinded: another id; blinded again with other draws: a third one. *)
Definition again_rand (i : nat) : bytes := if (i =? 4)%nat then b32 4242 else toy_rand i.
Example C100_ex1 : SizesOk (cut toy) /\ SmallProofs (cut toy) /\ wf_fields toy_complete /\ a_strict toy_args = true /\ ~ stray_key toy_args toy_complete
  /\ sk_pub (cut toy) (toy_rand 4) <> sk_pub (cut toy) (again_rand 4)
  /\ (let r := blind_transaction (cut toy) toy_rand toy_args toy_complete in let r' := blind_transaction (cut toy) again_rand toy_args toy_complete in
      ret_is (fun r => match r with BSuccess n _ _ => (n =? 6)%nat | _ => false end) r = true
      /\ ret_is (fun r => match r with BSuccess n _ _ => (n =? 6)%nat | _ => false end) r' = true
      /\ nth_error (vout (s_tx (snd r))) 0 <> nth_error (vout toy_complete) 0 /\ nth_error (vout (s_tx (snd r'))) 0 <> nth_error (vout toy_complete) 0
      /\ txid_eq toy_complete (s_tx (snd r)) = Ok false /\ txid_eq (s_tx (snd r)) (s_tx (snd r')) = Ok false)
  /\ nth_error (output_tasks toy_args) 0 = Some 0%nat /\ length (issuance_tasks toy_args toy_complete) = 2%nat.
Proof.
  destruct C53_ex as (A & B & C & _). split; [exact A|]. split; [exact B|]. split; [exact C|]. split; [reflexivity|]. split; [exact toy_no_stray|]. split.
  - vm_compute. discriminate.
  - split; [vm_compute; repeat split; (reflexivity || discriminate)|]. split; reflexivity.
Qed.
(** Nothing to blind: a strict success, and the id is as before. *)
Example C100_ex2 : let a := mkArgs toy_descs [] [] [] [] None None true in let r := blind_transaction (cut toy) toy_rand a toy_complete in
  ret_is (fun r => match r with BSuccess n _ _ => (n =? 0)%nat | _ => false end) r = true /\ txid_eq toy_complete (s_tx (snd r)) = Ok true
  /\ issuance_tasks a toy_complete = [] /\ output_tasks a = [].
Proof. vm_compute. repeat split. Qed.
(** One output to blind, and its balancing factor is zero: reported as blinded, left as it was, and the id is as before. *)
Example C100_ex3 : let a := mkArgs [mkDesc asset_A 700 (zeros 32) (toy_rand 1); mkDesc asset_A 200 (zeros 32) (zeros 32)] [toy_pub 901] [] [] [] None None true in
  let r := blind_transaction (cut toy) toy_rand a toy_complete in
  ret_is (fun r => match r with BSuccess n _ _ => (n =? 1)%nat | _ => false end) r = true /\ txid_eq toy_complete (s_tx (snd r)) = Ok true
  /\ issuance_tasks a toy_complete = [] /\ output_tasks a = [0%nat].
Proof. vm_compute. repeat split. Qed.

Print Assumptions C100_any.
Print Assumptions C100_success.
Print Assumptions C100_again.
