(** Taking funds back: facts about claim_funds_back. *)
From Verif Require Import Base BaseFacts Serialize TxModel MiscModel IssuanceModel BlindModel UnblindModel SpendModel WalletModel SighashModel ScriptModel SpecWire
  SpecBlind SpecBalance SpecUnblind SpecMulti SpecNode SpecSpend SpecSign BlindFacts BlindBalance BlindFrame BlindComplete TxProofs TxProofs2 PropUnblind PropSpend PropSign
  ExampleModel SpecExample ExampleProofs PropExample SwapModel SpecSwap SwapProofs SwapRun ClaimModel SpecClaim.
From Coq Require Import Lia.
Local Open Scope Z_scope.

(** * The dictionary *)
Definition entry (fa : bytes) (u : utxo) : bytes * Z := (u_asset u, net fa u).
Lemma NoDup_snoc {A} (x : A) l : NoDup l -> ~ In x l -> NoDup (l ++ [x]).
Proof.
  induction l as [|y l IH]; intros ND NI; [constructor; [intros []|constructor]|]. inversion ND as [|y' l' N1 N2]; subst. cbn [app]. constructor.
  - intros I. apply in_app_or in I. destruct I as [I|[->|[]]]; [exact (N1 I)|]. apply NI. left. reflexivity.
  - apply IH; [exact N2|]. intros I. apply NI. right. exact I.
Qed.
Lemma dict_set_new k v d : ~ In k (map fst d) -> dict_set k v d = d ++ [(k, v)].
Proof.
  induction d as [|[k' v'] d IH]; intros N; [reflexivity|]. cbn [dict_set map fst In app] in *. destruct (bytes_eqb k' k) eqn:E; [apply bytes_eqb_eq in E; tauto|]. rewrite IH by tauto. reflexivity.
Qed.
Lemma dict_set_old k v d : In k (map fst d) -> length (dict_set k v d) = length d.
Proof.
  induction d as [|[k' v'] d IH]; intros N; [destruct N|]. cbn [dict_set map fst In length] in *. destruct (bytes_eqb k' k) eqn:E; [reflexivity|]. cbn [length]. rewrite IH; [reflexivity|].
  destruct N as [->|N]; [|exact N]. rewrite (proj2 (bytes_eqb_eq _ _) eq_refl) in E. discriminate E.
Qed.
Lemma dict_set_le k v d : (length (dict_set k v d) <= S (length d))%nat.
Proof. induction d as [|[k' v'] d IH]; cbn [dict_set length]; [lia|]. destruct (bytes_eqb k' k); cbn [length]; lia. Qed.
Lemma step_inv fa u us d d' : asset_amounts fa (u :: us) d = Ok d' -> asset_amounts fa us (dict_set (u_asset u) (net fa u) d) = Ok d' /\ (u_asset u = fa -> 20000 <= u_amount u).
Proof.
  cbn [asset_amounts]. unfold net, rbind, rassert. change FIXED_FEE_SATOSHI with 10000. destruct (bytes_eqb (u_asset u) fa) eqn:E.
  - destruct (Z.leb_spec 10000 (u_amount u - 10000)); [|discriminate]. intros H0. split; [exact H0|lia].
  - intros H. split; [exact H|]. intros X. rewrite X, (proj2 (bytes_eqb_eq _ _) eq_refl) in E. discriminate E.
Qed.
Lemma amounts_le fa us : forall d d', asset_amounts fa us d = Ok d' -> (length d' <= length d + length us)%nat /\ (forall u, In u us -> u_asset u = fa -> 20000 <= u_amount u).
Proof.
  induction us as [|u us IH]; intros d d' H; [apply Ok_inj in H; subst; split; [cbn; lia|intros u []]|]. apply step_inv in H. destruct H as [H1 H2]. destruct (IH _ _ H1) as [A B].
  assert (L := dict_set_le (u_asset u) (net fa u) d). split; [cbn [length]; lia|]. intros v [<-|V]; [exact H2|exact (B v V)].
Qed.
Lemma amounts_eq fa us : forall d d', asset_amounts fa us d = Ok d' -> length d' = (length d + length us)%nat -> NoDup (map fst d) ->
  d' = d ++ map (entry fa) us /\ NoDup (map fst d ++ map u_asset us).
Proof.
  induction us as [|u us IH]; intros d d' H L ND; [apply Ok_inj in H; subst; cbn [map]; rewrite !app_nil_r; auto|]. apply step_inv in H. destruct H as [H _].
  destruct (in_dec (list_eq_dec Byte.byte_eq_dec) (u_asset u) (map fst d)) as [I|NI].
  - exfalso. assert (X := dict_set_old (u_asset u) (net fa u) d I). destruct (amounts_le _ _ _ _ H) as [Y _]. cbn [length] in L. lia.
  - rewrite (dict_set_new _ _ _ NI) in H. destruct (IH _ _ H) as [A B].
    + rewrite app_length. cbn [length] in *. lia.
    + rewrite map_app. cbn [map fst]. apply NoDup_snoc; assumption.
    + rewrite map_app, <- app_assoc in B. rewrite <- app_assoc in A. split; [exact A|exact B].
Qed.
(** * Outputs *)
Lemma outputs_inv na : forall d n outs, claim_outputs na n d = Ok outs -> length outs = length d
  /\ forall k asset amount, nth_error d k = Some (asset, amount) -> exists o, nth_error outs k = Some (o, blinding_pubkey (na (n + k)%nat))
     /\ output_of amount asset (to_scriptPubKey (na (n + k)%nat)) = Ok o /\ ad_conf (na (n + k)%nat) = true.
Proof.
  induction d as [|[a v] d IH]; intros n outs H; cbn [claim_outputs] in H.
  - apply Ok_inj in H. subst outs. split; [reflexivity|]. intros [|k] ? ? E; discriminate E.
  - unfold rbind in H. destruct (output_of v a (to_scriptPubKey (na n))) as [o|e] eqn:EO; [|discriminate H]. destruct (pubkey_of (na n)) as [k|e] eqn:EK; [|discriminate H].
    destruct (claim_outputs na (S n) d) as [l|e] eqn:EL; [|discriminate H]. apply Ok_inj in H. subst outs. apply pubkey_of_Ok in EK. destruct EK as [EC ->]. destruct (IH _ _ EL) as [A B].
    split; [cbn [length]; congruence|]. intros [|k] asset amount E.
    + cbn [nth_error] in E. injection E as <- <-. rewrite Nat.add_0_r. exists o. auto.
    + replace (n + S k)%nat with (S n + k)%nat by lia. exact (B k asset amount E).
Qed.
Lemma filter_all {A} (f : A -> bool) l : length (filter f l) = length l -> filter f l = l.
Proof.
  induction l as [|x l IH]; intros L; [reflexivity|]. cbn [filter] in *. destruct (f x); [cbn [length] in L; rewrite IH by lia; reflexivity|].
  exfalso. assert (Q : (length (filter f l) <= length l)%nat) by (clear; induction l as [|y l IH]; [apply le_n|]; cbn [filter]; destruct (f y); cbn [length]; lia). cbn [length] in L. lia.
Qed.
Lemma filter_le {A} (f : A -> bool) l : (length (filter f l) <= length l)%nat.
Proof. induction l as [|x l IH]; [apply le_n|]. cbn [filter]. destruct (f x); cbn [length]; lia. Qed.
Lemma tasks_le descs (l : list bytes) gens : (length (output_tasks (plain_args descs (l ++ [[]]) gens)) <= length l)%nat
  /\ (length (output_tasks (plain_args descs (l ++ [[]]) gens)) = length l -> output_tasks (plain_args descs (l ++ [[]]) gens) = seq 0 (length l)).
Proof.
  unfold output_tasks. cbn [plain_args a_pubkeys]. rewrite app_length. cbn [length]. rewrite Nat.add_1_r, seq_S, filter_app. cbn [filter Nat.add].
  assert (EN : nth (length l) (l ++ [[]]) ([] : bytes) = []) by (rewrite app_nth2 by lia; rewrite Nat.sub_diag; reflexivity). rewrite EN, app_nil_r.
  assert (L := filter_le (fun j => match nth j (l ++ [[]]) [] with [] => false | _ => true end) (seq 0 (length l))). rewrite seq_length in L. split; [exact L|].
  intros E. apply filter_all. rewrite E, seq_length. reflexivity.
Qed.

(** * The run *)
Record ClaimRun (z : Crypto) (dw : default_wit) (ver : Z) legacy Hash160 sign (fa : bytes) (rand : nat -> bytes) (na : nat -> addr) (us : list utxo) (T : tx) (b : bytes)
    (outs : list (txout * bytes)) (f : txout) (bfs abfs : list bytes) (s : St) (t : tx) : Prop := {
  cr_ins : rmap input_of us = Ok (vin t);
  cr_dup : NoDup (map u_asset us);
  cr_enough : forall u, In u us -> u_asset u = fa -> 20000 <= u_amount u;
  cr_len : length outs = length us;
  cr_outs : forall k u, nth_error us k = Some u -> exists o, nth_error outs k = Some (o, blinding_pubkey (na k)) /\ output_of (net fa u) (u_asset u) (to_scriptPubKey (na k)) = Ok o /\ ad_conf (na k) = true;
  cr_fee : output_of 10000 fa (Ok []) = Ok f;
  cr_tx : t = mkTx (vin t) (map fst outs ++ [f]) 0 ver (dw (vin t) (map fst outs ++ [f]));
  cr_blind : blind_transaction z rand (plain_args (map descriptor us) (map snd outs ++ [[]]) []) t = (Ret (BSuccess (length us) bfs abfs), s);
  cr_tasks : output_tasks (plain_args (map descriptor us) (map snd outs ++ [[]]) []) = seq 0 (length us);
  cr_sign : sign_all z legacy Hash160 sign (s_tx s) 0 us = Ok T;
  cr_bytes : tx_serialize T = Ok b
}.
Lemma claim_inv z dw ver legacy Hash160 sign fa rand na us T b : claim_funds_back z dw ver legacy Hash160 sign fa rand na us = Sends T b ->
  exists outs f bfs abfs s t, ClaimRun z dw ver legacy Hash160 sign fa rand na us T b outs f bfs abfs s t.
Proof.
  unfold claim_funds_back. intros H. apply bindT_sends in H. destruct H as (ins & EI & H). apply bindT_sends in H. destruct H as (d & ED & H).
  apply bindT_sends in H. destruct H as (outs & EO & H). apply bindT_sends in H. destruct H as (f & EF & H). cbv zeta in H.
  set (t := mkTx ins (map fst outs ++ [f]) 0 ver (dw ins (map fst outs ++ [f]))) in *. fold (plain_args (map descriptor us) (map snd outs ++ [[]]) []) in H.
  destruct (blind_transaction z rand (plain_args (map descriptor us) (map snd outs ++ [[]]) []) t) as [[x|[n bfs abfs|e]|e] s] eqn:B; try discriminate H.
  destruct (Nat.eqb_spec n (length us)) as [->|]; [|discriminate H]. apply bindT_sends in H. destruct H as (T' & SG & H). apply bindT_sends in H. destruct H as (b' & SB & H). injection H as -> ->.
  assert (N := plain_count _ _ _ _ _ _ _ _ _ _ B). rewrite plain_tasks in N. cbn [length Nat.add] in N.
  destruct (outputs_inv _ _ _ _ EO) as [LO QO]. destruct (amounts_le _ _ _ _ ED) as [LD EN]. cbn [length Nat.add] in LD.
  destruct (tasks_le (map descriptor us) (map snd outs) []) as [LT QT]. rewrite map_length in LT, QT.
  assert (LL : length d = length us) by lia. destruct (amounts_eq _ _ _ _ ED) as [-> ND]; [cbn; lia|constructor|]. cbn [app map] in ND. cbn [app] in QO, LO, LL.
  exists outs, f, bfs, abfs, s, t. constructor.
  - exact EI.
  - exact ND.
  - exact EN.
  - lia.
  - intros k u E. assert (Q := QO k (u_asset u) (net fa u)). rewrite nth_error_map, E in Q. destruct (Q eq_refl) as (o & Q1 & Q2 & Q3). exists o. auto.
  - exact EF.
  - reflexivity.
  - exact B.
  - rewrite QT by lia. f_equal. lia.
  - exact SG.
  - exact SB.
Qed.
Lemma ins_inv us : forall ins, rmap input_of us = Ok ins -> ins = map (fun u => plain_input (outpoint_of u)) us.
Proof.
  induction us as [|u us IH]; intros ins H; cbn [rmap] in H; [apply Ok_inj in H; subst; reflexivity|]. unfold rbind in H. destruct (input_of u) as [i|e] eqn:E; [|discriminate H].
  destruct (rmap input_of us) as [l|e]; [|discriminate H]. apply Ok_inj in H. subst ins. apply input_of_Ok in E. destruct E as [-> _]. cbn [map]. rewrite (IH l eq_refl). reflexivity.
Qed.
(** amounts are conserved *)
Lemma amount_app a l1 l2 : amount_of a (l1 ++ l2) = amount_of a l1 + amount_of a l2.
Proof. unfold amount_of. rewrite filter_app, map_app. unfold zsum. rewrite fold_right_app. induction (map snd (filter (fun x => bytes_eqb (fst x) a) l1)) as [|y l IH]; cbn [fold_right]; lia. Qed.
Lemma amount_cons a k v l : amount_of a ((k, v) :: l) = (if bytes_eqb k a then v else 0) + amount_of a l.
Proof. unfold amount_of. cbn [filter fst]. destruct (bytes_eqb k a); cbn [map snd zsum fold_right]; reflexivity. Qed.
Lemma no_fee a fa us : ~ In fa (map u_asset us) -> amount_of a (map (fun u => (u_asset u, u_amount u)) us) = amount_of a (map (entry fa) us).
Proof.
  induction us as [|u us IH]; intros N; [reflexivity|]. cbn [map In] in *. unfold entry at 1. rewrite !amount_cons, IH by tauto. f_equal. unfold net.
  destruct (bytes_eqb (u_asset u) fa) eqn:E; [apply bytes_eqb_eq in E; tauto|reflexivity].
Qed.
Lemma conserved a fa us : NoDup (map u_asset us) -> In fa (map u_asset us) ->
  amount_of a (map (fun u => (u_asset u, u_amount u)) us) = amount_of a (map (entry fa) us ++ [(fa, 10000)]).
Proof.
  intros ND IN. rewrite amount_app, amount_cons. change (amount_of a []) with 0. rewrite Z.add_0_r.
  induction us as [|u us IH]; [destruct IN|]. cbn [map] in *. inversion ND as [|x l N1 N2]; subst. unfold entry at 1. rewrite !amount_cons. unfold net at 1.
  destruct (bytes_eqb (u_asset u) fa) eqn:E.
  - apply bytes_eqb_eq in E. rewrite E. rewrite (no_fee a fa us) by congruence. destruct (bytes_eqb fa a); lia.
  - rewrite (IH N2); [lia|]. destruct IN as [X|X]; [rewrite X, (proj2 (bytes_eqb_eq _ _) eq_refl) in E; discriminate E|exact X].
Qed.
