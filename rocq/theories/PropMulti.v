(** Blinding by several parties in turn: property C66. *)
From Verif Require Import Base BaseFacts TxModel BlindModel SpecBlind SpecBalance BlindBalance BlindTargets BlindFails BlindComplete BlindProps SpecMulti MultiProofs ToyCrypto ToyTx PropBlind.
From Coq Require Import Lia Permutation.
Local Open Scope Z_scope.

(** C66. Any number of parties, each knowing the factors of its own inputs only: after the last one the commitments
    balance, if the amounts of the transaction they started from do. *)
Theorem C66_parties_balance : forall z order (G : PointGroup order) (M : Meaning z G) calls t t' real ids extra,
  SizesOk z -> BlindSumLaw z order -> Blindings z calls t t' ->
  (forall o, In o (vout t) -> exists u a, ExplicitValue (nValue o) u /\ ExplicitAsset (nAsset o) a) ->
  described_once calls real -> Forall2 (IssuedId z t) (all_issuances calls t) ids -> AllAmountsBalance calls real t ids extra ->
  peq G (psum (map (spent_point M) real ++ map (issuance_point M t') (all_issuances calls t) ++ map (explicit_point M) extra))
        (psum (map (out_point M) (vout t'))).
Proof. intros. eapply parties_balance; eassumption. Qed.

(** Once an issuance is confidential, blind() refuses (or raises) and leaves the transaction as it is. *)
Theorem C66_issuance_blinded_refused : forall z rand args t i ps inp o s,
  nth_error (vin t) i = Some inp -> conf_is_commitment CConfValue (iss_field ps inp) = true ->
  blind_transaction z rand args t = (o, s) -> s = mkSt t 0 /\ forall n bfs abfs, o <> Ret (BSuccess n bfs abfs).
Proof.
  intros z rand args t i ps inp o s EI EC. unfold blind_transaction. rewrite body_split.
  destruct (blind_looks z args (blind_acts z rand args) (mkSt t 0)) as [o1 s1] eqn:E. intros H.
  apply looks_cases in E. destruct E as [(tags & gens & blinders & L & _ & ET & _)|[E1 E2]].
  - exfalso. apply targets_Val in ET. destruct ET as (_ & C & _). destruct (C i inp EI) as [C1 C2]. unfold iss_field in EC. destruct ps; congruence.
  - destruct o1 as [r|r|e]; [destruct E2| |]; (split; [congruence|]); intros n bfs abfs X.
    + destruct E2 as [f E2]. congruence.
    + congruence.
Qed.
(** So in a successful sequence only the last party blinds issuances. *)
Theorem C66_issuer_last : forall z order args rest t t', SizesOk z -> BlindSumLaw z order ->
  Blindings z (args :: rest) t t' -> issuance_tasks args t <> [] -> rest = [].
Proof.
  intros z order args rest t t' SO LAW BL NE. inversion BL as [|a r rand n bfs abfs s x y H ST NS NO NZ BR]; subst.
  destruct rest as [|args2 rest]; [reflexivity|]. exfalso. inversion BR as [|a2 r2 rand2 n2 bfs2 abfs2 s2 x2 y2 H2 _ _ _ _ _]; subst.
  destruct (call_complete _ _ _ _ _ _ _ LAW H ST NS NO NZ) as (targets & (AB & _) & _ & _ & _).
  destruct (issuance_tasks args t) as [|[i ps] l] eqn:ET; [congruence|].
  destruct (ab_iss _ _ _ _ _ _ _ _ _ AB 0 i ps) as (key & inp & inp' & _ & _ & EI & BI); [rewrite ET; reflexivity|].
  destruct BI as (u & e & asset & gen & commit & _ & _ & _ & _ & _ & _ & ES & _).
  assert (C : conf_is_commitment CConfValue (iss_field ps inp') = true).
  { destruct (so_comser z SO _ _ ES) as (d & LD & [-> | ->]); unfold conf_is_commitment; rewrite blen_cons, LD; reflexivity. }
  destruct (C66_issuance_blinded_refused z rand2 args2 (s_tx s) i ps inp' _ _ EI C H2) as [_ X]. exact (X _ _ _ eq_refl).
Qed.

(** Two parties over the toy library: the first spends 1000 A, the second 200 A and issues. *)
Definition real2 : list input_desc := [mkDesc asset_A 1000 (b32 12345) (b32 67890); mkDesc asset_A 200 (b32 222) (b32 333)].
Definition unknown : input_desc := mkDesc (zeros 32) 0 (zeros 32) (zeros 32).
Definition gens2 : list bytes := map (fun d => x0a :: b32 (be_val (d_asset d) + be_val (d_abf d))) real2.
Definition party1 : blind_args := mkArgs [mkDesc asset_A 1000 (b32 12345) (b32 67890); unknown] [toy_pub 901] [] [] gens2 None None true.
Definition party2 : blind_args := mkArgs [unknown; mkDesc asset_A 200 (b32 222) (b32 333)]
  [[]; toy_pub 902; toy_pub 903; toy_pub 904] [None; Some (b32 5001)] [None; Some (b32 5002)] gens2 None None true.
Definition after1 : tx := s_tx (snd (blind_transaction toy toy_rand party1 toy_tx)).
Definition after2 : tx := s_tx (snd (blind_transaction toy toy_rand party2 after1)).
Definition done (n : nat) (js : list nat) (x : outcome blind_ret * St) : bool :=
  ret_is (fun r => match r with BSuccess m bfs _ => (m =? n)%nat && forallb (fun j => negb (bytes_eqb (nth j bfs []) (zeros 32))) js | _ => false end) x.
Lemma done_call n args t x : x = blind_transaction toy toy_rand args t -> done n (output_tasks args) x = true -> a_strict args = true -> ~ stray_key args t ->
  output_tasks args <> [] -> forall rest t', Blindings toy rest (s_tx (snd x)) t' -> Blindings toy (args :: rest) t t'.
Proof.
  intros EX H ST NS NO rest t' BL. unfold done, ret_is in H. destruct x as [[a|[m bfs abfs|f]|e] s]; cbn [fst snd] in *; try discriminate H.
  apply andb_prop in H. destruct H as [_ H]. eapply BL_cons; [symmetry; exact EX|exact ST|exact NS|exact NO| |exact BL].
  intros j IN E. apply (proj1 (forallb_forall _ _) H) in IN. rewrite (nth_bytes _ _ _ E) in IN. rewrite (proj2 (bytes_eqb_eq _ _) eq_refl) in IN. discriminate IN.
Qed.
Lemma after1_eq : after1 = s_tx (snd (blind_transaction toy toy_rand party1 toy_tx)). Proof. unfold after1. reflexivity. Qed.
Lemma after2_eq : after2 = s_tx (snd (blind_transaction toy toy_rand party2 after1)). Proof. unfold after2. reflexivity. Qed.
Lemma parties2 : Blindings toy [party1; party2] toy_tx after2.
Proof.
  apply (done_call 1 party1 toy_tx _ eq_refl); [vm_compute; reflexivity|reflexivity| |discriminate|].
  { intros (i & ps & inp & IN & _). exact IN. }
  rewrite <- after1_eq. apply (done_call 5 party2 after1 _ eq_refl); [vm_compute; reflexivity|reflexivity| |discriminate|].
  - intros (i & ps & inp & IN & EI & X & _). assert (ET : issuance_tasks party2 after1 = [(1%nat, false); (1%nat, true)]) by (vm_compute; reflexivity). rewrite ET in IN. clear ET.
    assert (E : exists inp1, nth_error (vin after1) 1 = Some inp1 /\ assetIssuance inp1 = assetIssuance toy_in1) by (eexists; split; vm_compute; reflexivity).
    destruct E as (inp1 & E1 & E2). destruct IN as [IN|[IN|[]]]; assert (i = 1%nat) by congruence; subst i; assert (inp = inp1) by congruence; subst inp; rewrite E2 in X; discriminate X.
  - rewrite <- after2_eq. apply BL_nil.
Qed.
Example C66_ex : Blindings toy [party1; party2] toy_tx after2 /\ described_once [party1; party2] real2
  /\ Forall2 (IssuedId toy toy_tx) (all_issuances [party1; party2] toy_tx) [asset_I; asset_T]
  /\ AllAmountsBalance [party1; party2] real2 toy_tx [asset_I; asset_T] []
  /\ length (issuance_tasks party2 after1) = 2%nat.
Proof.
  split; [exact parties2|]. split; [apply Permutation_refl|]. split; [exact toy_ids|]. split; [|vm_compute; reflexivity].
  intros a. change (all_issuances [party1; party2] toy_tx) with [(1%nat, false); (1%nat, true)].
  unfold amount_of. cbn [real2 map combine app d_asset d_amount issued_amount fst snd vout toy_tx toy_out nAsset nValue tl filter].
  destruct (bytes_eqb asset_A a), (bytes_eqb asset_I a), (bytes_eqb asset_T a); vm_compute; reflexivity.
Qed.

Print Assumptions C66_parties_balance.
Print Assumptions C66_issuance_blinded_refused.
Print Assumptions C66_issuer_last.
