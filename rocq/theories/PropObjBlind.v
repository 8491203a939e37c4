(** C80: blind() on transaction objects. *)
From Verif Require Import Base BaseFacts TxModel BlindModel BlindFacts ToyCrypto ToyTx ObjModel SpecObj ObjFacts ObjBlind ObjSim PropObj.
From Coq Require Import Lia.

(** On a transaction whose parts are mutable and different objects, blind() returns or raises what BlindModel.v computes for the
    transaction it reads as, and leaves the transaction that BlindModel.v leaves; the parts are still different objects. *)
Theorem C80_refines z rand args h a t : Reachable z rand h -> Owns h a -> view_tx h a = Ok t ->
  exists o s h', blind_transaction z rand args t = (o, s) /\ blind_obj a z rand args h 0 = (o, mkBSt h' (s_draws s)) /\ view_tx h' a = Ok (s_tx s) /\ Owns h' a.
Proof.
  intros R O V. destruct (blind_refines a z rand args h t (conj (reachable_fine _ _ _ R) O) V) as (h' & o & s & E1 & E2 & I & V'). exists o, s, h'.
  split; [exact E2|]. split; [exact E1|]. split; [exact V'|exact (proj2 I)].
Qed.
Print Assumptions C80_refines.

(** From any transaction, mutable or not and whatever it shares: tx.to_mutable() followed by blind() gives BlindModel.v's result in
    the copy and leaves every transaction that was there before as it was. *)
Theorem C80_to_mutable_blind z rand args h a : Reachable z rand h -> exists_in h (RTx a) ->
  exists t b h1 o s h2, view_tx h a = Ok t /\ to_mutable a h = Ok (b, h1) /\ blind_transaction z rand args t = (o, s) /\ blind_obj b z rand args h1 0 = (o, mkBSt h2 (s_draws s))
  /\ view_tx h2 b = Ok (s_tx s) /\ forall c, exists_in h (RTx c) -> view_tx h2 c = view_tx h c.
Proof.
  intros R X. destruct (C79_copy z rand h a R X) as (b & h1 & E & (t & V1 & V) & O & _). assert (F := reachable_fine _ _ _ R).
  assert (F1 : Fine h1). { destruct (from_tx_spec true h a F X) as (b0 & h0 & E0 & S & _). assert (h0 = h1) by (unfold to_mutable in E; congruence). subst h0. exact (step_fine _ _ S F). }
  destruct (blind_refines b z rand args h1 t (conj F1 O) V1) as (h2 & o & s & B & T & I & V2). exists t, b, h1, o, s, h2. repeat (split; [assumption|]).
  intros c Xc. assert (K := C79_blind_copy z rand h a b h1 args 0 c R E X Xc). rewrite B in K. exact K.
Qed.
Print Assumptions C80_to_mutable_blind.

(** An immutable transaction is refused with ValueError and nothing changes. *)
Theorem C80_immutable z rand args h a draws : of_class h false (RTx a) -> blind_obj a z rand args h draws = (Exc EValue, mkBSt h draws).
Proof. intros [t E]. unfold blind_obj. rewrite (proj2 (deref_ok _ _ _) E). reflexivity. Qed.
Print Assumptions C80_immutable.

(** Objects that are not parts of the blinded transaction, and bytearrays, keep their attributes, whatever is shared and however
    blind() ends. *)
Theorem C80_others z rand args h a draws x : exists_in h x -> (Part h a x -> is_array x) -> same h (b_heap (snd (blind_obj a z rand args h draws))) x.
Proof. intros E N. destruct (blind_obj_step a z rand args h draws) as (_ & K & _). exact (K x E N). Qed.
Print Assumptions C80_others.

(** * Without different objects the claim fails *)
(** A mutable transaction of one confidential input of 1000 and three outputs. [vouts] and [wits] are assigned to tx.vout and
    tx.wit.vtxoutwit; outputs 2, 3, 4 are the ones it was constructed with, output 5 is an immutable one. *)
Definition case_args (pubs : list bytes) : blind_args := mkArgs [mkDesc asset_A 1000 (b32 12345) (b32 67890)] pubs [None] [None] [] None None true.
Definition case_program (vouts wits : list nat) : list op :=
  demo_program ++ [ONewTxOut false (toy_out 490 asset_A [x51]); OSetTx 0 (mkTxObj [1%nat] vouts 0 2 1); OSetWit 1 (mkWitObj [] wits)].
Definition case_heap (vouts wits : list nat) : heap := run toy toy_rand empty_heap (case_program vouts wits).
Definition case_blind (pubs : list bytes) (vouts wits : list nat) : outcome blind_ret * res tx :=
  let '(o, s) := blind_obj 0 toy toy_rand (case_args pubs) (case_heap vouts wits) 0 in (o, view_tx (b_heap s) 0).
Definition blinded (o : txout) : bool := conf_is_commitment CConfValue (nValue o) && conf_is_commitment CConfAsset (nAsset o).
Definition succeeded (o : outcome blind_ret) (n : nat) : bool := match o with Ret (BSuccess k _ _) => (k =? n)%nat | _ => false end.

(** The transaction with different objects: all is well. *)
Lemma case_owns : Owns (case_heap [2%nat; 3%nat; 4%nat] [1%nat; 2%nat; 3%nat]) 0.
Proof.
  set (h := case_heap _ _).
  assert (Q : nth_error (h_txs h) 0 = Some (mkCell true (mkTxObj [1%nat] [2%nat; 3%nat; 4%nat] 0 2 1))) by (vm_compute; reflexivity).
  assert (W : nth_error (h_wits h) 1 = Some (mkCell true (mkWitObj [] [1%nat; 2%nat; 3%nat]))) by (vm_compute; reflexivity).
  assert (I1 : exists v, nth_error (h_ins h) 1 = Some (mkCell true v) /\ exists p, nth_error (h_ops h) (io_prevout v) = Some (mkCell true p)) by (eexists; split; [vm_compute; reflexivity|eexists; vm_compute; reflexivity]).
  assert (O2 : cell_is (h_outs h) true 2) by (eexists; vm_compute; reflexivity).
  assert (O3 : cell_is (h_outs h) true 3) by (eexists; vm_compute; reflexivity).
  assert (O4 : cell_is (h_outs h) true 4) by (eexists; vm_compute; reflexivity).
  assert (W1 : cell_is (h_ows h) true 1) by (eexists; vm_compute; reflexivity).
  assert (W2 : cell_is (h_ows h) true 2) by (eexists; vm_compute; reflexivity).
  assert (W3 : cell_is (h_ows h) true 3) by (eexists; vm_compute; reflexivity).
  clearbody h. eexists _, _. split; [exact Q|]. split; [exact W|]. cbn [to_vin to_vout wo_in wo_out].
  assert (ND : forall l : list nat, (if list_eq_dec Nat.eq_dec (nodup Nat.eq_dec l) l then true else false) = true -> NoDup l).
  { intros l H. destruct (list_eq_dec Nat.eq_dec (nodup Nat.eq_dec l) l) as [E|]; [|discriminate]. rewrite <- E. apply NoDup_nodup. }
  split; [apply ND; reflexivity|]. split; [apply ND; reflexivity|]. split; [constructor|]. split; [apply ND; reflexivity|].
  intros x P. induction P as [|m t i E J|m i c P IH E|m t i E J|m t E|m w c i P IH E J|m w c i P IH E J|m i c b P IH E B|m i c b P IH E B]; cbn [of_class].
  - eexists. exact Q.
  - rewrite Q in E. injection E as <- <-. cbn in J. destruct J as [<-|[]]. destruct I1 as (v & V & _). exists v. exact V.
  - inversion P as [|m1 t1 i1 E1 J1| | | | | | |]; subst. rewrite Q in E1. injection E1 as <- <-. cbn in J1. destruct J1 as [<-|[]]. destruct I1 as (v & V & p & K). rewrite V in E. injection E as <- <-. exists p. exact K.
  - rewrite Q in E. injection E as <- <-. cbn in J. destruct J as [<-|[<-|[<-|[]]]]; assumption.
  - rewrite Q in E. injection E as <- <-. eexists. exact W.
  - inversion P as [| | | |m1 t1 E1| | | |]; subst. rewrite Q in E1. injection E1 as <- <-. cbn [to_wit] in E. rewrite W in E. injection E as <- <-. destruct J.
  - inversion P as [| | | |m1 t1 E1| | | |]; subst. rewrite Q in E1. injection E1 as <- <-. cbn [to_wit] in E. rewrite W in E. injection E as <- <-. cbn in J. destruct J as [<-|[<-|[<-|[]]]]; assumption.
  - reflexivity.
  - reflexivity.
Qed.
Example C80_ex : Reachable toy toy_rand (case_heap [2%nat; 3%nat; 4%nat] [1%nat; 2%nat; 3%nat]) /\ Owns (case_heap [2%nat; 3%nat; 4%nat] [1%nat; 2%nat; 3%nat]) 0
  /\ match case_blind [toy_pub 901; toy_pub 902] [2%nat; 3%nat; 4%nat] [1%nat; 2%nat; 3%nat] with
     | (o, Ok t) => succeeded o 2 && match map blinded (vout t) with [true; true; false] => true | _ => false end
                    && match vtxoutwit (wit t) with [a; b; _] => negb (bytes_eqb (ow_range a) (ow_range b)) | _ => false end = true
     | _ => False
     end.
Proof. split; [eexists; reflexivity|]. split; [exact case_owns|]. vm_compute. reflexivity. Qed.

(** tx.vout = [o, o, fee] and a public key for the first output only: blind() reports success with one output blinded, and the
    second output, which nobody asked to blind, is the same commitment. *)
Theorem C80_shared_output_refuted : exists h a args h' d bfs abfs t t', Reachable toy toy_rand h /\ view_tx h a = Ok t
  /\ blind_obj a toy toy_rand args h 0 = (Ret (BSuccess 1 bfs abfs), mkBSt h' d) /\ view_tx h' a = Ok t'
  /\ length (a_pubkeys args) = 1%nat /\ nth_error (vout t') 1 <> nth_error (vout t) 1 /\ nth_error (vout t') 1 = nth_error (vout t') 0
  /\ blind_transaction toy toy_rand args t <> (Ret (BSuccess 1 bfs abfs), mkSt t' d).
Proof.
  exists (case_heap [2; 2; 4]%nat [1; 2; 3]%nat), 0%nat, (case_args [toy_pub 901]). eexists _, _, _, _, _, _. split; [eexists; reflexivity|]. split; [vm_compute; reflexivity|].
  split; [vm_compute; reflexivity|]. split; [vm_compute; reflexivity|]. split; [reflexivity|]. split; [vm_compute; discriminate|]. split; [vm_compute; reflexivity|]. vm_compute. discriminate.
Qed.
Print Assumptions C80_shared_output_refuted.

(** tx.wit.vtxoutwit = [CElementsMutableTxOutWitness()] * 3 and two public keys: blind() reports success with two outputs blinded,
    and both outputs carry the proofs of the second. *)
Theorem C80_shared_witness_refuted : exists h a args h' d bfs abfs t t' s, Reachable toy toy_rand h /\ view_tx h a = Ok t
  /\ blind_obj a toy toy_rand args h 0 = (Ret (BSuccess 2 bfs abfs), mkBSt h' d) /\ view_tx h' a = Ok t'
  /\ blind_transaction toy toy_rand args t = (Ret (BSuccess 2 bfs abfs), s) /\ vout t' = vout (s_tx s)
  /\ nth_error (vtxoutwit (wit t')) 0 = nth_error (vtxoutwit (wit (s_tx s))) 1 /\ nth_error (vtxoutwit (wit t')) 0 <> nth_error (vtxoutwit (wit (s_tx s))) 0.
Proof.
  exists (case_heap [2; 3; 4]%nat [1; 1; 1]%nat), 0%nat, (case_args [toy_pub 901; toy_pub 902]). eexists _, _, _, _, _, _, _. split; [eexists; reflexivity|]. split; [vm_compute; reflexivity|].
  split; [vm_compute; reflexivity|]. split; [vm_compute; reflexivity|]. split; [vm_compute; reflexivity|]. split; [vm_compute; reflexivity|]. split; [vm_compute; reflexivity|]. vm_compute. discriminate.
Qed.
Print Assumptions C80_shared_witness_refuted.

(** An immutable output in tx.vout: blind() raises AttributeError when it gets there, with the outputs before it already blinded. *)
Theorem C80_immutable_output_refuted : exists h a args h' d t t', Reachable toy toy_rand h /\ view_tx h a = Ok t
  /\ blind_obj a toy toy_rand args h 0 = (Exc EAttribute, mkBSt h' d) /\ view_tx h' a = Ok t'
  /\ map blinded (vout t) = [false; false; false] /\ map blinded (vout t') = [true; false; false]
  /\ exists n bfs abfs s, blind_transaction toy toy_rand args t = (Ret (BSuccess n bfs abfs), s).
Proof.
  exists (case_heap [2; 5; 4]%nat [1; 2; 3]%nat), 0%nat, (case_args [toy_pub 901; toy_pub 902]). eexists _, _, _, _. split; [eexists; reflexivity|]. split; [vm_compute; reflexivity|].
  split; [vm_compute; reflexivity|]. split; [vm_compute; reflexivity|]. split; [vm_compute; reflexivity|]. split; [vm_compute; reflexivity|]. eexists _, _, _, _. vm_compute. reflexivity.
Qed.
Print Assumptions C80_immutable_output_refuted.

(** tx.vout = [o, o, fee] and a public key for both: TypeError at the second, with the first already blinded. *)
Theorem C80_shared_twice_refuted : exists h a args h' d t t', Reachable toy toy_rand h /\ view_tx h a = Ok t
  /\ blind_obj a toy toy_rand args h 0 = (Exc EType, mkBSt h' d) /\ view_tx h' a = Ok t'
  /\ map blinded (vout t) = [false; false; false] /\ map blinded (vout t') = [true; true; false]
  /\ exists n bfs abfs s, blind_transaction toy toy_rand args t = (Ret (BSuccess n bfs abfs), s).
Proof.
  exists (case_heap [2; 2; 4]%nat [1; 2; 3]%nat), 0%nat, (case_args [toy_pub 901; toy_pub 902]). eexists _, _, _, _. split; [eexists; reflexivity|]. split; [vm_compute; reflexivity|].
  split; [vm_compute; reflexivity|]. split; [vm_compute; reflexivity|]. split; [vm_compute; reflexivity|]. split; [vm_compute; reflexivity|]. eexists _, _, _, _. vm_compute. reflexivity.
Qed.
Print Assumptions C80_shared_twice_refuted.
