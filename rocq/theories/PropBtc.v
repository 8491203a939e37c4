(** C96: the cross-chain swap on the side of Bitcoin: the transactions that spend the contract. *)
From Verif Require Import Base BaseFacts Serialize TxModel SpecWire TxProofs ScriptModel CrossModel SpecCross CrossProofs CrossTxModel WaitModel BtcModel SpecBtc PropCross BtcProofs ToyCurve.
From Coq Require Import Lia.
Local Open Scope Z_scope.

Lemma small_520 b : blen b <= 520 -> small b. Proof. unfold small. lia. Qed.

(** ** The transaction *)
(** Whatever the destination: the transaction spends the output named alone and completely; what is signed is the hash of BIP 143 for the amount
    agreed; the witness is signature, choice and contract, the choice being exactly 01 or nothing. It is refused exactly if the output has no name. *)
Theorem C96_created : forall Hash ver dst txid n contract reclaim sign, small dst -> small contract -> - 2 ^ 31 <= ver < 2 ^ 31 ->
  (blen txid = 32 -> 0 <= n < 2 ^ 32 -> exists t h, create_btc_spend_tx Hash ver dst txid n contract reclaim sign = Ok t
     /\ SpendsAll txid n (if reclaim then 15 else 2 ^ 32 - 1) dst ver t /\ BtcSigned Hash contract t 101000000 h
     /\ b_wit t = [[sign h ++ [x01]; if reclaim then [] else [x01]; contract]])
  /\ (~ (blen txid = 32 /\ 0 <= n < 2 ^ 32) -> create_btc_spend_tx Hash ver dst txid n contract reclaim sign = Raise EValue).
Proof.
  intros Hash ver dst txid n contract reclaim sign SD SC RV. unfold create_btc_spend_tx, outpoint_new. split.
  - intros L R. replace (blen txid =? 32) with true by lia. cbn [negb]. replace ((0 <=? n) && (n <=? 0xffffffff)) with true by lia. cbn [rbind]. change 0xffffffff with (2 ^ 32 - 1). unfold bitcoin_timeout.
    set (t0 := mkBtx _ _ _ _ _).
    assert (SQ : 0 <= (if reclaim then 15 else 2 ^ 32 - 1) < 2 ^ 32) by (destruct reclaim; lia).
    destruct (signed_total Hash contract t0 101000000 (mkBIn (mkOutPoint txid n) [] (if reclaim then 15 else 2 ^ 32 - 1))) as [h H]; try exact SC; try lia; try reflexivity.
    { exact RV. } { cbn. lia. } { constructor; [|constructor]. cbn [bi_prev op_hash op_n bi_seq]. auto. } { constructor; [|constructor]. cbn [bo_value bo_script]. unfold agreed, fixed_fee. split; [lia|exact SD]. }
    assert (HS := proj2 (sighash_signed Hash contract t0 101000000 h ltac:(cbn; lia)) H). change agreed with 101000000. rewrite HS. cbn [rbind]. eexists _, h. split; [reflexivity|].
    split; [constructor; try reflexivity; destruct reclaim; reflexivity|]. split; [exact (signed_wit _ _ _ _ _ _ _ _ _ _ H)|]. destruct reclaim; reflexivity.
  - intros N. destruct (Z.eqb_spec (blen txid) 32) as [L|L]; [|reflexivity]. cbn [negb]. replace ((0 <=? n) && (n <=? 0xffffffff)) with false by (destruct (Z.leb_spec 0 n), (Z.leb_spec n 0xffffffff); try reflexivity; exfalso; apply N; lia). reflexivity.
Qed.
(** What is sent is the serialisation of this transaction, with its witness. *)
Lemma sent_bytes r t b : send_tx r = BSent t b -> r = Ok t /\ btx_serialize t = Ok b.
Proof. unfold send_tx, bindB. destruct r as [u|]; [|discriminate]. destruct (btx_serialize u) as [c|] eqn:E; [|discriminate]. intros H. injection H as <- <-. auto. Qed.
Lemma seq_one {A} (W : A -> bytes -> Prop) x b : W x b -> W_seq W [x] b.
Proof. intros H. rewrite <- (app_nil_r b). constructor; [exact H|constructor]. Qed.
Lemma one_vec {A} (W : A -> bytes -> Prop) x b : W x b -> W_vec W [x] (x01 :: b).
Proof. intros H. exists [x01], b. split; [apply Wv1; [cbn; lia|split; reflexivity]|]. split; [apply seq_one; exact H|reflexivity]. Qed.

Lemma created_ser ver dst txid n reclaim t stack : small dst -> - 2 ^ 31 <= ver < 2 ^ 31 -> blen txid = 32 -> 0 <= n < 2 ^ 32 -> Forall small stack -> Z.of_nat (length stack) < 2 ^ 64 ->
  SpendsAll txid n (if reclaim : bool then 15 else 2 ^ 32 - 1) dst ver t -> b_wit t = [stack] -> exists b, W_btx t b.
Proof.
  intros SD RV L R FS LS [HI HO HL HV] HW. destruct (le_sint32_ex _ RV) as [v V]. destruct (le_int_ex 4 n R) as [bn BN].
  destruct (le_int_ex 4 (if reclaim then 15 else 2 ^ 32 - 1)) as [q Q]; [change (256 ^ Z.of_nat 4) with (2 ^ 32); destruct reclaim; lia|].
  destruct (W_bytes_ex dst SD) as [s S]. destruct (le_sint64_ex 100000000) as [a A]; [lia|]. destruct (W_vec_ex W_bytes small stack W_bytes_ex FS LS) as [w W]. destruct (le_int_ex 4 0) as [l LL]; [lia|].
  assert (S0 : W_bytes [] [x00]) by (exists [x00]; split; [apply Wv1; [cbn; lia|split; reflexivity]|reflexivity]).
  eexists. exists v, (x01 :: (txid ++ bn) ++ [x00] ++ q), (x01 :: a ++ s), w, l. rewrite HI, HO, HL, HV, HW. split; [exact V|]. split.
  { apply one_vec. exists (txid ++ bn), [x00], q. cbn [bi_prev bi_script bi_seq]. split; [exists bn; auto|]. auto. }
  split; [apply one_vec; exists a, s; auto|]. split; [apply seq_one; exact W|]. split; [exact LL|reflexivity].
Qed.
Theorem C96_sent : forall Hash ver dst txid n contract reclaim sign, small dst -> small contract -> (forall h, blen (sign h) <= 500) -> - 2 ^ 31 <= ver < 2 ^ 31 -> blen txid = 32 -> 0 <= n < 2 ^ 32 ->
  exists t b, send_tx (create_btc_spend_tx Hash ver dst txid n contract reclaim sign) = BSent t b /\ create_btc_spend_tx Hash ver dst txid n contract reclaim sign = Ok t /\ W_btx t b.
Proof.
  intros Hash ver dst txid n contract reclaim sign SD SC SS RV L R. destruct (proj1 (C96_created Hash ver dst txid n contract reclaim sign SD SC RV) L R) as (t & h & E & SA & SG & W).
  destruct (created_ser ver dst txid n reclaim t [sign h ++ [x01]; if reclaim then [] else [x01]; contract] SD RV L R) as [b B]; [|cbn; lia|exact SA|exact W|].
  { constructor; [apply small_520; specialize (SS h); unfold blen in *; rewrite app_length; cbn [length]; lia|]. constructor; [destruct reclaim; unfold small, blen; cbn; lia|]. constructor; [exact SC|constructor]. }
  exists t, b. unfold send_tx. rewrite E. cbn [bindB]. rewrite (proj2 (btx_wit_iff t b ltac:(rewrite W; eexists; split; [left; reflexivity|discriminate])) B). auto.
Qed.

(** ** Who can spend the contract *)
(** A stack that ends with the contract unlocks its output exactly if it holds one signature and the choice besides, and either the choice is
    true and the signature is of the key of both, or the choice is false, the input is old enough and the signature is Bob's. *)
Theorem C96_who : forall sha chk csv buyer seller contract args, blen buyer < 76 -> blen seller < 76 -> make_btc_contract buyer seller = Ok contract ->
  Unlocks sha chk csv ([x00; x20] ++ sha contract) (args ++ [contract]) <->
  exists sig choice, args = [sig; choice] /\ blen sig <= 520 /\ blen choice <= 520 /\ (truthy choice = true /\ chk sig buyer \/ truthy choice = false /\ csv 15 /\ chk sig seller).
Proof.
  intros sha chk csv buyer seller contract args Lb Ls HM. destruct (btc_clean (fun _ _ _ => False) chk csv buyer seller contract) as (l & EO & R); [lia|lia|exact HM|].
  split.
  - intros (a & s & l' & E & _ & _ & F & EO' & RR). apply app_inj_tail in E. destruct E as [-> ->]. rewrite EO in EO'. injection EO' as <-. apply R in RR.
    destruct RR as (cond & sig & ER & C). exists sig, cond. assert (EA : a = [sig; cond]) by (rewrite <- (rev_involutive a), ER; reflexivity). subst a. split; [reflexivity|].
    inversion F as [|x1 y1 F1 F2]; subst. inversion F2; subst. auto.
  - intros (sig & choice & -> & L1 & L2 & C). exists [sig; choice], contract, l. split; [reflexivity|]. split; [reflexivity|]. split; [assert (B := btc_contract_len _ _ _ Lb Ls HM); lia|].
    split; [repeat constructor; assumption|]. split; [exact EO|]. apply R. exists choice, sig. auto.
Qed.

(** ** Alice *)
(** What she asks of Bob's transaction before she sends hers. *)
Theorem C96_looks : forall sha read conf hex contract k, let s := [x00; x20] ++ sha contract in let r := alice_looks sha read conf hex contract k in
  (exists c from n o, conf = Some c /\ 6 <= c /\ read hex = Ok from /\ FirstLocked (b_vout from) s n o /\ bo_value o = 101000000 /\ r = k n)
  \/ (exists c from n o, conf = Some c /\ 6 <= c /\ read hex = Ok from /\ FirstLocked (b_vout from) s n o /\ bo_value o <> 101000000 /\ r = BOtherAmount)
  \/ (exists c from, conf = Some c /\ 6 <= c /\ read hex = Ok from /\ Forall (fun o => bo_script o <> s) (b_vout from) /\ r = BNoOutput)
  \/ (exists c e, conf = Some c /\ 6 <= c /\ read hex = Raise e /\ r = BBroken e)
  \/ (exists c, conf = Some c /\ c < 6 /\ r = BYoung) \/ (conf = None /\ r = BBroken EKey).
Proof.
  intros sha read conf hex contract k s r. subst r. unfold alice_looks. destruct conf as [c|]; [|auto 10]. destruct (Z.ltb_spec c 6) as [LT|GE]; [eauto 10|].
  destruct (read hex) as [from|e] eqn:ER; cbn [bindB]; [|do 3 right; left; eauto 10]. assert (F := find_output_spec (witness_script sha contract) (b_vout from) 0). destruct (find_output _ 0 (b_vout from)) as [[n o]|].
  - destruct F as (pre & post & E & F & S & N). assert (FL : FirstLocked (b_vout from) s n o) by (exists pre, post; auto). change agreed with 101000000.
    destruct (Z.eqb_spec (bo_value o) 101000000) as [EV|EV]; cbn [negb]; [left|right; left]; exists c, from, n, o; auto 10.
  - do 2 right. left. exists c, from. auto.
Qed.
Lemma valid_claim Hash sha (verify : bytes -> bytes -> bytes -> Prop) ver buyer seller contract dst txid n o t sign b : blen buyer < 76 -> blen seller < 76 -> make_btc_contract buyer seller = Ok contract ->
  small dst -> - 2 ^ 31 <= ver < 2 ^ 31 -> blen txid = 32 -> 0 <= n < 2 ^ 32 -> (forall h, verify buyer h (sign h) /\ blen (sign h) <= 500) ->
  bo_value o = 101000000 -> bo_script o = [x00; x20] ++ sha contract -> alice_claims Hash ver dst txid n contract sign = BSent t b ->
  SpendsAll txid n (2 ^ 32 - 1) dst ver t /\ W_btx t b /\ forall conf, Valid Hash sha verify t o conf.
Proof.
  intros Lb Ls HM SD RV L R SG VO SO H. assert (LC := btc_contract_len _ _ _ Lb Ls HM). assert (SC := small_520 _ LC). unfold alice_claims in H.
  destruct (C96_sent Hash ver dst txid n contract false sign SD SC (fun h => proj2 (SG h)) RV L R) as (t' & b' & E & E2 & W). rewrite H in E. injection E as <- <-.
  destruct (proj1 (C96_created Hash ver dst txid n contract false sign SD SC RV) L R) as (t'' & h & E3 & SA & SI & WI). rewrite E2 in E3. apply Ok_inj in E3. subst t''. split; [exact SA|]. split; [exact W|].
  intros conf. assert (VI := sa_in _ _ _ _ _ _ SA). cbv iota in VI, WI. exists (mkBIn (mkOutPoint txid n) [] (2 ^ 32 - 1)), [sign h ++ [x01]; [x01]; contract], contract.
  rewrite VI, WI. split; [reflexivity|]. split; [reflexivity|]. split; [reflexivity|]. split; [exists [sign h ++ [x01]; [x01]]; reflexivity|]. split.
  - rewrite SO, VO. apply (C96_who sha _ _ buyer seller contract [sign h ++ [x01]; [x01]] Lb Ls HM). exists (sign h ++ [x01]), [x01]. split; [reflexivity|].
    split; [destruct (SG h) as [_ B]; unfold blen in *; rewrite app_length; cbn [length]; lia|]. split; [cbn; lia|]. left. split; [reflexivity|]. exists (sign h), h. split; [reflexivity|]. split; [exact SI|apply SG].
  - exists (mkBIn (mkOutPoint txid n) [] (2 ^ 32 - 1)). rewrite VI. split; [reflexivity|]. right. left. reflexivity.
Qed.
(** With a key that makes valid signatures for the key of both: her transaction takes the output that she found, less the fee, and is valid whatever
    the age of the output. *)
Theorem C96_alice : forall Hash sha (verify : bytes -> bytes -> bytes -> Prop) ver buyer seller contract read conf hex dst txid sign t b,
  blen buyer < 76 -> blen seller < 76 -> make_btc_contract buyer seller = Ok contract -> small dst -> - 2 ^ 31 <= ver < 2 ^ 31 -> blen txid = 32 ->
  (forall h, verify buyer h (sign h) /\ blen (sign h) <= 500) ->
  alice_looks sha read conf hex contract (fun n => alice_claims Hash ver dst txid n contract sign) = BSent t b ->
  exists from n o, read hex = Ok from /\ FirstLocked (b_vout from) ([x00; x20] ++ sha contract) n o /\ bo_value o = 101000000
  /\ SpendsAll txid n (2 ^ 32 - 1) dst ver t /\ W_btx t b /\ forall age, Valid Hash sha verify t o age.
Proof.
  intros Hash sha verify ver buyer seller contract read conf hex dst txid sign t b Lb Ls HM SD RV L SG H.
  destruct (C96_looks sha read conf hex contract (fun n => alice_claims Hash ver dst txid n contract sign)) as
    [(c & from & n & o & EC & GE & ER & FL & EV & E)|[(c & from & n & o & _ & _ & _ & _ & _ & E)|[(c & from & _ & _ & _ & _ & E)|[(c & e & _ & _ & _ & E)|[(c & _ & _ & E)|(_ & E)]]]]]; rewrite H in E; try discriminate E.
  symmetry in E. assert (R : 0 <= n < 2 ^ 32).
  { destruct FL as (pre & post & _ & _ & _ & ->). destruct (Z_lt_dec (Z.of_nat (length pre)) (2 ^ 32)) as [LT|GE']; [lia|]. exfalso. unfold alice_claims in E.
    assert (LC := btc_contract_len _ _ _ Lb Ls HM). rewrite (proj2 (C96_created Hash ver dst txid (Z.of_nat (length pre)) contract false sign SD (small_520 _ LC) RV)) in E; [discriminate E|]. intros (_ & X). lia. }
  exists from, n, o. split; [exact ER|]. split; [exact FL|]. split; [exact EV|]. destruct FL as (pre & post & _ & _ & SO & _). exact (valid_claim Hash sha verify ver buyer seller contract dst txid n o t sign b Lb Ls HM SD RV L R SG EV SO E).
Qed.
(** All of it: the key that she recovers from the spending transaction on the other chain, whatever script it has, opens the output. *)
Theorem C96_swap : forall E field Hash sha (verify : bytes -> bytes -> bytes -> Prop) (sign : Z -> bytes -> bytes) cpub target combined ka kb elt_contract elt_txid vin k ver seller contract dst txid n o,
  CurveLaws E field -> 0 < ka < ec_order E -> 0 < kb < ec_order E -> pub_add E cpub (pub E kb) = Ok target -> pub_add E cpub (pub E ka) = Ok combined ->
  (forall d h, 0 < d < ec_order E -> verify (pub E d) h (sign d h) /\ blen (sign d h) <= 500) ->
  recover E sha elt_txid elt_contract target kb ka vin = Key k ->
  blen seller < 76 -> make_btc_contract combined seller = Ok contract -> small dst -> - 2 ^ 31 <= ver < 2 ^ 31 -> blen txid = 32 -> 0 <= n < 2 ^ 32 ->
  bo_value o = 101000000 -> bo_script o = [x00; x20] ++ sha contract ->
  exists t b, alice_claims Hash ver dst txid n contract (sign k) = BSent t b /\ SpendsAll txid n (2 ^ 32 - 1) dst ver t /\ W_btx t b /\ forall age, Valid Hash sha verify t o age.
Proof.
  intros E field Hash sha verify sign cpub target combined ka kb ec et vin k ver seller contract dst txid n o CL RA RB HT HC SG RK Ls HM SD RV L R VO SO.
  destruct (C88_right E field sha cpub target combined ka kb ec et vin k CL RA RB HT HC RK) as (RD & PK).
  assert (Lb : blen combined < 76) by (rewrite <- PK; apply (el_ser _ _ CL)). assert (LC := btc_contract_len _ _ _ Lb Ls HM).
  destruct (C96_sent Hash ver dst txid n contract false (sign k) SD (small_520 _ LC) (fun h => proj2 (SG k h RD)) RV L R) as (t & b & ES & _ & _). exists t, b. split; [exact ES|].
  apply (valid_claim Hash sha verify ver combined seller contract dst txid n o t (sign k) b); auto. intros h. rewrite <- PK. apply SG. exact RD.
Qed.

(** ** Bob *)
(** He sends nothing before the output has fifteen confirmations; then his transaction takes the first output of his contract, less the fee, and if this
    holds the amount agreed it is valid in the next block. *)
Theorem C96_bob : forall Hash sha (verify : bytes -> bytes -> bytes -> Prop) ver buyer seller contract address from_addr outs node calls dst txid sign t b,
  blen buyer < 76 -> blen seller < 76 -> make_btc_contract buyer seller = Ok contract -> small dst -> - 2 ^ 31 <= ver < 2 ^ 31 -> blen txid = 32 -> (forall h, blen (sign h) <= 500) ->
  (forall s, address s = Some from_addr <-> s = [x00; x20] ++ sha contract) -> (forall k j, node k = Got j -> Tells address 0 outs (j_vout j)) ->
  bob_reclaims Hash ver node calls from_addr dst txid contract sign = BSent t b ->
  exists k j c n o, node k = Got j /\ j_conf j = Some c /\ 15 <= c /\ (forall i, (i < k)%nat -> exists j' c', node i = Got j' /\ j_conf j' = Some c' /\ c' < 15)
  /\ FirstLocked outs ([x00; x20] ++ sha contract) n o /\ SpendsAll txid n 15 dst ver t /\ W_btx t b
  /\ (2 <= ver -> bo_value o = 101000000 -> (forall h, verify seller h (sign h)) -> Valid Hash sha verify t o c).
Proof.
  intros Hash sha verify ver buyer seller contract address from_addr outs node calls dst txid sign t b Lb Ls HM SD RV L SG A T H. unfold bob_reclaims in H.
  match type of H with wait_age _ _ _ ?d = _ => set (done := d) in H end.
  destruct (wait_age_spec node done calls 0) as [(k & j & c & K & N & C & GE & B & W)|[W|[(e & W)|(e & W)]]]; [|congruence..].
  rewrite W in H. unfold done in H. assert (FA := find_address_spec address _ from_addr A outs 0 (j_vout j) (T k j N)). destruct (find_address from_addr (j_vout j)) as [[n|]|e]; cbn [bindB] in H; [|discriminate H..].
  destruct FA as (o & pre & post & EO & F & SO & EN). assert (LC := btc_contract_len _ _ _ Lb Ls HM). assert (SC := small_520 _ LC).
  assert (R : 0 <= n < 2 ^ 32).
  { destruct (Z_lt_dec n (2 ^ 32)) as [LT|G]; [lia|]. exfalso. rewrite (proj2 (C96_created Hash ver dst txid n contract true sign SD SC RV)) in H; [discriminate H|]. intros (_ & X). lia. }
  destruct (C96_sent Hash ver dst txid n contract true sign SD SC SG RV L R) as (t' & b' & E & E2 & WB). rewrite H in E. injection E as <- <-.
  destruct (proj1 (C96_created Hash ver dst txid n contract true sign SD SC RV) L R) as (t'' & h & E3 & SA & SI & WI). rewrite E2 in E3. apply Ok_inj in E3. subst t''. cbv iota in SA, WI.
  exists k, j, c, n, o. do 3 (split; [assumption|]). split; [intros i RI; apply B; lia|]. split.
  { exists pre, post. split; [exact EO|]. split; [eapply Forall_impl; [|exact F]; intros p (X & _); exact X|]. split; [exact SO|lia]. }
  split; [exact SA|]. split; [exact WB|]. intros V2 VO SV. assert (VI := sa_in _ _ _ _ _ _ SA).
  exists (mkBIn (mkOutPoint txid n) [] 15), [sign h ++ [x01]; []; contract], contract. rewrite VI, WI. split; [reflexivity|]. split; [reflexivity|]. split; [reflexivity|]. split; [exists [sign h ++ [x01]; []]; reflexivity|]. split.
  - rewrite SO, VO. apply (C96_who sha _ _ buyer seller contract [sign h ++ [x01]; []] Lb Ls HM). exists (sign h ++ [x01]), []. split; [reflexivity|].
    split; [specialize (SG h); unfold blen in *; rewrite app_length; cbn [length]; lia|]. split; [cbn; lia|]. right. split; [reflexivity|]. split.
    + exists (mkBIn (mkOutPoint txid n) [] 15). rewrite VI. split; [reflexivity|]. rewrite (sa_ver _ _ _ _ _ _ SA). split; [exact V2|]. cbn [bi_seq]. split; [reflexivity|]. split; [reflexivity|]. vm_compute. discriminate.
    + exists (sign h), h. split; [reflexivity|]. split; [exact SI|apply SV].
  - exists (mkBIn (mkOutPoint txid n) [] 15). rewrite VI. split; [reflexivity|]. right. right. split; [reflexivity|]. cbn [bi_seq]. change (Z.land 15 65535) with 15. exact GE.
Qed.
(** When he sends it: as soon as an answer says fifteen confirmations, if each output before the first of his contract has an address. *)
Theorem C96_bob_sends : forall Hash ver sha contract address from_addr outs node calls dst txid sign k j c n o, small contract -> small dst -> - 2 ^ 31 <= ver < 2 ^ 31 -> blen txid = 32 -> (forall h, blen (sign h) <= 500) ->
  (forall s, address s = Some from_addr <-> s = [x00; x20] ++ sha contract) -> Tells address 0 outs (j_vout j) ->
  node k = Got j -> j_conf j = Some c -> 15 <= c -> (k < calls)%nat -> (forall i, (i < k)%nat -> exists j' c', node i = Got j' /\ j_conf j' = Some c' /\ c' < 15) ->
  FirstLocked outs ([x00; x20] ++ sha contract) n o -> n < 2 ^ 32 ->
  (Forall (fun p => address (bo_script p) <> None) (firstn (Z.to_nat n) outs) -> exists t b, bob_reclaims Hash ver node calls from_addr dst txid contract sign = BSent t b)
  /\ (~ Forall (fun p => address (bo_script p) <> None) (firstn (Z.to_nat n) outs) -> bob_reclaims Hash ver node calls from_addr dst txid contract sign = BBroken EKey).
Proof.
  intros Hash ver sha contract address from_addr outs node calls dst txid sign k j c n o SC SD RV L SG A T N C GE K B (pre & post & EO & F & SO & EN) LN.
  set (done := fun j => bindB (find_address from_addr (j_vout j)) (fun r => match r with None => BNoOutput | Some vout_n => send_tx (create_btc_spend_tx Hash ver dst txid vout_n contract true sign) end)).
  assert (W : forall m s, (s + m = k)%nat -> wait_age node (calls - s) s done = done j).
  { induction m as [|m IH]; intros s Q.
    - assert (s = k) by lia. subst s. destruct (calls - k)%nat eqn:D; [lia|]. cbn [wait_age]. rewrite N, C. unfold bitcoin_timeout. destruct (Z.ltb_spec c 15); [lia|reflexivity].
    - destruct (calls - s)%nat eqn:D; [lia|]. cbn [wait_age]. destruct (B s ltac:(lia)) as (j' & c' & N' & C' & LT). rewrite N', C'. unfold bitcoin_timeout. destruct (Z.ltb_spec c' 15); [|lia].
      replace n0 with (calls - S s)%nat by lia. apply IH. lia. }
  assert (BR : bob_reclaims Hash ver node calls from_addr dst txid contract sign = done j) by (unfold bob_reclaims; rewrite <- (W k 0%nat eq_refl), Nat.sub_0_r; reflexivity). rewrite BR. unfold done.
  assert (FP : firstn (Z.to_nat n) outs = pre) by (rewrite EN, Nat2Z.id, EO; apply firstn_len_app). rewrite FP.
  assert (FA := find_address_spec address _ from_addr A outs 0 (j_vout j) T). destruct (find_address from_addr (j_vout j)) as [[m|]|e]; cbn [bindB].
  - destruct FA as (o' & pre' & post' & EO' & F' & SO' & EM). assert (PP : pre' = pre).
    { clear - EO EO' F F' SO SO'. rewrite EO in EO'. clear EO. assert (F2 : Forall (fun p => bo_script p <> [x00; x20] ++ sha contract) pre') by (eapply Forall_impl; [|exact F']; intros p (X & _); exact X). clear F'. revert pre' F2 EO'.
      induction F as [|x pre X F IH]; intros [|y pre'] F2 E; cbn [app] in E.
      - reflexivity.
      - exfalso. injection E as E _. inversion F2 as [|u1 u2 Y]. apply Y. rewrite <- E. exact SO.
      - exfalso. injection E as E _. apply X. rewrite E. exact SO'.
      - injection E as E1 E2. inversion F2; subst. f_equal. apply IH; assumption. }
    subst pre'. split.
    + intros _. destruct (C96_sent Hash ver dst txid m contract true sign SD SC SG RV L) as (t & b & E & _); [lia|]. eauto.
    + intros NF. exfalso. apply NF. eapply Forall_impl; [|exact F']. intros p (_ & X). exact X.
  - exfalso. rewrite EO in FA. apply Forall_app in FA. destruct FA as [_ FA]. inversion FA; subst. congruence.
  - destruct FA as (-> & o' & pre' & post' & EO' & F' & NA). split; [|reflexivity]. intros FF. exfalso.
    rewrite EO in EO'. clear - EO' F' FF NA SO A. revert pre EO' FF. induction F' as [|x pre' X F' IH]; intros [|y pre] E FF; cbn [app] in E.
    + injection E as E _. rewrite <- E, (proj2 (A _) SO) in NA. discriminate.
    + injection E as E _. inversion FF as [|u1 u2 Y]. apply Y. rewrite E. exact NA.
    + injection E as E _. apply X. rewrite <- E. exact SO.
    + injection E as E1 E2. inversion FF; subst. eapply IH; eassumption.
Qed.
(** An output without address, such as one that holds data, before that of the contract: he does not find it. *)
Theorem C96_bob_sends_refuted : exists Hash ver sha contract address from_addr outs node dst txid (sign : bytes -> bytes) o, (forall s, address s = Some from_addr <-> s = [x00; x20] ++ sha contract)
  /\ (forall k : nat, exists j, node k = Got j /\ j_conf j = Some 15 /\ Tells address 0 outs (j_vout j)) /\ In o outs /\ bo_script o = [x00; x20] ++ sha contract /\ bo_value o = 101000000
  /\ blen txid = 32 /\ (exists buyer seller, make_btc_contract buyer seller = Ok contract)
  /\ forall calls, bob_reclaims Hash ver node (S calls) from_addr dst txid contract sign = BBroken EKey.
Proof.
  set (sha := fun _ : bytes => repeat x07 32). set (script := [x00; x20] ++ repeat x07 32).
  set (address := fun s : bytes => if bytes_eqb s script then Some [x62; x63] else None).
  set (outs := [mkBOut 0 [x6a]; mkBOut 101000000 script]).
  destruct (make_btc_contract [x02] [x03]) as [c|] eqn:EC; [|vm_compute in EC; discriminate EC].
  exists (fun b => b), 2, sha, c, address, [x62; x63], outs, (fun _ => Got (mkJTx (Some 15) [mkJOut 0 None; mkJOut 1 (Some [[x62; x63]])])), [x51], (repeat x09 32), (fun h => h), (mkBOut 101000000 script).
  split. { intros s. unfold address. fold script. change ([x00; x20] ++ sha c) with script. rewrite <- (bytes_eqb_eq s script). destruct (bytes_eqb s script); cbv iota; split; intros X; try reflexivity; discriminate X. }
  split. { intros k. eexists. split; [reflexivity|]. split; [reflexivity|]. unfold outs. change (Some [[x62; x63]]) with (match address script with Some a => Some [a] | None => None end). 
    change (@None (list bytes)) with (match address [x6a] with Some a => Some [a] | None => None end) at 1. apply (T_cons address 0 (mkBOut 0 [x6a])). apply (T_cons address 1 (mkBOut 101000000 script)). constructor. }
  split; [right; left; reflexivity|]. split; [reflexivity|]. split; [reflexivity|]. split; [reflexivity|]. split; [exists [x02], [x03]; exact EC|]. intros calls. reflexivity.
Qed.

(** ** The amount is signed *)
(** What is signed for one amount is not what is signed for another, but for two strings with the same hash: an output of the contract that does not hold
    the amount agreed is unlocked by neither transaction. *)
Theorem C96_amount : forall Hash script t a a' h, BtcSigned Hash script t a h -> BtcSigned Hash script t a' h -> a = a' \/ exists x y, x <> y /\ Hash x = Hash y.
Proof.
  intros Hash script t a a' h (i & p & q & o & v & bp & bs & ba & bq & l & N & P & Q & O & V & BP & BS & BA & BQ & BL & ->) (i' & p' & q' & o' & v' & bp' & bs' & ba' & bq' & l' & N' & P' & Q' & O' & V' & BP' & BS' & BA' & BQ' & BL' & EH).
  rewrite N in N'. injection N' as <-.
  assert (UL : forall n z x y, le_int n z x -> le_int n z y -> x = y) by (intros n z x y [L1 V1] [L2 V2]; rewrite <- (le_bytes_le_val x), <- (le_bytes_le_val y), L1, L2, V1, V2; reflexivity).
  assert (U32 : forall z x y, le_sint32 z x -> le_sint32 z y -> x = y) by (intros z x y [_ H1] [_ H2]; exact (UL _ _ _ _ H1 H2)).
  assert (UP : forall z x y, W_prev z x -> W_prev z y -> x = y) by (intros z x y (n & _ & H1 & ->) (m & _ & H2 & ->); rewrite (UL _ _ _ _ H1 H2); reflexivity).
  assert (UB : forall z x y, W_bytes z x -> W_bytes z y -> x = y) by (intros z x y H1 H2; apply ser_bytes_iff in H1, H2; congruence).
  assert (UO : forall z x y, W_bout z x -> W_bout z y -> x = y) by (intros z x y H1 H2; apply ser_bout_iff in H1, H2; congruence).
  assert (US : forall A (W : A -> bytes -> Prop), (forall z x y, W z x -> W z y -> x = y) -> forall z x y, W_seq W z x -> W_seq W z y -> x = y).
  { intros A W U z x y H1. revert y. induction H1 as [|e z b bs0 H0 H1 IH]; intros y H2; inversion H2; subst; [reflexivity|]. f_equal; [eapply U; eassumption|apply IH; assumption]. }
  rewrite (US _ _ UP _ _ _ P P'), (US _ _ (UL 4%nat) _ _ _ Q Q'), (US _ _ UO _ _ _ O O'), (U32 _ _ _ V V'), (UP _ _ _ BP BP'), (UB _ _ _ BS BS'), (UL _ _ _ _ BQ BQ'), (UL _ _ _ _ BL BL') in EH.
  match type of EH with Hash ?x = Hash ?y => destruct (list_eq_dec Byte.byte_eq_dec x y) as [EX|EX]; [left|right; exists x, y; auto] end.
  do 5 apply app_inv_head in EX. apply app_inj_len in EX; [|rewrite (proj1 (proj2 BA)), (proj1 (proj2 BA')); reflexivity]. destruct EX as [<- _]. exact (le_sint64_inj _ _ _ BA BA').
Qed.

(** ** Concrete cases: the curve and the keys of C88_ex *)
Definition q_sha (_ : bytes) : bytes := repeat x07 32.
Definition q_script : bytes := [x00; x20] ++ repeat x07 32.
Definition q_hash (b : bytes) : bytes := firstn 8 b.
Definition q_txid : bytes := repeat x09 32.
Definition q_contract : bytes := match make_btc_contract [x00; x12] [x50] with Ok c => c | Raise _ => [] end.
Lemma q_made : make_btc_contract [x00; x12] [x50] = Ok q_contract. Proof. reflexivity. Qed.
Definition q_from : btx := mkBtx [mkBIn (mkOutPoint (repeat x08 32) 1) [] 0] [mkBOut 5 [x51]; mkBOut 101000000 q_script] 0 2 [[]].
Lemma hash8 b : blen (q_hash b) <= 8. Proof. unfold q_hash, blen. rewrite firstn_length. lia. Qed.
Ltac side := first [lia | reflexivity | split; reflexivity | solve [vm_compute; congruence] | intros h; pose proof (hash8 h) as X; unfold blen in *; try rewrite app_length; cbn [length]; lia].
(** C96_created, C96_sent: both branches *)
Example created_cases : forall reclaim, exists t b, send_tx (create_btc_spend_tx q_hash 2 [x52] q_txid 1 q_contract reclaim (fun _ => [x30])) = BSent t b /\ W_btx t b.
Proof.
  intros reclaim. destruct (C96_sent q_hash 2 [x52] q_txid 1 q_contract reclaim (fun _ => [x30])) as (t & b & E & _ & W); [side ..|]. eauto.
Qed.
(** C96_looks, C96_alice: the ends, and a transaction *)
Example alice_cases : let look c from k := alice_looks q_sha (fun _ => Ok from) c [] q_contract k in
  (exists t b, look (Some 6) q_from (fun n => alice_claims q_hash 2 [x52] q_txid n q_contract (fun h => [x00; x12] ++ q_hash h)) = BSent t b)
  /\ look (Some 5) q_from (fun _ => BWaits) = BYoung /\ look None q_from (fun _ => BWaits) = BBroken EKey
  /\ look (Some 6) (mkBtx [] [mkBOut 101000000 [x51]] 0 2 []) (fun _ => BWaits) = BNoOutput
  /\ look (Some 6) (mkBtx [] [mkBOut 100 q_script; mkBOut 101000000 q_script] 0 2 []) (fun _ => BWaits) = BOtherAmount.
Proof. vm_compute. repeat split. eexists _, _. reflexivity. Qed.
(** C96_swap: with the key 18 that C88_ex recovers from Bob's script *)
Example swap_case : exists s t b, reveal_script tcurve tsha (fun _ => false) (tcontract [x00; x10]) [xaa; xbb; xcc] 7 9 = Ok s
  /\ recover tcurve tsha [x77] (tcontract [x00; x10]) [x00; x10] 9 11 [([x76], []); ([x77], s)] = Key 18
  /\ alice_claims q_hash 2 [x52] q_txid 1 q_contract (fun h => pub tcurve 18 ++ firstn 100 h) = BSent t b
  /\ Valid q_hash tsha (fun key h x => x = key ++ firstn 100 h) t (mkBOut 101000000 ([x00; x20] ++ tsha q_contract)) 1.
Proof.
  destruct C88_ex as (s & ES & _ & EK). exists s.
  assert (PL : forall d, blen (pub tcurve d) < 76) by (intros d; apply (el_ser _ _ tcurve_laws)).
  destruct (C96_swap tcurve tn q_hash tsha (fun key h x => x = key ++ firstn 100 h) (fun d h => pub tcurve d ++ firstn 100 h) (pub tcurve 7) [x00; x10] [x00; x12] 11 9 (tcontract [x00; x10]) [x77]
    [([x76], []); ([x77], s)] 18 2 [x50] q_contract [x52] q_txid 1 (mkBOut 101000000 ([x00; x20] ++ tsha q_contract))) as (t & b & ET & _ & _ & V);
    [exact tcurve_laws|side|side|exact c7_sum|exact c7_comb| |exact EK|side ..|].
  - intros d h _. split.
    + reflexivity.
    + specialize (PL d). unfold blen in *. rewrite app_length, firstn_length. lia.
  - exists t, b. split; [exact ES|]. split; [exact EK|]. split; [exact ET|exact (V 1)].
Qed.
(** C96_bob, C96_bob_sends: two answers are too early *)
Definition q_address (s : bytes) : option bytes := if bytes_eqb s q_script then Some [x62] else Some [x61].
Definition q_tells (c : Z) : jtx := mkJTx (Some c) [mkJOut 0 (Some [[x61]]); mkJOut 1 (Some [[x62]])].
Definition q_node (k : nat) : reply jtx := Got (q_tells (13 + Z.of_nat k)).
Example bob_case : exists t b o, bob_reclaims q_hash 2 q_node 10 [x62] [x52] q_txid q_contract (fun h => [x50] ++ q_hash h) = BSent t b
  /\ nth_error (b_vout q_from) 1 = Some o /\ Valid q_hash q_sha (fun key h s => s = key ++ q_hash h) t o 15.
Proof.
  assert (A : forall s, q_address s = Some [x62] <-> s = [x00; x20] ++ q_sha q_contract).
  { intros s. unfold q_address. change ([x00; x20] ++ q_sha q_contract) with q_script. rewrite <- (bytes_eqb_eq s q_script). destruct (bytes_eqb s q_script); cbv iota; split; intros X; try reflexivity; discriminate X. }
  assert (T : forall c, Tells q_address 0 (b_vout q_from) (j_vout (q_tells c))) by (intros c; apply (T_cons q_address 0 (mkBOut 5 [x51])); apply (T_cons q_address 1 (mkBOut 101000000 q_script)); constructor).
  destruct (C96_bob_sends q_hash 2 q_sha q_contract q_address [x62] (b_vout q_from) q_node 10 [x52] q_txid (fun h => [x50] ++ q_hash h) 2 (q_tells 15) 15 1 (mkBOut 101000000 q_script)) as (S & _);
    [side|side|side|side|side|exact A|apply T|side|side|side|side| | |side|].
  { intros i I. exists (q_tells (13 + Z.of_nat i)), (13 + Z.of_nat i). split; [reflexivity|]. split; [reflexivity|lia]. }
  { exists [mkBOut 5 [x51]], []. split; [reflexivity|]. split; [constructor; [discriminate|constructor]|]. split; reflexivity. }
  destruct S as (t & b & ES); [repeat constructor; discriminate|].
  destruct (C96_bob q_hash q_sha (fun key h s => s = key ++ q_hash h) 2 [x00; x12] [x50] q_contract q_address [x62] (b_vout q_from) q_node 10 [x52] q_txid (fun h => [x50] ++ q_hash h) t b) as (k & j & c & n & o & N & C & GE & B & FL & _ & _ & V);
    [side|side|side|side|side|side|side|exact A|intros k j N; injection N as <-; apply T|exact ES|].
  assert (K : k = 2%nat).
  { injection N as <-. cbn [q_tells j_conf] in C. injection C as <-. destruct k as [|[|[|k]]]; [cbn in GE; lia|cbn in GE; lia|reflexivity|]. destruct (B 2%nat) as (j' & c' & N' & C' & LT); [lia|]. injection N' as <-. injection C' as <-. cbn in LT. lia. }
  subst k. injection N as <-. injection C as <-. destruct FL as (pre & post & EO & F & SO & _).
  assert (OO : o = mkBOut 101000000 q_script).
  { destruct pre as [|x [|y pre]]; [injection EO as <- _; discriminate SO|injection EO as _ <- _; reflexivity|]. injection EO as _ _ E2. destruct pre; discriminate E2. }
  exists t, b, o. split; [exact ES|]. split; [rewrite OO; reflexivity|]. apply V; [lia|rewrite OO; reflexivity|reflexivity].
Qed.
(** C96_amount: the hash of C96_created for the other amount is another one *)
Example amount_case : exists h h', btc_sighash (fun b => b) q_contract q_from 0 101000000 = Ok h /\ btc_sighash (fun b => b) q_contract q_from 0 101000001 = Ok h' /\ h <> h'.
Proof. eexists _, _. split; [vm_compute; reflexivity|]. split; [vm_compute; reflexivity|]. vm_compute. discriminate. Qed.
(** C96_who *)
Example who_case : Unlocks q_sha (fun s k => s = k) (fun n => n = 15) q_script [[x50]; []; q_contract] /\ ~ Unlocks q_sha (fun s k => s = k) (fun n => n = 14) q_script [[x50]; []; q_contract].
Proof.
  assert (W := C96_who q_sha (fun s k => s = k) (fun n => n = 15) [x00; x12] [x50] q_contract [[x50]; []] eq_refl eq_refl q_made).
  assert (W' := C96_who q_sha (fun s k => s = k) (fun n => n = 14) [x00; x12] [x50] q_contract [[x50]; []] eq_refl eq_refl q_made).
  split; [apply W; exists [x50], []; repeat split; try (vm_compute; congruence); right; repeat split|]. intros X. apply W' in X. destruct X as (sig & ch & E & _ & _ & [[_ C]|(_ & C & _)]); [injection E as <- <-; discriminate|discriminate].
Qed.

Print Assumptions C96_created.
Print Assumptions C96_sent.
Print Assumptions C96_who.
Print Assumptions C96_looks.
Print Assumptions C96_alice.
Print Assumptions C96_swap.
Print Assumptions C96_bob.
Print Assumptions C96_bob_sends.
Print Assumptions C96_bob_sends_refuted.
Print Assumptions C96_amount.
