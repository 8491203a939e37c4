(** C88: the cross-chain swap: what the contracts accept, the key that Bob makes public, and the key that Alice recovers. *)
From Verif Require Import Base BaseFacts Serialize BlindModel ScriptModel SpecScript ScriptProofs BlindFacts CrossModel SpecCross CrossProofs ToyCurve.
From Coq Require Import Lia.
Local Open Scope Z_scope.

Lemma r_len E : (length (r_bytes E) <= ec_len E)%nat.
Proof. unfold r_bytes. destruct (lstrip_spec (be_bytes (ec_len E) (known_r E))) as (k & H & _). apply (f_equal (@length byte)) in H. rewrite app_length, repeat_length, be_bytes_length in H. lia. Qed.
Lemma data_total b : blen b <= 520 -> exists p, item_bytes (Data b) = Ok p.
Proof. intros H. apply encode_push_total. lia. Qed.
Lemma script_total l : Forall (fun i => match i with Data b => blen b <= 520 | Op _ => True end) l -> exists s, script_of l = Ok s.
Proof.
  induction l as [|i l IH]; intros F; [exists []; reflexivity|]. inversion F as [|i' l' F1 F2]; subst. destruct (IH F2) as [s E1]. cbn [script_of].
  assert (X : exists p, item_bytes i = Ok p) by (destruct i; [apply data_total; exact F1|cbn [item_bytes]; eauto]). destruct X as [p E2]. rewrite E2, E1. cbn [rbind]. eauto.
Qed.

(** The contract on the side of Elements: with the condition true it asks for a signature under the key to reveal on the byte 1, with
    the bytes of r in its middle, and for Bob's signature of the transaction; with the condition false it asks for an old enough input
    and for Alice's signature. *)
Theorem C88_contract E reveal buyer seller csfs chk csv :
  (ec_len E <= 32)%nat -> blen reveal <= 520 -> blen buyer <= 520 -> blen seller <= 520 ->
  exists c, make_elt_contract E reveal buyer seller = Ok c /\ forall st, Accepts csfs chk csv c st <->
    (exists cond prefix suffix sig rest, st = cond :: prefix :: suffix :: sig :: rest /\ truthy cond = true
       /\ blen (prefix ++ r_bytes E ++ suffix) <= 520 /\ csfs reveal [x01] (prefix ++ r_bytes E ++ suffix) /\ chk sig buyer)
    \/ (exists cond sig rest, st = cond :: sig :: rest /\ truthy cond = false /\ csv 10 /\ chk sig seller).
Proof.
  intros LE Lr Lb Ls. assert (Lx : blen (r_bytes E) <= 520) by (generalize (r_len E); unfold blen; lia).
  destruct (script_total [Op x63; Data (r_bytes E); Op x7e; Op x7c; Op x7e; small_int 1; Data reveal; Op xc2; Data buyer; Op x67; small_int 10; Op xb2; Op x75; Data seller; Op x68; Op xac]) as [c EC].
  { repeat constructor; assumption. }
  exists c. split; [exact EC|]. apply elt_accepts; assumption.
Qed.
(** The contract on the side of Bitcoin: Alice's and Bob's key together, or after the time Bob's other key. *)
Theorem C88_btc_contract buyer seller csfs chk csv : blen buyer <= 520 -> blen seller <= 520 ->
  exists c, make_btc_contract buyer seller = Ok c /\ forall st, Accepts csfs chk csv c st <->
    (exists cond sig rest, st = cond :: sig :: rest /\ truthy cond = true /\ chk sig buyer)
    \/ (exists cond sig rest, st = cond :: sig :: rest /\ truthy cond = false /\ csv 15 /\ chk sig seller).
Proof.
  intros Lb Ls. destruct (script_total [Op x63; Data buyer; Op x67; small_int 15; Op xb2; Op x75; Data seller; Op x68; Op xac]) as [c EC]; [repeat constructor; assumption|].
  exists c. split; [exact EC|]. apply btc_accepts; assumption.
Qed.

Lemma data_len b p : blen b < 76 -> item_bytes (Data b) = Ok p -> blen p = 1 + blen b.
Proof. intros LB. cbn [item_bytes]. unfold encode_op_pushdata. replace (blen b <? 0x4c) with true by (symmetry; apply Z.ltb_lt; lia). intros H. apply Ok_inj in H. subst p. unfold blen. cbn [length app]. lia. Qed.
Lemma contract_len E reveal buyer seller c : (ec_len E <= 32)%nat -> blen reveal < 76 -> blen buyer < 76 -> blen seller < 76 -> make_elt_contract E reveal buyer seller = Ok c -> blen c <= 520.
Proof.
  intros LE Lr Lb Ls H. assert (Lx : blen (r_bytes E) < 76) by (generalize (r_len E); unfold blen; lia). unfold make_elt_contract in H. cbn [script_of] in H. unfold small_int in H. cbn [rbind item_bytes] in H.
  repeat match type of H with context[rbind (encode_op_pushdata ?b) _] => let p := fresh "p" in let EP := fresh "EP" in destruct (encode_op_pushdata b) as [p|] eqn:EP; [apply (data_len b p) in EP; [|assumption]|discriminate H]; cbn [rbind] in H end.
  apply Ok_inj in H. subst c. unfold blen in *. repeat (rewrite app_length || cbn [length app]). repeat (rewrite app_length in * || cbn [length app] in * ). lia.
Qed.

(** the five pushes that spend the contract by its first branch *)
Lemma five_spend csfs chk csv spend_sig suffix prefix contract : blen spend_sig <= 520 -> blen suffix <= 520 -> blen prefix <= 520 -> blen contract <= 520 ->
  exists s o1 o2 o3 o5, script_of [Data spend_sig; Data suffix; Data prefix; Op x51; Data contract] = Ok s
  /\ ops s = Some [(o1, Some spend_sig); (o2, Some suffix); (o3, Some prefix); (0x51, None); (o5, Some contract)]
  /\ (Accepts csfs chk csv contract [[x01]; prefix; suffix; spend_sig] -> Spends csfs chk csv contract s).
Proof.
  intros L1 L2 L3 L4. destruct (script_total [Data spend_sig; Data suffix; Data prefix; Op x51; Data contract]) as [s EC]; [repeat constructor; assumption|].
  destruct (ops_items [Data spend_sig; Data suffix; Data prefix; Op x51; Data contract] s) as (os & EO & F2); [repeat constructor; right; reflexivity|exact EC|].
  repeat match goal with F : Forall2 ItemOp (_ :: _) _ |- _ => inversion F; clear F; subst | F : Forall2 ItemOp [] _ |- _ => inversion F; clear F; subst end.
  repeat match goal with I : ItemOp _ _ |- _ => inversion I; clear I; subst end.
  exists s. do 4 eexists. split; [exact EC|]. split; [exact EO|]. intros A. eexists. split; [exact EO|]. split.
  - repeat constructor; cbn [fst]; try lia. change (bz x51) with 0x51. lia.
  - rewrite !runs_push by assumption. cbn [forallb]. do 3 (split; [assumption|]). rewrite runs_one_out, runs_push by assumption. cbn [forallb]. split; [assumption|]. split; [reflexivity|]. eauto.
Qed.

Lemma raw_next_stop s : raw_next s = NextStop -> s = [].
Proof.
  unfold raw_next, take_data. destruct s as [|o s]; [reflexivity|]. cbv zeta.
  repeat match goal with |- context[if ?b then _ else _] => destruct b; try discriminate | |- context[match ?x with [] => _ | _ :: _ => _ end] => destruct x; try discriminate end.
Qed.
Lemma raw_next_suffix s op d rest : raw_next s = NextOp op d rest -> exists p, s = p ++ rest.
Proof.
  intros H. destruct d as [b|].
  - destruct (proj1 (raw_next_push s b rest) (ex_intro _ op H)) as (p & E & _). eauto.
  - apply raw_next_none in H. destruct H as (c & E & _). exists [c]. exact E.
Qed.
Lemma last_push o c l : forall fuel s, ops_of fuel s = Some (l ++ [o]) -> snd o = Some c -> exists p, s = p ++ c.
Proof.
  induction l as [|x l IH]; intros fuel s H HC; cbn [app] in H; apply ops_cons in H; destruct H as (rest & fuel' & E1 & H).
  - rewrite HC in E1. destruct (proj1 (raw_next_push s c rest) (ex_intro _ _ E1)) as (p & -> & P). assert (rest = []) as ->.
    { destruct fuel' as [|f fuel']; cbn [ops_of] in H; destruct (raw_next rest) as [|e|op d r] eqn:ER; try discriminate; try (destruct (ops_of fuel' r); discriminate); apply raw_next_stop; exact ER. }
    rewrite app_nil_r. inversion P as [o1| l1| l1 l2| l1 l2 l3 l4]; subst; [exists [o1]|exists [x4c; l1]|exists [x4d; l1; l2]|exists [x4e; l1; l2; l3; l4]]; reflexivity.
  - destruct (raw_next_suffix _ _ _ _ E1) as [p ->]. destruct (IH _ _ H HC) as [q ->]. exists (p ++ q). rewrite app_assoc. reflexivity.
Qed.

Lemma ends_with_app p c : c <> [] -> ends_with (p ++ c) c = true.
Proof.
  intros NE. unfold ends_with. destruct (Z.eqb_spec (blen c) 0) as [Z0|_]; [destruct c; [congruence|unfold blen in Z0; cbn [length] in Z0; lia]|].
  rewrite app_length. replace (length p + length c - length c)%nat with (length p) by lia. rewrite skipn_app, Nat.sub_diag, skipn_all. cbn [app skipn]. apply bytes_eqb_eq. reflexivity.
Qed.
Lemma contract_ne E reveal buyer seller c : make_elt_contract E reveal buyer seller = Ok c -> c <> [].
Proof.
  unfold make_elt_contract. cbn [script_of item_bytes rbind]. intros H. match type of H with rbind ?x _ = _ => destruct x as [t|e]; [|discriminate H] end. cbn [rbind] in H. apply Ok_inj in H. subst c. discriminate.
Qed.
Lemma script_len l : forall s, Forall plain l -> script_of l = Ok s -> (length l <= length s)%nat.
Proof.
  induction l as [|i l IH]; intros s F H; [cbn; lia|]. inversion F as [|i' l' F1 F2]; subst. destruct (next_item l i s F1 H) as (a & b & EA & EB & -> & _). destruct (item_next i a b F1 EA) as (_ & _ & _ & _ & LA).
  rewrite app_length. specialize (IH b F2 EB). cbn [length]. lia.
Qed.
Lemma contract_two E reveal buyer seller c : make_elt_contract E reveal buyer seller = Ok c -> ~ exists x, c = [x].
Proof.
  intros H [x ->]. unfold make_elt_contract in H. apply script_len in H; [cbn [length] in H; lia|]. repeat constructor; cbn [plain small_int]; try exact I; right; reflexivity.
Qed.
Lemma recover_at E sha txid contract target b a pre s post : Forall (fun i => fst i <> txid) pre -> ends_with s contract = true ->
  recover E sha txid contract target b a (pre ++ (txid, s) :: post) = recover_from E sha target b a s.
Proof.
  intros F H. induction F as [|[h w] pre F1 F2 IH]; cbn [app recover].
  - rewrite (proj2 (bytes_eqb_eq txid txid) eq_refl), H. reflexivity.
  - cbn [fst] in F1. destruct (bytes_eqb h txid) eqn:EB; [apply bytes_eqb_eq in EB; congruence|]. exact IH.
Qed.

(** Whatever Bob does: if the contract is spent before the time by five pushes, the third of which says that the coordinate of R has the
    length of r, then Alice finds the key that opens the Bitcoin side. [cpub] is the key that Bob sent. *)
Theorem C88_recovers E field sha chk csv cpub target combined a b buyer seller contract scriptsig o1 o2 o3 o4 o5 p0 p1 p2 txid pre post :
  CurveLaws E field -> KnownPoint E field -> 0 < a < ec_order E -> 0 < b < ec_order E ->
  pub_add E cpub (pub E b) = Ok target -> pub_add E cpub (pub E a) = Ok combined ->
  blen buyer <= 520 -> blen seller <= 520 -> make_elt_contract E target buyer seller = Ok contract ->
  Spends (FromStack E sha) chk csv contract scriptsig ->
  ops scriptsig = Some [o1; o2; o3; o4; o5] -> snd o3 = Some [p0; p1; p2; zb (blen (r_bytes E))] -> (~ csv 10 \/ o4 = (0x51, None)) ->
  (forall v, snd o2 = Some v -> (be_val (skipn 2 v) * known_k E + be_val (sha [x01])) mod ec_order E <> 0) ->
  Forall (fun i => fst i <> txid) pre ->
  exists k, recover E sha txid contract target b a (pre ++ (txid, scriptsig) :: post) = Key k /\ 0 < k < ec_order E /\ pub E k = combined.
Proof.
  intros L K RA RB HT HC Lb Ls HM (l & EL & FL & R) EO O3 BR ND FP. rewrite EO in EL. injection EL as <-. destruct (runs_pushes _ _ _ _ _ _ FL R) as (vs & P & rest & EQ & AC).
  inversion P as [|? v1 ? ? P1 Q1]; subst. inversion Q1 as [|? v2 ? ? P2 Q2]; subst. inversion Q2 as [|? v3 ? ? P3 Q3]; subst. inversion Q3 as [|? v4 ? ? P4 Q4]; subst. inversion Q4 as [|? v5 ? ? P5 Q5]; subst. inversion Q5; subst.
  cbn [rev app] in EQ. injection EQ as -> <-. assert (LT : blen target <= 520). { destruct (pub_add_Ok _ _ L _ _ _ HT) as (C & B & _ & _ & _ & ->). generalize (el_ser _ _ L (ec_add E C B)). lia. }
  assert (Lx : blen (r_bytes E) <= 520) by (generalize (r_len E) (el_len _ _ L); unfold blen; lia).
  destruct (proj1 (elt_accepts (FromStack E sha) chk csv E target buyer seller contract LT Lb Ls Lx HM _) AC) as [(cond & prefix & suffix & sig & rest & EQ & T & _ & FS & CH)|(cond & sig & rest & EQ & T & CV & _)].
  - injection EQ as <- <- <- <- _. destruct P3 as [P3|[P3 _]]; [|congruence]. rewrite O3 in P3. injection P3 as <-. destruct FS as (PT & r' & s & PP & D & V).
    destruct (der_split E field L sha K _ _ _ _ _ _ D) as (-> & body & ES & VB & NB).
    assert (RD : read_second scriptsig v2) by (apply (read_pushed scriptsig o1 o2 [o3; o4; o5]); [exact EO|exact P2|rewrite ES; cbn [length]; lia]).
    assert (SK : skipn 2 v2 = body) by (rewrite ES; reflexivity).
    assert (O2 : snd o2 = Some v2). { destruct P2 as [P2|[_ P2]]; [exact P2|]. rewrite ES in P2. discriminate P2. }
    destruct (last_push o5 contract [o1; o2; o3; o4] scriptsig scriptsig EO) as [p EP]. { destruct P5 as [P5|[_ P5]]; [exact P5|]. exfalso. apply (contract_two _ _ _ _ _ HM). exists (zb (fst o5 - 0x50)). exact P5. }
    rewrite recover_at; [|exact FP|rewrite EP; apply ends_with_app; exact (contract_ne _ _ _ _ _ HM)].
    apply (recover_found E field L sha K cpub target combined a b scriptsig v2 RA RB HT HC RD); [rewrite SK; exact NB|apply ND; exact O2|]. exists PT. split; [exact PP|]. rewrite SK, VB. exact V.
  - injection EQ as -> _ _. exfalso. destruct BR as [NC|O4]; [exact (NC CV)|]. subst o4. destruct P4 as [P4|[_ P4]]; [discriminate P4|]. rewrite P4 in T. discriminate T.
Qed.

Lemma Zopp_mod_cong n x y : x mod n = y mod n -> (- x) mod n = (- y) mod n.
Proof. intros H. rewrite <- (Z.sub_0_l x), <- (Z.sub_0_l y), (Zminus_mod 0 x), (Zminus_mod 0 y), H. reflexivity. Qed.
(** A key that Alice recovers, from whatever script, is the key of the Bitcoin side. *)
Theorem C88_right E field sha cpub target combined a b contract txid vin k :
  CurveLaws E field -> 0 < a < ec_order E -> 0 < b < ec_order E -> pub_add E cpub (pub E b) = Ok target -> pub_add E cpub (pub E a) = Ok combined ->
  recover E sha txid contract target b a vin = Key k -> 0 < k < ec_order E /\ pub E k = combined.
Proof.
  intros L RA RB HT HC. induction vin as [|[h s] vin IH]; cbn [recover]; [discriminate|]. destruct (bytes_eqb h txid && ends_with s contract); [|exact IH]. intros H.
  apply recover_Key in H. destruct H as (v & d & c & _ & RD & T & _ & ES & EA). destruct (unblinded E field L sha cpub target combined a b d RA RB RD HT HC T) as (c' & k' & ES' & EA' & RK & PK & _).
  rewrite ES in ES'. apply Ok_inj in ES'. subst c'. rewrite EA in EA'. apply Ok_inj in EA'. subst k'. auto.
Qed.

(** Bob's own script: it is made, it spends the contract, and Alice finds the key in it. [flip]: the signature may be encoded with either
    of the two values of s. *)
Theorem C88_reveals E field (sha : bytes -> bytes) (chk : bytes -> bytes -> Prop) (csv : Z -> Prop) flip c b target buyer seller contract spend_sig :
  let n := ec_order E in let h := be_val (sha [x01]) in let d := (c + b) mod n in
  CurveLaws E field -> KnownPoint E field -> 0 < c < n -> 0 < b < n -> pub_add E (pub E c) (pub E b) = Ok target -> (h + d * known_r E) mod n <> 0 ->
  blen buyer < 76 -> blen seller < 76 -> make_elt_contract E target buyer seller = Ok contract -> blen spend_sig <= 520 -> chk spend_sig buyer ->
  exists s, reveal_script E sha flip contract spend_sig c b = Ok s /\ Spends (FromStack E sha) chk csv contract s
  /\ forall a combined txid pre post, 0 < a < n -> pub_add E (pub E c) (pub E a) = Ok combined -> Forall (fun i => fst i <> txid) pre -> (2 * h + d * known_r E) mod n <> 0 ->
     exists k, recover E sha txid contract target b a (pre ++ (txid, s) :: post) = Key k /\ 0 < k < n /\ pub E k = combined.
Proof.
  intros n h d L K RC RB HT NS Lb Ls HM LSig CH. assert (NP := n_pos E field L). fold n in NP.
  destruct (pub_add_Ok _ _ L _ _ _ HT) as (C & B & PC & PB & NT & ET). rewrite (pub_parse E field L) in PC, PB by assumption. injection PC as <-. injection PB as <-. rewrite <- (el_mul_add _ _ L) in NT, ET.
  assert (RD : 0 < d < n) by (apply (mod_nonzero E field L); exact NT).
  assert (EP : ec_mul E (c + b) (ec_gen E) = ec_mul E d (ec_gen E)) by (symmetry; apply (mul_mod E field L)). rewrite EP in ET, NT.
  assert (S0 : reveal_s E sha d <> 0).
  { intros Z0. apply NS. assert (Q := sign_eq E field L sha K d). rewrite Z0, (mul0 E field L), <- (el_mul_mul _ _ L), <- (el_mul_add _ _ L), <- (mul0 E field L (ec_gen E)) in Q. apply (dlog E field L) in Q.
    rewrite Z.mod_0_l in Q by lia. symmetry in Q. rewrite Z.mul_comm. exact Q. }
  destruct (reveal_form E field L sha K flip d) as (ll & s & RS & ES & FM). destruct (FM S0) as [F1 F2]. clear FM.
  assert (V := reveal_verifies E field L sha K flip d S0). assert (BS : 0 <= reveal_s E sha d < n) by (apply Z.mod_pos_bound; exact NP).
  rewrite Z.mod_small in ES by (destruct (flip _); fold n; lia). rewrite <- ES in V.
  assert (DR := der_sig_Der E field L (known_r E) s). assert (KR := kp_range _ _ K). specialize (DR ltac:(lia) RS). rewrite <- F1, F2 in DR.
  destruct (r_facts E field L K) as (RV & LR & RCl & RNE & R8). assert (LE := el_len _ _ L).
  set (prefix := [x30; ll; x02; zb (blen (r_bytes E))]) in *. set (suffix := der_int E s) in *.
  assert (LD : blen (prefix ++ r_bytes E ++ suffix) <= 72) by (destruct DR as (? & ? & _ & _ & _ & LD); exact LD).
  assert (LSu : blen suffix <= 520) by (revert LD; unfold blen; rewrite !app_length; lia).
  assert (LT : blen target < 76) by (rewrite ET; apply (el_ser _ _ L)).
  assert (LCn : blen contract <= 520) by (apply (contract_len E target buyer seller); try assumption; lia).
  destruct (five_spend (FromStack E sha) chk csv spend_sig suffix prefix contract LSig LSu ltac:(unfold prefix, blen; cbn; lia) LCn) as (scr & o1 & o2 & o3 & o5 & EQ & EO & SP).
  assert (SPD : Spends (FromStack E sha) chk csv contract scr).
  { apply SP. assert (Lx : blen (r_bytes E) <= 520) by (generalize (r_len E); unfold blen; lia). apply (proj2 (elt_accepts (FromStack E sha) chk csv E target buyer seller contract ltac:(lia) ltac:(lia) ltac:(lia) Lx HM _)).
    left. exists [x01], prefix, suffix, spend_sig, []. split; [reflexivity|]. split; [reflexivity|]. split; [lia|]. split; [|exact CH].
    exists (ec_mul E d (ec_gen E)), (known_r E), s. split; [rewrite ET; apply (el_parse _ _ L); exact NT|]. split; [exact DR|exact V]. }
  exists scr. split; [|split; [exact SPD|]].
  - unfold reveal_script, key_add. fold n d. rewrite (key_new_total E _ RD). cbn [rbind]. replace (reveal_s E sha d =? 0) with false by (symmetry; apply Z.eqb_neq; exact S0). cbn [negb rassert rbind]. cbv zeta. rewrite F2.
    change (nth_res (prefix ++ r_bytes E ++ suffix) 3) with (Ok (zb (blen (r_bytes E)))). cbn [rbind]. rewrite bz_zb, Z.mod_small by (unfold blen; lia). unfold blen at 1. rewrite Z.eqb_refl. cbn [rassert rbind].
    change (skipn 4 (prefix ++ r_bytes E ++ suffix)) with (r_bytes E ++ suffix). rewrite firstn_app, Nat.sub_diag, firstn_all. cbn [firstn]. rewrite app_nil_r, (proj2 (bytes_eqb_eq _ _) eq_refl). cbn [rassert rbind].
    change (firstn 4 (prefix ++ r_bytes E ++ suffix)) with prefix. replace (skipn (4 + length (r_bytes E)) (prefix ++ r_bytes E ++ suffix)) with suffix; [exact EQ|].
    change (4 + length (r_bytes E))%nat with (length prefix + length (r_bytes E))%nat. rewrite app_assoc, <- app_length, skipn_app, skipn_all, Nat.sub_diag. reflexivity.
  - intros a combined txid pre post RA HCm FP ND. apply (C88_recovers E field sha chk csv (pub E c) target combined a b buyer seller contract scr (o1, Some spend_sig) (o2, Some suffix) (o3, Some prefix) (0x51, None) (o5, Some contract) x30 ll x02 txid pre post); try assumption; try lia; [reflexivity| |].
    + right. reflexivity.
    + intros v EV. injection EV as <-. fold h n. destruct (der_int_body E field L s RS) as (body & EB & (? & ? & _ & _ & VB & _) & _). unfold suffix. rewrite EB. cbn [skipn]. rewrite VB.
      intros Z0. assert (Q := sign_eq E field L sha K d). assert (X : ec_mul E (s * known_k E + h) (ec_gen E) = ec_zero E) by (rewrite <- (mul_mod E field L); fold n; rewrite Z0; apply (mul0 E field L)).
      rewrite <- (el_mul_mul _ _ L), <- (el_mul_add _ _ L) in Q. unfold Rp in Q. rewrite <- (el_mul_mul _ _ L) in Q. apply (dlog E field L) in Q. fold n in Q. change (mhash sha) with h in Q.
      assert (Y : (s * known_k E + h) mod n = ((if flip (reveal_s E sha d) then - (h + known_r E * d) else h + known_r E * d) + h) mod n).
      { rewrite ES. fold n. destruct (flip _).
        - replace ((n - reveal_s E sha d) * known_k E + h) with (h + - (reveal_s E sha d * known_k E) + known_k E * n) by ring. rewrite Z.mod_add by lia.
          rewrite (Z.add_mod h), (Zopp_mod_cong n _ _ Q) by lia. rewrite <- Z.add_mod by lia. f_equal. ring.
        - rewrite Z.add_mod, Q, <- Z.add_mod by lia. reflexivity. }
      rewrite Z0 in Y. destruct (flip _).
      * replace (- (h + known_r E * d) + h) with (- (known_r E * d)) in Y by ring. symmetry in Y. apply Z.mod_opp_l_z in Y; [|lia]. rewrite Z.opp_involutive in Y.
        apply (mul_nonzero E field L (known_r E) (ec_mul E d (ec_gen E))); [apply (r_mod0 E field K)|exact NT|]. rewrite <- (el_mul_mul _ _ L), <- (mul_mod E field L). fold n. rewrite Y. apply (mul0 E field L).
      * apply ND. rewrite Y. f_equal. ring.
Qed.

(** Alice's script for the other branch spends the contract when the input is old enough. *)
Theorem C88_reclaims E reveal buyer seller csfs (chk : bytes -> bytes -> Prop) (csv : Z -> Prop) contract spend_sig :
  (ec_len E <= 32)%nat -> blen reveal < 76 -> blen buyer < 76 -> blen seller < 76 -> make_elt_contract E reveal buyer seller = Ok contract ->
  blen spend_sig <= 520 -> csv 10 -> chk spend_sig seller -> exists s, reclaim_script contract spend_sig = Ok s /\ Spends csfs chk csv contract s.
Proof.
  intros LE Lr Lb Ls HM LSig CV CH. assert (Lx : blen (r_bytes E) <= 520) by (generalize (r_len E); unfold blen; lia).
  assert (LCn : blen contract <= 520) by (apply (contract_len E reveal buyer seller); assumption).
  destruct (script_total [Data spend_sig; Op x00; Data contract]) as [s EC]; [repeat constructor; assumption|]. exists s. split; [exact EC|].
  destruct (ops_items [Data spend_sig; Op x00; Data contract] s) as (os & EO & F2); [repeat constructor; left; reflexivity|exact EC|].
  repeat match goal with F : Forall2 ItemOp (_ :: _) _ |- _ => inversion F; clear F; subst | F : Forall2 ItemOp [] _ |- _ => inversion F; clear F; subst end.
  repeat match goal with I : ItemOp _ _ |- _ => inversion I; clear I; subst end; [|match goal with B : 0x4e < bz x00 |- _ => discriminate B end].
  eexists. split; [exact EO|]. split; [repeat constructor; cbn [fst]; lia|]. rewrite !runs_push by (assumption || lia). cbn [forallb]. split; [assumption|]. split; [discriminate|]. split; [assumption|]. split; [reflexivity|].
  eexists. split; [reflexivity|]. apply (proj2 (elt_accepts csfs chk csv E reveal buyer seller contract ltac:(lia) ltac:(lia) ltac:(lia) Lx HM _)). right. exists [], spend_sig, []. auto.
Qed.

(** The contract does not make Bob use the point with the coordinate r: it is enough that the coordinate begins with the bytes of r. For
    every such point and every s there is a key to reveal for which the contract can be spent; Alice then finds a key only if the key to
    reveal happens to be one of two points, which come from the wrong bytes of the signature. *)
Theorem C88_attack E field (sha : bytes -> bytes) (chk : bytes -> bytes -> Prop) (csv : Z -> Prop) tail R s buyer seller contract spend_sig :
  let n := ec_order E in let h := be_val (sha [x01]) in let x := be_val (r_bytes E ++ tail) in
  let P := ec_mul E (ec_inv E x) (ec_add E (ec_mul E s R) (ec_mul E (- h) (ec_gen E))) in
  CurveLaws E field -> KnownPoint E field -> tail <> [] -> (length (r_bytes E ++ tail) <= ec_len E)%nat -> R <> ec_zero E -> ec_x E R = x -> x < n -> 0 < s < n -> P <> ec_zero E ->
  blen buyer < 76 -> blen seller < 76 -> make_elt_contract E (ec_ser E P) buyer seller = Ok contract -> blen spend_sig <= 520 -> chk spend_sig buyer ->
  exists scr, Spends (FromStack E sha) chk csv contract scr
  /\ (forall a b txid pre post k, Forall (fun i => fst i <> txid) pre -> recover E sha txid contract (ec_ser E P) b a (pre ++ (txid, scr) :: post) = Key k ->
      exists t, (t = be_val (skipn 2 (tail ++ der_int E s)) \/ t = - be_val (skipn 2 (tail ++ der_int E s))) /\ P = ec_mul E (recover_exponent E sha t) (ec_gen E))
  /\ exists l, script_of [Data spend_sig; Data (tail ++ der_int E s); Data [x30; l; x02; zb (blen (r_bytes E) + blen tail)]; Op x51; Data contract] = Ok scr.
Proof.
  intros n h x P L K NTl LX NR XR XN RS NP Lb Ls HM LSig CH. assert (NPos := n_pos E field L). fold n in NPos.
  destruct (r_facts E field L K) as (RV & LR & RCl & RNE & R8). assert (LE := el_len _ _ L).
  assert (CX : clean (r_bytes E ++ tail)) by (destruct (r_bytes E); [congruence|exact RCl]).
  assert (X0 : 0 < x). { assert (B := be_val_range (r_bytes E ++ tail)). fold x in B. destruct (Z.eq_dec x 0) as [Z0|]; [|lia]. exfalso. assert (Q := lstrip_be (ec_len E) (r_bytes E ++ tail) CX LX). fold x in Q. rewrite Z0 in Q.
    change 0 with (be_val []) in Q. rewrite lstrip_be in Q; [|exact I|cbn; lia]. destruct (r_bytes E); [congruence|discriminate Q]. }
  assert (V : Verifies E P h x s).
  { split; [fold n; lia|]. split; [exact RS|]. exists R. split; [exact NR|]. split; [|rewrite XR; apply Z.mod_small; fold n; lia]. unfold P. rewrite (inv_r E field L) by (rewrite Z.mod_small; fold n; lia).
    rewrite (el_comm _ _ L (ec_mul E h _)), <- (el_assoc _ _ L), <- (el_mul_add _ _ L). replace (- h + h) with 0 by lia. rewrite (mul0 E field L), (el_zero _ _ L). reflexivity. }
  assert (DX : der_int E x = x02 :: zb (blen (r_bytes E) + blen tail) :: r_bytes E ++ tail).
  { unfold x. rewrite der_int_clean; [|exact CX|destruct (r_bytes E); [congruence|discriminate]| |lia].
    - unfold blen. rewrite app_length, Nat2Z.inj_add. reflexivity.
    - intros c d EQ. destruct (r_bytes E) as [|c' d']; [congruence|]. injection EQ as -> _. exact (R8 _ _ eq_refl). }
  assert (DR := der_sig_Der E field L x s). specialize (DR ltac:(fold n; lia) ltac:(fold n; lia)).
  set (suffix := tail ++ der_int E s) in *. set (ll := zb (blen (der_int E x ++ der_int E s))). set (prefix := [x30; ll; x02; zb (blen (r_bytes E) + blen tail)]) in *.
  assert (ED : der_sig E x s = prefix ++ r_bytes E ++ suffix). { unfold der_sig, prefix, suffix, ll. rewrite DX. cbn [app]. rewrite <- !app_assoc. reflexivity. }
  rewrite ED in DR. assert (LD : blen (prefix ++ r_bytes E ++ suffix) <= 72) by (destruct DR as (? & ? & _ & _ & _ & LD); exact LD).
  assert (LSu : blen suffix <= 520) by (revert LD; unfold blen; rewrite !app_length; lia).
  assert (LT : blen (ec_ser E P) < 76) by apply (el_ser _ _ L).
  assert (LCn : blen contract <= 520) by (apply (contract_len E (ec_ser E P) buyer seller); try assumption; lia).
  destruct (five_spend (FromStack E sha) chk csv spend_sig suffix prefix contract LSig LSu ltac:(unfold prefix, blen; cbn; lia) LCn) as (scr & o1 & o2 & o3 & o5 & EQ & EO & SP).
  exists scr. split; [|split; [|exists ll; exact EQ]].
  - apply SP. assert (Lx : blen (r_bytes E) <= 520) by (generalize (r_len E); unfold blen; lia). apply (proj2 (elt_accepts (FromStack E sha) chk csv E (ec_ser E P) buyer seller contract ltac:(lia) ltac:(lia) ltac:(lia) Lx HM _)).
    left. exists [x01], prefix, suffix, spend_sig, []. split; [reflexivity|]. split; [reflexivity|]. split; [lia|]. split; [|exact CH].
    exists P, x, s. split; [apply (el_parse _ _ L); exact NP|]. split; [exact DR|exact V].
  - intros a b txid pre post k FP HK. destruct (last_push (o5, Some contract) contract [(o1, Some spend_sig); (o2, Some suffix); (o3, Some prefix); (0x51, None)] scr scr EO eq_refl) as [p EP].
    rewrite recover_at in HK; [|exact FP|rewrite EP; apply ends_with_app; exact (contract_ne _ _ _ _ _ HM)].
    apply recover_Key in HK. destruct HK as (v & d & c & RD & Rd & T & D & _). 
    assert (EV : v = suffix).
    { assert (LSx : (2 <= length suffix)%nat) by (destruct (der_int_body E field L s ltac:(fold n; lia)) as (w & EW & _); unfold suffix; rewrite EW, app_length; cbn [length]; lia).
      destruct (read_pushed scr (o1, Some spend_sig) (o2, Some suffix) _ suffix EO (or_introl eq_refl) LSx) as (y & r1 & r2 & Y1 & Y2). destruct RD as (y' & r1' & r2' & Y1' & Y2'). rewrite Y1 in Y1'. injection Y1' as <- <-. rewrite Y2 in Y2'. injection Y2' as <- _. reflexivity. }
    subst v. assert (PD : P = ec_mul E d (ec_gen E)). { unfold pub in T. apply (ser_inj E field L) in T; [exact T|exact NP|]. apply (mul_nonzero E field L); [rewrite Z.mod_small; lia|apply (el_gen _ _ L)]. }
    destruct D as [D|D]; rewrite D in PD; eexists; (split; [|exact PD]); auto.
Qed.

(** * Where recovery fails *)
(** What Alice has before the contract is spent. *)
Definition Agreed E field cpub target combined a b buyer seller contract : Prop :=
  CurveLaws E field /\ KnownPoint E field /\ 0 < a < ec_order E /\ 0 < b < ec_order E /\ pub_add E cpub (pub E b) = Ok target /\ pub_add E cpub (pub E a) = Ok combined
  /\ blen buyer <= 520 /\ blen seller <= 520 /\ make_elt_contract E target buyer seller = Ok contract.
Definition tsha (b : bytes) : bytes := [x00; x05].
Definition tchk (sig key : bytes) : Prop := sig = [xaa; xbb; xcc] /\ key = [xb0].
Definition tcsv (m : Z) : Prop := False.
Definition tcontract (target : bytes) : bytes := match make_elt_contract tcurve target [xb0] [x50] with Ok c => c | Raise _ => [] end.
Definition tsum (p q : bytes) : bytes := match pub_add tcurve p q with Ok t => t | Raise _ => [] end.
Definition tscript (c : Z) : bytes :=
  match reveal_script tcurve tsha (fun _ => false) (tcontract (tsum (pub tcurve c) (pub tcurve 9))) [xaa; xbb; xcc] c 9 with Ok s => s | Raise _ => [] end.
Lemma tagreed cpub target combined contract : pub_add tcurve cpub (pub tcurve 9) = Ok target -> pub_add tcurve cpub (pub tcurve 11) = Ok combined -> make_elt_contract tcurve target [xb0] [x50] = Ok contract ->
  Agreed tcurve tn cpub target combined 11 9 [xb0] [x50] contract.
Proof. intros A B C. split; [exact tcurve_laws|]. split; [exact tcurve_known|]. split; [split; reflexivity|]. split; [split; reflexivity|]. split; [exact A|]. split; [exact B|]. split; [discriminate|]. split; [discriminate|exact C]. Qed.
Lemma c7_sum : pub_add tcurve (pub tcurve 7) (pub tcurve 9) = Ok [x00; x10]. Proof. vm_compute. reflexivity. Qed.
Lemma c7_comb : pub_add tcurve (pub tcurve 7) (pub tcurve 11) = Ok [x00; x12]. Proof. vm_compute. reflexivity. Qed.
Lemma c7_contract : make_elt_contract tcurve [x00; x10] [xb0] [x50] = Ok (tcontract [x00; x10]). Proof. vm_compute. reflexivity. Qed.

(** The case of the theorems: Bob's key 7, Alice's 11, the key for blinding 9. *)
Example C88_ex : exists s, reveal_script tcurve tsha (fun _ => false) (tcontract [x00; x10]) [xaa; xbb; xcc] 7 9 = Ok s
  /\ Spends (FromStack tcurve tsha) tchk tcsv (tcontract [x00; x10]) s
  /\ recover tcurve tsha [x77] (tcontract [x00; x10]) [x00; x10] 9 11 [([x76], []); ([x77], s)] = Key 18.
Proof.
  destruct (C88_reveals tcurve tn tsha tchk tcsv (fun _ => false) 7 9 [x00; x10] [xb0] [x50] (tcontract [x00; x10]) [xaa; xbb; xcc] tcurve_laws tcurve_known) as (s & ES & SP & RC);
    [split; reflexivity|split; reflexivity|exact c7_sum|vm_compute; discriminate|reflexivity|reflexivity|exact c7_contract|discriminate|split; reflexivity|].
  exists s. split; [exact ES|]. split; [exact SP|]. destruct (RC 11 [x00; x12] [x77] [([x76], [])] []) as (k & EK & RK & PK); [split; reflexivity|exact c7_comb|repeat constructor; discriminate|vm_compute; discriminate|].
  transitivity (Key k); [exact EK|]. f_equal. unfold pub in PK. change [x00; x12] with (pub tcurve 18) in PK. apply (ser_inj tcurve tn tcurve_laws) in PK.
  - apply (dlog tcurve tn tcurve_laws) in PK. rewrite !Z.mod_small in PK; [exact PK|split; [discriminate|reflexivity]|lia].
  - apply (mul_nonzero tcurve tn tcurve_laws); [rewrite Z.mod_small; lia|apply (el_gen _ _ tcurve_laws)].
  - apply (mul_nonzero tcurve tn tcurve_laws); [discriminate|apply (el_gen _ _ tcurve_laws)].
Qed.

(** Bob spends the contract with five pushes and Alice finds no key: the key to reveal is 5, the coordinate of R is 0x0102. *)
Theorem C88_length_refuted : exists E field sha chk csv cpub target combined a b buyer seller contract spend_sig suffix prefix scr txid,
  Agreed E field cpub target combined a b buyer seller contract /\ ~ csv 10
  /\ script_of [Data spend_sig; Data suffix; Data prefix; Op x51; Data contract] = Ok scr /\ Spends (FromStack E sha) chk csv contract scr
  /\ forall k, recover E sha txid contract target b a [(txid, scr)] <> Key k.
Proof.
  set (P := ec_mul tcurve (ec_inv tcurve (be_val (r_bytes tcurve ++ [x02]))) (ec_add tcurve (ec_mul tcurve 3 (tmk 258)) (ec_mul tcurve (- be_val (tsha [x01])) (ec_gen tcurve)))).
  assert (VP : tv P = 5) by (vm_compute; reflexivity).
  assert (EP : ec_ser tcurve P = [x00; x05]) by (change (ec_ser tcurve P) with (be_bytes 2 (tv P)); rewrite VP; reflexivity).
  assert (CT : make_elt_contract tcurve [x00; x05] [xb0] [x50] = Ok (tcontract [x00; x05])) by (vm_compute; reflexivity).
  destruct (C88_attack tcurve tn tsha tchk tcsv [x02] (tmk 258) 3 [xb0] [x50] (tcontract [x00; x05]) [xaa; xbb; xcc] tcurve_laws tcurve_known) as (scr & SP & RC & l & ES).
  - discriminate.
  - vm_compute. repeat constructor.
  - intros H. apply (f_equal tv) in H. discriminate H.
  - vm_compute. reflexivity.
  - vm_compute. reflexivity.
  - split; reflexivity.
  - fold P. intros H. rewrite H in VP. discriminate VP.
  - reflexivity.
  - reflexivity.
  - fold P. rewrite EP. exact CT.
  - discriminate.
  - split; reflexivity.
  - fold P in RC. rewrite EP in RC. do 12 eexists. exists (tcontract [x00; x05]), [xaa; xbb; xcc]. do 2 eexists. exists scr, [x77].
    split; [apply (tagreed [x02; x05] [x00; x05] [x00; x07]); [vm_compute; reflexivity|vm_compute; reflexivity|exact CT]|]. split; [exact (fun f : tcsv 10 => f)|]. split; [exact ES|]. split; [exact SP|].
    intros k HK. destruct (RC 11 9 [x77] [] [] k (Forall_nil _) HK) as (t & T & PT). apply (f_equal tv) in PT. rewrite VP in PT. destruct T as [-> | ->]; vm_compute in PT; discriminate PT.
Qed.

(** One more push in front of a scriptSig changes nothing for the node. *)
Lemma runs_below csfs chk csv x l : forall st (k k' : list bytes -> Prop), (forall s, k s -> k' (s ++ [x])) -> Forall (fun o => fst o <= 0x60) l -> runs csfs chk csv l [] st k -> runs csfs chk csv l [] (st ++ [x]) k'.
Proof.
  induction l as [|[op d] l IH]; intros st k k' KK F R; [destruct R as [_ R]; split; [reflexivity|exact (KK _ R)]|]. inversion F as [|o l' F1 F2]; subst. cbn [fst] in F1.
  cbn [runs forallb negb] in R |- *. replace (op =? 0x63) with false in * by (symmetry; apply Z.eqb_neq; lia). replace (op =? 0x67) with false in * by (symmetry; apply Z.eqb_neq; lia). replace (op =? 0x68) with false in * by (symmetry; apply Z.eqb_neq; lia).
  destruct d as [b|].
  - destruct R as [A R]. split; [exact A|]. exact (IH (b :: st) k k' KK F2 R).
  - destruct ((0x51 <=? op) && (op <=? 0x60)).
    + exact (IH ([zb (op - 0x50)] :: st) k k' KK F2 R).
    + repeat (match type of R with context[op =? ?c] => replace (op =? c) with false in R by (symmetry; apply Z.eqb_neq; lia) end). destruct R.
Qed.
Lemma ops_of_more l : forall f f' s, ops_of f s = Some l -> (length f <= length f')%nat -> ops_of f' s = Some l.
Proof.
  induction l as [|o l IH]; intros f f' s H LF.
  - destruct f as [|c f], f' as [|c' f']; cbn [ops_of] in *; destruct (raw_next s); try discriminate; try reflexivity; destruct (ops_of f rest); discriminate.
  - destruct f as [|c f]; cbn [ops_of] in H; destruct (raw_next s) as [|e|op d rest] eqn:ER; try discriminate. destruct (ops_of f rest) as [l'|] eqn:EL; [|discriminate]. injection H as <- <-.
    destruct f' as [|c' f']; [cbn [length] in LF; lia|]. cbn [ops_of]. rewrite ER, (IH f f' rest EL); [reflexivity|]. cbn [length] in LF. lia.
Qed.
Theorem C88_extra_push E reveal buyer seller csfs chk csv contract junk p scr : (ec_len E <= 32)%nat -> blen reveal <= 520 -> blen buyer <= 520 -> blen seller <= 520 -> make_elt_contract E reveal buyer seller = Ok contract ->
  blen junk <= 520 -> encode_op_pushdata junk = Ok p -> Spends csfs chk csv contract scr -> Spends csfs chk csv contract (p ++ scr).
Proof.
  intros LE Lr Lb Ls HM LJ EJ (l & EO & FL & R). assert (Lx : blen (r_bytes E) <= 520) by (generalize (r_len E); unfold blen; lia).
  destruct (item_next (Data junk) p scr I EJ) as (op & d & EN & IO & LP). inversion IO as [b op' RO| |]; subst. exists ((op, Some junk) :: l). split; [|split].
  - unfold ops. destruct p as [|c p]; [cbn in LP; lia|]. cbn [app ops_of]. cbn [app] in EN. rewrite EN. rewrite (ops_of_more l scr (p ++ scr) scr EO); [reflexivity|]. rewrite app_length. lia.
  - constructor; [cbn [fst]; lia|exact FL].
  - rewrite runs_push by assumption. cbn [forallb]. split; [exact LJ|]. apply (runs_below csfs chk csv junk l [] (fun st => exists rest, st = contract :: rest /\ Accepts csfs chk csv contract rest)); [|exact FL|exact R].
    intros st (rest & -> & A). exists (rest ++ [junk]). split; [reflexivity|]. apply (proj1 (elt_accepts csfs chk csv E reveal buyer seller contract Lr Lb Ls Lx HM _)) in A.
    apply (proj2 (elt_accepts csfs chk csv E reveal buyer seller contract Lr Lb Ls Lx HM _)). destruct A as [(cond & prefix & suffix & sig & rest' & -> & A)|(cond & sig & rest' & -> & A)]; [left|right].
    + exists cond, prefix, suffix, sig, (rest' ++ [junk]). split; [reflexivity|exact A].
    + exists cond, sig, (rest' ++ [junk]). split; [reflexivity|exact A].
Qed.
(** With it Alice finds no key, although the rest is what Bob's own program makes. *)
Theorem C88_push_refuted : exists E field sha chk csv c target combined a b buyer seller contract flip spend_sig scr p junk txid,
  Agreed E field (pub E c) target combined a b buyer seller contract /\ ~ csv 10 /\ reveal_script E sha flip contract spend_sig c b = Ok scr
  /\ encode_op_pushdata junk = Ok p /\ Spends (FromStack E sha) chk csv contract (p ++ scr)
  /\ recover E sha txid contract target b a [(txid, p ++ scr)] = NotRecovered.
Proof.
  assert (ES : reveal_script tcurve tsha (fun _ => false) (tcontract [x00; x10]) [xaa; xbb; xcc] 7 9 = Ok (tscript 7)) by (vm_compute; reflexivity).
  exists tcurve, tn, tsha, tchk, tcsv, 7, [x00; x10], [x00; x12], 11, 9, [xb0], [x50], (tcontract [x00; x10]), (fun _ => false), [xaa; xbb; xcc], (tscript 7), [x01; xdd], [xdd], [x77].
  split; [exact (tagreed _ _ _ _ c7_sum c7_comb c7_contract)|]. split; [exact (fun f : tcsv 10 => f)|]. split; [exact ES|]. split; [reflexivity|]. split; [|vm_compute; reflexivity].
  apply (C88_extra_push tcurve [x00; x10] [xb0] [x50] (FromStack tcurve tsha) tchk tcsv _ [xdd]); [cbn; lia|discriminate|discriminate|discriminate|exact c7_contract|discriminate|reflexivity|].
  destruct C88_ex as (s & ES' & SP & _). rewrite ES in ES'. apply Ok_inj in ES'. rewrite ES'. exact SP.
Qed.
(** For one key of Bob's, which anyone can compute, Bob's own program makes a script on which Alice's program fails with an exception. *)
Theorem C88_key_refuted : exists E field sha chk csv c target combined a b buyer seller contract flip spend_sig scr txid,
  Agreed E field (pub E c) target combined a b buyer seller contract /\ reveal_script E sha flip contract spend_sig c b = Ok scr
  /\ Spends (FromStack E sha) chk csv contract scr /\ recover E sha txid contract target b a [(txid, scr)] = RecoveryCrash EValue.
Proof.
  assert (ES : reveal_script tcurve tsha (fun _ => false) (tcontract [x01; xff]) [xaa; xbb; xcc] 502 9 = Ok (tscript 502)) by (vm_compute; reflexivity).
  assert (SM : pub_add tcurve (pub tcurve 502) (pub tcurve 9) = Ok [x01; xff]) by (vm_compute; reflexivity).
  assert (CM : pub_add tcurve (pub tcurve 502) (pub tcurve 11) = Ok [x02; x01]) by (vm_compute; reflexivity).
  assert (CT : make_elt_contract tcurve [x01; xff] [xb0] [x50] = Ok (tcontract [x01; xff])) by (vm_compute; reflexivity).
  exists tcurve, tn, tsha, tchk, tcsv, 502, [x01; xff], [x02; x01], 11, 9, [xb0], [x50], (tcontract [x01; xff]), (fun _ => false), [xaa; xbb; xcc], (tscript 502), [x77].
  split; [exact (tagreed _ _ _ _ SM CM CT)|]. split; [exact ES|]. split; [|vm_compute; reflexivity].
  destruct (C88_reveals tcurve tn tsha tchk tcsv (fun _ => false) 502 9 [x01; xff] [xb0] [x50] (tcontract [x01; xff]) [xaa; xbb; xcc] tcurve_laws tcurve_known) as (s & ES' & SP & _);
    [split; reflexivity|split; reflexivity|exact SM|vm_compute; discriminate|reflexivity|reflexivity|exact CT|discriminate|split; reflexivity|].
  rewrite ES in ES'. apply Ok_inj in ES'. rewrite ES'. exact SP.
Qed.

(** The numbers of secp256k1: twice the point with the coordinate r is the generator, r is what KnownPoint asks, and 0x3b78...9c63
    followed by eleven bytes is the coordinate of a point too, so that the hypotheses of C88_attack can be met. *)
Definition secp_p : Z := 0xFFFFFFFFFFFFFFFFFFFFFFFFFFFFFFFFFFFFFFFFFFFFFFFFFFFFFFFEFFFFFC2F.
Definition secp_n : Z := 0xFFFFFFFFFFFFFFFFFFFFFFFFFFFFFFFEBAAEDCE6AF48A03BBFD25E8CD0364141.
Definition secp_r : Z := 0x3b78ce563f89a0ed9414f5aa28ad0d96d6795f9c63.
Definition secp_on (x y : Z) : Prop := (y * y) mod secp_p = (x * x * x + 7) mod secp_p.
Example C88_ex_secp :
  let gx := 0x79BE667EF9DCBBAC55A06295CE870B07029BFCDB2DCE28D959F2815B16F81798 in let gy := 0x483ADA7726A3C4655DA4FBFC0E1108A8FD17B448A68554199C47D08FFB10D4B8 in
  let y := 0xc0c686408d517dfd67c2367651380d00d126e4229631fd03f8ff35eef1a61e3c in let slope := 0xc461e02c0badfe70f163d1196dbf577f11eb85afda93b7636cc726d2532da66d in
  let x' := 0x3b78ce563f89a0ed9414f5aa28ad0d96d6795f9c630000000000000000000004 in let y' := 0xcfc3021f49902b02e3221352963df4b7ac0b335b49259326d904aa6cea86cd27 in
  secp_on gx gy /\ secp_on secp_r y /\ (slope * (2 * y)) mod secp_p = (3 * secp_r * secp_r) mod secp_p
  /\ (slope * slope - 2 * secp_r) mod secp_p = gx /\ (slope * (secp_r - gx) - y) mod secp_p = gy
  /\ 0 < secp_r < secp_n /\ secp_p <= secp_n + secp_r /\ bz (hd x00 (lstrip (be_bytes 32 secp_r))) < 128
  /\ secp_on x' y' /\ x' < secp_n /\ be_bytes 32 x' = lstrip (be_bytes 32 secp_r) ++ [x00; x00; x00; x00; x00; x00; x00; x00; x00; x00; x04].
Proof. vm_compute. repeat split; discriminate. Qed.

Print Assumptions C88_contract.
Print Assumptions C88_btc_contract.
Print Assumptions C88_recovers.
Print Assumptions C88_right.
Print Assumptions C88_reveals.
Print Assumptions C88_reclaims.
Print Assumptions C88_attack.
Print Assumptions C88_length_refuted.
Print Assumptions C88_extra_push.
Print Assumptions C88_push_refuted.
Print Assumptions C88_key_refuted.
