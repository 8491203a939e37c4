(** A small concrete instance of [Crypto], for examples and counterexamples only: the group is the integers
    modulo 2^255-19, the base point is 1, the point of an asset is its number. It satisfies the size
    and algebra assumptions made of libsecp256k1-zkp (but hides nothing). *)
From Verif Require Import Base BaseFacts TxModel BlindModel SpecBlind SpecBalance BlindBalance.
From Coq Require Import Lia.
Local Open Scope Z_scope.

Definition toy_order : Z := 2 ^ 255 - 19.
(** [x mod toy_order], by folding: 2^255 is 19. *)
Fixpoint tfold (n : nat) (x : Z) : Z :=
  match n with
  | O => x
  | S n => let h := Z.shiftr x 255 in if h =? 0 then x else tfold n (Z.land x 0x7fffffffffffffffffffffffffffffffffffffffffffffffffffffffffffffff + 19 * h)
  end.
Definition tmod (x : Z) : Z :=
  let y := tfold (Z.to_nat (2 + Z.log2 x / 250)) x in
  if (0 <=? y) && (y <? toy_order) then y else if (toy_order <=? y) && (y - toy_order <? toy_order) then y - toy_order else x mod toy_order.
Definition b32 (x : Z) : bytes := be_bytes 32 (tmod x).
Definition val32 (g : bytes) : Z := be_val (firstn 32 g).
(** index of the first 32-byte chunk equal to [tag] among the first [n] *)
Fixpoint find_chunk (tags tag : bytes) (n i : nat) : option nat :=
  match n with
  | O => None
  | S n' => if bytes_eqb (firstn 32 tags) tag then Some i else find_chunk (skipn 32 tags) tag n' (S i)
  end.

(** 0 is not a generator *)
Definition toy_point (x : Z) : option bytes := if tmod x =? 0 then None else Some (b32 x ++ zeros 32).
Definition toy : Crypto := mkCrypto
  (fun x => b32 (be_val x * 3 + blen x))                                   (* c_hash *)
  (fun x => b32 (be_val x * 5 + blen x))                                   (* c_sha *)
  (fun x => b32 (be_val x * 7 + blen x))                                   (* c_mid *)
  (fun x => match x with x0a :: d => if (length d =? 32)%nat && (be_val d <? toy_order) then Some (d ++ zeros 32) else None | _ => None end)   (* gen_parse *)
  (fun a => toy_point (be_val a))                                          (* gen_generate *)
  (fun a b => toy_point (be_val a + be_val b))                             (* gen_generate_blinded *)
  (fun g => Some (x0a :: b32 (val32 g)))                                   (* gen_serialize *)
  (fun b v g => Some (b32 (v * val32 g + be_val b) ++ zeros 32))           (* ped_commit *)
  (fun c => Some (x08 :: b32 (val32 c)))                                   (* ped_serialize *)
  (fun x => match x with x08 :: d => if (length d =? 32)%nat && (be_val d <? toy_order) then Some (d ++ zeros 32) else None | _ => None end)   (* ped_parse *)
  (fun vs abfs bfs n nin => Some (b32 (facs (firstn nin vs) (firstn nin abfs) (firstn nin bfs)
        - facs (skipn nin vs) (skipn nin abfs) (skipn nin (removelast bfs ++ [zeros 32])))))   (* blind_sum *)
  (fun minv commit blind nonce exp bits value msg extra gen =>
     if (minv <=? value) && (length nonce =? 32)%nat && (length blind =? 32)%nat && (length msg =? 64)%nat then Some (nonce ++ blind ++ be_bytes 8 value ++ msg ++ extra) else None)   (* rp_sign *)
  (fun nonce commit proof extra gen =>
     let v := be_val (firstn 8 (skipn 64 proof)) in
     let b := firstn 32 (skipn 32 proof) in
     if bytes_eqb (firstn 32 proof) nonce && bytes_eqb (skipn 136 proof) extra
        && bytes_eqb commit (b32 (v * val32 gen + be_val b) ++ zeros 32)
     then Some (b, v, firstn 64 (skipn 72 proof)) else None)               (* rp_rewind *)
  (fun tags n k tag iter seed => match find_chunk tags tag n 0 with Some i => Some (seed, i) | None => None end)  (* sp_init *)
  (fun proof gens n gen i inb outb =>
     if tmod (val32 (skipn (64 * i) gens) - be_val inb) =? tmod (val32 gen - be_val outb) then Some (x01 :: b32 (be_val gens * 11 + be_val gen)) else None)   (* sp_generate *)
  (fun proof gens n gen => bytes_eqb proof (x01 :: b32 (be_val gens * 11 + be_val gen)))   (* sp_verify *)
  (fun proof => proof)                                                      (* sp_serialize *)
  (fun p => match p with x02 :: d => (length d =? 32)%nat | _ => false end) (* pk_fullyvalid *)
  (fun k => (length k =? 32)%nat)                                          (* sk_valid *)
  (fun k => x02 :: b32 (be_val k))                                         (* sk_pub *)
  (fun k p => match p with x02 :: d => Some (b32 (be_val k * be_val d)) | _ => None end). (* ecdh *)

Lemma fold_mod P x : P <> 0 -> P - 19 <> 0 -> (x mod P + 19 * (x / P)) mod (P - 19) = x mod (P - 19).
Proof.
  intros H1 H2. rewrite <- (Z.mod_add (x mod P + 19 * (x / P)) (x / P)) by exact H2. f_equal. rewrite (Z.div_mod x P H1) at 4. ring.
Qed.
Lemma tfold_S n x : tfold (S n) x = if Z.shiftr x 255 =? 0 then x else tfold n (x mod 2 ^ 255 + 19 * (x / 2 ^ 255)).
Proof.
  rewrite <- (Z.shiftr_div_pow2 x 255), <- (Z.land_ones x 255) by discriminate. reflexivity.
Qed.
Lemma tfold_eq n : forall x, tfold n x mod toy_order = x mod toy_order.
Proof.
  induction n as [|n IH]; intros x; [reflexivity|]. rewrite tfold_S. destruct (Z.shiftr x 255 =? 0); [reflexivity|]. rewrite IH. apply fold_mod; discriminate.
Qed.
Lemma sub_mod y m : 0 <= y - m < m -> y - m = y mod m.
Proof. intros H. assert (N : m <> 0) by lia. rewrite <- (Z.mod_add y (-1) m N). symmetry. replace (y + -1 * m) with (y - m) by ring. apply Z.mod_small. exact H. Qed.
Lemma tmod_eq x : tmod x = x mod toy_order.
Proof.
  assert (Q : forall y m, y mod m = x mod m -> (if (0 <=? y) && (y <? m) then y else if (m <=? y) && (y - m <? m) then y - m else x mod m) = x mod m).
  { intros y m E. destruct ((0 <=? y) && (y <? m)) eqn:B; [rewrite <- E; symmetry; apply Z.mod_small; lia|]. destruct ((m <=? y) && (y - m <? m)) eqn:B2; [|reflexivity]. rewrite <- E. apply sub_mod. lia. }
  exact (Q _ _ (tfold_eq _ x)).
Qed.
Lemma b32_eq x : b32 x = be_bytes 32 (x mod toy_order).
Proof. unfold b32. rewrite tmod_eq. reflexivity. Qed.
Lemma toy_point_eq x : toy_point x = if x mod toy_order =? 0 then None else Some (b32 x ++ zeros 32).
Proof. unfold toy_point. rewrite tmod_eq. reflexivity. Qed.
Lemma b32_length x : length (b32 x) = 32%nat.
Proof. unfold b32, be_bytes. rewrite rev_length. apply le_bytes_length. Qed.
Lemma b32_blen x : blen (b32 x) = 32. Proof. unfold blen. rewrite b32_length. reflexivity. Qed.
Lemma toy_order_pos : 0 < toy_order. Proof. reflexivity. Qed.
Lemma b32_val x : be_val (b32 x) = x mod toy_order.
Proof.
  rewrite b32_eq, be_val_be_bytes. apply Z.mod_small. assert (H := Z.mod_pos_bound x toy_order toy_order_pos).
  assert (toy_order < 256 ^ Z.of_nat 32) by reflexivity. lia.
Qed.
Lemma firstn_at {A} k (a r : list A) : length a = k -> firstn k (a ++ r) = a.
Proof. intros <-. rewrite firstn_app, Nat.sub_diag, firstn_all. apply app_nil_r. Qed.
Lemma skipn_at {A} k (a r : list A) : length a = k -> skipn k (a ++ r) = r.
Proof. intros <-. rewrite skipn_app, Nat.sub_diag, skipn_all. reflexivity. Qed.
Lemma val32_app x l : val32 (b32 x ++ l) = x mod toy_order.
Proof. unfold val32. rewrite (firstn_at 32) by apply b32_length. apply b32_val. Qed.

Lemma toy_point_Some x g : toy_point x = Some g -> g = b32 x ++ zeros 32 /\ x mod toy_order <> 0.
Proof. rewrite toy_point_eq. destruct (Z.eqb_spec (x mod toy_order) 0) as [|N]; intros H; [discriminate|]. split; [congruence|exact N]. Qed.

Lemma toy_sizes : SizesOk toy.
Proof.
  constructor; cbn [toy c_hash c_sha c_mid gen_parse gen_generate gen_generate_blinded gen_serialize ped_commit ped_serialize blind_sum sk_valid sk_pub].
  - intros x. apply b32_blen.
  - intros x. apply b32_blen.
  - intros x. apply b32_blen.
  - intros x g H. destruct x as [|[] d]; try discriminate. destruct (Nat.eqb_spec (length d) 32) as [E|]; cbn [andb] in H; [|discriminate]. destruct (be_val d <? toy_order); [|discriminate]. assert (G : g = d ++ zeros 32) by congruence. rewrite G, blen_app. unfold blen. rewrite E. reflexivity.
  - intros a g H. apply toy_point_Some in H. destruct H as [G _]. rewrite G, blen_app, b32_blen. reflexivity.
  - intros a b g H. apply toy_point_Some in H. destruct H as [G _]. rewrite G, blen_app, b32_blen. reflexivity.
  - intros g s H. injection H as <-. eexists. split; [apply b32_blen|auto].
  - intros b v g c H. assert (G : c = b32 (v * val32 g + be_val b) ++ zeros 32) by congruence. rewrite G, blen_app, b32_blen. reflexivity.
  - intros c s H. injection H as <-. eexists. split; [apply b32_blen|auto].
  - intros k _. eexists. split; [apply b32_blen|auto].
  - intros v a b n i r H. injection H as <-. apply b32_blen.
Qed.

Lemma toy_blind_sum : BlindSumLaw toy toy_order.
Proof.
  intros v1 a1 b1 v2 a2 b2 v a b r L1 L2 L3 L4 H. cbn [toy blind_sum] in H.
  match type of H with Some ?x = Some r => assert (G : r = x) by congruence end. rewrite G, b32_val. clear H G.
  rewrite (app_assoc b1 b2), removelast_last, <- !(app_assoc b1 b2).
  rewrite !firstn_at, !skipn_at by (assumption || reflexivity).
  rewrite !facs_app by assumption. cbn [facs]. rewrite be_zeros.
  set (A := facs v1 a1 b1). set (B := facs v2 a2 b2).
  rewrite Z.add_assoc, Zplus_mod_idemp_r. f_equal. lia.
Qed.

(** Points of the toy: integers modulo the order. *)
Definition toy_group : PointGroup toy_order.
Proof.
  refine (mkPG toy_order Z (fun x y => x mod toy_order = y mod toy_order) Z.add 0 Z.mul _ _ _ _ _ _ _ _ _ _ _ _ _); intros; try congruence;
    try (f_equal; lia).
  - rewrite (Z.add_mod p q), H, H0, <- Z.add_mod by discriminate. reflexivity.
  - rewrite (Z.mul_mod k p), H, <- Z.mul_mod by discriminate. reflexivity.
  - rewrite Z.mul_comm, Z.mod_mul by discriminate. reflexivity.
Defined.
Lemma toy_asset_point a b g : gen_generate_blinded toy a b = Some g -> val32 g mod toy_order = (be_val a + be_val b * 1) mod toy_order.
Proof. cbn [toy gen_generate_blinded]. intros H. apply toy_point_Some in H. destruct H as [-> _]. rewrite val32_app, Z.mod_mod by discriminate. f_equal. ring. Qed.
Lemma toy_value_point b v g c s : ped_commit toy b v g = Some c -> ped_serialize toy c = Some s -> be_val (tl s) mod toy_order = (v * val32 g + be_val b * 1) mod toy_order.
Proof.
  cbn [toy ped_commit ped_serialize]. intros H1 H2. assert (G1 : c = b32 (v * val32 g + be_val b) ++ zeros 32) by congruence. assert (G2 : s = x08 :: b32 (val32 c)) by congruence. rewrite G2, G1.
  cbn [tl]. rewrite b32_val, val32_app, !Z.mod_mod by discriminate. f_equal. ring.
Qed.
Definition toy_meaning : Meaning toy toy_group :=
  mkMeaning toy toy_order toy_group (fun a => be_val a) 1 (fun g => val32 g) (fun s => be_val (tl s)) toy_asset_point toy_value_point.
