(** Specification vocabulary for balance: blinding factors modulo the group order, and commitments as points. *)
From Verif Require Import Base TxModel BlindModel SpecBlind.
Local Open Scope Z_scope.

Definition zsum (l : list Z) : Z := fold_right Z.add 0 l.
(** sum of v*abf + bf *)
Fixpoint facs (vs : list Z) (abfs bfs : list bytes) : Z :=
  match vs, abfs, bfs with
  | v :: vs, a :: abfs, b :: bfs => v * be_val a + be_val b + facs vs abfs bfs
  | _, _, _ => 0
  end.

(** Documented contract of secp256k1_pedersen_blind_generator_blind_sum: the returned factor, put in the
    place of the last one, makes the inputs' sum equal the outputs' sum modulo the group order. *)
Definition BlindSumLaw (z : Crypto) (order : Z) : Prop :=
  forall v1 a1 b1 v2 a2 b2 v a b r,
    length a1 = length v1 -> length b1 = length v1 -> length a2 = length v2 -> length b2 = length v2 ->
    blind_sum z (v1 ++ v2 ++ [v]) (a1 ++ a2 ++ [a]) (b1 ++ b2 ++ [b]) (length v1 + length v2 + 1) (length v1) = Some r ->
    (facs v1 a1 b1) mod order = (facs v2 a2 b2 + (v * be_val a + be_val r)) mod order.

(** sum over the blinded inputs of v*abf + bf, plus the issuances' factors (their asset factor is 0),
    equals the sum over the blinded outputs *)
Definition FactorsBalance (order : Z) (rand : nat -> bytes) (args : blind_args) (t : tx) (bfs abfs : list bytes) : Prop :=
  (zsum (map (fun d => (d_amount d mod 2 ^ 64) * be_val (d_abf d) + be_val (d_bf d)) (blinded_inputs args))
   + zsum (map (fun k => be_val (rand k)) (seq 0 (length (issuance_tasks args t))))) mod order
  = (zsum (map (fun j => out_amount t j * be_val (nth j abfs []) + be_val (nth j bfs [])) (output_tasks args))) mod order.

(** * Points *)
(** A commutative group, with scalar multiplication, in which [order] annihilates every element. *)
Record PointGroup (order : Z) := mkPG {
  pt : Type;
  peq : pt -> pt -> Prop;
  padd : pt -> pt -> pt;
  pzero : pt;
  pmul : Z -> pt -> pt;
  peq_refl : forall p, peq p p;
  peq_sym : forall p q, peq p q -> peq q p;
  peq_trans : forall p q r, peq p q -> peq q r -> peq p r;
  padd_eq : forall p p' q q', peq p p' -> peq q q' -> peq (padd p q) (padd p' q');
  pmul_eq : forall k p p', peq p p' -> peq (pmul k p) (pmul k p');
  padd_comm : forall p q, peq (padd p q) (padd q p);
  padd_assoc : forall p q r, peq (padd p (padd q r)) (padd (padd p q) r);
  padd_zero : forall p, peq (padd pzero p) p;
  pmul_add : forall j k p, peq (pmul (j + k) p) (padd (pmul j p) (pmul k p));
  pmul_mul : forall j k p, peq (pmul (j * k) p) (pmul j (pmul k p));
  pmul_padd : forall k p q, peq (pmul k (padd p q)) (padd (pmul k p) (pmul k q));
  pmul_one : forall p, peq (pmul 1 p) p;
  pmul_order : forall p, peq (pmul order p) pzero
}.
Arguments pt {order} _. Arguments peq {order} _ _ _. Arguments padd {order} _ _ _. Arguments pzero {order} _. Arguments pmul {order} _ _ _.

(** What the library's bytes stand for: a generator object is the point [hpt asset + abf * base], a
    serialised value commitment is [v * generator + bf * base]. *)
Record Meaning (z : Crypto) {order : Z} (G : PointGroup order) := mkMeaning {
  hpt : bytes -> pt G;
  base : pt G;
  gpt : bytes -> pt G;
  cpt : bytes -> pt G;
  m_gen : forall a b g, gen_generate_blinded z a b = Some g -> peq G (gpt g) (padd G (hpt a) (pmul G (be_val b) base));
  m_commit : forall b v g c s, ped_commit z b v g = Some c -> ped_serialize z c = Some s ->
    peq G (cpt s) (padd G (pmul G v (gpt g)) (pmul G (be_val b) base))
}.
Arguments hpt {z order G} _ _. Arguments base {z order G} _. Arguments gpt {z order G} _ _. Arguments cpt {z order G} _ _.

Section Points.
Context {z : Crypto} {order : Z} {G : PointGroup order} (M : Meaning z G).
Definition psum (l : list (pt G)) : pt G := fold_right (padd G) (pzero G) l.
(** The commitment (or explicit amount) of a spent output, from its descriptor. *)
Definition spent_point (d : input_desc) : pt G :=
  padd G (pmul G (d_amount d mod 2 ^ 64) (padd G (hpt M (d_asset d)) (pmul G (be_val (d_abf d)) (base M)))) (pmul G (be_val (d_bf d)) (base M)).
(** The value of an output as consensus sees it: amount times asset point when explicit, the commitment otherwise. *)
Definition out_point (o : txout) : pt G :=
  match nValue o with
  | x01 :: d => pmul G (be_val d) (hpt M (tl (nAsset o)))
  | c => cpt M c
  end.
Definition explicit_point (x : bytes * Z) : pt G := pmul G (snd x) (hpt M (fst x)).
Definition issuance_point (t : tx) (x : nat * bool) : pt G :=
  match nth_error (vin t) (fst x) with Some i => cpt M (iss_field (snd x) i) | None => pzero G end.
End Points.

(** * Amounts *)
(** total amount of asset [a] *)
Definition amount_of (a : bytes) (l : list (bytes * Z)) : Z := zsum (map snd (filter (fun x => bytes_eqb (fst x) a) l)).
Definition IssuedId (z : Crypto) (t : tx) (x : nat * bool) (a : bytes) : Prop :=
  exists inp e, nth_error (vin t) (fst x) = Some inp /\ EntropyOf z inp e /\ a = c_mid z (e ++ tag32 (if snd x then x02 else x00)).
(** For every asset: spent + newly issued (blinded ones, with asset ids [ids], and explicit ones [extra]) = sent. *)
Definition AmountsBalance (args : blind_args) (t : tx) (ids : list bytes) (extra : list (bytes * Z)) : Prop :=
  forall a, amount_of a (map (fun d => (d_asset d, d_amount d mod 2 ^ 64)) (a_descs args)
                          ++ combine ids (map (issued_amount t) (issuance_tasks args t)) ++ extra)
          = amount_of a (map (fun o => (tl (nAsset o), be_val (tl (nValue o)))) (vout t)).
