(** Specification: how a validating Elements node checks the amounts of a transaction (Elements Core's VerifyAmounts),
    given the spent outputs. Written from the consensus rules; it shares only the library functions with blind(). *)
From Verif Require Import Base TxModel BlindModel SpecBlind SpecBalance SpecMulti.
Local Open Scope Z_scope.

(** The verifying half of the library. *)
Record Verifier := mkVerifier {
  rp_verify : bytes -> bytes -> bytes -> bytes -> option Z;  (* secp256k1_rangeproof_verify: commit, proof, extra commit, generator; the minimum proved *)
  sp_parse : bytes -> option bytes;                          (* secp256k1_surjectionproof_parse *)
  tally : list bytes -> list bytes -> bool                   (* secp256k1_pedersen_verify_tally *)
}.
Definition money : Z := 2100000000000000.
Definition unspendable (script : bytes) : bool := match script with [] => true | x6a :: _ => true | _ => false end.
Fixpoint opt_concat {A} (l : list (option (list A))) : option (list A) :=
  match l with
  | [] => Some []
  | Some x :: r => match opt_concat r with Some y => Some (x ++ y) | None => None end
  | None :: _ => None
  end.

Section Node.
Variables (z : Crypto) (V : Verifier).

(** The generator of an asset field: explicit or commitment. *)
Definition asset_gen (x : bytes) : option bytes :=
  if (length x =? 33)%nat then
    match x with
    | x01 :: a => gen_generate z a
    | x0a :: _ | x0b :: _ => gen_parse z x
    | _ => None
    end
  else None.
(** The commitment of a value field; an explicit one must be positive and in range. *)
Definition value_commit (x gen : bytes) : option bytes :=
  match x with
  | x01 :: v => if (length v =? 8)%nat && (0 <? be_val v) && (be_val v <=? money) then ped_commit z (zeros 32) (be_val v) gen else None
  | x08 :: _ | x09 :: _ => if (length x =? 33)%nat then ped_parse z x else None
  | _ => None
  end.
(** Explicit amounts carry no range proof; others one that verifies, with a positive minimum if the script is spendable. *)
Definition range_ok (value commit script gen proof : bytes) : bool :=
  match value with
  | x01 :: _ => match proof with [] => true | _ => false end
  | _ => match rp_verify V commit proof script gen with Some m => negb (m =? 0) || unspendable script | None => false end
  end.

(** Entropy, asset and token of an issuance. The token depends on whether the issued amount is confidential. *)
Definition node_entropy (inp : txin) : bytes :=
  if bytes_eqb (is_nonce (assetIssuance inp)) (zeros 32)
  then c_mid z (c_hash z (op_hash (prevout inp) ++ le_bytes 4 (op_n (prevout inp))) ++ is_entropy (assetIssuance inp))
  else is_entropy (assetIssuance inp).
Definition node_id (ps conf : bool) (inp : txin) : bytes :=
  c_mid z (node_entropy inp ++ tag32 (if ps then if conf then x02 else x01 else x00)).
Definition is_committed (x : bytes) : bool := match x with x08 :: _ | x09 :: _ => true | _ => false end.
Definition nothing (x : bytes) : bool := match x with [] => true | _ => false end.

(** Each item is a generator and a commitment: a spent output or an issued amount. *)
Definition node_issued (id value proof : bytes) : option (list (bytes * bytes)) :=
  match value with
  | [] => Some []
  | _ => match gen_generate z id with
         | Some g => match value_commit value g with
                     | Some c => if range_ok value c [] g proof then Some [(g, c)] else None
                     | None => None
                     end
         | None => None
         end
  end.
Definition node_spent (u : txout) : option (list (bytes * bytes)) :=
  match asset_gen (nAsset u) with
  | Some g => match value_commit (nValue u) g with Some c => Some [(g, c)] | None => None end
  | None => None
  end.
(** A reissuance spends the token, blinded with the given nonce, and issues no tokens. *)
Definition reissue_ok (u : txout) (inp : txin) (token : bytes) : bool :=
  bytes_eqb (is_nonce (assetIssuance inp)) (zeros 32)
  || (nothing (is_keys (assetIssuance inp))
      && match gen_generate_blinded z token (is_nonce (assetIssuance inp)) with
         | Some g => match gen_serialize z g with Some s => bytes_eqb s (nAsset u) | None => false end
         | None => false
         end).
Definition node_input (us : list txout) (t : tx) (i : nat) : option (list (bytes * bytes)) :=
  match nth_error us i, nth_error (vin t) i with
  | Some u, Some inp =>
      let iss := assetIssuance inp in
      if nothing (is_amount iss) && nothing (is_keys iss) then node_spent u
      else
        let conf := is_committed (is_amount iss) in
        match nth_error (vtxinwit (wit t)) i with
        | Some w =>
            if reissue_ok u inp (node_id true conf inp) then
              opt_concat [node_spent u; node_issued (node_id false conf inp) (is_amount iss) (iw_issproof w);
                          node_issued (node_id true conf inp) (is_keys iss) (iw_keysproof w)]
            else None
        | None => None
        end
  | _, _ => None
  end.

(** Explicit assets carry no surjection proof; others one that verifies against all input generators. *)
Definition surj_ok (gens : list bytes) (asset gen proof : bytes) : bool :=
  match asset with
  | x01 :: _ => nothing proof
  | _ => match sp_parse V proof with Some p => sp_verify z p (concat gens) (length gens) gen | None => false end
  end.
Definition node_output (gens : list bytes) (t : tx) (j : nat) : option (list bytes) :=
  match nth_error (vout t) j with
  | Some o =>
      let w := outwit_at t j in
      match asset_gen (nAsset o) with
      | Some g =>
          if surj_ok gens (nAsset o) g (ow_surj w) then
            if bytes_eqb (nValue o) (x01 :: zeros 8)
            then if unspendable (scriptPubKey o) && nothing (ow_range w) then Some [] else None
            else match value_commit (nValue o) g with
                 | Some c => if range_ok (nValue o) c (scriptPubKey o) g (ow_range w) then Some [c] else None
                 | None => None
                 end
          else None
      | None => None
      end
  | None => None
  end.
Definition node_check (us : list txout) (t : tx) : bool :=
  (length us =? length (vin t))%nat &&
  match opt_concat (map (node_input us t) (seq 0 (length (vin t)))) with
  | Some items =>
      match opt_concat (map (node_output (map fst items) t) (seq 0 (length (vout t)))) with
      | Some outs => tally V (map snd items) outs
      | None => false
      end
  | None => false
  end.

(** * What the parties know, and the transaction they start from *)
(** The spent output [u] has asset [a] blinded with [abf] (zero if explicit). *)
Definition AssetAs (u : txout) (a abf : bytes) : Prop :=
  (nAsset u = x01 :: a /\ length a = 32%nat /\ abf = zeros 32)
  \/ exists g, gen_generate_blinded z a abf = Some g /\ gen_serialize z g = Some (nAsset u).
Definition SpentAs (u : txout) (d : input_desc) : Prop :=
  AssetAs u (d_asset d) (d_abf d)
  /\ exists g, gen_generate_blinded z (d_asset d) (d_abf d) = Some g
  /\ ((ExplicitValue (nValue u) (d_amount d) /\ 0 < d_amount d <= money /\ d_bf d = zeros 32)
      \/ exists c, 0 <= d_amount d < 2 ^ 64 /\ ped_commit z (d_bf d) (d_amount d) g = Some c /\ ped_serialize z c = Some (nValue u)).
(** A party describes an input truthfully, or gives the commitment of its asset. *)
Definition Knows (args : blind_args) (i : nat) (u : txout) : Prop :=
  exists d, nth_error (a_descs args) i = Some d
  /\ ((d_asset d <> zeros 32 /\ AssetAs u (d_asset d) (d_abf d))
      \/ (d_asset d = zeros 32 /\ exists ag, nth_error (a_aux args) i = Some ag
           /\ (ag = nAsset u /\ hd x00 ag <> x01 \/ exists a g, nAsset u = x01 :: a /\ length a = 32%nat /\ gen_generate z a = Some g /\ gen_serialize z g = Some ag))).

(** A positive explicit amount in range. *)
Definition Amount (x : bytes) : Prop := exists v, ExplicitValue x v /\ 0 < v <= money.
(** Some party blinds the issued amount of input [i]. *)
Definition amount_blinded (calls : list blind_args) (i : nat) (inp : txin) : bool :=
  negb (nothing (is_amount (assetIssuance inp)))
  && existsb (fun args => match nth i (a_asset_keys args) None with Some _ => true | None => false end) calls.
(** Everything explicit; no proofs yet. *)
Record Unblinded (calls : list blind_args) (us : list txout) (t : tx) : Prop := {
  ub_out : forall o, In o (vout t) -> exists a g, ExplicitAsset (nAsset o) a /\ gen_generate z a = Some g
    /\ (Amount (nValue o) \/ (nValue o = x01 :: zeros 8 /\ unspendable (scriptPubKey o) = true));
  ub_outwit : forall j, outwit_at t j = mkOutWit [] [];
  ub_iss : forall inp ps, In inp (vin t) -> iss_field ps inp = [] \/ Amount (iss_field ps inp);
  ub_inwit : forall i ps, iss_proof ps (inwit_at t i) = [];
  ub_ninwit : forall i inp, nth_error (vin t) i = Some inp -> iss_field false inp <> [] \/ iss_field true inp <> [] -> (i < length (vtxinwit (wit t)))%nat;
  (** reissuances spend their token and issue no tokens *)
  ub_reissue : forall i u inp, nth_error us i = Some u -> nth_error (vin t) i = Some inp -> iss_field false inp <> [] \/ iss_field true inp <> [] ->
    reissue_ok u inp (node_id true (amount_blinded calls i inp) inp) = true
}.
(** Tokens of a new issuance are blinded exactly when its amount is, and every party knows. *)
Definition TokenKeys (calls : list blind_args) (t : tx) : Prop :=
  forall args i inp, In args calls -> nth_error (vin t) i = Some inp -> is_nonce (assetIssuance inp) = zeros 32 -> is_keys (assetIssuance inp) <> [] ->
    (nth i (a_token_keys args) None <> None <-> amount_blinded calls i inp = true).

(** All that is issued, in order: (id, amount). *)
Definition issued_at (calls : list blind_args) (t : tx) (x : nat * bool) : list (bytes * Z) :=
  match nth_error (vin t) (fst x) with
  | Some inp => if nothing (iss_field (snd x) inp) then [] else [(node_id (snd x) (amount_blinded calls (fst x) inp) inp, be_val (tl (iss_field (snd x) inp)))]
  | None => []
  end.
Definition issued (calls : list blind_args) (t : tx) : list (bytes * Z) := flat_map (issued_at calls t) (issuance_slots (length (vin t))).
(** For every asset: spent + issued = sent. *)
Definition Conserves (calls : list blind_args) (real : list input_desc) (t : tx) : Prop :=
  forall a, amount_of a (map (fun d => (d_asset d, d_amount d)) real ++ issued calls t)
          = amount_of a (map (fun o => (tl (nAsset o), be_val (tl (nValue o)))) (vout t)).
(** The parties in turn turned [t] into [t'], starting from a balanced unblinded transaction whose inputs they know. *)
Record Ready (calls : list blind_args) (us : list txout) (real : list input_desc) (t t' : tx) : Prop := {
  rd_calls : calls <> [] \/ forall inp ps, In inp (vin t) -> iss_field ps inp = [];   (* or no one blinds and nothing is issued *)
  rd_blindings : Blindings z calls t t';
  rd_unblinded : Unblinded calls us t;
  rd_inputs : length us = length (vin t);
  rd_spent : Forall2 SpentAs us real;
  rd_knows : forall args i u, In args calls -> nth_error us i = Some u -> Knows args i u;
  rd_once : described_once calls real;
  rd_conserves : Conserves calls real t
}.
(** No auxiliary generator beyond those of the inputs. *)
Definition NoSpareGenerators (calls : list blind_args) (t : tx) : Prop :=
  forall args, In args calls -> (length (a_aux args) <= length (vin t))%nat.
End Node.

(** Contract of the verifying half: what is made verifies. *)
Record VerifierLaws (z : Crypto) (V : Verifier) {order : Z} {G : PointGroup order} (M : Meaning z G) : Prop := {
  vl_range : forall minv commit bf nonce e bits v msg extra gen proof, 0 <= v < 2 ^ 64 ->
    ped_commit z bf v gen = Some commit -> rp_sign z minv commit bf nonce e bits v msg extra gen = Some proof ->
    exists m, rp_verify V commit proof extra gen = Some m /\ minv <= m;
  vl_surj : forall proof0 gens n gen i inb outb proof, sp_generate z proof0 gens n gen i inb outb = Some proof ->
    sp_parse V (sp_serialize z proof) = Some proof;
  (** a positive multiple of a generator is not the point at infinity, and commitments can be serialised *)
  vl_commit : forall a b g v, gen_generate_blinded z a b = Some g -> 0 < v < 2 ^ 64 -> exists c, ped_commit z (zeros 32) v g = Some c;
  vl_ser : forall b v g c, ped_commit z b v g = Some c -> exists s, ped_serialize z c = Some s;
  vl_tally : forall cs cs' ss ss', Forall2 (fun c s => ped_serialize z c = Some s) cs ss -> Forall2 (fun c s => ped_serialize z c = Some s) cs' ss' ->
    peq G (psum (map (cpt M) ss)) (psum (map (cpt M) ss')) -> tally V cs cs' = true
}.
