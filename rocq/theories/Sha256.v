(** SHA-256 (FIPS 180-4), used in test vectors only: hashlib.sha256, bitcointx Hash and CSHA256.Midstate as concrete functions. *)
From Verif Require Import Base.
From Coq Require Import NArith.
Local Open Scope N_scope.

Definition w32 (x : N) : N := N.land x 0xffffffff.
Definition rotr (n x : N) : N := N.lor (N.shiftr x n) (w32 (N.shiftl x (32 - n))).
Definition ch (x y z : N) : N := N.lxor (N.land x y) (N.land (N.lxor x 0xffffffff) z).
Definition maj (x y z : N) : N := N.lxor (N.lxor (N.land x y) (N.land x z)) (N.land y z).
Definition bsig0 (x : N) : N := N.lxor (N.lxor (rotr 2 x) (rotr 13 x)) (rotr 22 x).
Definition bsig1 (x : N) : N := N.lxor (N.lxor (rotr 6 x) (rotr 11 x)) (rotr 25 x).
Definition ssig0 (x : N) : N := N.lxor (N.lxor (rotr 7 x) (rotr 18 x)) (N.shiftr x 3).
Definition ssig1 (x : N) : N := N.lxor (N.lxor (rotr 17 x) (rotr 19 x)) (N.shiftr x 10).

Definition K256 : list N := [
  0x428a2f98;0x71374491;0xb5c0fbcf;0xe9b5dba5;0x3956c25b;0x59f111f1;0x923f82a4;0xab1c5ed5;
  0xd807aa98;0x12835b01;0x243185be;0x550c7dc3;0x72be5d74;0x80deb1fe;0x9bdc06a7;0xc19bf174;
  0xe49b69c1;0xefbe4786;0x0fc19dc6;0x240ca1cc;0x2de92c6f;0x4a7484aa;0x5cb0a9dc;0x76f988da;
  0x983e5152;0xa831c66d;0xb00327c8;0xbf597fc7;0xc6e00bf3;0xd5a79147;0x06ca6351;0x14292967;
  0x27b70a85;0x2e1b2138;0x4d2c6dfc;0x53380d13;0x650a7354;0x766a0abb;0x81c2c92e;0x92722c85;
  0xa2bfe8a1;0xa81a664b;0xc24b8b70;0xc76c51a3;0xd192e819;0xd6990624;0xf40e3585;0x106aa070;
  0x19a4c116;0x1e376c08;0x2748774c;0x34b0bcb5;0x391c0cb3;0x4ed8aa4a;0x5b9cca4f;0x682e6ff3;
  0x748f82ee;0x78a5636f;0x84c87814;0x8cc70208;0x90befffa;0xa4506ceb;0xbef9a3f7;0xc67178f2].
Record sha_state := mkS { sA : N; sB : N; sC : N; sD : N; sE : N; sF : N; sG : N; sH : N }.
Definition sha_iv : sha_state := mkS 0x6a09e667 0xbb67ae85 0x3c6ef372 0xa54ff53a 0x510e527f 0x9b05688c 0x1f83d9ab 0x5be0cd19.

(** message schedule: [w] holds the last 16 words *)
Fixpoint sha_rounds (ks w : list N) (s : sha_state) : sha_state :=
  match ks, w with
  | k :: ks, w0 :: wr =>
      let t1 := w32 (sH s + bsig1 (sE s) + ch (sE s) (sF s) (sG s) + k + w0) in
      let t2 := w32 (bsig0 (sA s) + maj (sA s) (sB s) (sC s)) in
      let w16 := w32 (ssig1 (nth 13 wr 0) + nth 8 wr 0 + ssig0 (nth 0 wr 0) + w0) in
      sha_rounds ks (wr ++ [w16]) (mkS (w32 (t1 + t2)) (sA s) (sB s) (sC s) (w32 (sD s + t1)) (sE s) (sF s) (sG s))
  | _, _ => s
  end.
Fixpoint be_words (b : bytes) : list N :=
  match b with
  | a :: b :: c :: d :: r => (Byte.to_N a * 16777216 + Byte.to_N b * 65536 + Byte.to_N c * 256 + Byte.to_N d) :: be_words r
  | _ => []
  end.
Definition sha_block (s : sha_state) (b : bytes) : sha_state :=
  let r := sha_rounds K256 (be_words b) s in
  mkS (w32 (sA s + sA r)) (w32 (sB s + sB r)) (w32 (sC s + sC r)) (w32 (sD s + sD r))
      (w32 (sE s + sE r)) (w32 (sF s + sF r)) (w32 (sG s + sG r)) (w32 (sH s + sH r)).
Fixpoint sha_blocks (n : nat) (s : sha_state) (b : bytes) : sha_state :=
  match n with O => s | S n => sha_blocks n (sha_block s (firstn 64 b)) (skipn 64 b) end.
Definition sha_out (s : sha_state) : bytes :=
  flat_map (fun w => be_bytes 4 (Z.of_N w)) [sA s; sB s; sC s; sD s; sE s; sF s; sG s; sH s].
Definition sha_pad (b : bytes) : bytes :=
  let l := length b in
  let k := ((119 - (l mod 64)) mod 64)%nat in
  b ++ x80 :: repeat x00 k ++ be_bytes 8 (8 * Z.of_nat l)%Z.
Definition sha256 (b : bytes) : bytes :=
  let p := sha_pad b in sha_out (sha_blocks (length p / 64) sha_iv p).
(** bitcointx [Hash] *)
Definition sha256d (b : bytes) : bytes := sha256 (sha256 b).
(** bitcointx [CSHA256().Write(b).Midstate()] for 64 bytes *)
Definition sha_midstate (b : bytes) : bytes := sha_out (sha_block sha_iv b).
