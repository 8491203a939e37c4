(** Linear-algebra search over GF(32): no short combination of given columns
    equals a given target.  Used for the error-detection theorem. *)
From Coq Require Import ZArith List Bool Lia.
From Verif Require Import GF32.
Import ListNotations.

Definition vec := list f32.

Fixpoint vadd (a b : vec) : vec :=
  match a, b with
  | x :: a', y :: b' => f32_add x y :: vadd a' b'
  | _, _ => []
  end.

Fixpoint vscale (k : f32) (v : vec) : vec :=
  match v with [] => [] | x :: r => f32_mul k x :: vscale k r end.

(** [v + k * c] *)
Fixpoint vaxpy (k : f32) (c v : vec) : vec :=
  match c, v with
  | x :: c', y :: v' => f32_add y (f32_mul k x) :: vaxpy k c' v'
  | _, _ => []
  end.

Fixpoint vzero (v : vec) : bool :=
  match v with [] => true | F0 :: r => vzero r | _ :: _ => false end.

Fixpoint veqb (a b : vec) : bool :=
  match a, b with
  | [], [] => true
  | x :: a', y :: b' => match f32_add x y with F0 => veqb a' b' | _ => false end
  | _, _ => false
  end.

(** Projection along [c]: eliminate the first non-zero coordinate of [c]. *)
Fixpoint proj (c v : vec) : vec :=
  match c, v with
  | x :: c', y :: v' =>
      match x with
      | F0 => y :: proj c' v'
      | _ => vaxpy (f32_mul y (f32_inv x)) c' v'
      end
  | _, _ => []
  end.

(** Scale so that the first non-zero coordinate is one. *)
Fixpoint vnorm (v : vec) : vec :=
  match v with
  | [] => []
  | F0 :: r => F0 :: vnorm r
  | x :: _ => vscale (f32_inv x) v
  end.

Fixpoint vmem (x : vec) (l : list vec) : bool :=
  match l with [] => false | y :: r => if veqb x y then true else vmem x r end.

Fixpoint distinct_nz (l : list vec) : bool :=
  match l with
  | [] => true
  | x :: r => if vzero x then false else if vmem x r then false else distinct_nz r
  end.

(** [t] is not a combination of two of the columns. *)
Definition pair_ok (t : vec) (cols : list vec) : bool :=
  if vzero t then false else distinct_nz (map (fun d => vnorm (proj t d)) cols).

(** [t] is not a combination of [n + 2] of the columns. *)
Fixpoint search (n : nat) (t : vec) (cols : list vec) : bool :=
  match n with
  | O => pair_ok t cols
  | S n' =>
      if vzero t then false else
      (fix go (cols : list vec) : bool :=
         match cols with
         | [] => true
         | c :: r =>
             if vzero c then false else
             if search n' (proj c t) (map (proj c) r) then go r else false
         end) cols
  end.
