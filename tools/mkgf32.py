#!/usr/bin/env python3
"""Writes rocq/theories/GF32.v: the 32-element field as an enumerated type with
operation tables (so that vm_compute runs them as jump tables)."""
import os
P = 0x29


def mul5(a, b):
    r = 0
    for i in range(5):
        if b >> i & 1:
            r ^= a << i
    for i in range(9, 4, -1):
        if r >> i & 1:
            r ^= P << (i - 5)
    return r


o = []
w = o.append
w('(** GENERATED by tools/mkgf32.py: the field with 32 elements as an enumerated type.')
w('    Element [Fk] stands for the 5-bit number k, read as a polynomial over GF(2)')
w('    modulo a^5 + a^3 + 1.  The tables are checked below against that description')
w('    (lemmas [f32_add_z], [f32_mul_z]).  Not a model of any code: used in proofs. *)')
w('From Coq Require Import ZArith List Bool Lia Ring.')
w('Import ListNotations.')
w('Local Open Scope Z_scope.')
w('')
w('Inductive f32 := ' + ' | '.join('F%d' % i for i in range(32)) + '.')
w('')
w('Definition f32_z (a : f32) : Z := match a with ' + ' | '.join('F%d => %d' % (i, i) for i in range(32)) + ' end.')
w('')
w('Definition all32 : list f32 := [' + '; '.join('F%d' % i for i in range(32)) + '].')
w('')


def table(name, f):
    w('Definition %s (a b : f32) : f32 :=' % name)
    w('  match a with')
    for a in range(32):
        w('  | F%d => match b with ' % a + ' | '.join('F%d => F%d' % (b, f(a, b)) for b in range(32)) + ' end')
    w('  end.')
    w('')


table('f32_add', lambda a, b: a ^ b)
table('f32_mul', mul5)
inv = [0] * 32
for a in range(1, 32):
    for b in range(1, 32):
        if mul5(a, b) == 1:
            inv[a] = b
w('Definition f32_inv (a : f32) : f32 := match a with ' + ' | '.join('F%d => F%d' % (i, inv[i]) for i in range(32)) + ' end.')
w('')
w('''Definition f32_nz (a : f32) : bool := match a with F0 => false | _ => true end.

Definition f32_eqb (a b : f32) : bool := match f32_add a b with F0 => true | _ => false end.

(** The field element with a given value (total; only used on 0..31). *)
Definition f32_of (z : Z) : f32 := nth (Z.to_nat z) all32 F0.

Lemma all32_all a : In a all32.
Proof. destruct a; cbv; tauto. Qed.

Lemma forall32_1 (f g : f32 -> f32) :
  forallb (fun a => f32_eqb (f a) (g a)) all32 = true ->
  (forall a b, f32_eqb a b = true -> a = b) ->
  forall a, f a = g a.
Proof. intros H E a. apply E. rewrite forallb_forall in H. apply (H a (all32_all a)). Qed.

Lemma f32_eqb_eq a b : f32_eqb a b = true -> a = b.
Proof. destruct a; destruct b; cbv; intros H; try reflexivity; discriminate H. Qed.

Lemma f32_eqb_refl a : f32_eqb a a = true.
Proof. destruct a; reflexivity. Qed.

Definition f32_eq_dec (a b : f32) : {a = b} + {a <> b}.
Proof. decide equality. Defined.

Lemma forall32_3 (f g : f32 -> f32 -> f32 -> f32) :
  forallb (fun a => forallb (fun b => forallb (fun c => f32_eqb (f a b c) (g a b c)) all32) all32) all32 = true ->
  forall a b c, f a b c = g a b c.
Proof.
  intros H a b c. apply f32_eqb_eq.
  rewrite forallb_forall in H. specialize (H a (all32_all a)). cbv beta in H.
  rewrite forallb_forall in H. specialize (H b (all32_all b)). cbv beta in H.
  rewrite forallb_forall in H. exact (H c (all32_all c)).
Qed.

Lemma f32_add_assoc a b c : f32_add a (f32_add b c) = f32_add (f32_add a b) c.
Proof. revert a b c. apply (forall32_3 (fun a b c => f32_add a (f32_add b c)) (fun a b c => f32_add (f32_add a b) c)). vm_compute. reflexivity. Qed.

Lemma f32_mul_assoc a b c : f32_mul a (f32_mul b c) = f32_mul (f32_mul a b) c.
Proof. revert a b c. apply (forall32_3 (fun a b c => f32_mul a (f32_mul b c)) (fun a b c => f32_mul (f32_mul a b) c)). vm_compute. reflexivity. Qed.

Lemma f32_distr a b c : f32_mul (f32_add a b) c = f32_add (f32_mul a c) (f32_mul b c).
Proof. revert a b c. apply (forall32_3 (fun a b c => f32_mul (f32_add a b) c) (fun a b c => f32_add (f32_mul a c) (f32_mul b c))). vm_compute. reflexivity. Qed.

Lemma f32_add_comm a b : f32_add a b = f32_add b a.
Proof. exact (forall32_3 (fun a b _ => f32_add a b) (fun a b _ => f32_add b a) ltac:(vm_compute; reflexivity) a b F0). Qed.

Lemma f32_mul_comm a b : f32_mul a b = f32_mul b a.
Proof. exact (forall32_3 (fun a b _ => f32_mul a b) (fun a b _ => f32_mul b a) ltac:(vm_compute; reflexivity) a b F0). Qed.

Lemma f32_add_0_l a : f32_add F0 a = a. Proof. destruct a; reflexivity. Qed.
Lemma f32_add_0_r a : f32_add a F0 = a. Proof. destruct a; reflexivity. Qed.
Lemma f32_mul_1_l a : f32_mul F1 a = a. Proof. destruct a; reflexivity. Qed.
Lemma f32_mul_0_l a : f32_mul F0 a = F0. Proof. destruct a; reflexivity. Qed.
Lemma f32_mul_0_r a : f32_mul a F0 = F0. Proof. destruct a; reflexivity. Qed.
Lemma f32_add_self a : f32_add a a = F0. Proof. destruct a; reflexivity. Qed.
Lemma f32_inv_l a : a <> F0 -> f32_mul (f32_inv a) a = F1.
Proof. destruct a; intros H; try reflexivity. contradiction H; reflexivity. Qed.

Lemma f32_ring : ring_theory F0 F1 f32_add f32_mul f32_add (fun a => a) (@eq f32).
Proof.
  constructor; intros; auto using f32_add_0_l, f32_add_comm, f32_add_assoc, f32_mul_1_l,
    f32_mul_comm, f32_mul_assoc, f32_distr, f32_add_self.
Qed.
Add Ring f32_ring_inst : f32_ring.

Lemma f32_nz_spec a : f32_nz a = true <-> a <> F0.
Proof. destruct a; cbv; split; congruence. Qed.

Lemma f32_mul_eq0 a b : f32_mul a b = F0 -> a = F0 \\/ b = F0.
Proof.
  intros H. destruct (f32_eq_dec a F0) as [|Ha]; [left; assumption|right].
  rewrite <- (f32_mul_1_l b), <- (f32_inv_l a Ha), <- f32_mul_assoc, H. apply f32_mul_0_r.
Qed.

Lemma f32_z_range a : 0 <= f32_z a < 32. Proof. destruct a; cbv; split; congruence. Qed.
Lemma f32_of_z a : f32_of (f32_z a) = a. Proof. destruct a; reflexivity. Qed.
Lemma f32_z_of z : 0 <= z < 32 -> f32_z (f32_of z) = z.
Proof.
  intros H. assert (Hn : (Z.to_nat z < 32)%nat) by lia.
  rewrite <- (Z2Nat.id z) at 2 by lia. unfold f32_of.
  revert Hn. generalize (Z.to_nat z). clear. intros n Hn.
  do 32 (destruct n as [|n]; [reflexivity|]). lia.
Qed.
Lemma f32_z_inj a b : f32_z a = f32_z b -> a = b.
Proof. intros H. rewrite <- (f32_of_z a), H. apply f32_of_z. Qed.

Lemma f32_add_z a b : f32_z (f32_add a b) = Z.lxor (f32_z a) (f32_z b).
Proof. destruct a; destruct b; reflexivity. Qed.

(** Carry-less product reduced modulo 0b101001. *)
Definition clmul5 (a b : Z) : Z :=
  let s k := if Z.testbit b k then Z.shiftl a k else 0 in
  let p := Z.lxor (s 0) (Z.lxor (s 1) (Z.lxor (s 2) (Z.lxor (s 3) (s 4)))) in
  let red k p := if Z.testbit p k then Z.lxor p (Z.shiftl 0x29 (k - 5)) else p in
  red 5 (red 6 (red 7 (red 8 (red 9 p)))).

Lemma f32_mul_z a b : f32_z (f32_mul a b) = clmul5 (f32_z a) (f32_z b).
Proof. destruct a; destruct b; vm_compute; reflexivity. Qed.
''')
out = os.path.join(os.path.dirname(__file__), '..', 'rocq', 'theories', 'GF32.v')
open(out, 'w').write('\n'.join(o))
