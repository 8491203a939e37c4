(** Specification for C93, separate from the model of the game. *)
From Verif Require Import Base GameModel.
Local Open Scope Z_scope.

(** [h] is the first block from [lo] on for which [P]. *)
Definition First (P : Z -> bool) (lo h : Z) : Prop := lo <= h /\ P h = true /\ forall x, lo <= x < h -> P x = false.
Definition NeverFrom (P : Z -> bool) (lo : Z) : Prop := forall x, lo <= x -> P x = false.
Definition NotBefore (P : Z -> bool) (lo hi : Z) : Prop := forall x, lo <= x < hi -> P x = false.

(** Who has an output. *)
Definition Has (p : who) (s : spent) : Prop := exists h, s = Some (h, p).
Definition HasAt (p : who) (h : Z) (s : spent) : Prop := s = Some (h, p).
