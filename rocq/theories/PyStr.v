(** Coq string literals as Python strs (lists of code points), for examples. *)
From Coq Require Import ZArith List.
From Coq Require Import Strings.String Strings.Ascii.
Import ListNotations.

Definition str (s : String.string) : list Z :=
  List.map (fun c => Z.of_N (N_of_ascii c)) (list_ascii_of_string s).
Arguments str s%string_scope.
