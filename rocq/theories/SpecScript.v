(** Specification of script pushes and peg-out scripts, independent of the model. *)
From Coq Require Import Strings.String List ZArith.
From Coq Require Import Init.Byte.
From Verif Require Import Base.
Import ListNotations.
Local Open Scope Z_scope.

(** [Push d s]: the bytes [s] are one push instruction for the data [d],
    minimal or not. *)
Inductive Push (d : bytes) : bytes -> Prop :=
| push_direct o : bz o <= 75 -> bz o = blen d -> Push d (o :: d)
| push_1 l : bz l = blen d -> Push d (x4c :: l :: d)
| push_2 l0 l1 : bz l0 + 256 * bz l1 = blen d -> Push d (x4d :: l0 :: l1 :: d)
| push_4 l0 l1 l2 l3 : bz l0 + 256 * bz l1 + 65536 * bz l2 + 16777216 * bz l3 = blen d ->
    Push d (x4e :: l0 :: l1 :: l2 :: l3 :: d).

(** [PegoutScript g s script]: OP_RETURN, a push of the 32-byte [g], a push of the
    non-empty [s], anything after. *)
Definition PegoutScript (g s script : bytes) : Prop :=
  exists p q rest, script = x6a :: p ++ q ++ rest
    /\ Push g p /\ Push s q /\ length g = 32%nat /\ s <> [].

(** The opcode assignment of the Elements node (script/script.h). *)
Local Open Scope string_scope.
Definition reference_opcodes : list (string * Z) := [
  ("OP_DETERMINISTICRANDOM", 0xc0);
  ("OP_CHECKSIGFROMSTACK", 0xc1);
  ("OP_CHECKSIGFROMSTACKVERIFY", 0xc2);
  ("OP_SUBSTR_LAZY", 0xc3);
  ("OP_SHA256INITIALIZE", 0xc4);
  ("OP_SHA256UPDATE", 0xc5);
  ("OP_SHA256FINALIZE", 0xc6);
  ("OP_INSPECTINPUTOUTPOINT", 0xc7);
  ("OP_INSPECTINPUTASSET", 0xc8);
  ("OP_INSPECTINPUTVALUE", 0xc9);
  ("OP_INSPECTINPUTSCRIPTPUBKEY", 0xca);
  ("OP_INSPECTINPUTSEQUENCE", 0xcb);
  ("OP_INSPECTINPUTISSUANCE", 0xcc);
  ("OP_PUSHCURRENTINPUTINDEX", 0xcd);
  ("OP_INSPECTOUTPUTASSET", 0xce);
  ("OP_INSPECTOUTPUTVALUE", 0xcf);
  ("OP_INSPECTOUTPUTNONCE", 0xd0);
  ("OP_INSPECTOUTPUTSCRIPTPUBKEY", 0xd1);
  ("OP_INSPECTVERSION", 0xd2);
  ("OP_INSPECTLOCKTIME", 0xd3);
  ("OP_INSPECTNUMINPUTS", 0xd4);
  ("OP_INSPECTNUMOUTPUTS", 0xd5);
  ("OP_TXWEIGHT", 0xd6);
  ("OP_ADD64", 0xd7);
  ("OP_SUB64", 0xd8);
  ("OP_MUL64", 0xd9);
  ("OP_DIV64", 0xda);
  ("OP_NEG64", 0xdb);
  ("OP_LESSTHAN64", 0xdc);
  ("OP_LESSTHANOREQUAL64", 0xdd);
  ("OP_GREATERTHAN64", 0xde);
  ("OP_GREATERTHANOREQUAL64", 0xdf);
  ("OP_SCRIPTNUMTOLE64", 0xe0);
  ("OP_LE64TOSCRIPTNUM", 0xe1);
  ("OP_LE32TOLE64", 0xe2);
  ("OP_ECMULSCALARVERIFY", 0xe3);
  ("OP_TWEAKVERIFY", 0xe4) ].
