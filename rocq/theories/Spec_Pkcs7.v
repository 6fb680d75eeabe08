(** RFC 5652 padding, stated on the bytes. *)
From Verif Require Export Model_Pkcs7.
From stdpp Require Import options.

(** [p] is [b] followed by [n] bytes of value [n]. *)
Definition padded (b : bytes) (n : nat) (p : bytes) : Prop :=
  ∃ c, byteZ c = Z.of_nat n ∧ p = b ++ replicate n c.
