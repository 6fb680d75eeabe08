(** What altering the start of a file's IV does to what Decrypt sees. *)
From Verif Require Export Spec_Crypt.
From stdpp Require Import options.
#[local] Open Scope nat_scope.

(** Adding [d] (16 bytes) to the start of a text. *)
Definition flip16 (d b : bytes) : bytes := xor_bytes (take 16 b) d ++ drop 16 b.

(** Primitives like [toy], but with a hash that gives back the bytes of the
    input from number [n] on: with [n] the place of the IV in a file, the IV and
    the start of the plaintext. *)
Definition echo (n : nat) : prims := {|
  sha256 := λ b, fit 32 b;
  sha512 := λ b, fit 64 (drop n b);
  scrypt := λ p s l, fit l (p ++ s);
  blk_enc := λ a k b, xor_bytes b (take (alg_block a) k);
  blk_dec := λ a k b, xor_bytes b (take (alg_block a) k) |}.
