(** Property C38: padding. *)
From Verif Require Import Spec_Pkcs7 Proof_Pkcs7.
From Coq Require Import Lia.
From stdpp Require Import options.

(** ** C38 *)

Theorem C38_pad_round_trip : ∀ b k,
  (1 ≤ k ≤ 255)%Z →
  ∃ p, Pad b k = Ok p ∧ Unpad p = Ok b ∧ (Z.of_nat (length p) mod k = 0)%Z ∧
    (length b < length p)%nat ∧ (Z.of_nat (length p) ≤ Z.of_nat (length b) + k)%Z.
Proof. exact Unpad_Pad. Qed.
Print Assumptions C38_pad_round_trip.

(** The padding is RFC 5652's: n bytes of value n. *)
Theorem C38_pad_is_rfc5652 : ∀ b k,
  (1 ≤ k ≤ 255)%Z →
  ∃ n p, Pad b k = Ok p ∧ padded b n p ∧ (1 ≤ Z.of_nat n ≤ k)%Z ∧ (Z.of_nat (length p) mod k = 0)%Z.
Proof. exact Pad_spec. Qed.
Print Assumptions C38_pad_is_rfc5652.

Example C38_example :
  let b := String.list_ascii_of_string "blobpass" in
  Pad b 40 = Ok (b ++ replicate 32 (Zbyte 32)) ∧ Unpad (b ++ replicate 32 (Zbyte 32)) = Ok b ∧
  Pad [] 1 = Ok [Zbyte 1].
Proof. split; [compute_dec|]. split; compute_dec. Qed.

Theorem C38_unpad_no_crash : ∀ b, Unpad b ≠ Panic.
Proof. exact Unpad_no_panic. Qed.
Print Assumptions C38_unpad_no_crash.

(** Unpad accepts a string exactly when it ends in n bytes of value n.  What is
    missing from "only well-formed padding": n may be 0. *)
Theorem C38_unpad_accepts_partial : ∀ b r,
  Unpad b = Ok r ↔
  ∃ n c, last b = Some c ∧ byteZ c = Z.of_nat n ∧ (n ≤ length b)%nat ∧ b = r ++ replicate n c.
Proof. exact Unpad_spec. Qed.
Print Assumptions C38_unpad_accepts_partial.

Theorem C38_unpad_accepts_refuted :
  ∃ b r, Unpad b = Ok r ∧ ∀ n, (1 ≤ n)%nat → ¬ padded r n b.
Proof.
  exists [Zbyte 7; Zbyte 0], [Zbyte 7; Zbyte 0]. split; [compute_dec|].
  intros n Hn (c & _ & E). apply (f_equal length) in E. rewrite app_length, replicate_length in E.
  simpl in E. lia.
Qed.
Print Assumptions C38_unpad_accepts_refuted.

(** Beyond 255 the padding cannot be undone, which is why the range matters. *)
Theorem C38_large_block_refuted :
  ∃ b k p, (1 ≤ k)%Z ∧ Pad b k = Ok p ∧ Unpad p ≠ Ok b.
Proof.
  exists [], 256%Z, (replicate 256 (Zbyte 0)). split; [lia|]. split; compute_dec.
Qed.
Print Assumptions C38_large_block_refuted.
