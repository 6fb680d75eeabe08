(** Fuzzy matching stated as subsequence embedding. *)
From Verif Require Export Model_Fuzzy.
From stdpp Require Import options.

(** [embeds R q s]: [q]'s elements are related, in order, to elements of [s]. *)
Inductive embeds {A B} (R : A → B → Prop) : list A → list B → Prop :=
| embeds_nil s : embeds R [] s
| embeds_take c q r s : R c r → embeds R q s → embeds R (c :: q) (r :: s)
| embeds_skip q r s : embeds R q s → embeds R q (r :: s).

(** A character of the query stands for itself or for any character whose lower
    case it is. *)
Definition stands_for (lower : Z → Z) (c r : Z) : Prop := c = r ∨ c = lower r.

(** Well-formed UTF-8. *)
Definition valid_utf8 (s : string) : Prop :=
  ∃ rs, Forall (λ r, valid_rune r = true) rs ∧ s = encode rs.

(** Lower-casing the characters of [s] never makes one longer in UTF-8. *)
Definition lower_fits (lower : Z → Z) (s : string) : Prop :=
  ∀ r, r ∈ runes s → (RuneLen (lower r) ≤ RuneLen r)%nat.

(** unicode.ToLower on ASCII, and on two of the letters for which the lower case
    is longer in UTF-8 (U+023A, U+023E); used in examples. *)
Definition toy_lower (r : Z) : Z :=
  if inr 65 90 r then (r + 32)%Z
  else if (r =? 570)%Z then 11365%Z else if (r =? 574)%Z then 11366%Z else r.
