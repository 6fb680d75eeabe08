(** Property C37: fuzzy matching. *)
From Verif Require Import Spec_Fuzzy Proof_Fuzzy.
From Coq Require Import Lia.
From stdpp Require Import options.

(** ** C37 *)

(** On well-formed text whose lower case is not longer (all ASCII text, for
    instance), Match decides subsequence matching, for any query bytes.
    Missing from the full property: text that is not UTF-8, and letters whose
    lower case is longer; it is false for both (below). *)
Theorem C37_match_is_subsequence_partial : ∀ lower s q,
  valid_utf8 s → lower_fits lower s →
  ∃ b, Match lower s q = Ok b ∧ (b = true ↔ embeds (stands_for lower) (runes q) (runes s)).
Proof. exact Match_spec. Qed.
Print Assumptions C37_match_is_subsequence_partial.

Example C37_example :
  valid_utf8 "Work/Email" ∧ lower_fits toy_lower "Work/Email" ∧
  Match toy_lower "Work/Email" "wke" = Ok true ∧ Match toy_lower "Work/Email" "WE" = Ok true ∧
  Match toy_lower "Work/Email" "R" = Ok false ∧ Match toy_lower "Work/Email" "ew" = Ok false.
Proof.
  split; [apply valid_utf8_runes; compute_dec|]. split.
  { apply ascii_lower_fits.
    - intros r Hr. unfold toy_lower. destruct (inr 65 90 r) eqn:E; [apply inr_spec in E; lia|].
      replace (r =? 570)%Z with false by lia. replace (r =? 574)%Z with false by lia. done.
    - assert (Forall (λ c, (byteZ c < 128)%Z) (String.list_ascii_of_string "Work/Email")) as H by compute_dec.
      by rewrite Forall_forall in H. }
  repeat split; compute_dec.
Qed.

(** On well-formed text it never crashes and never matches wrongly. *)
Theorem C37_no_false_match : ∀ lower s q,
  valid_utf8 s →
  ∃ b, Match lower s q = Ok b ∧ (b = true → embeds (stands_for lower) (runes q) (runes s)).
Proof. exact Match_sound. Qed.
Print Assumptions C37_no_false_match.

(** The ASCII corollary: plain ASCII names always match exactly, with any
    lower-casing that keeps ASCII ASCII. *)
Theorem C37_ascii_names_exact : ∀ lower s q,
  (∀ r, (0 ≤ r < 128)%Z → (0 ≤ lower r < 128)%Z) →
  ascii_str s →
  ∃ b, Match lower s q = Ok b ∧ (b = true ↔ embeds (stands_for lower) (runes q) (runes s)).
Proof.
  intros lower s q Hl Ha. apply Match_spec; [by apply ascii_valid|by apply ascii_lower_fits].
Qed.
Print Assumptions C37_ascii_names_exact.

(** A name with a byte that is not UTF-8 can crash the search (Go's lower-casing
    leaves U+FFFD alone and does not produce it). *)
Theorem C37_match_no_crash_refuted :
  ∃ s q, ¬ valid_utf8 s ∧ Match toy_lower s q = Panic.
Proof.
  exists (bytes_str [97; 255]%Z), (bytes_str [255]%Z). split; [|compute_dec].
  intros (rs & Hv & E). assert (runes (bytes_str [97; 255]%Z) = [97; RuneError]%Z) as Hr by compute_dec.
  rewrite E, runes_encode in Hr by done. subst rs. by vm_compute in E.
Qed.
Print Assumptions C37_match_no_crash_refuted.

(** The length test before the search hides matches: U+023A against its lower
    case U+2C65. *)
Theorem C37_match_is_subsequence_refuted :
  ∃ s q, valid_utf8 s ∧ valid_utf8 q ∧
    embeds (stands_for toy_lower) (runes q) (runes s) ∧ Match toy_lower s q = Ok false.
Proof.
  exists (encode [570]%Z), (encode [11365]%Z).
  split; [apply valid_utf8_runes; compute_dec|]. split; [apply valid_utf8_runes; compute_dec|].
  split; [|compute_dec].
  assert (runes (encode [570]%Z) = [570]%Z) as -> by compute_dec.
  assert (runes (encode [11365]%Z) = [11365]%Z) as -> by compute_dec.
  apply embeds_take; [by right|constructor].
Qed.
Print Assumptions C37_match_is_subsequence_refuted.
