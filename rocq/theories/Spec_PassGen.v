(** Notions used to state the properties of password generation. *)
From Verif Require Export Model_PassGen.
From stdpp Require Import options.

(** The classes and their settings. *)
Definition class_of (c : classes) : list (string * Z) :=
  [(alphabetUppercase, c_upper c); (alphabetLowercase, c_lower c); (alphabetNumbers, c_numbers c);
   (alphabetBasicSymbols, c_basic c); (alphabetExtraSymbols, c_extra c)].

(** How many characters of [pw] are in an alphabet. *)
Definition count_in (alphabet : string) (pw : bytes) : nat :=
  length (filter (λ x, x ∈ str_bytes alphabet) pw).

(** The sum of the minima asked for. *)
Definition minima (c : classes) : Z := foldr (λ i acc, (Z.max 0 i + acc)%Z) 0%Z (class_list c).

(** The password is as asked for. *)
Definition meets (len : Z) (c : classes) (pw : bytes) : Prop :=
  Z.of_nat (length pw) = len ∧
  (∀ a n, (a, n) ∈ class_of c → (n ≤ Z.of_nat (count_in a pw))%Z ∧ ((n < 0)%Z → count_in a pw = 0%nat)) ∧
  (∀ x, x ∈ pw → ∃ a n, (a, n) ∈ class_of c ∧ (0 ≤ n)%Z ∧ x ∈ str_bytes a).

Definition all_off (c : classes) : Prop := ∀ a n, (a, n) ∈ class_of c → (n < 0)%Z.
#[global] Instance all_off_dec c : Decision (all_off c).
Proof.
  refine (cast_if (decide (Forall (λ p, (p.2 < 0)%Z) (class_of c)))).
  - intros a n H. rewrite Forall_forall in f. by apply (f (a, n)).
  - intros H. apply n, Forall_forall. intros [a m] Hin. by apply (H a m).
Defined.

(** No integer overflow while adding up the minima and sizing the buffer. *)
Definition no_overflow (len : Z) (c : classes) : Prop :=
  (minima c < 2 ^ 63)%Z ∧ (3 * len < 2 ^ 63)%Z.
