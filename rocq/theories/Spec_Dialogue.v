(** Notions used to state the properties of the dialogues. *)
From Verif Require Export Model_Dialogue Spec_PassGen.
From stdpp Require Import options.

Definition newline : string := String (Zbyte 10) "".

(** Lines that can be part of the text: no full stop alone, no two empty lines
    in a row. *)
Definition ml_body (l : list string) : Prop :=
  ("." ∉ l) ∧ ∀ i, ¬ (l !! i = Some "" ∧ l !! S i = Some "").

(** What ends the text. *)
Definition ml_end (t : list input) : Prop :=
  t = [ILine "."] ∨ t = [IErr EEnd] ∨ t = [ILine ""; ILine ""].

(** A line that is not just white space, asks for no length that is a multiple
    of 256 and for no absurd number. *)
Definition tame_line (s : string) : Prop :=
  (s = "" ∨ Fields s ≠ []) ∧
  (∀ n, Atoi s = Ok n → (n ≤ 0 ∨ n mod 256 ≠ 0)%Z ∧ (n < 2 ^ 60)%Z) ∧
  (∀ k a l n, Fields s = k :: a :: l → Atoi a = Ok n → (n < 2 ^ 60)%Z).
Definition tame (inp : list input) : Prop := ∀ s, ILine s ∈ inp → tame_line s.
