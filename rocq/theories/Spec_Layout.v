(** Notions about the text that show prints. *)
From Verif Require Export Model_Layout Spec_Repl Spec_Json.
From stdpp Require Import options.
#[local] Open Scope nat_scope.

(** The column in which the value begins: what is before it, counted in characters. *)
Definition begins_at (line value : string) (col : nat) : Prop :=
  ∃ before, utf8 before ∧ line = before +:+ value +:+ String (Zbyte 10) "" ∧ rune_count before = col.

(** A key as it can be typed: not empty, no colon, no end of line, not beginning with a
    blank. *)
Definition simple_key (k : string) : Prop :=
  (∃ c r, k = String c r ∧ c ≠ Zbyte 32) ∧ lacks (Zbyte 58) k ∧ lacks (Zbyte 10) k.

(** What show shows of an entry in good order: the value of a line has no end of line
    in it, and one in several lines has no white space around it. *)
Definition legible (x : out) : Prop :=
  match x with
  | Row k v => simple_key k ∧ k ≠ "pass" ∧ lacks (Zbyte 10) v
  | Hidden k v => k = "pass" ∧ lacks (Zbyte 10) v
  | Multi k v => simple_key k ∧ k ≠ "pass" ∧ ¬ lacks (Zbyte 10) v ∧ tight v
  | _ => False
  end.

(** The lines of a text, each after [n] blanks *)
Definition indented (n : nat) (lines : list string) : string := go_join "" ((λ x, gap n +:+ x +:+ String (Zbyte 10) "") <$> lines).
