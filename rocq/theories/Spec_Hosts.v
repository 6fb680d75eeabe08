(** What the host check should do, said with the lines and words of the known
    hosts text. *)
From Verif Require Export Model_Hosts.
From stdpp Require Import options.

(** The lines of a text and the words of a line, first to last *)
Definition parts (c : Ascii.ascii) (text : string) (ps : list string) : Prop :=
  ps ≠ [] ∧ (∀ p, p ∈ ps → lacks c p) ∧ text = go_join (String c "") ps.
Definition lines_of : string → list string → Prop := parts (Zbyte 10).
Definition words_of : string → list string → Prop := parts (Zbyte 32).

(** One line per host: its name, an address, the kind of its key and the hash *)
Definition for_host (hostname l : string) : Prop := ∃ ws, words_of l (hostname :: ws).
Definition first_for (text hostname l : string) : Prop :=
  ∃ before after, lines_of text (before ++ l :: after) ∧ for_host hostname l ∧ ∀ x, x ∈ before → ¬ for_host hostname x.
Definition unknown_host (text hostname : string) : Prop :=
  ∃ ls, lines_of text ls ∧ ∀ l, l ∈ ls → ¬ for_host hostname l.

(** The line has this key *)
Definition same_key (hostname keyType keyHash l : string) : Prop :=
  ∃ addr more, words_of l (hostname :: addr :: keyType :: keyHash :: more).
(** the line has another one *)
Definition other_key (hostname keyType keyHash l : string) : Prop :=
  ∃ addr ty more, words_of l (hostname :: addr :: ty :: more) ∧
    (ty ≠ keyType ∨ ∃ hash more', more = hash :: more' ∧ hash ≠ keyHash).
(** the line has none, or only the kind, which agrees *)
Definition no_key (hostname keyType l : string) : Prop :=
  ∃ ws, words_of l (hostname :: ws) ∧ ((length ws < 2)%nat ∨ ∃ addr, ws = [addr; keyType]).

Definition a_word (s : string) : Prop := s ≠ "" ∧ lacks (Zbyte 32) s ∧ lacks (Zbyte 10) s.

(** The contents after the hosts [l] were remembered *)
Fixpoint remember (l : list (string * string)) (m : snapshot) : snapshot :=
  match l with
  | [] => m
  | (uuid, line) :: r =>
      remember r (alter (λ b : entry, <["knownhosts" := add_line (default "" (b !! "knownhosts")) line]> b) uuid m)
  end.
