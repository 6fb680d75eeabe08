(** Notions for the line editors, tab completion and the programs started. *)
From Verif Require Export Model_Editor Spec_Repl Spec_Main Spec_Lines.
From Coq Require Import Sorting.Sorted.
From stdpp Require Import options.
#[local] Open Scope Z_scope.

(** The names of all entries, one for each entry *)
Definition names_in (m : snapshot) : list string := map (λ p, default "" (p.2 !! "name")) (map_to_list m).

(** ** The hidden line on Windows *)

(** A character in UTF-16 *)
Definition utf16_rune (r : Z) : list Z :=
  if r <? 65536 then [r] else [55296 + (r - 65536) / 1024; 56320 + (r - 65536) mod 1024].
Definition utf16 (rs : list Z) : list Z := concat (map utf16_rune rs).
(** A character that is not a key the editor knows (Backspace, Enter, Ctrl-C, Ctrl-D) *)
Definition character (r : Z) : Prop := valid_rune r = true ∧ special_unit r = false.

(** Keys pressed one after the other, and the line they make; [None] if Backspace is
    pressed on an empty line *)
Inductive key := Press (r : Z) | Erase.
Definition key_units (k : key) : list Z := match k with Press r => utf16_rune r | Erase => [8] end.
Fixpoint line_after (line : list Z) (ks : list key) : option (list Z) :=
  match ks with
  | [] => Some line
  | Press r :: ks => line_after (line ++ [r]) ks
  | Erase :: ks => match line with [] => None | _ => line_after (removelast line) ks end
  end.
(** An ASCII character or Backspace *)
Definition ascii_key (k : key) : Prop := match k with Press r => 0 ≤ r < 128 ∧ special_unit r = false | Erase => True end.

(** ** The lines on Windows *)

(** Lines with their ends: LF, or CR LF *)
Definition ended (p : string * bool) : string := p.1 +:+ (if p.2 then String (Zbyte 13) "" else "") +:+ String (Zbyte 10) "".
Definition ends_well (p : string * bool) : Prop :=
  (∀ c, c ∈ str_bytes p.1 → c ≠ Zbyte 10) ∧ (p.2 = false → ∀ t, p.1 ≠ t +:+ String (Zbyte 13) "") ∧ (String.length p.1 + 1 < line_limit)%nat.

(** The entry a command is about, and the key of it, as they were typed *)
Definition about_entry (c : command) : option string :=
  match c with
  | KMv q _ | KRm q | KRmk q _ | KCd (Some q) | KGet q _ _ _ | KLogin q | KSet q _ _ | KEdit q _ | KOpen q | KLabel q | KRmLabel q _
  | KShow q _ | KSync q | KDump q => Some q
  | _ => None
  end.
Definition about_key (c : command) : option string :=
  match c with KRmk _ k | KGet _ k _ _ | KSet _ k _ | KEdit _ k => Some k | _ => None end.
