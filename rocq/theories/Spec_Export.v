(** How a CSV file is read (RFC 4180, with lines ending in a line feed), and what
    an export should contain. *)
From Verif Require Export Spec_Blobs Model_Export.
From stdpp Require Import options.

(** Where the reader is: at the start of a field, inside one without quotes,
    inside quotes, or after a quote inside quotes *)
Inductive place := Start | Plain | Inside | After.

(** [field], [row]: what was read of the current field and line.  [None]: not a
    CSV file. *)
Fixpoint csv_go (p : place) (field : string) (row : list string) (s : string) : option (list (list string)) :=
  match s with
  | EmptyString => match p, row with Start, [] => Some [] | _, _ => None end
  | String c r =>
      let other :=
        if Ascii.eqb c (Zbyte 44) then csv_go Start "" (row ++ [field]) r
        else if Ascii.eqb c (Zbyte 10) then match csv_go Start "" [] r with Some t => Some ((row ++ [field]) :: t) | None => None end
        else if Ascii.eqb c (Zbyte 13) then None
        else match p with After => None | _ => csv_go Plain (field +:+ String c "") row r end in
      match p with
      | Start => if Ascii.eqb c (Zbyte 34) then csv_go Inside "" row r else other
      | Plain => if Ascii.eqb c (Zbyte 34) then None else other
      | Inside => if Ascii.eqb c (Zbyte 34) then csv_go After field row r else csv_go Inside (field +:+ String c "") row r
      | After => if Ascii.eqb c (Zbyte 34) then csv_go Inside (field +:+ String c "") row r else other
      end
  end.
Definition csv_read (s : string) : option (list (list string)) := csv_go Start "" [] s.

(** Each key of any entry once *)
Definition all_keys (m : snapshot) (ks : list string) : Prop :=
  NoDup ks ∧ ∀ k, k ∈ ks ↔ ∃ u b, m !! u = Some b ∧ is_Some (b !! k).
(** each entry once *)
Definition all_uuids (m : snapshot) (us : list string) : Prop :=
  NoDup us ∧ ∀ u, u ∈ us ↔ is_Some (m !! u).
(** the row of an entry: its value for each key, empty if it has none *)
Definition row_of (m : snapshot) (ks : list string) (u : string) (row : list string) : Prop :=
  ∃ b, m !! u = Some b ∧ Forall2 (λ k v, v = default "" (b !! k)) ks row.
Definition fair_keys (kord : gset string → list string) : Prop := ∀ X, kord X ≡ₚ elements X.

(** [rows] is the table of [m]: the keys in order, then one row per entry, in
    order of the uuids *)
Definition table_of (m : snapshot) (rows : list (list string)) : Prop :=
  ∃ ks us body, rows = ks :: body ∧ all_keys m ks ∧ all_uuids m us ∧
    Sorted (λ a b, String.leb a b = true) ks ∧ Sorted (λ a b, String.leb a b = true) us ∧
    Forall2 (λ u row, row_of m ks u row) us body.
