(** What a CSV text is: RFC 4180, but for lines ending in a line feed or in CR LF, fields
    with any other bytes, and empty lines that are no records. *)
From Verif Require Export Spec_Export Spec_Import Model_Csv.
From stdpp Require Import options.

(** CR LF is LF, and a CR at the very end is nothing. *)
Fixpoint unix (s : string) : string :=
  match s with
  | EmptyString => ""
  | String c r =>
      if Ascii.eqb c cr then match r with EmptyString => "" | String d _ => if Ascii.eqb d lf then unix r else String c (unix r) end
      else String c (unix r)
  end.
(** Only CR LF is LF. *)
Fixpoint crlf (s : string) : string :=
  match s with
  | EmptyString => ""
  | String c r =>
      if Ascii.eqb c cr then match r with EmptyString => s | String d _ => if Ascii.eqb d lf then crlf r else String c (crlf r) end
      else String c (crlf r)
  end.

Definition clear_of (c : Ascii.ascii) (s : string) : Prop := ∀ i, String.get i s ≠ Some c.
(** [t] is the field [f] as it is, or in quotes with its quotes doubled. *)
Definition field_text (f t : string) : Prop :=
  (t = f ∧ clear_of comma f ∧ clear_of quote f ∧ clear_of lf f) ∨ t = String quote (quoted f +:+ String quote "").
Definition record_text (fs : list string) (t : string) : Prop :=
  fs ≠ [] ∧ ∃ ts, Forall2 field_text fs ts ∧ t = go_join (String comma "") ts.
Inductive csv_text : string → list (list string) → Prop :=
| csv_end : csv_text "" []
| csv_blank s rows : csv_text s rows → csv_text (String lf s) rows
| csv_last fs t : record_text fs t → t ≠ "" → csv_text t [fs]
| csv_line fs t s rows : record_text fs t → t ≠ "" → csv_text s rows → csv_text (t +:+ String lf s) (fs :: rows).
