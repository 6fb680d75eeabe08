(** Model of export.go and of the writer of encoding/csv. *)
From Verif Require Export Model_Commands Model_GoStr2.
From stdpp Require Import options.

(** ** encoding/csv, Writer, with Comma ',' and UseCRLF false *)

Definition quote : Ascii.ascii := Zbyte 34.
Definition comma : Ascii.ascii := Zbyte 44.
Definition lf : Ascii.ascii := Zbyte 10.
Definition cr : Ascii.ascii := Zbyte 13.

(** [fieldNeedsQuotes] *)
Definition special (c : Ascii.ascii) : bool := Ascii.eqb c lf || Ascii.eqb c cr || Ascii.eqb c quote || Ascii.eqb c comma.
Definition fieldNeedsQuotes (field : string) : bool :=
  if String.eqb field "" then false
  else if String.eqb field "\." then true
  else if existsb special (str_bytes field) then true
  else match decode_rune field with Some (r1, _) => IsSpace r1 | None => false end.

(** The inner loop of [Write]: quotes doubled, everything else as it is. *)
Fixpoint quoted (field : string) : string :=
  match field with
  | EmptyString => ""
  | String c r => if Ascii.eqb c quote then String quote (String quote (quoted r)) else String c (quoted r)
  end.
Definition csv_field (field : string) : string :=
  if fieldNeedsQuotes field then String quote (quoted field +:+ String quote "") else field.
(** [Write] *)
Definition csv_record (record : list string) : string :=
  go_join (String comma "") (map csv_field record) +:+ String lf "".

(** ** export.go:13-58, [export] *)

(** lines 17-22: the keys of all entries *)
Definition keys_of (l : list (string * entry)) : gset string := foldr (λ p acc, dom p.2 ∪ acc) ∅ l.

(** lines 24-46: the header and the records; [kord] is the order in which
    maps.Keys lists a set.  The snapshot is taken as it is. *)
Definition export_rows (e : env) (kord : gset string → list string) (d : db) : list (list string) :=
  let snap := snap_of d in
  let l := e_ord e 0 snap in
  let entries := sort_strings l.*1 in
  let keys := sort_strings (kord (keys_of l)) in
  keys :: map (λ entry, map (λ key, default "" (default ∅ (snap !! entry) !! key)) keys) entries.

(** The file's contents; [created]: whether the file could be created and
    written. *)
Definition export (e : env) (kord : gset string → list string) (format : string) (created : option error) (d : db) : outcome string :=
  if negb (String.eqb format "CSV") then Fail (EMsg "only supported format for export is csv")
  else match created with
       | Some x => Fail x
       | None => Ok (go_join "" (map csv_record (export_rows e kord d)))
       end.
