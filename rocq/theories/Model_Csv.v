(** Model of the reader of encoding/csv (Go 1.18, [readLine] and [readRecord] of reader.go)
    with its default settings, as import.go:42 uses it: Comma ',', no comments,
    LazyQuotes and TrimLeadingSpace false.  That all records have as many fields as the
    first is checked in Model_Import.  The reader is over bytes.NewReader, which has no
    error but io.EOF. *)
From Verif Require Export Model_Export Model_Import.
From stdpp Require Import options.

(** bytes.IndexByte and the two parts around it *)
Fixpoint around (c : Ascii.ascii) (s : string) : option (string * string) :=
  match s with
  | EmptyString => None
  | String x r => if Ascii.eqb x c then Some ("", r) else match around c r with Some (a, b) => Some (String x a, b) | None => None end
  end.

(** What follows a leading [c] *)
Definition after_first (c : Ascii.ascii) (s : string) : option string :=
  match s with EmptyString => None | String x r => if Ascii.eqb x c then Some r else None end.

(** A trailing [c] is cut off. *)
Fixpoint chop (c : Ascii.ascii) (s : string) : string :=
  match s with
  | EmptyString => ""
  | String x r => match r with EmptyString => if Ascii.eqb x c then "" else s | _ => String x (chop c r) end
  end.

(** [readLine]: the next line with its line feed and the rest; CR LF becomes LF, a CR at
    the end of the file is dropped.  [None]: io.EOF. *)
Definition readLine (s : string) : option (string * string) :=
  match s with
  | EmptyString => None
  | _ => match around lf s with
         | Some (l, r) => Some (chop cr l +:+ String lf "", r)
         | None => Some (chop cr s, "")
         end
  end.

(** The first loop of [readRecord]: empty lines are skipped. *)
Fixpoint nextLine (fuel : nat) (s : string) : option (string * string) :=
  match fuel with
  | O => None
  | S f => match readLine s with
           | Some (l, r) => if String.eqb (chop lf l) "" then nextLine f r else Some (l, r)
           | None => None
           end
  end.

Definition ErrBareQuote : error := EMsg "bare "" in non-quoted-field".
Definition ErrQuote : error := EMsg "extraneous or missing "" in quoted-field".

(** The labelled loop of [readRecord].  [q]: [None] at the start of a field, [Some buf] in
    a quoted one of which [buf] was read.  Every turn makes [line] and [rest] shorter, so
    the fuel suffices. *)
Fixpoint parseField (fuel : nat) (q : option string) (line rest : string) (fields : list string) : outcome (list string * string) :=
  match fuel with
  | O => Fail ErrQuote
  | S f =>
      match q with
      | None =>
          match after_first quote line with
          | Some line => parseField f (Some "") line rest fields
          | None =>
              match around comma line with
              | Some (field, after) =>
                  match around quote field with
                  | Some _ => Fail ErrBareQuote
                  | None => parseField f None after rest (fields ++ [field])
                  end
              | None =>
                  let field := chop lf line in
                  match around quote field with
                  | Some _ => Fail ErrBareQuote
                  | None => Ok (fields ++ [field], rest)
                  end
              end
          end
      | Some buf =>
          match around quote line with
          | Some (before, after) =>
              let buf := buf +:+ before in
              match after_first quote after with
              | Some line => parseField f (Some (buf +:+ String quote "")) line rest fields
              | None =>
                  match after_first comma after with
                  | Some line => parseField f None line rest (fields ++ [buf])
                  | None => if String.eqb (chop lf after) "" then Ok (fields ++ [buf], rest) else Fail ErrQuote
                  end
              end
          | None =>
              if String.eqb line "" then Fail ErrQuote
              else match readLine rest with
                   | Some (l, r) => parseField f (Some (buf +:+ line)) l r fields
                   | None => parseField f (Some (buf +:+ line)) "" rest fields
                   end
          end
      end
  end.

(** [Read] until it fails: the records, and the error or [None] for io.EOF *)
Fixpoint readRecords (fuel : nat) (s : string) : list (list string) * option error :=
  match fuel with
  | O => ([], None)
  | S f =>
      match nextLine (S (String.length s)) s with
      | None => ([], None)
      | Some (line, rest) =>
          match parseField (S (String.length line + String.length rest)) None line rest [] with
          | Ok (fields, rest) => let '(rs, last) := readRecords f rest in (fields :: rs, last)
          | Fail e => ([], Some e)
          | Panic => ([], None)
          end
      end
  end.
Definition csv_records (s : string) : list (list string) * option error := readRecords (S (String.length s)) s.

(** import.go:14-113 with what lpass printed *)
Definition importText (lower : string → string) (E : nat → env) (lpass : option error) (text : string) : C unit :=
  importLastpass lower E lpass (csv_records text).1 (csv_records text).2.
