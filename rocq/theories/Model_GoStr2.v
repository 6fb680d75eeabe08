(** More of Go's package strings, as used by the dialogues and the REPL. *)
From Verif Require Export Model_GoStr.
From stdpp Require Import options.

(** [unicode.IsSpace] *)
Definition IsSpace (r : Z) : bool :=
  inr 9 13 r || (r =? 32)%Z || (r =? 133)%Z || (r =? 160)%Z || (r =? 5760)%Z || inr 8192 8202 r ||
  (r =? 8232)%Z || (r =? 8233)%Z || (r =? 8239)%Z || (r =? 8287)%Z || (r =? 12288)%Z.

(** [strings.Fields]: the pieces between runs of white space.  [cur] is the
    piece being read, [skip] the number of bytes left of the rune just read and
    [sp] whether that rune is white space. *)
Definition flush (cur : string) (l : list string) : list string :=
  match cur with EmptyString => l | _ => cur :: l end.
Fixpoint fields_from (cur : string) (skip : nat) (sp : bool) (s : string) : list string :=
  match s with
  | EmptyString => flush cur []
  | String c s' =>
      match skip with
      | S k => fields_from (if sp then cur else cur +:+ String c "") k sp s'
      | O =>
          match decode_rune s with
          | None => flush cur []
          | Some (r, w) =>
              if IsSpace r then flush cur (fields_from "" (w - 1) true s')
              else fields_from (cur +:+ String c "") (w - 1) false s'
          end
      end
  end.
Definition Fields (s : string) : list string := fields_from "" 0 false s.

(** [strconv.Atoi]: as [ParseInt] with base 10 for 64-bit ints. *)
Definition Atoi (s : string) : outcome Z := ParseInt s.
