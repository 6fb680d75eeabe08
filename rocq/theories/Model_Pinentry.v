(** Model of pinentry/pinentry.go.  The pinentry program is modelled by the
    bytes it writes; writing to it is assumed to succeed. *)
From Verif Require Export Model_GoStr.
From stdpp Require Import options.

(** ** bufio.Scanner with ScanLines

    The text up to the next line feed, without one carriage return before it.
    A line that does not fit the 64 KiB buffer together with the line feed is
    an error, as is the end of the text. *)
Fixpoint cut_line (s : string) : string * string :=
  match s with
  | EmptyString => ("", "")
  | String c r => if Ascii.eqb c (Zbyte 10) then ("", r) else let '(l, t) := cut_line r in (String c l, t)
  end.
Fixpoint drop_cr (s : string) : string :=
  match s with
  | EmptyString => ""
  | String c r => if Ascii.eqb c (Zbyte 13) && String.eqb r "" then "" else String c (drop_cr r)
  end.
Definition line_limit : nat := 16 * 64 * 64.
Definition scan_line (s : string) : option (string * string) :=
  if String.eqb s "" then None
  else let '(l, t) := cut_line s in
       if (line_limit <=? String.length l)%nat then None else Some (drop_cr l, t).

(** pinentry.go:28-32: strings.NewReplacer replaces from left to right *)
Fixpoint pinEntryReplace (s : string) : string :=
  match s with
  | EmptyString => ""
  | String a r =>
      match r with
      | String b (String c t) =>
          if Ascii.eqb a (Zbyte 37) then
            if Ascii.eqb b (Zbyte 50) && Ascii.eqb c (Zbyte 53) then String (Zbyte 37) (pinEntryReplace t)
            else if Ascii.eqb b (Zbyte 48) && Ascii.eqb c (Zbyte 68) then String (Zbyte 13) (pinEntryReplace t)
            else if Ascii.eqb b (Zbyte 48) && Ascii.eqb c (Zbyte 65) then String (Zbyte 10) (pinEntryReplace t)
            else String a (pinEntryReplace r)
          else String a (pinEntryReplace r)
      | _ => String a (pinEntryReplace r)
      end
  end.

(** pinentry.go:43-62: the program to run, [None] if there is none; [env] is
    $PINENTRY, [cached] the one found before *)
Definition pinEntryPrograms : list string :=
  ["pinentry"; "pinentry-gnome3"; "pinentry-kde"; "pinentry-x11"; "pinentry-curses"; "pinentry-tty"].
Definition find_program (env cached : string) (on_path : string → bool) : option string :=
  if EqualFold env "none" then None
  else
    let program :=
      if (String.length env =? 0)%nat then
        if (String.length cached =? 0)%nat then default "" (List.find on_path pinEntryPrograms) else cached
      else env in
    if (String.length program =? 0)%nat then None else Some program.

(** pinentry.go:90-98: [getLine]; its panics are turned into an error
    (lines 83-87) *)
Definition broken : error := EMsg "failed to communicate with pinentry: %v".
Definition rogue : error := EMsg "rogue pinentry program".
Definition ErrNotFound : error := EMsg "pinentry program not found".
Definition getLine (s : string) : outcome (string * string) :=
  match scan_line s with Some r => Ok r | None => Fail broken end.

(** pinentry.go:115-121: the answers to [n] settings *)
Fixpoint settings (n : nat) (s : string) : outcome string :=
  match n with
  | O => Ok s
  | S k =>
      '(l, s) ← getLine s;
      if String.eqb l "OK" then settings k s else Fail (EMsg "failed setting option (%s): %w")
  end.

(** strings.Contains *)
Definition contains (s sub : string) : bool := match str_index s sub with Some _ => true | None => false end.

(** pinentry.go:100-148; [out] is what the program writes, [wait] the error of
    waiting for it, [term] and [display] whether those variables are set. *)
Definition converse (term display : bool) (out : string) (wait : option error) : outcome string :=
  '(l, s) ← getLine out;
  if negb (String.eqb l "OK Pleased to meet you") then Fail rogue
  else
    s ← settings (3 + (if term then 1 else 0) + (if display then 1 else 0)) s;
    '(resp, s) ← getLine s;
    if negb (has_prefix resp "D ") && has_prefix resp "ERR" && contains resp "Operation cancelled" then Ok ""
    else
      password ← (if has_prefix resp "D " then str_drop 2 resp else Ok "");
      '(resp, s) ← (if has_prefix resp "D " then getLine s else Ok (resp, s));
      if negb (String.eqb resp "OK") then Fail rogue
      else match wait with Some e => Fail e | None => Ok (pinEntryReplace password) end.

(** pinentry.go:41-143, [Password]; [start] is the error of starting it *)
Definition Password (env cached : string) (on_path : string → bool) (start : option error)
    (term display : bool) (out : string) (wait : option error) : outcome string :=
  match find_program env cached on_path with
  | None => Fail ErrNotFound
  | Some _ => match start with Some e => Fail e | None => converse term display out wait end
  end.
