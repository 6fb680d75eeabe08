(** The two sides of an scp transfer, after OpenSSH's scp.c. *)
From Verif Require Export Model_Scp.
From stdpp Require Import options.

Definition newline : string := String (Zbyte 10) "".

(** ** The source (scp -f): function source *)

(** %04o *)
Definition oct_digit (n : nat) : string := String (Ascii.ascii_of_nat (48 + n mod 8)) "".
Definition oct4 (mode : nat) : string :=
  oct_digit (mode / 512) +:+ oct_digit (mode / 64) +:+ oct_digit (mode / 8) +:+ oct_digit mode.
(** What is sent for a file, acknowledged after the header and the data *)
Definition source (mode : nat) (name contents : string) : string :=
  "C" +:+ oct4 mode +:+ " " +:+ FormatInt (Z.of_nat (String.length contents)) +:+ " " +:+ name +:+ newline +:+
  contents +:+ String nul_byte "".
(** What is sent if the file cannot be sent: function run_err, with a warning *)
Definition complaint (msg : string) : string := String (Zbyte 1) ("scp: " +:+ msg +:+ newline).

(** A name without white space *)
Definition plain_name (s : string) : Prop := s ≠ "" ∧ Forall (λ r, IsSpace r = false) (runes s).

(** ** The sink (scp -t): function sink, for one file *)

(** the octal mode: exactly four digits and white space *)
Definition oct_val (c : Ascii.ascii) : option Z :=
  let b := byteZ c in if (48 <=? b)%Z && (b <=? 55)%Z then Some (b - 48)%Z else None.
Fixpoint sink_mode (n : nat) (acc : Z) (s : string) : option (Z * string) :=
  match n, s with
  | O, _ => Some (acc, s)
  | S k, String c r => match oct_val c with Some v => sink_mode k (8 * acc + v) r | None => None end
  | S _, EmptyString => None
  end.
(** the length: decimal digits up to something else *)
Fixpoint sink_size (acc : Z) (s : string) : Z * string :=
  match s with
  | EmptyString => (acc, "")
  | String c r => match digit_val c with Some v => sink_size (10 * acc + v) r | None => (acc, s) end
  end.
Definition expect (c : Ascii.ascii) (s : string) : option string :=
  match s with String x r => if Ascii.eqb x c then Some r else None | EmptyString => None end.
(** the text up to the line feed *)
Fixpoint up_to_newline (s : string) : option (string * string) :=
  match s with
  | EmptyString => None
  | String c r =>
      if Ascii.eqb c (Zbyte 10) then Some ("", r)
      else match up_to_newline r with Some (l, t) => Some (String c l, t) | None => None end
  end.
(** names that lead out of the directory are refused *)
Definition bad_name (s : string) : bool :=
  String.eqb s "" || existsb (λ c, (c =? 47)%Z) (map byteZ (list_ascii_of_string s)) || String.eqb s "." || String.eqb s "..".

(** Mode, name and contents stored, if what is received is one well-formed file
    followed by an acknowledgement *)
Definition sink (s : string) : option (Z * string * string) :=
  s ← expect (Zbyte 67) s;
  '(mode, s) ← sink_mode 4 0 s;
  s ← expect (Zbyte 32) s;
  let '(size, s) := sink_size 0 s in
  s ← expect (Zbyte 32) s;
  '(name, s) ← up_to_newline s;
  if bad_name name then None
  else
    '(contents, s) ← read_full (Z.to_nat size) s;
    if String.eqb s (String nul_byte "") then Some (mode, name, contents) else None.

(** What a sink answers: a zero byte when it starts, one for the header, and
    then one for the data or a complaint *)
Definition replies (last : string) : string := String nul_byte (String nul_byte last).
