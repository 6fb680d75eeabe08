(** What the Assuan protocol says about data lines ("Server responses" in the
    Libassuan manual). *)
From Verif Require Export Model_Pinentry.
From stdpp Require Import options.

(** What has to be escaped: percent signs, carriage returns and line feeds *)
Definition must_escape (c : Ascii.ascii) : option string :=
  if Ascii.eqb c (Zbyte 37) then Some "%25"
  else if Ascii.eqb c (Zbyte 13) then Some "%0D"
  else if Ascii.eqb c (Zbyte 10) then Some "%0A"
  else None.
Fixpoint assuan_escape (s : string) : string :=
  match s with
  | EmptyString => ""
  | String c r => match must_escape c with Some e => e +:+ assuan_escape r | None => String c (assuan_escape r) end
  end.

(** Any byte may be escaped by its two hexadecimal digits. *)
Definition hex_digit (n : nat) : Ascii.ascii :=
  Zbyte (Z.of_nat (if (n <? 10)%nat then 48 + n else 55 + n)).
Definition percent (c : Ascii.ascii) : string :=
  String (Zbyte 37) (String (hex_digit (Ascii.nat_of_ascii c / 16)) (String (hex_digit (Ascii.nat_of_ascii c mod 16)) "")).
Inductive escaped_as : string → string → Prop :=
| esc_nil : escaped_as "" ""
| esc_hex c s t : escaped_as s t → escaped_as (String c s) (percent c +:+ t)
| esc_raw c s t : must_escape c = None → escaped_as s t → escaped_as (String c s) (String c t).

Definition nl : string := String (Zbyte 10) "".

(** A program that accepts everything asked of it, and then says [answer] *)
Fixpoint oks (n : nat) : string := match n with O => "" | S k => "OK" +:+ nl +:+ oks k end.
Definition greeting (term display : bool) : string :=
  "OK Pleased to meet you" +:+ nl +:+ oks (3 + (if term then 1 else 0) + (if display then 1 else 0)).

(** The data in one line; an empty one may be left out *)
Definition one_line (t : string) : string := "D " +:+ t +:+ nl +:+ "OK" +:+ nl.
(** The data in two lines *)
Definition two_lines (t1 t2 : string) : string := "D " +:+ t1 +:+ nl +:+ one_line t2.

(** The next [n] lines of [s] are OK, and [t] comes after them. *)
Fixpoint all_ok (n : nat) (s t : string) : Prop :=
  match n with O => s = t | S k => ∃ s', getLine s = Ok ("OK", s') ∧ all_ok k s' t end.
(** A conversation that ends with [pw]: a greeting, an OK for every setting, and then
    a cancellation, no data, or data followed by OK from a program that ends well. *)
Definition conversed (term display : bool) (out : string) (wait : option error) (pw : string) : Prop :=
  ∃ s0 s1 resp s2, getLine out = Ok ("OK Pleased to meet you", s0) ∧
    all_ok (3 + (if term then 1 else 0) + (if display then 1 else 0)) s0 s1 ∧ getLine s1 = Ok (resp, s2) ∧
    ((has_prefix resp "ERR" = true ∧ contains resp "Operation cancelled" = true ∧ pw = "") ∨
     (wait = None ∧ ((resp = "OK" ∧ pw = "") ∨ ∃ t s3, resp = "D " +:+ t ∧ getLine s2 = Ok ("OK", s3) ∧ pw = pinEntryReplace t))).
(** The program that is used: $PINENTRY unless it is none, the one found before, the
    first on the path. *)
Definition program_used (env cached : string) (on_path : string → bool) (p : string) : Prop :=
  EqualFold env "none" = false ∧ p ≠ "" ∧
  ((env ≠ "" ∧ p = env) ∨ (env = "" ∧ cached ≠ "" ∧ p = cached) ∨
   (env = "" ∧ cached = "" ∧ on_path p = true ∧ ∃ before after, pinEntryPrograms = before ++ p :: after ∧ ∀ q, q ∈ before → on_path q = false)).
