(** What the flags should mean: the calendar, how a time is written, what the
    subcommands may touch. *)
From Verif Require Export Model_Cli Spec_Repl Spec_Import Spec_Export Spec_Csv Spec_Hosts.
From stdpp Require Import options.
Import Model_GoStr.
#[local] Open Scope Z_scope.

(** ** The calendar *)

Definition leap (y : Z) : bool := (y mod 400 =? 0) || ((y mod 4 =? 0) && negb (y mod 100 =? 0)).
Definition month_length (y m : Z) : Z :=
  if m =? 2 then (if leap y then 29 else 28) else if (m =? 4) || (m =? 6) || (m =? 9) || (m =? 11) then 30 else 31.

Definition valid_time (c : civil) : Prop :=
  0 ≤ cv_year c ≤ 9999 ∧ 1 ≤ cv_month c ≤ 12 ∧ 1 ≤ cv_day c ≤ month_length (cv_year c) (cv_month c) ∧
  0 ≤ cv_hour c ≤ 23 ∧ 0 ≤ cv_min c ≤ 59 ∧ 0 ≤ cv_sec c ≤ 59 ∧ 0 ≤ cv_nsec c < 1000000000.

(** The same time of day on the next day; the same day at midnight *)
Definition next_day (c : civil) : civil :=
  let '(y, m, d) :=
    if cv_day c <? month_length (cv_year c) (cv_month c) then (cv_year c, cv_month c, cv_day c + 1)
    else if cv_month c <? 12 then (cv_year c, cv_month c + 1, 1) else (cv_year c + 1, 1, 1) in
  mk_civil y m d (cv_hour c) (cv_min c) (cv_sec c) (cv_nsec c).
Definition midnight (c : civil) : civil := mk_civil (cv_year c) (cv_month c) (cv_day c) 0 0 0 0.
Definition epoch : civil := mk_civil 1970 1 1 0 0 0 0.

(** [c] is earlier than [c']. *)
Definition sooner (c c' : civil) : Prop :=
  let lt a b r := a < b ∨ a = b ∧ r in
  lt (cv_year c) (cv_year c') (lt (cv_month c) (cv_month c') (lt (cv_day c) (cv_day c')
    (lt (cv_hour c) (cv_hour c') (lt (cv_min c) (cv_min c') (lt (cv_sec c) (cv_sec c') (cv_nsec c < cv_nsec c')))))).

(** Nanoseconds since 1970 *)
Definition instant (c : civil) : Z := Date_unix c * 1000000000 + cv_nsec c.

(** ** How a time is written *)

Definition dig (v : Z) : string := String (Zbyte (48 + v)) "".
Definition two (v : Z) : string := dig (v / 10) +:+ dig (v mod 10).
Definition four (v : Z) : string := two (v / 100) +:+ two (v mod 100).
Fixpoint blanks (n : nat) : string := match n with O => "" | S k => String (Zbyte 32) (blanks k) end.
(** YYYY-MM-DD HH:mm:ss *)
Definition stamp (c : civil) : string :=
  four (cv_year c) +:+ "-" +:+ two (cv_month c) +:+ "-" +:+ two (cv_day c) +:+ " " +:+
  two (cv_hour c) +:+ ":" +:+ two (cv_min c) +:+ ":" +:+ two (cv_sec c).

(** The digits of a fraction of a second and its nanoseconds *)
Fixpoint weigh (w : Z) (ds : list Z) : Z := match ds with [] => 0 | d :: r => w * d + weigh (w / 10) r end.
Definition digits_of (ds : list Z) : string := fold_right (λ v s, dig v +:+ s) "" ds.
Definition fraction (s : string) (nsec : Z) : Prop :=
  (s = "" ∧ nsec = 0) ∨
  ∃ p ds, (p = "." ∨ p = ",") ∧ ds ≠ [] ∧ Forall (λ v, 0 ≤ v ≤ 9) ds ∧ s = p +:+ digits_of ds ∧ nsec = weigh 100000000 ds.

(** All the ways of writing the time [c] *)
Definition spelled (s : string) (c : civil) : Prop :=
  valid_time c ∧ ∃ k h f, s = four (cv_year c) +:+ "-" +:+ two (cv_month c) +:+ "-" +:+ two (cv_day c) +:+ blanks (S k) +:+
    h +:+ ":" +:+ two (cv_min c) +:+ ":" +:+ two (cv_sec c) +:+ f ∧
    (h = two (cv_hour c) ∨ cv_hour c ≤ 9 ∧ h = dig (cv_hour c)) ∧ fraction f (cv_nsec c).

(** The times whose nanoseconds are an int64 *)
Definition representable (c : civil) : Prop := 1678 ≤ cv_year c ≤ 2261.

(** ** Flags and subcommands *)

(** The program gets to opening the file. *)
Definition opening (o : outside) (f : flags) : Prop :=
  f_version f = false ∧ f_gen f = false ∧ f_help f = false ∧ o_terminal o = None ∧ o_abs o = None.

(** What lpass prints and what is drawn for its records is text. *)
Definition text_import (o : outside) : Prop :=
  (∀ x, utf8 x → utf8 (o_lower o x)) ∧ utf8 (o_text o) ∧
  ∀ j, fair (o_import o j) ∧ clock_ok (o_import o j) ∧ utf8 (e_uuid (o_import o j)).

(** The file somebody wants: the one given, else that of the environment, else the
    default.  A flag that is not given has its default value. *)
Definition wanted (given : option string) (default_path env_file : string) : string :=
  match given with Some p => p | None => if decide (env_file = "") then default_path else env_file end.
Definition flag_value (given : option string) (default_path : string) : string := match given with Some p => p | None => default_path end.

(** The same flags without a time *)
Definition without_time (f : flags) : flags :=
  mk_flags (f_version f) (f_gen f) (f_import f) (f_export f) (f_help f) (f_noClear f) (f_noSync f) "" (f_file f) (f_format f).
(** The same surroundings but another file *)
Definition other_disk (o : outside) (k : disk) : outside := {|
  o_P := o_P o; o_terminal := o_terminal o; o_abs := o_abs o; o_disk := k; o_salt := o_salt o; o_rand := o_rand o;
  o_lower := o_lower o; o_import := o_import o; o_lpass := o_lpass o; o_text := o_text o;
  o_env := o_env o; o_keys := o_keys o; o_csv := o_csv o; o_w0 := o_w0 o; o_w1 := o_w1 o; o_w := o_w o;
  o_ord := o_ord o; o_riv := o_riv o; o_clip := o_clip o; o_close := o_close o |}.

(** ** Short paths *)

(** The first character of a directory's name, if it has any *)
Definition initial (p i : string) : Prop :=
  (p = "" ∧ i = "") ∨ ∃ r rest, valid_rune r = true ∧ p = encode_rune r +:+ rest ∧ i = encode_rune r.
(** Every directory is cut to its first character, the name of the file is kept. *)
Definition shortened (f g : string) : Prop :=
  ∃ dirs initials name, parts (Zbyte 47) f (dirs ++ [name]) ∧ parts (Zbyte 47) g (initials ++ [name]) ∧ Forall2 initial dirs initials.
(** No name of a directory begins outside ASCII. *)
Definition plain_dirs (f : string) : Prop :=
  ∀ dirs name c r, parts (Zbyte 47) f (dirs ++ [name]) → String c r ∈ dirs → byteZ c < 128.
