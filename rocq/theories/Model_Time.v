(** Model of what cli.go and main.go take from package time (Go 1.18):
    [time.Parse] for the layout of the --time flag, [time.Date] in UTC,
    [UnixNano] and [IsZero]. *)
From Verif Require Export Model_PassGen Model_GoStr.
From stdpp Require Import options.
#[local] Open Scope Z_scope.

(** A date and time of day in UTC *)
Record civil := mk_civil { cv_year : Z; cv_month : Z; cv_day : Z; cv_hour : Z; cv_min : Z; cv_sec : Z; cv_nsec : Z }.
#[global] Instance civil_eq_dec : EqDecision civil.
Proof. solve_decision. Defined.

(** ** The calendar of package time *)

(** time.go, [isLeap], [daysBefore] and [daysIn] *)
Definition isLeap (year : Z) : bool := (year mod 4 =? 0) && (negb (year mod 100 =? 0) || (year mod 400 =? 0)).
Definition daysBefore (m : Z) : Z := nth (Z.to_nat m) [0; 31; 59; 90; 120; 151; 181; 212; 243; 273; 304; 334; 365] 0.
Definition daysIn (m year : Z) : Z := if (m =? 2) && isLeap year then 29 else daysBefore m - daysBefore (m - 1).

(** time.go, [daysSinceEpoch]: the days from the first of January of the year
    -292277022399 to that of [year].  The numbers are uint64 there; for the years
    that can be written they are far from wrapping around. *)
Definition absoluteZeroYear : Z := -292277022399.
Definition daysSinceEpoch (year : Z) : Z :=
  let y := year - absoluteZeroYear in
  let n := y / 400 in let y := y - 400 * n in let d := 146097 * n in
  let n := y / 100 in let y := y - 100 * n in let d := d + 36524 * n in
  let n := y / 4 in let y := y - 4 * n in let d := d + 1461 * n in
  d + 365 * y.

(** time.go, [Date] with the location UTC: seconds since 1970.  Month, hour,
    minute and second are in their ranges when [Parse] calls it, so that the
    normalisation changes nothing. *)
Definition secondsPerDay : Z := 86400.
Definition absoluteToInternal : Z := - (730692556 * 146097 * secondsPerDay).
Definition unixToInternal : Z := (1969 * 365 + 1969 / 4 - 1969 / 100 + 1969 / 400) * secondsPerDay.
Definition Date_unix (c : civil) : Z :=
  let d := daysSinceEpoch (cv_year c) + daysBefore (cv_month c - 1) in
  let d := if isLeap (cv_year c) && (3 <=? cv_month c) then d + 1 else d in
  let d := d + (cv_day c - 1) in
  let abs := d * secondsPerDay + cv_hour c * 3600 + cv_min c * 60 + cv_sec c in
  abs + (absoluteToInternal - unixToInternal).

(** time.go, [UnixNano] and [IsZero] *)
Definition UnixNano (c : civil) : Z := wrap64 (Date_unix c * 1000000000 + cv_nsec c).
Definition IsZero (c : civil) : bool := (Date_unix c + unixToInternal =? 0) && (cv_nsec c =? 0).

(** ** format.go, [Parse] for the layout "2006-01-02 15:04:05" (cli.go:13) *)

(** [getnum] *)
Definition getnum (fixed : bool) (s : string) : option (Z * string) :=
  match s with
  | EmptyString => None
  | String a r =>
      match digit_val a with
      | None => None
      | Some x =>
          match r with
          | String b r' => match digit_val b with Some y => Some (10 * x + y, r') | None => if fixed then None else Some (x, r) end
          | EmptyString => if fixed then None else Some (x, r)
          end
      end
  end.

(** stdLongYear: four bytes, the first a digit, and all of them as [atoi] wants *)
Definition getyear (s : string) : option (Z * string) :=
  match s with
  | String a (String b (String c (String d r))) =>
      match parse_digits 0 (String a (String b (String c (String d "")))) with Some y => Some (y, r) | None => None end
  | _ => None
  end.

(** [skip] for the separators: a byte, or a blank, which stands for any number of
    them and for the end of the text. *)
Definition skip_byte (z : Z) (s : string) : option string :=
  match s with String c r => if byteZ c =? z then Some r else None | EmptyString => None end.
Fixpoint cutspace (s : string) : string :=
  match s with String c r => if byteZ c =? 32 then cutspace r else s | EmptyString => "" end.
Definition skip_blank (s : string) : option string :=
  match s with
  | EmptyString => Some ""
  | String c _ => if byteZ c =? 32 then Some (cutspace s) else None
  end.

(** [parseNanoseconds] and its use after the seconds: a point or comma and at
    least one digit; only nine digits count. *)
Fixpoint span_digits (s : string) : string * string :=
  match s with
  | String c r => match digit_val c with Some _ => let '(d, r') := span_digits r in (String c d, r') | None => ("", s) end
  | EmptyString => ("", "")
  end.
Definition commaOrPeriod (c : Ascii.ascii) : bool := (byteZ c =? 46) || (byteZ c =? 44).
Definition getfrac (s : string) : option (Z * string) :=
  match s with
  | String c r =>
      if commaOrPeriod c then
        match span_digits r with
        | (EmptyString, _) => Some (0, s)
        | (ds, r') =>
            let ds := substring 0 9 ds in
            match parse_digits 0 ds with Some n => Some (n * 10 ^ (9 - Z.of_nat (String.length ds)), r') | None => None end
        end
      else Some (0, s)
  | EmptyString => Some (0, s)
  end.

Definition in_range (lo hi x : Z) : option unit := if (lo <=? x) && (x <=? hi) then Some tt else None.

Definition time_parse (value : string) : option civil :=
  '(year, v) ← getyear value;
  v ← skip_byte 45 v;
  '(month, v) ← getnum true v;
  _ ← in_range 1 12 month;
  v ← skip_byte 45 v;
  '(day, v) ← getnum true v;
  v ← skip_blank v;
  '(hour, v) ← getnum false v;
  _ ← in_range 0 23 hour;
  v ← skip_byte 58 v;
  '(min, v) ← getnum true v;
  _ ← in_range 0 59 min;
  v ← skip_byte 58 v;
  '(sec, v) ← getnum true v;
  _ ← in_range 0 59 sec;
  '(nsec, v) ← getfrac v;
  match v with
  | EmptyString => _ ← in_range 1 (daysIn month year) day; Some (mk_civil year month day hour min sec nsec)
  | _ => None
  end.
