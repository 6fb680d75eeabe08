(** Model of cli.go (from the values of the flags on; taking the arguments apart is
    the library flaggy's) and of main.go:25-138 with all its branches. *)
From Verif Require Export Model_Time Model_Repl Model_Export Model_Import Model_Csv.
From stdpp Require Import options.
Import Model_GoStr.

(** cli.go:18-37: the flags and which subcommand was given *)
Record flags := mk_flags {
  f_version : bool; f_gen : bool; f_import : bool; f_export : bool;
  f_help : bool; f_noClear : bool; f_noSync : bool;
  f_time : string; f_file : string; f_format : string;
}.

(** cli.go:81-86: the file that is opened, given the default path and $BPASS *)
Definition file_used (default_path flag env_file : string) : string :=
  if String.eqb flag default_path then if (String.length env_file =? 0)%nat then flag else env_file else flag.

(** cli.go:87-99: the end of [parseCli]; the program may end here *)
Inductive cli := CliExit (status : Z) | CliGo (historyTime : option civil).
Definition parseCli (f : flags) : cli :=
  match (if (String.length (f_time f) =? 0)%nat then Some None else match time_parse (f_time f) with Some c => Some (Some c) | None => None end) with
  | None => CliExit 1
  | Some t => if f_help f then CliExit 0 else CliGo t
  end.

(** main.go:44-46 and 230-233: the time at which the file is opened, if it is opened
    read-only; a time never set is zero. *)
Definition history_at (historyTime : option civil) : option Z :=
  match historyTime with Some c => if IsZero c then None else Some (UnixNano c) | None => None end.

(** Everything outside: the terminal, the absolute path, the file, randomness, lpass and
    what it prints,
    the exported file, the worlds of the commands, the clipboard. *)
Record outside := {
  o_P : prims; o_terminal : option error; o_abs : option error; o_disk : disk; o_salt : option bytes; o_rand : rand;
  o_lower : string → string; o_import : nat → env; o_lpass : option error; o_text : string;
  o_env : env; o_keys : gset string → list string; o_csv : option error;
  o_w0 : world; o_w1 : world; o_w : nat → world;
  o_ord : gmap string string → list (string * string); o_riv : option bytes;
  o_clip : option error; o_close : option error;
}.

(** How the process ends: with a status, by a panic, or it still waits for input. *)
Inductive ending := Status (z : Z) | Crashed | Waiting.
(** What it leaves behind: a password printed by gen, the exported file, the store
    file.  [None]: not touched. *)
Record effects := mk_effects { x_printed : option string; x_csv : option string; x_file : option bytes }.
Definition no_effects : effects := mk_effects None None None.

(** main.go:82-122: what is done with the opened file *)
Definition work (o : outside) (f : flags) (s : session) (inp : list input) : option string * ui (option bytes) :=
  if f_import f then (None, (import_main (o_P o) (o_lower o) (o_import o) (o_lpass o) (csv_records (o_text o)).1 (csv_records (o_text o)).2 (o_env o) (o_ord o) (o_riv o) s inp).2)
  else if f_export f then
    match export (o_env o) (o_keys o) (f_format f) (o_csv o) (s_db s) with
    | Ok csv => (Some csv, of_outcome (saveBlob (o_P o) (o_env o) (o_ord o) (o_riv o) s).2 inp)
    | Fail x => (None, UErr x inp)
    | Panic => (None, UPanic)
    end
  else (None, (session_main (o_P o) (negb (f_noSync f)) (o_w0 o) (o_w1 o) (o_w o) (o_env o) (o_ord o) (o_riv o) s inp).2).

(** main.go:124-138 from the label Exit on *)
Definition exit_with (o : outside) (f : flags) (err : option error) : ending := Status (exit_status err (o_clip o) (o_close o) (f_noClear f)).

(** main.go:25-138.  Without a terminal (lines 50-53) the editor closed at the end is
    the zero value, whose instance is a nil pointer. *)
Definition bpass (o : outside) (f : flags) (inp : list input) : effects * ending :=
  match parseCli f with
  | CliExit z => (no_effects, Status z)
  | CliGo t =>
      if f_version f then (no_effects, Status 0)
      else match o_terminal o with
      | Some _ => (no_effects, Crashed)
      | None =>
          if f_gen f then
            match newPassword (o_rand o) inp with
            | UOk pw _ => (mk_effects (Some pw) None None, Status 0)
            | UErr _ _ => (no_effects, Status 1)
            | UPanic => (no_effects, Crashed)
            | UWait => (no_effects, Waiting)
            end
          else match o_abs o with
          | Some _ => (no_effects, Status 1)
          | None =>
              match loadBlob (o_P o) (o_disk o) (history_at t) (o_salt o) inp with
              | UErr x _ => (no_effects, exit_with o f (Some x))
              | UPanic => (no_effects, Crashed)
              | UWait => (no_effects, Waiting)
              | UOk s inp =>
                  match work o f s inp with
                  | (csv, UOk file _) => (mk_effects None csv file, exit_with o f None)
                  | (csv, UErr x _) => (mk_effects None csv None, exit_with o f (Some x))
                  | (csv, UPanic) => (mk_effects None csv None, Crashed)
                  | (csv, UWait) => (mk_effects None csv None, Waiting)
                  end
              end
          end
      end
  end.

(** main.go:275-292, [shortPath], with '/' as the separator.  string(p[0]) makes a
    rune of the first byte. *)
Definition slash : Ascii.ascii := Zbyte 47.
Definition short_part (p : string) : string :=
  match p with EmptyString => p | String c _ => encode_rune (byteZ c) end.
Definition shortPath (filename : string) : outcome string :=
  let parts := split_on slash filename in
  if (length parts =? 1)%nat then Ok filename
  else Ok (go_join (String slash "") (map short_part (removelast parts) ++ [List.last parts ""])).
