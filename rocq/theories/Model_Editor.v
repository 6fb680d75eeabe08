(** Model of readline.go, noreadline.go and osutil: the line editors, tab
    completion, and the programs started for editing and browsing.  The readline
    library itself is not modelled: it returns a line or an error. *)
From Verif Require Export Model_Repl Model_Pinentry.
From stdpp Require Import options.
#[local] Open Scope Z_scope.

(** ** Tab completion *)

(** readline.go:114-131, [entryCompleter]: the names offered; [None] is a session
    whose file is not opened yet.  An error of Search is only printed.  [ord] is the
    order in which [Names] (blobformat/blobs.go:271-283) walks the results. *)
Definition entryCompleter (lower : Z → Z) (e : env) (ord : gmap string string → list (string * string)) (d : option db)
    : option db * outcome (list string) :=
  match d with
  | None => (None, Ok [])
  | Some d =>
      match Search lower e "" d with
      | (d', Ok r) => (Some d', Ok (sort_strings (ord (res_map r)).*2))
      | (d', Fail _) => (Some d', Ok [])
      | (d', Panic) => (Some d', Panic)
      end
  end.

(** readline.go:133-202, [readlineAutocompleter]: each command that is offered, with
    whether names of entries follow, and which keys follow those *)
Definition some_keys : list string := ["email"; "user"; "pass"; "totp"; "notes"].
Definition completions : list (string * option (list string)) :=
  [("passwd", None); ("help", None); ("exit", None); ("add", None); ("rm", Some []); ("mv", Some []); ("ls", None);
   ("cd", Some []); ("labels", None); ("show", Some []); ("set", Some some_keys); ("get", Some some_keys); ("cp", Some some_keys);
   ("edit", Some some_keys); ("open", Some []); ("rmk", Some some_keys); ("label", Some []); ("rmlabel", Some []);
   ("pass", Some []); ("user", Some []); ("email", Some []); ("totp", Some []); ("sync", Some []); ("addsync", None);
   ("adduser", None); ("rekey", None)].

(** ** readline.go:62-107: a line read with the readline library *)

(** What the library returns *)
Inductive rl := RLine (s : string) | REof | RInterrupt | RError (e : error).
Definition of_rl (r : rl) : input :=
  match r with
  | RLine s => ILine s
  | REof => IErr EEnd
  | RInterrupt => IErr EInterrupt
  | RError e => IErr e
  end.
(** The editor (readline.go:22-27) and the prompt the library shows.  The methods have
    value receivers: what they assign to the editor is lost. *)
Record editor := mk_editor { currentPrompt : string; promptNeedsReset : bool }.
(** readline.go:29-36 and 45 *)
Definition new_editor : editor := mk_editor "" false.
Definition first_prompt : string := "> ".
(** readline.go:65-84, [Line]: the prompt shown afterwards *)
Definition line_prompt (r : editor) (shown prompt : string) : string :=
  if negb (String.eqb (currentPrompt r) prompt) || promptNeedsReset r then prompt else shown.
(** Lines asked for one after the other, with the prompts asked for: the prompts shown *)
Fixpoint prompts_shown (r : editor) (shown : string) (prompts : list string) : list string :=
  match prompts with
  | [] => []
  | p :: rest => let q := line_prompt r shown p in q :: prompts_shown r q rest
  end.

(** ** noreadline.go: Windows *)

(** noreadline.go:41-48, [Line]: bufio.Scanner on the standard input.  The end of the
    input, or a line that is too long, is an interrupt.  The inputs until then: *)
Fixpoint scan_inputs (fuel : nat) (text : string) : list input :=
  match fuel with
  | O => []
  | S fuel => match scan_line text with Some (l, t) => ILine l :: scan_inputs fuel t | None => [IErr EInterrupt] end
  end.
Definition stdin_inputs (text : string) : list input := scan_inputs (S (String.length text)) text.

(** unicode/utf16, [Decode] *)
Definition surr1 (r : Z) : bool := (55296 <=? r) && (r <? 56320).
Definition surr2 (r : Z) : bool := (56320 <=? r) && (r <? 57344).
Fixpoint utf16_decode (s : list Z) : list Z :=
  match s with
  | [] => []
  | r :: rest =>
      if surr1 r then
        match rest with
        | r2 :: rest2 => if surr2 r2 then ((r - 55296) * 1024 + (r2 - 56320) + 65536) :: utf16_decode rest2 else RuneError :: utf16_decode rest
        | [] => [RuneError]
        end
      else if surr2 r then RuneError :: utf16_decode rest
      else r :: utf16_decode rest
  end.

(** What windows.ReadConsole gives: up to 256 units, or an error *)
Inductive console := Chunk (units : list Z) | Broken (e : error).
Inductive hidden := TLine (s : string) | TErr (e : error) | TPanic | TWait.
(** The first unit of the buffer that the switch (noreadline.go:87-103) knows *)
Definition special_unit (c : Z) : bool := (c =? 8) || (c =? 13) || (c =? 10) || (c =? 4) || (c =? 3).
Fixpoint first_special (i : nat) (buf : list Z) : option (nat * Z) :=
  match buf with
  | [] => None
  | c :: r => if special_unit c then Some (i, c) else first_special (S i) r
  end.
(** noreadline.go:76-108.  All of the buffer is looked at, also what is left in it of
    earlier reads.  bytes.Buffer.Truncate panics below 0. *)
Fixpoint hidden_loop (buf : list Z) (builder : string) (reads : list console) : hidden :=
  match reads with
  | [] => TWait
  | Broken e :: _ => TErr e
  | Chunk units :: rest =>
      let buf := units ++ drop (length units) buf in
      match first_special 0 buf with
      | None => hidden_loop buf (builder +:+ encode (utf16_decode units)) rest
      | Some (i, c) =>
          if c =? 8 then
            if String.eqb builder "" then TPanic else hidden_loop buf (String.substring 0 (String.length builder - 1) builder) rest
          else if (c =? 13) || (c =? 10) then TLine (builder +:+ encode (utf16_decode (take i buf)))
          else if c =? 4 then TErr EEnd
          else TErr EInterrupt
      end
  end.
(** noreadline.go:51-116, [LineHidden]; [setup] is the error of lines 52-66, if any *)
Definition LineHidden (setup : option error) (reads : list console) : hidden :=
  match setup with
  | Some e => TErr e
  | None => match hidden_loop (replicate 256 0) "" reads with TLine s => TLine (TrimSpace s) | r => r end
  end.

(** ** osutil: starting programs *)

(** exec.Command and Run: the program must be found; it gets the arguments as they
    are *)
Definition start (found : string → bool) (program : string) (args : list string) : outcome (string * list string) :=
  if found program then Ok (program, args) else Fail (EMsg "executable file not found").
(** osutil_linux.go:36-55 and osutil_windows.go:32-51, [RunEditor], which differ in the
    editors they know; [env] is $EDITOR *)
Definition linux_editors : list string := ["vim"; "code"; "atom"; "sublime"; "emacs"; "nano"].
Definition windows_editors : list string := ["code"; "atom"; "sublime"; "vim"; "notepad"].
Definition RunEditor (editors : list string) (env : string) (found : string → bool) (filename : string) : outcome (string * list string) :=
  let editor := if (String.length env =? 0)%nat then default "" (List.find found editors) else env in
  start found editor [filename].
(** osutil_darwin.go:33-46 *)
Definition RunEditor_darwin (env : string) (found : string → bool) (filename : string) : outcome (string * list string) :=
  if (String.length env =? 0)%nat then start found "open" ["-W"; filename] else start found env [filename].
(** osutil_linux.go:12-33, osutil_darwin.go:11-30 and osutil_windows.go:11-29, [OpenURL], which
    differ in the program; what it does is not waited for *)
Definition OpenURL (program : string) (found : string → bool) (uri : string) : outcome (string * list string) :=
  start found program [uri].
