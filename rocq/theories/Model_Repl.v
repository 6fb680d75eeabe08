(** Model of repl.go and of the main program from the opened file on
    (main.go:88-139). *)
From Verif Require Export Model_Commands.
From stdpp Require Import options.

(** ** strings.TrimSpace

    Leading white space is found by decoding from the front; [skip] bytes belong
    to the rune just read.  Go finds trailing white space by decoding from the
    back (utf8.DecodeLastRune); what is removed is the longest suffix that is
    white space throughout, also for text that is not valid UTF-8, because a
    byte inside a rune decodes to U+FFFD, which is not white space. *)
Fixpoint trim_left (skip : nat) (s : string) : string :=
  match s with
  | EmptyString => ""
  | String c s' =>
      match skip with
      | S k => trim_left k s'
      | O =>
          match decode_rune s with
          | None => ""
          | Some (r, w) => if IsSpace r then trim_left (w - 1) s' else s
          end
      end
  end.
Definition all_space (s : string) : bool := forallb IsSpace (runes s).
Fixpoint trim_right (s : string) : string :=
  match s with
  | EmptyString => ""
  | String c s' => if all_space s then "" else String c (trim_right s')
  end.
Definition TrimSpace (s : string) : string := trim_right (trim_left 0 s).

(** ** repl.go:186-610: the commands with their arguments *)

Inductive command :=
| KPasswd (user : string)
| KAddUser (user : string)
| KRekey (user : string)
| KRekeyAll
| KAdd (name : string)
| KMv (src dst : string)
| KRm (name : string)
| KRmk (query key : string)
| KLs (query : string)
| KCd (query : option string)
| KGet (query key : string) (index : Z) (copy : bool)
| KLogin (query : string)
| KSet (query key value : string)
| KEdit (query key : string)
| KOpen (query : string)
| KLabel (query : string)
| KRmLabel (query label : string)
| KLabels (labels : list string)
| KShow (query : string) (snapshot : Z)
| KSync (name : string)
| KAddSync (kind : string)
| KDump (query : string)
| KDumpAll
| KHelp
| KExit.

(** What a line leads to: nothing (an empty line), an unknown command, a
    refused one, a usage message, or a command. *)
Inductive reply := Skip | Unknown | Refused | Usage | Run (c : command).

#[global] Instance command_eq_dec : EqDecision command.
Proof. solve_decision. Defined.
#[global] Instance reply_eq_dec : EqDecision reply.
Proof. solve_decision. Defined.

(** The commands marked ReadOnly, and the others *)
Definition read_cmds : list string :=
  ["ls"; "cd"; "cp"; "get"; KeyUser; KeyPass; KeyEmail; KeyTwoFactor; "open"; "labels"; "show"; "dump"; "dumpall"; "help"; "exit"].
Definition write_cmds : list string :=
  ["passwd"; "adduser"; "rekey"; "rekeyall"; "add"; "mv"; "rm"; "rmk"; "login"; "set"; "edit"; "label"; "rmlabel"; "sync"; "addsync"].

(** A query (unless there is a context entry, whose name is [ctx]) and a key *)
Definition keyed (ctx : string) (args : list string) (k : string → string → list string → reply) : reply :=
  if (String.length ctx =? 0)%nat then
    match args with name :: key :: rest => k name key rest | _ => Usage end
  else match args with key :: rest => k ctx key rest | [] => Usage end.
(** A query, unless there is a context entry *)
Definition queried (ctx : string) (args : list string) (k : string → list string → reply) : reply :=
  if (String.length ctx =? 0)%nat then match args with name :: rest => k name rest | [] => Usage end
  else k ctx args.
Definition first_arg (args : list string) : string := match args with a :: _ => a | [] => "" end.

(** repl.go:569-595, [getCopy] *)
Definition getCopy (ctx cmd : string) (args : list string) : reply :=
  keyed ctx args (λ name key rest,
    match rest with
    | [] => Run (KGet name key (-1) (String.eqb cmd "cp"))
    | a :: _ => match Atoi a with Ok i => Run (KGet name key i (String.eqb cmd "cp")) | _ => Usage end
    end).

(** repl.go:597-610, [quickCopy] *)
Definition quickCopy (ctx cmd : string) (args : list string) : reply :=
  queried ctx args (λ name _, Run (KGet name cmd (-1) true)).

(** repl.go:186-567: the Run function of command [cmd] *)
Definition run_of (ctx cmd : string) (args : list string) : reply :=
  if String.eqb cmd "passwd" then Run (KPasswd (first_arg args))
  else if String.eqb cmd "adduser" then match args with [] => Usage | a :: _ => Run (KAddUser a) end
  else if String.eqb cmd "rekey" then Run (KRekey (first_arg args))
  else if String.eqb cmd "rekeyall" then Run KRekeyAll
  else if String.eqb cmd "add" then match args with [] => Usage | a :: _ => Run (KAdd a) end
  else if String.eqb cmd "mv" then match args with a :: b :: _ => Run (KMv a b) | _ => Usage end
  else if String.eqb cmd "rm" then match args with [] => Usage | a :: _ => Run (KRm a) end
  else if String.eqb cmd "rmk" then keyed ctx args (λ n k _, Run (KRmk n k))
  else if String.eqb cmd "ls" then Run (KLs (first_arg args))
  else if String.eqb cmd "cd" then match args with [] => Run (KCd None) | [a] => Run (KCd (Some a)) | _ => Usage end
  else if String.eqb cmd "cp" || String.eqb cmd "get" then getCopy ctx cmd args
  else if String.eqb cmd KeyUser || String.eqb cmd KeyPass || String.eqb cmd KeyEmail || String.eqb cmd KeyTwoFactor then quickCopy ctx cmd args
  else if String.eqb cmd "login" then
    let name := match args with a :: _ => a | [] => ctx end in
    if (String.length name =? 0)%nat then Usage else Run (KLogin name)
  else if String.eqb cmd "set" then
    keyed ctx args (λ name key rest,
      if (String.length name =? 0)%nat || (String.length key =? 0)%nat then Usage
      else Run (KSet name key (go_join " " rest)))
  else if String.eqb cmd "edit" then keyed ctx args (λ n k _, Run (KEdit n k))
  else if String.eqb cmd "open" then queried ctx args (λ n _, Run (KOpen n))
  else if String.eqb cmd "label" then queried ctx args (λ n _, Run (KLabel n))
  else if String.eqb cmd "rmlabel" then keyed ctx args (λ n k _, Run (KRmLabel n k))
  else if String.eqb cmd "labels" then match args with [] => Usage | _ => Run (KLabels args) end
  else if String.eqb cmd "show" then
    queried ctx args (λ n rest,
      Run (KShow n (match rest with a :: _ => match Atoi a with Ok i => i | _ => 0%Z end | [] => 0%Z end)))
  else if String.eqb cmd "sync" then Run (KSync (first_arg args))
  else if String.eqb cmd "addsync" then match args with [] => Usage | a :: _ => Run (KAddSync a) end
  else if String.eqb cmd "dump" then queried ctx args (λ n _, Run (KDump n))
  else if String.eqb cmd "dumpall" then Run KDumpAll
  else if String.eqb cmd "help" then Run KHelp
  else if String.eqb cmd "exit" then Run KExit
  else Unknown.

(** repl.go:145-168: a line *)
Definition is_cmd (l : list string) (cmd : string) : bool := existsb (String.eqb cmd) l.
Definition parse_line (readOnly : bool) (ctx line : string) : reply :=
  let line := TrimSpace line in
  match Fields line with
  | [] => Skip
  | cmd :: rest =>
      let args := if String.eqb cmd "set" then drop 1 (split_on (Zbyte 32) line) else rest in
      if negb (is_cmd read_cmds cmd || is_cmd write_cmds cmd) then Unknown
      else if readOnly && negb (is_cmd read_cmds cmd) then Refused
      else run_of ctx cmd args
  end.

(** The command: the context entry's name afterwards and what is shown.
    repl.go:295-324 for cd, 248-263 for rm. *)
Definition silent {A} (ctx : string) (x : C A) : C (string * list out) := _ ← x; mret (ctx, []).
Definition showing (ctx : string) (x : C (list out)) : C (string * list out) := o ← x; mret (ctx, o).
Definition exec (w : world) (ctx : string) (c : command) : C (string * list out) :=
  match c with
  | KPasswd u => silent ctx (passwd (w_P w) (w_env w 0) (w_rand w) u)
  | KAddUser u => silent ctx (adduser (w_P w) (w_env w 0) (w_rand w) u)
  | KRekey u => silent ctx (rekey (w_P w) (w_env w 0) (w_rand w) u)
  | KRekeyAll => l ← rekeyAll (w_P w) (w_env w 0) (w_rand w); mret (ctx, [Passwords l])
  | KAdd n => showing ctx (addNewInterruptible w n)
  | KMv a b => showing ctx (rename w a b)
  | KRm n => silent (if String.eqb ctx n then "" else ctx) (deleteEntry (w_env w 0) n)
  | KRmk q k => showing ctx (deleteKey w q k)
  | KLs q => showing ctx (list_cmd w q)
  | KCd None => mret ("", [])
  | KCd (Some q) =>
      uuid ← findq w q;
      if String.eqb uuid "" then mret (ctx, [Note])
      else
        blob ← on_db (MustFind uuid);
        name ← try (Name blob);
        mret (name, [])
  | KGet q k i copy => showing ctx (get_cmd w q k i copy)
  | KLogin q => showing ctx (login w q)
  | KSet q k v => showing ctx (set_cmd w q k v)
  | KEdit q k => showing ctx (edit w q k)
  | KOpen q => showing ctx (openurl w q)
  | KLabel q => showing ctx (addLabels w q)
  | KRmLabel q l => showing ctx (deleteLabel w q l)
  | KLabels ls => showing ctx (listByLabels w ls)
  | KShow q i => showing ctx (show w q i)
  | KSync n => silent ctx (w_sync w n)
  | KAddSync k => showing ctx (addSyncInterruptible w k)
  | KDump q => showing ctx (dump w q)
  | KDumpAll => showing ctx dumpall
  | KHelp => mret (ctx, [Note])
  | KExit => mret (ctx, [])
  end.

(** ** repl.go:127-179, [run].  Every turn takes a line, so [fuel] more than
    the number of inputs is enough; [w n] is for the [n]-th turn.  The result
    [UOk] stands for returning nil; the texts shown by commands that came to
    their end are collected. *)
Fixpoint run_loop (fuel : nat) (w : nat → world) (n : nat) (ctx : string) (shown : list out) (s : session) (inp : list input)
    : session * list out * ui unit :=
  match fuel with
  | O => (s, shown, UWait)
  | S f =>
      match inp with
      | [] => (s, shown, UWait)
      | IErr EEnd :: rest => (s, shown, UOk tt rest)
      | IErr e :: rest => (s, shown, UErr e rest)
      | ILine line :: rest =>
          match parse_line (s_readOnly s) ctx line with
          | Run KExit => (s, shown, UOk tt rest)
          | Run c =>
              match exec (w n) ctx c s rest with
              | (s', UOk (ctx', o) rest') => run_loop f w (S n) ctx' (shown ++ o) s' rest'
              | (s', UErr e rest') => (s', shown, UErr e rest')
              | (s', UPanic) => (s', shown, UPanic)
              | (s', UWait) => (s', shown, UWait)
              end
          | _ => run_loop f w n ctx shown s rest
          end
      end
  end.
Definition run_repl (w : nat → world) (s : session) (inp : list input) : session * list out * ui unit :=
  run_loop (S (length inp)) w 0 "" [] s inp.

(** ** main.go:88-122: from the opened file to its saving, for a session
    without the import and export flags.  [None]: nothing is written.  The
    first and last syncs use [w0] and [w1]; [riv] is the IV of a single-user
    file and [e], [ord] are for saving. *)
Definition auto_sync (autosync : bool) (w : world) : C unit :=
  s ← state;
  if negb (s_readOnly s) && autosync then w_sync w "" else mret tt.

Definition session_main (P : prims) (autosync : bool) (w0 w1 : world) (w : nat → world)
    (e : env) (ord : gmap string string → list (string * string)) (riv : option bytes) (s : session) (inp : list input)
    : session * ui (option bytes) :=
  match auto_sync autosync w0 s inp with
  | (s1, UOk _ inp1) =>
      match run_repl w s1 inp1 with
      | (s2, _, UOk _ inp2) =>
          let wrote := negb (s_startTx s2 =? length (vis (db_log (s_db s2))))%nat in
          match auto_sync (autosync && wrote) w1 s2 inp2 with
          | (s3, UOk _ inp3) => let '(s4, o) := saveBlob P e ord riv s3 in (s4, of_outcome o inp3)
          | (s3, UErr x inp3) => (s3, UErr x inp3)
          | (s3, UPanic) => (s3, UPanic)
          | (s3, UWait) => (s3, UWait)
          end
      | (s2, _, UErr x inp2) => (s2, UErr x inp2)
      | (s2, _, UPanic) => (s2, UPanic)
      | (s2, _, UWait) => (s2, UWait)
      end
  | (s1, UErr x inp1) => (s1, UErr x inp1)
  | (s1, UPanic) => (s1, UPanic)
  | (s1, UWait) => (s1, UWait)
  end.

(** main.go:123-138: the exit status of a run that reaches the label Exit with
    [err]; [clip] and [close] are the errors of clearing the clipboard (skipped
    with a flag) and of closing the terminal. *)
Definition exit_status (err clip close : option error) (no_clear : bool) : Z :=
  let err := if no_clear then err else clip in
  let err := close in
  match err with Some _ => 1 | None => 0 end.
