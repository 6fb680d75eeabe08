(** Model of sync.go:40-203 and 222-331 ([sync], [collectSyncs], [pullBlob],
    [pushBlob], [decryptBlob]) and merging.go:62-203 ([mergeBlobs]).

    The remote end is an oracle: what sshPull and ReadFile give, what sshPush
    and WriteFile answer, and what url.Parse says about an url.  Messages to
    the user are not modelled. *)
From Verif Require Export Model_Session Model_Hosts Model_Merging.
From stdpp Require Import options.
Import Model_GoStr.
#[local] Open Scope nat_scope.

(** What pulling a file gives: errNotFound, another error, or its content. *)
Inductive pulled := NotFound | NotPulled (e : error) | Pulled (ct : slice byte).

(** - [y_env k]: clocks and orders, 0 for finding the entries to sync, 1 and 2
      for the two calls of saveHosts, 3 for makeParams, 4 for [mergeBlobs];
    - [y_scheme]: the scheme of an url, [None] if url.Parse fails;
    - [y_ssh_pull i], [y_read i]: the [i]-th pull, with the line for a host newly
      accepted; the user is asked about unknown hosts, so it reads input;
    - [y_ssh_push i], [y_write i]: likewise for the [i]-th push;
    - [y_hosts k]: the order in which the [k]-th map of new hosts is ranged over;
    - [y_ord], [y_iv]: as in [saveBlob]. *)
Record sync_world := mk_sync_world {
  y_env : nat → env;
  y_scheme : string → option string;
  y_ssh_pull : nat → entry → list input → ui (string * pulled);
  y_read : nat → string → pulled;
  y_ssh_push : nat → entry → bytes → list input → ui (string * option error);
  y_write : nat → string → bytes → option error;
  y_hosts : nat → gmap string string → list (string * string);
  y_ord : gmap string string → list (string * string);
  y_iv : option bytes;
}.

(** commands.go:47-48 *)
Definition syncSCP : string := "scp".
Definition syncFile : string := "file".

Definition key_of_entry (b : entry) (k : string) : string := default "" (b !! k).
Definition entry_at (s : session) (uuid : string) : entry := default ∅ (snap_of (s_db s) !! uuid).

(** ** sync.go:225-261, [collectSyncs] *)
Definition is_sync (w : sync_world) (b : entry) : bool :=
  String.eqb (key_of_entry b KeySync) "true" &&
  negb (String.eqb (key_of_entry b KeyName) "") &&
  negb (String.eqb (key_of_entry b KeyURL) "") &&
  match y_scheme w (key_of_entry b KeyURL) with
  | Some sch => String.eqb sch syncSCP || String.eqb sch syncFile
  | None => false
  end.
Definition collectSyncs (w : sync_world) (m : snapshot) : list string :=
  fst <$> filter (λ '(_, b), is_sync w b = true) (e_ord (y_env w 0) 0 m).

(** An error of ssh is a value in Go: it does not end the command. *)
Definition pull_ui (x : ui (string * pulled)) : ui (string * pulled) :=
  match x with UErr e rest => UOk ("", NotPulled e) rest | r => r end.
Definition push_ui (x : ui (string * option error)) : ui (string * option error) :=
  match x with UErr e rest => UOk ("", Some e) rest | r => r end.

(** ** sync.go:264-288, [pullBlob].  An url that does not parse leaves [uri] nil.
    For another scheme there is no error and no content. *)
Definition pullBlob (w : sync_world) (i : nat) (b : entry) (inp : list input) : ui (string * pulled) :=
  match y_scheme w (key_of_entry b KeyURL) with
  | None => UPanic
  | Some sch =>
      if String.eqb sch syncSCP then pull_ui (y_ssh_pull w i b inp)
      else if String.eqb sch syncFile then UOk ("", y_read w i (key_of_entry b KeyURL)) inp
      else UOk ("", Pulled slice_nil) inp
  end.

(** ** sync.go:291-304, [pushBlob] *)
Definition pushBlob (w : sync_world) (i : nat) (b : entry) (payload : bytes) (inp : list input) : ui (string * option error) :=
  match y_scheme w (key_of_entry b KeyURL) with
  | None => UPanic
  | Some sch =>
      if String.eqb sch syncSCP then push_ui (y_ssh_push w i b payload inp)
      else if String.eqb sch syncFile then UOk ("", y_write w i (key_of_entry b KeyURL) payload) inp
      else UOk ("", None) inp
  end.

(** ** sync.go:306-331, [decryptBlob].  [None]: an error, or nothing because the
    user gave up; the caller treats both alike.  The key and salt tried first
    are those of the session; they are kept when asking again.  Each round but
    the last takes an input, so it recurs on the inputs. *)
Definition opened := (Model_Crypt.Params * string * string * bytes)%type.
Fixpoint decryptBlob (P : prims) (key salt : bytes) (ct : slice byte) (user pass : string) (inp : list input) {struct inp} : ui (option opened) :=
  match Decrypt P (str_bytes user) (str_bytes pass) (opt_bytes key) salt ct with
  | Ok (_, params, pt) => UOk (Some (params, user, pass, pt)) inp
  | Panic => UPanic
  | Fail e =>
      if decide (e = ENeedUser ∨ e = EUnknownUser) then
        match inp with
        | [] => UWait
        | IErr _ :: rest => UOk None rest
        | ILine x :: rest => decryptBlob P key salt ct x pass rest
        end
      else if decide (e = EWrongPassphrase) then
        match inp with
        | [] => UWait
        | IErr _ :: rest => UOk None rest
        | ILine x :: rest => if String.eqb x "" then UOk None rest else decryptBlob P key salt ct user x rest
        end
      else UOk None inp
  end.

(** sync.go:22-34 and merging.go:12-17 *)
Record part := mk_part {
  b_user : string; b_pass : string; b_params : Model_Crypt.Params; b_log : list tx;
}.
Record merge_result := mk_merged {
  m_user : string; m_pass : string; m_key : bytes; m_salt : bytes;
  m_master : bytes; m_ivm : bytes; m_log : list tx;
}.

(** sync.go:119-121 *)
Definition no_changes (log mine : list tx) : outcome bool :=
  if (length log =? length mine) then
    a ← idx log 0; b ← idx mine 0;
    if (tx_time a =? tx_time b)%Z then
      c ← idx log (length log - 1); d ← idx mine (length mine - 1);
      Ok (tx_time c =? tx_time d)%Z
    else Ok false
  else Ok false.

(** ** sync.go:72-132: one turn of the first loop.  The line for a new host, whether
    the entry stays in [syncs], and what goes into [blobs].  [dupeCheck] is
    never filled, so lines 93-99 do nothing. *)
Definition pull_one (P : prims) (w : sync_world) (s : session) (i : nat) (uuid : string) (inp : list input) : ui (string * bool * option part) :=
  ubind (pullBlob w i (entry_at s uuid) inp) (λ '(host, got) inp,
  match got with
  | NotFound => UOk (host, true, None) inp
  | NotPulled _ => UOk (host, false, None) inp
  | Pulled ct =>
      ubind (decryptBlob P (s_key s) (s_salt s) ct (s_user s) (s_pass s) inp) (λ r inp,
      match r with
      | None => UOk (host, false, None) inp
      | Some (params, user, pass, pt) =>
          if (length pt =? 0) then UOk (host, false, None) inp
          else match NewLog pt with
          | Fail _ => UOk (host, false, None) inp
          | Panic => UPanic
          | Ok log =>
              ubind (of_outcome (no_changes (vis log) (vis (db_log (s_db s)))) inp) (λ same inp,
              if (same : bool) then UOk (host, false, None) inp
              else UOk (host, true, Some (mk_part user pass params (vis log))) inp)
          end
      end)
  end).

(** The first loop: new hosts, [syncs] without the entries set to "", [blobs]. *)
Definition note_host (uuid host : string) (hosts : gmap string string) : gmap string string :=
  if String.eqb host "" then hosts else <[uuid := host]> hosts.
Fixpoint pull_loop (P : prims) (w : sync_world) (s : session) (i : nat) (l : list string) (inp : list input)
    : ui (gmap string string * list string * list part) :=
  match l with
  | [] => UOk (∅, [], []) inp
  | uuid :: r =>
      ubind (pull_one P w s i uuid inp) (λ '(host, keep, op) inp,
      ubind (pull_loop P w s (S i) r inp) (λ '(hosts, kept, parts) inp,
      UOk (note_host uuid host hosts, (if (keep : bool) then [uuid] else []) ++ kept,
           match op with Some p => [p] | None => [] end ++ parts) inp))
  end.

(** ** merging.go:62-203, [mergeBlobs] *)

(** a store made of a log, merging.go:102-103, 125-127 *)
Definition db_of (log : list tx) : db := mk_db 0 None (mk_slice log []) 0.
Definition on_log {A} (log : list tx) (f : M A) : outcome A := snd (f (db_of log)).
Definition last_time (l : list tx) : outcome Z := x ← idx l (length l - 1); Ok (tx_time x).
Definition remote_key (r : part) : outcome bytes := idx (Keys (b_params r)) (Z.to_nat (User (b_params r))).
Definition remote_salt (r : part) : outcome bytes := idx (Salts (b_params r)) (Z.to_nat (User (b_params r))).
Definition remote_master (r : part) : bytes := nil_bytes (Master (b_params r)).

(** lines 80-98: both files are for a single user *)
Definition take_single (ukey : bytes) (m : merge_result) (r : part) (inp : list input) : ui bool :=
  ubind (of_outcome (remote_key r) inp) (λ key inp,
  if decide (ukey = key) then UOk false inp
  else ubind (of_outcome (last_time (m_log m)) inp) (λ tl inp,
       ubind (of_outcome (last_time (b_log r)) inp) (λ tr inp,
       if (tl <? tr)%Z then UOk true inp
       else if (tl =? tr)%Z then getYesNo inp
       else UOk false inp))).

(** lines 99-121: one of them has several users *)
Definition take_mode (e : env) (umaster : bytes) (merged : list tx) : outcome bool :=
  users ← on_log merged (Users e);
  let n := size (res_map users) in
  Ok (((n =? 0) && negb (length umaster =? 0)) || (negb (n =? 0) && (length umaster =? 0))).

(** lines 122-190: the master keys differ.  The users found are only used for
    messages. *)
Definition take_master (e : env) (m : merge_result) (merged : list tx) : outcome bool :=
  loc ← on_log (m_log m) (FindUser e (m_user m));
  mu ← on_log merged (Find (match loc with Some (u, _) => u | None => "" end));
  match loc, mu with
  | None, _ => Fail (EMsg "could not find current user entry in local user db")
  | Some _, None => Fail (EMsg "could not find current user entry in merged user db")
  | Some (_, lb), Some mb =>
      _ ← on_log (m_log m) (Users e);
      _ ← on_log merged (Users e);
      Ok (negb (String.eqb (key_of_entry lb KeyMKey) (key_of_entry mb KeyMKey)))
  end.

Definition take_remote (e : env) (ukey umaster : bytes) (m : merge_result) (r : part) (merged : list tx) (inp : list input) : ui bool :=
  if (length umaster =? 0) && (length (remote_master r) =? 0) then take_single ukey m r inp
  else if negb (length umaster =? length (remote_master r)) then of_outcome (take_mode e umaster merged) inp
  else if decide (umaster = remote_master r) then UOk false inp
  else of_outcome (take_master e m merged) inp.

(** lines 192-199 *)
Definition with_remote (r : part) (m : merge_result) (merged : list tx) : outcome merge_result :=
  key ← remote_key r; salt ← remote_salt r;
  Ok (mk_merged (b_user r) (b_pass r) key salt (remote_master r) (nil_bytes (IVM (b_params r))) merged).
Definition with_log (m : merge_result) (merged : list tx) : merge_result :=
  mk_merged (m_user m) (m_pass m) (m_key m) (m_salt m) (m_master m) (m_ivm m) merged.

Definition merge_one (e : env) (ukey umaster : bytes) (m : merge_result) (r : part) (inp : list input) : ui merge_result :=
  ubind (mergeLogs (m_log m) (b_log r) inp) (λ merged inp,
  ubind (take_remote e ukey umaster m r merged inp) (λ take inp,
  if (take : bool) then of_outcome (with_remote r m merged) inp
  else UOk (with_log m merged) inp)).
Fixpoint merge_parts (e : env) (ukey umaster : bytes) (m : merge_result) (l : list part) (inp : list input) : ui merge_result :=
  match l with
  | [] => UOk m inp
  | r :: l => ubind (merge_one e ukey umaster m r inp) (λ m inp, merge_parts e ukey umaster m l inp)
  end.
Definition merge_start (s : session) : merge_result :=
  mk_merged (s_user s) (s_pass s) (s_key s) (s_salt s) (s_master s) (s_ivm s) (vis (db_log (s_db s))).
Definition mergeBlobs (e : env) (s : session) (l : list part) (inp : list input) : ui merge_result :=
  merge_parts e (s_key s) (s_master s) (merge_start s) l inp.

(** ** sync.go:40-203, [sync] *)

(** lines 41-64; [None]: no entry has this name *)
Definition targets (w : sync_world) (name : string) : M (option (list string)) :=
  _ ← UpdateSnapshot;
  if String.eqb name "" then m ← get_snap; mret (Some (collectSyncs w m))
  else
    r ← FindByName (y_env w 0) name;
    mret match r with Some (u, _) => if String.eqb u "" then None else Some [u] | None => None end.

(** line 134: an error of [mergeBlobs] ends the command without an error *)
Definition attempt {A} (f : list input → ui A) : C (option A) := λ s inp,
  match f inp with
  | UOk a rest => (s, UOk (Some a) rest)
  | UErr _ rest => (s, UOk None rest)
  | UPanic => (s, UPanic)
  | UWait => (s, UWait)
  end.

(** lines 140-151.  [os.Exit(1)] ends the process, which is [Panic] here. *)
Definition adopt (m : merge_result) : C unit :=
  _ ← change (λ s, set_master (m_master m) (m_ivm m) (set_creds (m_pass m) (m_key m) (m_salt m) (set_user (m_user m) s)));
  _ ← change (λ s, set_db (let d := ResetSnapshot (s_db s) in mk_db (db_version d) (db_snapshot d) (mk_slice (m_log m) []) (db_txpoint d)) s);
  on_db (must UpdateSnapshot).

(** lines 162-171: the file to push *)
Definition sealed (P : prims) (w : sync_world) : C bytes :=
  s ← state;
  data ← try (Save (s_db s));
  params ← on_db (makeParams P (y_env w 3) (y_ord w) s);
  try (Encrypt P cryptVersion params (y_iv w) data).

(** lines 41-171: everything before the first push; [None] if there is none *)
Definition prepare (P : prims) (w : sync_world) (name : string) (push : bool) : C (option (bytes * list string)) :=
  ts ← on_db (targets w name);
  match ts with
  | None => mret None
  | Some syncs =>
      s ← state;
      '(hosts, kept, parts) ← ask (pull_loop P w s 0 syncs);
      out ← attempt (mergeBlobs (y_env w 4) s parts);
      match out with
      | None => mret None
      | Some m =>
          _ ← adopt m;
          _ ← on_db (saveHosts (y_env w 1) (y_hosts w 0 hosts));
          if push then ct ← sealed P w; mret (Some (ct, kept)) else mret None
      end
  end.

(** lines 174-196: the second loop.  Also the list of what was pushed where: it
    is there even if a later push panics.  The url is that of the entry now, in
    the merged store. *)
Record push := mk_push { p_uuid : string; p_url : string; p_file : bytes; p_err : option error }.
Fixpoint push_loop (w : sync_world) (s : session) (i : nat) (ct : bytes) (l : list string) (inp : list input)
    : list push * ui (gmap string string) :=
  match l with
  | [] => ([], UOk ∅ inp)
  | uuid :: r =>
      match pushBlob w i (entry_at s uuid) ct inp with
      | UOk (host, oe) inp =>
          match push_loop w s (S i) ct r inp with
          | (ps, x) => (mk_push uuid (key_of_entry (entry_at s uuid) KeyURL) ct oe :: ps, ubind x (λ hosts inp, UOk (note_host uuid host hosts) inp))
          end
      | UErr e rest => ([], UErr e rest)
      | UPanic => ([], UPanic)
      | UWait => ([], UWait)
      end
  end.

Definition sync (P : prims) (w : sync_world) (name : string) (push : bool) (s : session) (inp : list input) : session * list Model_Sync.push * ui unit :=
  match prepare P w name push s inp with
  | (s, UOk None rest) => (s, [], UOk tt rest)
  | (s, UOk (Some (ct, kept)) rest) =>
      match push_loop w s 0 ct kept rest with
      | (ps, UOk hosts rest) =>
          match on_db (saveHosts (y_env w 2) (y_hosts w 1 hosts)) s rest with (s, r) => (s, ps, r) end
      | (ps, UErr e rest) => (s, ps, UErr e rest)
      | (ps, UPanic) => (s, ps, UPanic)
      | (ps, UWait) => (s, ps, UWait)
      end
  | (s, UErr e rest) => (s, [], UErr e rest)
  | (s, UPanic) => (s, [], UPanic)
  | (s, UWait) => (s, [], UWait)
  end.
