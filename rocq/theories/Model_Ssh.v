(** Model of sync.go:333-415 ([sshPull], [sshPush], [sshConfig]) and of the
    dialling in scpsync/scpsync.go:66-178 ([Recv], [Send]).

    The ssh library is an oracle: for a target it says whether there is an
    answer, which key the host shows, and, if that is accepted, what becomes of
    logging in and of the command started.  ssh.ParsePrivateKey is an oracle
    too. *)
From Verif Require Export Model_Url Model_Scp Model_Sync.
From stdpp Require Import options.
Import Model_GoStr.

(** What sshConfig finds out: the host and port to dial, the path, the user and
    the means of proving to be that user *)
Record target := mk_target { t_address : string; t_path : string; t_user : string; t_pass : option string; t_key : option string }.

Definition uri_user (u : URL) : string := match u_user u with Some (n, _) => n | None => "" end.
Definition uri_pass (u : URL) : string := match u_user u with Some (_, Some p) => p | _ => "" end.
Definition non_empty (s : string) : option string := if String.eqb s "" then None else Some s.

(** ** sync.go:369-409, [sshConfig] *)
Definition sshConfig (key_err : string → option error) (b : entry) : outcome target :=
  match Parse (key_of_entry b KeyURL) with
  | None => Fail (EMsg "parse")
  | Some uri =>
      let '(host, port) := splitHostPort (u_host uri) in
      let secretKey := key_of_entry b KeyPriv in
      path ← str_drop 1 (u_path uri);
      if String.eqb (uri_user uri) "" then Fail (EMsg "url missing user")
      else if String.eqb host "" then Fail (EMsg "url missing host")
      else if String.eqb path "" then Fail (EMsg "url missing file path")
      else
        let t := mk_target (JoinHostPort host port) path (uri_user uri) (non_empty (uri_pass uri)) (non_empty secretKey) in
        if String.eqb secretKey "" then Ok t
        else match key_err secretKey with Some e => Fail e | None => Ok t end
  end.

(** What happens once the host is accepted.
    - [c_start]: an error of logging in, of opening the session or of starting
      the command;
    - [c_w], [c_out]: as in [readFile];
    - [c_answer]: what one Read gives after the bytes sent; [c_written]: whether
      all of them could be sent;
    - [c_end]: an error of closing the stream or of waiting for the command;
    - [c_close]: an error of closing the connection. *)
Record channel := mk_channel {
  c_start : option error; c_w : nat → bool; c_out : string;
  c_written : bool; c_answer : string → option string; c_end : option error; c_close : option error;
}.
(** No connection, or the host's address and key, and for a command what
    follows *)
Inductive dial := NoDial (e : error) | Dialled (addr keyType keyHash : string) (chan : string → channel).

(** What is given away to the host that shows a key: the secrets, and bytes for
    a command.  Whether the secrets are used depends on the host; they count as
    given away once the host is accepted. *)
Inductive event :=
| Secrets (keyType keyHash : string) (user : string) (pass key : option string)
| Sent (command bytes : string).

(** ** scpsync.go:66-122, [Recv].  The second value: the error, if there is one,
    and whether it is of the kind [IsNotFoundErr] looks for.  An error of closing
    the connection replaces that kind (lines 74-82: an error made with two %w
    wraps nothing). *)
Inductive received := Got (contents : string) | Failed (not_found : bool) (e : error).
Definition Recv (lower : string → string) (filename : string) (c : channel) : outcome (list event * received) :=
  let asked := [Sent ("scp -qf " +:+ filename) ""] in
  let closing (r : received) : received :=
    match c_close c with
    | None => r
    | Some e => Failed false e
    end in
  match c_start c with
  | Some e => Ok ([], closing (Failed false e))
  | None =>
      let r := (readFile (c_w c) (c_out c)).2 in
      match r with
      | Crash => Panic
      | Done f => match c_end c with
                  | Some e => Ok (asked, closing (Failed false e))
                  | None => Ok (asked, closing (Got (f_contents f)))
                  end
      | _ => Ok (asked, closing (Failed (IsNotFoundErr lower r) (EMsg "scp")))
      end
  end.

(** ** scpsync.go:126-178, [Send] *)
Definition Send (filename : string) (mode : nat) (contents : string) (c : channel) : list event * option error :=
  let closing (r : option error) : option error := match c_close c with None => r | Some e => Some e end in
  match c_start c with
  | Some e => ([], closing (Some e))
  | None =>
      let sent := (sendFile filename (Z.of_nat (String.length contents)) mode contents None).1 in
      if negb (c_written c) then ([Sent ("scp -qt " +:+ filename) sent], closing (Some (EMsg "write")))
      else
        match (sendFile filename (Z.of_nat (String.length contents)) mode contents (c_answer c sent)).2 with
        | Done _ => ([Sent ("scp -qt " +:+ filename) sent], closing (c_end c))
        | _ => ([Sent ("scp -qt " +:+ filename) sent], closing (Some (EMsg "scp")))
        end
  end.

(** Dialling: the host check, then the rest.  The line for a new host is
    remembered in the [hostAsker] whatever comes after. *)
Definition dialling {A} (known : string) (t : target) (d : dial) (inp : list input)
    (failed : error → A) (rest : (string → channel) → outcome (list event * A)) : list event * ui (string * A) :=
  match d with
  | NoDial e => ([], UOk ("", failed e) inp)
  | Dialled addr keyType keyHash chan =>
      match host_callback known (t_address t) addr keyType keyHash inp with
      | UOk newHost inp =>
          let secrets := Secrets keyType keyHash (t_user t) (t_pass t) (t_key t) in
          match rest chan with
          | Ok (ev, a) => (secrets :: ev, UOk (default "" newHost, a) inp)
          | _ => ([secrets], UPanic)
          end
      | UErr e inp => ([], UOk ("", failed e) inp)
      | UPanic => ([], UPanic)
      | UWait => ([], UWait)
      end
  end.

(** [h_dial push i]: the [i]-th dialling for pulling or pushing *)
Record ssh_world := mk_ssh_world {
  h_key : string → option error;
  h_lower : string → string;
  h_dial : bool → nat → target → dial;
}.

(** ** sync.go:333-349, [sshPull], with the classification of sync.go:270-273 *)
Definition sshPull (h : ssh_world) (i : nat) (b : entry) (inp : list input) : list event * ui (string * pulled) :=
  match sshConfig (h_key h) b with
  | Panic => ([], UPanic)
  | Fail e => ([], UOk ("", NotPulled e) inp)
  | Ok t =>
      dialling (key_of_entry b KeyKnownHosts) t (h_dial h false i t) inp NotPulled (λ chan,
        match Recv (h_lower h) (t_path t) (chan ("scp -qf " +:+ t_path t)) with
        | Ok (ev, Got contents) => Ok (ev, Pulled (slice_of (str_bytes contents)))
        | Ok (ev, Failed true _) => Ok (ev, NotFound)
        | Ok (ev, Failed false e) => Ok (ev, NotPulled e)
        | _ => Panic
        end)
  end.

(** ** sync.go:351-367, [sshPush]: after an error the line for a new host is
    dropped *)
Definition drop_host (x : ui (string * option error)) : ui (string * option error) :=
  match x with UOk (_, Some e) inp => UOk ("", Some e) inp | r => r end.
Definition sshPush (h : ssh_world) (i : nat) (b : entry) (payload : bytes) (inp : list input) : list event * ui (string * option error) :=
  match sshConfig (h_key h) b with
  | Panic => ([], UPanic)
  | Fail e => ([], UOk ("", Some e) inp)
  | Ok t =>
      let '(ev, r) :=
        dialling (key_of_entry b KeyKnownHosts) t (h_dial h true i t) inp Some (λ chan,
          Ok (Send (t_path t) 384 (bytes_string payload) (chan ("scp -qt " +:+ t_path t)))) in
      (ev, drop_host r)
  end.

(** The world of [sync] with these *)
Definition over_ssh (h : ssh_world) (w : sync_world) : sync_world :=
  mk_sync_world (y_env w) (λ raw, u_scheme <$> Parse raw)
    (λ i b inp, (sshPull h i b inp).2) (y_read w)
    (λ i b payload inp, (sshPush h i b payload inp).2) (y_write w) (y_hosts w) (y_ord w) (y_iv w).

(** ** commands.go:392-395 and 463, and commands.go:332: the urls of new sync
    entries, written with [URL.String] (commands.go:341) *)
Definition scp_url (user host port file : string) (pass : option string) : string :=
  url_string (mk_url syncSCP "" (Some (user, pass)) (JoinHostPort host port) file).
Definition file_url (path : string) : string := url_string (mk_url syncFile "" None "" path).
