(** Go's package net/url as far as the urls of sync entries go through it, and
    net.JoinHostPort.  These are library functions, not part of /repo; they are
    transcribed from the Go source (go 1.18, the version of /repo/go.mod). *)
From Verif Require Export Model_GoStr2.
From stdpp Require Import options.
#[local] Open Scope Z_scope.

(** The encodings that are used here *)
Inductive encoding := encodePath | encodeUserPassword | encodeHost | encodeZone | encodeFragment.
#[global] Instance encoding_eq_dec : EqDecision encoding.
Proof. solve_decision. Defined.

Definition is_alnum (b : Z) : bool := inr 97 122 b || inr 65 90 b || inr 48 57 b.
Definition among (b : Z) (s : string) : bool := existsb (λ c, byteZ c =? b) (list_ascii_of_string s).
(** A text with a double quote *)
Definition dquote : string := String (Zbyte 34) "".

(** [shouldEscape] *)
Definition shouldEscape (c : Ascii.ascii) (mode : encoding) : bool :=
  let b := byteZ c in
  if is_alnum b then false
  else if bool_decide (mode = encodeHost ∨ mode = encodeZone) && among b ("!$&'()*+,;=:[]<>" +:+ dquote) then false
  else if among b "-_.~" then false
  else if among b "$&+,/:;=?@" then
    match mode with
    | encodePath => b =? 63
    | encodeUserPassword => among b "@/?:"
    | encodeFragment => false
    | _ => true
    end
  else if bool_decide (mode = encodeFragment) && among b "!()*" then false
  else true.

(** [escape]: for these encodings a blank is written as any other byte *)
Definition upper_hex (n : Z) : Ascii.ascii := Zbyte (if n <? 10 then 48 + n else 55 + n).
Definition percent (c : Ascii.ascii) (s : string) : string :=
  String (Zbyte 37) (String (upper_hex (byteZ c / 16)) (String (upper_hex (byteZ c mod 16)) s)).
Fixpoint escape (mode : encoding) (s : string) : string :=
  match s with
  | EmptyString => ""
  | String c r => if shouldEscape c mode then percent c (escape mode r) else String c (escape mode r)
  end.

(** [ishex], [unhex] *)
Definition unhex (c : Ascii.ascii) : option Z :=
  let b := byteZ c in
  if inr 48 57 b then Some (b - 48)
  else if inr 97 102 b then Some (b - 97 + 10)
  else if inr 65 70 b then Some (b - 65 + 10)
  else None.

(** [unescape]; Go checks the whole text before it builds the result *)
Definition zone_ok (v : Z) : bool := (v =? 37) || (v =? 32) || negb (shouldEscape (Zbyte v) encodeHost).
Fixpoint unescape (mode : encoding) (s : string) : option string :=
  match s with
  | EmptyString => Some ""
  | String c r =>
      if byteZ c =? 37 then
        match r with
        | String h (String l t) =>
            match unhex h, unhex l with
            | Some x, Some y =>
                let v := 16 * x + y in
                if bool_decide (mode = encodeHost) && (x <? 8) && negb (v =? 37) then None
                else if bool_decide (mode = encodeZone) && negb (zone_ok v) then None
                else String (Zbyte v) <$> unescape mode t
            | _, _ => None
            end
        | _ => None
        end
      else if bool_decide (mode = encodeHost ∨ mode = encodeZone) && (byteZ c <? 128) && shouldEscape c mode then None
      else String c <$> unescape mode r
  end.

(** [split] with cutc: what is before the first [c] and, if there is one, what
    comes after it *)
Fixpoint cut (c : Ascii.ascii) (s : string) : string * option string :=
  match s with
  | EmptyString => ("", None)
  | String x r =>
      if Ascii.eqb x c then ("", Some r)
      else let '(a, b) := cut c r in (String x a, b)
  end.
(** the same at the last [c] *)
Fixpoint cut_last (c : Ascii.ascii) (s : string) : option (string * string) :=
  match s with
  | EmptyString => None
  | String x r =>
      match cut_last c r with
      | Some (a, b) => Some (String x a, b)
      | None => if Ascii.eqb x c then Some ("", r) else None
      end
  end.

(** [getscheme]: [None] is its error *)
Fixpoint getscheme_from (first : bool) (s : string) : option (option (string * string)) :=
  match s with
  | EmptyString => Some None
  | String c r =>
      let b := byteZ c in
      let next := match getscheme_from false r with
                  | Some (Some (a, t)) => Some (Some (String c a, t))
                  | x => x
                  end in
      if inr 97 122 b || inr 65 90 b then next
      else if inr 48 57 b || among b "+-." then (if first then Some None else next)
      else if b =? 58 then (if first then None else Some (Some ("", r)))
      else Some None
  end.
Definition getscheme (s : string) : option (string * string) :=
  match getscheme_from true s with
  | None => None
  | Some None => Some ("", s)
  | Some (Some p) => Some p
  end.
(** strings.ToLower of a scheme, which is ASCII *)
Fixpoint lower_ascii (s : string) : string :=
  match s with
  | EmptyString => ""
  | String c r => String (if inr 65 90 (byteZ c) then Zbyte (byteZ c + 32) else c) (lower_ascii r)
  end.

Fixpoint all_bytes (p : Z → bool) (s : string) : bool :=
  match s with EmptyString => true | String c r => p (byteZ c) && all_bytes p r end.

(** [validOptionalPort] *)
Definition validOptionalPort (s : string) : bool :=
  match s with
  | EmptyString => true
  | String c r => (byteZ c =? 58) && all_bytes (inr 48 57) r
  end.
(** [validUserinfo]; a byte that is not ASCII is or begins a rune that is not
    allowed *)
Definition validUserinfo (s : string) : bool :=
  all_bytes (λ b, is_alnum b || among b "-._:~!$&'()*+,;=%@") s.
Definition has_ctl (s : string) : bool := negb (all_bytes (λ b, negb ((b <? 32) || (b =? 127))) s).

(** [parseHost] *)
Definition first_is (c : Z) (s : string) : bool :=
  match s with String x _ => byteZ x =? c | EmptyString => false end.
Definition parseHost (host : string) : option string :=
  if first_is 91 host then
    match cut_last (Zbyte 93) host with
    | None => None
    | Some (a, colonPort) =>
        if negb (validOptionalPort colonPort) then None
        else match str_index a "%25" with
             | Some zone =>
                 h1 ← unescape encodeHost (substring 0 zone a);
                 h2 ← unescape encodeZone (substring zone (String.length a - zone) a);
                 h3 ← unescape encodeHost (String (Zbyte 93) colonPort);
                 Some (h1 +:+ h2 +:+ h3)
             | None => unescape encodeHost host
             end
    end
  else
    match cut_last (Zbyte 58) host with
    | Some (_, port) =>
        if negb (validOptionalPort (String (Zbyte 58) port)) then None
        else unescape encodeHost host
    | None => unescape encodeHost host
    end.

(** A user with or without a password *)
Definition userinfo := (string * option string)%type.

(** [parseAuthority] *)
Definition parseAuthority (authority : string) : option (option userinfo * string) :=
  match cut_last (Zbyte 64) authority with
  | None => h ← parseHost authority; Some (None, h)
  | Some (ui, rest) =>
      h ← parseHost rest;
      if negb (validUserinfo ui) then None
      else match cut (Zbyte 58) ui with
           | (_, None) => n ← unescape encodeUserPassword ui; Some (Some (n, None), h)
           | (a, Some b) =>
               n ← unescape encodeUserPassword a;
               p ← unescape encodeUserPassword b;
               Some (Some (n, Some p), h)
           end
  end.

(** URL.  The raw path, the query and the fragment are not used by /repo and are
    left out; that they are well-formed is checked. *)
Record URL := mk_url { u_scheme : string; u_opaque : string; u_user : option userinfo; u_host : string; u_path : string }.
#[global] Instance URL_eq_dec : EqDecision URL.
Proof. solve_decision. Defined.

(** [parse]: [rest] without its query; a question mark at the end is cut by
    line 540 or by [split] alike *)
Definition parse (raw : string) : option URL :=
  if has_ctl raw then None
  else if String.eqb raw "*" then Some (mk_url "" "" None "" "*")
  else
    '(scheme, rest) ← getscheme raw;
    let scheme := lower_ascii scheme in
    let rest := (cut (Zbyte 63) rest).1 in
    if negb (first_is 47 rest) && negb (String.eqb scheme "") then Some (mk_url scheme rest None "" "")
    else if negb (first_is 47 rest) && match cut (Zbyte 58) rest with
                                       | (a, Some _) => match cut (Zbyte 47) a with (_, None) => true | _ => false end
                                       | _ => false
                                       end then None
    else
      '(user, host, rest) ←
         (match rest with
          | String _ (String c r) =>
              if first_is 47 rest && (byteZ c =? 47) && (negb (String.eqb scheme "") || negb (first_is 47 r)) then
                let '(authority, path) := cut (Zbyte 47) r in
                '(user, host) ← parseAuthority authority;
                Some (user, host, match path with Some p => String (Zbyte 47) p | None => "" end)
              else Some (None, "", rest)
          | _ => Some (None, "", rest)
          end);
      path ← unescape encodePath rest;
      Some (mk_url scheme "" user host path).

(** [Parse] *)
Definition Parse (raw : string) : option URL :=
  let '(u, frag) := cut (Zbyte 35) raw in
  url ← parse u;
  _ ← unescape encodeFragment (default "" frag);
  Some url.

(** [URL.String] for an url made from a scheme, a user, a host and a path.
    [EscapedPath] does not escape the path "*", which has nothing to escape but
    the star. *)
Definition user_string (ui : userinfo) : string :=
  escape encodeUserPassword ui.1 +:+
  match ui.2 with Some p => ":" +:+ escape encodeUserPassword p | None => "" end.
Definition escaped_path (path : string) : string :=
  if String.eqb path "*" then "*" else escape encodePath path.
Definition url_string (u : URL) : string :=
  (if String.eqb (u_scheme u) "" then "" else u_scheme u +:+ ":") +:+
  if negb (String.eqb (u_opaque u) "") then u_opaque u
  else
    let auth :=
      if String.eqb (u_scheme u) "" && String.eqb (u_host u) "" && bool_decide (u_user u = None) then ""
      else
        (if String.eqb (u_host u) "" && String.eqb (u_path u) "" && bool_decide (u_user u = None) then "" else "//") +:+
        match u_user u with Some ui => user_string ui +:+ "@" | None => "" end +:+
        escape encodeHost (u_host u) in
    let path := escaped_path (u_path u) in
    auth +:+
    (if negb (String.eqb path "") && negb (first_is 47 path) && negb (String.eqb (u_host u) "") then "/" else "") +:+
    (if String.eqb (u_scheme u) "" && String.eqb auth "" &&
        match cut (Zbyte 58) path with
        | (a, Some _) => match cut (Zbyte 47) a with (_, None) => true | _ => false end
        | _ => false
        end then "./" else "") +:+
    path.

(** [splitHostPort], behind [Hostname] and [Port] *)
Definition strip_brackets (h : string) : string :=
  if first_is 91 h then
    match cut_last (Zbyte 93) h with
    | Some (a, EmptyString) => match a with String _ b => b | EmptyString => "" end
    | _ => h
    end
  else h.
Definition splitHostPort (hostport : string) : string * string :=
  match cut_last (Zbyte 58) hostport with
  | Some (h, p) => if validOptionalPort (String (Zbyte 58) p) then (strip_brackets h, p) else (strip_brackets hostport, "")
  | None => (strip_brackets hostport, "")
  end.

(** net.JoinHostPort *)
Definition JoinHostPort (host port : string) : string :=
  match cut (Zbyte 58) host with
  | (_, Some _) => "[" +:+ host +:+ "]:" +:+ port
  | _ => host +:+ ":" +:+ port
  end.
