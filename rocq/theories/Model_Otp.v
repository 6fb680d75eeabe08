(** Two factor codes: blobformat/blob.go:54-77 and blobformat/blobs.go:393-414 with the
    library functions they call, which are not part of /repo.  These are transcribed from
    their source: github.com/pquerna/otp v1.3.0 (the version in /repo/go.mod), and net/url,
    encoding/base32 and strings of Go 1.18.  HMAC-SHA1 and unicode.ToUpper are parameters. *)
From Verif Require Export Model_Url Model_Repl.
From stdpp Require Import options.
#[local] Open Scope Z_scope.

(** ** net/url: queries *)

(** [QueryEscape] and [PathEscape] *)
Fixpoint QueryEscape (s : string) : string :=
  match s with
  | EmptyString => ""
  | String c r =>
      let b := byteZ c in
      if is_alnum b || among b "-_.~" then String c (QueryEscape r)
      else if b =? 32 then String (Zbyte 43) (QueryEscape r)
      else percent c (QueryEscape r)
  end.
Fixpoint PathEscape (s : string) : string :=
  match s with
  | EmptyString => ""
  | String c r =>
      if is_alnum (byteZ c) || among (byteZ c) "-_.~$&+:=@" then String c (PathEscape r)
      else percent c (PathEscape r)
  end.
(** [QueryUnescape]; [None] is its error *)
Fixpoint QueryUnescape (s : string) : option string :=
  match s with
  | EmptyString => Some ""
  | String c r =>
      if byteZ c =? 37 then
        match r with
        | String h (String l t) =>
            match unhex h, unhex l with
            | Some x, Some y => String (Zbyte (16 * x + y)) <$> QueryUnescape t
            | _, _ => None
            end
        | _ => None
        end
      else String (if byteZ c =? 43 then Zbyte 32 else c) <$> QueryUnescape r
  end.

(** [RawQuery] of a text that [Parse] accepts *)
Definition raw_query (raw : string) : string :=
  match getscheme (cut (Zbyte 35) raw).1 with
  | Some (_, rest) => default "" (cut (Zbyte 63) rest).2
  | None => ""
  end.
(** [parseQuery]: pieces with a semicolon, empty ones and ones with bad escapes are passed
    over *)
Definition query_pair (piece : string) : option (string * string) :=
  match cut (Zbyte 59) piece with
  | (_, Some _) => None
  | _ =>
      if String.eqb piece "" then None
      else
        let '(k, v) := cut (Zbyte 61) piece in
        k ← QueryUnescape k;
        v ← QueryUnescape (default "" v);
        Some (k, v)
  end.
Definition parse_query (query : string) : list (string * string) := omap query_pair (split_on (Zbyte 38) query).
(** [Values.Get] *)
Definition query_get (query name : string) : string :=
  match List.filter (λ p, String.eqb p.1 name) (parse_query query) with
  | (_, v) :: _ => v
  | [] => ""
  end.

(** ** otp.go: [NewKeyFromURL], [Type], [Secret] *)
Record otp_key := mk_key { k_orig : string; k_url : URL }.
Definition NewKeyFromURL (orig : string) : option otp_key :=
  let s := TrimSpace orig in
  u ← Parse s; Some (mk_key s u).
Definition key_type (k : otp_key) : string := u_host (k_url k).
Definition key_secret (k : otp_key) : string := query_get (raw_query (k_orig k)) "secret".

(** ** encoding/base32: [StdEncoding.DecodeString] *)
Definition b32_val (c : Ascii.ascii) : option Z :=
  let b := byteZ c in
  if inr 65 90 b then Some (b - 65) else if inr 50 55 b then Some (b - 24) else None.
Definition is_pad (c : Ascii.ascii) : bool := byteZ c =? 61.
(** One quantum: up to eight values, whether padding ended it, and what is left *)
Fixpoint quantum (k : nat) (acc : list Z) (src : list Ascii.ascii) : option (list Z * bool * list Ascii.ascii) :=
  match k with
  | O => Some (acc, false, src)
  | S k' =>
      match src with
      | [] => None
      | c :: src' =>
          let j := length acc in
          if is_pad c && (2 <=? j)%nat && (length src' <? 8)%nat then
            if (length src' + j <? 7)%nat then None
            else if negb (forallb is_pad (take (7 - j) src')) then None
            else if (j =? 3)%nat || (j =? 6)%nat then None
            else Some (acc, true, src')
          else match b32_val c with
               | None => None
               | Some v => quantum k' (acc ++ [v]) src'
               end
      end
  end.
(** The values packed into bytes.  The parts that Go joins with | have no bits in common. *)
Definition pack (l : list Z) : list Ascii.ascii :=
  let at_ i := nth i l 0 in
  let b0 := Zbyte (at_ 0%nat * 8 + at_ 1%nat / 4) in
  let b1 := Zbyte (at_ 1%nat * 64 mod 256 + at_ 2%nat * 2 + at_ 3%nat / 16) in
  let b2 := Zbyte (at_ 3%nat * 16 mod 256 + at_ 4%nat / 2) in
  let b3 := Zbyte (at_ 4%nat * 128 mod 256 + at_ 5%nat * 4 + at_ 6%nat / 8) in
  let b4 := Zbyte (at_ 6%nat * 32 mod 256 + at_ 7%nat) in
  match length l with
  | 8 => [b0; b1; b2; b3; b4]
  | 7 => [b0; b1; b2; b3]
  | 5 => [b0; b1; b2]
  | 4 => [b0; b1]
  | 2 => [b0]
  | _ => []
  end%nat.
Fixpoint b32_loop (fuel : nat) (src : list Ascii.ascii) : option (list Ascii.ascii) :=
  match fuel, src with
  | _, [] => Some []
  | O, _ => None
  | S f, _ =>
      '(vals, ended, rest) ← quantum 8 [] src;
      if (ended : bool) then Some (pack vals)
      else app (pack vals) <$> b32_loop f rest
  end.
(** [stripNewlines] first *)
Definition b32_decode (s : string) : option (list Ascii.ascii) :=
  let src := List.filter (λ c, negb ((byteZ c =? 13) || (byteZ c =? 10))) (list_ascii_of_string s) in
  b32_loop (length src) src.

(** ** strings.ToUpper *)
Fixpoint upper_ascii (s : string) : string :=
  match s with
  | EmptyString => ""
  | String c r => String (if inr 97 122 (byteZ c) then Zbyte (byteZ c - 32) else c) (upper_ascii r)
  end.
Definition ToUpper (up : Z → Z) (s : string) : string :=
  if all_bytes (λ b, b <? 128) s then upper_ascii s else Model_GoStr.encode (up <$> runes s).

(** ** hotp.go: [GenerateCodeCustom] with six digits and SHA1, and totp.go: [GenerateCode] *)
Fixpoint equals_signs (n : nat) : string := match n with O => "" | S k => String (Zbyte 61) (equals_signs k) end.
Definition pad8 (s : string) : string :=
  let n := (String.length s mod 8)%nat in
  if (n =? 0)%nat then s else s +:+ equals_signs (8 - n).
(** [BigEndian.PutUint64] *)
Definition be64 (n : Z) : list Ascii.ascii :=
  (λ i, Zbyte (n / 256 ^ (7 - Z.of_nat i) mod 256)) <$> seq 0 8.
Definition hotp_value (sum : list Ascii.ascii) : outcome Z :=
  match last sum with
  | None => Panic
  | Some l =>
      let o := Z.to_nat (byteZ l mod 16) in
      match sum !! o, sum !! (o + 1)%nat, sum !! (o + 2)%nat, sum !! (o + 3)%nat with
      | Some a, Some b, Some c, Some d => Ok (byteZ a mod 128 * 2 ^ 24 + byteZ b * 2 ^ 16 + byteZ c * 2 ^ 8 + byteZ d)
      | _, _, _, _ => Panic
      end
  end.
(** [Digits.Format], "%06d" of a number that is not negative *)
Fixpoint zero_signs (n : nat) : string := match n with O => "" | S k => String (Zbyte 48) (zero_signs k) end.
Definition six_digits (n : Z) : string := let t := FormatInt n in zero_signs (6 - String.length t) +:+ t.
(** The counter is the quotient of seconds since 1970 by the period, which Go computes with
    floating point numbers; it is exact for the times of clocks (below 2^50). *)
Definition GenerateCode (up : Z → Z) (hmac : list Ascii.ascii → list Ascii.ascii → list Ascii.ascii) (secret : string) (now : Z) : outcome string :=
  match b32_decode (ToUpper up (pad8 (TrimSpace secret))) with
  | None => Fail (EMsg "Decoding of secret as base32 failed.")
  | Some key =>
      v ← hotp_value (hmac key (be64 (now / 30)));
      Ok (six_digits (v mod 10 ^ 6))
  end.

(** ** blobformat/blobs.go:397-404 and 406, in [SetTwofactor] *)
Definition otp_coerce (uuid key : string) : string :=
  "otpauth://totp/" +:+ PathEscape ("bpass:" +:+ uuid) +:+ "?" +:+ "secret=" +:+ QueryEscape key.
Definition otp_uri_ok (uri : string) : bool := bool_decide (is_Some (Parse (TrimSpace uri))).

(** ** blobformat/blob.go:61-76, in [TwoFactor] *)
Definition otp_code (up : Z → Z) (hmac : list Ascii.ascii → list Ascii.ascii → list Ascii.ascii) (now : Z) (uri : string) : outcome string :=
  match NewKeyFromURL uri with
  | None => Fail (EMsg "failed to parse two factor uri for %s: %w")
  | Some k =>
      if negb (String.eqb (key_type k) "totp") then Fail (EMsg "two factor key for %s was not a totp key")
      else GenerateCode up hmac (key_secret k) now
  end.

(** A world in which these are put in *)
Definition with_otp (up : Z → Z) (hmac : list Ascii.ascii → list Ascii.ascii → list Ascii.ascii) (now : Z) (w : world) : world := {|
  w_P := w_P w; w_env := w_env w; w_rand := w_rand w; w_lower := w_lower w; w_upper := w_upper w; w_url := w_url w;
  w_coerce := otp_coerce; w_uri_ok := otp_uri_ok; w_totp := otp_code up hmac now; w_time := w_time w; w_keys := w_keys w;
  w_editor := w_editor w; w_abs := w_abs w; w_file_url := w_file_url w; w_scp_url := w_scp_url w; w_sshkey := w_sshkey w; w_sync := w_sync w |}.
