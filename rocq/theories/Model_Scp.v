(** Model of scpsync/scpsync.go.  The ssh library is not modelled: the server is
    the bytes it sends; [w n] says whether the [n]-th write to it succeeds. *)
From Verif Require Export Model_GoStr2.
From stdpp Require Import options.

(** strconv.ParseInt(s, base, 32) for bases up to ten *)
Fixpoint digits_base (base acc : Z) (s : string) : option Z :=
  match s with
  | EmptyString => Some acc
  | String c s' =>
      match digit_val c with
      | Some v => if (v <? base)%Z then digits_base base (base * acc + v) s' else None
      | None => None
      end
  end.
Definition ParseInt32 (base : Z) (s : string) : option Z :=
  let body neg s' :=
    match s' with
    | EmptyString => None
    | _ => match digits_base base 0 s' with
           | None => None
           | Some n => let z := if (neg : bool) then (- n)%Z else n in
                       if (- 2 ^ 31 <=? z)%Z && (z <? 2 ^ 31)%Z then Some z else None
           end
    end in
  match s with
  | EmptyString => None
  | String c s' =>
      if (byteZ c =? 45)%Z then body true s'
      else if (byteZ c =? 43)%Z then body false s'
      else body false s
  end.

(** bufio's ReadString with a line feed: the text up to and with it *)
Fixpoint read_string (s : string) : option (string * string) :=
  match s with
  | EmptyString => None
  | String c r =>
      if Ascii.eqb c (Zbyte 10) then Some (String c "", r)
      else match read_string r with Some (l, t) => Some (String c l, t) | None => None end
  end.
(** io.ReadFull with a buffer of [n] bytes *)
Fixpoint read_full (n : nat) (s : string) : option (string * string) :=
  match n, s with
  | O, _ => Some ("", s)
  | S _, EmptyString => None
  | S k, String c r => match read_full k r with Some (l, t) => Some (String c l, t) | None => None end
  end.
(** the last byte and what is before it *)
Fixpoint unsnoc (s : string) : option (string * Ascii.ascii) :=
  match s with
  | EmptyString => None
  | String c r => match unsnoc r with Some (l, x) => Some (String c l, x) | None => Some ("", c) end
  end.

(** lines 180-185 *)
Record scpFile := mk_file { f_name : string; f_length : Z; f_mode : Z; f_contents : string }.

(** Results: the value, the server's error (lines 188-192), another error, or a
    crash *)
Inductive scp (A : Type) := Done (a : A) | Err (code : Z) (msg : string) | Bad (msg : string) | Crash.
Arguments Done {_} _.
Arguments Err {_} _ _.
Arguments Bad {_} _.
Arguments Crash {_}.
Definition nul_byte : Ascii.ascii := Zbyte 0.

(** lines 225-293, [readFile]; [s] is all the server sends.  The number of
    zero bytes sent to it is returned too. *)
Definition readFile (w : nat → bool) (s : string) : nat * scp scpFile :=
  if negb (w 0%nat) then (0%nat, Bad "write")
  else
    match read_string s with
    | None => (1%nat, Bad "failed to read intitial file header: %w")
    | Some (str, rest) =>
        match str with
        | EmptyString => (1%nat, Bad "empty request")
        | String c str =>
            if (byteZ c =? 1)%Z || (byteZ c =? 2)%Z then (1%nat, Err (byteZ c) str)
            else if negb (byteZ c =? 67)%Z then (1%nat, Bad "want initial character C but got: %c")
            else
              match Fields str with
              | [f0; f1; f2] =>
                  match ParseInt32 8 f0 with
                  | None => (1%nat, Bad "failed to parse the mode: %q (%w)")
                  | Some mode =>
                      match ParseInt32 10 f1 with
                      | None => (1%nat, Bad "failed to parse the length: %q (%w)")
                      | Some length =>
                          if negb (w 1%nat) then (1%nat, Bad "write")
                          else if (length + 1 <? 0)%Z then (2%nat, Crash)
                          else
                            match read_full (Z.to_nat (length + 1)) rest with
                            | None => (2%nat, Bad "EOF")
                            | Some (buf, _) =>
                                match unsnoc buf with
                                | None => (2%nat, Crash)
                                | Some (contents, last) =>
                                    if negb (Ascii.eqb last nul_byte) then (2%nat, Bad "protocol error, expect 0 byte after file data")
                                    else if negb (w 2%nat) then (2%nat, Bad "write")
                                    else (3%nat, Done (mk_file f2 length mode contents))
                                end
                            end
                      end
                  end
              | _ => (1%nat, Bad "protocol demands 3 fields, got %d")
              end
        end
    end.

(** lines 300-323, [readResponse]; [r]: what one Read with 256 bytes of room
    gives *)
Definition readResponse (r : option string) : scp unit :=
  match r with
  | None => Bad "read"
  | Some EmptyString => Bad "failed to read a response byte"
  | Some (String c t) =>
      if (byteZ c =? 0)%Z then Done tt
      else if (byteZ c =? 1)%Z || (byteZ c =? 2)%Z then
        Err (byteZ c) (if (2 <? String.length (String c t))%nat then t else "")
      else Bad "unknown response from scp: %x"
  end.

(** fmt's %o for a number that is not negative *)
Fixpoint oct_loop (fuel : nat) (n : nat) (acc : string) : string :=
  match fuel with
  | O => acc
  | S f =>
      let acc := String (Ascii.ascii_of_nat (48 + n mod 8)) acc in
      if (n / 8 =? 0)%nat then acc else oct_loop f (n / 8) acc
  end.
Definition FormatOct (n : nat) : string := oct_loop (S n) n "".

(** path/filepath's Base on Unix: the last element, "." for an empty path and
    "/" if there are only slashes *)
Definition Base (path : string) : string :=
  if String.eqb path "" then "."
  else match List.find (λ p, negb (String.eqb p "")) (reverse (split_on (Zbyte 47) path)) with
       | Some p => p
       | None => "/"
       end.

(** lines 202-223, [sendFile]: the bytes written, if all writes succeed, and the
    result; [ln] is the length the caller says it has *)
Definition sendFile (filename : string) (ln : Z) (mode : nat) (contents : string) (response : option string) : string * scp unit :=
  let header := "C0" +:+ FormatOct mode +:+ " " +:+ FormatInt ln +:+ " " +:+ Base filename +:+ String (Zbyte 10) "" in
  if negb (Z.of_nat (String.length contents) =? ln)%Z then (header +:+ contents, Bad "failed to deliver file data bytes")
  else (header +:+ contents +:+ String nul_byte "", readResponse response).

(** lines 327-335, [IsNotFoundErr]; [lower] is strings.ToLower *)
Definition contains_str (s sub : string) : bool := match str_index s sub with Some _ => true | None => false end.
Definition IsNotFoundErr {A} (lower : string → string) (r : scp A) : bool :=
  match r with
  | Err code msg => (code =? 1)%Z && contains_str (lower msg) "no such file or directory"
  | _ => false
  end.
