(** The parts of Go's strings, strconv and unicode/utf8 packages the code uses.
    These are library functions, not part of /repo; they are transcribed from
    the Go documentation and source (go 1.18, the version of /repo/go.mod). *)
From Verif Require Export Base.
From stdpp Require Export pretty.
From stdpp Require Import options.

(** ** Bytes *)

Definition byteZ (c : Ascii.ascii) : Z := Z.of_nat (Ascii.nat_of_ascii c).
Definition Zbyte (z : Z) : Ascii.ascii := Ascii.ascii_of_nat (Z.to_nat z).

(** [s[n:]]: a panic beyond the end. *)
Fixpoint str_drop (n : nat) (s : string) : outcome string :=
  match n, s with
  | O, _ => Ok s
  | S n', String _ s' => str_drop n' s'
  | S _, EmptyString => Panic
  end.

(** ** package strings *)

(** [strings.Split(s, sep)] for a one-byte separator: never empty. *)
Fixpoint split_on (c : Ascii.ascii) (s : string) : list string :=
  match s with
  | EmptyString => [""]
  | String a s' =>
      if Ascii.eqb a c then "" :: split_on c s'
      else match split_on c s' with
           | [] => [String a ""]
           | x :: r => String a x :: r
           end
  end.

(** [strings.Join] *)
Fixpoint go_join (sep : string) (l : list string) : string :=
  match l with
  | [] => ""
  | [x] => x
  | x :: r => x +:+ sep +:+ go_join sep r
  end.

(** [strings.HasPrefix(s, p)] *)
Fixpoint has_prefix (s p : string) : bool :=
  match p, s with
  | EmptyString, _ => true
  | String a p', String b s' => if Ascii.eqb a b then has_prefix s' p' else false
  | String _ _, EmptyString => false
  end.

(** [strings.Index(s, sub)], [None] for -1. *)
Fixpoint str_index (s sub : string) : option nat :=
  if has_prefix s sub then Some O
  else match s with
       | EmptyString => None
       | String _ s' => match str_index s' sub with Some i => Some (S i) | None => None end
       end.

(** ** package strconv *)

(** [strconv.FormatInt(z, 10)]: std++'s decimal printer. *)
Definition FormatInt (z : Z) : string := pretty z.

Definition digit_val (c : Ascii.ascii) : option Z :=
  let b := byteZ c in
  if (48 <=? b)%Z && (b <=? 57)%Z then Some (b - 48)%Z else None.

Fixpoint parse_digits (acc : Z) (s : string) : option Z :=
  match s with
  | EmptyString => Some acc
  | String c s' =>
      match digit_val c with
      | Some v => parse_digits (10 * acc + v) s'
      | None => None
      end
  end.

Definition in_int64 (z : Z) : Prop := (- 2 ^ 63 ≤ z < 2 ^ 63)%Z.
#[global] Instance in_int64_dec z : Decision (in_int64 z).
Proof. unfold in_int64. apply _. Defined.

(** [strconv.ParseInt(s, 10, 64)] (and [strconv.Atoi]): an optional sign and at
    least one digit, with the value in range. *)
Definition ParseInt (s : string) : outcome Z :=
  let body neg s' :=
    match s' with
    | EmptyString => Fail (EMsg "invalid syntax")
    | _ => match parse_digits 0 s' with
           | None => Fail (EMsg "invalid syntax")
           | Some n => let z := if (neg : bool) then (- n)%Z else n in
                       if bool_decide (in_int64 z) then Ok z else Fail (EMsg "value out of range")
           end
    end in
  match s with
  | EmptyString => Fail (EMsg "invalid syntax")
  | String c s' =>
      if (byteZ c =? 45)%Z then body true s'
      else if (byteZ c =? 43)%Z then body false s'
      else body false s
  end.

(** ** package unicode/utf8 *)

Definition RuneError : Z := 65533.

(** [utf8.RuneLen]; -1 is never used as a length by the code for runes that
    come out of a decoder, so the result is [nat] and 0 stands for -1. *)
Definition RuneLen (r : Z) : nat :=
  if (r <? 0)%Z then 0
  else if (r <=? 127)%Z then 1
  else if (r <=? 2047)%Z then 2
  else if (55296 <=? r)%Z && (r <=? 57343)%Z then 0
  else if (r <=? 65535)%Z then 3
  else if (r <=? 1114111)%Z then 4
  else 0.

Definition inr (lo hi x : Z) : bool := (lo <=? x)%Z && (x <=? hi)%Z.

(** [utf8.DecodeRuneInString] on a non-empty string: rune and width.  Bytes are
    numbers; the table of first bytes and accept ranges is utf8.go's. *)
Definition decode_rune (s : string) : option (Z * nat) :=
  match s with
  | EmptyString => None
  | String c0 s1 =>
      let b0 := byteZ c0 in
      let bad := Some (RuneError, 1%nat) in
      if (b0 <? 128)%Z then Some (b0, 1%nat)
      else if inr 194 223 b0 then
        match s1 with
        | String c1 _ =>
            let b1 := byteZ c1 in
            if inr 128 191 b1 then Some ((b0 - 192) * 64 + (b1 - 128), 2%nat)%Z else bad
        | _ => bad
        end
      else if inr 224 239 b0 then
        match s1 with
        | String c1 (String c2 _) =>
            let b1 := byteZ c1 in let b2 := byteZ c2 in
            let lo := if (b0 =? 224)%Z then 160%Z else 128%Z in
            let hi := if (b0 =? 237)%Z then 159%Z else 191%Z in
            if inr lo hi b1 && inr 128 191 b2
            then Some ((b0 - 224) * 4096 + (b1 - 128) * 64 + (b2 - 128), 3%nat)%Z else bad
        | _ => bad
        end
      else if inr 240 244 b0 then
        match s1 with
        | String c1 (String c2 (String c3 _)) =>
            let b1 := byteZ c1 in let b2 := byteZ c2 in let b3 := byteZ c3 in
            let lo := if (b0 =? 240)%Z then 144%Z else 128%Z in
            let hi := if (b0 =? 244)%Z then 143%Z else 191%Z in
            if inr lo hi b1 && inr 128 191 b2 && inr 128 191 b3
            then Some ((b0 - 240) * 262144 + (b1 - 128) * 4096 + (b2 - 128) * 64 + (b3 - 128), 4%nat)%Z
            else bad
        | _ => bad
        end
      else bad
  end.

(** [for i, r := range s]: byte offsets and runes.  [skip] bytes belong to the
    rune just read. *)
Fixpoint range_from (off skip : nat) (s : string) : list (nat * Z) :=
  match s with
  | EmptyString => []
  | String _ s' =>
      match skip with
      | S k => range_from (S off) k s'
      | O => match decode_rune s with
             | Some (r, w) => (off, r) :: range_from (S off) (w - 1) s'
             | None => []
             end
      end
  end.
Definition go_range (s : string) : list (nat * Z) := range_from 0 0 s.
Definition runes (s : string) : list Z := (go_range s).*2.

(** UTF-8 encoding of a rune ([utf8.EncodeRune]; invalid runes become U+FFFD). *)
Definition bytes_str (l : list Z) : string := fold_right (λ b s, String (Zbyte b) s) "" l.
Definition encode_valid (r : Z) : list Z :=
  if (r <=? 127)%Z then [r]
  else if (r <=? 2047)%Z then [192 + r / 64; 128 + r mod 64]%Z
  else if (r <=? 65535)%Z then [224 + r / 4096; 128 + r / 64 mod 64; 128 + r mod 64]%Z
  else [240 + r / 262144; 128 + r / 4096 mod 64; 128 + r / 64 mod 64; 128 + r mod 64]%Z.
Definition valid_rune (r : Z) : bool :=
  inr 0 55295 r || inr 57344 1114111 r.
Definition encode_rune (r : Z) : string :=
  bytes_str (encode_valid (if valid_rune r then r else RuneError)).
Definition encode (rs : list Z) : string := fold_right (λ r s, encode_rune r +:+ s) "" rs.

(** ** [strings.EqualFold(s, t)] where [t] is ASCII *)

(** [unicode.SimpleFold] on the orbits that contain an ASCII character; the only
    ones with a non-ASCII member are {K, k, U+212A} and {S, s, U+017F}.  Other
    runes (whose orbits contain no ASCII character) are left alone: with an
    ASCII [t] they compare unequal whatever their orbit is. *)
Definition SimpleFold (r : Z) : Z :=
  if (r =? 75)%Z then 107%Z else if (r =? 107)%Z then 8490%Z else if (r =? 8490)%Z then 75%Z
  else if (r =? 83)%Z then 115%Z else if (r =? 115)%Z then 383%Z else if (r =? 383)%Z then 83%Z
  else if inr 65 90 r then (r + 32)%Z else if inr 97 122 r then (r - 32)%Z else r.

(** The loop [r := SimpleFold(sr); for r != sr && r < tr { r = SimpleFold(r) }]. *)
Fixpoint fold_orbit (fuel : nat) (sr tr r : Z) : Z :=
  match fuel with
  | O => r
  | S f => if (r =? sr)%Z then r else if (r <? tr)%Z then fold_orbit f sr tr (SimpleFold r) else r
  end.

Definition rune_fold_eq (a b : Z) : bool :=
  if (a =? b)%Z then true
  else
    let sr := Z.min a b in let tr := Z.max a b in
    if (tr <? 128)%Z then inr 65 90 sr && (tr =? sr + 32)%Z
    else (fold_orbit 4 sr tr (SimpleFold sr) =? tr)%Z.

(** Both strings are read rune by rune; equal when both end together. *)
Fixpoint equal_fold_runes (s t : list Z) : bool :=
  match s, t with
  | [], [] => true
  | a :: s', b :: t' => rune_fold_eq a b && equal_fold_runes s' t'
  | _, _ => false
  end.
Definition EqualFold (s t : string) : bool := equal_fold_runes (runes s) (runes t).

(** Vocabulary for statements: byte [c] does not occur in [s]. *)
Fixpoint lacks (c : Ascii.ascii) (s : string) : Prop :=
  match s with EmptyString => True | String a s' => a ≠ c ∧ lacks c s' end.
