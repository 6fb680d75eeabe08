(** Model of passwd_gen.go.

    [int] arithmetic wraps at 64 bits.  The random source is a stream of bytes
    ([ent], byte [i] of the entropy buffer) or a failure ([None]); allocating
    memory always succeeds unless the size is negative. *)
From Verif Require Export Model_Crypt.
From stdpp Require Import options.

(** passwd_gen.go:8-14.  The raw string of the extra symbols contains the
    backslash twice. *)
Definition alphabetUppercase : string := "ABCDEFGHIJKLMNOPQRSTUVWXYZ".
Definition alphabetLowercase : string := "abcdefghijklmnopqrstuvwxyz".
Definition alphabetNumbers : string := "0123456789".
Definition alphabetBasicSymbols : string := "!@#$%^&*".
Definition alphabetExtraSymbols : string := "()_+-=<>,.{}[]\|?/~""\'`".

(** Two's complement wrap-around of Go's [int] *)
Definition wrap64 (z : Z) : Z := ((z + 2 ^ 63) mod 2 ^ 64 - 2 ^ 63)%Z.

(** The five settings: at least this many; 0 for "any", negative for "off". *)
Record classes := { c_upper : Z; c_lower : Z; c_numbers : Z; c_basic : Z; c_extra : Z }.
Definition class_list (c : classes) : list Z := [c_upper c; c_lower c; c_numbers c; c_basic c; c_extra c].

(** passwd_gen.go:21-26 *)
Definition needLen (c : classes) : Z :=
  foldl (λ acc i, if (0 <? i)%Z then wrap64 (acc + i) else acc) 0%Z (class_list c).

(** passwd_gen.go:52-67 *)
Definition pairs (c : classes) : list (string * Z) :=
  filter (λ p, (0 <=? p.2)%Z = true)
    [(alphabetUppercase, c_upper c); (alphabetLowercase, c_lower c); (alphabetNumbers, c_numbers c);
     (alphabetBasicSymbols, c_basic c); (alphabetExtraSymbols, c_extra c)].

(** [entropy[i]] *)
Definition ent_at (ent : nat → byte) (n i : nat) : outcome byte :=
  if (i <? n)%nat then Ok (ent i) else Panic.

(** [b % m] on bytes: dividing by zero panics. *)
Definition byte_mod (b m : byte) : outcome nat :=
  if (byteZ m =? 0)%Z then Panic else Ok (Z.to_nat (byteZ b mod byteZ m)).

(** [password[off] = x] *)
Definition put (pw : bytes) (off : nat) (x : byte) : outcome bytes :=
  if (off <? length pw)%nat then Ok (<[off := x]> pw) else Panic.

(** passwd_gen.go:71-72 and 87-88, one character from an alphabet *)
Definition pick (alphabet : string) (b : byte) : outcome byte :=
  i ← byte_mod b (to_byte (Z.of_nat (String.length alphabet)));
  idx (str_bytes alphabet) i.

(** State of the loops: password, offset, eOffset. *)
Definition pstate : Type := bytes * nat * nat.

(** passwd_gen.go:70-75 *)
Fixpoint fill (ent : nat → byte) (n : nat) (alphabet : string) (k : nat) (st : pstate) : outcome pstate :=
  match k with
  | O => Ok st
  | S k' =>
      let '(pw, off, e) := st in
      b ← ent_at ent n e;
      x ← pick alphabet b;
      pw ← put pw off x;
      fill ent n alphabet k' (pw, S off, S e)
  end.

(** passwd_gen.go:69-76 *)
Fixpoint fill_all (ent : nat → byte) (n : nat) (ps : list (string * Z)) (st : pstate) : outcome pstate :=
  match ps with
  | [] => Ok st
  | (a, num) :: r => st ← fill ent n a (Z.to_nat num) st; fill_all ent n r st
  end.

(** passwd_gen.go:82-91 *)
Fixpoint fill_random (ent : nat → byte) (n : nat) (ps : list (string * Z)) (k : nat) (st : pstate) : outcome pstate :=
  match k with
  | O => Ok st
  | S k' =>
      let '(pw, off, e) := st in
      b ← ent_at ent n e;
      i ← byte_mod b (to_byte (Z.of_nat (length ps)));
      p ← idx ps i;
      b ← ent_at ent n (S e);
      x ← pick (fst p) b;
      pw ← put pw off x;
      fill_random ent n ps k' (pw, S off, S (S e))
  end.

(** passwd_gen.go:93-98 *)
Fixpoint shuffle (ent : nat → byte) (n : nat) (len : Z) (k i : nat) (pw : bytes) (e : nat) : outcome bytes :=
  match k with
  | O => Ok pw
  | S k' =>
      b ← ent_at ent n e;
      j ← byte_mod b (to_byte len);
      x ← idx pw i;
      y ← idx pw j;
      shuffle ent n len k' (S i) (<[j := x]> (<[i := y]> pw)) (S e)
  end.

(** passwd_gen.go:20-101, [genPassword] *)
Definition genPassword (ent : option (nat → byte)) (len : Z) (c : classes) : outcome bytes :=
  if (len <? needLen c)%Z then Fail ENotEnoughSpace
  else
    let randomPicks := wrap64 (len - needLen c) in
    pw ← make_bytes len;
    entropy ← make_bytes (wrap64 (wrap64 (needLen c + wrap64 (randomPicks * 2)) + len));
    match ent with
    | None => Fail (EMsg "randomness")
    | Some ent =>
        let n := length entropy in
        '(pw, off, e) ← fill_all ent n (pairs c) (pw, 0%nat, 0%nat);
        if (0 <? randomPicks)%Z && (length (pairs c) =? 0)%nat then Fail ENotEnoughSpace
        else
          '(pw, off, e) ← fill_random ent n (pairs c) (Z.to_nat randomPicks) (pw, off, e);
          shuffle ent n len (Z.to_nat len) 0 pw e
    end.
