(** What two factor codes are meant to be: RFC 4648 (base32), RFC 4226 and RFC 6238. *)
From Verif Require Export Model_Otp Spec_Ssh Spec_Repl.
From stdpp Require Import options.
#[local] Open Scope Z_scope.

(** The bits of a number, the most significant first *)
Definition bits (n : nat) (v : Z) : list Z := (λ i, v / 2 ^ Z.of_nat i mod 2) <$> rev (seq 0 n).

(** A letter or digit of base32, in upper or lower case, with its value *)
Definition b32_letter (c : Ascii.ascii) (v : Z) : Prop :=
  (0 ≤ v < 26 ∧ (byteZ c = 65 + v ∨ byteZ c = 97 + v)) ∨ (26 ≤ v < 32 ∧ byteZ c = 50 + (v - 26)).
(** The text stands for these bytes: the bits of its letters begin with theirs, and there are
    as many letters as that needs. *)
Definition b32_text (s : string) (key : list Ascii.ascii) : Prop :=
  ∃ vs spare, Forall2 b32_letter (list_ascii_of_string s) vs ∧
    concat (bits 5 <$> vs) = concat (bits 8 <$> (byteZ <$> key)) ++ spare ∧ (length spare < 5)%nat.
Definition b32_chars (s : string) : Prop := Forall (λ c, ∃ v, b32_letter c v) (list_ascii_of_string s).

(** A number from its digits *)
Definition number (base : Z) (l : list Z) : Z := fold_left (λ a d, a * base + d) l 0.

(** The code for a key at a time in seconds since 1970 *)
Definition rfc_code (hmac : list Ascii.ascii → list Ascii.ascii → list Ascii.ascii) (key : list Ascii.ascii) (now : Z) (code : string) : Prop :=
  ∃ counter o, length counter = 8%nat ∧ number 256 (byteZ <$> counter) = now / 30 ∧
    last (hmac key counter) = Some o ∧ String.length code = 6%nat ∧ each digit code ∧
    number 10 ((λ c, byteZ c - 48) <$> list_ascii_of_string code) =
      number 256 (byteZ <$> take 4 (drop (Z.to_nat (byteZ o mod 16)) (hmac key counter))) mod 2 ^ 31 mod 10 ^ 6.

(** The url of a key, as other programs and the pictures of web sites give it: a label, and
    values with names, all with the characters escaped that have to be *)
Definition otp_pair (p : string * string) : string := QueryEscape p.1 +:+ "=" +:+ QueryEscape p.2.
Definition otp_url (label : string) (values : list (string * string)) : string :=
  "otpauth://totp/" +:+ PathEscape label +:+ "?" +:+ go_join "&" (otp_pair <$> values).
