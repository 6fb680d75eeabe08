(** What a link is: a scheme, a colon and what may follow it. *)
From Verif Require Export Model_Links Spec_Ssh.
From stdpp Require Import options.
Import Model_GoStr.
#[local] Open Scope Z_scope.

Definition scheme_text (s : string) : Prop :=
  ∃ c r, s = String c r ∧ letter c ∧ each (λ d, letter d ∨ digit d ∨ one_of "+-." d) r.

(** Text in which percent signs are followed by two hexadecimal digits that [allowed] admits,
    and the other bytes are among [byte] *)
Definition hex_value (c : Ascii.ascii) (v : Z) : Prop :=
  (0 ≤ v < 10 ∧ byteZ c = 48 + v) ∨ (10 ≤ v < 16 ∧ (byteZ c = 55 + v ∨ byteZ c = 87 + v)).
Inductive coded (byte : Ascii.ascii → Prop) (allowed : Z → Prop) : string → Prop :=
| coded_end : coded byte allowed ""
| coded_byte c s : c ≠ Zbyte 37 → byte c → coded byte allowed s → coded byte allowed (String c s)
| coded_percent h l x y s : hex_value h x → hex_value l y → allowed (16 * x + y) → coded byte allowed s →
    coded byte allowed (String (Zbyte 37) (String h (String l s))).
Definition any_coded : string → Prop := coded (λ _, True) (λ _, True).
(** In hosts, codes are for bytes that are not ASCII and for the percent sign. *)
Definition host_coded : string → Prop := coded any_host (λ v, 128 ≤ v ∨ v = 37).
(** In zones also for what may stand there itself, and blanks *)
Definition zone_coded : string → Prop := coded any_host (λ v, v = 37 ∨ v = 32 ∨ ascii_host (Zbyte v)).

Definition port_part (p : string) : Prop := p = "" ∨ ∃ d, p = String (Zbyte 58) d ∧ each digit d.
Inductive host_part : string → Prop :=
| host_name a p : ¬ (∃ r, a = String (Zbyte 91) r) → lacks (Zbyte 58) a ∨ p ≠ "" → host_coded a → port_part p → host_part (a +:+ p)
| host_address a p : host_coded (String (Zbyte 91) a) → str_index (String (Zbyte 91) a) "%25" = None → port_part p →
    host_part (String (Zbyte 91) (a +:+ String (Zbyte 93) p))
| host_scoped a z p : host_coded (String (Zbyte 91) a) → str_index (String (Zbyte 91) (a +:+ "%25" +:+ z)) "%25" = Some (S (String.length a)) →
    zone_coded ("%25" +:+ z) → port_part p → host_part (String (Zbyte 91) (a +:+ "%25" +:+ z +:+ String (Zbyte 93) p)).
(** A user, perhaps with a password, and a host *)
Definition user_byte (c : Ascii.ascii) : Prop := letter c ∨ digit c ∨ one_of "-._:~!$&'()*+,;=%@" c.
Definition authority_part (a : string) : Prop :=
  (lacks (Zbyte 64) a ∧ host_part a) ∨
  ∃ u h, a = u +:+ String (Zbyte 64) h ∧ lacks (Zbyte 64) h ∧ each user_byte u ∧ any_coded u ∧ host_part h.

(** What follows the scheme: nothing, a path from the root, or two slashes, a host and a path *)
Definition link_body (rest : string) : Prop :=
  rest = "" ∨
  (∃ p, rest = String (Zbyte 47) p ∧ ¬ (∃ r, p = String (Zbyte 47) r) ∧ any_coded rest) ∨
  (∃ a p, rest = "//" +:+ a +:+ p ∧ lacks (Zbyte 47) a ∧ (p = "" ∨ ∃ r, p = String (Zbyte 47) r) ∧ authority_part a ∧ any_coded p).
Definition no_control (s : string) : Prop := each (λ c, 32 ≤ byteZ c ∧ byteZ c ≠ 127) s.
Definition link (v : string) : Prop := ∃ scheme rest query frag,
  v = scheme +:+ ":" +:+ rest +:+ query +:+ frag ∧ scheme_text scheme ∧
  lacks (Zbyte 63) rest ∧ lacks (Zbyte 35) rest ∧ no_control rest ∧ link_body rest ∧
  (query = "" ∨ ∃ q, query = String (Zbyte 63) q ∧ lacks (Zbyte 35) q ∧ no_control q) ∧
  (frag = "" ∨ ∃ f, frag = String (Zbyte 35) f ∧ any_coded f).
