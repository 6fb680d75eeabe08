(** How the parts of a remote are spelled in its url. *)
From Verif Require Export Spec_Ssh.
From stdpp Require Import options.
Import Model_GoStr.

(** Letters, digits and the bytes of [keep] are written as they are, every other byte as a
    percent sign and two upper case hexadecimal digits. *)
Definition kept (keep : string) (c : Ascii.ascii) : Prop := digit c ∨ letter c ∨ one_of keep c.
Inductive spelled (keep : string) : string → string → Prop :=
| spelled_end : spelled keep "" ""
| spelled_kept c s t : kept keep c → spelled keep s t → spelled keep (String c s) (String c t)
| spelled_coded c s t i j h l :
    ¬ kept keep c → byteZ c = (16 * Z.of_nat i + Z.of_nat j)%Z →
    String.get i "0123456789ABCDEF" = Some h → String.get j "0123456789ABCDEF" = Some l →
    spelled keep s t → spelled keep (String c s) (String (Zbyte 37) (String h (String l t))).

(** In users and passwords, and in paths *)
Definition in_user : string := "-_.~$&+,;=".
Definition in_path : string := "-_.~$&+,;=/:@".

(** ** The question for a port *)

(** A line that is taken *)
Definition port_line (line port : string) : Prop := (line = "" ∧ port = "22") ∨ (line ≠ "" ∧ port = line ∧ ∃ n, Atoi line = Ok n).
