(** What the help should say of the commands, and which lines should be
    remembered. *)
From Verif Require Export Spec_Main Model_Help.
From stdpp Require Import options.
Import Model_GoStr.
#[local] Open Scope nat_scope.

(** A usage in a help text: a line with one blank at its front and a dash as one
    of its words is about the words before that dash, a command and the names
    of its arguments. *)
Fixpoint before_dash (ws : list string) : option (list string) :=
  match ws with
  | [] => None
  | w :: r => if String.eqb w "-" then Some [] else cons w <$> before_dash r
  end.
Definition usage_of (line : string) : option (list string) :=
  match line with String c rest => if Ascii.eqb c (Zbyte 32) then before_dash (Fields rest) else None | EmptyString => None end.
Definition usages (text : string) : list (list string) := omap usage_of (split_on (Zbyte 10) text).
(** All usages that can be had of the help command *)
Definition advertised (u : list string) : Prop := ∃ args, u ∈ usages (help_text args).

(** Arguments in angle brackets are needed, those in square brackets are not. *)
Definition needed (a : string) : bool := match a with String c _ => Ascii.eqb c (Zbyte 60) | EmptyString => false end.
Definition needs (sig : list string) : nat := length (List.filter needed sig).

(** The commands there are *)
Definition is_command (cmd : string) : Prop := cmd ∈ read_cmds ∨ cmd ∈ write_cmds.

(** The lines remembered of the turns from the [n]-th on: those of the commands
    that come to their end and those answered with a message about the syntax.
    What a command reads for itself belongs to it and is no line of the loop. *)
Inductive remembers (w : nat → world) : nat → string → session → list input → list string → Prop :=
| rem_stop n ctx s inp : match inp with ILine _ :: _ => False | _ => True end → remembers w n ctx s inp []
| rem_exit n ctx s line rest : parse_line (s_readOnly s) ctx line = Run KExit → remembers w n ctx s (ILine line :: rest) []
| rem_passed n ctx s line rest h :
    parse_line (s_readOnly s) ctx line ∈ [Skip; Unknown; Refused] → remembers w n ctx s rest h → remembers w n ctx s (ILine line :: rest) h
| rem_usage n ctx s line rest h :
    parse_line (s_readOnly s) ctx line = Usage → remembers w n ctx s rest h → remembers w n ctx s (ILine line :: rest) (TrimSpace line :: h)
| rem_done n ctx s line rest c s1 ctx1 o1 rest1 h :
    parse_line (s_readOnly s) ctx line = Run c → c ≠ KExit → exec (w n) ctx c s rest = (s1, UOk (ctx1, o1) rest1) →
    remembers w (S n) ctx1 s1 rest1 h → remembers w n ctx s (ILine line :: rest) (TrimSpace line :: h)
| rem_ended n ctx s line rest c s1 r :
    parse_line (s_readOnly s) ctx line = Run c → c ≠ KExit → exec (w n) ctx c s rest = (s1, r) → (∀ a rest1, r ≠ UOk a rest1) →
    remembers w n ctx s (ILine line :: rest) [].

(** The lines among what is typed, without the blanks around them *)
Definition trimmed (inp : list input) : list string :=
  omap (λ i, match i with ILine l => Some (TrimSpace l) | IErr _ => None end) inp.
