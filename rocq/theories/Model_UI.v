(** The terminal: lines typed by the user and the small prompt helpers. *)
From Verif Require Export Base.
From stdpp Require Import options.

(** What [LineEditor.Line] can give (line_editing.go:17-23): a line, or an
    error such as ErrInterrupt or ErrEnd. *)
Inductive input := ILine (s : string) | IErr (e : error).

#[global] Instance input_eq_dec : EqDecision input.
Proof. solve_decision. Defined.

(** The result of a dialogue run against the list of inputs to come: a value
    or an error with the inputs not consumed, a panic, or still waiting for
    more input. *)
Inductive ui (A : Type) :=
| UOk (a : A) (rest : list input)
| UErr (e : error) (rest : list input)
| UPanic
| UWait.
Arguments UOk {A} _ _. Arguments UErr {A} _ _. Arguments UPanic {A}. Arguments UWait {A}.

#[global] Instance ui_eq_dec {A} `{!EqDecision A} : EqDecision (ui A).
Proof. solve_decision. Defined.

(** uihelpers.go:25-32, [prompt].  The prompt text is not modelled. *)
Definition prompt (inp : list input) : ui string :=
  match inp with
  | [] => UWait
  | ILine s :: rest => UOk s rest
  | IErr e :: rest => UErr e rest
  end.

(** uihelpers.go:113-119, the accepted answers *)
Definition yes_word (s : string) : bool :=
  String.eqb s "yes" || String.eqb s "y" || String.eqb s "YES" || String.eqb s "Y".
Definition no_word (s : string) : bool :=
  String.eqb s "no" || String.eqb s "n" || String.eqb s "NO" || String.eqb s "N".

(** uihelpers.go:107-124, [getYesNo] *)
Fixpoint getYesNo (inp : list input) : ui bool :=
  match inp with
  | [] => UWait
  | IErr e :: rest => UErr e rest
  | ILine s :: rest =>
      if yes_word s then UOk true rest
      else if no_word s then UOk false rest
      else getYesNo rest
  end.
