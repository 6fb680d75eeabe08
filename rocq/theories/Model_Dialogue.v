(** Model of the dialogues of uihelpers.go.

    Not modelled: prompts, help texts and colours.  [promptPassword]
    (uihelpers.go:14-23) asks the pinentry program or reads a hidden line; either
    way a string or an error comes back, which is here the next input. *)
From Verif Require Export Model_UI Model_GoStr2 Model_PassGen.
From stdpp Require Import options.

(** ** uihelpers.go:34-66, [promptMultiline]

    [lines] are the lines so far. *)
Fixpoint multiline (lines : list string) (oneBlank : bool) (inp : list input) : ui string :=
  match inp with
  | [] => UWait
  | IErr e :: rest =>
      if decide (e = EEnd) then UOk (go_join (String (Zbyte 10) "") lines) rest else UErr e rest
  | ILine line :: rest =>
      if String.eqb line "." then UOk (go_join (String (Zbyte 10) "") lines) rest
      else if (String.length line =? 0)%nat then
        if oneBlank then UOk (go_join (String (Zbyte 10) "") lines) rest
        else multiline lines true rest
      else multiline ((if oneBlank then lines ++ [""] else lines) ++ [line]) false rest
  end.
Definition promptMultiline (inp : list input) : ui string := multiline [] false inp.

(** ** uihelpers.go:126-141, [getString] *)
Fixpoint getString (inp : list input) : ui string :=
  match inp with
  | [] => UWait
  | IErr e :: rest => UErr e rest
  | ILine s :: rest => if (String.length s =? 0)%nat then getString rest else UOk s rest
  end.

(** ** uihelpers.go:143-166, [getInt] (called nowhere) *)
Fixpoint getInt (min max : Z) (inp : list input) : ui Z :=
  match inp with
  | [] => UWait
  | IErr e :: rest => UErr e rest
  | ILine s :: rest =>
      if (String.length s =? 0)%nat then getInt min max rest
      else match Atoi s with
           | Ok i => UOk i rest
           | _ => getInt min max rest
           end
  end.

(** ** uihelpers.go:168-196, [getMenuChoice]; [n] is [len(items)] *)
Fixpoint getMenuChoice (n : nat) (inp : list input) : ui Z :=
  match inp with
  | [] => UWait
  | IErr e :: rest => UErr e rest
  | ILine s :: rest =>
      match Atoi s with
      | Ok i =>
          let i := wrap64 (i - 1) in
          if (i <? 0)%Z || (Z.of_nat n <=? i)%Z then getMenuChoice n rest else UOk i rest
      | _ => getMenuChoice n rest
      end
  end.

(** ** uihelpers.go:198-313, [getPassword] *)

(** What the dialogue shows or does besides asking: a password on display
    (with the settings in force), the message that none can be generated, a
    password copied to the clipboard, one entered by hand. *)
Inductive event :=
| Shown (len : Z) (c : classes) (pw : string)
| Impossible (len : Z) (c : classes)
| Copied (pw : string)
| Entered (pw : string).

(** uihelpers.go:208-228, [setSetting] *)
Definition setSetting (splits : list string) (n : Z) : Z :=
  match splits with
  | _ :: s :: _ => match Atoi s with Ok i => i | _ => n end
  | _ => if (0 <=? n)%Z then (-1)%Z else 0%Z
  end.

(** The letters (uihelpers.go:293-302). *)
Definition set_class (k : string) (splits : list string) (c : classes) : option classes :=
  if String.eqb k "u" then
    Some {| c_upper := setSetting splits (c_upper c); c_lower := c_lower c; c_numbers := c_numbers c; c_basic := c_basic c; c_extra := c_extra c |}
  else if String.eqb k "l" then
    Some {| c_upper := c_upper c; c_lower := setSetting splits (c_lower c); c_numbers := c_numbers c; c_basic := c_basic c; c_extra := c_extra c |}
  else if String.eqb k "n" then
    Some {| c_upper := c_upper c; c_lower := c_lower c; c_numbers := setSetting splits (c_numbers c); c_basic := c_basic c; c_extra := c_extra c |}
  else if String.eqb k "b" then
    Some {| c_upper := c_upper c; c_lower := c_lower c; c_numbers := c_numbers c; c_basic := setSetting splits (c_basic c); c_extra := c_extra c |}
  else if String.eqb k "e" then
    Some {| c_upper := c_upper c; c_lower := c_lower c; c_numbers := c_numbers c; c_basic := c_basic c; c_extra := setSetting splits (c_extra c) |}
  else None.

(** uihelpers.go:245-256, the top of the loop: the password from now on, the
    number of calls of [genPassword] and what is shown.  [ents] are the random
    bytes of each call.  If [regen] is false, [err] is nil here, since the line
    was read without error (uihelpers.go:258-261). *)
Definition gp_top (ents : nat → option (nat → byte)) (calls : nat) (len : Z) (c : classes) (pw : string)
    (regen : bool) : outcome (string * nat * event) :=
  if regen then
    match genPassword (ents calls) len c with
    | Ok p => Ok (bytes_string p, S calls, Shown len c (bytes_string p))
    | Fail e => if decide (e = ENotEnoughSpace) then Ok ("", S calls, Impossible len c) else Fail e
    | Panic => Panic
    end
  else Ok (pw, calls, Shown len c pw).

Section loop.
  Variable ents : nat → option (nat → byte).
  (** uihelpers.go:244-312.  Returns the password with the trace. *)
  Fixpoint gp_loop (calls : nat) (len : Z) (c : classes) (pw : string) (regen : bool) (tr : list event)
      (inp : list input) : ui (string * list event) :=
    match gp_top ents calls len c pw regen with
    | Panic => UPanic
    | Fail e => UErr e inp
    | Ok (pw, calls, ev) =>
        let tr := tr ++ [ev] in
        match inp with
        | [] => UWait
        | IErr e :: rest => UErr e rest
        | ILine choice :: rest =>
            if String.eqb choice "" then gp_loop calls len c pw true tr rest
            else if String.eqb choice "y" then UOk (pw, tr) rest
            else if String.eqb choice "m" then
              match rest with
              | [] => UWait
              | IErr e :: rest1 => UErr e rest1
              | ILine initial :: rest1 =>
                  match rest1 with
                  | [] => UWait
                  | IErr e :: rest2 => UErr e rest2
                  | ILine verify :: rest2 =>
                      if String.eqb initial verify then UOk (initial, tr ++ [Entered initial]) rest2
                      else gp_loop calls len c pw true tr rest2
                  end
              end
            else if String.eqb choice "?" then gp_loop calls len c pw false tr rest
            else
              match Fields choice with
              | [] => UPanic
              | k :: args =>
                  if String.eqb k "c" then gp_loop calls len c pw false (tr ++ [Copied pw]) rest
                  else
                    match set_class k (k :: args) c with
                    | Some c' => gp_loop calls len c' pw true tr rest
                    | None =>
                        match Atoi choice with
                        | Ok n => gp_loop calls n c pw true tr rest
                        | _ => gp_loop calls len c pw true tr rest
                        end
                    end
              end
        end
    end.
End loop.

Definition any_class : classes := {| c_upper := 0; c_lower := 0; c_numbers := 0; c_basic := 0; c_extra := 0 |}.
Definition getPassword (ents : nat → option (nat → byte)) (inp : list input) : ui (string * list event) :=
  gp_loop ents 0 32 any_class "" true [] inp.
