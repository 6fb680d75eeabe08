(** Model of the text that show and rekeyall print (commands.go:1070-1172 and
    commands.go:234-272).  The colours are parameters; without colours they leave the
    text as it is. *)
From Verif Require Export Model_Repl.
From stdpp Require Import options.
#[local] Open Scope nat_scope.

(** strings.Repeat(" ", n) *)
Fixpoint gap (n : nat) : string := match n with O => "" | S k => String (Zbyte 32) (gap k) end.
(** utf8.RuneCountInString *)
Definition rune_count (s : string) : nat := length (runes s).
(** fmt's %*s (fmt/format.go, padString; fmt/print.go, tooLarge): runes are counted, a
    negative width fills up on the right, and a width of more than a million is not taken. *)
Definition pad_right (width : nat) (s : string) : string :=
  if (1000000 <? Z.of_nat width)%Z then "%!(BADWIDTH)" +:+ s else s +:+ gap (width - rune_count s).
Definition pad_left (width : nat) (s : string) : string :=
  if (1000000 <? Z.of_nat width)%Z then "%!(BADWIDTH)" +:+ s else gap (width - rune_count s) +:+ s.

(** commands.go:1070-1078, the width for the keys in the order of the range; it is
    made negative, which is [pad_right] *)
Definition show_width (keys : list string) : nat :=
  fold_left (λ width k, if width <? String.length k then String.length k + 1 else width) keys 8.

Section colours.
  Context (keyColor hideColor : string → string).
  (** commands.go:1150-1153 *)
  Definition showKeyValue (key value : string) (width indent : nat) : string :=
    gap indent +:+ keyColor (pad_right width (key +:+ ":")) +:+ " " +:+ value +:+ String (Zbyte 10) "".
  (** commands.go:1155-1158 *)
  Definition showHidden (key value : string) (width indent : nat) : string :=
    gap indent +:+ keyColor (pad_right width (key +:+ ":")) +:+ " " +:+ hideColor value +:+ String (Zbyte 10) "".
  (** commands.go:1160-1172 *)
  Definition showMultiline (key val : string) (width indent : nat) : string :=
    let lines := split_on (Zbyte 10) val in
    let lineIndent := if indent * 2 =? 0 then 2 else indent * 2 in
    gap indent +:+ keyColor (pad_right width (key +:+ ":")) +:+ String (Zbyte 10) "" +:+
    gap lineIndent +:+ TrimSpace (go_join (String (Zbyte 10) (gap lineIndent)) lines) +:+ String (Zbyte 10) "".
  (** What is printed for one thing shown; messages are left out. *)
  Definition show_line (width : nat) (x : out) : string :=
    match x with
    | Row k v => showKeyValue k v width 2
    | Hidden k v => showHidden k v width 2
    | Multi k v => showMultiline k v width 2
    | _ => ""
    end.
  Definition show_text (width : nat) (l : list out) : string := go_join "" (show_line width <$> l).
  (** commands.go:1070-1147 *)
  Definition show_printed (w : world) (b : entry) (snaps : nat) (snapshot : Z) : outcome string :=
    l ← show_blob w b snaps snapshot; Ok (show_text (show_width (w_keys w b)) l).
End colours.

(** commands.go:234-240 and 271, the users in the order of the range *)
Definition rekey_width (users : list string) : nat :=
  fold_left (λ width u, if width <? String.length u then String.length u else width) users 0.
Definition rekey_line (width : nat) (user pass : string) : string :=
  pad_left width (user +:+ ":") +:+ " " +:+ pass +:+ String (Zbyte 10) "".
