(** Which commands give out stored values. *)
From Verif Require Export Spec_Main.
From stdpp Require Import options.
#[local] Open Scope nat_scope.

(** What is shown has no value of an entry but names and the url that is opened. *)
Definition quiet (x : out) : Prop :=
  match x with Names _ | Moved _ _ | Deleted _ | Opened _ | Note => True | _ => False end.
(** It goes to the clipboard and not to the screen. *)
Definition copied (x : out) : Prop := match x with Clip _ _ | Note => True | _ => False end.

(** The commands that give out values.  adduser prints the passphrase of the new user
    (commands.go:139), which is not modelled, and neither are the messages of sync but the
    ones about conflicts. *)
Definition telling (c : command) : Prop :=
  match c with
  | KGet _ _ _ _ | KLogin _ | KShow _ _ | KDump _ | KDumpAll | KRekeyAll | KSet _ _ _ | KAddUser _ | KSync _ => True
  | _ => False
  end.
Definition telling_words : list string :=
  ["get"; "cp"; "pass"; "user"; "email"; "totp"; "login"; "show"; "dump"; "dumpall"; "rekeyall"; "set"; "adduser"; "sync"].
(** The commands that only copy. *)
Definition copying (c : command) : Prop := match c with KGet _ _ _ true | KLogin _ => True | _ => False end.
Definition printing_words : list string := ["get"; "show"; "dump"; "dumpall"; "rekeyall"; "set"; "adduser"; "sync"].
