(** The help texts of the command loop (/repo/repl.go:14-105, 545-559) and
    the lines it remembers (repl.go:127-179, line_editing.go:23-25).  The texts
    are copied letter by letter; a doubled quote stands for one. *)
From Verif Require Export Model_Repl.
From stdpp Require Import options.
Import Model_GoStr.
#[local] Open Scope nat_scope.

(** repl.go:13-57 *)
Definition replHelp : string :=
"Bpass repl uses analogs to basic unix commands for general
familiarity and brevity however it's important to note that there is no actual
directory hierarchy, you can however ""cd"" into an entry to omit specifying
the entry name as a query in the key commands below.

General Commands:
 passwd       - Change the file's password for current user
 help [topic] - This help (how did you find this without seeing this help?)
 exit         - Exit the repl

Entry Commands (manage entries in the file):
 add <name>      - Add a new entry
 rm  <name>      - Delete an entry
 mv  <old> <new> - Rename an entry
 ls  [query]     - Lists entries, query restricts entries to a fuzzy match
 cd  [query]     - ""cd"" into an entry, omit argument to return to root
 labels <lbl...> - List entries by labels (entry must have all given labels)

Key commands (manage keys in entries, use ""cd"" command to omit query from these commands):
 show <query> [snapshot]    - Show all keys for an entry (optionally at a specific snapshot)
 set  <query> <key> [value] - Set a value on an entry (omit value for multi-line or password gen)
 get  <query> <key>         - Show a specific key of an entry
 cp   <query> <key>         - Copy a specific key of an entry to the clipboard
 edit <query> <key>         - Open $EDITOR to edit an existing value
 open <query>               - Launch browser using value in url key
 rmk  <query> <key>         - Delete a key from an entry

 label   <query>            - Add labels in an easier way than with set
 rmlabel <query> <label>    - Remove labels in an easier way than with edit

Clipboard copy shortcuts (alias of cp <query> <key>):
 pass  <query>       - Copy password to clipboard
 user  <query>       - Copy username to clipboard
 email <query>       - Copy email to clipboard
 totp  <query>       - Copy twofactor to clipboard
 login <query>       - Copy username, email, password and totp one after another

Other help topics (use help <topic>):
 sync, users, other

Common Arguments:
  name:   a fully qualified name
  query:  a fuzzy search (breaks on / for pseudo-folder structuring)
  index:  the number representing the item, not 0-based
".

(** repl.go:59-83 *)
Definition syncHelp : string :=
"Syncing the file with remotes in bpass is done via sync entries.

A sync entry must have a url key with the type of sync as it's schema
(eg. scp://) as the most basic requirement.

Certain sync types (such as scp) may require other keys to be present to work
correctly. The best way to ensure that you have a properly configured sync
entry is to use the ""addsync"" command.

Additionally if the ""sync"" key of an entry is set to ""true"" then this entry
will be automatically synchronized when an auto-sync occurs (usually
when opening/closing the file, or running ""sync"" with no arguments)

Types of sync: scp, file

Example of values in an auto-sync scp account:
 url: scp://myuser@localhost.com:22/folder/filename.blob
 sync: true
 privkey: ======= RSA PRIVATE KEY ======= ...
 pubkey: ssh-rsa AAA...238da friend@bpass.com

Sync Commands:
 sync    [name]  - Sync (Pull, Merge, Push) the file to all auto-sync accounts (or a given account)
 addsync <kind>  - Sync entry setup wizard (help sync for more details)
".

(** repl.go:85-103 *)
Definition usersHelp : string :=
"Users in bpass are managed using user entries.

When you first start a file, it is a single-user file and multi-user is not
considered at all. When you first call adduser, the current user (you) are
converted to a user entry in the database (user/<username>).

Users are just entries with a particular naming scheme of: user/<username>

These entries contain many system fields that cannot be set manually but apart
from those user entries are unremarkable and can be renamed with mv or deleted
with rm. (Remember when renaming to keep the user/ prefix intact or the user
will no longer be considered a user).

User/Password Commands:
 adduser <user> - Add user to the file (first add should use current user's username)
 passwd  [user] - Change the file's password for current user, or a specific user
 rekey   [user] - Rekey the file (change salt) for current user, or a specific user
 rekeyall       - Nuclear button, change all passwords & master key for all users
".

(** repl.go:105-108 *)
Definition otherHelp : string :=
"Debug commands:
 dump <query>      - Dumps an entire entry in debug mode
 dumpall           - Dumps the entire store in debug mode
".

(** repl.go:545-559: what the help command prints.  The words after the topic
    are not looked at. *)
Definition help_text (args : list string) : string :=
  match args with
  | [] => replHelp
  | topic :: _ =>
      if String.eqb topic "sync" then syncHelp
      else if String.eqb topic "users" then usersHelp
      else if String.eqb topic "other" then otherHelp
      else ""
  end.

(** ** repl.go:127-179, [run] again, now with the lines given to AddHistory
    (repl.go:177): the trimmed line of every turn whose Run function returned
    nil, which it also does after a message about the syntax.  A line that is
    empty, unknown or refused is left by [continue] before, and after exit or an
    error the loop is left.  noreadline.go:118-119 drops the lines; readline.go:102-108
    keeps them in memory only, since the file's name is empty (readline.go:40-52). *)
Fixpoint hist_loop (fuel : nat) (w : nat → world) (n : nat) (ctx : string) (s : session) (inp : list input) : list string :=
  match fuel with
  | O => []
  | S f =>
      match inp with
      | [] | IErr _ :: _ => []
      | ILine line :: rest =>
          match parse_line (s_readOnly s) ctx line with
          | Skip | Unknown | Refused => hist_loop f w n ctx s rest
          | Usage => TrimSpace line :: hist_loop f w n ctx s rest
          | Run KExit => []
          | Run c =>
              match exec (w n) ctx c s rest with
              | (s', UOk (ctx', _) rest') => TrimSpace line :: hist_loop f w (S n) ctx' s' rest'
              | _ => []
              end
          end
      end
  end.
Definition recalled (w : nat → world) (s : session) (inp : list input) : list string :=
  hist_loop (S (length inp)) w 0 "" s inp.
