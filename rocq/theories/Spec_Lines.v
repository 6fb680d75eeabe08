(** What a command line means, written as the usage messages of repl.go have
    it. *)
From Verif Require Export Model_Repl Spec_Repl.
From stdpp Require Import options.

(** The entry meant: the first word, or, with a context entry, that one.
    [rest]: the words that remain. *)
Definition whose (ctx : string) (args : list string) (q : string) (rest : list string) : Prop :=
  (ctx = "" ∧ args = q :: rest) ∨ (ctx ≠ "" ∧ q = ctx ∧ rest = args).

(** Commands that may be used in a read-only session *)
Definition reading : list string :=
  ["ls"; "cd"; "cp"; "get"; "user"; "pass"; "email"; "totp"; "open"; "labels"; "show"; "dump"; "dumpall"; "help"; "exit"].

(** [means ctx cmd args c]: with the context entry [ctx], the command [cmd] with
    the words [args] is [c].  Words that are not needed are ignored. *)
Inductive means (ctx : string) : string → list string → command → Prop :=
| means_passwd_self : means ctx "passwd" [] (KPasswd "")
| means_passwd u l : means ctx "passwd" (u :: l) (KPasswd u)
| means_adduser u l : means ctx "adduser" (u :: l) (KAddUser u)
| means_rekey_self : means ctx "rekey" [] (KRekey "")
| means_rekey u l : means ctx "rekey" (u :: l) (KRekey u)
| means_rekeyall l : means ctx "rekeyall" l KRekeyAll
| means_add n l : means ctx "add" (n :: l) (KAdd n)
| means_mv a b l : means ctx "mv" (a :: b :: l) (KMv a b)
| means_rm n l : means ctx "rm" (n :: l) (KRm n)
| means_rmk args q k l : whose ctx args q (k :: l) → means ctx "rmk" args (KRmk q k)
| means_ls_all : means ctx "ls" [] (KLs "")
| means_ls q l : means ctx "ls" (q :: l) (KLs q)
| means_cd_out : means ctx "cd" [] (KCd None)
| means_cd q : means ctx "cd" [q] (KCd (Some q))
| means_get args q k : whose ctx args q [k] → means ctx "get" args (KGet q k (-1) false)
| means_get_index args q k i n l : whose ctx args q (k :: i :: l) → Atoi i = Ok n → means ctx "get" args (KGet q k n false)
| means_cp args q k : whose ctx args q [k] → means ctx "cp" args (KGet q k (-1) true)
| means_cp_index args q k i n l : whose ctx args q (k :: i :: l) → Atoi i = Ok n → means ctx "cp" args (KGet q k n true)
| means_quick cmd args q l : cmd ∈ ["user"; "pass"; "email"; "totp"] → whose ctx args q l → means ctx cmd args (KGet q cmd (-1) true)
| means_login q l : q ≠ "" → means ctx "login" (q :: l) (KLogin q)
| means_login_ctx : ctx ≠ "" → means ctx "login" [] (KLogin ctx)
| means_set args q k l : q ≠ "" → k ≠ "" → whose ctx args q (k :: l) → means ctx "set" args (KSet q k (go_join " " l))
| means_edit args q k l : whose ctx args q (k :: l) → means ctx "edit" args (KEdit q k)
| means_open args q l : whose ctx args q l → means ctx "open" args (KOpen q)
| means_label args q l : whose ctx args q l → means ctx "label" args (KLabel q)
| means_rmlabel args q k l : whose ctx args q (k :: l) → means ctx "rmlabel" args (KRmLabel q k)
| means_labels x l : means ctx "labels" (x :: l) (KLabels (x :: l))
| means_show args q : whose ctx args q [] → means ctx "show" args (KShow q 0)
| means_show_number args q i n l : whose ctx args q (i :: l) → Atoi i = Ok n → means ctx "show" args (KShow q n)
| means_show_other args q i l : whose ctx args q (i :: l) → (∀ n, Atoi i ≠ Ok n) → means ctx "show" args (KShow q 0)
| means_sync_all : means ctx "sync" [] (KSync "")
| means_sync n l : means ctx "sync" (n :: l) (KSync n)
| means_addsync k l : means ctx "addsync" (k :: l) (KAddSync k)
| means_dump args q l : whose ctx args q l → means ctx "dump" args (KDump q)
| means_dumpall l : means ctx "dumpall" l KDumpAll
| means_help l : means ctx "help" l KHelp
| means_exit l : means ctx "exit" l KExit.

(** The words after the command: those of the trimmed line, but for set the
    pieces between single blanks *)
Definition words_after (line cmd : string) (rest : list string) : list string :=
  if String.eqb cmd "set" then drop 1 (split_on (Zbyte 32) (TrimSpace line)) else rest.

(** A word of printable ASCII *)
Definition typed (w : string) : Prop := w ≠ "" ∧ ∀ x, x ∈ str_bytes w → (32 < byteZ x < 127)%Z.
