(** What is meant by the remote the user describes, and what may be given to a
    host. *)
From Verif Require Export Model_Commands.
From Verif Require Export Spec_Hosts Spec_Scp Model_Ssh.
From stdpp Require Import options.
Import Model_GoStr.

Fixpoint each (p : Ascii.ascii → Prop) (s : string) : Prop :=
  match s with EmptyString => True | String c r => p c ∧ each p r end.

Definition digit (c : Ascii.ascii) : Prop := (48 ≤ byteZ c ≤ 57)%Z.
Definition letter (c : Ascii.ascii) : Prop := (65 ≤ byteZ c ≤ 90)%Z ∨ (97 ≤ byteZ c ≤ 122)%Z.
Definition one_of (s : string) (c : Ascii.ascii) : Prop := c ∈ str_bytes s.

(** Names and addresses of hosts: ASCII or not *)
Definition ascii_host (c : Ascii.ascii) : Prop := digit c ∨ letter c ∨ one_of ("-_.~!$&'()*+,;=:[]<>" +:+ dquote) c.
Definition any_host (c : Ascii.ascii) : Prop := ascii_host c ∨ (128 ≤ byteZ c)%Z.
Definition zone_byte (c : Ascii.ascii) : Prop := ascii_host c ∨ one_of "% " c.

(** A name, or an address with colons (IPv6) and perhaps a zone *)
Inductive usable_host : string → Prop :=
| usable_name h :
    h ≠ "" → lacks (Zbyte 58) h → ¬ (∃ r, h = String (Zbyte 91) r) →
    each (λ c, any_host c ∨ c = Zbyte 37) h → usable_host h
| usable_address h :
    ¬ lacks (Zbyte 58) h → each any_host h → usable_host h
| usable_scoped a z :
    ¬ lacks (Zbyte 58) (a +:+ String (Zbyte 37) z) → each any_host a → each zone_byte z →
    usable_host (a +:+ String (Zbyte 37) z).

(** The path without one slash at its beginning *)
Definition relative (file : string) : string :=
  match file with String c r => if (byteZ c =? 47)%Z then r else file | EmptyString => "" end.
(** and with one, unless it is empty *)
Definition slashed (file : string) : string :=
  match file with
  | EmptyString => ""
  | String c _ => if (byteZ c =? 47)%Z then file else String (Zbyte 47) file
  end.

(** ** The host check *)

(** The host's key is the one known for it, or the user says yes to it. *)
Definition trusted (known hostname keyType keyHash : string) (inp : list input) : Prop :=
  (∃ l, first_for known hostname l ∧ same_key hostname keyType keyHash l) ∨
  (unknown_host known hostname ∧ ∃ line rest, inp = ILine line :: rest ∧ (line = "y" ∨ line = "Y")).

(** ** What a shell on the other side makes of a command *)

(** Bytes without a special meaning *)
Definition plain_byte (c : Ascii.ascii) : Prop := digit c ∨ letter c ∨ one_of "-_./,:@%+=" c.
(** The commands of a line of such bytes, blanks and semicolons, each as its
    words *)
Fixpoint shell_from (word : string) (words : list string) (s : string) : list (list string) :=
  let flush := if String.eqb word "" then words else words ++ [word] in
  match s with
  | EmptyString => [flush]
  | String c r =>
      if (byteZ c =? 32)%Z then shell_from "" flush r
      else if (byteZ c =? 59)%Z then flush :: shell_from "" [] r
      else shell_from (word +:+ String c "") words r
  end.
Definition shell (line : string) : list (list string) := shell_from "" [] line.

(** ** A server that keeps one file, running OpenSSH's scp *)

(** [asked]: the path in the command.  Sending: the file, or a complaint.
    Receiving: the first byte of its answers comes with the first Read. *)
Definition scp_server (mode : nat) (path : string) (file : option string) (command : string) : channel :=
  mk_channel None (λ _, true)
    (match file with
     | Some contents => source mode (Base path) contents
     | None => complaint (path +:+ ": No such file or directory")
     end)
    true (λ _, Some (String nul_byte "")) None None.
(** What it keeps after it was sent something *)
Definition keeps_sent (sent : string) (file : option string) : option string :=
  match sink sent with Some (_, _, contents) => Some contents | None => file end.

(** Everything given away goes to the host of the entry, which is trusted, and
    the commands are scp's for the entry's path. *)
Definition given_to_trusted (h : ssh_world) (push : bool) (i : nat) (b : entry) (inp : list input) (ev : list event) : Prop :=
  ev = [] ∨
  ∃ t addr ty hash chan,
    sshConfig (h_key h) b = Ok t ∧ h_dial h push i t = Dialled addr ty hash chan ∧
    trusted (key_of_entry b "knownhosts") (t_address t) ty hash inp ∧
    ∀ e, e ∈ ev →
      match e with
      | Secrets ty' hash' user pass key => ty' = ty ∧ hash' = hash ∧ user = t_user t ∧ pass = t_pass t ∧ key = t_key t
      | Sent command _ => command = (if push then "scp -qt " else "scp -qf ") +:+ t_path t
      end.

(** ** The dialogue of addsync for scp: what was typed, and the password or the
    pair of keys that were made *)
Definition scp_typed (w : world) (inp : list input) (user host port file : string) (pass : option string) (keys : option (string * string)) (rest : list input) : Prop :=
  ∃ choice r1 r2 r3 r4 r5,
    getString inp = UOk user r1 ∧ getString r1 = UOk host r2 ∧ askPort r2 = UOk port r3 ∧ getString r3 = UOk file r4 ∧
    getMenuChoice 3 r4 = UOk choice r5 ∧
    if decide (choice = 2%Z) then ∃ p, newPassword (w_rand w) r5 = UOk p rest ∧ pass = Some p ∧ keys = None
    else rest = r5 ∧ pass = None ∧ keys = w_sshkey w choice.
