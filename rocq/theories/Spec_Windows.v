(** Two runs of the program on one file.  A run reads the file when it is started
    and writes it, if at all, as the last thing it does (main.go:75-122). *)
From Verif Require Export Spec_Runs Spec_Main.
From stdpp Require Import options.
#[local] Open Scope nat_scope.

(** A run: what is outside of it but for the file, the flags, and what is typed *)
Record window := mk_window { v_o : outside; v_f : flags; v_inp : list input }.
Definition run_on (v : window) (d : disk) : effects * ending := bpass (other_disk (v_o v) d) (v_f v) (v_inp v).

(** The file after a run *)
Definition left_by (d : disk) (x : effects * ending) : disk := match x_file x.1 with Some f => Found (mk_slice f []) | None => d end.
Definition after (d : disk) (v : window) : disk := left_by d (run_on v d).

(** The second is started when the first has ended. *)
Definition in_turn (d : disk) (a b : window) : disk := after (after d a) b.
(** The second is started before the first has written the file, and ends later. *)
Definition overlapping (d : disk) (a b : window) : disk := left_by (after d a) (run_on b d).

(** A session without syncing in which nothing is done: the passphrase, and the end
    of the input. *)
Definition idle (v : window) (pass : string) : Prop :=
  opening (v_o v) (v_f v) ∧ f_time (v_f v) = "" ∧ f_import (v_f v) = false ∧ f_export (v_f v) = false ∧ f_noSync (v_f v) = true ∧
  (∃ b, o_riv (v_o v) = Some b ∧ length b = 40) ∧ ∃ rest, v_inp v = ILine pass :: IErr EEnd :: rest.

(** The file is one saved by the single-user session [s] and opens with [pass]. *)
Definition solo_file (P : prims) (s : session) (m : snapshot) (pass : string) (d : disk) : Prop :=
  good (s_db s) m ∧ s_readOnly s = false ∧ single_session P s pass ∧
  ∃ e ord riv fl sp, length riv = 40 ∧ saveBlob P e ord (Some riv) s = (s, Ok (Some fl)) ∧ d = Found (mk_slice fl sp).

(** The file opens with [pass] and has the store [st], with the content [m]. *)
Definition has_store (P : prims) (d : disk) (pass : string) (st : db) (m : snapshot) : Prop :=
  ∀ rsalt r, ∃ s2, loadBlob P d None rsalt (ILine pass :: r) = UOk s2 r ∧ same_store st (s_db s2) ∧ good (s_db s2) m.

(** A session without syncing on a file with one user, in which entries are edited. *)
Definition editing (U : string → Prop) (v : window) (pass : string) (inp : list input) : Prop :=
  opening (v_o v) (v_f v) ∧ f_time (v_f v) = "" ∧ f_import (v_f v) = false ∧ f_export (v_f v) = false ∧ f_noSync (v_f v) = true ∧
  (∃ b, o_riv (v_o v) = Some b ∧ length b = 40) ∧ v_inp v = ILine pass :: inp ∧
  (∀ n, w_P (o_w (v_o v) n) = o_P (v_o v)) ∧ (∀ n, rand_ok (w_rand (o_w (v_o v) n))) ∧ (∀ n, tame U (o_w (v_o v) n)) ∧
  (∀ i j, drawn (o_w (v_o v) i) = drawn (o_w (v_o v) j) → i = j) ∧ (∀ n, text_world (o_w (v_o v) n)) ∧
  typed_text inp ∧ never_typed "sync" inp ∧ never_typed "adduser" inp ∧ never_typed "passwd" inp.
(** Its commands take the file [d] to the session [s']. *)
Definition commands_on (v : window) (d : disk) (inp : list input) (s' : session) : Prop :=
  ∃ s1 out rest, loadBlob (o_P (v_o v)) d None (o_salt (v_o v)) (v_inp v) = UOk s1 inp ∧ run_repl (o_w (v_o v)) s1 inp = (s', out, UOk tt rest) ∧
    (Z.of_nat (length (vis (db_log (s_db s')))) < 2 ^ 64)%Z.
