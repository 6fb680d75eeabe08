(** What the command loop should do, turn by turn, and what is meant by reading
    the input in order. *)
From Verif Require Export Spec_Repl.
From stdpp Require Import options.
Import Model_GoStr.
#[local] Open Scope nat_scope.

(** What is left of the input is its end. *)
Definition in_order {A} (x : ui A) (inp : list input) : Prop :=
  match x with UOk _ rest | UErr _ rest => rest `suffix_of` inp | UPanic | UWait => True end.
(** A command reads its input from the front, whatever it does. *)
Definition reads {A} (x : C A) : Prop := ∀ s inp s' r, x s inp = (s', r) → in_order r inp.

(** The turns of the command loop from the [n]-th on, with the context entry
    [ctx]: what is shown, the session at the end and how it ends. *)
Inductive turns (w : nat → world) : nat → string → session → list input → list out → session → ui unit → Prop :=
| turn_wait n ctx s : turns w n ctx s [] [] s UWait
| turn_end n ctx s rest : turns w n ctx s (IErr EEnd :: rest) [] s (UOk tt rest)
| turn_broken n ctx s e rest : e ≠ EEnd → turns w n ctx s (IErr e :: rest) [] s (UErr e rest)
| turn_exit n ctx s line rest :
    parse_line (s_readOnly s) ctx line = Run KExit → turns w n ctx s (ILine line :: rest) [] s (UOk tt rest)
| turn_nothing n ctx s line rest o s' r :
    (∀ c, parse_line (s_readOnly s) ctx line ≠ Run c) → turns w n ctx s rest o s' r →
    turns w n ctx s (ILine line :: rest) o s' r
| turn_done n ctx s line rest c s1 ctx1 o1 rest1 o s' r :
    parse_line (s_readOnly s) ctx line = Run c → c ≠ KExit → exec (w n) ctx c s rest = (s1, UOk (ctx1, o1) rest1) →
    turns w (S n) ctx1 s1 rest1 o s' r → turns w n ctx s (ILine line :: rest) (o1 ++ o) s' r
| turn_failed n ctx s line rest c s1 e rest1 :
    parse_line (s_readOnly s) ctx line = Run c → c ≠ KExit → exec (w n) ctx c s rest = (s1, UErr e rest1) →
    turns w n ctx s (ILine line :: rest) [] s1 (UErr e rest1)
| turn_crashed n ctx s line rest c s1 :
    parse_line (s_readOnly s) ctx line = Run c → c ≠ KExit → exec (w n) ctx c s rest = (s1, UPanic) →
    turns w n ctx s (ILine line :: rest) [] s1 UPanic
| turn_waiting n ctx s line rest c s1 :
    parse_line (s_readOnly s) ctx line = Run c → c ≠ KExit → exec (w n) ctx c s rest = (s1, UWait) →
    turns w n ctx s (ILine line :: rest) [] s1 UWait.

(** No line typed has [cmd] as its first word. *)
Definition never_typed (cmd : string) (inp : list input) : Prop :=
  ∀ line, ILine line ∈ inp → head (Fields (TrimSpace line)) ≠ Some cmd.

(** Everything typed is UTF-8. *)
Definition typed_text (inp : list input) : Prop := ∀ line, ILine line ∈ inp → utf8 line.

(** The outside gives text when given text, and clock readings that fit. *)
Definition text_world (w : world) : Prop :=
  (∀ i, fair (w_env w i) ∧ clock_ok (w_env w i) ∧ utf8 (e_uuid (w_env w i))) ∧
  fair_results (r_ord (w_rand w)) ∧
  (∀ a b, utf8 a → utf8 b → utf8 (w_coerce w a b)) ∧
  (∀ old status new, utf8 old → w_editor w old = Exited status (Some new) → utf8 new) ∧
  (∀ p q, utf8 p → w_abs w p = Some q → utf8 q) ∧
  (∀ p, utf8 p → utf8 (w_file_url w p)) ∧
  (∀ u h p f pw, utf8 u → utf8 h → utf8 p → utf8 f → (∀ x, pw = Some x → utf8 x) → utf8 (w_scp_url w u h p f pw)) ∧
  (∀ c priv pub, w_sshkey w c = Some (priv, pub) → utf8 priv ∧ utf8 pub).

(** A store whose history and contents are text, with times that fit. *)
Definition clean (d : db) : Prop :=
  snapshot_utf8 (snap_of d) ∧ Forall (λ t, tx_utf8 t ∧ in_int64 (tx_time t)) (vis (db_log d)) ∧
  db_txpoint d ≤ S (length (vis (db_log d))).

(** A command that leaves a store of text when what is typed is text. *)
Definition text_kept {A} (x : C A) : Prop := ∀ s inp s' r, clean (s_db s) → typed_text inp → x s inp = (s', r) →
  match r with UOk _ rest | UErr _ rest => clean (s_db s') ∧ typed_text rest | UPanic | UWait => True end.
