(** C79: the command loop. C80: a whole session. *)
From Verif Require Import Proof_Crypt7 Spec_Main Proof_TxLog Proof_Blobs Proof_SessionEx Proof_Session Proof_Session3 Proof_Repl5 Proof_Repl6 Proof_Repl7 Proof_Main Spec_Lines Proof_Lines Props_Repl.
From Coq Require Import Lia.
From stdpp Require Import options.
Import Model_GoStr.
#[local] Open Scope nat_scope.

(** ** C79: the command loop takes one line after the other *)

(** Whatever a command does, it reads its answers from the front of the input, in
    order and none twice. *)
Theorem C79_reads : ∀ w ctx c, (∀ n, c = KSync n → reads (w_sync w n)) → reads (exec w ctx c).
Proof. exact reads_exec. Qed.
Print Assumptions C79_reads.

(** The loop does exactly its turns: a line that is no command does nothing, exit
    and the end of the input end the session well, a command that fails ends it with
    its error, and all others are followed by the next turn. *)
Theorem C79_turns : ∀ w s inp s' o r, (∀ n k, reads (w_sync (w n) k)) →
  run_repl w s inp = (s', o, r) ↔ turns w 0 "" s inp o s' r.
Proof. exact repl_turns. Qed.
Print Assumptions C79_turns.

(** One input has one course. *)
Theorem C79_one_course : ∀ w n ctx s inp o1 s1 r1 o2 s2 r2, (∀ n k, reads (w_sync (w n) k)) →
  turns w n ctx s inp o1 s1 r1 → turns w n ctx s inp o2 s2 r2 → o1 = o2 ∧ s1 = s2 ∧ r1 = r2.
Proof. exact turns_det. Qed.
Print Assumptions C79_one_course.

(** What the loop leaves of the input is its end. *)
Theorem C79_rest : ∀ w s inp s' o r, (∀ n k, reads (w_sync (w n) k)) → run_repl w s inp = (s', o, r) → in_order r inp.
Proof. intros w s inp s' o r Hw H. apply repl_turns in H; [|done]. by eapply turns_reads. Qed.
Print Assumptions C79_rest.

(** The end of the input (ctrl-d) and exit end the session without an error; no other
    line does. *)
Theorem C79_ends_well : ∀ w s inp s' o rest, (∀ n k, reads (w_sync (w n) k)) → run_repl w s inp = (s', o, UOk tt rest) →
  ∃ before, inp = before ++ IErr EEnd :: rest ∨ ∃ line, inp = before ++ ILine line :: rest ∧ ∃ words, Fields (TrimSpace line) = "exit" :: words.
Proof.
  intros w s inp s' o rest Hw H. apply repl_turns in H; [|done]. by eapply turns_end_well.
Qed.
Print Assumptions C79_ends_well.

Theorem C79_end : ∀ w s rest, run_repl w s (IErr EEnd :: rest) = (s, [], UOk tt rest).
Proof. done. Qed.
Print Assumptions C79_end.
Theorem C79_exit : ∀ w s rest, run_repl w s (ILine "exit" :: rest) = (s, [], UOk tt rest).
Proof. intros w s rest. unfold run_repl. apply loop_exit. destruct (s_readOnly s); by vm_compute. Qed.
Print Assumptions C79_exit.
(** Any other failure to read a line ends the session with that error, and nothing is
    written. *)
Theorem C79_broken : ∀ P w0 w1 w e ord riv s x rest, x ≠ EEnd →
  run_repl w s (IErr x :: rest) = (s, [], UErr x rest) ∧ session_main P false w0 w1 w e ord riv s (IErr x :: rest) = (s, UErr x rest).
Proof.
  intros P w0 w1 w e ord riv s x rest Hx. assert (run_repl w s (IErr x :: rest) = (s, [], UErr x rest)) as H by (unfold run_repl; by apply loop_broken).
  split; [done|]. by eapply main_err.
Qed.
Print Assumptions C79_broken.

Example C79_example : (∀ n k, reads (w_sync (ex_ws n) k)) ∧
  turns ex_ws 0 "" se_single [ILine ""; ILine "help"; ILine "bogus"; ILine "exit"; ILine "ls"] [Note] se_single (UOk tt [ILine "ls"]).
Proof.
  split; [intros n k s inp s' r [= <- <-]; unfold in_order; done|].
  apply turn_nothing; [intros c; by vm_compute|]. eapply (turn_done _ _ _ _ _ _ KHelp se_single "" [Note] _ []); [done..|].
  apply turn_nothing; [intros c; by vm_compute|]. by apply turn_exit.
Qed.

(** ** C80: a whole session *)

(** Only lines with these words run the commands that may change the passphrase or
    add users. *)
Theorem C80_words : ∀ ro ctx line c, parse_line ro ctx line = Run c →
  ∃ cmd rest, Fields (TrimSpace line) = cmd :: rest ∧
    (∀ n, c = KSync n → cmd = "sync") ∧ (∀ u, c = KAddUser u → cmd = "adduser") ∧ (∀ u, c = KPasswd u → cmd = "passwd").
Proof.
  intros ro ctx line c H. apply parse_word in H as (cmd & rest & E & H). exists cmd, rest. split; [done|].
  split; [|split]; intros ? ->; exact H.
Qed.
Print Assumptions C80_words.

(** A single-user session without passwd: whatever else is typed, ended by exit or the
    end of the input the store is saved, and opens again with the passphrase as it was
    at the end of the session. *)
Theorem C80_saved_partial : ∀ P (U : string → Prop) w w0 w1 e ord riv s pass inp s' o rest,
  (∀ n, w_P (w n) = P) → (∀ n, rand_ok (w_rand (w n))) → (∀ n, tame U (w n)) → (∀ i j, drawn (w i) = drawn (w j) → i = j) →
  prims_ok P → length riv = 40 → sound U s → s_readOnly s = false → single_session P s pass → s_pass s = "" ∨ s_pass s = pass →
  never_typed "sync" inp → never_typed "adduser" inp → never_typed "passwd" inp →
  run_repl w s inp = (s', o, UOk tt rest) →
  ∃ f, session_main P false w0 w1 w e ord (Some riv) s inp = (s', UOk (Some f) rest) ∧ log_grew s s' ∧
    ∀ m, good (s_db s') m → ∀ sp rsalt r, ∃ s2, loadBlob P (Found (mk_slice f sp)) None rsalt (ILine pass :: r) = UOk s2 r ∧
      same_store (s_db s') (s_db s2) ∧ good (s_db s2) m.
Proof.
  intros P U w w0 w1 e ord riv s pass inp s' o rest HP Hr Ht Hd HPo Hl Hs Hro Hss Hsp H1 H2 H3 E.
  destruct (main_whole P (λ p, p = pass) U w HP Hr Ht Hd w0 w1 e ord riv s inp s' o rest) as (f & p & -> & Hm & Hg & Hx); try done.
  - split; [done|]. by exists pass.
  - split; [done|]. split; [done|by left].
  - by exists f.
Qed.
Print Assumptions C80_saved_partial.

(** With passwd: it is saved for some passphrase. *)
Theorem C80_saved_passwd_partial : ∀ P (U : string → Prop) w w0 w1 e ord riv s pass inp s' o rest,
  (∀ n, w_P (w n) = P) → (∀ n, rand_ok (w_rand (w n))) → (∀ n, tame U (w n)) → (∀ i j, drawn (w i) = drawn (w j) → i = j) →
  prims_ok P → length riv = 40 → sound U s → s_readOnly s = false → single_session P s pass →
  never_typed "sync" inp → never_typed "adduser" inp →
  run_repl w s inp = (s', o, UOk tt rest) →
  ∃ f pass', session_main P false w0 w1 w e ord (Some riv) s inp = (s', UOk (Some f) rest) ∧ log_grew s s' ∧
    ∀ m, good (s_db s') m → ∀ sp rsalt r, ∃ s2, loadBlob P (Found (mk_slice f sp)) None rsalt (ILine pass' :: r) = UOk s2 r ∧
      same_store (s_db s') (s_db s2) ∧ good (s_db s2) m.
Proof.
  intros P U w w0 w1 e ord riv s pass inp s' o rest HP Hr Ht Hd HPo Hl Hs Hro Hss H1 H2 E.
  destruct (main_whole P (λ _, True) U w HP Hr Ht Hd w0 w1 e ord riv s inp s' o rest) as (f & p & _ & Hm & Hg & Hx); try done.
  - split; [split; [done|by right]|]. by exists pass.
  - split; [done|]. split; [done|by right].
  - by exists f, p.
Qed.
Print Assumptions C80_saved_passwd_partial.
Example C80_example :
  (∀ n, w_P (ex_ws n) = toy) ∧ (∀ n, rand_ok (w_rand (ex_ws n))) ∧ (∀ n, tame (λ u, u = "u1") (ex_ws n)) ∧ (∀ i j, drawn (ex_ws i) = drawn (ex_ws j) → i = j) ∧
  prims_ok toy ∧ length se_iv = 40 ∧ sound (λ u, u = "u1") se_single ∧ s_readOnly se_single = false ∧ single_session toy se_single se_pass ∧
  s_pass se_single = se_pass ∧ never_typed "sync" [ILine "cd mail"; ILine "set user bob"; IErr EEnd].
Proof.
  split; [done|]. split; [intros n; apply se_rand_ok|]. destruct C69_example as (_ & Ht & Hd & _). split; [exact Ht|]. split; [exact Hd|].
  split; [apply toy_ok|]. split; [done|]. split; [apply ex_sound|]. split; [done|]. split; [apply se_single_ok|]. split; [done|].
  intros line Hl. repeat (apply elem_of_cons in Hl as [Hl|Hl]; [try discriminate Hl; injection Hl as ->; by vm_compute|]). by apply elem_of_nil in Hl.
Qed.
