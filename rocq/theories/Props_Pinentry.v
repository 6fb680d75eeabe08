(** C63: passwords from a pinentry program. *)
From Verif Require Import Spec_Pinentry Proof_Pinentry Proof_GoStr.
From Coq Require Import Lia.
From stdpp Require Import options.

(** Whatever the password, the escaped text is turned back into it: percent
    signs, line ends and texts that look like escapes included. *)
Theorem C63_unescape s : pinEntryReplace (assuan_escape s) = s.
Proof. exact (replace_escape s). Qed.
Print Assumptions C63_unescape.
Example C63_unescape_ex :
  assuan_escape "100%25%0A" = "100%2525%250A" ∧ pinEntryReplace "100%2525%250A" = "100%25%0A".
Proof. done. Qed.

(** No two passwords are escaped alike. *)
Theorem C63_distinct s t : assuan_escape s = assuan_escape t → s = t.
Proof. exact (escape_inj s t). Qed.
Print Assumptions C63_distinct.

(** A program that greets, accepts the settings and sends the escaped password
    in one line that fits the buffer is understood exactly. *)
Theorem C63_password_partial env cached on_path p term display pw :
  find_program env cached on_path = Some p →
  (2 + String.length (assuan_escape pw) < line_limit)%nat →
  Password env cached on_path None term display (greeting term display +:+ one_line (assuan_escape pw)) None = Ok pw.
Proof.
  intros Hp Hl. unfold Password. rewrite Hp. destruct (escape_lacks pw).
  rewrite one_line_read by done. by rewrite replace_escape.
Qed.
Print Assumptions C63_password_partial.
Example C63_password_ex :
  find_program "" "" (String.eqb "pinentry-tty") = Some "pinentry-tty" ∧
  (2 + String.length (assuan_escape "100%25") < line_limit)%nat.
Proof. split; [done|]. pose proof limit_big. change (2 + String.length (assuan_escape "100%25"))%nat with 10%nat. lia. Qed.

(** Without a data line the password is empty. *)
Theorem C63_no_data term display :
  converse term display (greeting term display +:+ "OK" +:+ nl) None = Ok "".
Proof. exact (no_data term display None). Qed.
Print Assumptions C63_no_data.

(** A cancelled dialogue looks the same as an empty password. *)
Theorem C63_cancelled term display l t wait :
  lacks (Zbyte 10) l → lacks (Zbyte 13) l → (3 + String.length l < line_limit)%nat →
  contains ("ERR" +:+ l) "Operation cancelled" = true →
  converse term display (greeting term display +:+ "ERR" +:+ l +:+ nl +:+ t) wait = Ok "".
Proof. exact (cancelled term display l t wait). Qed.
Print Assumptions C63_cancelled.
Example C63_cancelled_ex :
  let l := " 83886179 Operation cancelled <Pinentry>" in
  lacks (Zbyte 10) l ∧ lacks (Zbyte 13) l ∧ (3 + String.length l < line_limit)%nat ∧
  contains ("ERR" +:+ l) "Operation cancelled" = true.
Proof.
  cbv zeta. split; [cbn; repeat split; discriminate|]. split; [cbn; repeat split; discriminate|].
  split; [|done]. pose proof limit_big.
  match goal with |- (3 + ?x < _)%nat => change x with 40%nat end. lia.
Qed.

(** The protocol allows any byte to be escaped; only the three that have to be
    are turned back. *)
Theorem C63_any_escape_refuted :
  ¬ ∀ term display pw t, escaped_as pw t → (2 + String.length t < line_limit)%nat →
    converse term display (greeting term display +:+ one_line t) None = Ok pw.
Proof.
  intros H. specialize (H false false "A" "%41").
  rewrite one_line_read in H; [|cbn; repeat split; discriminate..|pose proof limit_big; change (2 + String.length "%41")%nat with 5%nat; lia].
  enough (Ok (pinEntryReplace "%41") = Ok "A") by discriminate.
  apply H; [|pose proof limit_big; change (2 + String.length "%41")%nat with 5%nat; lia].
  apply (esc_hex (Zbyte 65) "" ""). constructor.
Qed.
Print Assumptions C63_any_escape_refuted.

(** The protocol also allows the data to come in several lines, and demands it
    for long data (a line has at most 1000 bytes): two lines are rejected. *)
Theorem C63_two_lines_refuted term display t1 t2 wait :
  lacks (Zbyte 10) t1 → lacks (Zbyte 13) t1 → (2 + String.length t1 < line_limit)%nat →
  lacks (Zbyte 10) t2 → lacks (Zbyte 13) t2 → (2 + String.length t2 < line_limit)%nat →
  converse term display (greeting term display +:+ two_lines t1 t2) wait = Fail rogue.
Proof. exact (two_lines_read term display t1 t2 wait). Qed.
Print Assumptions C63_two_lines_refuted.
Example C63_two_lines_ex :
  lacks (Zbyte 10) "first" ∧ lacks (Zbyte 13) "first" ∧ (2 + String.length "first" < line_limit)%nat.
Proof.
  split; [cbn; repeat split; discriminate|]. split; [cbn; repeat split; discriminate|].
  pose proof limit_big. change (2 + String.length "first")%nat with 7%nat. lia.
Qed.

(** A line that does not fit the buffer is an error, never a shorter password. *)
Theorem C63_long_line term display pw wait :
  (line_limit ≤ 2 + String.length (assuan_escape pw))%nat →
  converse term display (greeting term display +:+ one_line (assuan_escape pw)) wait = Fail broken.
Proof.
  intros H. unfold one_line. apply long_line; [apply escape_lacks|exact H].
Qed.
Print Assumptions C63_long_line.
Example C63_long_line_ex : ∃ pw, (line_limit ≤ 2 + String.length (assuan_escape pw))%nat.
Proof.
  exists (Nat.iter line_limit (String (Zbyte 97)) ""). pose proof (escape_longer (Nat.iter line_limit (String (Zbyte 97)) "")) as H.
  enough (String.length (Nat.iter line_limit (String (Zbyte 97)) "") = line_limit) by lia.
  generalize line_limit. intros n. induction n as [|n IH]; [done|exact (f_equal S IH)].
Qed.

(** Whatever the program writes, there is no crash. *)
Theorem C63_no_panic env cached on_path start term display out wait :
  Password env cached on_path start term display out wait ≠ Panic.
Proof.
  unfold Password. destruct (find_program _ _ _); [|done]. destruct start; [done|]. apply converse_panic.
Qed.
Print Assumptions C63_no_panic.

(** $PINENTRY set to "none" in any case means that no program is used. *)
Theorem C63_none env cached on_path start term display out wait :
  EqualFold env "none" = true → Password env cached on_path start term display out wait = Fail ErrNotFound.
Proof. intros H. unfold Password, find_program. by rewrite H. Qed.
Print Assumptions C63_none.
Example C63_none_ex : EqualFold "None" "none" = true.
Proof. done. Qed.

(** A password is taken only from a program that greeted, said OK to every setting, and
    then sent data and OK and ended well; no password is taken for a cancellation or no
    data.  In all other cases there is an error. *)
Theorem C63_only term display out wait pw : converse term display out wait = Ok pw → conversed term display out wait pw.
Proof. exact (converse_ok term display out wait pw). Qed.
Print Assumptions C63_only.
Example C63_only_ex : ∃ out, converse true false out None = Ok "100%".
Proof. exists (greeting true false +:+ one_line (assuan_escape "100%")). rewrite one_line_read; [done|cbn; repeat split; discriminate..|]. pose proof limit_big. change (2 + String.length (assuan_escape "100%"))%nat with 8%nat. lia. Qed.

(** Which program is asked *)
Theorem C63_program env cached on_path p : find_program env cached on_path = Some p ↔ program_used env cached on_path p.
Proof. exact (program_found env cached on_path p). Qed.
Print Assumptions C63_program.
Example C63_program_ex : program_used "" "" (λ q, has_prefix q "pinentry-k") "pinentry-kde" ∧ program_used "mine" "pinentry" (λ _, true) "mine".
Proof. split; apply program_found; done. Qed.
