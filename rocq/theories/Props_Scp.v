(** C62: transfers with scp are exact. *)
From Verif Require Import Spec_Scp Proof_Scp.
From stdpp Require Import options.

(** ** Receiving *)

(** A file sent by a conforming source is received with exactly its bytes,
    whatever they are, and three acknowledgements are sent.  Only for names
    without white space and files of less than 2^31 bytes. *)
Theorem C62_read_partial w mode name contents rest :
  (∀ n, w n = true) → (mode < 4096)%nat → plain_name name → (Z.of_nat (String.length contents) < 2 ^ 31)%Z →
  readFile w (source mode name contents +:+ rest) =
  (3%nat, Done (mk_file name (Z.of_nat (String.length contents)) (Z.of_nat mode) contents)).
Proof. intros Hw. exact (read_source w Hw mode name contents rest). Qed.
Print Assumptions C62_read_partial.
Example C62_read_ex : plain_name "store.bpass" ∧ source 384 "store.bpass" "abc" = "C0600 3 store.bpass" +:+ newline +:+ "abc" +:+ String nul_byte "".
Proof. split; [|done]. split; [done|]. repeat (constructor; [done|]). constructor. Qed.

(** Without them: a name with a blank in it is rejected. *)
Theorem C62_read_spaces_refuted w mode n1 n2 contents rest :
  (∀ n, w n = true) → plain_name n1 → plain_name n2 →
  readFile w (source mode (n1 +:+ " " +:+ n2) contents +:+ rest) = (1%nat, Bad "protocol demands 3 fields, got %d").
Proof. intros Hw. exact (read_spaced w Hw mode n1 n2 contents rest). Qed.
Print Assumptions C62_read_spaces_refuted.
Example C62_read_spaces_ex : plain_name "my" ∧ plain_name "store".
Proof. split; (split; [done|]; repeat (constructor; [done|]); constructor). Qed.

(** ...and so is a file of 2^31 bytes or more, before any of it is read. *)
Theorem C62_read_big_refuted w mode name contents rest :
  (∀ n, w n = true) → (mode < 4096)%nat → plain_name name → (2 ^ 31 ≤ Z.of_nat (String.length contents))%Z →
  readFile w (source mode name contents +:+ rest) = (1%nat, Bad "failed to parse the length: %q (%w)").
Proof. intros Hw. exact (read_big w Hw mode name contents rest). Qed.
Print Assumptions C62_read_big_refuted.
Example C62_read_big_ex : ∃ contents, (2 ^ 31 ≤ Z.of_nat (String.length contents))%Z.
Proof.
  assert (∀ n, String.length (Nat.iter n (String (Zbyte 97)) "") = n) as H
    by (intros n; induction n as [|n IH]; [done|exact (f_equal S IH)]).
  exists (Nat.iter (Z.to_nat (2 ^ 31)) (String (Zbyte 97)) ""). rewrite H. lia.
Qed.

(** Whatever the server sends and whichever writes fail: what is received are
    the bytes between the first line and a zero byte, as many as the file says
    it has; nothing is cut off and nothing is added. *)
Theorem C62_read_exact w s n f :
  readFile w s = (n, Done f) →
  ∃ h rest, s = "C" +:+ h +:+ newline +:+ f_contents f +:+ String nul_byte rest ∧
    f_length f = Z.of_nat (String.length (f_contents f)) ∧ n = 3%nat.
Proof. exact (read_done w s n f). Qed.
Print Assumptions C62_read_exact.
Example C62_read_exact_ex :
  readFile (λ _, true) ("C0644 2 x" +:+ newline +:+ "hi" +:+ String nul_byte "") = (3%nat, Done (mk_file "x" 2 420 "hi")).
Proof. done. Qed.

(** The server's complaint is handed on word for word. *)
Theorem C62_complaint w msg rest :
  (∀ n, w n = true) → lacks (Zbyte 10) msg →
  readFile w (complaint msg +:+ rest) = (1%nat, Err 1 ("scp: " +:+ msg +:+ newline)).
Proof. intros Hw. exact (read_complaint w Hw msg rest). Qed.
Print Assumptions C62_complaint.
Example C62_complaint_ex : lacks (Zbyte 10) "x: No such file or directory".
Proof. cbn. repeat split; discriminate. Qed.

(** A file counts as missing only if the server says so. *)
Theorem C62_not_found lower w s :
  IsNotFoundErr lower (readFile w s).2 = true →
  ∃ msg rest, s = String (Zbyte 1) (msg +:+ newline +:+ rest) ∧
    contains_str (lower (msg +:+ newline)) "no such file or directory" = true.
Proof. exact (not_found_read lower w s). Qed.
Print Assumptions C62_not_found.
Example C62_not_found_ex : IsNotFoundErr id (readFile (λ _, true) (complaint "x: no such file or directory")).2 = true.
Proof. done. Qed.

(** A malformed header is not always an error: every negative length is a
    crash... *)
Theorem C62_crash_refuted w h f0 f1 f2 mode n rest :
  (∀ k, w k = true) → lacks (Zbyte 10) h → Fields (h +:+ newline) = [f0; f1; f2] →
  ParseInt32 8 f0 = Some mode → ParseInt32 10 f1 = Some n → (n < 0)%Z →
  readFile w ("C" +:+ h +:+ newline +:+ rest) = (2%nat, Crash).
Proof. intros Hw. exact (read_negative w Hw h f0 f1 f2 mode n rest). Qed.
Print Assumptions C62_crash_refuted.
Example C62_crash_ex : readFile (λ _, true) ("C0644 -1 x" +:+ newline) = (2%nat, Crash) ∧ readFile (λ _, true) ("C0644 -2 x" +:+ newline) = (2%nat, Crash).
Proof. done. Qed.

(** ...and that is the only way to a crash. *)
Theorem C62_crash_only w s n :
  readFile w s = (n, Crash) →
  ∃ h rest f0 f1 f2 len, s = "C" +:+ h +:+ newline +:+ rest ∧ Fields (h +:+ newline) = [f0; f1; f2] ∧
    ParseInt32 10 f1 = Some len ∧ (len < 0)%Z.
Proof. exact (read_crash w s n). Qed.
Print Assumptions C62_crash_only.

(** ** Sending *)

(** What is sent makes a conforming sink store exactly the bytes under the last
    part of the path, with the mode.  Only for modes of three octal digits and
    names without a line feed. *)
Theorem C62_send_partial dir name mode contents r :
  (64 ≤ mode < 512)%nat → name ≠ "" → lacks (Zbyte 47) name → name ≠ "." → name ≠ ".." → lacks (Zbyte 10) name →
  let '(sent, res) := sendFile (dir +:+ "/" +:+ name) (Z.of_nat (String.length contents)) mode contents r in
  sink sent = Some (Z.of_nat mode, name, contents) ∧ res = readResponse r.
Proof.
  intros Hm H1 H2 H3 H4 H5. pose proof (send_sink (dir +:+ "/" +:+ name) mode contents r Hm) as H.
  change ("/" +:+ name) with (String (Zbyte 47) name) in *. rewrite Base_file in H by done.
  apply H; [by apply good_name|done].
Qed.
Print Assumptions C62_send_partial.
Theorem C62_send_bare_partial name mode contents r :
  (64 ≤ mode < 512)%nat → name ≠ "" → lacks (Zbyte 47) name → name ≠ "." → name ≠ ".." → lacks (Zbyte 10) name →
  let '(sent, res) := sendFile name (Z.of_nat (String.length contents)) mode contents r in
  sink sent = Some (Z.of_nat mode, name, contents) ∧ res = readResponse r.
Proof.
  intros Hm H1 H2 H3 H4 H5. pose proof (send_sink name mode contents r Hm) as H.
  rewrite Base_name in H by done. apply H; [by apply good_name|done].
Qed.
Print Assumptions C62_send_bare_partial.
Example C62_send_ex :
  lacks (Zbyte 47) "my store" ∧ lacks (Zbyte 10) "my store" ∧ (64 ≤ 384 < 512)%nat ∧
  sendFile "/home/me/my store" 3 384 "abc" (Some (String nul_byte "")) = ("C0600 3 my store" +:+ newline +:+ "abc" +:+ String nul_byte "", Done tt).
Proof. split; [cbn; repeat split; discriminate|]. split; [cbn; repeat split; discriminate|]. split; [lia|]. vm_compute. reflexivity. Qed.

(** A line feed in the name lets something else be stored. *)
Theorem C62_send_newline_refuted :
  ¬ ∀ name mode contents r, (64 ≤ mode < 512)%nat → name ≠ "" → lacks (Zbyte 47) name →
    sink (sendFile name (Z.of_nat (String.length contents)) mode contents r).1 = Some (Z.of_nat mode, name, contents).
Proof.
  intros H. specialize (H ("x" +:+ newline +:+ "y") 384%nat "abc" None).
  enough (sink (sendFile ("x" +:+ newline +:+ "y") (Z.of_nat (String.length "abc")) 384 "abc" None).1 = None) as E.
  { rewrite E in H. enough (@None (Z * string * string) = Some (Z.of_nat 384, "x" +:+ newline +:+ "y", "abc")) by done.
    apply H; [lia|done|]. cbn. repeat split; discriminate. }
  vm_compute. reflexivity.
Qed.
Print Assumptions C62_send_newline_refuted.

(** A wrong length is noticed before the transfer is confirmed. *)
Theorem C62_send_length filename ln mode contents r sent res :
  sendFile filename ln mode contents r = (sent, res) → res = Done tt → ln = Z.of_nat (String.length contents).
Proof.
  unfold sendFile. destruct (Z.eqb_spec (Z.of_nat (String.length contents)) ln) as [<-|]; [done|].
  cbn [negb]. intros E ->. done.
Qed.
Print Assumptions C62_send_length.
Example C62_send_length_ex : (sendFile "x" 2 384 "ab" (Some (String nul_byte ""))).2 = Done tt.
Proof. reflexivity. Qed.

(** The answer decides: success exactly for a zero byte; one and two are handed
    on with the message.  (A message of one byte is lost.) *)
Theorem C62_response r :
  (readResponse r = Done tt ↔ ∃ t, r = Some (String nul_byte t)) ∧
  (∀ code t, (code = 1 ∨ code = 2)%Z → (1 < String.length t)%nat → r = Some (String (Zbyte code) t) → readResponse r = Err code t) ∧
  readResponse r ≠ Crash.
Proof.
  split; [|split].
  - split.
    + destruct r as [[|c t]|]; [done| |done]. cbn [readResponse]. destruct (byteZ c =? 0)%Z eqn:E; [|by destruct (_ || _)].
      intros _. exists t. repeat f_equal. rewrite <-(Ascii.ascii_nat_embedding c). unfold byteZ in E. unfold nul_byte, Zbyte. f_equal. lia.
    + intros [t ->]. done.
  - intros code t Hc Ht ->. cbn [readResponse String.length].
    replace (2 <? S (String.length t))%nat with true by (symmetry; apply Nat.ltb_lt; lia).
    destruct Hc as [-> | ->]; reflexivity.
  - destruct r as [[|c t]|]; [done| |done]. cbn [readResponse]. by repeat case_match.
Qed.
Print Assumptions C62_response.

(** But success does not mean that the file was stored: a sink says zero when it
    starts, before it has seen anything, and what it answers after the data is
    not looked at.  (Send, which calls sendFile, then waits for the exit status of
    the other side, lines 172-174; that is left to the ssh library and not
    modelled.) *)
Theorem C62_confirmed_refuted filename mode contents last k :
  let r := substring 0 (S k) (replies last) in
  (sendFile filename (Z.of_nat (String.length contents)) mode contents (Some r)).2 = Done tt.
Proof. unfold sendFile. rewrite Z.eqb_refl. reflexivity. Qed.
Print Assumptions C62_confirmed_refuted.
Example C62_confirmed_ex :
  (sendFile "x" 2 384 "ab" (Some (substring 0 256 (replies (complaint "x: No space left on device"))))).2 = Done tt.
Proof. vm_compute. reflexivity. Qed.
