(** Properties C65, C66 and C68: the dialogues. *)
From Verif Require Import Proof_GoStr Proof_Dialogue.
From Coq Require Import Lia.
From stdpp Require Import options.

(** ** C65 *)

(** What is missing: lines that consist of white space only, lengths that are
    multiples of 256 and numbers of 2^60 and more (see the refutations), and the
    case that no password can be generated, in which "y" hands out the empty
    password. *)
Theorem C65_result_partial : ∀ ents inp pw tr rest,
  tame inp →
  getPassword ents inp = UOk (pw, tr) rest →
  (∃ pre, inp = pre ++ ILine "m" :: ILine pw :: ILine pw :: rest) ∨
  (∃ pre len c, inp = pre ++ ILine "y" :: rest ∧
     (last tr = Some (Shown len c pw) ∨ (last tr = Some (Impossible len c) ∧ pw = ""))).
Proof.
  intros ents inp pw tr rest Ht E. pose proof (getPassword_ok ents inp Ht) as H. rewrite E in H.
  destruct H as [_ [(pre & H & _)|H]]; [left; eauto|by right].
Qed.
Print Assumptions C65_result_partial.

(** Whatever is shown as a password is as set at that moment, or empty because
    none could be generated. *)
Theorem C65_shown_as_set_partial : ∀ ents inp pw tr rest len c p,
  tame inp →
  getPassword ents inp = UOk (pw, tr) rest →
  Shown len c p ∈ tr →
  meets len c (str_bytes p) ∨ (p = "" ∧ Impossible len c ∈ tr).
Proof.
  intros ents inp pw tr rest len c p Ht E Hin. pose proof (getPassword_ok ents inp Ht) as H. rewrite E in H.
  destruct H as [H _]. by apply H.
Qed.
Print Assumptions C65_shown_as_set_partial.

Theorem C65_no_crash_partial : ∀ ents inp, tame inp → getPassword ents inp ≠ UPanic.
Proof. intros ents inp Ht E. pose proof (getPassword_ok ents inp Ht) as H. by rewrite E in H. Qed.
Print Assumptions C65_no_crash_partial.

(** An error is one that was met while reading, or the random source failed. *)
Theorem C65_error_partial : ∀ ents inp e rest,
  tame inp →
  getPassword ents inp = UErr e rest →
  IErr e ∈ inp ∨ (e = EMsg "randomness" ∧ ∃ n, ents n = None).
Proof. intros ents inp e rest Ht E. pose proof (getPassword_ok ents inp Ht) as H. by rewrite E in H. Qed.
Print Assumptions C65_error_partial.

(** The settings do what the help text says: length and minima typed in one
    after the other are those of the password accepted. *)
Theorem C65_settings : ∀ ents len c rest,
  (0 < len < 256)%Z → (∀ n, is_Some (ents n)) →
  (∀ a n, (a, n) ∈ class_of c → (-100 < n < 256)%Z) →
  (minima c ≤ len)%Z → ¬ all_off c →
  ∃ pw tr, getPassword ents (
    [ILine (FormatInt len); ILine ("u " +:+ FormatInt (c_upper c)); ILine ("l " +:+ FormatInt (c_lower c));
     ILine ("n " +:+ FormatInt (c_numbers c)); ILine ("b " +:+ FormatInt (c_basic c));
     ILine ("e " +:+ FormatInt (c_extra c)); ILine "y"] ++ rest) = UOk (pw, tr) rest ∧
    meets len c (str_bytes pw) ∧ last tr = Some (Shown len c pw).
Proof.
  intros ents len c rest Hl Hent Hc Hm Hoff.
  pose proof (Hc alphabetUppercase (c_upper c) ltac:(left)). pose proof (Hc alphabetLowercase (c_lower c) ltac:(right; left)).
  pose proof (Hc alphabetNumbers (c_numbers c) ltac:(right; right; left)). pose proof (Hc alphabetBasicSymbols (c_basic c) ltac:(right; right; right; left)).
  pose proof (Hc alphabetExtraSymbols (c_extra c) ltac:(right; right; right; right; left)).
  apply getPassword_configured; try done; try lia. split; [split; [right; rewrite Z.mod_small; lia|lia]|]. lia.
Qed.
Print Assumptions C65_settings.

(** A letter alone switches its class off and on again. *)
Theorem C65_toggle : ∀ n k,
  setSetting [k] n = (if (0 <=? n)%Z then -1 else 0)%Z ∧
  (setSetting [k] (setSetting [k] n) = 0 ∨ setSetting [k] (setSetting [k] n) = -1)%Z.
Proof. intros n k. split; [done|]. cbn. destruct (0 <=? n)%Z; cbn; auto. Qed.
Print Assumptions C65_toggle.

Definition ex_ents : nat → option (nat → byte) := λ k, Some (λ n, to_byte (Z.of_nat (7 * n + k + 3))).
Example C65_example :
  match getPassword ex_ents [ILine "e"; ILine "6"; ILine " u  2 "; ILine "c"; ILine "m"; ILine "a"; ILine "b"; ILine "x"; ILine "y"] with
  | UOk (pw, tr) [] => String.length pw = 6%nat ∧ length tr = 8%nat
  | _ => False
  end.
Proof. vm_compute. done. Qed.

(** A line of blanks crashes the dialogue. *)
Theorem C65_blank_line_refuted : ∀ ents ent rest,
  ents 0%nat = Some ent →
  getPassword ents (ILine " " :: rest) = UPanic.
Proof.
  intros ents ent rest E. unfold getPassword. cbn [gp_loop]. unfold gp_top. rewrite E.
  assert (no_overflow 32 any_class) as Ho by (split; vm_compute; reflexivity).
  pose proof (genPassword_cases (Some ent) 32 any_class Ho) as H. cbn zeta in H.
  rewrite (decide_False (P := (32 < _)%Z)) in H by (vm_compute; discriminate). rewrite (decide_False (P := 32%Z = 0%Z)) in H by done.
  rewrite (decide_False (P := all_off _)) in H by (intros Ha; specialize (Ha alphabetUppercase 0%Z ltac:(left)); lia).
  rewrite decide_False in H by (vm_compute; discriminate). destruct H as (pw & -> & _). vm_compute. reflexivity.
Qed.
Print Assumptions C65_blank_line_refuted.

(** So does asking for 256 characters. *)
Theorem C65_length_refuted : ∀ ents rest,
  (∀ n, is_Some (ents n)) →
  getPassword ents (ILine "256" :: rest) = UPanic.
Proof.
  intros ents rest Hent. unfold getPassword.
  destruct (gp_step_len ents 0 32 any_class "" [] 256 rest) as (k & p & t & E); [|done|unfold in_int64; lia|].
  { split; [split; [right; vm_compute; discriminate|lia]|]. cbn. lia. }
  change (FormatInt 256) with "256" in E. rewrite E. destruct (Hent k) as [ent Ek].
  assert (genPassword (ents k) 256 any_class = Panic) as Hp.
  { rewrite Ek. assert (no_overflow 256 any_class) as Ho by (split; vm_compute; reflexivity).
    pose proof (genPassword_cases (Some ent) 256 any_class Ho) as H. cbn zeta in H.
    rewrite (decide_False (P := (256 < _)%Z)) in H by (vm_compute; discriminate). rewrite (decide_False (P := 256%Z = 0%Z)) in H by done.
    rewrite (decide_False (P := all_off _)) in H by (intros Ha; specialize (Ha alphabetUppercase 0%Z ltac:(left)); lia).
    by rewrite decide_True in H by (vm_compute; reflexivity). }
  destruct rest; cbn [gp_loop]; unfold gp_top; by rewrite Hp.
Qed.
Print Assumptions C65_length_refuted.

(** After settings that cannot be met, "y" hands out an empty password that was
    never shown, and "?" shows an empty one. *)
Theorem C65_impossible_accepted_refuted :
  ∃ ents inp tr tr' len c,
    getPassword ents (inp ++ [ILine "y"]) = UOk ("", tr) [] ∧ (∀ len c, Shown len c "" ∉ tr) ∧
    getPassword ents (inp ++ [ILine "?"; ILine "y"]) = UOk ("", tr') [] ∧ Shown len c "" ∈ tr' ∧ (0 < len)%Z.
Proof.
  exists ex_ents, [ILine "u 99"]. eexists _, _, 32%Z, {| c_upper := 99; c_lower := 0; c_numbers := 0; c_basic := 0; c_extra := 0 |}.
  split; [vm_compute; reflexivity|]. split.
  { intros len c Hin. apply elem_of_cons in Hin as [H|Hin]; [discriminate H|]. apply elem_of_cons in Hin as [H|Hin]; [discriminate H|]. by apply elem_of_nil in Hin. }
  split; [vm_compute; reflexivity|]. split; [|lia]. right. right. left.
Qed.
Print Assumptions C65_impossible_accepted_refuted.

(** ** C66 *)

(** What is missing: a text that ends in an empty line (see the refutation). *)
Theorem C66_typed_partial : ∀ pre t rest,
  ml_body pre → last pre ≠ Some "" → ml_end t →
  promptMultiline ((ILine <$> pre) ++ t ++ rest) = UOk (go_join newline pre) rest.
Proof. exact promptMultiline_typed. Qed.
Print Assumptions C66_typed_partial.

(** The empty line before the end is lost. *)
Theorem C66_last_blank_refuted : ∀ pre t rest,
  ml_body (pre ++ [""]) → t = ILine "." ∨ t = IErr EEnd →
  promptMultiline ((ILine <$> pre ++ [""]) ++ t :: rest) = UOk (go_join newline pre) rest.
Proof. exact promptMultiline_blank. Qed.
Print Assumptions C66_last_blank_refuted.

(** Conversely: what comes out was typed. *)
Theorem C66_result : ∀ inp s rest,
  promptMultiline inp = UOk s rest →
  ∃ pre t, inp = (ILine <$> pre) ++ t :: rest ∧ ml_body pre ∧
    (t = ILine "." ∨ t = IErr EEnd ∨ (t = ILine "" ∧ last pre = Some "")) ∧
    (s = go_join newline pre ∨ ∃ pre', pre = pre' ++ [""] ∧ s = go_join newline pre').
Proof.
  intros inp s rest E. pose proof (multiline_inv inp [] false) as H. unfold promptMultiline in E. rewrite E in H.
  destruct H as (pre & t & acc' & b' & -> & Hm & Ha & -> & Ht). cbn [b2l app] in *. exists pre, t. split; [done|].
  split; [done|]. split. { destruct Ht as [->|[->|[-> ->]]]; [auto..|]. right. right. split; [done|]. rewrite <-Ha. apply last_snoc. }
  destruct b'; cbn [b2l] in Ha; [right; by exists acc'|]. rewrite app_nil_r in Ha. subst. by left.
Qed.
Print Assumptions C66_result.

(** No crash, and only errors that were met; end of input is none. *)
Theorem C66_error : ∀ inp,
  promptMultiline inp ≠ UPanic ∧
  ∀ e rest, promptMultiline inp = UErr e rest → e ≠ EEnd ∧ ∃ pre, inp = (ILine <$> pre) ++ IErr e :: rest ∧ ml_body pre.
Proof.
  intros inp. pose proof (multiline_inv inp [] false) as H. unfold promptMultiline. destruct (multiline [] false inp) as [|e rest| |]; split; try done.
  intros e' rest' [= <- <-]. destruct H as (pre & -> & Hm & He). split; [done|]. by exists pre.
Qed.
Print Assumptions C66_error.

Example C66_example :
  let pre := ["first"; ""; "second"; "third"] in
  ml_body pre ∧ last pre ≠ Some "" ∧ ml_end [ILine ""; ILine ""] ∧
  promptMultiline ((ILine <$> pre) ++ [ILine ""; ILine ""; ILine "next"]) =
    UOk ("first" +:+ newline +:+ newline +:+ "second" +:+ newline +:+ "third") [ILine "next"].
Proof.
  cbv zeta. split.
  { repeat (apply ml_body_cons; split; [done|]; split; [naive_solver|]). apply ml_body_nil. }
  split; [done|]. split; [right; right; done|]. compute_dec.
Qed.

(** ** C68 *)

Theorem C68_string : ∀ inp s rest,
  getString inp = UOk s rest ↔ ∃ k, inp = replicate k (ILine "") ++ ILine s :: rest ∧ s ≠ "".
Proof. exact getString_spec. Qed.
Print Assumptions C68_string.

Theorem C68_menu : ∀ n inp i rest,
  getMenuChoice n inp = UOk i rest → (0 ≤ i < Z.of_nat n)%Z.
Proof. exact getMenuChoice_range. Qed.
Print Assumptions C68_menu.

Theorem C68_menu_typed : ∀ n i rest,
  (0 ≤ i < Z.of_nat n)%Z → (Z.of_nat n < 2 ^ 63)%Z →
  getMenuChoice n (ILine (FormatInt (i + 1)) :: rest) = UOk i rest.
Proof. exact getMenuChoice_typed. Qed.
Print Assumptions C68_menu_typed.

(** Numbers: the answer is the number typed, but the range announced is not
    checked. *)
Theorem C68_int_partial : ∀ lo hi z rest,
  in_int64 z → getInt lo hi (ILine (FormatInt z) :: rest) = UOk z rest.
Proof.
  intros lo hi z rest Hz. cbn [getInt]. destruct (numeral_FormatInt z) as [Hn _].
  rewrite length_0_empty, bool_decide_false by done. unfold Atoi. by rewrite ParseInt_FormatInt.
Qed.
Print Assumptions C68_int_partial.

Theorem C68_int_range_refuted : ∀ lo hi : Z,
  (0 ≤ hi < 2 ^ 63 - 1)%Z → ∃ z inp, getInt lo hi inp = UOk z [] ∧ (hi < z)%Z.
Proof.
  intros lo hi Hhi. exists (hi + 1)%Z, [ILine (FormatInt (hi + 1))]. split; [|lia]. apply C68_int_partial. unfold in_int64. lia.
Qed.
Print Assumptions C68_int_range_refuted.

Example C68_example :
  getString [ILine ""; ILine "a b"; ILine "c"] = UOk "a b" [ILine "c"] ∧
  getMenuChoice 3 [ILine "0"; ILine "4"; ILine "x"; ILine "3"] = UOk 2%Z [] ∧
  getInt 1 65535 [ILine ""; ILine "port"; ILine "70000"] = UOk 70000%Z [].
Proof. split; [compute_dec|]. split; compute_dec. Qed.
