(** C97: the text that show prints. *)
From Verif Require Import Spec_Layout Proof_GoStr Proof_Utf8 Proof_Text Proof_Trim Proof_Export Proof_SessionEx Proof_Layout Proof_Repl6 Props_Repl Props_Text.
From Coq Require Import Lia.
From stdpp Require Import options.
Import Model_GoStr.
#[local] Open Scope nat_scope.

(** The width is at least that of every key. *)
Theorem C97_width : ∀ keys, 8 ≤ show_width keys ∧ (∀ k, k ∈ keys → String.length k ≤ show_width keys) ∧
  (show_width keys = 8 ∨ ∃ k, k ∈ keys ∧ show_width keys = S (String.length k)).
Proof. intros keys. destruct (width_le keys 8) as [H1 H2]. split; [exact H1|]. split; [exact H2|]. exact (width_is keys 8). Qed.
Print Assumptions C97_width.
(** A value begins three columns after the width, or after its key if that is longer. *)
Theorem C97_column : ∀ width k v, utf8 k → (Z.of_nat width ≤ 1000000)%Z → begins_at (showKeyValue id k v width 2) v (3 + Nat.max width (rune_count k + 1)).
Proof. exact row_at. Qed.
Print Assumptions C97_column.
Theorem C97_one_column : ∀ line v c c', begins_at line v c → begins_at line v c' → c = c'.
Proof. exact begins_one. Qed.
Print Assumptions C97_one_column.

(** So all values are in one column.  Missing: keys as long as the width, refuted
    below. *)
Theorem C97_columns_partial : ∀ keys k v, k ∈ keys → utf8 k → String.length k ≠ show_width keys → (Z.of_nat (show_width keys) ≤ 1000000)%Z →
  begins_at (showKeyValue id k v (show_width keys) 2) v (3 + show_width keys).
Proof.
  intros keys k v Hk Hu Hn Hw. destruct (C97_width keys) as (_ & H & _). specialize (H k Hk). pose proof (count_le k Hu).
  replace (3 + show_width keys) with (3 + Nat.max (show_width keys) (rune_count k + 1)) by lia. by apply row_at.
Qed.
Print Assumptions C97_columns_partial.
(** Such a key moves its value by one column. *)
Theorem C97_columns_refuted : ∀ keys k v, k ∈ keys → utf8 k → rune_count k = show_width keys → (Z.of_nat (show_width keys) ≤ 1000000)%Z →
  begins_at (showKeyValue id k v (show_width keys) 2) v (4 + show_width keys).
Proof.
  intros keys k v Hk Hu Hn Hw. replace (4 + show_width keys) with (3 + Nat.max (show_width keys) (rune_count k + 1)) by lia. by apply row_at.
Qed.
Print Assumptions C97_columns_refuted.
Example C97_columns_example : show_text id id (show_width ["name"; "passcode"; "user"]) [Row "name" "mail"; Row "user" "bob"; Row "passcode" "1234"] =
  "  name:    mail" +:+ nl +:+ "  user:    bob" +:+ nl +:+ "  passcode: 1234" +:+ nl.
Proof. vm_compute. reflexivity. Qed.
(** The width depends on the order in which Go ranges over the map, so one entry is
    shown in two ways. *)
Theorem C97_order_refuted : ∃ keys keys', keys ≡ₚ keys' ∧ show_width keys = 10 ∧ show_width keys' = 11 ∧
  show_text id id (show_width keys) [Row "user" "bob"] ≠ show_text id id (show_width keys') [Row "user" "bob"].
Proof.
  exists ["user"; "recovery1"; "recovery12"], ["user"; "recovery12"; "recovery1"]. split; [apply perm_skip, perm_swap|].
  split; [vm_compute; reflexivity|]. split; [vm_compute; reflexivity|]. intros E. vm_compute in E. discriminate E.
Qed.
Print Assumptions C97_order_refuted.
(** With a key of a million bytes and more fmt does not take the width. *)
Theorem C97_bad_width_refuted : ∀ width k v, (1000000 < Z.of_nat width)%Z → showKeyValue id k v width 2 = "  %!(BADWIDTH)" +:+ k +:+ ": " +:+ v +:+ nl.
Proof. intros width k v H. unfold showKeyValue, pad_right, id. apply Z.ltb_lt in H as ->. rewrite !sapp_assoc. reflexivity. Qed.
Print Assumptions C97_bad_width_refuted.

(** A value of several lines is shown below its key, each line after four blanks.
    Missing: white space around it, which is not shown (refuted). *)
Theorem C97_multi_partial : ∀ k v width, tight v → showMultiline id k v width 2 = gap 2 +:+ pad_right width (k +:+ ":") +:+ nl +:+ indented 4 (split_on (Zbyte 10) v).
Proof. exact multi_lines. Qed.
Print Assumptions C97_multi_partial.
Theorem C97_multi_refuted : ∀ k width, showMultiline id k ("a" +:+ nl +:+ "b") width 2 = showMultiline id k (nl +:+ "  a" +:+ nl +:+ "b" +:+ nl +:+ nl) width 2.
Proof. intros k width. unfold showMultiline. do 3 f_equal. Qed.
Print Assumptions C97_multi_refuted.
Example C97_multi_example : tight ("a" +:+ nl +:+ nl +:+ "  b") ∧ showMultiline id "notes" ("a" +:+ nl +:+ nl +:+ "  b") 8 2 = "  notes:  " +:+ nl +:+ "    a" +:+ nl +:+ "    " +:+ nl +:+ "      b" +:+ nl.
Proof.
  split; [|vm_compute; reflexivity].
  replace ("a" +:+ nl +:+ nl +:+ "  b") with (TrimSpace ("a" +:+ nl +:+ nl +:+ "  b")) by (vm_compute; reflexivity).
  by destruct (TrimSpace_spec ("a" +:+ nl +:+ nl +:+ "  b")) as (_ & _ & _ & _ & _ & H).
Qed.

(** What is printed can be read in one way only: the keys and values can be told from
    it.  Missing: keys with a colon or end of line or with a blank in front, and ends of
    lines in a passphrase or in labels, refuted below. *)
Theorem C97_readable_partial : ∀ width l l', (Z.of_nat width ≤ 1000000)%Z → Forall legible l → Forall legible l' →
  show_text id id width l = show_text id id width l' → l = l'.
Proof. intros width l l' Hw Hl Hl'. by apply text_inj. Qed.
Print Assumptions C97_readable_partial.
(** A passphrase with an end of line in it looks like further keys, and so do labels. *)
Theorem C97_forged_refuted : ∀ width p x, showHidden id id "pass" (p +:+ nl +:+ x) width 2 = showHidden id id "pass" p width 2 +:+ x +:+ nl.
Proof. intros width p x. unfold showHidden, id. rewrite !sapp_assoc. reflexivity. Qed.
Print Assumptions C97_forged_refuted.
Theorem C97_forged_labels_refuted : ∀ w b p x width, b !! "labels" = Some (p +:+ nl +:+ x) → lacks (Zbyte 44) p → lacks (Zbyte 44) x →
  ∃ o, show_key w b "labels" = Ok o ∧ show_text id id width o = showKeyValue id "labels" p width 2 +:+ x +:+ nl.
Proof.
  intros w b p x width Hb Hp Hx. eexists. split; [unfold show_key; rewrite Hb; exact eq_refl|]. unfold spaced. rewrite split_on_lacks by (apply lacks_app; split; [done|by split]).
  unfold show_text. cbn [go_join fmap list_fmap show_line]. unfold showKeyValue, id. rewrite !sapp_assoc. reflexivity.
Qed.
Print Assumptions C97_forged_labels_refuted.
Theorem C97_entries_refuted : ∃ b b' t, b ≠ b' ∧ show_printed id id ex_world b 0 0 = Ok t ∧ show_printed id id ex_world b' 0 0 = Ok t.
Proof.
  exists (<["name" := "mail"]> (<["pass" := "x"]> (<["zz" := "1"]> (∅ : entry)))), (<["name" := "mail"]> (<["pass" := "x" +:+ nl +:+ "  zz:      1"]> (∅ : entry))).
  exists ("  name:    mail" +:+ nl +:+ "  pass:    x" +:+ nl +:+ "  zz:      1" +:+ nl). split; [|split; vm_compute; reflexivity].
  intros E. apply (f_equal (λ b, b !! "zz")) in E. vm_compute in E. discriminate E.
Qed.
Print Assumptions C97_entries_refuted.
Example C97_readable_example : Forall legible [Row "name" "mail"; Hidden "pass" "x"; Multi "notes" ("a" +:+ nl +:+ nl +:+ "  b"); Row "zz" " 1: 2"].
Proof.
  constructor; [|constructor; [|constructor; [|constructor; [|constructor]]]]; cbn [legible].
  - split; [split; [by eexists _, _|]|]; vm_compute; repeat split; discriminate.
  - vm_compute; repeat split; discriminate.
  - split; [split; [by eexists _, _|]; vm_compute; repeat split; discriminate|]. split; [discriminate|]. split; [|apply C97_multi_example].
    vm_compute. by intros (_ & [] & _).
  - split; [split; [by eexists _, _|]|]; vm_compute; repeat split; discriminate.
Qed.

(** rekeyall: the passwords are in one column exactly if all users' names are equally
    long. *)
Theorem C97_rekey_partial : ∀ users u pass, (∀ x, x ∈ users → utf8 x ∧ rune_count x = rekey_width users) → u ∈ users → (Z.of_nat (rekey_width users) ≤ 1000000)%Z →
  begins_at (rekey_line (rekey_width users) u pass) pass (2 + rekey_width users).
Proof.
  intros users u pass H Hu Hw. destruct (H u Hu) as [H1 H2]. replace (2 + rekey_width users) with (1 + Nat.max (rekey_width users) (rune_count u + 1)) by lia. by apply rekey_at.
Qed.
Print Assumptions C97_rekey_partial.
Theorem C97_rekey_refuted : ∀ users, users ≠ [] → (∀ x, x ∈ users → utf8 x ∧ rune_count x = String.length x) → (Z.of_nat (rekey_width users) ≤ 1000000)%Z →
  (∃ x y, x ∈ users ∧ y ∈ users ∧ String.length x ≠ String.length y) →
  ∃ u v, u ∈ users ∧ v ∈ users ∧ ∀ p q, begins_at (rekey_line (rekey_width users) u p) p (1 + rekey_width users) ∧ begins_at (rekey_line (rekey_width users) v q) q (2 + rekey_width users).
Proof.
  intros users Hne HU Hw (x & y & Hx & Hy & Hxy). destruct (rekey_le users 0) as (_ & H2 & H3). fold (rekey_width users) in H2, H3.
  assert (∃ v, v ∈ users ∧ rekey_width users = String.length v) as (v & Hv & Ev).
  { destruct H3 as [H3|H3]; [|done]. exists x. split; [done|]. pose proof (H2 x Hx). lia. }
  assert (∃ u, u ∈ users ∧ String.length u < rekey_width users) as (u & Hu & Lu).
  { pose proof (H2 x Hx). pose proof (H2 y Hy). destruct (decide (String.length x < rekey_width users)); [by exists x|exists y; split; [done|lia]]. }
  exists u, v. split; [done|]. split; [done|]. intros p q. destruct (HU u Hu) as [U1 U2], (HU v Hv) as [V1 V2].
  pose proof (rekey_at (rekey_width users) u p U1 Hw) as A. pose proof (rekey_at (rekey_width users) v q V1 Hw) as B.
  replace (Nat.max (rekey_width users) (rune_count u + 1)) with (rekey_width users) in A by lia.
  replace (1 + Nat.max (rekey_width users) (rune_count v + 1)) with (2 + rekey_width users) in B by lia. done.
Qed.
Print Assumptions C97_rekey_refuted.
Example C97_rekey_example : rekey_line (rekey_width ["al"; "bob"]) "al" "x" = "al: x" +:+ nl ∧ rekey_line (rekey_width ["al"; "bob"]) "bob" "y" = "bob: y" +:+ nl.
Proof. by vm_compute. Qed.
