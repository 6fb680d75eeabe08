(** Properties C47, C48 and C67: password generation. *)
From Verif Require Import Proof_PassGen2.
From Coq Require Import Lia.
From stdpp Require Import options.

(** ** C47 *)

(** Whatever the random bytes, a password that comes out is as asked for; this
    is true of every length. *)
Theorem C47_meets_request : ∀ ent len c pw,
  no_overflow len c →
  genPassword ent len c = Ok pw →
  meets len c pw.
Proof.
  intros ent len c pw Ho E. pose proof (genPassword_cases ent len c Ho) as H. cbn zeta in H. rewrite E in H.
  destruct (decide _) as [|Hge]; [done|]. destruct ent as [ent|]; [|done]. destruct (decide _) as [->|]; [injection H as ->; apply meets_nil; lia|].
  destruct (decide _); [done|]. destruct (decide _); [done|]. by destruct H as (pw' & [= ->] & H).
Qed.
Print Assumptions C47_meets_request.

(** Impossibility is reported exactly when the minima exceed the length, or all
    classes are off, something is asked for and the random source works.  What
    is missing: "exactly when ... all classes are off" (see the refutation). *)
Theorem C47_impossible_partial : ∀ ent len c,
  no_overflow len c →
  genPassword ent len c = Fail ENotEnoughSpace ↔
  (len < minima c)%Z ∨ (all_off c ∧ (0 < len)%Z ∧ is_Some ent).
Proof.
  intros ent len c Ho. pose proof (genPassword_cases ent len c Ho) as H. cbn zeta in H. pose proof (minima_nonneg c) as H0.
  destruct (decide _) as [Hlt|Hge]; [by split; auto|]. destruct ent as [ent|].
  - destruct (decide _) as [->|Hne]; [rewrite H; split; [done|intros [?|(_ & ? & _)]; lia]|].
    destruct (decide _) as [Hoff|Hon]; [rewrite H; split; [|done]; intros _; right; split; [done|split; [lia|eauto]]|].
    destruct (decide _); [rewrite H|destruct H as (pw & -> & _)]; (split; [done|]); intros [?|(? & _)]; done || lia.
  - rewrite H. split; [done|]. intros [?|(_ & _ & [? ?])]; [lia|done].
Qed.
Print Assumptions C47_impossible_partial.

(** With all classes off and length 0 the empty password is given out. *)
Theorem C47_all_off_refuted : ∀ ent c,
  all_off c → genPassword (Some ent) 0 c = Ok [].
Proof.
  intros ent c Hoff.
  assert (minima c = 0)%Z as Hm. { rewrite <-nums_pairs. apply pairs_nil in Hoff. by destruct (pairs c). }
  assert (no_overflow 0 c) as Ho by (split; lia). pose proof (genPassword_cases (Some ent) 0 c Ho) as H. cbn zeta in H.
  rewrite decide_False, decide_True in H by lia. done.
Qed.
Print Assumptions C47_all_off_refuted.

(** In all other cases there is a password (lengths up to 255). *)
Theorem C47_otherwise_generated : ∀ ent len c,
  no_overflow len c → (minima c ≤ len)%Z → (len < 256)%Z → ¬ all_off c →
  ∃ pw, genPassword (Some ent) len c = Ok pw.
Proof.
  intros ent len c Ho Hl H256 Hon. pose proof (genPassword_cases (Some ent) len c Ho) as H. cbn zeta in H. pose proof (minima_nonneg c).
  rewrite decide_False in H by lia. destruct (decide _); [by exists []|]. rewrite decide_False in H by done.
  rewrite decide_False in H; [destruct H as (pw & -> & _); eauto|]. rewrite Z.mod_small; lia.
Qed.
Print Assumptions C47_otherwise_generated.

Definition ex_ent : nat → byte := λ n, to_byte (Z.of_nat (7 * n + 3)).
Definition ex_classes : classes := {| c_upper := 2; c_lower := 0; c_numbers := 1; c_basic := -1; c_extra := 1 |}.

Example C47_example :
  no_overflow 8 ex_classes ∧ minima ex_classes = 4%Z ∧ ¬ all_off ex_classes ∧
  genPassword (Some ex_ent) 8 ex_classes = Ok (str_bytes "DK7)|a\c") ∧
  genPassword (Some ex_ent) 3 ex_classes = Fail ENotEnoughSpace.
Proof.
  split; [split; vm_compute; reflexivity|]. split; [vm_compute; reflexivity|]. split.
  { intros H. specialize (H alphabetLowercase 0%Z ltac:(right; left)). lia. }
  split; vm_compute; reflexivity.
Qed.

(** ** C48 *)

(** The exact condition.  What is missing from "never": see the refutations. *)
Theorem C48_no_crash_partial : ∀ ent len c,
  no_overflow len c →
  genPassword ent len c = Panic ↔
  is_Some ent ∧ (minima c ≤ len)%Z ∧ (0 < len)%Z ∧ (len mod 256 = 0)%Z ∧ ¬ all_off c.
Proof.
  intros ent len c Ho. pose proof (genPassword_cases ent len c Ho) as H. cbn zeta in H. pose proof (minima_nonneg c) as H0.
  destruct (decide _) as [Hlt|Hge]; [rewrite H; split; [done|lia]|]. destruct ent as [ent|]; [|rewrite H; split; [done|intros ([? ?] & _); done]].
  destruct (decide _) as [->|Hne]; [rewrite H; split; [done|lia]|].
  destruct (decide _) as [Hoff|Hon]; [rewrite H; split; [done|tauto]|].
  destruct (decide _) as [Hm|Hm]; [rewrite H; split; [|done]; intros _; split; [eauto|]; repeat split; lia || done|].
  destruct H as (pw & -> & _). split; [done|tauto].
Qed.
Print Assumptions C48_no_crash_partial.

Example C48_example :
  no_overflow 32 ex_classes ∧ genPassword (Some ex_ent) 32 ex_classes ≠ Panic ∧ genPassword (Some ex_ent) (-5) ex_classes ≠ Panic.
Proof. split; [split; vm_compute; reflexivity|]. split; vm_compute; discriminate. Qed.

(** Every multiple of 256 crashes ([length] is converted to a byte, and the
    remainder of a division by 0 taken). *)
Theorem C48_multiple_of_256_refuted : ∀ ent len,
  (0 < len)%Z → (3 * len < 2 ^ 63)%Z → (len mod 256 = 0)%Z →
  genPassword (Some ent) len {| c_upper := 0; c_lower := 0; c_numbers := 0; c_basic := 0; c_extra := 0 |} = Panic.
Proof.
  intros ent len H0 H1 H2. apply C48_no_crash_partial; [split; [vm_compute; reflexivity|done]|].
  split; [eauto|]. split; [change (0 ≤ len)%Z; lia|]. split; [done|]. split; [done|].
  intros H. specialize (H alphabetUppercase 0%Z ltac:(left)). lia.
Qed.
Print Assumptions C48_multiple_of_256_refuted.

(** So does asking for so much that the sum of the minima wraps around. *)
Theorem C48_overflow_refuted : ∀ ent len,
  (0 ≤ len ≤ 1000000)%Z →
  genPassword (Some ent) len
    {| c_upper := 2 ^ 63 - 1; c_lower := 2 ^ 63 - 1; c_numbers := 0; c_basic := 0; c_extra := 0 |} = Panic.
Proof. exact overflow_panic. Qed.
Print Assumptions C48_overflow_refuted.

(** ** C67 *)

(** No password that meets the request is ruled out (for the lengths for which
    generation does not crash and every position can be reached by a byte). *)
Theorem C67_complete : ∀ len c pw,
  no_overflow len c → (len < 256)%Z →
  meets len c pw →
  ∃ ent, genPassword (Some ent) len c = Ok pw.
Proof. exact genPassword_complete. Qed.
Print Assumptions C67_complete.

Example C67_example :
  no_overflow 4 ex_classes ∧ meets 4 ex_classes (str_bytes "Z0(Z").
Proof.
  split; [split; vm_compute; reflexivity|]. split; [vm_compute; reflexivity|]. split.
  - intros a n Hin. unfold class_of in Hin.
    repeat (apply elem_of_cons in Hin as [[= -> ->]|Hin]; [split; [vm_compute; discriminate|intros; vm_compute; reflexivity || (vm_compute in *; done)]|]).
    by apply elem_of_nil in Hin.
  - intros x Hx. cbn [str_bytes String.list_ascii_of_string] in Hx.
    apply elem_of_cons in Hx as [->|Hx]; [exists alphabetUppercase, 2%Z; split; [compute_dec|]; split; [lia|compute_dec]|].
    apply elem_of_cons in Hx as [->|Hx]; [exists alphabetNumbers, 1%Z; split; [compute_dec|]; split; [lia|compute_dec]|].
    apply elem_of_cons in Hx as [->|Hx]; [exists alphabetExtraSymbols, 1%Z; split; [compute_dec|]; split; [lia|compute_dec]|].
    apply elem_of_cons in Hx as [->|Hx]; [exists alphabetUppercase, 2%Z; split; [compute_dec|]; split; [lia|compute_dec]|].
    by apply elem_of_nil in Hx.
Qed.
