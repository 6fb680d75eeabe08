(** Matching depends on the lower case of the letters that occur only. *)
From Verif Require Import Spec_Fuzzy Proof_GoStr Proof_Fuzzy Model_Fold.
From Coq Require Import Lia.
From stdpp Require Import options.
#[local] Open Scope nat_scope.

Lemma find_ext l1 l2 c rs : (∀ r, r ∈ rs.*2 → l1 r = l2 r) → find_rune l1 c rs = find_rune l2 c rs.
Proof.
  induction rs as [|[i r] rs IH]; intros H; [done|]. cbn. rewrite (H r) by left.
  destruct (_ || _); [done|]. apply IH. intros x Hx. apply H. by right.
Qed.

Lemma ascii_drop n s s' : ascii_str s → str_drop n s = Ok s' → ascii_str s'.
Proof.
  intros Ha E. destruct (decide (n ≤ String.length s)) as [Hn|Hn].
  - destruct (str_drop_ok n s Hn) as (a & b & -> & _ & E'). rewrite E' in E. injection E as <-.
    intros c Hc. apply Ha. clear -Hc. induction a as [|x a IH]; [done|]. cbn. right. exact IH.
  - rewrite str_drop_panic in E by lia. discriminate.
Qed.

Lemma loop_ext l1 l2 : (∀ r, (0 ≤ r < 128)%Z → l1 r = l2 r) → ∀ q s, ascii_str s → match_loop l1 s q = match_loop l2 s q.
Proof.
  intros H. induction q as [|c q IH]; intros s Ha; [done|]. cbn.
  rewrite (find_ext l1 l2).
  2:{ intros r Hr. apply H. change (r ∈ runes s) in Hr. rewrite (proj2 (ascii_valid s Ha)) in Hr.
      apply elem_of_list_fmap in Hr as (x & -> & Hx). specialize (Ha x Hx). pose proof (byteZ_range x). lia. }
  destruct (find_rune l2 c (go_range s)) as [[i r]|]; [|done].
  destruct (str_drop (RuneLen r + i) s) as [s'|e|] eqn:E; [|done|done]. apply IH. by eapply ascii_drop.
Qed.

Lemma Match_ext l1 l2 s q : (∀ r, (0 ≤ r < 128)%Z → l1 r = l2 r) → ascii_str s → Match l1 s q = Match l2 s q.
Proof. intros H Ha. unfold Match. by rewrite (loop_ext l1 l2). Qed.

Lemma ToLower_ext l1 l2 s : (∀ r, (0 ≤ r < 128)%Z → l1 r = l2 r) → ascii_str s → ToLower l1 s = ToLower l2 s.
Proof.
  intros H Ha. unfold ToLower. f_equal. apply list_fmap_ext. intros i r Hr. apply elem_of_list_lookup_2 in Hr.
  apply H. rewrite (proj2 (ascii_valid s Ha)) in Hr. apply elem_of_list_fmap in Hr as (x & -> & Hx). specialize (Ha x Hx). pose proof (byteZ_range x). lia.
Qed.

Lemma ascii_by s : forallb (λ c, (byteZ c <? 128)%Z) (String.list_ascii_of_string s) = true → ascii_str s.
Proof. rewrite forallb_forall. intros H c Hc. apply Z.ltb_lt, H. by apply elem_of_list_In. Qed.
