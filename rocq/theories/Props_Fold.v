(** C37: fuzzy matching that ignores case. *)
From Verif Require Import Model_Fold Spec_Fuzzy Proof_Fuzzy.
From Coq Require Import Lia.
From stdpp Require Import options.

(** What is known of unicode.ToLower. *)
Definition lower_ok (lower : Z → Z) : Prop :=
  (∀ r, valid_rune r = true → valid_rune (lower r) = true) ∧ (∀ r, lower (lower r) = lower r).

Lemma embeds_weaken {A B} (R R' : A → B → Prop) q s : (∀ c r, r ∈ s → R c r → R' c r) → embeds R q s → embeds R' q s.
Proof.
  intros H E. revert H. induction E as [s|c q r s Hr E IH|q r s E IH]; intros H.
  - constructor.
  - constructor; [apply H; [by left|done]|]. apply IH. intros c' r' Hin. apply H. by right.
  - apply embeds_skip, IH. intros c' r' Hin. apply H. by right.
Qed.

(** MatchFold is exact and never crashes, for all texts: the lower case of the
    query's characters occurs in that of the name, in order. *)
Theorem C37_fold : ∀ lower s q, lower_ok lower →
  ∃ b, MatchFold lower s q = Ok b ∧ (b = true ↔ embeds eq (lower <$> runes q) (lower <$> runes s)).
Proof.
  intros lower s q [HV HI]. assert (∀ x, Forall (λ r, valid_rune r = true) (lower <$> runes x)) as V.
  { intros x. apply Forall_fmap. eapply Forall_impl; [apply runes_valid|]. exact HV. }
  assert (∀ x, runes (ToLower lower x) = lower <$> runes x) as E by (intros x; by apply runes_encode).
  destruct (Match_spec lower (ToLower lower s) (ToLower lower q)) as (b & Hb & Hiff).
  { by exists (lower <$> runes s). }
  { intros r Hr. rewrite E in Hr. apply elem_of_list_fmap in Hr as (r' & -> & _). by rewrite HI. }
  exists b. split; [exact Hb|]. rewrite Hiff, !E. split; apply embeds_weaken.
  - intros c r Hr [->| ->]; [done|]. apply elem_of_list_fmap in Hr as (r' & -> & _). apply HI.
  - intros c r _ ->. by left.
Qed.
Print Assumptions C37_fold.

(** Whatever Match finds MatchFold finds too (on well-formed text). *)
Theorem C37_fold_more : ∀ lower s q, lower_ok lower → valid_utf8 s →
  Match lower s q = Ok true → MatchFold lower s q = Ok true.
Proof.
  intros lower s q HL Hs H. destruct (C37_fold lower s q HL) as (b & Hb & Hiff). rewrite Hb. f_equal. apply Hiff.
  destruct (Match_sound lower s q Hs) as (b' & Hb' & Hi). rewrite H in Hb'. injection Hb' as <-. specialize (Hi eq_refl).
  clear -Hi HL. induction Hi as [s0|c q0 r s0 Hr E IH|q0 r s0 E IH]; [constructor| |by apply embeds_skip].
  constructor; [|done]. destruct HL as [_ HI]. destruct Hr as [->| ->]; [done|apply HI].
Qed.
Print Assumptions C37_fold_more.

Lemma toy_lower_ok : lower_ok toy_lower.
Proof.
  split; intros r; unfold toy_lower.
  - intros H. destruct (inr 65 90 r) eqn:E.
    + unfold inr in E. apply andb_true_iff in E as [E1 E2]. apply Z.leb_le in E1, E2. unfold valid_rune, inr in *. lia.
    + destruct (r =? 570)%Z; [done|]. by destruct (r =? 574)%Z.
  - destruct (inr 65 90 r) eqn:E.
    + unfold inr in *. apply andb_true_iff in E as [E1 E2]. apply Z.leb_le in E1, E2.
      replace ((65 <=? r + 32) && (r + 32 <=? 90))%Z with false by (symmetry; apply andb_false_iff; right; apply Z.leb_gt; lia).
      by replace (r + 32 =? 570)%Z with false by lia; replace (r + 32 =? 574)%Z with false by lia.
    + destruct (r =? 570)%Z eqn:E1; [done|]. destruct (r =? 574)%Z eqn:E2; [done|]. by rewrite E, E1, E2.
Qed.
Example C37_fold_example : lower_ok toy_lower ∧ MatchFold toy_lower "Work/Email" "WKE" = Ok true ∧
  Match toy_lower "Work/Email" "WKE" = Ok false ∧ MatchFold toy_lower (bytes_str [97; 255]%Z) (bytes_str [255]%Z) = Ok true.
Proof. split; [exact toy_lower_ok|]. split; [|split]; compute_dec. Qed.
