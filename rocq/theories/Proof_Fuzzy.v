(** Fuzzy matching is subsequence matching. *)
From Verif Require Import Proof_GoStr.
From Verif Require Export Proof_Utf8.
From Coq Require Import Lia.
From stdpp Require Import options.

Lemma stands_for_b lower c r :
  ((c =? r)%Z || (c =? lower r)%Z) = true ↔ stands_for lower c r.
Proof. unfold stands_for. rewrite orb_true_iff, !Z.eqb_eq. done. Qed.

Lemma find_rune_some lower c off rs i r :
  find_rune lower c (enc_range off rs) = Some (i, r) →
  ∃ pre post, rs = pre ++ r :: post ∧ i = (off + rlen pre)%nat ∧ stands_for lower c r ∧
    Forall (λ x, ¬ stands_for lower c x) pre.
Proof.
  revert off. induction rs as [|x rs IH]; intros off; simpl; [done|].
  destruct ((c =? x)%Z || (c =? lower x)%Z) eqn:E.
  - intros [= <- <-]. apply stands_for_b in E. exists [], rs. simpl. repeat split; auto; lia.
  - intros H. apply IH in H as (pre & post & -> & -> & Hs & Hp).
    exists (x :: pre), post. simpl. split; [done|]. split; [lia|]. split; [done|].
    constructor; [|done]. rewrite <-stands_for_b, E. done.
Qed.

Lemma find_rune_none lower c off rs :
  find_rune lower c (enc_range off rs) = None → Forall (λ x, ¬ stands_for lower c x) rs.
Proof.
  revert off. induction rs as [|x rs IH]; intros off; simpl; [constructor|].
  destruct ((c =? x)%Z || (c =? lower x)%Z) eqn:E; [done|].
  intros H. constructor; [by rewrite <-stands_for_b, E|by eapply IH].
Qed.

Lemma embeds_cons_inv {A B} (R : A → B → Prop) c q s : embeds R (c :: q) s →
  ∃ pre r post, s = pre ++ r :: post ∧ R c r ∧ embeds R q post.
Proof.
  remember (c :: q) as cq eqn:E. intros H. revert c q E.
  induction H as [s|c0 q0 r s HR H IH|q0 r s H IH]; intros c q E; simplify_eq.
  - by exists [], r, s.
  - destruct (IH c q eq_refl) as (pre & r' & post & -> & HR & Hq). by exists (r :: pre), r', post.
Qed.

Lemma embeds_app_l {A B} (R : A → B → Prop) q a s : embeds R q s → embeds R q (a ++ s).
Proof. induction a; [done|]. intros. simpl. constructor. auto. Qed.

(** The greedy choice is safe. *)
Lemma embeds_greedy {A B} (R : A → B → Prop) c q pre r post :
  Forall (λ x, ¬ R c x) pre → R c r →
  (embeds R (c :: q) (pre ++ r :: post) ↔ embeds R q post).
Proof.
  intros Hp Hr. split.
  - intros (p2 & r2 & s2 & E & HR & Hq)%embeds_cons_inv.
    destruct (decide (length p2 < length pre)%nat) as [Hlt|Hge].
    + exfalso. assert ((pre ++ r :: post) !! length p2 = Some r2) as Hl
        by (rewrite E, lookup_app_r, Nat.sub_diag; done).
      rewrite lookup_app_l in Hl by done. apply elem_of_list_lookup_2 in Hl.
      rewrite Forall_forall in Hp. by eapply Hp.
    + assert (post = drop (length pre + 1) (pre ++ r :: post)) as Hd.
      { rewrite drop_app_ge by lia. replace (length pre + 1 - length pre)%nat with 1%nat by lia. done. }
      rewrite Hd, E.
      destruct (decide (length p2 = length pre)) as [He|Hn].
      * rewrite drop_app_ge by lia. replace (length pre + 1 - length p2)%nat with 1%nat by lia. done.
      * rewrite drop_app_le by lia. apply embeds_app_l. by constructor.
  - intros Hq. apply embeds_app_l. by constructor.
Qed.

Lemma embeds_none {A B} (R : A → B → Prop) c q s : Forall (λ x, ¬ R c x) s → ¬ embeds R (c :: q) s.
Proof.
  intros Hs (pre & r & post & -> & HR & _)%embeds_cons_inv.
  rewrite Forall_forall in Hs. eapply Hs; [|exact HR]. set_solver.
Qed.

Lemma match_loop_encode lower q : ∀ rs, Forall (λ r, valid_rune r = true) rs →
  ∃ b, match_loop lower (encode rs) q = Ok b ∧ (b = true ↔ embeds (stands_for lower) q rs).
Proof.
  induction q as [|c q IH]; intros rs Hv; simpl.
  - exists true. split; [done|]. split; [constructor|done].
  - unfold go_range. rewrite go_range_encode by done.
    destruct (find_rune lower c (enc_range 0 rs)) as [[i r]|] eqn:E.
    + apply find_rune_some in E as (pre & post & -> & -> & Hs & Hp). simpl.
      apply Forall_app in Hv as [Hv1 Hv2]. inversion Hv2 as [|? ? Hr Hv3]; subst.
      assert (RuneLen r + rlen pre = String.length (encode (pre ++ [r])))%nat as ->.
      { rewrite encode_app, sapp_length, encode_len by done. simpl. rewrite sapp_nil.
        rewrite encode_rune_length by done. lia. }
      replace (encode (pre ++ r :: post)) with (encode (pre ++ [r]) +:+ encode post)
        by (rewrite <-encode_app, <-app_assoc; done).
      rewrite str_drop_app. destruct (IH post Hv3) as (b & Hb & Hiff).
      exists b. split; [done|]. rewrite Hiff. symmetry. by apply embeds_greedy.
    + apply find_rune_none in E. exists false. split; [done|]. split; [done|].
      intros H. by apply (embeds_none _ _ _ _ E) in H.
Qed.

Lemma rlen_embeds lower q rs : embeds (stands_for lower) q rs →
  (∀ r, r ∈ rs → (RuneLen (lower r) ≤ RuneLen r)%nat) → (rlen q ≤ rlen rs)%nat.
Proof.
  induction 1 as [s|c q r s HR H IH|q r s H IH]; intros Hf; simpl.
  - lia.
  - assert (RuneLen c ≤ RuneLen r)%nat.
    { destruct HR as [-> | ->]; [done|]. apply Hf. left. }
    assert (rlen q ≤ rlen s)%nat by (apply IH; intros; apply Hf; by right). fold (rlen q) (rlen s). lia.
  - assert (rlen q ≤ rlen s)%nat by (apply IH; intros; apply Hf; by right). fold (rlen s). lia.
Qed.

Lemma embeds_refl lower rs : embeds (stands_for lower) rs rs.
Proof. induction rs; constructor; auto. by left. Qed.

Lemma Match_spec lower s q : valid_utf8 s → lower_fits lower s →
  ∃ b, Match lower s q = Ok b ∧ (b = true ↔ embeds (stands_for lower) (runes q) (runes s)).
Proof.
  intros (rs & Hv & ->) Hf. unfold lower_fits in Hf. rewrite runes_encode in * by done.
  unfold Match.
  destruct (String.length (encode rs) <? String.length q)%nat eqn:E1.
  - exists false. split; [done|]. split; [done|]. intros He. apply Nat.ltb_lt in E1.
    apply rlen_embeds in He; [|done]. pose proof (runes_len q). rewrite encode_len in E1 by done. lia.
  - destruct (_ && String.eqb (encode rs) q) eqn:E2.
    + apply andb_true_iff in E2 as [_ E2]. apply String.eqb_eq in E2 as <-.
      exists true. split; [done|]. rewrite runes_encode by done. split; [|done]. intros _. apply embeds_refl.
    + by apply match_loop_encode.
Qed.

(** Never a panic nor a false positive, whatever the lower-casing does, on
    valid UTF-8. *)
Lemma Match_sound lower s q : valid_utf8 s →
  ∃ b, Match lower s q = Ok b ∧ (b = true → embeds (stands_for lower) (runes q) (runes s)).
Proof.
  intros (rs & Hv & ->). unfold Match.
  destruct (String.length (encode rs) <? String.length q)%nat eqn:E1; [by exists false|].
  destruct (_ && String.eqb (encode rs) q) eqn:E2.
  - apply andb_true_iff in E2 as [_ E2]. apply String.eqb_eq in E2 as <-.
    exists true. split; [done|]. intros _. apply embeds_refl.
  - destruct (match_loop_encode lower (runes q) rs Hv) as (b & Hb & Hi). exists b. split; [done|].
    rewrite runes_encode by done. apply Hi.
Qed.

(** Deciding the hypotheses of examples. *)
Lemma valid_utf8_runes s : encode (runes s) = s → valid_utf8 s.
Proof. intros H. exists (runes s). split; [apply runes_valid|done]. Qed.

(** ASCII strings are valid and, with any lower-casing that maps ASCII to ASCII
    (as Go's does), lower-case in place. *)
Definition ascii_str (s : string) : Prop := ∀ c, c ∈ String.list_ascii_of_string s → (byteZ c < 128)%Z.

Lemma ascii_valid s : ascii_str s → valid_utf8 s ∧ runes s = byteZ <$> String.list_ascii_of_string s.
Proof.
  intros Ha. set (l := byteZ <$> String.list_ascii_of_string s).
  assert (Forall (λ r, valid_rune r = true) l) as Hv.
  { apply Forall_fmap, Forall_forall. intros c Hc. simpl. apply valid_rune_spec.
    specialize (Ha c Hc). pose proof (byteZ_range c). lia. }
  assert (s = encode l) as E.
  { unfold l. clear l Hv. induction s as [|c s IH]; [done|].
    change (String c s = encode_rune (byteZ c) +:+ encode (byteZ <$> String.list_ascii_of_string s)).
    assert (valid_rune (byteZ c) = true) as Hc.
    { apply valid_rune_spec. specialize (Ha c ltac:(left)). pose proof (byteZ_range c). lia. }
    rewrite <-IH by (intros x Hx; apply Ha; by right).
    unfold encode_rune, encode_valid. rewrite Hc.
    replace (byteZ c <=? 127)%Z with true by (specialize (Ha c ltac:(left)); lia).
    simpl. by rewrite Zbyte_byteZ. }
  split; [by exists l|]. rewrite E at 1. by apply runes_encode.
Qed.

Lemma ascii_lower_fits lower s : (∀ r, (0 ≤ r < 128)%Z → (0 ≤ lower r < 128)%Z) →
  ascii_str s → lower_fits lower s.
Proof.
  intros Hl Ha r Hr. rewrite (proj2 (ascii_valid s Ha)) in Hr.
  apply elem_of_list_fmap in Hr as (c & -> & Hc). specialize (Ha c Hc). pose proof (byteZ_range c).
  specialize (Hl (byteZ c)).
  assert (∀ x, (0 ≤ x < 128)%Z → RuneLen x = 1%nat) as H1.
  { intros x Hx. unfold RuneLen. replace (x <? 0)%Z with false by lia. by replace (x <=? 127)%Z with true by lia. }
  rewrite !H1 by lia. done.
Qed.
