(** Decoding inverts encoding; [range] over a string. *)
From Verif Require Import Proof_GoStr.
From Verif Require Export Model_GoStr Spec_Fuzzy.
From Coq Require Import Lia.
From stdpp Require Import options.

Lemma valid_rune_spec r : valid_rune r = true ↔ (0 ≤ r ≤ 55295 ∨ 57344 ≤ r ≤ 1114111)%Z.
Proof. unfold valid_rune, inr. rewrite orb_true_iff, !andb_true_iff. lia. Qed.

Lemma inr_true lo hi x : (lo ≤ x ≤ hi)%Z → inr lo hi x = true.
Proof. unfold inr. rewrite andb_true_iff. lia. Qed.
Lemma inr_spec lo hi x : inr lo hi x = true ↔ (lo ≤ x ≤ hi)%Z.
Proof. unfold inr. rewrite andb_true_iff. lia. Qed.
Lemma inr_false lo hi x : (x < lo ∨ hi < x)%Z → inr lo hi x = false.
Proof. intros. apply not_true_iff_false. rewrite inr_spec. lia. Qed.

Lemma RuneLen_spec r : (0 ≤ r)%Z → valid_rune r = true →
  RuneLen r = if (r <=? 127)%Z then 1%nat else if (r <=? 2047)%Z then 2%nat else if (r <=? 65535)%Z then 3%nat else 4%nat.
Proof.
  intros H0 Hr. apply valid_rune_spec in Hr. unfold RuneLen.
  replace (r <? 0)%Z with false by lia.
  destruct (r <=? 127)%Z eqn:E1; [done|]. destruct (r <=? 2047)%Z eqn:E2; [done|].
  replace ((55296 <=? r)%Z && (r <=? 57343)%Z) with false
    by (symmetry; apply not_true_iff_false; rewrite andb_true_iff; lia).
  destruct (r <=? 65535)%Z eqn:E3; [done|]. by replace (r <=? 1114111)%Z with true by lia.
Qed.

Ltac divmod := Z.div_mod_to_equations; lia.

Lemma decode_encode r s : valid_rune r = true →
  decode_rune (encode_rune r +:+ s) = Some (r, RuneLen r).
Proof.
  intros Hr. pose proof Hr as Hv. apply valid_rune_spec in Hv.
  rewrite RuneLen_spec by (auto; lia). unfold encode_rune. rewrite Hr. unfold encode_valid.
  destruct (r <=? 127)%Z eqn:E1; [|destruct (r <=? 2047)%Z eqn:E2; [|destruct (r <=? 65535)%Z eqn:E3]].
  - simpl. rewrite byteZ_Zbyte by lia. by replace (r <? 128)%Z with true by lia.
  - simpl. rewrite !byteZ_Zbyte by divmod. replace (192 + r / 64 <? 128)%Z with false by divmod.
    rewrite (inr_true 194 223) by divmod. rewrite inr_true by divmod. do 2 f_equal. divmod.
  - cbn -[Z.add Z.div Z.modulo byteZ Zbyte]. rewrite !byteZ_Zbyte by divmod.
    replace (224 + r / 4096 <? 128)%Z with false by divmod.
    rewrite (inr_false 194 223) by divmod. rewrite (inr_true 224 239) by divmod.
    rewrite (inr_true 128 191 (128 + r mod 64)) by divmod.
    rewrite inr_true.
    + simpl. do 2 f_equal. divmod.
    + destruct (224 + r / 4096 =? 224)%Z eqn:Ea; destruct (224 + r / 4096 =? 237)%Z eqn:Eb; divmod.
  - cbn -[Z.add Z.div Z.modulo byteZ Zbyte]. rewrite !byteZ_Zbyte by divmod.
    replace (240 + r / 262144 <? 128)%Z with false by divmod.
    rewrite (inr_false 194 223) by divmod. rewrite (inr_false 224 239) by divmod.
    rewrite (inr_true 240 244) by divmod.
    rewrite (inr_true 128 191 (128 + r mod 64)) by divmod.
    rewrite (inr_true 128 191 (128 + r / 64 mod 64)) by divmod.
    rewrite inr_true.
    + simpl. do 2 f_equal. divmod.
    + destruct (240 + r / 262144 =? 240)%Z eqn:Ea; destruct (240 + r / 262144 =? 244)%Z eqn:Eb; divmod.
Qed.

Lemma encode_rune_length r : valid_rune r = true → String.length (encode_rune r) = RuneLen r.
Proof.
  intros Hr. pose proof Hr as Hv. apply valid_rune_spec in Hv.
  rewrite RuneLen_spec by (auto; lia). unfold encode_rune, encode_valid. rewrite Hr.
  by destruct (r <=? 127)%Z; [|destruct (r <=? 2047)%Z; [|destruct (r <=? 65535)%Z]].
Qed.

Lemma RuneLen_pos r : valid_rune r = true → (0 < RuneLen r)%nat.
Proof.
  intros Hr. pose proof Hr as Hv. apply valid_rune_spec in Hv. rewrite RuneLen_spec by (auto; lia).
  destruct (r <=? 127)%Z; [lia|]. destruct (r <=? 2047)%Z; [lia|]. destruct (r <=? 65535)%Z; lia.
Qed.

(** What a decoder returns: a valid rune no longer than its own encoding. *)
Lemma decode_width s r w : decode_rune s = Some (r, w) →
  (0 < w)%nat ∧ (w ≤ RuneLen r)%nat ∧ (w ≤ String.length s)%nat ∧ valid_rune r = true.
Proof.
  assert (RuneLen RuneError = 3%nat) as HE by done. assert (valid_rune RuneError = true) as HV by done.
  destruct s as [|c0 s]; [done|].
  pose proof (byteZ_range c0).
  assert (∀ x, valid_rune x = true → (0 ≤ x)%Z) as Hpos by (intros x; rewrite valid_rune_spec; lia).
  unfold decode_rune. cbv zeta.
  destruct (byteZ c0 <? 128)%Z eqn:E0.
  { intros [= <- <-].
    assert (valid_rune (byteZ c0) = true) as Hx by (apply valid_rune_spec; lia).
    pose proof (RuneLen_pos (byteZ c0) Hx). cbn [String.length]. repeat split; lia || done. }
  destruct (inr 194 223 (byteZ c0)) eqn:E1.
  { apply inr_spec in E1. destruct s as [|c1 s]; [intros [= <- <-]; rewrite HE; simpl; repeat split; lia || done|].
    destruct (inr 128 191 (byteZ c1)) eqn:E2; [|intros [= <- <-]; rewrite HE; simpl; repeat split; lia || done].
    apply inr_spec in E2. intros [= <- <-].
    match goal with |- context[RuneLen ?x] => assert (valid_rune x = true) as Hx by (apply valid_rune_spec; lia);
      rewrite (RuneLen_spec x) by (auto; lia);
      replace (x <=? 127)%Z with false by lia; replace (x <=? 2047)%Z with true by lia end.
    simpl; repeat split; lia || done. }
  destruct (inr 224 239 (byteZ c0)) eqn:E2.
  { apply inr_spec in E2. destruct s as [|c1 [|c2 s]]; [intros [= <- <-]; rewrite HE; simpl; repeat split; lia || done..|].
    match goal with |- context[if ?b then _ else _] => destruct b eqn:E3 end.
    all: match goal with |- context[RuneError] => intros [= <- <-]; rewrite HE; simpl; repeat split; lia || done | _ => idtac end.
    apply andb_true_iff in E3 as [E3 E4]. apply inr_spec in E4. apply inr_spec in E3.
    intros [= <- <-].
    match goal with |- context[RuneLen ?x] => assert (valid_rune x = true ∧ (2047 < x ≤ 65535)%Z) as [Hx Hy] end.
    { rewrite valid_rune_spec. destruct (byteZ c0 =? 224)%Z eqn:Ea; destruct (byteZ c0 =? 237)%Z eqn:Eb; lia. }
    match goal with |- context[RuneLen ?x] => rewrite (RuneLen_spec x) by (auto; lia);
      replace (x <=? 127)%Z with false by lia; replace (x <=? 2047)%Z with false by lia;
      replace (x <=? 65535)%Z with true by lia end.
    simpl; repeat split; lia || done. }
  destruct (inr 240 244 (byteZ c0)) eqn:E3; [|intros [= <- <-]; rewrite HE; simpl; repeat split; lia || done].
  apply inr_spec in E3. destruct s as [|c1 [|c2 [|c3 s]]]; [intros [= <- <-]; rewrite HE; simpl; repeat split; lia || done..|].
  match goal with |- context[if ?b then _ else _] => destruct b eqn:E4 end.
  all: match goal with |- context[RuneError] => intros [= <- <-]; rewrite HE; simpl; repeat split; lia || done | _ => idtac end.
  apply andb_true_iff in E4 as [E4 E6]. apply andb_true_iff in E4 as [E4 E5].
  apply inr_spec in E4, E5, E6. intros [= <- <-].
  match goal with |- context[RuneLen ?x] => assert (valid_rune x = true ∧ (65535 < x)%Z) as [Hx Hy] end.
  { rewrite valid_rune_spec. destruct (byteZ c0 =? 240)%Z eqn:Ea; destruct (byteZ c0 =? 244)%Z eqn:Eb; lia. }
  match goal with |- context[RuneLen ?x] => rewrite (RuneLen_spec x) by (auto; lia);
    replace (x <=? 127)%Z with false by lia; replace (x <=? 2047)%Z with false by lia;
    replace (x <=? 65535)%Z with false by lia end.
  simpl; repeat split; lia || done.
Qed.

(** ** Ranging over a string *)

Lemma range_skip off a s : range_from off (String.length a) (a +:+ s) = range_from (off + String.length a) 0 s.
Proof.
  revert off. induction a as [|c a IH]; intros off; simpl; [by rewrite Nat.add_0_r|].
  rewrite IH. f_equal. lia.
Qed.

Lemma range_encode off r s : valid_rune r = true →
  range_from off 0 (encode_rune r +:+ s) = (off, r) :: range_from (off + RuneLen r) 0 s.
Proof.
  intros Hr. pose proof (decode_encode r s Hr) as Hd. pose proof (encode_rune_length r Hr) as Hl.
  pose proof (RuneLen_pos r Hr).
  destruct (encode_rune r) as [|c a] eqn:E; simpl in Hl; [lia|].
  change (String c a +:+ s) with (String c (a +:+ s)) in *. cbn [range_from]. rewrite Hd.
  f_equal. replace (RuneLen r - 1)%nat with (String.length a) by lia.
  rewrite range_skip. f_equal. lia.
Qed.

Fixpoint enc_range (off : nat) (rs : list Z) : list (nat * Z) :=
  match rs with [] => [] | r :: rs' => (off, r) :: enc_range (off + RuneLen r) rs' end.

Lemma go_range_encode off rs : Forall (λ r, valid_rune r = true) rs →
  range_from off 0 (encode rs) = enc_range off rs.
Proof.
  revert off. induction rs as [|r rs IH]; intros off Hv; [done|].
  inversion Hv; subst. simpl. rewrite range_encode by done. by rewrite IH.
Qed.

Lemma enc_range_snd off rs : (enc_range off rs).*2 = rs.
Proof. revert off. induction rs as [|r rs IH]; intros off; simpl; [done|]. by rewrite IH. Qed.

Lemma runes_encode rs : Forall (λ r, valid_rune r = true) rs → runes (encode rs) = rs.
Proof. intros. unfold runes, go_range. by rewrite go_range_encode, enc_range_snd. Qed.

Lemma encode_app a b : encode (a ++ b) = encode a +:+ encode b.
Proof. induction a; simpl; [done|]. by rewrite IHa, sapp_assoc. Qed.

(** The byte length of any string is at most that of its runes re-encoded. *)
Definition rlen (rs : list Z) : nat := foldr (λ r n, (RuneLen r + n)%nat) 0%nat rs.

Lemma range_len off k s : (String.length s ≤ k + rlen (range_from off k s).*2)%nat.
Proof.
  revert off k. induction s as [|c s IH]; intros off k; [simpl; lia|]. cbn [range_from String.length].
  destruct k as [|k].
  - destruct (decode_rune (String c s)) as [[r w]|] eqn:E.
    + apply decode_width in E as (Hw & Hr & _). cbn [fmap list_fmap]. cbn.
      specialize (IH (S off) (w - 1)%nat). fold (rlen (range_from (S off) (w - 1) s).*2). lia.
    + exfalso. revert E. unfold decode_rune. cbv zeta.
      repeat case_match; done.
  - specialize (IH (S off) k). lia.
Qed.

Lemma runes_len s : (String.length s ≤ rlen (runes s))%nat.
Proof. apply (range_len 0 0). Qed.

Lemma encode_len rs : Forall (λ r, valid_rune r = true) rs → String.length (encode rs) = rlen rs.
Proof.
  induction rs as [|r rs IH]; intros Hv; [done|]. inversion Hv; subst. simpl.
  by rewrite sapp_length, encode_rune_length, IH.
Qed.

Lemma range_valid off k s : Forall (λ r, valid_rune r = true) (range_from off k s).*2.
Proof.
  revert off k. induction s as [|c s IH]; intros off k; [constructor|]. cbn [range_from].
  destruct k as [|k]; [|apply IH].
  destruct (decode_rune (String c s)) as [[r w]|] eqn:E; [|constructor].
  apply decode_width in E as (_ & _ & _ & Hv). constructor; [done|apply IH].
Qed.
Lemma runes_valid s : Forall (λ r, valid_rune r = true) (runes s).
Proof. apply range_valid. Qed.
