(** Proofs about strings.TrimSpace and the reading of a command line. *)
From Verif Require Import Proof_GoStr Proof_Utf8 Proof_Dialogue.
From Verif Require Export Spec_Repl.
From Coq Require Import Lia.
From stdpp Require Import options.
Import Model_GoStr Proof_Utf8.

(** ** Decoding is exact except for the replacement character *)
Lemma decode_canonical s r w : decode_rune s = Some (r, w) → r ≠ RuneError →
  ∃ t, s = encode_rune r +:+ t ∧ w = RuneLen r.
Proof.
  intros Hd Hne. pose proof (decode_width _ _ _ Hd) as (_ & _ & _ & Hv).
  destruct s as [|c0 s]; [done|]. pose proof (byteZ_range c0).
  assert (∀ x, valid_rune x = true → encode_rune x = bytes_str (encode_valid x)) as Henc by (intros x Hx; unfold encode_rune; by rewrite Hx).
  assert (∀ x, valid_rune x = true → (0 ≤ x)%Z) as Hpos by (intros x; rewrite valid_rune_spec; lia).
  revert Hd Hv Hne. unfold decode_rune. cbv zeta.
  destruct (byteZ c0 <? 128)%Z eqn:E0.
  { intros [= <- <-] Hv _. exists s. rewrite Henc, RuneLen_spec by auto. unfold encode_valid. replace (byteZ c0 <=? 127)%Z with true by lia.
    simpl. by rewrite Zbyte_byteZ. }
  destruct (inr 194 223 (byteZ c0)) eqn:E1.
  { apply inr_spec in E1. destruct s as [|c1 s]; [by intros [= <- <-]|].
    destruct (inr 128 191 (byteZ c1)) eqn:E2; [|by intros [= <- <-]]. apply inr_spec in E2. intros [= <- <-] Hv _.
    exists s. rewrite Henc, RuneLen_spec by auto. unfold encode_valid.
    match goal with |- context [if (?x <=? 127)%Z then _ else _] => replace (x <=? 127)%Z with false by lia; replace (x <=? 2047)%Z with true by lia end.
    split; [|done]. cbn -[Z.add Z.div Z.modulo byteZ Zbyte Z.mul Z.sub]. f_equal; [|f_equal]; (etransitivity; [symmetry; apply Zbyte_byteZ|]); f_equal; divmod. }
  destruct (inr 224 239 (byteZ c0)) eqn:E2.
  { apply inr_spec in E2. destruct s as [|c1 [|c2 s]]; [by intros [= <- <-]..|].
    match goal with |- context[if ?b then _ else _] => destruct b eqn:E3 end.
    all: match goal with |- context[RuneError] => idtac | _ => idtac end.
    2: by intros [= <- <-].
    apply andb_true_iff in E3 as [E3 E4]. apply inr_spec in E4. apply inr_spec in E3. intros [= <- <-] Hv _.
    match type of Hv with valid_rune ?x = _ => assert ((2047 < x ≤ 65535)%Z ∧ (128 ≤ byteZ c1 ≤ 191)%Z) as [Hy Hc1] end.
    { destruct (byteZ c0 =? 224)%Z eqn:Ea; destruct (byteZ c0 =? 237)%Z eqn:Eb; lia. }
    exists s. rewrite Henc, RuneLen_spec by auto. unfold encode_valid.
    match goal with |- context [if (?x <=? 127)%Z then _ else _] => replace (x <=? 127)%Z with false by lia; replace (x <=? 2047)%Z with false by lia; replace (x <=? 65535)%Z with true by lia end.
    split; [|done]. cbn -[Z.add Z.div Z.modulo byteZ Zbyte Z.mul Z.sub]. f_equal; [|f_equal; [|f_equal]]; (etransitivity; [symmetry; apply Zbyte_byteZ|]); f_equal; divmod. }
  destruct (inr 240 244 (byteZ c0)) eqn:E3; [|by intros [= <- <-]].
  apply inr_spec in E3. destruct s as [|c1 [|c2 [|c3 s]]]; [by intros [= <- <-]..|].
  match goal with |- context[if ?b then _ else _] => destruct b eqn:E4 end.
  2: by intros [= <- <-].
  apply andb_true_iff in E4 as [E4 E6]. apply andb_true_iff in E4 as [E4 E5]. apply inr_spec in E4, E5, E6. intros [= <- <-] Hv _.
  match type of Hv with valid_rune ?x = _ => assert ((65535 < x)%Z ∧ (128 ≤ byteZ c1 ≤ 191)%Z) as [Hy Hc1] end.
  { destruct (byteZ c0 =? 240)%Z eqn:Ea; destruct (byteZ c0 =? 244)%Z eqn:Eb; lia. }
  exists s. rewrite Henc, RuneLen_spec by auto. unfold encode_valid.
  match goal with |- context [if (?x <=? 127)%Z then _ else _] => replace (x <=? 127)%Z with false by lia; replace (x <=? 2047)%Z with false by lia; replace (x <=? 65535)%Z with false by lia end.
  split; [|done]. cbn -[Z.add Z.div Z.modulo byteZ Zbyte Z.mul Z.sub]. f_equal; [|f_equal; [|f_equal; [|f_equal]]]; (etransitivity; [symmetry; apply Zbyte_byteZ|]); f_equal; divmod.
Qed.

(** ** White space *)
Definition spaces : list Z := [9; 10; 11; 12; 13; 32; 133; 160; 5760; 8192; 8193; 8194; 8195; 8196; 8197; 8198; 8199; 8200; 8201; 8202; 8232; 8233; 8239; 8287; 12288]%Z.
Lemma IsSpace_spaces r : IsSpace r = true ↔ r ∈ spaces.
Proof.
  split.
  - unfold IsSpace, inr. rewrite !orb_true_iff, !andb_true_iff, !Z.eqb_eq, !Z.leb_le. intros H. unfold spaces. set_unfold. lia.
  - unfold spaces. intros H. repeat (apply elem_of_cons in H as [->|H]; [done|]). by apply elem_of_nil in H.
Qed.
Lemma space_valid r : IsSpace r = true → valid_rune r = true ∧ r ≠ RuneError.
Proof. rewrite IsSpace_spaces. unfold spaces. intros H. repeat (apply elem_of_cons in H as [->|H]; [done|]). by apply elem_of_nil in H. Qed.
Lemma space_bytes r : IsSpace r = true → encode_rune r = String (Zbyte 32) "" ∨ lacks (Zbyte 32) (encode_rune r).
Proof.
  rewrite IsSpace_spaces. unfold spaces. intros H.
  repeat (apply elem_of_cons in H as [->|H]; [first [by left | right; vm_compute; repeat split; discriminate]|]).
  by apply elem_of_nil in H.
Qed.
Lemma space_nonempty r : IsSpace r = true → encode_rune r ≠ "".
Proof.
  intros H. apply space_valid in H as [H _]. pose proof (RuneLen_pos r H). pose proof (encode_rune_length r H) as Hl.
  intros E. rewrite E in Hl. simpl in Hl. lia.
Qed.

Lemma runes_cons s r w : decode_rune s = Some (r, w) → r ≠ RuneError → ∃ t, s = encode_rune r +:+ t ∧ runes s = r :: runes t.
Proof.
  intros Hd Hne. destruct (decode_canonical _ _ _ Hd Hne) as (t & -> & _). exists t. split; [done|].
  apply decode_width in Hd as (_ & _ & _ & Hv). unfold runes, go_range. rewrite range_encode by done. cbn [fmap list_fmap]. f_equal.
  clear Hne. generalize (0 + RuneLen r) as o. intros o. generalize 0 at 2 as o'. generalize 0 as k. revert o.
  induction t as [|c t IH]; intros o k o'; [done|]. cbn [range_from]. destruct k; [|apply IH].
  destruct (decode_rune (String c t)) as [[x y]|]; [|done]. cbn [fmap list_fmap]. f_equal. apply IH.
Qed.
Lemma decode_some c s : ∃ r w, decode_rune (String c s) = Some (r, w).
Proof. unfold decode_rune. cbv zeta. repeat case_match; eauto. Qed.

Lemma all_space_encode s : all_space s = true → ∃ rs, Forall (λ r, IsSpace r = true) rs ∧ s = encode rs.
Proof.
  remember (String.length s) as n eqn:En. revert s En. induction (lt_wf n) as [n _ IH]. intros s -> H.
  destruct s as [|c s]; [by exists []|].
  destruct (decode_some c s) as (r & w & Hd).
  assert (IsSpace r = true) as Hs.
  { revert H. unfold all_space, runes, go_range. cbn [range_from]. rewrite Hd. simpl. by intros [? _]%andb_true_iff. }
  destruct (space_valid r Hs) as [Hv Hne]. destruct (runes_cons _ _ _ Hd Hne) as (t & Ht & Hr).
  destruct (IH (String.length t)) with (s := t) as (rs & H1 & H2); [|done| |].
  - rewrite Ht, sapp_length. pose proof (encode_rune_length r Hv). pose proof (RuneLen_pos r Hv). lia.
  - unfold all_space in *. rewrite Hr in H. simpl in H. by apply andb_true_iff in H as [_ H].
  - exists (r :: rs). split; [by constructor|]. rewrite Ht, H2. done.
Qed.
Lemma spaces_valid rs : Forall (λ r, IsSpace r = true) rs → Forall (λ r, valid_rune r = true) rs.
Proof. intros H. eapply Forall_impl; [exact H|]. intros x Hx. by apply space_valid. Qed.
Lemma all_space_of rs : Forall (λ r, IsSpace r = true) rs → all_space (encode rs) = true.
Proof.
  intros H. unfold all_space. rewrite runes_encode by by apply spaces_valid. induction H as [|x l Hx _ IH]; [done|]. cbn [forallb]. by rewrite Hx, IH.
Qed.
Lemma all_space_blank s : all_space s = true ↔ blank s.
Proof.
  split; [intros H; by apply all_space_encode in H|]. intros (rs & H & ->). by apply all_space_of.
Qed.

(** ** Trimming at the end *)
Lemma blank_last s : blank s → s ≠ "" → ∃ r t, IsSpace r = true ∧ s = t +:+ encode_rune r.
Proof.
  intros (rs & H & ->) Hne. destruct rs as [|x rs _] using rev_ind; [done|].
  apply Forall_app in H as [_ H]. inversion H; subst. exists x, (encode rs). split; [done|].
  rewrite encode_app. simpl. by rewrite sapp_nil.
Qed.
Lemma trim_right_id s : no_trailing s → trim_right s = s.
Proof.
  assert (∀ p s, no_trailing (p +:+ s) → trim_right s = s) as H; [|intros Hs; by apply (H "")].
  intros p t. revert p. induction t as [|c t IH]; intros p Hs; [done|]. cbn [trim_right].
  destruct (all_space (String c t)) eqn:E.
  - apply all_space_blank in E. destruct (blank_last _ E) as (r & x & Hr & Hx); [done|]. exfalso.
    apply (Hs r (p +:+ x) Hr). by rewrite Hx, sapp_assoc.
  - f_equal. apply (IH (p +:+ String c "")). by rewrite sapp_assoc.
Qed.
Lemma trim_right_spec s : ∃ b, blank b ∧ s = trim_right s +:+ b.
Proof.
  induction s as [|c s (b & Hb & IH)]; [exists ""; split; [by exists []|done]|]. cbn [trim_right].
  destruct (all_space (String c s)) eqn:E.
  - exists (String c s). split; [by apply all_space_blank|done].
  - exists b. split; [done|]. cbn [String.append]. by rewrite <-IH.
Qed.
Lemma blank_snoc t r rs : IsSpace r = true → Forall (λ r, IsSpace r = true) rs → ∃ b, blank b ∧ (t +:+ encode_rune r) +:+ encode rs = t +:+ b.
Proof.
  intros Hr H. exists (encode (r :: rs)). split; [exists (r :: rs); split; [by constructor|done]|]. by rewrite sapp_assoc.
Qed.
Lemma trim_right_max s t b : s = t +:+ b → blank b → b ≠ "" → trim_right s ≠ s.
Proof.
  intros -> Hb Hne. induction t as [|c t IH].
  - change ("" +:+ b) with b. destruct b as [|c b]; [done|]. cbn [trim_right]. rewrite (proj2 (all_space_blank _)) by done. done.
  - change (String c t +:+ b) with (String c (t +:+ b)). cbn [trim_right]. destruct (all_space _); [done|].
    intros [= E]. by apply IH.
Qed.
Lemma trim_right_idem s : trim_right (trim_right s) = trim_right s.
Proof.
  induction s as [|c s IH]; [done|]. cbn [trim_right]. destruct (all_space (String c s)) eqn:E; [done|].
  cbn [trim_right]. destruct (all_space (String c (trim_right s))) eqn:E2.
  - exfalso. apply all_space_blank in E2. destruct E2 as (rs & H1 & H2). destruct (trim_right_spec s) as (b & (rs2 & H3 & H4) & Hs).
    assert (blank (String c s)) as Hb.
    { exists (rs ++ rs2). split; [by apply Forall_app|]. rewrite encode_app, <-H2, <-H4. cbn [String.append]. by rewrite <-Hs. }
    apply all_space_blank in Hb. congruence.
  - by rewrite IH.
Qed.
Lemma trim_right_tight s : no_trailing (trim_right s).
Proof.
  intros r t Hr E. eapply trim_right_max; [exact E| | |apply trim_right_idem].
  - exists [r]. split; [by repeat constructor|]. simpl. by rewrite sapp_nil.
  - by apply space_nonempty.
Qed.

(** ** Trimming at the beginning *)
Lemma trim_left_skip a s : trim_left (String.length a) (a +:+ s) = trim_left 0 s.
Proof. induction a as [|c a IH]; [done|]. cbn [String.length String.append trim_left]. apply IH. Qed.
Lemma trim_left_space r s : IsSpace r = true → trim_left 0 (encode_rune r +:+ s) = trim_left 0 s.
Proof.
  intros Hr. destruct (space_valid r Hr) as [Hv _]. pose proof (decode_encode r s Hv) as Hd. pose proof (encode_rune_length r Hv) as Hl.
  pose proof (RuneLen_pos r Hv). destruct (encode_rune r) as [|c a] eqn:E; simpl in Hl; [lia|].
  change (String c a +:+ s) with (String c (a +:+ s)) in *. cbn [trim_left]. rewrite Hd, Hr.
  replace (RuneLen r - 1) with (String.length a) by lia. apply trim_left_skip.
Qed.
Lemma trim_left_spec s : ∃ a, blank a ∧ s = a +:+ trim_left 0 s ∧ ∀ r t, IsSpace r = true → trim_left 0 s ≠ encode_rune r +:+ t.
Proof.
  remember (String.length s) as n eqn:En. revert s En. induction (lt_wf n) as [n _ IH]. intros s ->.
  destruct s as [|c s].
  { exists "". split; [by exists []|]. split; [done|]. intros r t Hr E. pose proof (space_nonempty r Hr). cbn in E. by destruct (encode_rune r). }
  destruct (decode_some c s) as (r & w & Hd). destruct (IsSpace r) eqn:Er.
  - destruct (space_valid r Er) as [Hv Hne]. destruct (decode_canonical _ _ _ Hd Hne) as (t & Ht & _).
    destruct (IH (String.length t)) with (s := t) as (a & (rs & Ha & ->) & H1 & H2); [|done|].
    { rewrite Ht, sapp_length. pose proof (encode_rune_length r Hv). pose proof (RuneLen_pos r Hv). lia. }
    exists (encode (r :: rs)). rewrite Ht, trim_left_space by done. split; [exists (r :: rs); split; [by constructor|done]|].
    split; [|done]. simpl. rewrite sapp_assoc. by rewrite <-H1.
  - exists "". split; [by exists []|]. assert (trim_left 0 (String c s) = String c s) as E by (cbn [trim_left]; by rewrite Hd, Er). rewrite E.
    split; [done|]. intros x t Hx Ex. rewrite Ex in Hd. destruct (space_valid x Hx) as [Hv _]. rewrite decode_encode in Hd by done.
    injection Hd as -> _. congruence.
Qed.

Lemma TrimSpace_spec s : ∃ a b, blank a ∧ blank b ∧ s = a +:+ TrimSpace s +:+ b ∧ tight (TrimSpace s).
Proof.
  destruct (trim_left_spec s) as (a & Ha & H1 & H2). destruct (trim_right_spec (trim_left 0 s)) as (b & Hb & H3).
  exists a, b. unfold TrimSpace. split; [done|]. split; [done|]. split; [by rewrite <-H3|].
  intros r t Hr. split; [|by apply trim_right_tight]. intros E. apply (H2 r (t +:+ b) Hr). rewrite H3, E. by rewrite sapp_assoc.
Qed.
Lemma TrimSpace_id s : tight s → TrimSpace s = s.
Proof.
  intros H. unfold TrimSpace. destruct (trim_left_spec s) as (a & (rs & Ha & ->) & H1 & _).
  destruct rs as [|r rs]. { simpl in H1. rewrite <-H1. apply trim_right_id. intros r t Hr. by apply H. }
  exfalso. inversion Ha; subst. apply (proj1 (H r (encode rs +:+ trim_left 0 s) ltac:(done))). rewrite H1 at 1. simpl. by rewrite sapp_assoc.
Qed.

(** ** The line of set *)
Lemma sapp_eq a b c d : a +:+ b = c +:+ d → (∃ l, a = c +:+ l ∧ d = l +:+ b) ∨ (∃ l, c = a +:+ l ∧ b = l +:+ d).
Proof.
  revert c. induction a as [|x a IH]; intros c E.
  - right. exists c. done.
  - destruct c as [|y c]; [left; exists (String x a); done|].
    cbn [String.append] in E. injection E as -> E. destruct (IH c E) as [(l & -> & ->)|(l & -> & ->)].
    + left. exists l. done.
    + right. exists l. done.
Qed.
Lemma no_trailing_app p t : t ≠ "" → no_trailing t → no_trailing (p +:+ String (Zbyte 32) t).
Proof.
  intros Hne Ht r x Hr E.
  assert (p +:+ String (Zbyte 32) t = (p +:+ String (Zbyte 32) "") +:+ t) as E2 by by rewrite sapp_assoc. rewrite E2 in E. clear E2.
  destruct (sapp_eq _ _ _ _ E) as [(l & Hl & He)|(l & Hl & He)].
  - destruct (space_bytes r Hr) as [Hb|Hb].
    + rewrite Hb in He. destruct l as [|c l]; [by apply (Ht r "" Hr); rewrite Hb|].
      apply (f_equal String.length) in He. rewrite sapp_length in He. destruct t; [done|]. simpl in He. lia.
    + destruct (sapp_eq p (String (Zbyte 32) "") x l Hl) as [(y & Hy1 & Hy2)|(y & Hy1 & Hy2)].
      * rewrite He, Hy2 in Hb. rewrite lacks_app in Hb. destruct Hb as [Hb _]. apply lacks_app in Hb as [_ Hb].
        by destruct Hb.
      * destruct y as [|c y]. { simpl in Hy2. subst l. rewrite He in Hb. apply lacks_app in Hb as [Hb _]. by destruct Hb. }
        cbn [String.append] in Hy2. injection Hy2 as _ Hy2. destruct y; [|done]. destruct l; [|done]. by apply (Ht r "" Hr).
  - by apply (Ht r l Hr).
Qed.
