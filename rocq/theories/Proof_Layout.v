(** Proofs about the text that show prints. *)
From Verif Require Import Spec_Layout Proof_GoStr Proof_Utf8 Proof_Text Proof_Trim Proof_Blobs Proof_Csv Proof_Export Proof_Session2 Proof_Text3 Proof_Otp.
From Coq Require Import Lia.
From stdpp Require Import options.
Import Model_GoStr.
#[local] Open Scope nat_scope.

(** ** Counting characters *)
Lemma count_encode rs : Forall (λ r, valid_rune r = true) rs → rune_count (encode rs) = length rs.
Proof. intros H. unfold rune_count. by rewrite runes_encode. Qed.
Lemma count_app a b : utf8 a → utf8 b → rune_count (a +:+ b) = rune_count a + rune_count b.
Proof.
  intros (ra & Ha & ->) (rb & Hb & ->). rewrite <- encode_app, !count_encode, app_length; [done|done|done|by apply Forall_app].
Qed.
Lemma count_le s : utf8 s → rune_count s ≤ String.length s.
Proof.
  intros (rs & H & ->). rewrite count_encode by done. rewrite encode_len by done. unfold rlen.
  induction H as [|r rs Hr _ IH]; [done|]. cbn. pose proof (RuneLen_pos r Hr). lia.
Qed.
Lemma gap_encode n : gap n = encode (replicate n 32%Z).
Proof. induction n as [|n IH]; [done|]. cbn [replicate gap]. rewrite IH. reflexivity. Qed.
Lemma gap_valid n : Forall (λ r, valid_rune r = true) (replicate n 32%Z).
Proof. apply Forall_replicate. reflexivity. Qed.
Lemma utf8_gap n : utf8 (gap n).
Proof. exists (replicate n 32%Z). split; [apply gap_valid|apply gap_encode]. Qed.
Lemma count_gap n : rune_count (gap n) = n.
Proof. rewrite gap_encode, count_encode by apply gap_valid. apply replicate_length. Qed.
Lemma utf8_colon : utf8 ":".
Proof. exists [58%Z]. split; [repeat constructor|reflexivity]. Qed.
Lemma utf8_blank : utf8 " ".
Proof. exact (utf8_gap 1). Qed.

(** ** The width *)
Lemma width_le keys : ∀ w0, w0 ≤ fold_left (λ width k, if width <? String.length k then String.length k + 1 else width) keys w0 ∧
  ∀ k, k ∈ keys → String.length k ≤ fold_left (λ width k, if width <? String.length k then String.length k + 1 else width) keys w0.
Proof.
  induction keys as [|k keys IH]; intros w0; cbn [fold_left]; [split; [done|intros k H; by apply elem_of_nil in H]|].
  destruct (w0 <? String.length k) eqn:E.
  - apply Nat.ltb_lt in E. destruct (IH (String.length k + 1)) as [H1 H2]. split; [lia|]. intros x [->|Hx]%elem_of_cons; [lia|by apply H2].
  - apply Nat.ltb_ge in E. destruct (IH w0) as [H1 H2]. split; [lia|]. intros x [->|Hx]%elem_of_cons; [lia|by apply H2].
Qed.
Lemma width_is keys : ∀ w0, let w := fold_left (λ width k, if width <? String.length k then String.length k + 1 else width) keys w0 in
  w = w0 ∨ ∃ k, k ∈ keys ∧ w = S (String.length k).
Proof.
  induction keys as [|k keys IH]; intros w0; cbn [fold_left]; [by left|].
  destruct (w0 <? String.length k) eqn:E.
  - right. destruct (IH (String.length k + 1)) as [->|(x & Hx & H)]; [exists k; split; [left|lia]|exists x; split; [by right|done]].
  - destruct (IH w0) as [->|(x & Hx & H)]; [by left|right; exists x; split; [by right|done]].
Qed.

(** ** The column *)
Lemma row_at width k v : utf8 k → (Z.of_nat width ≤ 1000000)%Z →
  begins_at (showKeyValue id k v width 2) v (3 + Nat.max width (rune_count k + 1)).
Proof.
  intros Hk Hw. unfold showKeyValue, pad_right, id. apply Z.ltb_ge in Hw as ->.
  exists (gap 2 +:+ ((k +:+ ":") +:+ gap (width - rune_count (k +:+ ":"))) +:+ " ").
  assert (utf8 (k +:+ ":")) as H1 by (apply utf8_app; [done|apply utf8_colon]).
  assert (utf8 ((k +:+ ":") +:+ gap (width - rune_count (k +:+ ":")))) as H2 by (apply utf8_app; [done|apply utf8_gap]).
  assert (utf8 (((k +:+ ":") +:+ gap (width - rune_count (k +:+ ":"))) +:+ " ")) as H3 by (apply utf8_app; [done|apply utf8_blank]).
  split; [apply utf8_app; [apply utf8_gap|done]|]. split; [by rewrite !sapp_assoc|].
  rewrite count_app; [|apply utf8_gap|done]. rewrite count_app; [|done|apply utf8_blank]. rewrite count_app; [|done|apply utf8_gap].
  rewrite !count_gap. rewrite (count_app k ":"); [|done|apply utf8_colon].
  change (rune_count " ") with 1. change (rune_count ":") with 1. lia.
Qed.
Lemma sapp_inj_r a b c : a +:+ c = b +:+ c → a = b.
Proof.
  intros E. destruct (sapp_eq _ _ _ _ E) as [(l & -> & H)|(l & -> & H)]; apply (f_equal String.length) in H; rewrite sapp_length in H; (destruct l; [by rewrite sapp_nil|cbn in H; lia]).
Qed.
Lemma begins_one line v c c' : begins_at line v c → begins_at line v c' → c = c'.
Proof.
  intros (b & _ & -> & <-) (b' & _ & E & <-). f_equal. by apply (sapp_inj_r _ _ (v +:+ String (Zbyte 10) "")).
Qed.

(** ** Reading it back *)
Lemma first_colon c a b x y : lacks c a → lacks c b → a +:+ String c x = b +:+ String c y → a = b ∧ x = y.
Proof.
  intros Ha Hb E. pose proof (f_equal (split_on c) E) as H. rewrite !split_on_app in H by done. injection H as -> H.
  split; [done|]. rewrite <- (join_split c x), <- (join_split c y). by rewrite H.
Qed.
(** What follows a list of rows begins with two blanks and something else, or is empty. *)
Definition row_start (t : string) : Prop := t = "" ∨ ∃ c r, t = gap 2 +:+ String c r ∧ c ≠ Zbyte 32.
Lemma lines_inj ls : ∀ ls' t t', (∀ x, x ∈ ls → lacks (Zbyte 10) x) → (∀ x, x ∈ ls' → lacks (Zbyte 10) x) → row_start t → row_start t' →
  indented 4 ls +:+ t = indented 4 ls' +:+ t' → ls = ls' ∧ t = t'.
Proof.
  assert (∀ x l, indented 4 (x :: l) = gap 4 +:+ x +:+ String (Zbyte 10) (indented 4 l)) as Hc.
  { intros x l. unfold indented. cbn [fmap list_fmap]. rewrite join_empty, !sapp_assoc. done. }
  induction ls as [|x ls IH]; intros [|x' ls'] t t' H H' Ht Ht' E.
  - done.
  - rewrite Hc in E. change (indented 4 []) with "" in E. cbn [String.append] in E. destruct Ht as [->|(c & r & -> & Hne)]; [discriminate E|].
    cbn in E. injection E as E. congruence.
  - rewrite Hc in E. change (indented 4 []) with "" in E. cbn [String.append] in E. destruct Ht' as [->|(c & r & -> & Hne)]; [discriminate E|].
    cbn in E. injection E as E. congruence.
  - rewrite !Hc, !sapp_assoc in E. apply sapp_inj_l in E. cbn [String.append] in E.
    apply first_colon in E as [-> E]; [|apply H; left|apply H'; left].
    apply IH in E as [-> ->]; [done|intros y Hy; apply H; by right|intros y Hy; apply H'; by right|done|done].
Qed.

(** ** Several lines *)
Definition nl : string := String (Zbyte 10) "".
Lemma space_newline r : IsSpace r = true → encode_rune r = nl ∨ lacks (Zbyte 10) (encode_rune r).
Proof.
  rewrite IsSpace_spaces. unfold spaces. intros H.
  repeat (apply elem_of_cons in H as [->|H]; [first [by left | right; vm_compute; repeat split; discriminate]|]).
  by apply elem_of_nil in H.
Qed.
Lemma join_first sep x r : ∃ t, go_join sep (x :: r) = x +:+ t ∧ (t = "" ∧ r = [] ∨ ∃ u, t = sep +:+ u).
Proof.
  destruct r as [|y r]; [exists ""; rewrite sapp_nil; split; [done|by left]|]. exists (sep +:+ go_join sep (y :: r)). rewrite join_cons by done.
  split; [done|]. right. by eexists.
Qed.
Lemma join_last sep r x : ∃ t, go_join sep (r ++ [x]) = t +:+ x ∧ (t = "" ∧ r = [] ∨ ∃ u, t = u +:+ sep).
Proof.
  induction r as [|y r (t & E & H)]; [exists ""; split; [done|by left]|]. cbn [app]. rewrite join_cons by (by destruct r). rewrite E.
  exists (y +:+ sep +:+ t). split; [by rewrite !sapp_assoc|]. right. destruct H as [[-> ->]|[u ->]]; [exists y; by rewrite sapp_nil|]. exists (y +:+ sep +:+ u). by rewrite !sapp_assoc.
Qed.
Lemma lacks_app c a b : lacks c (a +:+ b) ↔ lacks c a ∧ lacks c b.
Proof. induction a as [|x a IH]; cbn; [tauto|]. rewrite IH. tauto. Qed.
Lemma snoc_cases l : l = "" ∨ ∃ a d, l = a +:+ String d "".
Proof.
  induction l as [|c l [->|(a & d & ->)]]; [by left|right; by exists "", c|right; by exists (String c a), d].
Qed.
Lemma lacks_last c a : ¬ lacks c (a +:+ String c "").
Proof. rewrite lacks_app. by intros [_ [[] _]]. Qed.
Lemma gap_end n u t l : u +:+ String (Zbyte 10) (gap n) = t +:+ l → l ≠ "" → lacks (Zbyte 10) l → lacks (Zbyte 32) l → False.
Proof.
  intros E Hl L1 L2. destruct (snoc_cases l) as [->|(a & d & ->)]; [done|].
  destruct n as [|n].
  - assert (Zbyte 10 = d) as <- by (apply (sapp_last u _ (t +:+ a) _); by rewrite sapp_assoc). by apply lacks_last in L1.
  - assert (∀ k, gap (S k) = gap k +:+ String (Zbyte 32) "") as Hg by (induction k as [|k IH]; [done|change (gap (S (S k))) with (String (Zbyte 32) (gap (S k))); rewrite IH at 1; done]).
    assert (Zbyte 32 = d) as <-.
    { apply (sapp_last (u +:+ String (Zbyte 10) (gap n)) _ (t +:+ a) _). rewrite !sapp_assoc. cbn [String.append]. by rewrite <- Hg. }
    by apply lacks_last in L2.
Qed.
Lemma tight_lines v n : tight v → tight (go_join (String (Zbyte 10) (gap n)) (split_on (Zbyte 10) v)).
Proof.
  intros Ht r t Hr. split; intros E.
  - destruct (split_on (Zbyte 10) v) as [|x ls] eqn:Es; [by apply split_on_ne in Es|].
    pose proof (join_split (Zbyte 10) v) as Ej. rewrite Es in Ej.
    destruct (join_first (String (Zbyte 10) (gap n)) x ls) as (t1 & E1 & H1). destruct (join_first nl x ls) as (t2 & E2 & H2).
    change (String (Zbyte 10) "") with nl in Ej. rewrite E2 in Ej. rewrite E1 in E.
    destruct (sapp_eq _ _ _ _ E) as [(l & -> & _)|(l & El & Et)].
    + apply (proj1 (Ht r (l +:+ t2) Hr)). by rewrite <- Ej, sapp_assoc.
    + destruct H1 as [[-> ->]|[u ->]].
      * destruct l; [|discriminate Et]. destruct H2 as [[-> _]|[u ->]].
        -- rewrite sapp_nil in El, Ej. apply (proj1 (Ht r "" Hr)). by rewrite sapp_nil, El.
        -- rewrite sapp_nil in El. apply (proj1 (Ht r (nl +:+ u) Hr)). by rewrite <- Ej, El.
      * destruct l as [|c l].
        -- rewrite sapp_nil in El. apply (proj1 (Ht r t2 Hr)). by rewrite <- Ej, El.
        -- injection Et as <- Et. destruct (space_newline r Hr) as [Er|Hl].
           ++ rewrite Er in El. destruct x; [|injection El as _ El; by destruct x].
              destruct H2 as [[-> ->]|[u2 ->]]; [cbn in Es; by cbn in E1; destruct n|].
              apply (proj1 (Ht r u2 Hr)). by rewrite Er, <- Ej.
           ++ rewrite El, lacks_app in Hl. by destruct Hl as [_ [[] _]].
  - pose proof (join_split (Zbyte 10) v) as Ej.
    destruct (split_on (Zbyte 10) v) as [|x ls _] eqn:Es using rev_ind; [by apply split_on_ne in Es|].
    destruct (join_last (String (Zbyte 10) (gap n)) ls x) as (t1 & E1 & H1). destruct (join_last nl ls x) as (t2 & E2 & H2).
    change (String (Zbyte 10) "") with nl in Ej. rewrite E2 in Ej. rewrite E1 in E. destruct (sapp_eq _ _ _ _ E) as [(l & Et & El)|(l & -> & Hx)].
    + destruct l as [|c l].
      * apply (proj2 (Ht r t2 Hr)). by rewrite <- Ej, El.
      * destruct H1 as [[-> _]|[u ->]]; [by destruct t|]. destruct (string_eq_dec x "") as [->|Hx].
        -- destruct H2 as [[-> ->]|[u2 ->]]; [by destruct u|]. apply (proj2 (Ht 10%Z u2 eq_refl)). by rewrite <- Ej, sapp_nil.
        -- apply (gap_end n u t (String c l)); [done|done| |].
           ++ destruct (space_newline r Hr) as [Er|Hl]; [|rewrite El, lacks_app in Hl; by apply Hl]. exfalso. rewrite Er in El. injection El as _ El. by destruct l; [|discriminate El].
           ++ destruct (Proof_Trim.space_bytes r Hr) as [Er|Hl]; [|rewrite El, lacks_app in Hl; by apply Hl]. exfalso. rewrite Er in El. injection El as _ El. by destruct l; [|discriminate El].
    + apply (proj2 (Ht r (t2 +:+ l) Hr)). by rewrite <- Ej, Hx, sapp_assoc.
Qed.
Lemma join_indented n ls : ls ≠ [] → gap n +:+ go_join (String (Zbyte 10) (gap n)) ls +:+ nl = indented n ls.
Proof.
  unfold indented. induction ls as [|x ls IH]; [done|]. intros _. cbn [fmap list_fmap]. rewrite join_empty. destruct ls as [|y ls].
  - cbn [fmap list_fmap go_join]. by rewrite sapp_nil.
  - rewrite join_cons by done. rewrite <- IH by done. rewrite !sapp_assoc. done.
Qed.
Lemma multi_lines k v width : tight v → showMultiline id k v width 2 = gap 2 +:+ pad_right width (k +:+ ":") +:+ nl +:+ indented 4 (split_on (Zbyte 10) v).
Proof.
  intros Ht. unfold showMultiline, id. change (2 * 2) with 4. cbn [Nat.eqb]. rewrite TrimSpace_id by by apply tight_lines.
  rewrite <- join_indented by apply split_on_ne. done.
Qed.

Definition out_key (x : out) : string := match x with Row k _ | Hidden k _ | Multi k _ => k | _ => "" end.
Definition out_rest (x : out) : string :=
  match x with Row _ v | Hidden _ v => " " +:+ v +:+ nl | Multi _ v => nl +:+ indented 4 (split_on (Zbyte 10) v) | _ => "" end.
Lemma line_form width x : (Z.of_nat width ≤ 1000000)%Z → legible x →
  show_line id id width x = gap 2 +:+ out_key x +:+ String (Zbyte 58) (gap (width - rune_count (out_key x +:+ ":")) +:+ out_rest x).
Proof.
  intros Hw. apply Z.ltb_ge in Hw. destruct x as [| | | |k v|k v|k v| | | | | | |]; try done; cbn [show_line out_key out_rest legible].
  - intros _. unfold showKeyValue, pad_right, id. rewrite Hw, !sapp_assoc. done.
  - intros _. unfold showHidden, pad_right, id. rewrite Hw, !sapp_assoc. done.
  - intros (_ & _ & _ & Ht). rewrite multi_lines by done. unfold pad_right. rewrite Hw, !sapp_assoc. done.
Qed.
Lemma legible_key x : legible x → simple_key (out_key x).
Proof.
  destruct x as [| | | |k v|k v|k v| | | | | | |]; try done; cbn [legible out_key]; [by intros [H _]| |by intros [H _]].
  intros [-> _]. split; [exists (Zbyte 112), "ass"; split; [reflexivity|discriminate]|]. vm_compute. repeat split; discriminate.
Qed.
Lemma text_cons width x l : show_text id id width (x :: l) = show_line id id width x +:+ show_text id id width l.
Proof. unfold show_text. cbn [fmap list_fmap]. by rewrite join_empty. Qed.
Lemma text_start width l : (Z.of_nat width ≤ 1000000)%Z → Forall legible l → row_start (show_text id id width l).
Proof.
  intros Hw [|x l' Hx _]; [by left|]. right. rewrite text_cons, line_form by done.
  destruct (legible_key x Hx) as ((c & r & E & Hc) & _). rewrite E. eexists c, _. split; [|done]. rewrite !sapp_assoc. cbn [String.append]. reflexivity.
Qed.
Lemma other_byte a b : " " +:+ a ≠ nl +:+ b.
Proof. intros E. apply (f_equal (λ s, match s with String c _ => byteZ c | EmptyString => 0%Z end)) in E. vm_compute in E. discriminate E. Qed.
Lemma text_inj width l : (Z.of_nat width ≤ 1000000)%Z → Forall legible l → ∀ l', Forall legible l' → show_text id id width l = show_text id id width l' → l = l'.
Proof.
  intros Hw Hl. induction Hl as [|x l Hx Hl IH]; intros l' Hl' E.
  - destruct Hl' as [|x' l' Hx' _]; [done|]. rewrite text_cons, line_form in E by done. discriminate E.
  - destruct Hl' as [|x' l' Hx' Hl']; [rewrite text_cons, line_form in E by done; discriminate E|].
    rewrite !text_cons, !line_form in E by done. rewrite !sapp_assoc in E. apply sapp_inj_l in E. cbn [String.append] in E.
    destruct (legible_key x Hx) as (_ & K1 & _). destruct (legible_key x' Hx') as (_ & K2 & _).
    apply first_colon in E as [Ek E]; [|done|done]. rewrite Ek, !sapp_assoc in E. apply sapp_inj_l in E.
    pose proof (text_start width l Hw Hl) as T1. pose proof (text_start width l' Hw Hl') as T2.
    destruct x as [| | | |k v|k v|k v| | | | | | |]; try (by exfalso; exact Hx); destruct x' as [| | | |k' v'|k' v'|k' v'| | | | | | |]; try (by exfalso; exact Hx'); try (exfalso; cbn [out_rest] in E; rewrite !sapp_assoc in E; first [exact (other_byte _ _ E)|exact (other_byte _ _ (eq_sym E))]);
      cbn [out_key out_rest legible] in *; subst k'.
    + cbn [String.append nl] in E. rewrite !sapp_assoc in E. injection E as E. apply first_colon in E as [-> E]; [|apply Hx|apply Hx']. by rewrite (IH l').
    + destruct Hx as (_ & Hx & _), Hx' as (Hx' & _). done.
    + destruct Hx' as (_ & Hx' & _), Hx as (Hx & _). done.
    + cbn [String.append nl] in E. rewrite !sapp_assoc in E. injection E as E. apply first_colon in E as [-> E]; [|apply Hx|apply Hx']. by rewrite (IH l').
    + rewrite !sapp_assoc in E. apply sapp_inj_l in E. apply lines_inj in E as [Es E]; [|intros y; apply split_lacks|intros y; apply split_lacks|done|done].
      rewrite (IH l') by done. f_equal. f_equal. by rewrite <- (join_split (Zbyte 10) v), <- (join_split (Zbyte 10) v'), Es.
Qed.

(** ** rekeyall *)
Lemma rekey_le us : ∀ w0, w0 ≤ fold_left (λ width u, if width <? String.length u then String.length u else width) us w0 ∧
  (∀ u, u ∈ us → String.length u ≤ fold_left (λ width u, if width <? String.length u then String.length u else width) us w0) ∧
  (fold_left (λ width u, if width <? String.length u then String.length u else width) us w0 = w0 ∨
   ∃ u, u ∈ us ∧ fold_left (λ width u, if width <? String.length u then String.length u else width) us w0 = String.length u).
Proof.
  induction us as [|u us IH]; intros w0; cbn [fold_left]; [split; [done|]; split; [intros u H; by apply elem_of_nil in H|by left]|].
  destruct (w0 <? String.length u) eqn:E; [apply Nat.ltb_lt in E|apply Nat.ltb_ge in E].
  - destruct (IH (String.length u)) as (H1 & H2 & H3). split; [lia|]. split; [intros x [->|Hx]%elem_of_cons; [lia|by apply H2]|].
    right. destruct H3 as [->|(x & Hx & ->)]; [exists u; split; [left|done]|exists x; split; [by right|done]].
  - destruct (IH w0) as (H1 & H2 & H3). split; [lia|]. split; [intros x [->|Hx]%elem_of_cons; [lia|by apply H2]|].
    destruct H3 as [H3|(x & Hx & H3)]; [by left|right; exists x; split; [by right|done]].
Qed.
Lemma rekey_at width u pass : utf8 u → (Z.of_nat width ≤ 1000000)%Z → begins_at (rekey_line width u pass) pass (1 + Nat.max width (rune_count u + 1)).
Proof.
  intros Hu Hw. unfold rekey_line, pad_left. apply Z.ltb_ge in Hw as ->.
  assert (utf8 (u +:+ ":")) as H1 by (apply utf8_app; [done|apply utf8_colon]).
  exists (gap (width - rune_count (u +:+ ":")) +:+ (u +:+ ":") +:+ " ").
  assert (utf8 ((u +:+ ":") +:+ " ")) as H2 by (apply utf8_app; [done|apply utf8_blank]).
  split; [apply utf8_app; [apply utf8_gap|done]|]. split; [by rewrite !sapp_assoc|].
  rewrite count_app; [|apply utf8_gap|done]. rewrite (count_app (u +:+ ":") " "); [|done|apply utf8_blank]. rewrite count_gap, (count_app u ":"); [|done|apply utf8_colon].
  change (rune_count " ") with 1. change (rune_count ":") with 1. lia.
Qed.
