From Verif Require Import Proof_GoStr Proof_Utf8 Proof_Crypt2.
From Verif Require Export Spec_Json.
From Coq Require Import Lia.
From stdpp Require Import options.
Import Model_GoStr.
#[local] Open Scope nat_scope.

(** ** Strings *)

Lemma pieces_range k s : ∀ off, (pieces_from k s).*1 = (range_from off k s).*2.
Proof.
  revert k. induction s as [|c s IH]; intros k off; [done|]. cbn [pieces_from range_from]. destruct k as [|k]; [|apply IH].
  destruct (decode_rune (String c s)) as [[r w]|]; [|done]. cbn [fmap list_fmap fst snd]. f_equal. apply IH.
Qed.
Lemma pieces_runes s : (pieces s).*1 = runes s.
Proof. apply pieces_range. Qed.
Lemma pieces_valid s : Forall (λ p, valid_rune p.1 = true) (pieces s).
Proof. pose proof (runes_valid s) as H. rewrite <-pieces_runes in H. by rewrite Forall_fmap in H. Qed.

Lemma hex_val_digit z : (0 ≤ z < 16)%Z → ∃ c, hex_digit z = String c "" ∧ hex_val (byteZ c) = Some z.
Proof.
  intros Hz. unfold hex_digit, chr. eexists. split; [done|]. unfold hex_val.
  destruct (Z.ltb_spec z 10).
  - rewrite byteZ_Zbyte by lia. rewrite inr_true by lia. f_equal. lia.
  - rewrite byteZ_Zbyte by lia. rewrite inr_false, inr_true by lia. f_equal. lia.
Qed.

Lemma chr_app z t : chr z +:+ t = String (Zbyte z) t.
Proof. done. Qed.
Lemma encode_ascii r : (0 ≤ r < 128)%Z → encode_rune r = chr r.
Proof.
  intros Hr. unfold encode_rune. rewrite (proj2 (valid_rune_spec r)) by lia. unfold encode_valid.
  destruct (Z.leb_spec r 127); [done|lia].
Qed.

Lemma parse_u f r0 a b c d t : hex4 (String a (String b (String c (String d t)))) = Some (r0, t) → is_surrogate r0 = false →
  parse_chars (S f) (String (Zbyte 92) (String (Zbyte 117) (String a (String b (String c (String d t)))))) = onto (encode_rune r0) (parse_chars f t).
Proof.
  intros Hh Hs. cbn [parse_chars]. change (byteZ (Zbyte 92)) with 92%Z. change (byteZ (Zbyte 117)) with 117%Z. cbv zeta.
  change (92 =? 34)%Z with false. change (92 =? 92)%Z with true. change (simple_escape 117) with (@None Z). change (117 =? 117)%Z with true. cbv iota.
  rewrite Hh, Hs. done.
Qed.

Lemma parse_piece f r w t : valid_rune r = true → parse_chars (S f) (enc_piece (r, w) +:+ t) = onto (encode_rune r) (parse_chars f t).
Proof.
  intros Hv. pose proof (proj1 (valid_rune_spec r) Hv) as Hr. unfold enc_piece.
  destruct (Z.ltb_spec r 128) as [Hlt|Hge].
  - destruct (html_safe r) eqn:Hs.
    + unfold html_safe in Hs. apply andb_true_iff in Hs as [H32 Hn]. apply Z.leb_le in H32.
      apply negb_true_iff in Hn. rewrite !orb_false_iff, !Z.eqb_neq in Hn. destruct Hn as ((((H34 & H92) & _) & _) & _).
      rewrite chr_app. cbn [parse_chars]. cbv zeta. rewrite byteZ_Zbyte by lia.
      rewrite (proj2 (Z.eqb_neq _ _) H34), (proj2 (Z.eqb_neq _ _) H92), (proj2 (Z.ltb_ge r 32)), (proj2 (Z.ltb_lt r 128)) by lia.
      by rewrite encode_ascii by lia.
    + destruct (Z.eqb_spec r 92) as [->|H92]; [done|]. destruct (Z.eqb_spec r 34) as [->|H34]; [done|]. cbn [orb].
      destruct (Z.eqb_spec r 10) as [->|H10]; [done|]. destruct (Z.eqb_spec r 13) as [->|H13]; [done|]. destruct (Z.eqb_spec r 9) as [->|H9]; [done|].
      destruct (hex_val_digit (r / 16)) as (c1 & E1 & V1). { split; [apply Z.div_pos; lia|apply Z.div_lt_upper_bound; lia]. }
      destruct (hex_val_digit (r mod 16)) as (c2 & E2 & V2). { apply Z.mod_pos_bound. lia. }
      rewrite E1, E2. change ((chr 92 +:+ "u00" +:+ String c1 "" +:+ String c2 "") +:+ t) with
        (String (Zbyte 92) (String (Zbyte 117) (String (Zbyte 48) (String (Zbyte 48) (String c1 (String c2 t)))))).
      apply parse_u.
      * unfold hex4. change (hex_val (byteZ (Zbyte 48))) with (Some 0%Z). rewrite V1, V2. cbn [mbind option_bind]. f_equal. f_equal.
        pose proof (Z.div_mod r 16). lia.
      * unfold is_surrogate. apply inr_false. lia.
  - destruct (Z.eqb_spec r RuneError) as [->|Hne]; cbn [andb].
    { destruct (w =? 1) eqn:Ew.
      - change ((chr 92 +:+ "ufffd") +:+ t) with (String (Zbyte 92) (String (Zbyte 117) (String (Zbyte 102) (String (Zbyte 102) (String (Zbyte 102) (String (Zbyte 100) t)))))).
        by apply parse_u.
      - change ((RuneError =? 8232)%Z || (RuneError =? 8233)%Z) with false. cbv iota. reflexivity. }
    destruct (Z.eqb_spec r 8232) as [->|H1]; [by apply (parse_u f 8232)|]. destruct (Z.eqb_spec r 8233) as [->|H2]; [by apply (parse_u f 8233)|].
    cbn [orb]. pose proof (Proof_Utf8.decode_encode r t Hv) as Hd. pose proof (encode_rune_length r Hv) as Hl.
    assert (∃ c x, encode_rune r = String c x ∧ (128 ≤ byteZ c)%Z) as (c & x & Ec & Hc).
    { unfold encode_rune. rewrite Hv. unfold encode_valid. destruct (Z.leb_spec r 127); [lia|].
      destruct (Z.leb_spec r 2047); [|destruct (Z.leb_spec r 65535)]; cbn [bytes_str fold_right]; eexists _, _; (split; [done|]).
      - rewrite byteZ_Zbyte; [pose proof (Z.div_pos r 64); lia|]. pose proof (Z.div_pos r 64). assert (r / 64 < 32)%Z by (apply Z.div_lt_upper_bound; lia). lia.
      - pose proof (Z.div_pos r 4096). assert (r / 4096 < 16)%Z by (apply Z.div_lt_upper_bound; lia). rewrite byteZ_Zbyte; lia.
      - pose proof (Z.div_pos r 262144). assert (r / 262144 < 5)%Z by (apply Z.div_lt_upper_bound; lia). rewrite byteZ_Zbyte; lia. }
    rewrite Ec in *. change (String c x +:+ t) with (String c (x +:+ t)) in *. cbn [parse_chars]. cbv zeta.
    rewrite (proj2 (Z.eqb_neq (byteZ c) 34)), (proj2 (Z.eqb_neq (byteZ c) 92)), (proj2 (Z.ltb_ge (byteZ c) 32)), (proj2 (Z.ltb_ge (byteZ c) 128)) by lia.
    rewrite Hd. rewrite <-Hl. change (String c (x +:+ t)) with (String c x +:+ t). rewrite str_drop_app. by rewrite Ec.
Qed.

Lemma enc_piece_ne p : valid_rune p.1 = true → 0 < String.length (enc_piece p).
Proof.
  destruct p as [r w]. cbn [fst]. intros Hv. unfold enc_piece.
  repeat match goal with |- context [if ?b then _ else _] => destruct b end; rewrite ?sapp_length; cbn [String.length chr]; try lia.
  rewrite encode_rune_length by done. by apply RuneLen_pos.
Qed.
Lemma parse_pieces l t : Forall (λ p, valid_rune p.1 = true) l → ∀ n, length l < n →
  parse_chars n (enc_chars l +:+ chr 34 +:+ t) = Some (encode l.*1, t).
Proof.
  induction 1 as [|p l Hp Hl IH]; intros n Hn.
  - destruct n as [|n]; [lia|]. done.
  - destruct n as [|n]; [simpl in Hn; lia|]. simpl in Hn. cbn [enc_chars fold_right]. rewrite sapp_assoc. destruct p as [r w].
    rewrite parse_piece by done. change (fold_right (λ p s, enc_piece p +:+ s) "" l) with (enc_chars l). rewrite IH by lia. done.
Qed.
Lemma enc_chars_len l : Forall (λ p, valid_rune p.1 = true) l → length l ≤ String.length (enc_chars l).
Proof.
  induction 1 as [|p l Hp Hl IH]; [done|]. cbn [enc_chars fold_right]. rewrite sapp_length. apply enc_piece_ne in Hp.
  fold (enc_chars l). simpl. lia.
Qed.
Lemma parse_print_str s t : parse_str (print_str s +:+ t) = Some (fix_str s, t).
Proof.
  unfold print_str. rewrite !sapp_assoc, chr_app. cbn [parse_str]. change (byteZ (Zbyte 34) =? 34)%Z with true. cbv iota.
  pose proof (pieces_valid s) as Hv. rewrite parse_pieces.
  - by rewrite pieces_runes.
  - done.
  - rewrite sapp_length. pose proof (enc_chars_len _ Hv). lia.
Qed.
Lemma print_str_head s : ∃ x, print_str s = String (Zbyte 34) x.
Proof. unfold print_str. rewrite chr_app. eauto. Qed.

Lemma fix_utf8 s : utf8 s ↔ fix_str s = s.
Proof.
  unfold fix_str. split.
  - intros (rs & Hv & ->). by rewrite runes_encode.
  - intros H. exists (runes s). split; [apply runes_valid|done].
Qed.
Lemma fix_idem s : fix_str (fix_str s) = fix_str s.
Proof. apply fix_utf8. exists (runes s). split; [apply runes_valid|done]. Qed.

(** ** Numbers *)

Definition ends (t : string) : Prop := t = "" ∨ ∃ c r, t = String c r ∧ (byteZ c = 44 ∨ byteZ c = 93 ∨ byteZ c = 125)%Z.
Definition digits (s : string) : Prop := ∀ c, c ∈ str_bytes s → (48 ≤ byteZ c ≤ 57)%Z.
Lemma digits_cons c s : digits (String c s) ↔ (48 ≤ byteZ c ≤ 57)%Z ∧ digits s.
Proof.
  unfold digits, str_bytes. cbn [String.list_ascii_of_string]. split.
  - intros H. split; [apply H; left|]. intros y Hy. apply H. by right.
  - intros [H1 H2] y Hy. apply elem_of_cons in Hy as [->|Hy]; [done|by apply H2].
Qed.
Lemma take_digits_ok s t : digits s → ends t → take_digits (s +:+ t) = (s, t).
Proof.
  intros Hs Ht. induction s as [|c s IH].
  - cbn [String.append]. destruct Ht as [->|(c & r & -> & Hc)]; [done|]. cbn [take_digits]. unfold is_digit. rewrite inr_false by lia. done.
  - apply digits_cons in Hs as [Hc Hs]. cbn [String.append take_digits]. unfold is_digit. rewrite inr_true by lia. by rewrite IH.
Qed.
Lemma take_frac_ends t : ends t → take_frac t = Some ("", t).
Proof. intros [->|(c & r & -> & Hc)]; [done|]. cbn [take_frac]. by rewrite (proj2 (Z.eqb_neq _ _)) by lia. Qed.
Lemma take_exp_ends t : ends t → take_exp t = Some ("", t).
Proof.
  intros [->|(c & r & -> & Hc)]; [done|]. cbn [take_exp]. by rewrite (proj2 (Z.eqb_neq _ 101)), (proj2 (Z.eqb_neq _ 69)) by lia.
Qed.
Lemma pretty_go_head1 (x : N) s : (0 < x)%N → ∃ c r, pretty_N_go x s = String c r ∧ (49 ≤ byteZ c ≤ 57)%Z.
Proof.
  revert s. induction x as [x IH] using (well_founded_induction N.lt_wf_0). intros s Hx.
  rewrite pretty_N_go_step by done.
  destruct (decide (x / 10 = 0)%N) as [E|E].
  - rewrite E, pretty_N_go_0. eexists _, _. split; [done|]. assert (x < 10)%N as Hlt by (apply N.div_small_iff in E; lia).
    rewrite N.mod_small by lia.
    assert (x = 1 ∨ x = 2 ∨ x = 3 ∨ x = 4 ∨ x = 5 ∨ x = 6 ∨ x = 7 ∨ x = 8 ∨ x = 9)%N as H by lia.
    repeat destruct H as [->|H]; [..|subst x]; vm_compute; split; congruence.
  - apply IH; [apply N.div_lt; lia|by apply N.neq_0_lt_0].
Qed.
Lemma pretty_go_digits (x : N) s : digits s → digits (pretty_N_go x s).
Proof.
  revert s. induction (N.lt_wf_0 x) as [x _ IH]. intros s Hs. destruct (decide (x = 0)%N) as [->|Hne]; [by rewrite pretty_N_go_0|].
  rewrite pretty_N_go_step by lia. apply IH; [apply N.div_lt; lia|]. apply digits_cons. split; [|done].
  assert (x mod 10 < 10)%N as Hlt by (apply N.mod_lt; lia). revert Hlt. generalize (x mod 10)%N. intros d Hd.
  assert (d = 0 ∨ d = 1 ∨ d = 2 ∨ d = 3 ∨ d = 4 ∨ d = 5 ∨ d = 6 ∨ d = 7 ∨ d = 8 ∨ d = 9)%N as H by lia.
  repeat destruct H as [->|H]; [..|subst d]; vm_compute; split; congruence.
Qed.

(** Literals that are read back in front of a separator. *)
Definition lit_ok (lit : string) : Prop :=
  (∀ t, ends t → parse_num (lit +:+ t) = Some (lit, t)) ∧
  ∃ c r, lit = String c r ∧ (byteZ c = 45 ∨ 48 ≤ byteZ c ≤ 57)%Z.

Lemma take_int_ok c s t : (49 ≤ byteZ c ≤ 57)%Z → digits s → ends t → take_int (String c s +:+ t) = Some (String c s, t).
Proof.
  intros Hc Hs Ht. cbn [String.append take_int]. rewrite (proj2 (Z.eqb_neq _ _)) by lia. unfold is_digit. rewrite inr_true by lia.
  by rewrite take_digits_ok.
Qed.
Lemma digits_nil : digits "".
Proof. intros c Hc. by apply elem_of_nil in Hc. Qed.
Lemma lit_FormatInt z : lit_ok (FormatInt z).
Proof.
  destruct z as [|p|p].
  - split; [|by eexists _, _; split; [done|right; vm_compute; split; congruence]]. intros t Ht. change (FormatInt 0 +:+ t) with (String (Zbyte 48) t).
    unfold parse_num. cbn [take_sign]. change (byteZ (Zbyte 48) =? 45)%Z with false. cbv iota. cbn [take_int].
    change (byteZ (Zbyte 48) =? 48)%Z with true. cbv iota. cbn [mbind option_bind]. rewrite take_frac_ends by done. cbn [mbind option_bind].
    rewrite take_exp_ends by done. done.
  - assert (FormatInt (Zpos p) = pretty_N_go (Npos p) "") as -> by done.
    pose proof (pretty_go_digits (Npos p) "" digits_nil) as Hd. destruct (pretty_go_head1 (Npos p) "") as (c & r & E & Hc); [lia|]. rewrite E in *.
    apply digits_cons in Hd as [_ Hd]. split; [|eexists _, _; split; [done|lia]]. intros t Ht.
    unfold parse_num. assert (take_sign (String c r +:+ t) = ("", String c r +:+ t)) as ->.
    { cbn [String.append take_sign]. by rewrite (proj2 (Z.eqb_neq _ _)) by lia. }
    rewrite take_int_ok by done. cbn [mbind option_bind]. rewrite take_frac_ends by done. cbn [mbind option_bind].
    rewrite take_exp_ends by done. cbn [mbind option_bind]. by rewrite !sapp_nil.
  - assert (FormatInt (Zneg p) = String (Zbyte 45) (pretty_N_go (Npos p) "")) as -> by done.
    pose proof (pretty_go_digits (Npos p) "" digits_nil) as Hd. destruct (pretty_go_head1 (Npos p) "") as (c & r & E & Hc); [lia|]. rewrite E in *.
    apply digits_cons in Hd as [_ Hd]. split; [|eexists _, _; split; [done|left; done]]. intros t Ht.
    unfold parse_num. assert (take_sign (String (Zbyte 45) (String c r) +:+ t) = (String (Zbyte 45) "", String c r +:+ t)) as -> by done.
    rewrite take_int_ok by done. cbn [mbind option_bind]. rewrite take_frac_ends by done. cbn [mbind option_bind].
    rewrite take_exp_ends by done. cbn [mbind option_bind]. by rewrite !sapp_nil.
Qed.

(** ** Values *)

Section ind.
  Variable P : json → Prop.
  Hypothesis HNull : P JNull.
  Hypothesis HBool : ∀ b, P (JBool b).
  Hypothesis HNum : ∀ s, P (JNum s).
  Hypothesis HStr : ∀ s, P (JStr s).
  Hypothesis HArr : ∀ l, Forall P l → P (JArr l).
  Hypothesis HObj : ∀ l, Forall (λ p, P p.2) l → P (JObj l).
  Fixpoint json_rect' (j : json) : P j :=
    match j with
    | JNull => HNull
    | JBool b => HBool b
    | JNum s => HNum s
    | JStr s => HStr s
    | JArr l => HArr l ((fix go l := match l return Forall P l with [] => Forall_nil_2 _ | x :: r => Forall_cons_2 _ _ _ (json_rect' x) (go r) end) l)
    | JObj l => HObj l ((fix go l := match l return Forall (λ p, P p.2) l with [] => Forall_nil_2 _ | x :: r => Forall_cons_2 (λ p, P p.2) _ _ (json_rect' x.2) (go r) end) l)
    end.
End ind.

Fixpoint norm (j : json) : json :=
  match j with
  | JStr s => JStr (fix_str s)
  | JArr l => JArr (map norm l)
  | JObj l => JObj (map (λ p, (fix_str p.1, norm p.2)) l)
  | _ => j
  end.
Fixpoint wf (j : json) : Prop :=
  match j with
  | JNum lit => lit_ok lit
  | JArr l => fold_right (λ x Q, wf x ∧ Q) True l
  | JObj l => fold_right (λ p Q, wf p.2 ∧ Q) True l
  | _ => True
  end.

Lemma skip_ws_non c r : is_ws (byteZ c) = false → skip_ws (String c r) = String c r.
Proof. intros H. cbn [skip_ws]. by rewrite H. Qed.
Lemma is_ws_false b : (33 ≤ b)%Z → is_ws b = false.
Proof. intros H. unfold is_ws. by rewrite !(proj2 (Z.eqb_neq _ _)) by lia. Qed.

Lemma print_head j : wf j → ∃ c r, print j = String c r ∧ (33 ≤ byteZ c)%Z ∧ (byteZ c ≠ 44 ∧ byteZ c ≠ 93 ∧ byteZ c ≠ 125)%Z.
Proof.
  intros Hw. destruct j as [|[]|lit|s|l|l]; cbn [print].
  1-3: eexists _, _; (split; [done|]); vm_compute; repeat split; congruence.
  - destruct Hw as [_ (c & r & -> & Hc)]. eexists _, _. split; [done|]. lia.
  - destruct (print_str_head s) as [x ->]. eexists _, _; (split; [done|]); vm_compute; repeat split; congruence.
  - eexists _, _; (split; [done|]); vm_compute; repeat split; congruence.
  - eexists _, _; (split; [done|]); vm_compute; repeat split; congruence.
Qed.

Lemma close_more b t : close_or b (String (Zbyte 44) t) = Some (true, t).
Proof. done. Qed.
Lemma close_end b t : (33 ≤ b < 128)%Z → b ≠ 44%Z → close_or b (String (Zbyte b) t) = Some (false, t).
Proof.
  intros Hb Hn. unfold close_or. rewrite skip_ws_non by (rewrite byteZ_Zbyte by lia; apply is_ws_false; lia).
  rewrite byteZ_Zbyte by lia. rewrite (proj2 (Z.eqb_neq _ _) Hn), Z.eqb_refl. done.
Qed.

Definition joined (l : list string) : string := go_join "," l.
Lemma joined_cons x y l : joined (x :: y :: l) = x +:+ String (Zbyte 44) (joined (y :: l)).
Proof. unfold joined. by rewrite join_cons. Qed.
Lemma joined_len x l : In x l → String.length x ≤ String.length (joined l).
Proof.
  induction l as [|y [|z l] IH]; [done| |].
  - intros [->|[]]. unfold joined. cbn [go_join]. lia.
  - intros H. rewrite joined_cons, sapp_length. cbn [String.length]. destruct H as [->|H]; [lia|]. specialize (IH H). lia.
Qed.
Lemma joined_count l : (∀ x, In x l → 0 < String.length x) → length l ≤ String.length (joined l).
Proof.
  induction l as [|y [|z l] IH]; intros H.
  - simpl. lia.
  - unfold joined. cbn [go_join length]. specialize (H y (or_introl eq_refl)). lia.
  - rewrite joined_cons, sapp_length. cbn [String.length]. specialize (IH (λ x Hx, H x (or_intror Hx))).
    change (length (y :: z :: l)) with (S (length (z :: l))). lia.
Qed.

Lemma word_ok w j t : word w j (w +:+ t) = Some (j, t).
Proof. unfold word. rewrite (proj2 (has_prefix_spec _ _)) by eauto. by rewrite str_drop_app. Qed.
Lemma parse_print j : wf j → ∀ fuel t, ends t → String.length (print j) < fuel → parse_val fuel (print j +:+ t) = Some (norm j, t).
Proof.
  induction j as [|b|lit|s|l IH|l IH] using json_rect'; intros Hw fuel t Ht Hf; (destruct fuel as [|f]; [lia|]).
  - apply (word_ok "null").
  - destruct b; [apply (word_ok "true")|apply (word_ok "false")].
  - destruct Hw as [Hp (c & r & E & Hc)]. cbn [print] in *. specialize (Hp t Ht). rewrite E in *. cbn [String.append] in *. cbn [parse_val]. cbv zeta.
    rewrite !(proj2 (Z.eqb_neq (byteZ c) _)) by lia. rewrite Hp. done.
  - cbn [print norm]. destruct (print_str_head s) as [x E]. pose proof (parse_print_str s t) as Hp. rewrite E in *. cbn [String.append] in *. cbn [parse_val]. cbv zeta.
    change (byteZ (Zbyte 34)) with 34%Z. change (34 =? 123)%Z with false. change (34 =? 91)%Z with false. change (34 =? 34)%Z with true. cbv iota.
    rewrite Hp. done.
  - cbn [print norm] in *. fold (joined (map print l)) in *. change ("[" +:+ joined (map print l) +:+ "]") with (String (Zbyte 91) (joined (map print l) +:+ String (Zbyte 93) "")) in *.
    change (String (Zbyte 91) (joined (map print l) +:+ String (Zbyte 93) "") +:+ t) with (String (Zbyte 91) ((joined (map print l) +:+ String (Zbyte 93) "") +:+ t)).
    rewrite sapp_assoc. change (String (Zbyte 93) "" +:+ t) with (String (Zbyte 93) t). cbn [String.length] in Hf. rewrite sapp_length in Hf. cbn [String.length] in Hf.
    cbn [parse_val]. cbv zeta. change (byteZ (Zbyte 91)) with 91%Z. change (91 =? 123)%Z with false. change (91 =? 91)%Z with true. cbv iota.
    assert (∀ x, In x l → wf x) as Hwf. { clear -Hw. induction l as [|y l IH]; [done|]. cbn in Hw. destruct Hw as [H1 H2]. intros x [->|Hx]; [done|]. by apply IH. }
    destruct l as [|x l]; [reflexivity|].
    assert (closes 93 (joined (map print (x :: l)) +:+ String (Zbyte 93) t) = None) as ->.
    { destruct (print_head x) as (c & r & E & H33 & H44 & H93 & H125); [apply Hwf; by left|].
      assert (∃ r', joined (map print (x :: l)) = String c r') as [r' ->].
      { cbn [map]. rewrite E. destruct l; [by exists r|]. cbn [map]. rewrite joined_cons. cbn [String.append]. eauto. }
      unfold closes. cbn [String.append]. rewrite skip_ws_non by by apply is_ws_false. by rewrite (proj2 (Z.eqb_neq _ _) H93). }
    assert (∀ f2 l, l ≠ [] → (∀ x, In x l → wf x) → Forall (λ j, wf j → ∀ fuel t, ends t → String.length (print j) < fuel → parse_val fuel (print j +:+ t) = Some (norm j, t)) l →
      String.length (joined (map print l)) < f → length l ≤ f2 →
      parse_elems (parse_val f) f2 (joined (map print l) +:+ String (Zbyte 93) t) = Some (map norm l, t)) as Hlist.
    { clear. induction f2 as [|f2 IH2]; intros l Hne Hwf IH Hlen Hf2; [destruct l; [done|simpl in Hf2; lia]|].
      destruct l as [|x l]; [done|]. cbn [parse_elems]. apply Forall_cons in IH as [IHx IHl].
      destruct (print_head x) as (c & r & E & H33 & _); [apply Hwf; by left|].
      assert (∀ u, skip_ws (print x +:+ u) = print x +:+ u) as Hsk.
      { intros u. rewrite E. cbn [String.append]. apply skip_ws_non. by apply is_ws_false. }
      destruct l as [|y l].
      - cbn [map]. unfold joined. cbn [go_join]. rewrite Hsk. rewrite IHx; [|by apply Hwf; left| |].
        + cbn [mbind option_bind]. rewrite (close_end 93) by lia. done.
        + right. eexists _, _. split; [done|]. vm_compute. auto.
        + unfold joined in Hlen. cbn [map go_join] in Hlen. lia.
      - cbn [map]. rewrite joined_cons, sapp_assoc. cbn [String.append]. rewrite Hsk.
        change (map print (x :: y :: l)) with (print x :: print y :: map print l) in Hlen.
        rewrite joined_cons, sapp_length in Hlen. cbn [String.length] in Hlen.
        rewrite IHx; [|by apply Hwf; left| |lia].
        + cbn [mbind option_bind]. rewrite close_more. cbn [mbind option_bind].
          change (joined (print y :: map print l)) with (joined (map print (y :: l))).
          rewrite IH2; [done|done| |done| |].
          * intros z Hz. apply Hwf. by right.
          * change (map print (y :: l)) with (print y :: map print l). lia.
          * cbn [length] in *. lia.
        + right. eexists _, _. split; [done|]. vm_compute. auto. }
    rewrite Hlist; [done|done|done|done|lia|].
    assert (length (x :: l) ≤ String.length (joined (map print (x :: l)))); [|lia].
    rewrite <-(map_length print (x :: l)). apply joined_count. intros z Hz. apply in_map_iff in Hz as (w & <- & Hw').
    destruct (print_head w) as (c & r & E & _); [by apply Hwf|]. rewrite E. cbn [String.length]. lia.
  - cbn [print norm] in *. set (pm := λ p : string * json, print_str p.1 +:+ ":" +:+ print p.2) in *.
    fold (joined (map pm l)) in *. change ("{" +:+ joined (map pm l) +:+ "}") with (String (Zbyte 123) (joined (map pm l) +:+ String (Zbyte 125) "")) in *.
    change (String (Zbyte 123) (joined (map pm l) +:+ String (Zbyte 125) "") +:+ t) with (String (Zbyte 123) ((joined (map pm l) +:+ String (Zbyte 125) "") +:+ t)).
    rewrite sapp_assoc. change (String (Zbyte 125) "" +:+ t) with (String (Zbyte 125) t). cbn [String.length] in Hf. rewrite sapp_length in Hf. cbn [String.length] in Hf.
    cbn [parse_val]. cbv zeta. change (byteZ (Zbyte 123)) with 123%Z. change (123 =? 123)%Z with true. cbv iota.
    assert (∀ x, In x l → wf x.2) as Hwf. { clear -Hw. induction l as [|y l IH]; [done|]. cbn in Hw. destruct Hw as [H1 H2]. intros x [->|Hx]; [done|]. by apply IH. }
    destruct l as [|x l]; [reflexivity|].
    assert (∀ x, ∃ r, pm x = String (Zbyte 34) r) as Hpm.
    { intros y. unfold pm. destruct (print_str_head y.1) as [r ->]. cbn [String.append]. eauto. }
    assert (closes 125 (joined (map pm (x :: l)) +:+ String (Zbyte 125) t) = None) as ->.
    { destruct (Hpm x) as [r E].
      assert (∃ r', joined (map pm (x :: l)) = String (Zbyte 34) r') as [r' ->].
      { cbn [map]. rewrite E. destruct l; [by exists r|]. cbn [map]. rewrite joined_cons. cbn [String.append]. eauto. }
      reflexivity. }
    assert (∀ f2 l, l ≠ [] → (∀ x, In x l → wf x.2) → Forall (λ p, wf p.2 → ∀ fuel t, ends t → String.length (print p.2) < fuel → parse_val fuel (print p.2 +:+ t) = Some (norm p.2, t)) l →
      String.length (joined (map pm l)) < f → length l ≤ f2 →
      parse_members (parse_val f) f2 (joined (map pm l) +:+ String (Zbyte 125) t) = Some (map (λ p, (fix_str p.1, norm p.2)) l, t)) as Hlist.
    { clear -Hpm. induction f2 as [|f2 IH2]; intros l Hne Hwf IH Hlen Hf2; [destruct l; [done|simpl in Hf2; lia]|].
      destruct l as [|x l]; [done|]. cbn [parse_members]. apply Forall_cons in IH as [IHx IHl].
      assert (∀ u, ends u → String.length (print x.2) < f → parse_member (parse_val f) (pm x +:+ u) = Some (fix_str x.1, norm x.2, u)) as Hmem.
      { intros u Hu Hlx. unfold parse_member. destruct (Hpm x) as [r E].
        assert (skip_ws (pm x +:+ u) = pm x +:+ u) as -> by (by rewrite E). unfold pm. rewrite sapp_assoc.
        rewrite parse_print_str. cbn [mbind option_bind]. change ((":" +:+ print x.2) +:+ u) with (String (Zbyte 58) (print x.2 +:+ u)).
        rewrite skip_ws_non by done. change (byteZ (Zbyte 58) =? 58)%Z with true. cbv iota.
        destruct (print_head x.2) as (c & r2 & E2 & H33 & _); [apply Hwf; by left|].
        assert (skip_ws (print x.2 +:+ u) = print x.2 +:+ u) as ->. { rewrite E2. cbn [String.append]. apply skip_ws_non. by apply is_ws_false. }
        rewrite IHx; [done|by apply Hwf; left|done|done]. }
      assert (String.length (print x.2) ≤ String.length (pm x)) as Hlp. { unfold pm. rewrite !sapp_length. lia. }
      destruct l as [|y l].
      - cbn [map]. unfold joined. cbn [go_join]. unfold joined in Hlen. cbn [map go_join] in Hlen. rewrite Hmem; [| |lia].
        + cbn [mbind option_bind]. rewrite (close_end 125) by lia. done.
        + right. eexists _, _. split; [done|]. vm_compute. auto.
      - cbn [map]. rewrite joined_cons, sapp_assoc. cbn [String.append].
        change (map pm (x :: y :: l)) with (pm x :: pm y :: map pm l) in Hlen.
        rewrite joined_cons, sapp_length in Hlen. cbn [String.length] in Hlen.
        rewrite Hmem; [| |lia].
        + cbn [mbind option_bind]. rewrite close_more. cbn [mbind option_bind].
          change (joined (pm y :: map pm l)) with (joined (map pm (y :: l))).
          rewrite IH2; [done|done| |done| |].
          * intros z Hz. apply Hwf. by right.
          * change (map pm (y :: l)) with (pm y :: map pm l). lia.
          * cbn [length] in *. lia.
        + right. eexists _, _. split; [done|]. vm_compute. auto. }
    rewrite Hlist; [done|done|done|done|lia|].
    assert (length (x :: l) ≤ String.length (joined (map pm (x :: l)))); [|lia].
    rewrite <-(map_length pm (x :: l)). apply joined_count. intros z Hz. apply in_map_iff in Hz as (w & <- & Hw').
    destruct (Hpm w) as [r ->]. cbn [String.length]. lia.
Qed.

Lemma parse_json_print j : wf j → parse_json (print j) = Some (norm j).
Proof.
  intros Hw. unfold parse_json. destruct (print_head j Hw) as (c & r & E & H33 & _).
  assert (skip_ws (print j) = print j) as ->. { rewrite E. apply skip_ws_non. by apply is_ws_false. }
  rewrite <-(sapp_nil (print j)) at 2. rewrite parse_print; [done|done|by left|lia].
Qed.
