(** Proofs about strings written by other JSON writers. *)
From Verif Require Import Proof_GoStr Proof_Utf8 Proof_Json.
From Coq Require Import Lia.
From stdpp Require Import options.
Import Model_GoStr.
#[local] Open Scope Z_scope.

Lemma hex_val_char d : 0 ≤ d < 16 → hex_val (byteZ (hex_char d)) = Some d.
Proof.
  intros Hd. assert (d ∈ [0;1;2;3;4;5;6;7;8;9;10;11;12;13;14;15]) as H.
  { assert (d = 0 ∨ d = 1 ∨ d = 2 ∨ d = 3 ∨ d = 4 ∨ d = 5 ∨ d = 6 ∨ d = 7 ∨ d = 8 ∨ d = 9 ∨ d = 10 ∨ d = 11 ∨ d = 12 ∨ d = 13 ∨ d = 14 ∨ d = 15) as H by lia.
    repeat (destruct H as [->|H]; [by repeat constructor|]). subst d. by repeat constructor. }
  repeat (apply elem_of_cons in H as [->|H]; [done|]). by apply elem_of_nil in H.
Qed.
Lemma hex4_unit u t : 0 ≤ u < 65536 →
  hex4 (String (hex_char (u / 4096)) (String (hex_char (u / 256 mod 16)) (String (hex_char (u / 16 mod 16)) (String (hex_char (u mod 16)) t)))) = Some (u, t).
Proof.
  intros Hu. unfold hex4. rewrite !hex_val_char by first [apply Z.mod_pos_bound; lia|split; [apply Z.div_pos; lia|apply Z.div_lt_upper_bound; lia]].
  unfold mbind, option_bind. do 2 f_equal.
  pose proof (Z.div_mod u 16 ltac:(lia)). pose proof (Z.div_mod (u / 16) 16 ltac:(lia)). pose proof (Z.div_mod (u / 256) 16 ltac:(lia)).
  replace (u / 16 / 16) with (u / 256) in * by (rewrite Z.div_div by lia; done). replace (u / 256 / 16) with (u / 4096) in * by (rewrite Z.div_div by lia; done). lia.
Qed.
Lemma parse_unit f u t : 0 ≤ u < 65536 → is_surrogate u = false → parse_chars (S f) (unit_escape u +:+ t) = onto (encode_rune u) (parse_chars f t).
Proof.
  intros Hu Hs. unfold unit_escape. cbn [String.append]. cbn [parse_chars].
  change (byteZ (Zbyte 92) =? 34) with false. change (byteZ (Zbyte 92) =? 92) with true. change (simple_escape (byteZ (Zbyte 117))) with (@None Z).
  change (byteZ (Zbyte 117) =? 117) with true. cbn iota zeta. rewrite hex4_unit by done. by rewrite Hs.
Qed.
Lemma parse_pair f r t : 65536 ≤ r ≤ 1114111 → parse_chars (S f) (full_escape r +:+ t) = onto (encode_rune r) (parse_chars f t).
Proof.
  intros Hr. unfold full_escape. rewrite (proj2 (Z.ltb_ge r 65536)) by lia.
  assert (0 ≤ (r - 65536) / 1024 < 1024) as Ha by (split; [apply Z.div_pos; lia|apply Z.div_lt_upper_bound; lia]).
  pose proof (Z.mod_pos_bound (r - 65536) 1024 ltac:(lia)) as Hb. pose proof (Z.div_mod (r - 65536) 1024 ltac:(lia)) as Hd.
  set (a := (r - 65536) / 1024) in *. set (b := (r - 65536) mod 1024) in *.
  unfold unit_escape at 1. cbn [String.append]. cbn [parse_chars].
  change (byteZ (Zbyte 92) =? 34) with false. change (byteZ (Zbyte 92) =? 92) with true. change (simple_escape (byteZ (Zbyte 117))) with (@None Z).
  change (byteZ (Zbyte 117) =? 117) with true. cbn iota zeta. rewrite hex4_unit by lia.
  assert (is_surrogate (55296 + a) = true) as -> by (unfold is_surrogate, inr; lia).
  unfold unit_escape. cbn [String.append next_u]. change (byteZ (Zbyte 92) =? 92) with true. change (byteZ (Zbyte 117) =? 117) with true. cbn [andb].
  rewrite hex4_unit by lia. unfold surrogate_pair.
  assert (inr 55296 56319 (55296 + a) && inr 56320 57343 (56320 + b) = true) as -> by (unfold inr; lia).
  replace ((55296 + a - 55296) * 1024 + (56320 + b - 56320) + 65536) with r by lia. done.
Qed.
Lemma parse_escape f r t : valid_rune r = true → parse_chars (S f) (full_escape r +:+ t) = onto (encode_rune r) (parse_chars f t).
Proof.
  intros Hv. apply valid_rune_spec in Hv. destruct (Z.ltb_spec r 65536) as [Hl|Hl]; [|apply parse_pair; lia].
  unfold full_escape. rewrite (proj2 (Z.ltb_lt r 65536)) by done. apply parse_unit; [lia|]. unfold is_surrogate, inr. lia.
Qed.
Lemma full_escape_length r : (1 ≤ String.length (full_escape r))%nat.
Proof. unfold full_escape, unit_escape. destruct (r <? 65536); simpl; lia. Qed.
Lemma parse_escaped rs t : Forall (λ r, valid_rune r = true) rs → ∀ f, (length rs < f)%nat →
  parse_chars f (escaped rs +:+ String (Zbyte 34) t) = Some (encode rs, t).
Proof.
  induction 1 as [|r rs Hr _ IH]; intros f Hf; (destruct f as [|f]; [simpl in Hf; lia|]).
  - done.
  - unfold escaped. cbn [fold_right]. fold (escaped rs). rewrite sapp_assoc, parse_escape by done. rewrite IH by (simpl in Hf; lia). done.
Qed.
Lemma escaped_length rs : (length rs ≤ String.length (escaped rs))%nat.
Proof.
  induction rs as [|r rs IH]; [done|]. unfold escaped. cbn [fold_right]. fold (escaped rs). rewrite sapp_length. pose proof (full_escape_length r). simpl. lia.
Qed.
Lemma parse_str_escaped rs t : Forall (λ r, valid_rune r = true) rs →
  parse_str (String (Zbyte 34) (escaped rs +:+ String (Zbyte 34) t)) = Some (encode rs, t).
Proof.
  intros H. cbn [parse_str]. change (byteZ (Zbyte 34) =? 34) with true. cbn iota. apply parse_escaped; [done|].
  rewrite sapp_length. pose proof (escaped_length rs). lia.
Qed.
(** a unit that is no half of a pair *)
Lemma parse_lone f u t : 55296 ≤ u ≤ 57343 → next_u t = None → parse_chars (S f) (unit_escape u +:+ t) = onto (encode_rune RuneError) (parse_chars f t).
Proof.
  intros Hu Hn. unfold unit_escape. cbn [String.append]. cbn [parse_chars].
  change (byteZ (Zbyte 92) =? 34) with false. change (byteZ (Zbyte 92) =? 92) with true. change (simple_escape (byteZ (Zbyte 117))) with (@None Z).
  change (byteZ (Zbyte 117) =? 117) with true. cbn iota zeta. rewrite hex4_unit by lia.
  assert (is_surrogate u = true) as -> by (unfold is_surrogate, inr; lia). by rewrite Hn.
Qed.
