(** Proofs about scpsync/scpsync.go. *)
From Verif Require Import Spec_Scp Proof_GoStr Proof_Utf8 Proof_Dialogue.
From stdpp Require Import options.

(** ** strings.Fields on words of any runes *)

Lemma decode_app s c t : (byteZ c < 128)%Z → s ≠ "" → decode_rune (s +:+ String c t) = decode_rune s.
Proof.
  intros Hc Hs. destruct s as [|c0 s]; [done|].
  assert (∀ lo hi, (128 ≤ lo)%Z → inr lo hi (byteZ c) = false) as Hi by (intros; apply inr_false; lia).
  change (String c0 s +:+ String c t) with (String c0 (s +:+ String c t)). unfold decode_rune. cbv zeta.
  destruct (byteZ c0 <? 128)%Z; [done|].
  destruct (inr 194 223 (byteZ c0)); [destruct s as [|c1 s]; cbn [String.append]; [by rewrite Hi|done]|].
  destruct (inr 224 239 (byteZ c0)).
  { destruct s as [|c1 [|c2 s]]; cbn [String.append]; [| |done].
    - destruct t; [done|]. by rewrite Hi by (destruct (byteZ c0 =? 224)%Z; lia).
    - rewrite (Hi 128%Z 191%Z) by lia. by rewrite andb_false_r. }
  destruct (inr 240 244 (byteZ c0)); [|done].
  destruct s as [|c1 [|c2 [|c3 s]]]; cbn [String.append]; [| | |done].
  - destruct t as [|? [|? ?]]; [done..|]. by rewrite Hi by (destruct (byteZ c0 =? 240)%Z; lia).
  - destruct t; [done|]. rewrite (Hi 128%Z 191%Z) by lia. by rewrite andb_false_r.
  - rewrite (Hi 128%Z 191%Z) by lia. by rewrite andb_false_r.
Qed.

Lemma decode_some c s : ∃ r w, decode_rune (String c s) = Some (r, w).
Proof. unfold decode_rune. cbv zeta. repeat case_match; eauto. Qed.
Lemma fields_word s : ∀ off k cur b c t, (byteZ c < 128)%Z → (k ≤ String.length s)%nat →
  Forall (λ r, IsSpace r = false) (range_from off k s).*2 → (k = 0%nat ∨ b = false) →
  fields_from cur k b (s +:+ String c t) = fields_from (cur +:+ s) 0 false (String c t).
Proof.
  induction s as [|x s IH]; intros off k cur b c t Hc Hk Hf Hb.
  - assert (k = 0%nat) as -> by (cbn in Hk; lia). rewrite sapp_nil. apply fields_b.
  - assert (cur +:+ String x s = (cur +:+ String x "") +:+ s) as -> by (by rewrite sapp_assoc).
    destruct k as [|k].
    + cbn [String.append fields_from]. change (String x (s +:+ String c t)) with (String x s +:+ String c t).
      rewrite decode_app by done. cbn [range_from] in Hf.
      destruct (decode_some x s) as (r & w & E). rewrite E in *.
      rewrite fmap_cons in Hf. apply Forall_cons in Hf as [Hr Hf]. cbn in Hr. rewrite Hr.
      destruct (decode_width _ _ _ E) as (? & _ & Hw & _). cbn [String.length] in Hw.
      apply (IH (S off)); [done|lia|done|by right].
    + destruct Hb as [?| ->]; [lia|]. cbn [String.append fields_from]. cbn [range_from] in Hf. cbn [String.length] in Hk.
      apply (IH (S off)); [done|lia|done|by right].
Qed.
Lemma fields_sep c t : (byteZ c < 128)%Z → IsSpace (byteZ c) = true → ∀ cur, cur ≠ "" →
  fields_from cur 0 false (String c t) = cur :: fields_from "" 0 false t.
Proof.
  intros Hc Hs cur Hn. cbn [fields_from]. rewrite decode_ascii by done. rewrite Hs.
  change (1 - 1)%nat with 0%nat. rewrite (fields_b _ true false). by destruct cur.
Qed.
Lemma Fields_word s c t : (byteZ c < 128)%Z → IsSpace (byteZ c) = true → plain_name s →
  Fields (s +:+ String c t) = s :: Fields t.
Proof.
  intros Hc Hs [Hn Hf]. unfold Fields at 1. rewrite (fields_word s 0 0); [|done|lia|exact Hf|by left].
  by rewrite fields_sep.
Qed.

Lemma plain_runes s : plain s → Forall (λ r, IsSpace r = false) (runes s).
Proof.
  unfold runes, go_range. generalize 0%nat at 1. induction s as [|x s IH]; intros off Hp; [constructor|].
  apply plain_cons in Hp as [Hx Hp]. cbn [range_from]. rewrite decode_ascii by lia.
  rewrite fmap_cons. constructor; [by apply IsSpace_plain|]. by apply IH.
Qed.
Lemma numeral_name s : numeral s → plain_name s.
Proof. intros H. split; [by destruct H|]. by apply plain_runes, numeral_plain. Qed.

(** ** Numbers *)

Lemma parse_FormatInt z : (0 ≤ z)%Z → ∃ c r, FormatInt z = String c r ∧ (48 ≤ byteZ c ≤ 57)%Z ∧ parse_digits 0 (FormatInt z) = Some z.
Proof.
  intros Hz. destruct z as [|p|p]; [by exists (Zbyte 48), ""| |lia].
  assert (FormatInt (Zpos p) = pretty_N_go (Npos p) "") as -> by done.
  destruct (pretty_go_head (Npos p) "") as (c & r & E & Hc); [lia|].
  exists c, r. split; [done|]. split; [done|]. by rewrite parse_pretty_go.
Qed.
Lemma digit_small c v : digit_val c = Some v → (0 ≤ v < 10)%Z.
Proof. unfold digit_val. destruct (48 <=? byteZ c)%Z eqn:E1, (byteZ c <=? 57)%Z eqn:E2; cbn; intros; simplify_eq; lia. Qed.
Lemma digits_ten s : ∀ acc, digits_base 10 acc s = parse_digits acc s.
Proof.
  induction s as [|c s IH]; intros acc; [done|]. cbn. destruct (digit_val c) as [v|] eqn:E; [|done].
  apply digit_small in E. replace (v <? 10)%Z with true by lia. apply IH.
Qed.
Lemma ParseInt32_FormatInt z : (0 ≤ z)%Z → ParseInt32 10 (FormatInt z) = if (z <? 2 ^ 31)%Z then Some z else None.
Proof.
  intros Hz. destruct (parse_FormatInt z Hz) as (c & r & E & Hc & Hp). rewrite E in *.
  unfold ParseInt32. replace (byteZ c =? 45)%Z with false by lia. replace (byteZ c =? 43)%Z with false by lia.
  cbv beta. rewrite digits_ten, Hp. by replace (- 2 ^ 31 <=? z)%Z with true by lia.
Qed.
Lemma sink_size_digits s c t : digit_val c = None → ∀ acc v, parse_digits acc s = Some v →
  sink_size acc (s +:+ String c t) = (v, String c t).
Proof.
  intros Hc. induction s as [|x s IH]; intros acc v H.
  - cbn in H. simplify_eq. cbn. by rewrite Hc.
  - cbn [parse_digits] in H. cbn [String.append sink_size]. destruct (digit_val x); [|done]. by apply IH.
Qed.

Lemma oct_digit_byte n : byteZ (Ascii.ascii_of_nat (48 + n mod 8)) = (48 + Z.of_nat (n mod 8))%Z.
Proof.
  assert (n mod 8 < 8)%nat as H by (apply Nat.mod_upper_bound; lia). generalize dependent (n mod 8)%nat. intros m H.
  unfold byteZ. rewrite Ascii.nat_ascii_embedding; lia.
Qed.
Lemma mod8_bound n : (n mod 8 < 8)%nat.
Proof. apply Nat.mod_upper_bound. lia. Qed.
Lemma digits_oct8 n acc s : digits_base 8 acc (oct_digit n +:+ s) = digits_base 8 (8 * acc + Z.of_nat (n mod 8)) s.
Proof.
  unfold oct_digit. cbn [String.append digits_base]. unfold digit_val. rewrite oct_digit_byte. pose proof (mod8_bound n).
  replace (48 <=? 48 + Z.of_nat (n mod 8))%Z with true by lia.
  replace (48 + Z.of_nat (n mod 8) <=? 57)%Z with true by lia. cbn [andb].
  replace (48 + Z.of_nat (n mod 8) - 48 <? 8)%Z with true by lia.
  f_equal. lia.
Qed.
Lemma div_digits mode : (mode < 4096)%nat →
  (8 * (8 * (8 * Z.of_nat (mode / 512 mod 8) + Z.of_nat (mode / 64 mod 8)) + Z.of_nat (mode / 8 mod 8)) + Z.of_nat (mode mod 8) = Z.of_nat mode)%Z.
Proof.
  intros H. replace (mode / 512)%nat with (mode / 8 / 8 / 8)%nat by (by rewrite !Nat.div_div by lia).
  replace (mode / 64)%nat with (mode / 8 / 8)%nat by (by rewrite !Nat.div_div by lia).
  pose proof (Nat.div_mod mode 8). pose proof (Nat.div_mod (mode / 8) 8). pose proof (Nat.div_mod (mode / 8 / 8) 8).
  assert (mode / 8 / 8 / 8 < 8)%nat by (rewrite !Nat.div_div by lia; apply Nat.div_lt_upper_bound; lia).
  rewrite (Nat.mod_small (mode / 8 / 8 / 8)) by lia. lia.
Qed.
Lemma ParseInt32_oct4 mode : (mode < 4096)%nat → ParseInt32 8 (oct4 mode) = Some (Z.of_nat mode).
Proof.
  intros H. unfold ParseInt32, oct4. change (oct_digit (mode / 512) +:+ ?r) with (String (Ascii.ascii_of_nat (48 + (mode / 512) mod 8)) r).
  cbv iota. rewrite oct_digit_byte. pose proof (mod8_bound (mode / 512)).
  replace (48 + Z.of_nat ((mode / 512) mod 8) =? 45)%Z with false by lia.
  replace (48 + Z.of_nat ((mode / 512) mod 8) =? 43)%Z with false by lia. cbv beta.
  change (String (Ascii.ascii_of_nat (48 + (mode / 512) mod 8)) ?r) with (oct_digit (mode / 512) +:+ r).
  rewrite !digits_oct8. rewrite <-(sapp_nil (oct_digit mode)), digits_oct8. cbn [digits_base].
  rewrite Z.mul_0_r, Z.add_0_l, div_digits by done.
  replace (- 2 ^ 31 <=? Z.of_nat mode)%Z with true by lia. by replace (Z.of_nat mode <? 2 ^ 31)%Z with true by lia.
Qed.
Lemma oct_plain n s : plain s → plain (oct_digit n +:+ s).
Proof.
  intros H. unfold oct_digit. cbn [String.append]. apply plain_cons. split; [|done].
  rewrite oct_digit_byte. pose proof (mod8_bound n). lia.
Qed.
Lemma oct4_name mode : plain_name (oct4 mode).
Proof.
  split; [done|]. apply plain_runes. unfold oct4. do 3 apply oct_plain. rewrite <-(sapp_nil (oct_digit mode)). apply oct_plain.
  intros ? ?%elem_of_nil; done.
Qed.

(** ** Reading *)

Lemma read_string_app l t : lacks (Zbyte 10) l → read_string (l +:+ newline +:+ t) = Some (l +:+ newline, t).
Proof.
  induction l as [|c l IH]; intros H; [reflexivity|]. cbn [lacks] in H. destruct H as [H1 H2].
  change (String c l +:+ newline +:+ t) with (String c (l +:+ newline +:+ t)). cbn [read_string].
  rewrite (proj2 (Ascii.eqb_neq _ _) H1), IH by done. reflexivity.
Qed.
Lemma read_full_app a : ∀ t, read_full (String.length a) (a +:+ t) = Some (a, t).
Proof. induction a as [|c a IH]; intros t; [by destruct t|]. cbn [String.append String.length read_full]. by rewrite IH. Qed.
Lemma read_full_inv n : ∀ s l t, read_full n s = Some (l, t) → s = l +:+ t ∧ String.length l = n.
Proof.
  induction n as [|n IH]; intros s l t H; [by destruct s; simplify_eq/=|].
  destruct s as [|c s]; [done|]. cbn [read_full] in H. destruct (read_full n s) as [[l' t']|] eqn:E; [|done].
  simplify_eq. apply IH in E as [-> <-]. done.
Qed.
Lemma unsnoc_app l x : unsnoc (l +:+ String x "") = Some (l, x).
Proof. induction l as [|c l IH]; [done|]. cbn [String.append unsnoc]. by rewrite IH. Qed.
Lemma unsnoc_inv s l x : unsnoc s = Some (l, x) → s = l +:+ String x "".
Proof.
  revert l x. induction s as [|c s IH]; intros l x H; [done|]. cbn [unsnoc] in H.
  destruct (unsnoc s) as [[l' x']|] eqn:E; simplify_eq; [by rewrite (IH _ _ eq_refl)|].
  destruct s; [done|]. cbn [unsnoc] in E. by destruct (unsnoc s) as [[]|].
Qed.
Lemma unsnoc_none s : unsnoc s = None → s = "".
Proof. destruct s; [done|]. cbn [unsnoc]. by destruct (unsnoc s) as [[]|]. Qed.
Lemma read_string_inv s : ∀ l t, read_string s = Some (l, t) → ∃ h, l = h +:+ newline ∧ s = h +:+ newline +:+ t.
Proof.
  induction s as [|c s IH]; intros l t H; [done|]. cbn [read_string] in H.
  destruct (Ascii.eqb_spec c (Zbyte 10)) as [->|]; [simplify_eq; by exists ""|].
  destruct (read_string s) as [[l' t']|] eqn:E; [|done]. simplify_eq.
  destruct (IH _ _ eq_refl) as (h & -> & ->). by exists (String c h).
Qed.

Lemma name_lacks s c : plain_name s → IsSpace (byteZ c) = true → (byteZ c < 128)%Z → lacks c s.
Proof.
  intros [_ Hf] Hs Hc. unfold runes, go_range in Hf. revert Hf.
  assert (∀ s off k, (k ≤ String.length s)%nat → Forall (λ r, IsSpace r = false) (range_from off k s).*2 →
     (∀ p q, s = p +:+ String c q → (String.length p < k)%nat → False) → lacks c s) as Hall.
  2:{ intros Hf. apply (Hall s 0%nat 0%nat); [lia|done|]. lia. }
  clear s. induction s as [|x s IH]; intros off k Hk Hf Hp; [done|]. cbn [lacks].
  assert (x ≠ c) as Hx.
  { intros ->. destruct k as [|k].
    - cbn [range_from] in Hf. rewrite decode_ascii in Hf by done. rewrite fmap_cons in Hf.
      apply Forall_cons in Hf as [Hr _]. cbn in Hr. congruence.
    - apply (Hp "" s); [done|cbn; lia]. }
  split; [done|]. destruct k as [|k].
  - cbn [range_from] in Hf. destruct (decode_some x s) as (r & w & E). rewrite E in *.
    destruct (decode_width _ _ _ E) as (? & _ & Hw & _). cbn [String.length] in Hw.
    rewrite fmap_cons in Hf. apply Forall_cons in Hf as [_ Hf].
    apply (IH (S off) (w - 1)%nat); [lia|done|].
    intros p q -> Hl.
    (* a byte below 128 is no continuation byte *)
    assert (∀ lo hi, (128 ≤ lo)%Z → inr lo hi (byteZ c) = false) as Hi by (intros; apply inr_false; lia).
    revert E. unfold decode_rune. cbv zeta.
    destruct (byteZ x <? 128)%Z; [intros; simplify_eq; lia|].
    destruct (inr 194 223 (byteZ x)).
    { destruct p as [|c1 p]; cbn [String.append]; [rewrite Hi by lia; intros; simplify_eq; lia|].
      destruct (inr 128 191 (byteZ c1)); intros; simplify_eq; cbn [String.length] in Hl; lia. }
    destruct (inr 224 239 (byteZ x)).
    { destruct p as [|c1 [|c2 p]]; cbn [String.append].
      - destruct q; [intros; simplify_eq; lia|]. rewrite Hi by (destruct (byteZ x =? 224)%Z; lia). cbn [andb]. intros; simplify_eq; lia.
      - rewrite (Hi 128%Z 191%Z) by lia. rewrite andb_false_r. intros; simplify_eq; lia.
      - destruct (_ && _); intros; simplify_eq; cbn [String.length] in Hl; lia. }
    destruct (inr 240 244 (byteZ x)); [|intros; simplify_eq; lia].
    destruct p as [|c1 [|c2 [|c3 p]]]; cbn [String.append].
    + destruct q as [|? [|? ?]]; [intros; simplify_eq; lia..|].
      rewrite Hi by (destruct (byteZ x =? 240)%Z; lia). cbn [andb]. intros; simplify_eq; lia.
    + destruct q; [intros; simplify_eq; lia|]. rewrite (Hi 128%Z 191%Z) by lia. rewrite andb_false_r. cbn [andb]. intros; simplify_eq; lia.
    + rewrite (Hi 128%Z 191%Z) by lia. rewrite andb_false_r. intros; simplify_eq; lia.
    + destruct (_ && _); intros; simplify_eq; cbn [String.length] in Hl; lia.
  - cbn [range_from] in Hf. cbn [String.length] in Hk. apply (IH (S off) k); [lia|done|].
    intros p q -> Hl. apply (Hp (String x p) q); [done|cbn; lia].
Qed.

Lemma newline_space : IsSpace (byteZ (Zbyte 10)) = true ∧ (byteZ (Zbyte 10) < 128)%Z.
Proof. done. Qed.
Lemma blank_space : IsSpace (byteZ (Zbyte 32)) = true ∧ (byteZ (Zbyte 32) < 128)%Z.
Proof. done. Qed.
Lemma Fields_empty : Fields "" = [].
Proof. done. Qed.
Lemma Fields_last s : plain_name s → Fields (s +:+ newline) = [s].
Proof. intros H. unfold newline. rewrite Fields_word by (done || apply newline_space). done. Qed.
Lemma Fields_next s t : plain_name s → Fields (s +:+ " " +:+ t) = s :: Fields t.
Proof. intros H. change (" " +:+ t) with (String (Zbyte 32) t). by rewrite Fields_word. Qed.

Lemma lacks_app' c a b : lacks c a → lacks c b → lacks c (a +:+ b).
Proof.
  induction a as [|x a IH]; intros H1 H2; [done|]. cbn [lacks] in H1. destruct H1.
  change (String x a +:+ b) with (String x (a +:+ b)). cbn [lacks]. auto.
Qed.

Section Read.
  Context (w : nat → bool) (Hw : ∀ n, w n = true).
  #[local] Set Default Proof Using "All".

  Lemma header_read h rest :
    lacks (Zbyte 10) h →
    readFile w ("C" +:+ h +:+ newline +:+ rest) =
    match Fields (h +:+ newline) with
    | [f0; f1; f2] =>
        match ParseInt32 8 f0 with
        | None => (1%nat, Bad "failed to parse the mode: %q (%w)")
        | Some mode =>
            match ParseInt32 10 f1 with
            | None => (1%nat, Bad "failed to parse the length: %q (%w)")
            | Some length =>
                if (length + 1 <? 0)%Z then (2%nat, Crash)
                else
                  match read_full (Z.to_nat (length + 1)) rest with
                  | None => (2%nat, Bad "EOF")
                  | Some (buf, _) =>
                      match unsnoc buf with
                      | None => (2%nat, Crash)
                      | Some (contents, last) =>
                          if negb (Ascii.eqb last nul_byte) then (2%nat, Bad "protocol error, expect 0 byte after file data")
                          else (3%nat, Done (mk_file f2 length mode contents))
                      end
                  end
            end
        end
    | _ => (1%nat, Bad "protocol demands 3 fields, got %d")
    end.
  Proof.
    intros Hl. unfold readFile. rewrite !Hw. cbn [negb].
    change ("C" +:+ h +:+ newline +:+ rest) with (("C" +:+ h) +:+ newline +:+ rest).
    rewrite read_string_app by (apply lacks_app'; [cbn; split; [discriminate|done]|done]).
    change (("C" +:+ h) +:+ newline) with (String (Zbyte 67) (h +:+ newline)). cbv iota.
    change (byteZ (Zbyte 67)) with 67%Z. cbn [orb Z.eqb Pos.eqb negb]. reflexivity.
  Qed.

  Lemma oct4_lacks mode : lacks (Zbyte 10) (oct4 mode).
  Proof. apply name_lacks; [apply oct4_name|done|done]. Qed.
  Lemma FormatInt_lacks z : lacks (Zbyte 10) (FormatInt z).
  Proof. apply name_lacks; [apply numeral_name, numeral_FormatInt|done|done]. Qed.

  Lemma source_header mode name contents rest :
    source mode name contents +:+ rest =
    "C" +:+ (oct4 mode +:+ " " +:+ FormatInt (Z.of_nat (String.length contents)) +:+ " " +:+ name) +:+ newline +:+
    (contents +:+ String nul_byte rest).
  Proof. unfold source. by rewrite !sapp_assoc. Qed.

  Lemma read_source mode name contents rest :
    (mode < 4096)%nat → plain_name name → (Z.of_nat (String.length contents) < 2 ^ 31)%Z →
    readFile w (source mode name contents +:+ rest) =
    (3%nat, Done (mk_file name (Z.of_nat (String.length contents)) (Z.of_nat mode) contents)).
  Proof.
    intros Hm Hn Hc. rewrite source_header, header_read.
    - rewrite !sapp_assoc, Fields_next by apply oct4_name.
      rewrite Fields_next by apply numeral_name, numeral_FormatInt. rewrite Fields_last by done.
      rewrite ParseInt32_oct4 by done. rewrite ParseInt32_FormatInt by lia.
      replace (Z.of_nat (String.length contents) <? 2 ^ 31)%Z with true by lia.
      replace (Z.of_nat (String.length contents) + 1 <? 0)%Z with false by lia.
      assert (Z.to_nat (Z.of_nat (String.length contents) + 1) = String.length (contents +:+ String nul_byte "")) as ->
        by (rewrite sapp_length; cbn [String.length]; lia).
      assert (contents +:+ String nul_byte rest = (contents +:+ String nul_byte "") +:+ rest) as -> by by rewrite sapp_assoc.
      rewrite read_full_app, unsnoc_app. by rewrite Ascii.eqb_refl.
    - apply lacks_app'; [apply oct4_lacks|]. apply lacks_app'; [cbn; split; [discriminate|done]|].
      apply lacks_app'; [apply FormatInt_lacks|]. apply lacks_app'; [cbn; split; [discriminate|done]|].
      apply name_lacks; [done|done|done].
  Qed.

  Lemma read_big mode name contents rest :
    (mode < 4096)%nat → plain_name name → (2 ^ 31 ≤ Z.of_nat (String.length contents))%Z →
    readFile w (source mode name contents +:+ rest) = (1%nat, Bad "failed to parse the length: %q (%w)").
  Proof.
    intros Hm Hn Hc. rewrite source_header, header_read.
    - rewrite !sapp_assoc, Fields_next by apply oct4_name.
      rewrite Fields_next by apply numeral_name, numeral_FormatInt. rewrite Fields_last by done.
      rewrite ParseInt32_oct4 by done. rewrite ParseInt32_FormatInt by lia.
      by replace (Z.of_nat (String.length contents) <? 2 ^ 31)%Z with false by lia.
    - apply lacks_app'; [apply oct4_lacks|]. apply lacks_app'; [cbn; split; [discriminate|done]|].
      apply lacks_app'; [apply FormatInt_lacks|]. apply lacks_app'; [cbn; split; [discriminate|done]|].
      apply name_lacks; [done|done|done].
  Qed.

  Lemma read_spaced mode n1 n2 contents rest :
    plain_name n1 → plain_name n2 →
    readFile w (source mode (n1 +:+ " " +:+ n2) contents +:+ rest) = (1%nat, Bad "protocol demands 3 fields, got %d").
  Proof.
    intros Hn1 Hn2. rewrite source_header, header_read.
    - rewrite !sapp_assoc, Fields_next by apply oct4_name.
      rewrite Fields_next by apply numeral_name, numeral_FormatInt.
      rewrite Fields_next by done. by rewrite Fields_last by done.
    - apply lacks_app'; [apply oct4_lacks|]. apply lacks_app'; [cbn; split; [discriminate|done]|].
      apply lacks_app'; [apply FormatInt_lacks|]. apply lacks_app'; [cbn; split; [discriminate|done]|].
      apply lacks_app'; [apply name_lacks; done|]. apply lacks_app'; [cbn; split; [discriminate|done]|].
      apply name_lacks; done.
  Qed.

  Lemma read_complaint msg rest :
    lacks (Zbyte 10) msg →
    readFile w (complaint msg +:+ rest) = (1%nat, Err 1 ("scp: " +:+ msg +:+ newline)).
  Proof.
    intros H.
    assert (complaint msg +:+ rest = (String (Zbyte 1) ("scp: " +:+ msg)) +:+ newline +:+ rest) as ->.
    { unfold complaint. change (String (Zbyte 1) ?x +:+ ?y) with (String (Zbyte 1) (x +:+ y)). f_equal. by rewrite !sapp_assoc. }
    unfold readFile. rewrite !Hw. cbn [negb].
    rewrite read_string_app; [|cbn [lacks]; split; [discriminate|]; apply lacks_app'; [cbn; repeat split; discriminate|done]].
    reflexivity.
  Qed.

  Lemma read_negative h f0 f1 f2 mode n rest :
    lacks (Zbyte 10) h → Fields (h +:+ newline) = [f0; f1; f2] → ParseInt32 8 f0 = Some mode →
    ParseInt32 10 f1 = Some n → (n < 0)%Z →
    readFile w ("C" +:+ h +:+ newline +:+ rest) = (2%nat, Crash).
  Proof.
    intros Hl Hf H0 H1 Hn. rewrite header_read by done. rewrite Hf, H0, H1.
    destruct (n + 1 <? 0)%Z eqn:E; [done|]. assert (n = -1)%Z as -> by lia. cbn [Z.add Z.to_nat].
    destruct rest; reflexivity.
  Qed.
End Read.

(** Whatever is sent and whichever writes succeed *)
Lemma read_done w s n f :
  readFile w s = (n, Done f) →
  ∃ h rest, s = "C" +:+ h +:+ newline +:+ f_contents f +:+ String nul_byte rest ∧
    f_length f = Z.of_nat (String.length (f_contents f)) ∧ n = 3%nat.
Proof.
  unfold readFile. destruct (negb (w 0%nat)); [done|].
  destruct (read_string s) as [[str rest]|] eqn:E; [|done]. destruct (read_string_inv _ _ _ E) as (h & -> & ->).
  destruct (h +:+ newline) as [|c str] eqn:Eh; [done|].
  destruct (_ || _); [done|]. destruct (byteZ c =? 67)%Z eqn:Ec; cbn [negb]; [|done].
  destruct (Fields str) as [|f0 [|f1 [|f2 [|? ?]]]]; try done.
  destruct (ParseInt32 8 f0) as [mode|]; [|done]. destruct (ParseInt32 10 f1) as [len|]; [|done].
  destruct (negb (w 1%nat)); [done|]. destruct (len + 1 <? 0)%Z eqn:El; [done|].
  destruct (read_full _ rest) as [[buf r]|] eqn:Er; [|done].
  destruct (unsnoc buf) as [[contents last]|] eqn:Eu; [|done].
  destruct (Ascii.eqb_spec last nul_byte) as [->|]; cbn [negb]; [|done]. destruct (negb (w 2%nat)); [done|].
  intros H. simplify_eq. cbn [f_contents f_length]. apply read_full_inv in Er as [-> Hlen]. apply unsnoc_inv in Eu as ->.
  rewrite sapp_length in Hlen. cbn [String.length] in Hlen.
  destruct h as [|c' h]; [by injection Eh as <- <-|]. injection Eh as -> <-.
  assert (c = Zbyte 67) as ->.
  { rewrite <-(Ascii.ascii_nat_embedding c). unfold byteZ in Ec. unfold Zbyte. f_equal. lia. }
  exists h, r. split; [|split; [lia|done]].
  change (String (Zbyte 67) h +:+ ?x) with (String (Zbyte 67) (h +:+ x)). change ("C" +:+ ?x) with (String (Zbyte 67) x).
  by rewrite sapp_assoc.
Qed.
Lemma read_crash w s n :
  readFile w s = (n, Crash) →
  ∃ h rest f0 f1 f2 len, s = "C" +:+ h +:+ newline +:+ rest ∧ Fields (h +:+ newline) = [f0; f1; f2] ∧
    ParseInt32 10 f1 = Some len ∧ (len < 0)%Z.
Proof.
  unfold readFile. destruct (negb (w 0%nat)); [done|].
  destruct (read_string s) as [[str rest]|] eqn:E; [|done]. destruct (read_string_inv _ _ _ E) as (h & -> & ->).
  destruct (h +:+ newline) as [|c str] eqn:Eh; [done|].
  destruct (_ || _); [done|]. destruct (byteZ c =? 67)%Z eqn:Ec; cbn [negb]; [|done].
  destruct (Fields str) as [|f0 [|f1 [|f2 [|? ?]]]] eqn:Ef; try done.
  destruct (ParseInt32 8 f0) as [mode|]; [|done]. destruct (ParseInt32 10 f1) as [len|] eqn:El; [|done].
  destruct (negb (w 1%nat)); [done|].
  destruct h as [|c' h]; [injection Eh as <- <-; done|]. injection Eh as -> <-.
  assert (c = Zbyte 67) as ->.
  { rewrite <-(Ascii.ascii_nat_embedding c). unfold byteZ in Ec. unfold Zbyte. f_equal. lia. }
  intros H. exists h, rest, f0, f1, f2, len. split; [done|]. split; [done|]. split; [done|].
  destruct (len + 1 <? 0)%Z eqn:E1; [lia|].
  destruct (read_full _ rest) as [[buf r]|] eqn:Er; [|done].
  destruct (unsnoc buf) as [[contents last]|] eqn:Eu.
  - destruct (negb (Ascii.eqb last nul_byte)); [done|]. by destruct (negb (w 2%nat)).
  - apply unsnoc_none in Eu as ->. apply read_full_inv in Er as [_ Hl]. cbn in Hl. lia.
Qed.

(** ** Sending *)

Lemma FormatOct3 mode : (64 ≤ mode < 512)%nat → "0" +:+ FormatOct mode = oct4 mode.
Proof.
  intros H. assert (mode / 8 / 8 < 8)%nat by (rewrite Nat.div_div by lia; apply Nat.div_lt_upper_bound; lia).
  assert (1 ≤ mode / 8 / 8)%nat by (rewrite Nat.div_div by lia; apply Nat.div_le_lower_bound; lia).
  assert (8 ≤ mode / 8)%nat by (apply Nat.div_le_lower_bound; lia).
  unfold FormatOct. destruct mode as [|[|[|mode]]]; [lia..|]. set (m := S (S (S mode))) in *. change (S (S (S mode))) with m.
  assert (∃ f, S m = S (S (S f))) as [f ->] by (exists (S mode); lia).
  cbn [oct_loop].
  replace (m / 8 =? 0)%nat with false by (symmetry; apply Nat.eqb_neq; lia).
  replace (m / 8 / 8 =? 0)%nat with false by (symmetry; apply Nat.eqb_neq; lia).
  replace (m / 8 / 8 / 8 =? 0)%nat with true by (symmetry; apply Nat.eqb_eq, Nat.div_small; lia).
  unfold oct4, oct_digit. rewrite (Nat.div_small m 512) by lia.
  replace (m / 64)%nat with (m / 8 / 8)%nat by (by rewrite Nat.div_div by lia). reflexivity.
Qed.
Lemma sink_oct n k acc s : sink_mode (S k) acc (oct_digit n +:+ s) = sink_mode k (8 * acc + Z.of_nat (n mod 8)) s.
Proof.
  unfold oct_digit. cbn [String.append sink_mode]. unfold oct_val. rewrite oct_digit_byte. pose proof (mod8_bound n).
  replace (48 <=? 48 + Z.of_nat (n mod 8))%Z with true by lia.
  replace (48 + Z.of_nat (n mod 8) <=? 55)%Z with true by lia. cbn [andb]. f_equal. lia.
Qed.
Lemma sink_oct4 mode s : (mode < 4096)%nat → sink_mode 4 0 (oct4 mode +:+ s) = Some (Z.of_nat mode, s).
Proof.
  intros H. unfold oct4. rewrite !sapp_assoc, !sink_oct. cbn [sink_mode]. rewrite Z.mul_0_r, Z.add_0_l. by rewrite div_digits.
Qed.
Lemma up_to_newline_app l t : lacks (Zbyte 10) l → up_to_newline (l +:+ newline +:+ t) = Some (l, t).
Proof.
  induction l as [|c l IH]; intros H; [reflexivity|]. cbn [lacks] in H. destruct H as [H1 H2].
  change (String c l +:+ newline +:+ t) with (String c (l +:+ newline +:+ t)). cbn [up_to_newline].
  rewrite (proj2 (Ascii.eqb_neq _ _) H1), IH by done. reflexivity.
Qed.

Lemma send_sink filename mode contents r :
  (64 ≤ mode < 512)%nat → bad_name (Base filename) = false → lacks (Zbyte 10) (Base filename) →
  let '(sent, res) := sendFile filename (Z.of_nat (String.length contents)) mode contents r in
  sink sent = Some (Z.of_nat mode, Base filename, contents) ∧ res = readResponse r.
Proof.
  intros Hm Hb Hn. unfold sendFile. rewrite Z.eqb_refl. cbn [negb]. split; [|done].
  change ("C0" +:+ ?x) with ("C" +:+ "0" +:+ x). rewrite !sapp_assoc.
  rewrite <-(sapp_assoc "0" (FormatOct mode)). rewrite FormatOct3 by done.
  unfold sink. change (expect (Zbyte 67) ("C" +:+ ?x)) with (Some x). cbn [mbind option_bind].
  rewrite sink_oct4 by lia. cbn [mbind option_bind].
  change (expect (Zbyte 32) (" " +:+ ?x)) with (Some x). cbn [mbind option_bind].
  destruct (parse_FormatInt (Z.of_nat (String.length contents))) as (c & s & E & Hc & Hp); [lia|].
  change (" " +:+ ?x) with (String (Zbyte 32) x).
  rewrite (sink_size_digits _ (Zbyte 32) _ eq_refl 0 _ Hp).
  change (expect (Zbyte 32) (String (Zbyte 32) ?x)) with (Some x). cbn [mbind option_bind].
  change (String (Zbyte 10) "" +:+ ?x) with (newline +:+ x).
  rewrite up_to_newline_app by done. cbn [mbind option_bind]. rewrite Hb.
  rewrite Nat2Z.id, read_full_app. cbn [mbind option_bind]. by rewrite String.eqb_refl.
Qed.

Lemma Base_ok path : (∃ p, Base path = p ∧ p ∈ split_on (Zbyte 47) path ∧ p ≠ "") ∨ Base path = "." ∨ Base path = "/".
Proof.
  unfold Base. destruct (String.eqb_spec path ""); [by right; left|].
  destruct (List.find _ _) as [p|] eqn:E; [|by right; right]. left. exists p. split; [done|].
  apply List.find_some in E as [Hin Hp]. rewrite <-elem_of_list_In, elem_of_reverse in Hin. split; [done|].
  intros ->. done.
Qed.
Lemma Base_file dir name : name ≠ "" → lacks (Zbyte 47) name → Base (dir +:+ String (Zbyte 47) name) = name.
Proof.
  intros Hn Hl. unfold Base. destruct (String.eqb_spec (dir +:+ String (Zbyte 47) name) ""); [by destruct dir|].
  rewrite split_on_snoc by done. rewrite reverse_snoc. cbn [List.find].
  by rewrite (proj2 (String.eqb_neq _ _) Hn).
Qed.
Lemma Base_name name : name ≠ "" → lacks (Zbyte 47) name → Base name = name.
Proof.
  intros Hn Hl. unfold Base. rewrite (proj2 (String.eqb_neq _ _) Hn). rewrite split_on_lacks by done. rewrite reverse_singleton.
  cbn [List.find]. by rewrite (proj2 (String.eqb_neq _ _) Hn).
Qed.
Lemma good_name name : name ≠ "" → lacks (Zbyte 47) name → name ≠ "." → name ≠ ".." → bad_name name = false.
Proof.
  intros H1 H2 H3 H4. unfold bad_name. rewrite !(proj2 (String.eqb_neq _ _)) by done. rewrite !orb_false_r. cbn [orb].
  clear -H2. induction name as [|c s IH]; [done|]. cbn [lacks] in H2. destruct H2 as [H H2].
  cbn [list_ascii_of_string map existsb]. rewrite IH by done. rewrite orb_false_r. apply Z.eqb_neq. intros E. apply H.
  rewrite <-(Ascii.ascii_nat_embedding c). unfold byteZ in E. unfold Zbyte. f_equal. lia.
Qed.
Lemma not_found_read lower w s :
  IsNotFoundErr lower (readFile w s).2 = true →
  ∃ msg rest, s = String (Zbyte 1) (msg +:+ newline +:+ rest) ∧ contains_str (lower (msg +:+ newline)) "no such file or directory" = true.
Proof.
  unfold readFile. destruct (negb (w 0%nat)); [done|].
  destruct (read_string s) as [[str rest]|] eqn:E; [|done]. destruct (read_string_inv _ _ _ E) as (h & -> & ->).
  destruct (h +:+ newline) as [|c str] eqn:Eh; [done|].
  destruct (byteZ c =? 1)%Z eqn:E1.
  - cbn [orb]. cbn [snd IsNotFoundErr]. intros [_ H]%andb_prop.
    assert (c = Zbyte 1) as ->.
    { rewrite <-(Ascii.ascii_nat_embedding c). unfold byteZ in E1. unfold Zbyte. f_equal. lia. }
    destruct h as [|c' h]; [by injection Eh as ?|]. injection Eh as -> <-. by exists h, rest.
  - cbn [orb]. destruct (byteZ c =? 2)%Z eqn:E2; [cbn; rewrite E1; done|].
    destruct (byteZ c =? 67)%Z; cbn [negb]; [|done].
    repeat (case_match; try done).
Qed.
