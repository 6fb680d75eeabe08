(** Proofs about base32 and codes. *)
From Verif Require Import Spec_Otp Proof_GoStr Proof_Url Proof_Otp.
From Coq Require Import Lia.
From stdpp Require Import options.
Import Model_GoStr.
#[local] Open Scope Z_scope.

(** ** One quantum *)
Definition upper_letter (c : Ascii.ascii) (v : Z) : Prop := b32_val c = Some v.
Lemma b32_range c v : b32_val c = Some v → 0 ≤ v < 32.
Proof.
  unfold b32_val, inr. destruct ((65 <=? byteZ c) && (byteZ c <=? 90)) eqn:E.
  - apply andb_true_iff in E as [E1%Z.leb_le E2%Z.leb_le]. intros [= <-]. lia.
  - destruct ((50 <=? byteZ c) && (byteZ c <=? 55)) eqn:E'; [|done]. apply andb_true_iff in E' as [E1%Z.leb_le E2%Z.leb_le]. intros [= <-]. lia.
Qed.
Lemma letter_no_pad c v : b32_val c = Some v → is_pad c = false.
Proof. unfold is_pad. intros H. apply Z.eqb_neq. intros E. unfold b32_val in H. by rewrite E in H. Qed.
Lemma quantum_letters l vs k acc rest : Forall2 upper_letter l vs → (length l ≤ k)%nat → quantum k acc (l ++ rest) = quantum (k - length l) (acc ++ vs) rest.
Proof.
  intros H. revert k acc. induction H as [|c v l vs Hc H IH]; intros k acc Hk.
  - cbn. by rewrite Nat.sub_0_r, app_nil_r.
  - cbn in Hk. destruct k as [|k]; [lia|]. cbn [app quantum length Nat.sub]. rewrite (letter_no_pad _ _ Hc). cbn [andb]. unfold upper_letter in Hc. rewrite Hc.
    rewrite IH by lia. by rewrite <-app_assoc.
Qed.
Definition pads (n : nat) : list Ascii.ascii := replicate n (Zbyte 61).
Lemma pads_pad n : forallb is_pad (pads n) = true.
Proof. by induction n. Qed.
Definition good_len (j : nat) : bool := (j =? 2)%nat || (j =? 4)%nat || (j =? 5)%nat || (j =? 7)%nat.
Lemma quantum_end vs : (0 < length vs < 8)%nat → quantum (8 - length vs) vs (pads (8 - length vs)) = if good_len (length vs) then Some (vs, true, pads (7 - length vs)) else None.
Proof.
  intros H. remember (length vs) as j eqn:Hj.
  destruct j as [|[|[|[|[|[|[|[|j]]]]]]]]; try lia; cbn -[length is_pad b32_val take forallb]; rewrite <-?Hj; reflexivity.
Qed.

(** ** All of it *)
Fixpoint packs (fuel : nat) (vs : list Z) : list Ascii.ascii :=
  match fuel, vs with
  | _, [] => []
  | O, _ => []
  | S f, _ => pack (take 8 vs) ++ packs f (drop 8 vs)
  end.
Definition fits (n : nat) : bool := (n mod 8 =? 0)%nat || good_len (n mod 8).
Definition npad (n : nat) : nat := if (n mod 8 =? 0)%nat then 0 else 8 - n mod 8.
Lemma b32_loop_ok f l vs : Forall2 upper_letter l vs → (length l ≤ f)%nat →
  b32_loop f (l ++ pads (npad (length l))) = if fits (length l) then Some (packs f vs) else None.
Proof.
  revert l vs. induction f as [|f IH]; intros l vs H Hf.
  - destruct l; [|cbn in Hf; lia]. inversion H; subst. done.
  - destruct (decide (length l < 8)%nat) as [Hs|Hs].
    + destruct l as [|c l0]; [inversion H; subst; done|]. set (l := c :: l0) in *.
      assert (length l mod 8 = length l)%nat as Em by (by apply Nat.mod_small).
      unfold npad, fits. rewrite Em. assert (length l =? 0 = false)%nat as -> by done. cbn [orb].
      assert (length l = length vs) as El by (by eapply Forall2_length).
      assert (b32_loop (S f) (l ++ pads (8 - length l)) = '(vals, ended, rest) ← quantum 8 [] (l ++ pads (8 - length l)); if (ended : bool) then Some (pack vals) else app (pack vals) <$> b32_loop f rest) as -> by done.
      rewrite (quantum_letters l vs) by (done || lia). cbn [app]. rewrite El. rewrite quantum_end by (rewrite <-El; unfold l; cbn; unfold l in Hs; cbn in Hs; lia).
      destruct (good_len (length vs)); [|done]. cbn [mbind option_bind].
      destruct vs as [|v vs0]; [done|]. cbn [packs]. rewrite take_ge, drop_ge by (rewrite <-El; lia). by destruct f; cbn; rewrite app_nil_r.
    + assert (length l = length vs) as El by (by eapply Forall2_length).
      rewrite <-(take_drop 8 l). rewrite <-(take_drop 8 vs) in H. 
      assert (Forall2 upper_letter (take 8 l) (take 8 vs)) as H1 by (apply Forall2_take; by rewrite (take_drop 8 vs) in H).
      assert (Forall2 upper_letter (drop 8 l) (drop 8 vs)) as H2 by (apply Forall2_drop; by rewrite (take_drop 8 vs) in H).
      assert (length (take 8 l) = 8)%nat as L8 by (rewrite take_length; lia).
      assert (length (take 8 l ++ drop 8 l) = 8 + length (drop 8 l))%nat as El2 by (rewrite app_length; lia).
      rewrite El2.
      assert ((8 + length (drop 8 l)) mod 8 = length (drop 8 l) mod 8)%nat as Em.
      { replace (8 + length (drop 8 l))%nat with (length (drop 8 l) + 1 * 8)%nat by lia. by rewrite Nat.mod_add. }
      unfold npad, fits. rewrite Em. rewrite <-app_assoc.
      destruct (take 8 l) as [|c t] eqn:Et; [done|]. 
      assert (∀ x, b32_loop (S f) ((c :: t) ++ x) = '(vals, ended, rest) ← quantum 8 [] ((c :: t) ++ x); if (ended : bool) then Some (pack vals) else app (pack vals) <$> b32_loop f rest) as -> by done.
      rewrite (quantum_letters (c :: t) (take 8 vs)) by (done || lia). rewrite L8. cbn [Nat.sub quantum mbind option_bind app].
      specialize (IH (drop 8 l) (drop 8 vs) H2). unfold npad, fits in IH. rewrite IH by (rewrite drop_length; lia).
      destruct (_ || _); [|done]. cbn [fmap option_fmap option_map]. destruct vs as [|v vs0]; [cbn in El; destruct l; [cbn in Hs; lia|done]|]. done.
Qed.

(** ** Bits *)
Lemma bits8 b : bits 8 b = [b / 128 mod 2; b / 64 mod 2; b / 32 mod 2; b / 16 mod 2; b / 8 mod 2; b / 4 mod 2; b / 2 mod 2; b mod 2].
Proof. unfold bits. cbn [seq rev app fmap list_fmap]. change (2 ^ Z.of_nat 0) with 1. change (2 ^ Z.of_nat 1) with 2. change (2 ^ Z.of_nat 2) with 4. change (2 ^ Z.of_nat 3) with 8. change (2 ^ Z.of_nat 4) with 16. change (2 ^ Z.of_nat 5) with 32. change (2 ^ Z.of_nat 6) with 64. change (2 ^ Z.of_nat 7) with 128. by rewrite Z.div_1_r. Qed.
Lemma bits5 b : bits 5 b = [b / 16 mod 2; b / 8 mod 2; b / 4 mod 2; b / 2 mod 2; b mod 2].
Proof. unfold bits. cbn [seq rev app fmap list_fmap]. change (2 ^ Z.of_nat 0) with 1. change (2 ^ Z.of_nat 1) with 2. change (2 ^ Z.of_nat 2) with 4. change (2 ^ Z.of_nat 3) with 8. change (2 ^ Z.of_nat 4) with 16. change (2 ^ Z.of_nat 5) with 32. change (2 ^ Z.of_nat 6) with 64. change (2 ^ Z.of_nat 7) with 128. by rewrite Z.div_1_r. Qed.
Lemma byte0_bits a b : 0 ≤ a < 32 → 0 ≤ b < 32 → bits 8 (byteZ (Zbyte (a * 8 + b / 4))) = bits 5 a ++ take 3 (bits 5 b).
Proof.
  intros Ha Hb. rewrite byteZ_Zbyte by (Z.div_mod_to_equations; lia). rewrite bits8, !bits5. cbn [take app].
  repeat (apply (f_equal2 cons); [first [reflexivity|Z.div_mod_to_equations; lia]|]); reflexivity.
Qed.
Lemma byte1_bits a b c : 0 ≤ a < 32 → 0 ≤ b < 32 → 0 ≤ c < 32 → bits 8 (byteZ (Zbyte (a * 64 mod 256 + b * 2 + c / 16))) = drop 3 (bits 5 a) ++ bits 5 b ++ take 1 (bits 5 c).
Proof.
  intros Ha Hb Hc. rewrite byteZ_Zbyte by (Z.div_mod_to_equations; lia). rewrite bits8, !bits5. cbn [take drop app].
  repeat (apply (f_equal2 cons); [first [reflexivity|Z.div_mod_to_equations; lia]|]); reflexivity.
Qed.
Lemma byte2_bits a b : 0 ≤ a < 32 → 0 ≤ b < 32 → bits 8 (byteZ (Zbyte (a * 16 mod 256 + b / 2))) = drop 1 (bits 5 a) ++ take 4 (bits 5 b).
Proof.
  intros Ha Hb. rewrite byteZ_Zbyte by (Z.div_mod_to_equations; lia). rewrite bits8, !bits5. cbn [take drop app].
  repeat (apply (f_equal2 cons); [first [reflexivity|Z.div_mod_to_equations; lia]|]); reflexivity.
Qed.
Lemma byte3_bits a b c : 0 ≤ a < 32 → 0 ≤ b < 32 → 0 ≤ c < 32 → bits 8 (byteZ (Zbyte (a * 128 mod 256 + b * 4 + c / 8))) = drop 4 (bits 5 a) ++ bits 5 b ++ take 2 (bits 5 c).
Proof.
  intros Ha Hb Hc. rewrite byteZ_Zbyte by (Z.div_mod_to_equations; lia). rewrite bits8, !bits5. cbn [take drop app].
  repeat (apply (f_equal2 cons); [first [reflexivity|Z.div_mod_to_equations; lia]|]); reflexivity.
Qed.
Lemma byte4_bits a b : 0 ≤ a < 32 → 0 ≤ b < 32 → bits 8 (byteZ (Zbyte (a * 32 mod 256 + b))) = drop 2 (bits 5 a) ++ bits 5 b.
Proof.
  intros Ha Hb. rewrite byteZ_Zbyte by (Z.div_mod_to_equations; lia). rewrite bits8, !bits5. cbn [take drop app].
  repeat (apply (f_equal2 cons); [first [reflexivity|Z.div_mod_to_equations; lia]|]); reflexivity.
Qed.
Definition value (v : Z) : Prop := 0 ≤ v < 32.
Definition bits_of (key : list Ascii.ascii) : list Z := concat (bits 8 <$> (byteZ <$> key)).
Lemma pack_bits vs : Forall value vs → (length vs = 8 ∨ good_len (length vs) = true)%nat →
  ∃ spare, concat (bits 5 <$> vs) = bits_of (pack vs) ++ spare ∧ (length spare < 5)%nat ∧ (length vs = 8%nat → spare = []).
Proof.
  intros H HL. unfold good_len in HL. rewrite !orb_true_iff, !Nat.eqb_eq in HL.
  assert (length vs = 8 ∨ length vs = 7 ∨ length vs = 5 ∨ length vs = 4 ∨ length vs = 2)%nat as HL' by tauto. clear HL.
  unfold bits_of. destruct HL' as [E|[E|[E|[E|E]]]].
  - do 8 (destruct vs as [|? vs]; [done|]). destruct vs; [|done]. repeat match goal with H : Forall _ (_ :: _) |- _ => apply Forall_cons in H as [? H] end.
    exists []. split; [|split; [cbn; lia|done]]. unfold pack. cbn [length nth fmap list_fmap concat].
    rewrite byte0_bits, byte1_bits, byte2_bits, byte3_bits, byte4_bits by done. rewrite !bits5. reflexivity.
  - do 7 (destruct vs as [|? vs]; [done|]). destruct vs; [|done]. repeat match goal with H : Forall _ (_ :: _) |- _ => apply Forall_cons in H as [? H] end.
    eexists (drop 2 (bits 5 _)). split; [|split; [rewrite bits5; cbn; lia|done]]. unfold pack. cbn [length nth fmap list_fmap concat].
    rewrite byte0_bits, byte1_bits, byte2_bits, byte3_bits by done. rewrite !bits5. cbn [app take drop]. reflexivity.
  - do 5 (destruct vs as [|? vs]; [done|]). destruct vs; [|done]. repeat match goal with H : Forall _ (_ :: _) |- _ => apply Forall_cons in H as [? H] end.
    eexists (drop 4 (bits 5 _)). split; [|split; [rewrite bits5; cbn; lia|done]]. unfold pack. cbn [length nth fmap list_fmap concat].
    rewrite byte0_bits, byte1_bits, byte2_bits by done. rewrite !bits5. cbn [app take drop]. reflexivity.
  - do 4 (destruct vs as [|? vs]; [done|]). destruct vs; [|done]. repeat match goal with H : Forall _ (_ :: _) |- _ => apply Forall_cons in H as [? H] end.
    eexists (drop 1 (bits 5 _)). split; [|split; [rewrite bits5; cbn; lia|done]]. unfold pack. cbn [length nth fmap list_fmap concat].
    rewrite byte0_bits, byte1_bits by done. rewrite !bits5. cbn [app take drop]. reflexivity.
  - do 2 (destruct vs as [|? vs]; [done|]). destruct vs; [|done]. repeat match goal with H : Forall _ (_ :: _) |- _ => apply Forall_cons in H as [? H] end.
    eexists (drop 3 (bits 5 _)). split; [|split; [rewrite bits5; cbn; lia|done]]. unfold pack. cbn [length nth fmap list_fmap concat].
    rewrite byte0_bits by done. rewrite !bits5. cbn [app take drop]. reflexivity.
Qed.
Lemma bits_of_app a b : bits_of (a ++ b) = bits_of a ++ bits_of b.
Proof. unfold bits_of. by rewrite !fmap_app, concat_app. Qed.
Lemma packs_bits f vs : Forall value vs → (length vs ≤ f)%nat → fits (length vs) = true →
  ∃ spare, concat (bits 5 <$> vs) = bits_of (packs f vs) ++ spare ∧ (length spare < 5)%nat.
Proof.
  revert vs. induction f as [|f IH]; intros vs H Hf Hfit.
  - destruct vs; [|cbn in Hf; lia]. exists []. split; [done|cbn; lia].
  - destruct vs as [|v vs0]; [exists []; split; [done|cbn; lia]|]. set (vs := v :: vs0) in *.
    assert (packs (S f) vs = pack (take 8 vs) ++ packs f (drop 8 vs)) as -> by done.
    destruct (decide (length vs < 8)%nat) as [Hs|Hs].
    + rewrite take_ge, drop_ge by lia. assert (packs f [] = []) as -> by (by destruct f). rewrite app_nil_r.
      destruct (pack_bits vs H) as (spare & E & L & _); [|by exists spare]. right. unfold fits in Hfit. rewrite Nat.mod_small in Hfit by done.
      assert (length vs =? 0 = false)%nat as X by done. by rewrite X in Hfit.
    + rewrite <-(take_drop 8 vs) in H. apply Forall_app in H as [H1 H2].
      destruct (pack_bits (take 8 vs) H1) as (sp & E & _ & X); [left; rewrite take_length; lia|]. rewrite X, app_nil_r in E by (rewrite take_length; lia).
      destruct (IH (drop 8 vs) H2) as (spare & E2 & L).
      * rewrite drop_length. lia.
      * assert ((length vs) mod 8 = length (drop 8 vs) mod 8)%nat as Em.
        { rewrite drop_length. replace (length vs) with ((length vs - 8) + 1 * 8)%nat at 1 by lia. by rewrite Nat.mod_add. }
        unfold fits in *. by rewrite <-Em.
      * exists spare. split; [|done]. rewrite bits_of_app, <-app_assoc, <-E2, <-E, <-concat_app, <-fmap_app. by rewrite take_drop.
Qed.
Lemma bits_of_length key : length (bits_of key) = (8 * length key)%nat.
Proof. unfold bits_of. induction key as [|c key IH]; [done|]. cbn [fmap list_fmap concat length]. rewrite app_length, IH. rewrite bits8. cbn. lia. Qed.
Lemma bits5_length vs : length (concat (bits 5 <$> vs)) = (5 * length vs)%nat.
Proof. induction vs as [|c key IH]; [done|]. cbn [fmap list_fmap concat length]. rewrite app_length, IH. rewrite bits5. cbn. lia. Qed.
Lemma eight_bits z : 0 ≤ z < 256 → z = 128 * (z / 128 mod 2) + 64 * (z / 64 mod 2) + 32 * (z / 32 mod 2) + 16 * (z / 16 mod 2) + 8 * (z / 8 mod 2) + 4 * (z / 4 mod 2) + 2 * (z / 2 mod 2) + z mod 2.
Proof. intros H. Z.div_mod_to_equations. lia. Qed.
Lemma byte_from_bits c d : bits 8 (byteZ c) = bits 8 (byteZ d) → c = d.
Proof.
  intros E. rewrite !bits8 in E. injection E as E7 E6 E5 E4 E3 E2 E1 E0.
  pose proof (byteZ_range c) as Hc. pose proof (byteZ_range d) as Hd.
  rewrite <-(Zbyte_byteZ c), <-(Zbyte_byteZ d). f_equal. rewrite (eight_bits _ Hc), (eight_bits _ Hd). by rewrite E7, E6, E5, E4, E3, E2, E1, E0.
Qed.
Lemma bits_of_inj a b x y : bits_of a ++ x = bits_of b ++ y → length a = length b → a = b.
Proof.
  revert b. induction a as [|c a IH]; intros [|d b] E HL; try done. unfold bits_of in E. cbn [fmap list_fmap concat] in E. rewrite <-!app_assoc in E.
  apply app_inj_1 in E as [E1 E2]; [|by rewrite !bits8]. apply byte_from_bits in E1 as ->. f_equal. apply IH; [exact E2|by injection HL].
Qed.

(** ** Decoding a text *)
Lemma list_ascii_app a b : list_ascii_of_string (a +:+ b) = list_ascii_of_string a ++ list_ascii_of_string b.
Proof. induction a as [|c a IH]; [done|]. cbn. by rewrite IH. Qed.
Lemma list_ascii_length a : length (list_ascii_of_string a) = String.length a.
Proof. induction a as [|c a IH]; [done|]. cbn. by rewrite IH. Qed.
Lemma upper_app a b : upper_ascii (a +:+ b) = upper_ascii a +:+ upper_ascii b.
Proof. induction a as [|c a IH]; [done|]. cbn. by rewrite IH. Qed.
Lemma equals_list n : list_ascii_of_string (equals_signs n) = pads n.
Proof. induction n as [|n IH]; [done|]. cbn. by rewrite IH. Qed.
Lemma upper_equals n : upper_ascii (equals_signs n) = equals_signs n.
Proof. induction n as [|n IH]; [done|]. cbn. by rewrite IH. Qed.
Lemma pad8_shape s : pad8 s = s +:+ equals_signs (npad (String.length s)).
Proof. unfold pad8, npad. destruct (_ =? _)%nat; [|done]. cbn. by rewrite sapp_nil. Qed.
Lemma upper_letters s vs : Forall2 b32_letter (list_ascii_of_string s) vs → Forall2 upper_letter (list_ascii_of_string (upper_ascii s)) vs ∧ Forall value vs ∧
  all_bytes (λ b, b <? 128) s = true ∧ all_bytes dark s = true.
Proof.
  revert vs. induction s as [|c s IH]; intros vs H; cbn [list_ascii_of_string] in H; inversion H as [|? v ? vs' Hc Hs]; subst; [split; [constructor|split; [constructor|done]]|].
  destruct (IH _ Hs) as (H1 & H2 & H3 & H4). cbn [upper_ascii list_ascii_of_string all_bytes].
  assert (upper_letter (if inr 97 122 (byteZ c) then Zbyte (byteZ c - 32) else c) v ∧ value v ∧ (byteZ c <? 128) = true ∧ dark (byteZ c) = true) as (Q1 & Q2 & Q3 & Q4).
  { unfold b32_letter in Hc. unfold upper_letter, value, dark, b32_val. destruct (inr 97 122 (byteZ c)) eqn:E.
    - unfold inr in E. apply andb_true_iff in E as [E1%Z.leb_le E2%Z.leb_le]. rewrite byteZ_Zbyte by lia.
      assert (v = byteZ c - 97) as -> by lia. unfold inr. rewrite andb_true_iff, !Z.ltb_lt.
      split; [|lia]. assert ((65 <=? byteZ c - 32) && (byteZ c - 32 <=? 90) = true) as -> by (rewrite andb_true_iff, !Z.leb_le; lia). f_equal. lia.
    - unfold inr in *. apply andb_false_iff in E. rewrite !Z.leb_gt in E. rewrite andb_true_iff, !Z.ltb_lt. split; [|lia].
      destruct Hc as [[Hv [Hb|Hb]]|[Hv Hb]]; [| |].
      + assert ((65 <=? byteZ c) && (byteZ c <=? 90) = true) as -> by (rewrite andb_true_iff, !Z.leb_le; lia). f_equal. lia.
      + lia.
      + assert ((65 <=? byteZ c) && (byteZ c <=? 90) = false) as -> by (rewrite andb_false_iff, !Z.leb_gt; lia).
        assert ((50 <=? byteZ c) && (byteZ c <=? 55) = true) as -> by (rewrite andb_true_iff, !Z.leb_le; lia). f_equal. lia. }
  rewrite Q3, Q4, H3, H4. split; [by constructor|]. split; [by constructor|done].
Qed.
Lemma letters_lines l vs : Forall2 upper_letter l vs → List.filter (λ c, negb ((byteZ c =? 13) || (byteZ c =? 10))) l = l.
Proof.
  induction 1 as [|c v l vs Hc H IH]; [done|]. cbn [List.filter]. assert (((byteZ c =? 13) || (byteZ c =? 10)) = false) as ->.
  { apply orb_false_iff. split; apply Z.eqb_neq; intros E; unfold upper_letter, b32_val in Hc; by rewrite E in Hc. }
  cbn [negb]. by rewrite IH.
Qed.
Lemma pads_lines n : List.filter (λ c, negb ((byteZ c =? 13) || (byteZ c =? 10))) (pads n) = pads n.
Proof. induction n as [|n IH]; [done|]. unfold pads in *. cbn [replicate List.filter]. rewrite IH. done. Qed.
Lemma decode_vals up s vs : Forall2 b32_letter (list_ascii_of_string s) vs →
  ∃ f, (length vs ≤ f)%nat ∧ b32_decode (ToUpper up (pad8 (TrimSpace s))) = if fits (length vs) then Some (packs f vs) else None.
Proof.
  intros H. destruct (upper_letters s vs H) as (H1 & H2 & H3 & H4). rewrite dark_trim by done. rewrite pad8_shape.
  assert (length vs = String.length s) as El by (rewrite <-list_ascii_length; symmetry; by eapply Forall2_length).
  assert (length (list_ascii_of_string (upper_ascii s)) = length vs) as El2 by (by eapply Forall2_length).
  unfold ToUpper. rewrite all_app, H3.
  assert (all_bytes (λ b, b <? 128) (equals_signs (npad (String.length s))) = true) as ->.
  { induction (npad (String.length s)) as [|n IH]; [done|]. cbn [equals_signs all_bytes]. by rewrite IH. }
  cbn [andb]. rewrite upper_app, upper_equals. unfold b32_decode. rewrite list_ascii_app, equals_list, List.filter_app.
  rewrite (letters_lines _ _ H1), pads_lines. exists (length (list_ascii_of_string (upper_ascii s) ++ pads (npad (String.length s)))).
  split; [rewrite app_length; lia|]. rewrite <-El, <-El2. apply b32_loop_ok; [done|rewrite app_length; lia].
Qed.
Lemma letter_det c v v' : b32_letter c v → b32_letter c v' → v = v'.
Proof. unfold b32_letter. lia. Qed.
Lemma letters_det l vs vs' : Forall2 b32_letter l vs → Forall2 b32_letter l vs' → vs = vs'.
Proof.
  intros H. revert vs'. induction H as [|c v l vs Hc H IH]; intros vs' H'; inversion H' as [|? v' ? vs'' Hc' Hs']; subst; [done|].
  f_equal; [by eapply letter_det|by apply IH].
Qed.
Lemma fits_spec n : fits n = true ↔ ((5 * n) mod 8 < 5)%nat.
Proof.
  unfold fits, good_len. rewrite !orb_true_iff, !Nat.eqb_eq. 
  assert (n = 8 * (n / 8) + n mod 8)%nat as E by (apply Nat.div_mod; lia). pose proof (Nat.mod_upper_bound n 8). set (q := (n / 8)%nat) in *. set (r := (n mod 8)%nat) in *. clearbody q r.
  assert ((5 * n) mod 8 = (5 * r) mod 8)%nat as ->.
  { rewrite E. replace (5 * (8 * q + r))%nat with (5 * r + (5 * q) * 8)%nat by lia. by rewrite Nat.mod_add. }
  clear E. do 8 (destruct r as [|r]; [cbn; lia|]). lia.
Qed.
Lemma decode_text up s key : b32_chars s → b32_decode (ToUpper up (pad8 (TrimSpace s))) = Some key ↔ b32_text s key.
Proof.
  intros Hc.
  assert (∃ vs, Forall2 b32_letter (list_ascii_of_string s) vs) as [vs H].
  { unfold b32_chars in Hc. induction Hc as [|c l [v Hv] Hl [vs IH]]; [by exists []|]. exists (v :: vs). by constructor. }
  destruct (decode_vals up s vs H) as (f & Hf & ->). destruct (upper_letters s vs H) as (_ & Hv & _). split.
  - destruct (fits (length vs)) eqn:E; [|done]. intros [= <-]. destruct (packs_bits f vs Hv Hf E) as (spare & Eb & L). by exists vs, spare.
  - intros (vs' & spare & H' & Eb & L). assert (vs' = vs) as -> by (by eapply letters_det). fold (bits_of key) in Eb.
    pose proof (f_equal length Eb) as EL. rewrite bits5_length, app_length, bits_of_length in EL.
    assert (fits (length vs) = true) as F.
    { apply fits_spec. rewrite EL. replace (8 * length key + length spare)%nat with (length spare + length key * 8)%nat by lia. rewrite Nat.mod_add by lia. rewrite Nat.mod_small by lia. done. }
    rewrite F. f_equal. destruct (packs_bits f vs Hv Hf F) as (spare' & Eb' & L'). rewrite Eb in Eb'.
    symmetry. eapply bits_of_inj; [exact Eb'|]. pose proof (f_equal length Eb') as X. rewrite !app_length, !bits_of_length in X. lia.
Qed.
