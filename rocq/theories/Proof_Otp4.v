(** Every key has a text, and texts stay texts. *)
From Verif Require Import Spec_Otp Spec_Main Proof_GoStr Proof_Url Proof_Text Proof_Trim Proof_UrlText Proof_Otp Proof_Otp2.
From Coq Require Import Lia.
From stdpp Require Import options.
Import Model_GoStr.
#[local] Open Scope Z_scope.

Definition bit (b : Z) : Prop := b = 0 ∨ b = 1.
Lemma five_bits a b c d e : bit a → bit b → bit c → bit d → bit e → ∃ v, 0 ≤ v < 32 ∧ bits 5 v = [a; b; c; d; e].
Proof.
  intros Ha Hb Hc Hd He. exists (16 * a + 8 * b + 4 * c + 2 * d + e). 
  destruct Ha as [-> | ->], Hb as [-> | ->], Hc as [-> | ->], Hd as [-> | ->], He as [-> | ->]; (split; [lia|reflexivity]).
Qed.
Lemma chunks n l : length l = (5 * n)%nat → Forall bit l → ∃ vs, concat (bits 5 <$> vs) = l ∧ Forall (λ v, 0 ≤ v < 32) vs.
Proof.
  revert l. induction n as [|n IH]; intros l HL HB.
  { destruct l; [|done]. exists []. split; [done|constructor]. }
  destruct l as [|a [|b [|c [|d [|e l]]]]]; try (exfalso; cbn in HL; lia).
  repeat match goal with H : Forall bit (_ :: _) |- _ => inversion H; subst; clear H end.
  destruct (IH l) as (vs & E & F); [cbn in HL; lia|done|].
  destruct (five_bits a b c d e) as (v & Hv & Ev); try done. exists (v :: vs). split; [|by constructor].
  cbn [fmap list_fmap concat]. rewrite Ev. cbn [app]. do 5 f_equal. exact E.
Qed.
Lemma bits_bit n v : Forall bit (bits n v).
Proof.
  unfold bits. apply Forall_fmap. apply Forall_forall. intros i _. unfold bit. cbn.
  pose proof (Z.mod_pos_bound (v / 2 ^ Z.of_nat i) 2). lia.
Qed.
Lemma bits_of_bit key : Forall bit (bits_of key).
Proof. unfold bits_of. induction key as [|c key IH]; [constructor|]. cbn [fmap list_fmap concat]. apply Forall_app. split; [apply bits_bit|exact IH]. Qed.
Lemma letter_of v : 0 ≤ v < 32 → ∃ c, b32_letter c v.
Proof.
  intros Hv. destruct (decide (v < 26)).
  - exists (Zbyte (65 + v)). left. rewrite byteZ_Zbyte by lia. lia.
  - exists (Zbyte (50 + (v - 26))). right. rewrite byteZ_Zbyte by lia. lia.
Qed.
Lemma letters_of vs : Forall (λ v, 0 ≤ v < 32) vs → ∃ l, Forall2 b32_letter l vs.
Proof.
  induction 1 as [|v vs Hv H (l & IH)]; [by exists []|]. destruct (letter_of v Hv) as [c Hc]. exists (c :: l). by constructor.
Qed.
Lemma every_key key : ∃ s, b32_text s key.
Proof.
  set (m := ((5 - (8 * length key) mod 5) mod 5)%nat).
  assert (m < 5)%nat as Hm by (apply Nat.mod_upper_bound; lia).
  assert (∃ n, (8 * length key + m = 5 * n)%nat) as [n Hn].
  { subst m. pose proof (Nat.div_mod (8 * length key) 5 ltac:(lia)) as D. pose proof (Nat.mod_upper_bound (8 * length key) 5 ltac:(lia)) as B.
    set (r := ((8 * length key) mod 5)%nat) in *. clearbody r. destruct r as [|[|[|[|[|r]]]]]; [exists (8 * length key / 5)%nat|exists (S (8 * length key / 5))%nat..|lia]; cbn [Nat.sub Nat.modulo Nat.divmod fst snd]; lia. }
  destruct (chunks n (bits_of key ++ repeat 0 m)) as (vs & E & F).
  { rewrite app_length, bits_of_length, repeat_length. lia. }
  { apply Forall_app. split; [apply bits_of_bit|]. clear. induction m; constructor; [by left|done]. }
  destruct (letters_of vs F) as [l Hl]. exists (string_of_list_ascii l), vs, (repeat 0 m).
  rewrite list_ascii_of_string_of_list_ascii. split; [exact Hl|]. split; [exact E|]. by rewrite repeat_length.
Qed.

Lemma otp_text up hmac now w : text_world w → text_world (with_otp up hmac now w).
Proof.
  intros (H1 & H2 & _ & H). split; [exact H1|]. split; [exact H2|]. split; [|exact H].
  intros a b _ _. apply utf8_ascii. intros c Hc. pose proof (coerce_dark a b) as D. revert D Hc. cbn [w_coerce with_otp]. generalize (otp_coerce a b) as t. clear.
  induction t as [|d t IH]; [by intros _ ?%elem_of_nil|]. cbn [all_bytes]. intros [D1 D2]%andb_true_iff. cbn [list_ascii_of_string]. intros [->|Hc]%elem_of_cons; [|by apply IH].
  unfold dark in D1. apply andb_true_iff in D1 as [_ D1]. lia.
Qed.

(** ** Texts that are no base32 *)
Definition good_b (c : Ascii.ascii) : bool := bool_decide (is_Some (b32_val c)) || is_pad c.
Lemma quantum_inv k acc src vals ended rest : quantum k acc src = Some (vals, ended, rest) →
  ∃ pre, forallb good_b pre = true ∧
    ((ended = false ∧ src = pre ++ rest ∧ length pre = k) ∨
     (ended = true ∧ ∃ p, src = pre ++ p :: rest ∧ is_pad p = true ∧ (length pre < k)%nat ∧ (length rest < 8)%nat ∧
        forallb is_pad (take (7 - (length acc + length pre)) rest) = true)).
Proof.
  revert acc src. induction k as [|k IH]; intros acc src; cbn [quantum].
  { intros [= <- <- <-]. exists []. split; [done|]. by left. }
  destruct src as [|c src]; [done|]. cbv zeta. destruct (is_pad c && (2 <=? length acc)%nat && (length src <? 8)%nat) eqn:E.
  - apply andb_true_iff in E as [E E3%Nat.ltb_lt]. apply andb_true_iff in E as [E1 _].
    destruct (length src + length acc <? 7)%nat; [done|]. destruct (forallb is_pad (take (7 - length acc) src)) eqn:F; [|done]. cbn [negb].
    destruct ((_ =? 3)%nat || _); [done|]. intros [= <- <- <-]. exists []. split; [done|]. right. split; [done|]. exists c. cbn [app length]. rewrite Nat.add_0_r.
    split; [done|]. split; [done|]. split; [lia|]. by split.
  - destruct (b32_val c) as [v|] eqn:Ev; [|done]. intros H. destruct (IH _ _ H) as (pre & G & D). exists (c :: pre). split.
    { cbn [forallb]. rewrite G, andb_true_r. unfold good_b. by rewrite Ev. }
    destruct D as [(-> & -> & L)|(-> & p & -> & Hp & L & L8 & F)]; [left|right].
    + split; [done|]. split; [done|]. cbn. by rewrite L.
    + split; [done|]. exists p. split; [done|]. split; [done|]. split; [cbn; lia|]. split; [done|]. rewrite app_length in F. cbn [length] in F |- *. rewrite <-Nat.add_assoc in F. exact F.
Qed.
Lemma loop_good f src out n : length src = (8 * n)%nat → b32_loop f src = Some out → forallb good_b src = true.
Proof.
  revert f src out. induction n as [|n IH]; intros f src out HL; [by destruct src|].
  destruct f as [|f]; [by destruct src|]. destruct src as [|c src]; [done|]. cbn [b32_loop]. destruct (quantum 8 [] (c :: src)) as [[[vals ended] rest]|] eqn:E; [|done].
  cbn [mbind option_bind]. destruct (quantum_inv _ _ _ _ _ _ E) as (pre & G & D). destruct D as [(-> & Es & L)|(-> & p & Es & Hp & L & L8 & F)].
  - rewrite Es in HL |- *. rewrite app_length, L in HL. destruct (b32_loop f rest) as [o|] eqn:El; [|done]. intros _. rewrite forallb_app, G. apply (IH f rest o); [lia|done].
  - intros _. rewrite Es in HL |- *. rewrite app_length in HL. cbn [length] in HL. assert (n = 0%nat) as -> by lia.
    rewrite take_ge in F by (cbn; lia). rewrite forallb_app, G. cbn [forallb andb]. unfold good_b at 1. rewrite Hp, orb_true_r. cbn [andb].
    clear -F. induction rest as [|d rest IH]; [done|]. cbn [forallb] in F |- *. apply andb_true_iff in F as [F1 F2]. rewrite (IH F2). unfold good_b. by rewrite F1, orb_true_r.
Qed.
Definition stays (c : Ascii.ascii) : bool := negb ((byteZ c =? 13) || (byteZ c =? 10)).
Definition bad_b (c : Ascii.ascii) : bool := negb (inr 65 90 (byteZ c) || inr 97 122 (byteZ c) || inr 50 55 (byteZ c) || (byteZ c =? 61)).
Definition upc (c : Ascii.ascii) : Ascii.ascii := if inr 97 122 (byteZ c) then Zbyte (byteZ c - 32) else c.
Lemma bad_up c : bad_b c = true → good_b (upc c) = false.
Proof. intros H. enough (bad_b c && good_b (upc c) = false) as Y by (by rewrite H in Y). clear. bytes_of c; by vm_compute. Qed.
Lemma stays_up c : stays c = true → stays (upc c) = true.
Proof. intros H. enough (stays c && negb (stays (upc c)) = false) as Y by (rewrite H in Y; by apply negb_false_iff in Y). clear. bytes_of c; by vm_compute. Qed.
Lemma upper_map s : list_ascii_of_string (upper_ascii s) = upc <$> list_ascii_of_string s.
Proof. induction s as [|c s IH]; [done|]. cbn. by rewrite IH. Qed.
Lemma filter_id l : forallb stays l = true → List.filter stays l = l.
Proof. induction l as [|c l IH]; [done|]. cbn. intros [H1 H2]%andb_true_iff. by rewrite H1, (IH H2). Qed.
Lemma length_ascii s : length (list_ascii_of_string s) = String.length s.
Proof. induction s as [|c s IH]; [done|]. cbn. by rewrite IH. Qed.
Lemma equals_length n : String.length (equals_signs n) = n.
Proof. induction n as [|n IH]; [done|]. cbn. by rewrite IH. Qed.
Lemma pad8_length s : ∃ n, String.length (pad8 s) = (8 * n)%nat.
Proof.
  unfold pad8. pose proof (Nat.div_mod (String.length s) 8 ltac:(lia)) as D. pose proof (Nat.mod_upper_bound (String.length s) 8 ltac:(lia)) as B.
  destruct (Nat.eqb_spec (String.length s mod 8) 0) as [E|E]; [exists (String.length s / 8)%nat; lia|].
  exists (S (String.length s / 8)). rewrite sapp_length, equals_length. lia.
Qed.
Lemma ascii_app a b : list_ascii_of_string (a +:+ b) = list_ascii_of_string a ++ list_ascii_of_string b.
Proof. induction a as [|c a IH]; [done|]. cbn. by rewrite IH. Qed.
Lemma equals_stays n : forallb stays (list_ascii_of_string (equals_signs n)) = true.
Proof. by induction n. Qed.
Lemma equals_ascii n : all_bytes (λ b, b <? 128) (equals_signs n) = true.
Proof. by induction n. Qed.
Lemma no_base32 up s c : all_bytes (λ b, b <? 128) s = true → forallb stays (list_ascii_of_string s) = true →
  c ∈ list_ascii_of_string s → bad_b c = true → b32_decode (ToUpper up (pad8 s)) = None.
Proof.
  intros Ha Hs Hc Hb. destruct (b32_decode _) as [out|] eqn:E; [exfalso|done].
  assert (all_bytes (λ b, b <? 128) (pad8 s) = true) as Ha'.
  { unfold pad8. destruct (_ =? 0)%nat; [done|]. by rewrite all_app, Ha, equals_ascii. }
  assert (forallb stays (list_ascii_of_string (pad8 s)) = true) as Hs'.
  { unfold pad8. destruct (_ =? 0)%nat; [done|]. by rewrite ascii_app, forallb_app, Hs, equals_stays. }
  assert (c ∈ list_ascii_of_string (pad8 s)) as Hc'.
  { unfold pad8. destruct (_ =? 0)%nat; [done|]. rewrite ascii_app. apply elem_of_app. by left. }
  unfold ToUpper in E. rewrite Ha' in E. unfold b32_decode in E. fold stays in E. rewrite upper_map in E.
  assert (forallb stays (upc <$> list_ascii_of_string (pad8 s)) = true) as Hu.
  { revert Hs'. generalize (list_ascii_of_string (pad8 s)) as l. induction l as [|d l IH]; [done|]. cbn. intros [H1 H2]%andb_true_iff. by rewrite (stays_up d H1), (IH H2). }
  change (λ c, negb ((byteZ c =? 13) || (byteZ c =? 10))) with stays in E.
  rewrite (filter_id _ Hu) in E. destruct (pad8_length s) as [n Hn].
  apply (loop_good _ _ _ n) in E; [|by rewrite fmap_length, length_ascii].
  rewrite forallb_forall in E. specialize (E (upc c)). rewrite (bad_up c Hb) in E. discriminate E. apply elem_of_list_In, elem_of_list_fmap_1, Hc'.
Qed.
Lemma each_bytes (p : Ascii.ascii → Prop) (q : Ascii.ascii → bool) s : (∀ c, p c → q c = true) → each p s → forallb q (list_ascii_of_string s) = true.
Proof. intros H. induction s as [|c s IH]; [done|]. cbn. intros [H1 H2]. by rewrite (H c H1), (IH H2). Qed.
Lemma all_forallb p s : all_bytes p s = forallb (λ c, p (byteZ c)) (list_ascii_of_string s).
Proof. induction s as [|c s IH]; [done|]. cbn. by rewrite IH. Qed.
Lemma no_code up hmac now s c : each (λ d, byteZ d < 128 ∧ byteZ d ≠ 10 ∧ byteZ d ≠ 13) s → c ∈ list_ascii_of_string (TrimSpace s) →
  (¬ ∃ v, b32_letter c v) → byteZ c ≠ 61 → GenerateCode up hmac s now = Fail (EMsg "Decoding of secret as base32 failed.").
Proof.
  intros Hs Hc Hl He. unfold GenerateCode.
  assert (each (λ d, byteZ d < 128 ∧ byteZ d ≠ 10 ∧ byteZ d ≠ 13) (TrimSpace s)) as Ht.
  { destruct (TrimSpace_spec s) as (a & b & _ & _ & E & _). rewrite E in Hs. apply each_app in Hs as [_ Hs]. by apply each_app in Hs as [Hs _]. }
  rewrite (no_base32 up (TrimSpace s) c); [done|..].
  - rewrite all_forallb. eapply each_bytes; [|exact Ht]. intros d (H & _). by apply Z.ltb_lt.
  - eapply each_bytes; [|exact Ht]. intros d (_ & H1 & H2). unfold stays. apply negb_true_iff, orb_false_iff. by split; apply Z.eqb_neq.
  - exact Hc.
  - unfold bad_b, inr. apply negb_true_iff, not_true_iff_false. rewrite !orb_true_iff, !andb_true_iff, !Z.leb_le, Z.eqb_eq. intros H. apply Hl. unfold b32_letter.
    destruct H as [[[H|H]|H]|H]; [exists (byteZ c - 65)|exists (byteZ c - 97)|exists (byteZ c - 50 + 26)|]; lia.
Qed.
