From Verif Require Import Proof_GoStr.
From Verif Require Export Spec_Pkcs7.
From Coq Require Import Lia.
From stdpp Require Import options.

Lemma byteZ_inj a b : byteZ a = byteZ b → a = b.
Proof. intros H. rewrite <-(Zbyte_byteZ a), <-(Zbyte_byteZ b). by rewrite H. Qed.

Lemma unpad_check_spec b c i : (i ≤ length b)%nat →
  (unpad_check b c i = Ok tt ∧ drop (length b - i) b = replicate i c) ∨
  (unpad_check b c i = Fail (EMsg "pkcs7 unpad failed one of the bytes was incorrect") ∧
   drop (length b - i) b ≠ replicate i c).
Proof.
  induction i as [|i IH]; intros Hi.
  - left. split; [done|]. rewrite Nat.sub_0_r. by rewrite drop_all.
  - cbn [unpad_check]. replace (S i <=? length b)%nat with true by (symmetry; apply Nat.leb_le; lia).
    destruct (b !! (length b - S i)%nat) as [x|] eqn:E.
    2: { apply lookup_ge_None in E. lia. }
    rewrite (drop_S _ _ _ E). replace (S (length b - S i)) with (length b - i)%nat by lia.
    destruct (Ascii.eqb x c) eqn:Ex.
    + apply Ascii.eqb_eq in Ex as ->. destruct IH as [[H1 H2]|[H1 H2]]; [lia|..].
      * left. split; [done|]. simpl. by rewrite H2.
      * right. split; [done|]. simpl. congruence.
    + apply Ascii.eqb_neq in Ex. right. split; [done|]. simpl. congruence.
Qed.

(** What Unpad accepts, exactly. *)
Lemma Unpad_spec b r : Unpad b = Ok r ↔
  ∃ n c, last b = Some c ∧ byteZ c = Z.of_nat n ∧ (n ≤ length b)%nat ∧ b = r ++ replicate n c.
Proof.
  unfold Unpad. destruct (decide (b = [])) as [->|Hne].
  { split; [done|]. intros (n & c & H & _). done. }
  assert (0 < length b)%nat as Hl by (destruct b; [done|simpl; lia]).
  replace (length b =? 0)%nat with false by (symmetry; apply Nat.eqb_neq; lia).
  rewrite last_lookup. replace (pred (length b)) with (length b - 1)%nat by lia.
  destruct (b !! (length b - 1)%nat) as [c|] eqn:E; [|split; [done|by intros (n & c' & ? & _)]].
  pose proof (byteZ_range c) as Hc.
  destruct (length b <? Z.to_nat (byteZ c))%nat eqn:E1.
  - apply Nat.ltb_lt in E1. split; [done|]. intros (n & c' & [= <-] & Hn & Hle & _). lia.
  - apply Nat.ltb_ge in E1. replace (Z.to_nat (byteZ c) <=? length b)%nat with true by (symmetry; by apply Nat.leb_le).
    destruct (unpad_check_spec b c _ E1) as [[-> H]|[-> H]].
    + split.
      * intros [= <-]. exists (Z.to_nat (byteZ c)), c. repeat split; auto; [lia|]. rewrite <-H. by rewrite take_drop.
      * intros (n & c' & [= <-] & Hn & Hle & Hb). replace (Z.to_nat (byteZ c)) with n by lia.
        f_equal. rewrite Hb at 2. rewrite take_app_le; [|rewrite Hb, app_length, replicate_length; lia].
        rewrite take_ge; [done|]. rewrite Hb, app_length, replicate_length. lia.
    + split; [done|]. intros (n & c' & [= <-] & Hn & Hle & Hb). exfalso. apply H.
      replace (Z.to_nat (byteZ c)) with n by lia.
      assert (length b = length r + n)%nat as Hlen by (rewrite Hb at 1; rewrite app_length, replicate_length; lia).
      rewrite Hlen. replace (length r + n - n)%nat with (length r) by lia. rewrite Hb. by rewrite drop_app.
Qed.

Lemma Unpad_no_panic b : Unpad b ≠ Panic.
Proof.
  unfold Unpad. destruct (length b =? 0)%nat eqn:E0; [done|]. apply Nat.eqb_neq in E0.
  destruct (b !! (length b - 1)%nat) as [c|] eqn:E; [|apply lookup_ge_None in E; lia].
  destruct (length b <? Z.to_nat (byteZ c))%nat eqn:E1; [done|]. apply Nat.ltb_ge in E1.
  destruct (unpad_check_spec b c _ E1) as [[-> _]|[-> _]]; [|done].
  by replace (Z.to_nat (byteZ c) <=? length b)%nat with true by (symmetry; by apply Nat.leb_le).
Qed.

Lemma Pad_spec b k : (1 ≤ k ≤ 255)%Z →
  ∃ n p, Pad b k = Ok p ∧ padded b n p ∧ (1 ≤ Z.of_nat n ≤ k)%Z ∧ (Z.of_nat (length p) mod k = 0)%Z.
Proof.
  intros Hk. unfold Pad. replace (k <? 1)%Z with false by lia.
  set (l := Z.of_nat (length b)). assert (0 ≤ l mod k < k)%Z as Hm by (apply Z.mod_pos_bound; lia).
  replace (k - l mod k =? 0)%Z with false by lia.
  exists (Z.to_nat (k - l mod k)). eexists. split; [done|]. split.
  - exists (to_byte (k - l mod k)). split; [|done]. unfold to_byte.
    rewrite Z.mod_small by lia. rewrite byteZ_Zbyte by lia. lia.
  - split; [lia|]. rewrite app_length, replicate_length, Nat2Z.inj_add. fold l. rewrite Z2Nat.id by lia.
    replace (l + (k - l mod k))%Z with ((l / k + 1) * k)%Z.
    + apply Z.mod_mul. lia.
    + pose proof (Z.div_mod l k). lia.
Qed.

Lemma Unpad_padded b n p : (1 ≤ n)%nat → padded b n p → Unpad p = Ok b.
Proof.
  intros Hn (c & Hc & ->). apply Unpad_spec. exists n, c. split.
  - destruct n as [|n]; [lia|]. rewrite replicate_S_end, (assoc_L (++)), last_snoc. done.
  - split; [done|]. split; [|done]. rewrite app_length, replicate_length. lia.
Qed.

Lemma Unpad_Pad b k : (1 ≤ k ≤ 255)%Z →
  ∃ p, Pad b k = Ok p ∧ Unpad p = Ok b ∧ (Z.of_nat (length p) mod k = 0)%Z ∧
    (length b < length p)%nat ∧ (Z.of_nat (length p) ≤ Z.of_nat (length b) + k)%Z.
Proof.
  intros Hk. destruct (Pad_spec b k Hk) as (n & p & Hp & Hpad & Hn & Hmod).
  exists p. split; [done|]. split; [eapply Unpad_padded; [|done]; lia|]. split; [done|].
  destruct Hpad as (c & _ & ->). rewrite app_length, replicate_length. lia.
Qed.
