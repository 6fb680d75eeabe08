From Verif Require Import Proof_GoStr Proof_Pkcs7.
From Verif Require Export Spec_Crypt.
From Coq Require Import Lia.
From stdpp Require Import options.
#[local] Open Scope nat_scope.

(** ** Inversion of [≫=] *)

Lemma bind_Ok {A B} (x : outcome A) (f : A → outcome B) r : x ≫= f = Ok r ↔ ∃ a, x = Ok a ∧ f a = Ok r.
Proof. destruct x; simpl; naive_solver. Qed.
Lemma bind_Panic {A B} (x : outcome A) (f : A → outcome B) : x ≫= f = Panic ↔ x = Panic ∨ ∃ a, x = Ok a ∧ f a = Panic.
Proof. destruct x; simpl; naive_solver. Qed.

(** ** XOR *)

Lemma xor_byte_invol a b : xor_byte (xor_byte a b) b = a.
Proof.
  destruct a, b; simpl. f_equal; match goal with |- xorb (xorb ?x ?y) ?y = _ => by destruct x, y end.
Qed.
Lemma xor_length a b : length b = length a → length (xor_bytes a b) = length a.
Proof. intros H. unfold xor_bytes. rewrite zip_with_length. lia. Qed.
Lemma xor_invol a b : length b = length a → xor_bytes (xor_bytes a b) b = a.
Proof.
  revert b. induction a as [|x a IH]; intros [|y b] H; simpl in *; try done.
  f_equal; [apply xor_byte_invol|]. apply IH. lia.
Qed.

(** ** Blocks *)

Definition blocks (n : nat) (ls : list bytes) : Prop := Forall (λ x, length x = n) ls.

Lemma chunks_fuel_concat n ls fuel : 0 < n → blocks n ls → length (concat ls) ≤ fuel →
  chunks_fuel fuel n (concat ls) = ls.
Proof.
  intros Hn. revert ls. induction fuel as [|f IH]; intros ls Hb Hf.
  - destruct ls as [|x ls]; [done|]. apply Forall_cons in Hb as [Hx _]. simpl in Hf. rewrite app_length in Hf. lia.
  - destruct ls as [|x ls]; [done|]. apply Forall_cons in Hb as [Hx Hb]. simpl in Hf |- *.
    rewrite app_length in Hf. destruct x as [|b x]; [simpl in Hx; lia|].
    cbn [app]. change (b :: x ++ concat ls) with ((b :: x) ++ concat ls).
    rewrite <-Hx at 1. rewrite take_app. rewrite <-Hx at 2. rewrite drop_app.
    f_equal. apply IH; [done|]. lia.
Qed.
Lemma chunks_concat n ls : 0 < n → blocks n ls → chunks n (concat ls) = ls.
Proof. intros Hn Hb. apply chunks_fuel_concat; auto. Qed.

Lemma split_blocks_n n m (l : bytes) : length l = m * n → ∃ ls, l = concat ls ∧ blocks n ls ∧ length ls = m.
Proof.
  revert l. induction m as [|m IH]; intros l Hl.
  - exists []. destruct l; [|done]. repeat split. constructor.
  - destruct (IH (drop n l)) as (ls & H1 & H2 & H3). { rewrite drop_length. lia. }
    exists (take n l :: ls). simpl. rewrite <-H1, take_drop. repeat split; auto.
    constructor; [rewrite take_length; lia|done].
Qed.
Lemma split_blocks n (l : bytes) : 0 < n → length l mod n = 0 → ∃ ls, l = concat ls ∧ blocks n ls.
Proof.
  intros Hn Hm. destruct (split_blocks_n n (length l / n) l) as (ls & H1 & H2 & _); [|eauto].
  pose proof (Nat.div_mod (length l) n). lia.
Qed.
Lemma blocks_length n ls : blocks n ls → length (concat ls) = length ls * n.
Proof. induction 1 as [|x ls Hx _ IH]; [done|]. simpl. rewrite app_length. lia. Qed.

(** ** CBC *)

Section cbc.
  Context (n : nat) (E D : bytes → bytes).
  Hypothesis Hl : ∀ b, length b = n → length (E b) = n.
  Hypothesis Hdl : ∀ b, length b = n → length (D b) = n.

  Lemma cbc_enc_shape iv ls : length iv = n → blocks n ls →
    blocks n (cbc_enc_blocks E iv ls) ∧ length (cbc_enc_blocks E iv ls) = length ls.
  Proof using Hl.
    intros Hi Hb. revert iv Hi. induction Hb as [|x ls Hx Hb IH]; intros iv Hi; [by split; [constructor|]|].
    simpl. assert (length (E (xor_bytes x iv)) = n) as HE. { apply Hl. rewrite xor_length; lia. }
    destruct (IH _ HE) as [H1 H2]. split; [by constructor|]. lia.
  Qed.
  Lemma cbc_dec_shape iv ls : length iv = n → blocks n ls →
    blocks n (cbc_dec_blocks D iv ls) ∧ length (cbc_dec_blocks D iv ls) = length ls.
  Proof using Hdl.
    intros Hi Hb. revert iv Hi. induction Hb as [|x ls Hx Hb IH]; intros iv Hi; [by split; [constructor|]|].
    simpl. destruct (IH _ Hx) as [H1 H2]. split; [|lia]. constructor; [|done].
    rewrite xor_length; rewrite (Hdl x Hx); lia.
  Qed.
  Lemma cbc_dec_enc iv ls : (∀ b, length b = n → D (E b) = b) → length iv = n → blocks n ls →
    cbc_dec_blocks D iv (cbc_enc_blocks E iv ls) = ls.
  Proof using Hl.
    intros HD Hi Hb. revert iv Hi. induction Hb as [|x ls Hx Hb IH]; intros iv Hi; [done|]. simpl.
    assert (length (xor_bytes x iv) = n) as Hxl by (rewrite xor_length; lia).
    rewrite HD by done. rewrite xor_invol by lia. rewrite IH; [done|]. by apply Hl.
  Qed.
  Lemma cbc_enc_dec iv ls : (∀ b, length b = n → E (D b) = b) → length iv = n → blocks n ls →
    cbc_enc_blocks E iv (cbc_dec_blocks D iv ls) = ls.
  Proof using Hdl.
    intros HD Hi Hb. revert iv Hi. induction Hb as [|x ls Hx Hb IH]; intros iv Hi; [done|]. simpl.
    rewrite xor_invol by (rewrite Hdl; lia). rewrite HD by done. by rewrite IH.
  Qed.
End cbc.

Lemma alg_block_pos a : 0 < alg_block a.
Proof. destruct a; simpl; lia. Qed.

Lemma cbc_encrypt_ok P a k iv b : prims_ok P → length k = alg_key a → length iv = alg_block a →
  length b mod alg_block a = 0 →
  ∃ c, cbc_encrypt P a k iv b = Ok c ∧ length c = length b ∧ cbc_decrypt P a k iv c = Ok b.
Proof.
  intros HP Hk Hi Hm. pose proof (alg_block_pos a) as Hpos.
  destruct (split_blocks _ b Hpos Hm) as (ls & -> & Hb).
  unfold cbc_encrypt. rewrite (proj2 (Nat.eqb_eq _ _) Hm). rewrite chunks_concat by done.
  destruct (cbc_enc_shape (alg_block a) (blk_enc P a k)) with (iv := iv) (ls := ls) as [H1 H2]; auto.
  { intros. by apply enc_len. }
  assert (length (concat (cbc_enc_blocks (blk_enc P a k) iv ls)) = length (concat ls)) as Hlen.
  { rewrite (blocks_length _ _ H1), (blocks_length _ _ Hb). lia. }
  eexists. split; [done|]. split; [done|].
  unfold cbc_decrypt. rewrite Hlen, (proj2 (Nat.eqb_eq _ _) Hm). rewrite chunks_concat by done.
  rewrite (cbc_dec_enc (alg_block a)); auto.
  - intros. by apply enc_len.
  - intros. by apply dec_enc.
Qed.

Lemma cbc_decrypt_ok P a k iv c : prims_ok P → length k = alg_key a → length iv = alg_block a →
  length c mod alg_block a = 0 →
  ∃ b, cbc_decrypt P a k iv c = Ok b ∧ length b = length c ∧ cbc_encrypt P a k iv b = Ok c.
Proof.
  intros HP Hk Hi Hm. pose proof (alg_block_pos a) as Hpos.
  destruct (split_blocks _ c Hpos Hm) as (ls & -> & Hb).
  unfold cbc_decrypt. rewrite (proj2 (Nat.eqb_eq _ _) Hm). rewrite chunks_concat by done.
  destruct (cbc_dec_shape (alg_block a) (blk_dec P a k)) with (iv := iv) (ls := ls) as [H1 H2]; auto.
  { intros. by apply dec_len. }
  assert (length (concat (cbc_dec_blocks (blk_dec P a k) iv ls)) = length (concat ls)) as Hlen.
  { rewrite (blocks_length _ _ H1), (blocks_length _ _ Hb). lia. }
  eexists. split; [done|]. split; [done|].
  unfold cbc_encrypt. rewrite Hlen, (proj2 (Nat.eqb_eq _ _) Hm). rewrite chunks_concat by done.
  rewrite (cbc_enc_dec (alg_block a)); auto.
  - intros. by apply dec_len.
  - intros. by apply enc_dec.
Qed.

(** ** Cipher suites *)

Definition good_ciphers (cs : list (alg * bytes)) : Prop := Forall (λ x, length x.2 = alg_key x.1) cs.
Definition bsum (cs : list (alg * bytes)) : nat := sum_list_with (λ x, alg_block x.1) cs.

Lemma bsub_ok b lo hi : lo ≤ hi → hi ≤ length b → bsub b lo hi = Ok (take (hi - lo) (drop lo b)).
Proof.
  intros H1 H2. unfold bsub. apply Nat.leb_le in H1, H2. by rewrite H1, H2.
Qed.
Lemma bsub_panic b lo hi : length b < hi → bsub b lo hi = Panic.
Proof. intros H. unfold bsub. apply Nat.leb_gt in H. by rewrite H, andb_false_r. Qed.
Lemma bsub_len b lo hi r : bsub b lo hi = Ok r → length r = hi - lo ∧ lo ≤ hi ∧ hi ≤ length b.
Proof.
  unfold bsub. destruct (lo <=? hi) eqn:E1; [|done]. destruct (hi <=? length b) eqn:E2; [|done].
  apply Nat.leb_le in E1, E2. intros [= <-]. rewrite take_length, drop_length. lia.
Qed.
Lemma bback_ok b lo n : lo + n ≤ length b → bback b (lo + n) n = bsub b lo (lo + n).
Proof.
  intros H. unfold bback. replace (n <=? lo + n) with true by (symmetry; apply Nat.leb_le; lia).
  f_equal. lia.
Qed.

Lemma makeCiphers_ok key off suite : off + sum_list_with alg_key suite ≤ length key →
  ∃ cs, makeCiphers key off suite = Ok cs ∧ good_ciphers cs ∧ cs.*1 = suite.
Proof.
  revert off. induction suite as [|a r IH]; intros off H; simpl in *.
  - exists []. repeat split. constructor.
  - rewrite bsub_ok by lia. simpl. destruct (IH (off + alg_key a)) as (cs & -> & Hg & Hs); [lia|].
    eexists. split; [done|]. split; [|by rewrite fmap_cons, Hs]. constructor; [|done].
    simpl. rewrite take_length, drop_length. lia.
Qed.
Lemma makeCiphers_short key off suite : length key < off + sum_list_with alg_key suite → off ≤ length key →
  makeCiphers key off suite = Panic.
Proof.
  revert off. induction suite as [|a r IH]; intros off H Ho; simpl in *; [lia|].
  destruct (decide (off + alg_key a ≤ length key)) as [Hle|Hgt].
  - rewrite bsub_ok by lia. simpl. rewrite IH by lia. done.
  - rewrite bsub_panic by lia. done.
Qed.
Lemma bsum_fst cs suite : cs.*1 = suite → bsum cs = sum_list_with alg_block suite.
Proof. intros <-. induction cs as [|x cs IH]; [done|]. rewrite fmap_cons. unfold bsum in *. cbn [sum_list_with]. by rewrite IH. Qed.

Lemma unseal_app P l1 l2 iv off ct :
  unseal P (l1 ++ l2) iv off ct = unseal P l1 iv off ct ≫= unseal P l2 iv (off - bsum l1).
Proof.
  revert off ct. induction l1 as [|[a k] l1 IH]; intros off ct; simpl.
  - by rewrite Nat.sub_0_r.
  - destruct (bback iv off (alg_block a)) as [i| |]; simpl; [|done|done].
    destruct (cbc_decrypt P a k i ct) as [b| |]; simpl; [|done|done].
    destruct (Unpad b) as [c| |]; [|done|done]. rewrite IH.
    f_equal. f_equal. unfold bsum. lia.
Qed.
Lemma unwrap_app P l1 l2 iv off ct :
  unwrap P (l1 ++ l2) iv off ct = unwrap P l1 iv off ct ≫= unwrap P l2 iv (off - bsum l1).
Proof.
  revert off ct. induction l1 as [|[a k] l1 IH]; intros off ct; simpl.
  - by rewrite Nat.sub_0_r.
  - destruct (bback iv off (alg_block a)) as [i| |]; simpl; [|done|done].
    destruct (cbc_decrypt P a k i ct) as [b| |]; simpl; [|done|done].
    rewrite IH. f_equal. f_equal. unfold bsum. lia.
Qed.
Lemma bsum_reverse cs : bsum (reverse cs) = bsum cs.
Proof.
  induction cs as [|x cs IH]; [done|]. rewrite reverse_cons. unfold bsum in *.
  rewrite sum_list_with_app. simpl. lia.
Qed.

(** Sealing can always be undone. *)
Lemma seal_unseal P cs iv off work : prims_ok P → good_ciphers cs → off + bsum cs ≤ length iv →
  ∃ ct, seal P cs iv off work = Ok ct ∧ unseal P (reverse cs) iv (off + bsum cs) ct = Ok work ∧
    length work ≤ length ct ∧ (cs ≠ [] → length work < length ct).
Proof.
  intros HP Hg. revert off work. induction Hg as [|[a k] cs Hk Hg IH]; intros off work Hoff.
  - exists work. split; [done|]. split; [done|]. split; [lia|]. done.
  - simpl in Hk. assert (bsum ((a, k) :: cs) = alg_block a + bsum cs) as Hbs by done. rewrite Hbs in Hoff |- *.
    cbn [seal]. rewrite bsub_ok by lia. set (ivp := take _ _).
    assert (length ivp = alg_block a) as Hivp. { unfold ivp. rewrite take_length, drop_length. lia. }
    destruct (Unpad_Pad work (Z.of_nat (alg_block a))) as (pd & Hpd & Hun & Hmod & Hlt & _).
    { destruct a; simpl; lia. }
    cbn [mbind outcome_bind]. rewrite Hpd. cbn [mbind outcome_bind].
    destruct (cbc_encrypt_ok P a k ivp pd HP Hk Hivp) as (c & Hc & Hcl & Hd).
    { rewrite <-Nat2Z.inj_mod in Hmod. lia. }
    rewrite Hc. cbn [mbind outcome_bind]. destruct (IH (off + alg_block a) c) as (ct & Hs & Hu & Hle & _); [lia|].
    exists ct. split; [done|]. split; [|lia].
    rewrite reverse_cons, unseal_app. replace (off + (alg_block a + bsum cs)) with (off + alg_block a + bsum cs) by lia.
    rewrite Hu. simpl. rewrite bsum_reverse. replace (off + alg_block a + bsum cs - bsum cs) with (off + alg_block a) by lia.
    rewrite bback_ok by lia. rewrite bsub_ok by lia. fold ivp. cbn [mbind outcome_bind]. rewrite Hd. cbn [mbind outcome_bind]. by rewrite Hun.
Qed.

Definition divides_all (cs : list (alg * bytes)) (n : nat) : Prop :=
  Forall (λ x : alg * bytes, n mod alg_block x.1 = 0) cs.

Lemma wrap_unwrap P cs iv off work : prims_ok P → good_ciphers cs → off + bsum cs ≤ length iv →
  divides_all cs (length work) →
  ∃ ct, wrap P cs iv off work = Ok ct ∧ unwrap P (reverse cs) iv (off + bsum cs) ct = Ok work ∧
    length ct = length work.
Proof.
  intros HP Hg. revert off work. induction Hg as [|[a k] cs Hk Hg IH]; intros off work Hoff Hdiv.
  - exists work. done.
  - simpl in Hk. assert (bsum ((a, k) :: cs) = alg_block a + bsum cs) as Hbs by done. rewrite Hbs in Hoff |- *.
    apply Forall_cons in Hdiv as [Hd0 Hdiv]. simpl in Hd0.
    cbn [wrap]. rewrite bsub_ok by lia. set (ivp := take _ _).
    assert (length ivp = alg_block a) as Hivp. { unfold ivp. rewrite take_length, drop_length. lia. }
    destruct (cbc_encrypt_ok P a k ivp work HP Hk Hivp Hd0) as (c & Hc & Hcl & Hd).
    cbn [mbind outcome_bind]. rewrite Hc. cbn [mbind outcome_bind]. destruct (IH (off + alg_block a) c) as (ct & Hs & Hu & Hle); [lia|by rewrite Hcl|].
    exists ct. split; [done|]. split; [|lia].
    rewrite reverse_cons, unwrap_app. replace (off + (alg_block a + bsum cs)) with (off + alg_block a + bsum cs) by lia.
    rewrite Hu. simpl. rewrite bsum_reverse. replace (off + alg_block a + bsum cs - bsum cs) with (off + alg_block a) by lia.
    rewrite bback_ok by lia. rewrite bsub_ok by lia. fold ivp. cbn [mbind outcome_bind]. rewrite Hd. done.
Qed.
