(** Every password that meets the request can come out. *)
From Verif Require Import Proof_GoStr Proof_Pkcs7 Proof_Crypt2.
From Verif Require Export Spec_PassGen Proof_PassGen.
From Coq Require Import Lia.
From stdpp Require Import options.
#[local] Open Scope nat_scope.

(** The entropy from [e] on starts with [bs]. *)
Definition feeds (ent : nat → byte) (e : nat) (bs : bytes) : Prop := ∀ i b, bs !! i = Some b → ent (e + i) = b.
Lemma feeds_app ent e b1 b2 : feeds ent e (b1 ++ b2) ↔ feeds ent e b1 ∧ feeds ent (e + length b1) b2.
Proof.
  split.
  - intros H. split.
    + intros i b Hi. apply H. by apply lookup_app_l_Some.
    + intros i b Hi. rewrite <-Nat.add_assoc. apply H. rewrite lookup_app_r by lia. by replace (length b1 + i - length b1) with i by lia.
  - intros [H1 H2] i b Hi. apply lookup_app_Some in Hi as [Hi|[Hge Hi]]; [by apply H1|].
    apply H2 in Hi. rewrite <-Hi. f_equal. lia.
Qed.
Lemma feeds_head ent e b bs : feeds ent e (b :: bs) → ent e = b ∧ feeds ent (S e) bs.
Proof.
  intros H. split; [rewrite <-(Nat.add_0_r e); by apply H|]. intros i x Hi. replace (S e + i) with (e + S i) by lia. by apply H.
Qed.

Lemma byte_mod_surj i z : (Z.of_nat i < z)%Z → (z < 256)%Z → byte_mod (Zbyte (Z.of_nat i)) (to_byte z) = Ok i.
Proof.
  intros Hi Hz. unfold byte_mod. rewrite to_byte_Z, byteZ_Zbyte by lia. rewrite Z.mod_small by lia. rewrite (proj2 (Z.eqb_neq _ _)) by lia.
  rewrite Z.mod_small by lia. by rewrite Nat2Z.id.
Qed.
Lemma pick_surj a x : good_alpha a → x ∈ str_bytes a → ∃ b, pick a b = Ok x.
Proof.
  intros [H0 H1] Hx. apply elem_of_list_lookup in Hx as [i Hi]. exists (Zbyte (Z.of_nat i)). unfold pick.
  assert (i < String.length a). { rewrite <-str_bytes_length. by eapply lookup_lt_Some. }
  rewrite byte_mod_surj by lia. cbn [mbind outcome_bind]. unfold idx. by rewrite Hi.
Qed.

Lemma fill_surj n a xs : good_alpha a → Forall (λ x, x ∈ str_bytes a) xs → ∃ bs, length bs = length xs ∧
  ∀ ent pre m e, feeds ent e bs → e + length xs ≤ n → length xs ≤ m →
    fill ent n a (length xs) (pre ++ zeroes m, length pre, e) =
    Ok ((pre ++ xs) ++ zeroes (m - length xs), length (pre ++ xs), e + length xs).
Proof.
  intros Ha Hxs. induction Hxs as [|x xs Hx Hxs IH].
  - exists []. split; [done|]. intros ent pre m e _ _ _. cbn [fill length]. by rewrite app_nil_r, Nat.sub_0_r, Nat.add_0_r.
  - destruct IH as (bs & Hl & IH). destruct (pick_surj a x Ha Hx) as [b Hb]. exists (b :: bs). split; [simpl; lia|].
    intros ent pre m e Hf He Hm. apply feeds_head in Hf as [Hf1 Hf2]. cbn [length] in *. cbn [fill]. unfold ent_at.
    rewrite (proj2 (Nat.ltb_lt _ _)) by lia. cbn [mbind outcome_bind]. rewrite Hf1, Hb. cbn [mbind outcome_bind]. rewrite put_ok by lia. cbn [mbind outcome_bind].
    replace (S (length pre)) with (length (pre ++ [x])) by (rewrite app_length; simpl; lia).
    rewrite IH by (done || lia). rewrite <-!(assoc_L (++)). cbn [app]. 
    replace (m - 1 - length xs) with (m - S (length xs)) by lia. by replace (S e + length xs) with (e + S (length xs)) by lia.
Qed.
Lemma fill_all_surj n ps xss : Forall (λ p, good_alpha p.1) ps →
  Forall2 (λ p xs, length xs = Z.to_nat p.2 ∧ Forall (λ x, x ∈ str_bytes p.1) xs) ps xss → ∃ bs, length bs = length (concat xss) ∧
  ∀ ent pre m e, feeds ent e bs → e + length (concat xss) ≤ n → length (concat xss) ≤ m →
    fill_all ent n ps (pre ++ zeroes m, length pre, e) =
    Ok ((pre ++ concat xss) ++ zeroes (m - length (concat xss)), length (pre ++ concat xss), e + length (concat xss)).
Proof.
  intros Hg HF. induction HF as [|[a num] xs ps xss [Hl Hf] _ IH].
  - exists []. split; [done|]. intros ent pre m e _ _ _. cbn [fill_all concat length]. by rewrite app_nil_r, Nat.sub_0_r, Nat.add_0_r.
  - apply Forall_cons in Hg as [Hg1 Hg2]. destruct (IH Hg2) as (bs2 & Hl2 & H2). cbn [fst snd] in *.
    destruct (fill_surj n a xs Hg1 Hf) as (bs1 & Hl1 & H1). exists (bs1 ++ bs2). cbn [concat]. rewrite !app_length. split; [lia|].
    intros ent pre m e Hfd He Hm. apply feeds_app in Hfd as [Hfd1 Hfd2]. rewrite Hl1 in Hfd2. cbn [fill_all]. rewrite <-Hl, H1 by (done || lia).
    cbn [mbind outcome_bind]. rewrite H2 by (done || lia). rewrite !app_length, <-!(assoc_L (++)).
    replace (m - length xs - length (concat xss)) with (m - (length xs + length (concat xss))) by lia.
    by rewrite !Nat.add_assoc.
Qed.
Lemma fill_random_surj n ps ys : Forall (λ p, good_alpha p.1) ps → length ps < 256 →
  Forall (λ x, ∃ p, p ∈ ps ∧ x ∈ str_bytes p.1) ys → ∃ bs, length bs = 2 * length ys ∧
  ∀ ent pre m e, feeds ent e bs → e + 2 * length ys ≤ n → length ys ≤ m →
    fill_random ent n ps (length ys) (pre ++ zeroes m, length pre, e) =
    Ok ((pre ++ ys) ++ zeroes (m - length ys), length (pre ++ ys), e + 2 * length ys).
Proof.
  intros Hg Hps HF. induction HF as [|x ys (p & Hp & Hx) _ IH].
  - exists []. split; [done|]. intros ent pre m e _ _ _. cbn [fill_random length]. by rewrite app_nil_r, Nat.sub_0_r, Nat.add_0_r.
  - destruct IH as (bs & Hl & IH). apply elem_of_list_lookup in Hp as [i Hi].
    assert (i < length ps) by by eapply lookup_lt_Some.
    destruct (pick_surj p.1 x) as [b Hb]; [by eapply Forall_lookup_1 in Hg|done|].
    exists (Zbyte (Z.of_nat i) :: b :: bs). cbn [length]. split; [lia|].
    intros ent pre m e Hf He Hm. apply feeds_head in Hf as [Hf1 Hf]. apply feeds_head in Hf as [Hf2 Hf].
    cbn [fill_random]. unfold ent_at. rewrite !(proj2 (Nat.ltb_lt _ _)) by lia. cbn [mbind outcome_bind].
    rewrite Hf1, byte_mod_surj by lia. cbn [mbind outcome_bind]. unfold idx at 1. rewrite Hi. cbn [mbind outcome_bind].
    rewrite Hf2, Hb. cbn [mbind outcome_bind]. rewrite put_ok by lia. cbn [mbind outcome_bind].
    replace (S (length pre)) with (length (pre ++ [x])) by (rewrite app_length; simpl; lia).
    rewrite IH by (done || lia). rewrite <-!(assoc_L (++)). cbn [app].
    replace (m - 1 - length ys) with (m - S (length ys)) by lia. by replace (S (S e) + 2 * length ys) with (e + 2 * S (length ys)) by lia.
Qed.

(** Swaps can bring about any order. *)
Lemma shuffle_surj n len k : ∀ pre pw tgt, length pw = k → pw ≡ₚ tgt → Z.of_nat (length pre + k) = len → (len < 256)%Z →
  ∃ bs, length bs = k ∧ ∀ ent e, feeds ent e bs → e + k ≤ n →
    shuffle ent n len k (length pre) (pre ++ pw) e = Ok (pre ++ tgt).
Proof.
  induction k as [|k IH]; intros pre pw tgt Hl HP Hlen H256.
  - apply nil_length_inv in Hl as ->. apply Permutation_nil in HP as ->. exists []. split; [done|]. done.
  - destruct tgt as [|t tgt]. { symmetry in HP. apply Permutation_nil in HP as ->. done. }
    assert (t ∈ pw) as Ht by (rewrite HP; left). apply elem_of_list_lookup in Ht as [j Hj].
    assert (j < length pw) as Hjl by by eapply lookup_lt_Some.
    destruct pw as [|p pw]; [done|]. cbn [length] in *.
    set (pw' := match j with O => pw | S j' => <[j' := p]> pw end).
    assert (t :: pw' ≡ₚ p :: pw) as HP'.
    { unfold pw'. destruct j as [|j]; [by injection Hj as ->|]. cbn in Hj.
      pose proof (swap_perm (p :: pw) 0 (S j) p t eq_refl Hj) as Hsw. done. }
    assert (pw' ≡ₚ tgt) as HP2. { apply (Permutation_cons_inv (a := t)). rewrite HP'. done. }
    assert (length pw' = k) as Hl'. { unfold pw'. destruct j; [lia|]. rewrite insert_length. lia. }
    destruct (IH (pre ++ [t]) pw' tgt Hl' HP2) as (bs & Hlb & Hs). { rewrite app_length. simpl. lia. } { done. }
    exists (Zbyte (Z.of_nat (length pre + j)) :: bs). split; [simpl; lia|]. intros ent e Hf He.
    apply feeds_head in Hf as [Hf1 Hf]. cbn [shuffle]. unfold ent_at. rewrite (proj2 (Nat.ltb_lt _ _)) by lia. cbn [mbind outcome_bind].
    rewrite Hf1, byte_mod_surj by lia. cbn [mbind outcome_bind]. unfold idx. rewrite (lookup_app_r pre (p :: pw) (length pre)) by lia. rewrite Nat.sub_diag. cbn [lookup list_lookup].
    rewrite lookup_app_r by lia. replace (length pre + j - length pre) with j by lia.
    change (list_lookup j (p :: pw)) with ((p :: pw) !! j). rewrite Hj. cbn [mbind outcome_bind].
    assert (<[length pre + j := p]> (<[length pre := t]> (pre ++ p :: pw)) = (pre ++ [t]) ++ pw') as ->.
    { rewrite insert_app_r_alt by lia. rewrite Nat.sub_diag. change (<[0 := t]> (p :: pw)) with (t :: pw).
      rewrite insert_app_r_alt by lia. replace (length pre + j - length pre) with j by lia. rewrite <-(assoc_L (++)). f_equal.
      unfold pw'. destruct j as [|j]; [|done]. injection Hj as ->. done. }
    replace (S (length pre)) with (length (pre ++ [t])) by (rewrite app_length; simpl; lia).
    rewrite Hs by (done || lia). by rewrite <-(assoc_L (++)).
Qed.

(** A password that meets the request splits into the picks of each class and
    the rest. *)
Lemma take_class a n (pw : bytes) : n ≤ count_in a pw →
  ∃ xs rest, pw ≡ₚ xs ++ rest ∧ length xs = n ∧ Forall (λ x, x ∈ str_bytes a) xs.
Proof.
  intros Hn. exists (take n (filter (λ x, x ∈ str_bytes a) pw)), (drop n (filter (λ x, x ∈ str_bytes a) pw) ++ filter (λ x, x ∉ str_bytes a) pw).
  split; [|split].
  - rewrite (assoc_L (++)), take_drop. clear Hn. induction pw as [|x pw IH]; [done|].
    destruct (decide (x ∈ str_bytes a)).
    + rewrite filter_cons_True, (filter_cons_False (λ x, x ∉ str_bytes a)) by (done || naive_solver). simpl. by constructor.
    + rewrite filter_cons_False, (filter_cons_True (λ x, x ∉ str_bytes a)) by done. rewrite IH at 1. by rewrite <-Permutation_middle.
  - rewrite take_length. unfold count_in in Hn. lia.
  - apply Forall_take. apply Forall_forall. intros x Hx. by apply elem_of_list_filter in Hx as [? _].
Qed.
Lemma split_classes ps (pw : bytes) : (∀ p, p ∈ ps → p.1 ∈ A5) → NoDup ps.*1 → (∀ p, p ∈ ps → (p.2 ≤ Z.of_nat (count_in p.1 pw))%Z) →
  ∃ xss ys, Forall2 (λ p xs, length xs = Z.to_nat p.2 ∧ Forall (λ x, x ∈ str_bytes p.1) xs) ps xss ∧ pw ≡ₚ concat xss ++ ys.
Proof.
  revert pw. induction ps as [|[a n] ps IH]; intros pw HA Hnd Hc.
  - exists [], pw. split; [constructor|done].
  - cbn [fmap list_fmap] in Hnd. apply NoDup_cons in Hnd as [Hna Hnd].
    destruct (take_class a (Z.to_nat n) pw) as (xs & rest & HP & Hl & Hf). { specialize (Hc (a, n) ltac:(left)). cbn in Hc. lia. }
    destruct (IH rest) as (xss & ys & HF & HP2).
    + intros p Hp. apply HA. by right.
    + done.
    + intros p Hp. pose proof (Hc p ltac:(by right)) as Hcp. rewrite (count_perm _ _ _ HP), count_app in Hcp.
      rewrite (count_none p.1 xs) in Hcp; [done|]. intros x Hx1 Hx2. rewrite Forall_forall in Hf. specialize (Hf x Hx1).
      apply Hna. assert (a = p.1) as ->; [|by apply elem_of_list_fmap; exists p].
      eapply A5_disjoint; [by apply (HA (a, n)); left|by apply HA; right|done|done].
    + exists (xs :: xss), ys. split; [by constructor|]. cbn [concat]. rewrite <-(assoc_L (++)), <-HP2. done.
Qed.

Lemma genPassword_complete len c pw : no_overflow len c → (len < 256)%Z → meets len c pw →
  ∃ ent, genPassword (Some ent) len c = Ok pw.
Proof.
  intros [H1 H2] H256 (Hlen & Hcl & Hall).
  destruct (split_classes (pairs c) pw) as (xss & ys & HF & HP).
  { intros [a n] Hp. apply pairs_elem in Hp as [Hp _]. by eapply class_of_A5. }
  { assert (NoDup (class_of c).*1) as Hnd by (change (NoDup A5); compute_dec).
    unfold pairs. fold (class_of c). revert Hnd. generalize (class_of c). clear. intros l Hnd. induction l as [|[a n] l IH]; [constructor|].
    cbn [fmap list_fmap] in Hnd. apply NoDup_cons in Hnd as [H1 H2]. rewrite filter_cons. destruct (decide _); [|by apply IH].
    cbn [fmap list_fmap]. constructor; [|by apply IH]. intros Hin. apply H1. apply elem_of_list_fmap in Hin as (p & -> & Hp).
    apply elem_of_list_filter in Hp as [_ Hp]. apply elem_of_list_fmap. by exists p. }
  { intros [a n] Hp. apply pairs_elem in Hp as [Hp _]. by apply Hcl. }
  assert (Forall (λ x, ∃ p, p ∈ pairs c ∧ x ∈ str_bytes p.1) ys) as Hys.
  { apply Forall_forall. intros x Hx. destruct (Hall x) as (a & n & Hin & Hn & Hxa). { rewrite HP. apply elem_of_app. by right. }
    exists (a, n). split; [by apply pairs_elem|done]. }
  assert (length (concat xss) = nums (pairs c)) as Hlx.
  { clear -HF. induction HF as [|p xs ps xss [Hl _] _ IH]; [done|]. cbn [concat]. rewrite app_length, Hl, IH. done. }
  pose proof (nums_pairs c) as Hnums. pose proof (minima_nonneg c) as H0.
  assert (length (concat xss ++ ys) = Z.to_nat len) as Hlc by (rewrite <-HP; lia).
  assert (Z.of_nat (length ys) = (len - minima c)%Z) as Hly by (rewrite app_length in Hlc; lia).
  set (n := Z.to_nat (3 * len - minima c)).
  pose proof (pairs_length c) as H5.
  destruct (fill_all_surj n (pairs c) xss (pairs_good c) HF) as (b1 & L1 & F1).
  destruct (fill_random_surj n (pairs c) ys (pairs_good c) ltac:(lia) Hys) as (b2 & L2 & F2).
  destruct (shuffle_surj n len (Z.to_nat len) [] (concat xss ++ ys) pw Hlc) as (b3 & L3 & F3). { by symmetry. } { simpl. lia. } { done. }
  exists (λ i, default zero_byte ((b1 ++ b2 ++ b3) !! i)).
  set (ent := λ i, default zero_byte ((b1 ++ b2 ++ b3) !! i)).
  assert (feeds ent 0 (b1 ++ b2 ++ b3)) as Hfd. { intros i b Hi. unfold ent. cbn [Nat.add]. by rewrite Hi. }
  apply feeds_app in Hfd as [D1 Hfd]. apply feeds_app in Hfd as [D2 D3]. rewrite L1 in D2, D3. rewrite L2 in D3.
  unfold genPassword. rewrite needLen_minima by done. rewrite (proj2 (Z.ltb_ge _ _)) by lia.
  rewrite (wrap64_id (len - minima c)) by lia. rewrite (wrap64_id ((len - minima c) * 2)) by lia.
  rewrite (wrap64_id (minima c + _)) by lia. rewrite (wrap64_id (_ + len)) by lia. rewrite !make_bytes_Z by lia. cbn [mbind outcome_bind].
  replace (length (zeroes (Z.to_nat (minima c + (len - minima c) * 2 + len)))) with n by (unfold n, zeroes; rewrite replicate_length; lia).
  pose proof (F1 ent [] (Z.to_nat len) 0 D1 ltac:(lia) ltac:(lia)) as E1. cbn [app length] in E1. rewrite E1. cbn [mbind outcome_bind].
  assert ((0 <? len - minima c)%Z && (length (pairs c) =? 0) = false) as ->.
  { apply andb_false_iff. destruct (decide (length (pairs c) = 0)) as [Hz|Hz]; [left|right; by apply Nat.eqb_neq].
    apply Z.ltb_ge. destruct ys as [|y ys]; [simpl in Hly; lia|]. apply Forall_cons in Hys as [(p & Hp & _) _].
    destruct (pairs c); [by apply elem_of_nil in Hp|done]. }
  replace (Z.to_nat (len - minima c)) with (length ys) by lia.
  rewrite F2 by (done || lia). cbn [mbind outcome_bind].
  rewrite app_length in Hlc. replace (Z.to_nat len - length (concat xss) - length ys) with 0 by lia. change (zeroes 0) with (@nil byte). rewrite app_nil_r.
  apply F3; [done|lia].
Qed.

(** ** Overflow *)
Lemma fill_panic ent n a k : good_alpha a → ∀ pw off e, length pw < off + k → fill ent n a k (pw, off, e) = Panic ∨ k = 0.
Proof.
  intros Ha. induction k as [|k IH]; intros pw off e Hk; [by right|]. left. cbn [fill]. unfold ent_at.
  destruct (e <? n); [|done]. cbn [mbind outcome_bind]. destruct (pick_ok a (ent e) Ha) as (x & Ex & _). rewrite Ex. cbn [mbind outcome_bind].
  unfold put. destruct (off <? length pw) eqn:E; [|done]. apply Nat.ltb_lt in E. cbn [mbind outcome_bind].
  destruct (IH (<[off := x]> pw) (S off) (S e)) as [H| ->]; [rewrite insert_length; lia|done|]. lia.
Qed.
Definition huge : Z := (2 ^ 63 - 1)%Z.
Definition overflow_classes : classes := {| c_upper := huge; c_lower := huge; c_numbers := 0; c_basic := 0; c_extra := 0 |}.
Lemma overflow_panic ent len : (0 ≤ len ≤ 1000000)%Z → genPassword (Some ent) len overflow_classes = Panic.
Proof.
  intros Hl. unfold genPassword. assert (needLen overflow_classes = (-2)%Z) as -> by (vm_compute; reflexivity).
  rewrite (proj2 (Z.ltb_ge _ _)) by lia.
  rewrite (wrap64_id (len - -2)) by lia. rewrite (wrap64_id ((len - -2) * 2)) by lia.
  rewrite (wrap64_id (-2 + _)) by lia. rewrite (wrap64_id (_ + len)) by lia. rewrite !make_bytes_Z by lia. cbn [mbind outcome_bind].
  assert (∃ r, pairs overflow_classes = (alphabetUppercase, huge) :: r) as [r ->].
  { unfold pairs. rewrite filter_cons_True by (vm_compute; reflexivity). eauto. }
  cbn [fill_all].
  match goal with |- context [fill ent ?n ?a ?k (?pw, ?o, ?e)] => destruct (fill_panic ent n a k ltac:(apply A5_good; left) pw o e) as [H|H] end.
  - unfold zeroes. rewrite replicate_length. unfold huge. lia.
  - rewrite H. done.
  - exfalso. unfold huge in H. lia.
Qed.

Lemma meets_nil c : (minima c ≤ 0)%Z → meets 0 c [].
Proof.
  intros Hge. split; [done|]. split.
  - intros a n Hin. cbn. split; [|done]. destruct (decide (0 < n)%Z) as [Hn|]; [|lia]. exfalso.
    assert ((a, n) ∈ pairs c) as Hp by (apply pairs_elem; split; [done|lia]).
    pose proof (nums_pairs c) as Hc. apply elem_of_list_split in Hp as (l1 & l2 & E). rewrite E in Hc. unfold nums in Hc.
    rewrite sum_list_with_app in Hc. cbn [sum_list_with snd] in Hc. lia.
  - intros x Hx. by apply elem_of_nil in Hx.
Qed.
