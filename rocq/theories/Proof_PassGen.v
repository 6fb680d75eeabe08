From Verif Require Import Proof_GoStr Proof_Pkcs7 Proof_Crypt2 Spec_PassGen.
From Coq Require Import Lia.
From stdpp Require Import options.
#[local] Open Scope nat_scope.

Lemma to_byte_Z z : byteZ (to_byte z) = (z mod 256)%Z.
Proof. unfold to_byte. rewrite byteZ_Zbyte; [done|]. apply Z.mod_pos_bound. lia. Qed.
Lemma byteZ_nonneg b : (0 ≤ byteZ b)%Z.
Proof. unfold byteZ. lia. Qed.

(** ** Arithmetic *)

Lemma wrap64_id z : (- 2 ^ 63 ≤ z < 2 ^ 63)%Z → wrap64 z = z.
Proof. intros H. unfold wrap64. rewrite Z.mod_small by lia. lia. Qed.

Lemma needLen_minima c : (minima c < 2 ^ 63)%Z → needLen c = minima c.
Proof.
  unfold needLen, minima, class_list. cbn [foldl foldr].
  generalize (c_upper c) (c_lower c) (c_numbers c) (c_basic c) (c_extra c). intros a b d e f H.
  assert (∀ x y, (0 ≤ x)%Z → (x + Z.max 0 y < 2 ^ 63)%Z → (if (0 <? y)%Z then wrap64 (x + y) else x) = (x + Z.max 0 y)%Z) as Hs.
  { intros x y Hx Hy. destruct (0 <? y)%Z eqn:E; [apply Z.ltb_lt in E; rewrite wrap64_id; lia|apply Z.ltb_ge in E; lia]. }
  rewrite (Hs 0%Z a), (Hs _ b), (Hs _ d), (Hs _ e), (Hs _ f) by lia. lia.
Qed.

(** ** Picking *)

Definition good_alpha (a : string) : Prop := 0 < String.length a < 256.

Lemma byte_mod_ok b z : (0 < z mod 256)%Z → ∃ i, byte_mod b (to_byte z) = Ok i ∧ (Z.of_nat i < z mod 256)%Z.
Proof.
  intros Hz. unfold byte_mod. rewrite to_byte_Z. rewrite (proj2 (Z.eqb_neq _ _)) by lia.
  eexists. split; [done|]. pose proof (Z.mod_pos_bound (byteZ b) (z mod 256) Hz). lia.
Qed.
Lemma pick_ok a b : good_alpha a → ∃ x, pick a b = Ok x ∧ x ∈ str_bytes a.
Proof.
  intros [H0 H1]. unfold pick. destruct (byte_mod_ok b (Z.of_nat (String.length a))) as (i & E & Hi).
  { rewrite Z.mod_small by lia. lia. }
  rewrite E. cbn [mbind outcome_bind]. rewrite Z.mod_small in Hi by lia. unfold idx.
  destruct (lookup_lt_is_Some_2 (str_bytes a) i) as [x Hx]; [rewrite str_bytes_length; lia|].
  rewrite Hx. exists x. split; [done|]. by eapply elem_of_list_lookup_2.
Qed.
Lemma put_ok pre m x : 0 < m → put (pre ++ zeroes m) (length pre) x = Ok ((pre ++ [x]) ++ zeroes (m - 1)).
Proof.
  intros Hm. unfold put. rewrite app_length. unfold zeroes at 1. rewrite replicate_length.
  rewrite (proj2 (Nat.ltb_lt _ _)) by lia. f_equal. rewrite <-(assoc_L (++)).
  destruct m as [|m]; [lia|]. rewrite insert_app_r_alt by lia. rewrite Nat.sub_diag. simpl. by rewrite Nat.sub_0_r.
Qed.

(** ** The loops *)

Lemma fill_ok ent n a k : good_alpha a → ∀ pre m e, e + k ≤ n → k ≤ m →
  ∃ xs, fill ent n a k (pre ++ zeroes m, length pre, e) = Ok ((pre ++ xs) ++ zeroes (m - k), length (pre ++ xs), e + k) ∧
    length xs = k ∧ Forall (λ x, x ∈ str_bytes a) xs.
Proof.
  intros Ha. induction k as [|k IH]; intros pre m e He Hk.
  - exists []. cbn [fill]. rewrite app_nil_r, Nat.sub_0_r, Nat.add_0_r. auto.
  - cbn [fill]. unfold ent_at. rewrite (proj2 (Nat.ltb_lt _ _)) by lia. cbn [mbind outcome_bind].
    destruct (pick_ok a (ent e) Ha) as (x & Ex & Hx). rewrite Ex. cbn [mbind outcome_bind]. rewrite put_ok by lia. cbn [mbind outcome_bind].
    replace (S (length pre)) with (length (pre ++ [x])) by (rewrite app_length; simpl; lia).
    destruct (IH (pre ++ [x]) (m - 1) (S e)) as (xs & E & Hl & Hf); [lia|lia|].
    exists (x :: xs). rewrite E. rewrite <-!(assoc_L (++)). cbn [app]. split; [|split; [simpl; lia|by constructor]].
    rewrite !app_length. cbn [length]. replace (m - 1 - k) with (m - S k) by lia. replace (S e + k) with (e + S k) by lia. done.
Qed.

Definition nums (ps : list (string * Z)) : nat := sum_list_with (λ p, Z.to_nat p.2) ps.

Lemma fill_all_ok ent n ps : Forall (λ p, good_alpha p.1) ps → ∀ pre m e, e + nums ps ≤ n → nums ps ≤ m →
  ∃ xss, fill_all ent n ps (pre ++ zeroes m, length pre, e) =
      Ok ((pre ++ concat xss) ++ zeroes (m - nums ps), length (pre ++ concat xss), e + nums ps) ∧
    length (concat xss) = nums ps ∧
    Forall2 (λ p xs, length xs = Z.to_nat p.2 ∧ Forall (λ x, x ∈ str_bytes p.1) xs) ps xss.
Proof.
  induction 1 as [|[a num] ps Ha _ IH]; intros pre m e He Hm.
  - exists []. cbn [fill_all concat]. unfold nums. cbn [sum_list_with]. rewrite app_nil_r, Nat.sub_0_r, Nat.add_0_r. auto.
  - unfold nums in *. cbn [sum_list_with fst snd] in *. cbn [fill_all].
    destruct (fill_ok ent n a (Z.to_nat num) Ha pre m e) as (xs & E & Hl & Hf); [lia|lia|].
    rewrite E. cbn [mbind outcome_bind].
    destruct (IH (pre ++ xs) (m - Z.to_nat num) (e + Z.to_nat num)) as (xss & E2 & Hl2 & Hf2); [lia|lia|].
    exists (xs :: xss). rewrite E2. cbn [concat]. rewrite <-!(assoc_L (++)).
    split; [|split; [rewrite app_length; lia|by constructor]].
    replace (m - Z.to_nat num - sum_list_with (λ p, Z.to_nat p.2) ps) with (m - (Z.to_nat num + sum_list_with (λ p, Z.to_nat p.2) ps)) by lia.
    by rewrite Nat.add_assoc.
Qed.

Lemma fill_random_ok ent n ps k : Forall (λ p, good_alpha p.1) ps → 0 < length ps < 256 → ∀ pre m e, e + 2 * k ≤ n → k ≤ m →
  ∃ xs, fill_random ent n ps k (pre ++ zeroes m, length pre, e) = Ok ((pre ++ xs) ++ zeroes (m - k), length (pre ++ xs), e + 2 * k) ∧
    length xs = k ∧ Forall (λ x, ∃ p, p ∈ ps ∧ x ∈ str_bytes p.1) xs.
Proof.
  intros Ha Hps. induction k as [|k IH]; intros pre m e He Hk.
  - exists []. cbn [fill_random]. rewrite app_nil_r, Nat.sub_0_r, Nat.add_0_r. auto.
  - cbn [fill_random]. unfold ent_at. rewrite !(proj2 (Nat.ltb_lt _ _)) by lia. cbn [mbind outcome_bind].
    destruct (byte_mod_ok (ent e) (Z.of_nat (length ps))) as (i & Ei & Hi). { rewrite Z.mod_small by lia. lia. }
    rewrite Z.mod_small in Hi by lia. rewrite Ei. cbn [mbind outcome_bind].
    destruct (lookup_lt_is_Some_2 ps i) as [p Hp]; [lia|]. unfold idx at 1. rewrite Hp. cbn [mbind outcome_bind].
    destruct (pick_ok p.1 (ent (S e))) as (x & Ex & Hx). { by eapply Forall_lookup_1 in Ha. }
    rewrite Ex. cbn [mbind outcome_bind]. rewrite put_ok by lia. cbn [mbind outcome_bind].
    replace (S (length pre)) with (length (pre ++ [x])) by (rewrite app_length; simpl; lia).
    destruct (IH (pre ++ [x]) (m - 1) (S (S e))) as (xs & E & Hl & Hf); [lia|lia|].
    exists (x :: xs). rewrite E. rewrite <-!(assoc_L (++)). cbn [app]. split; [|split].
    + replace (m - 1 - k) with (m - S k) by lia. replace (S (S e) + 2 * k) with (e + 2 * S k) by lia. done.
    + simpl. lia.
    + constructor; [|done]. exists p. split; [by eapply elem_of_list_lookup_2|done].
Qed.

Lemma swap_perm (pw : bytes) i j x y : pw !! i = Some x → pw !! j = Some y → <[j := x]> (<[i := y]> pw) ≡ₚ pw.
Proof.
  intros Hi Hj. destruct (decide (i = j)) as [->|Hne].
  - rewrite list_insert_insert. rewrite Hi in Hj. injection Hj as <-. by rewrite list_insert_id.
  - assert (∀ i j x y, i < j → pw !! i = Some x → pw !! j = Some y → <[j := x]> (<[i := y]> pw) ≡ₚ pw) as Hlt.
    { clear. intros i j x y Hij Hi Hj.
      assert (i < length pw) as Hil by (eapply lookup_lt_Some; done). assert (j < length pw) as Hjl by (eapply lookup_lt_Some; done).
      pose proof (take_drop_middle pw i x Hi) as E1.
      assert (drop (S i) pw !! (j - S i) = Some y) as Hj2 by (rewrite lookup_drop; rewrite <-Hj; f_equal; lia).
      pose proof (take_drop_middle (drop (S i) pw) (j - S i) y Hj2) as E2.
      set (A := take i pw) in *. set (B := take (j - S i) (drop (S i) pw)) in *. set (C := drop (S (j - S i)) (drop (S i) pw)) in *.
      rewrite <-E1, <-E2. assert (length A = i) as HA by (unfold A; rewrite take_length; lia).
      assert (length B = j - S i) as HB by (unfold B; rewrite take_length, drop_length; lia).
      assert (<[i := y]> (A ++ x :: B ++ y :: C) = A ++ y :: B ++ y :: C) as ->.
      { rewrite insert_app_r_alt by lia. by replace (i - length A) with 0 by lia. }
      assert (<[j := x]> (A ++ y :: B ++ y :: C) = A ++ y :: B ++ x :: C) as ->.
      { rewrite insert_app_r_alt by lia. replace (j - length A) with (S (length B)) by lia. f_equal.
        change (y :: <[length B := x]> (B ++ y :: C) = y :: B ++ x :: C). f_equal.
        rewrite insert_app_r_alt by lia. by rewrite Nat.sub_diag. }
      apply Permutation_app_head. rewrite <-!(Permutation_middle B). apply Permutation_swap. }
    destruct (decide (i < j)); [by apply Hlt|].
    rewrite list_insert_commute by done. apply Hlt; [lia|done|done].
Qed.

Lemma shuffle_ok ent n len k : ∀ i pw e, (0 < len mod 256)%Z → (len mod 256 ≤ Z.of_nat (length pw))%Z → i + k = length pw → e + k ≤ n →
  ∃ pw', shuffle ent n len k i pw e = Ok pw' ∧ pw' ≡ₚ pw.
Proof.
  induction k as [|k IH]; intros i pw e Hl Hl2 Hi He; [by exists pw|].
  cbn [shuffle]. unfold ent_at. rewrite (proj2 (Nat.ltb_lt _ _)) by lia. cbn [mbind outcome_bind].
  destruct (byte_mod_ok (ent e) len Hl) as (j & Ej & Hj). rewrite Ej. cbn [mbind outcome_bind]. unfold idx.
  destruct (lookup_lt_is_Some_2 pw i) as [x Hx]; [lia|]. destruct (lookup_lt_is_Some_2 pw j) as [y Hy]; [lia|].
  rewrite Hx, Hy. cbn [mbind outcome_bind].
  destruct (IH (S i) (<[j:=x]> (<[i:=y]> pw)) (S e)) as (pw' & E & HP); rewrite ?insert_length; try lia.
  exists pw'. split; [done|]. rewrite HP. by apply swap_perm.
Qed.

(** ** The classes *)

Definition A5 : list string := [alphabetUppercase; alphabetLowercase; alphabetNumbers; alphabetBasicSymbols; alphabetExtraSymbols].
Definition A5_ok : bool :=
  forallb (λ a, forallb (λ a', String.eqb a a' || forallb (λ x, negb (bool_decide (x ∈ str_bytes a'))) (str_bytes a)) A5) A5.
Lemma A5_disjoint a a' x : a ∈ A5 → a' ∈ A5 → x ∈ str_bytes a → x ∈ str_bytes a' → a = a'.
Proof.
  assert (A5_ok = true) as H by (vm_compute; reflexivity). unfold A5_ok in H. rewrite forallb_forall in H.
  intros Ha Ha' Hx Hx'. apply elem_of_list_In in Ha, Ha', Hx. apply H in Ha. rewrite forallb_forall in Ha. apply Ha in Ha'.
  apply orb_true_iff in Ha' as [E|E]; [by apply String.eqb_eq|]. rewrite forallb_forall in E. apply E in Hx.
  apply negb_true_iff, bool_decide_eq_false in Hx. done.
Qed.
Lemma A5_good a : a ∈ A5 → good_alpha a.
Proof.
  intros Ha. unfold A5 in Ha. repeat (apply elem_of_cons in Ha as [->|Ha]; [unfold good_alpha; vm_compute; lia|]).
  by apply elem_of_nil in Ha.
Qed.
Lemma class_of_A5 c a n : (a, n) ∈ class_of c → a ∈ A5.
Proof.
  intros H. assert ((class_of c).*1 = A5) as <- by done. apply elem_of_list_fmap. by exists (a, n).
Qed.
Lemma class_of_fun c a n n' : (a, n) ∈ class_of c → (a, n') ∈ class_of c → n = n'.
Proof.
  assert (NoDup (class_of c).*1) as Hnd by (change (NoDup A5); compute_dec).
  intros H1 H2. apply elem_of_list_lookup in H1 as [i Hi]. apply elem_of_list_lookup in H2 as [j Hj].
  assert (i = j) as ->.
  { eapply (NoDup_lookup (class_of c).*1); [done| |]; rewrite list_lookup_fmap, ?Hi, ?Hj; done. }
  congruence.
Qed.
Lemma pairs_elem c a n : (a, n) ∈ pairs c ↔ (a, n) ∈ class_of c ∧ (0 ≤ n)%Z.
Proof. unfold pairs. rewrite elem_of_list_filter. fold (class_of c). cbn [snd]. rewrite Z.leb_le. tauto. Qed.
Lemma pairs_good c : Forall (λ p, good_alpha p.1) (pairs c).
Proof. apply Forall_forall. intros [a n] H. apply pairs_elem in H as [H _]. by apply A5_good, (class_of_A5 c _ n). Qed.
Lemma pairs_length c : length (pairs c) ≤ 5.
Proof. unfold pairs. etransitivity; [apply filter_length|]. done. Qed.
Lemma pairs_nil c : length (pairs c) = 0 ↔ all_off c.
Proof.
  split.
  - intros H a n Hin. destruct (decide (0 ≤ n)%Z) as [Hn|]; [|lia]. exfalso.
    assert ((a, n) ∈ pairs c) as Hp by by apply pairs_elem. destruct (pairs c); [by apply elem_of_nil in Hp|done].
  - intros H. destruct (pairs c) as [|[a n] r] eqn:E; [done|]. exfalso.
    assert ((a, n) ∈ pairs c) as Hp by (rewrite E; left). apply pairs_elem in Hp as [Hp Hn]. apply H in Hp. lia.
Qed.
Lemma nums_pairs c : Z.of_nat (nums (pairs c)) = minima c.
Proof.
  assert (∀ l : list (string * Z), Z.of_nat (nums (filter (λ p, (0 <=? p.2)%Z = true) l)) = foldr (λ i acc, (Z.max 0 i + acc)%Z) 0%Z l.*2) as H.
  { induction l as [|[a n] l IH]; [done|]. rewrite filter_cons. cbn [snd fmap list_fmap foldr].
    rewrite <-IH. unfold nums in *. destruct (decide _) as [Hd|Hd].
    - apply Z.leb_le in Hd. cbn [sum_list_with snd]. lia.
    - assert (¬ (0 ≤ n)%Z) by (by rewrite <-Z.leb_le). lia. }
  unfold pairs. rewrite H. done.
Qed.
Lemma minima_nonneg c : (0 ≤ minima c)%Z.
Proof. rewrite <-nums_pairs. lia. Qed.

Lemma count_app a x y : count_in a (x ++ y) = count_in a x + count_in a y.
Proof. unfold count_in. by rewrite filter_app, app_length. Qed.
Lemma count_perm a x y : x ≡ₚ y → count_in a x = count_in a y.
Proof. intros H. unfold count_in. by rewrite H. Qed.
Lemma count_all a x : Forall (λ c, c ∈ str_bytes a) x → count_in a x = length x.
Proof. intros H. unfold count_in. induction H as [|c x Hc _ IH]; [done|]. rewrite filter_cons_True by done. simpl. by rewrite IH. Qed.
Lemma count_none a x : (∀ c, c ∈ x → c ∉ str_bytes a) → count_in a x = 0.
Proof.
  intros H. unfold count_in. induction x as [|c x IH]; [done|]. rewrite filter_cons_False by (apply H; left).
  apply IH. intros d Hd. apply H. by right.
Qed.

Lemma fills_meet c xss ys pw :
  Forall2 (λ p xs, length xs = Z.to_nat p.2 ∧ Forall (λ x, x ∈ str_bytes p.1) xs) (pairs c) xss →
  Forall (λ x, ∃ p, p ∈ pairs c ∧ x ∈ str_bytes p.1) ys → pw ≡ₚ concat xss ++ ys →
  meets (Z.of_nat (length (concat xss ++ ys))) c pw.
Proof.
  intros Hx Hy HP.
  assert (∀ x, x ∈ pw → ∃ a n, (a, n) ∈ pairs c ∧ x ∈ str_bytes a) as Hall.
  { intros x Hin. rewrite HP in Hin. apply elem_of_app in Hin as [Hin|Hin].
    - assert (∃ xs, x ∈ xs ∧ xs ∈ xss) as (xs & Hin1 & Hin2).
      { clear -Hin. induction xss as [|xs xss IH]; [by apply elem_of_nil in Hin|]. cbn [concat] in Hin.
        apply elem_of_app in Hin as [Hin|Hin]; [exists xs; split; [done|left]|]. destruct (IH Hin) as (xs' & ? & ?). exists xs'. split; [done|by right]. }
      apply elem_of_list_lookup in Hin2 as [i Hi]. destruct (Forall2_lookup_r _ _ _ _ _ Hx Hi) as ([a n] & Hp & _ & Hf).
      exists a, n. split; [by eapply elem_of_list_lookup_2|]. rewrite Forall_forall in Hf. by apply Hf.
    - rewrite Forall_forall in Hy. destruct (Hy x Hin) as ([a n] & Hp & Hxa). eauto. }
  split; [by rewrite HP|]. split.
  - intros a n Hin. destruct (decide (0 ≤ n)%Z) as [Hn|Hn].
    + split; [|lia]. assert ((a, n) ∈ pairs c) as Hp by by apply pairs_elem.
      rewrite (count_perm a _ _ HP), count_app. assert (Z.to_nat n ≤ count_in a (concat xss)) as Hc; [|lia].
      clear -Hx Hp. induction Hx as [|[a' n'] xs ps xss [Hl Hf] Hx IH]; [by apply elem_of_nil in Hp|].
      cbn [concat fst snd] in *. rewrite count_app. apply elem_of_cons in Hp as [[= -> ->]|Hp].
      * rewrite (count_all a' xs Hf). lia.
      * specialize (IH Hp). lia.
    + assert (count_in a pw = 0) as H0; [|split; [lia|done]].
      apply count_none. intros x Hx1 Hx2. destruct (Hall x Hx1) as (a' & n' & Hp & Hxa). apply pairs_elem in Hp as [Hp Hn'].
      assert (a' = a) as -> by (eapply A5_disjoint; [by eapply class_of_A5|by eapply class_of_A5|done|done]).
      assert (n = n') by (by eapply class_of_fun). lia.
  - intros x Hin. destruct (Hall x Hin) as (a & n & Hp & Hxa). apply pairs_elem in Hp as [Hp Hn]. eauto.
Qed.

(** ** genPassword *)

Lemma make_bytes_Z z : (0 ≤ z)%Z → make_bytes z = Ok (zeroes (Z.to_nat z)).
Proof. intros H. unfold make_bytes. by rewrite (proj2 (Z.ltb_ge _ _)). Qed.

(** Everything that can happen. *)
Lemma genPassword_cases ent len c : no_overflow len c →
  let r := genPassword ent len c in
  if decide (len < minima c)%Z then r = Fail ENotEnoughSpace
  else match ent with
       | None => r = Fail (EMsg "randomness")
       | Some _ =>
           if decide (len = 0%Z) then r = Ok []
           else if decide (all_off c) then r = Fail ENotEnoughSpace
           else if decide (len mod 256 = 0)%Z then r = Panic
           else ∃ pw, r = Ok pw ∧ meets len c pw
       end.
Proof.
  intros [H1 H2] r. unfold r, genPassword. rewrite needLen_minima by done. pose proof (minima_nonneg c) as H0.
  destruct (decide (len < minima c)%Z) as [Hlt|Hge]; [by rewrite (proj2 (Z.ltb_lt _ _))|].
  rewrite (proj2 (Z.ltb_ge _ _)) by lia.
  rewrite (wrap64_id (len - minima c)) by lia. rewrite (wrap64_id ((len - minima c) * 2)) by lia.
  rewrite (wrap64_id (minima c + _)) by lia. rewrite (wrap64_id (_ + len)) by lia. rewrite !make_bytes_Z by lia. cbn [mbind outcome_bind].
  destruct ent as [ent|]; [|done].
  set (n := length (zeroes (Z.to_nat (minima c + (len - minima c) * 2 + len)))).
  assert (Z.of_nat n = (3 * len - minima c)%Z) as Hn by (unfold n, zeroes; rewrite replicate_length; lia). clearbody n.
  pose proof (nums_pairs c) as Hnums.
  destruct (fill_all_ok ent n (pairs c) (pairs_good c) [] (Z.to_nat len) 0) as (xss & E & Hl & Hf); [lia|lia|].
  cbn [app length] in E. rewrite E. clear E. cbn [mbind outcome_bind].
  destruct (decide (len = 0%Z)) as [->|Hlen].
  { assert (minima c = 0%Z) as HM by lia. rewrite HM. cbn [Z.sub Z.opp Z.add Z.ltb Z.compare andb].
    change (Z.to_nat 0) with 0. cbn [fill_random mbind outcome_bind shuffle]. f_equal.
    assert (concat xss = []) as -> by (apply nil_length_inv; lia). done. }
  destruct (decide (all_off c)) as [Hoff|Hon].
  { apply pairs_nil in Hoff as Hoff'. rewrite Hoff'. cbn [Nat.eqb]. rewrite andb_true_r.
    assert (nums (pairs c) = 0) as Hz by (destruct (pairs c); done). rewrite (proj2 (Z.ltb_lt _ _)) by lia. done. }
  assert (length (pairs c) ≠ 0) as Hne by by rewrite pairs_nil. pose proof (pairs_length c) as H5.
  rewrite (proj2 (Nat.eqb_neq _ _) Hne), andb_false_r.
  destruct (fill_random_ok ent n (pairs c) (Z.to_nat (len - minima c)) (pairs_good c) ltac:(lia) (concat xss) (Z.to_nat len - nums (pairs c)) (0 + nums (pairs c)))
    as (ys & E & Hly & Hfy); [lia|lia|].
  rewrite E. clear E. cbn [mbind outcome_bind].
  replace (Z.to_nat len - nums (pairs c) - Z.to_nat (len - minima c)) with 0 by lia. change (zeroes 0) with (@nil byte). rewrite app_nil_r.
  assert (length (concat xss ++ ys) = Z.to_nat len) as Hlc by (rewrite app_length; lia).
  destruct (decide (len mod 256 = 0)%Z) as [Hm|Hm].
  - destruct (Z.to_nat len) as [|k] eqn:Ek; [lia|]. cbn [shuffle]. unfold ent_at. rewrite (proj2 (Nat.ltb_lt _ _)) by lia.
    cbn [mbind outcome_bind]. unfold byte_mod. rewrite to_byte_Z, Hm. done.
  - pose proof (Z.mod_pos_bound len 256 ltac:(lia)). pose proof (Z.mod_le len 256 ltac:(lia) ltac:(lia)).
    destruct (shuffle_ok ent n len (Z.to_nat len) 0 (concat xss ++ ys) (0 + nums (pairs c) + 2 * Z.to_nat (len - minima c))) as (pw & Es & HP); try lia.
    exists pw. split; [done|]. pose proof (fills_meet c xss ys pw Hf Hfy HP) as HM. rewrite Hlc in HM. by rewrite Z2Nat.id in HM by lia.
Qed.
