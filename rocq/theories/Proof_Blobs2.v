(** Proofs about finding and searching entries, labels, stamps and users. *)
From Verif Require Import Proof_TxLog Proof_Merge Proof_Merge2 Proof_Merge3 Proof_GoStr Proof_Fuzzy.
From Verif Require Export Proof_Blobs.
From Coq Require Import Lia.
From stdpp Require Import options.
Import Model_GoStr.

(** ** FindByName *)

Lemma find_name_list n l : (∀ u b, (u, b) ∈ l → ∃ x, b !! "name" = Some x) →
  (∃ u b, find_name n l = Ok (Some (u, b)) ∧ (u, b) ∈ l ∧ b !! "name" = Some n) ∨
  (find_name n l = Ok None ∧ ∀ u b, (u, b) ∈ l → b !! "name" ≠ Some n).
Proof.
  induction l as [|[u b] l IH]; intros Hl; simpl.
  - right. split; [done|]. intros u b H. by apply elem_of_nil in H.
  - destruct (Hl u b ltac:(left)) as [x Hx]. rewrite (Name_ok _ _ Hx).
    destruct (String.eqb x n) eqn:E.
    + apply String.eqb_eq in E as ->. left. exists u, b. split; [done|]. split; [left|done].
    + apply String.eqb_neq in E. destruct IH as [(u' & b' & H1 & H2 & H3)|[H1 H2]]; [intros; eapply Hl; by right|..].
      * left. exists u', b'. split; [done|]. split; [by right|done].
      * right. split; [done|]. intros u' b' H. apply elem_of_cons in H as [[= -> ->]|H]; [congruence|]. eauto.
Qed.

Lemma FindByName_run e n d m : holds d m →
  ∃ d', FindByName e n d = (d', find_name n (e_ord e 0 m)) ∧ holds d' m ∧ vis (db_log d') = vis (db_log d).
Proof.
  intros Hh. destruct (holds_update d m Hh) as (d1 & Hu & Hs & Hv & _ & Hh1). exists d1. split; [|done].
  unfold FindByName, mbind, M_bind. rewrite Hu. unfold get_snap, lift. by rewrite Hs.
Qed.

Lemma FindByName_spec e n d m : holds d m → all_named m → fair e →
  ∃ d' r, FindByName e n d = (d', Ok r) ∧ holds d' m ∧ vis (db_log d') = vis (db_log d) ∧
    match r with
    | Some (u, b) => m !! u = Some b ∧ b !! "name" = Some n
    | None => ∀ u, ¬ called m u n
    end.
Proof.
  intros Hh Ha Hf. destruct (FindByName_run e n d m Hh) as (d' & Hr & Hh' & Hv).
  destruct (find_name_list n (e_ord e 0 m)) as [(u & b & H1 & H2 & H3)|[H1 H2]].
  { intros u b H. rewrite ord_elem in H by done. eauto. }
  - exists d', (Some (u, b)). rewrite Hr, H1. rewrite ord_elem in H2 by done. done.
  - exists d', None. rewrite Hr, H1. split; [done|]. split; [done|]. split; [done|].
    intros u (b & Hb & Hn). eapply H2; [|exact Hn]. by rewrite ord_elem.
Qed.

Lemma FindByName_det e1 e2 n d m : holds d m → well_named m → fair e1 → fair e2 →
  FindByName e1 n d = FindByName e2 n d.
Proof.
  intros Hh [Ha Hu] H1 H2.
  destruct (FindByName_run e1 n d m Hh) as (d1 & Hr1 & _).
  destruct (FindByName_run e2 n d m Hh) as (d2 & Hr2 & _).
  assert (d1 = d2) as <-.
  { revert Hr1 Hr2. destruct (holds_update d m Hh) as (d0 & Hup & Hs & _).
    unfold FindByName, mbind, M_bind. rewrite Hup. unfold get_snap, lift. congruence. }
  destruct (FindByName_spec e1 n d m Hh Ha H1) as (d1' & r1 & E1 & _ & _ & S1).
  destruct (FindByName_spec e2 n d m Hh Ha H2) as (d2' & r2 & E2 & _ & _ & S2).
  rewrite E1, E2. rewrite Hr1 in E1. rewrite Hr2 in E2. simplify_eq. f_equal. f_equal.
  destruct r1 as [[u1 b1]|], r2 as [[u2 b2]|]; [| | |done].
  - destruct S1 as [S1 N1], S2 as [S2 N2].
    assert (u1 = u2) as -> by (eapply Hu; [by exists b1|by exists b2]). congruence.
  - exfalso. eapply S2. exists b1. exact S1.
  - exfalso. eapply S1. exists b2. exact S2.
Qed.

(** ** Collecting *)

Lemma collect_spec keep l : ∀ acc, NoDup l.*1 → (∀ u, u ∈ l.*1 → acc !! u = None) →
  (∀ u b, (u, b) ∈ l → ∃ t, keep u b = Ok t) →
  (∀ u b, (u, b) ∈ l → ∃ x, b !! "name" = Some x) →
  ∃ r, collect keep l acc = Ok r ∧
    ∀ u n, r !! u = Some n ↔
      acc !! u = Some n ∨ ∃ b, (u, b) ∈ l ∧ b !! "name" = Some n ∧ keep u b = Ok true.
Proof.
  induction l as [|[u b] l IH]; intros acc Hnd Hacc Hk Hn; simpl.
  - exists acc. split; [done|]. intros u n. split; [by left|]. intros [?|(b & H & _)]; [done|].
    by apply elem_of_nil in H.
  - simpl in Hnd. apply NoDup_cons in Hnd as [Hu Hnd].
    destruct (Hk u b ltac:(left)) as [t Ht]. rewrite Ht.
    destruct (Hn u b ltac:(left)) as [x Hx].
    assert (∀ b', (u, b') ∉ l) as Hul.
    { intros b' H. apply Hu. apply elem_of_list_fmap. by exists (u, b'). }
    destruct t.
    + rewrite (Name_ok _ _ Hx).
      destruct (IH (<[u := x]> acc)) as (r & Hr & Hi); [done| |intros; eapply Hk; by right|intros; eapply Hn; by right|].
      { intros u' H'. rewrite lookup_insert_ne by (intros ->; done). apply Hacc. by right. }
      exists r. split; [done|]. intros u' n. rewrite Hi. split.
      * intros [H|(b' & Hb & Hn' & Hk')].
        -- destruct (decide (u' = u)) as [->|Hne].
           ++ rewrite lookup_insert in H. simplify_eq. right. exists b. split; [left|]. done.
           ++ rewrite lookup_insert_ne in H by done. by left.
        -- right. exists b'. split; [by right|done].
      * intros [H|(b' & Hb & Hn' & Hk')].
        -- left. rewrite lookup_insert_ne; [done|]. intros ->. rewrite (Hacc u' ltac:(left)) in H. done.
        -- apply elem_of_cons in Hb as [[= -> ->]|Hb].
           ++ left. rewrite lookup_insert. congruence.
           ++ right. eauto.
    + destruct (IH acc) as (r & Hr & Hi); [done|intros; apply Hacc; by right|intros; eapply Hk; by right|intros; eapply Hn; by right|].
      exists r. split; [done|]. intros u' n. rewrite Hi. split.
      * intros [H|(b' & Hb & Hn' & Hk')]; [by left|]. right. exists b'. split; [by right|done].
      * intros [H|(b' & Hb & Hn' & Hk')]; [by left|].
        apply elem_of_cons in Hb as [[= -> ->]|Hb]; [congruence|]. right. eauto.
Qed.

Lemma collect_ord keep e j m : fair e → all_named m →
  (∀ u b, m !! u = Some b → ∃ t, keep u b = Ok t) →
  ∃ r, collect keep (e_ord e j m) ∅ = Ok r ∧
    ∀ u n, r !! u = Some n ↔ ∃ b, m !! u = Some b ∧ b !! "name" = Some n ∧ keep u b = Ok true.
Proof.
  intros Hf Ha Hk.
  destruct (collect_spec keep (e_ord e j m) ∅) as (r & Hr & Hi).
  - rewrite (Hf j m). apply NoDup_fst_map_to_list.
  - done.
  - intros u b H. rewrite ord_elem in H by done. eauto.
  - intros u b H. rewrite ord_elem in H by done. eauto.
  - exists r. split; [done|]. intros u n. rewrite Hi. split.
    + intros [H|(b & Hb & H)]; [done|]. rewrite ord_elem in Hb by done. eauto.
    + intros (b & Hb & H). right. exists b. by rewrite ord_elem.
Qed.

(** ** Search *)

(** Splitting at a slash commutes with decoding. *)
Fixpoint split_runes (rs : list Z) : list (list Z) :=
  match rs with
  | [] => [[]]
  | r :: rs' =>
      if (r =? 47)%Z then [] :: split_runes rs'
      else match split_runes rs' with [] => [[r]] | x :: y => (r :: x) :: y end
  end.

Lemma split_runes_ne rs : split_runes rs ≠ [].
Proof. destruct rs as [|r rs]; simpl; [done|]. destruct (r =? 47)%Z; [done|]. by destruct (split_runes rs). Qed.

Lemma lacks_encode r : valid_rune r = true → r ≠ 47%Z → lacks (Zbyte 47) (encode_rune r).
Proof.
  intros Hr Hne. pose proof Hr as Hv. apply valid_rune_spec in Hv.
  assert (∀ z, (0 ≤ z < 256)%Z → z ≠ 47%Z → Zbyte z ≠ Zbyte 47) as Hz.
  { intros z Hz Hn E. apply (f_equal byteZ) in E. rewrite !byteZ_Zbyte in E by lia. lia. }
  unfold encode_rune, encode_valid. rewrite Hr.
  destruct (r <=? 127)%Z eqn:E1; [|destruct (r <=? 2047)%Z eqn:E2; [|destruct (r <=? 65535)%Z eqn:E3]];
    cbn [bytes_str fold_right lacks]; repeat split; apply Hz; divmod.
Qed.

Lemma split_prefix c a s : lacks c a →
  split_on c (a +:+ s) = match split_on c s with [] => [] | x :: y => (a +:+ x) :: y end.
Proof.
  induction a as [|x a IH]; simpl.
  - intros _. by destruct (split_on c s).
  - intros [Hx Ha]. apply Ascii.eqb_neq in Hx. rewrite Hx, IH by done. by destruct (split_on c s) eqn:E; [apply split_on_ne in E|].
Qed.

Lemma split_encode rs : Forall (λ r, valid_rune r = true) rs →
  split_on (Zbyte 47) (encode rs) = encode <$> split_runes rs.
Proof.
  induction rs as [|r rs IH]; intros Hv; [done|]. inversion Hv; subst. cbn [encode fold_right]. fold (encode rs).
  cbn [split_runes]. destruct (r =? 47)%Z eqn:E.
  - apply Z.eqb_eq in E as ->. change (encode_rune 47) with (String (Zbyte 47) "").
    change (String (Zbyte 47) "" +:+ encode rs) with (String (Zbyte 47) (encode rs)).
    cbn [split_on]. rewrite Ascii.eqb_refl, IH by done. done.
  - apply Z.eqb_neq in E. rewrite split_prefix by (by apply lacks_encode). rewrite IH by done.
    pose proof (split_runes_ne rs). by destruct (split_runes rs).
Qed.

Lemma split_runes_sub rs x r : x ∈ split_runes rs → r ∈ x → r ∈ rs.
Proof.
  revert x. induction rs as [|a rs IH]; intros x Hx Hr; cbn [split_runes] in Hx.
  - apply elem_of_list_singleton in Hx as ->. done.
  - destruct (a =? 47)%Z.
    + apply elem_of_cons in Hx as [-> |Hx]; [by apply elem_of_nil in Hr|]. right. eauto.
    + destruct (split_runes rs) as [|y z] eqn:E.
      * apply elem_of_list_singleton in Hx as ->. apply elem_of_list_singleton in Hr as ->. left.
      * apply elem_of_cons in Hx as [-> |Hx].
        -- apply elem_of_cons in Hr as [-> |Hr]; [left|]. right. eapply IH; [left|done].
        -- right. eapply IH; [by right|done].
Qed.

Lemma plain_parts lower n k : valid_utf8 n → lower_fits lower n → k ∈ split_on (Zbyte 47) n →
  valid_utf8 k ∧ lower_fits lower k.
Proof.
  intros (rs & Hv & ->) Hf Hk. rewrite split_encode in Hk by done.
  apply elem_of_list_fmap in Hk as (x & -> & Hx).
  assert (Forall (λ r, valid_rune r = true) x) as Hvx.
  { rewrite Forall_forall in *. intros r Hr. apply Hv. by eapply split_runes_sub. }
  split; [by exists x|]. intros r Hr. rewrite runes_encode in Hr by done. apply Hf.
  rewrite runes_encode by done. by eapply split_runes_sub.
Qed.

Lemma match_frags_spec lower fs : ∀ ks, (length fs ≤ length ks)%nat →
  (∀ k, k ∈ ks → valid_utf8 k ∧ lower_fits lower k) →
  ∃ t, match_frags lower ks fs = Ok t ∧
    (t = true ↔ ∀ i f k, fs !! i = Some f → ks !! i = Some k → embeds (stands_for lower) (runes f) (runes k)).
Proof.
  induction fs as [|f fs IH]; intros ks Hl Hk.
  - exists true. split; [by destruct ks|]. split; [|done]. intros _ i f k H. by rewrite lookup_nil in H.
  - destruct ks as [|k ks]; [simpl in Hl; lia|].
    destruct (Hk k ltac:(left)) as [Hv Hf]. destruct (Match_spec lower k f Hv Hf) as (t & Ht & Hi). cbn [match_frags]. rewrite Ht.
    destruct t.
    + destruct (IH ks) as (t & Ht2 & Hi2); [simpl in Hl; lia|intros; apply Hk; by right|].
      exists t. split; [done|]. rewrite Hi2. split.
      * intros H [|i] f' k' Hf' Hk'; simpl in *; simplify_eq; [by apply Hi|]. eauto.
      * intros H i f' k' Hf' Hk'. apply (H (S i)); done.
    + exists false. split; [done|]. split; [done|]. intros H. apply Hi. by apply (H 0%nat).
Qed.

Lemma search_keep_spec lower q b n : b !! "name" = Some n → valid_utf8 n → lower_fits lower n →
  ∃ t, search_keep lower (split_on (Zbyte 47) q) b = Ok t ∧ (t = true ↔ name_matches lower q n).
Proof.
  intros Hn Hv Hf. unfold search_keep, name_matches. rewrite (Name_ok _ _ Hn).
  pose proof (split_on_ne (Zbyte 47) q) as Hne.
  destruct (split_on (Zbyte 47) q) as [|f [|g fs]] eqn:Eq; [done| |].
  - by apply Match_spec.
  - destruct (length (split_on (Zbyte 47) n) <? length (f :: g :: fs))%nat eqn:El.
    + apply Nat.ltb_lt in El. exists false. split; [done|]. split; [done|]. intros [H _]. lia.
    + apply Nat.ltb_ge in El. destruct (match_frags_spec lower (f :: g :: fs) (split_on (Zbyte 47) n) El) as (t & Ht & Hi).
      { intros k Hk. by eapply plain_parts. }
      exists t. split; [done|]. rewrite Hi. split; [by intros|by intros [_ ?]].
Qed.

Lemma name_matches_empty lower n : name_matches lower "" n.
Proof. unfold name_matches. simpl. constructor. Qed.

Lemma map_size_zero (m : snapshot) : (size m =? 0)%nat = true → m = ∅.
Proof. intros H. apply Nat.eqb_eq in H. by apply map_size_empty_inv. Qed.

Lemma allEntries_spec e m : fair e → all_named m →
  ∃ r, allEntries (e_ord e 0 m) = Ok r ∧ exactly m (λ _, True) r.
Proof.
  intros Hf Ha. unfold allEntries.
  destruct (collect_ord (λ _ _, Ok true) e 0 m Hf Ha) as (r & Hr & Hi); [eauto|].
  destruct (e_ord e 0 m) as [|x l] eqn:E.
  - exists None. split; [done|]. intros u n. simpl. rewrite lookup_empty. split; [done|].
    intros (b & Hb & _). apply (ord_elem e 0) in Hb; [|done]. rewrite E in Hb. by apply elem_of_nil in Hb.
  - exists (Some r). rewrite Hr. split; [done|]. intros u n. simpl. rewrite Hi. naive_solver.
Qed.

Lemma Search_spec lower e q d m : holds d m → all_named m → plain_names lower m → fair e →
  ∃ d' r, Search lower e q d = (d', Ok r) ∧ holds d' m ∧ vis (db_log d') = vis (db_log d) ∧
    exactly m (λ b, ∃ n, b !! "name" = Some n ∧ name_matches lower q n) r.
Proof.
  intros Hh Ha Hp Hf. destruct (holds_update d m Hh) as (d1 & Hu & Hs & Hv & _ & Hh1).
  assert (∃ r, Search lower e q d = (d1, Ok r) ∧ exactly m (λ b, ∃ n, b !! "name" = Some n ∧ name_matches lower q n) r)
    as (r & Hr & He); [|by exists d1, r].
  unfold Search, mbind, M_bind. rewrite Hu. unfold get_snap. rewrite Hs.
  destruct (size m =? 0)%nat eqn:E0.
  { apply map_size_zero in E0. subst. exists None. split; [done|]. intros u n. rewrite E0. simpl.
    split; [by rewrite lookup_empty|]. intros (b & Hb & _). by rewrite lookup_empty in Hb. }
  destruct (String.eqb q "") eqn:Eq.
  { apply String.eqb_eq in Eq as ->. destruct (allEntries_spec e m Hf Ha) as (r & Hr & He).
    exists r. unfold lift. rewrite Hr. split; [done|]. intros u n. rewrite (He u n). split.
    - intros (b & Hb & Hn & _). exists b. split; [done|]. split; [done|]. exists n. split; [done|apply name_matches_empty].
    - intros (b & Hb & Hn & _). eauto. }
  destruct (collect_ord (λ _ b, search_keep lower (split_on (Zbyte 47) q) b) e 0 m Hf Ha) as (r & Hr & Hi).
  { intros u b Hb. destruct (Ha u b Hb) as [n Hn]. destruct (Hp u n) as [Hv' Hf']; [by exists b|].
    destruct (search_keep_spec lower q b n Hn Hv' Hf') as (t & Ht & _). eauto. }
  exists (Some r). unfold lift. rewrite Hr. split; [done|]. intros u n. simpl. rewrite Hi. split.
  - intros (b & Hb & Hn & Hk). exists b. split; [done|]. split; [done|].
    destruct (Hp u n) as [Hv' Hf']; [by exists b|].
    destruct (search_keep_spec lower q b n Hn Hv' Hf') as (t & Ht & Hti). rewrite Ht in Hk. simplify_eq.
    exists n. split; [done|]. by apply Hti.
  - intros (b & Hb & Hn & n' & Hn' & Hm). rewrite Hn in Hn'. injection Hn' as <-. exists b. split; [done|]. split; [done|].
    destruct (Hp u n) as [Hv' Hf']; [by exists b|]. 
    destruct (search_keep_spec lower q b n Hn Hv' Hf') as (t & Ht & Hti). rewrite Ht.
    by rewrite (proj2 Hti Hm).
Qed.

Lemma exactly_det m P r1 r2 : exactly m P r1 → exactly m P r2 → res_map r1 = res_map r2.
Proof.
  intros H1 H2. apply map_eq. intros u. apply option_eq. intros n. rewrite (H1 u n), (H2 u n). done.
Qed.

(** ** Labels *)

Lemma labels_inner_absent n w have found : w ∉ have → labels_inner n w have found = found.
Proof.
  revert found. induction have as [|x r IH]; intros found H; [done|]. apply not_elem_of_cons in H as [Hx Hr].
  cbn [labels_inner]. destruct (String.eqb x w) eqn:E; [apply String.eqb_eq in E; congruence|]. auto.
Qed.

Lemma labels_inner_nodup n w have found : NoDup have →
  labels_inner n w have found = if bool_decide (w ∈ have) then S found else found.
Proof.
  intros Hnd. destruct (bool_decide (w ∈ have)) eqn:Eb; [apply bool_decide_eq_true in Eb|
    apply bool_decide_eq_false in Eb; by apply labels_inner_absent].
  induction have as [|h r IH]; [by apply elem_of_nil in Eb|].
  apply NoDup_cons in Hnd as [Hh Hnd]. cbn [labels_inner]. destruct (String.eqb h w) eqn:E.
  - apply String.eqb_eq in E as ->. cbv zeta. destruct (S found =? n)%nat; [done|]. by apply labels_inner_absent.
  - apply String.eqb_neq in E. apply IH; [done|]. apply elem_of_cons in Eb as [?|?]; [congruence|done].
Qed.

Lemma labels_outer_nodup n wants have : NoDup have → ∀ found, (found + length wants ≤ n)%nat →
  (labels_outer n wants have found ≤ found + length wants)%nat ∧
  (labels_outer n wants have found = n ↔ (found + length wants = n)%nat ∧ ∀ l, l ∈ wants → l ∈ have).
Proof.
  intros Hnd. induction wants as [|w r IH]; intros found Hle; cbn [labels_outer length] in *.
  - split; [lia|]. split; [intros ->; split; [lia|]; intros l H; by apply elem_of_nil in H|]. lia.
  - rewrite labels_inner_nodup by done.
    destruct (bool_decide (w ∈ have)) eqn:E.
    + apply bool_decide_eq_true in E. destruct (IH (S found)) as [H1 H2]; [lia|]. split; [lia|]. rewrite H2.
      split; intros [Ha Hb]; (split; [lia|]); intros l Hl.
      * apply elem_of_cons in Hl as [-> |Hl]; [done|]. auto.
      * apply Hb. by right.
    + apply bool_decide_eq_false in E. destruct (IH found) as [H1 H2]; [lia|]. split; [lia|]. split.
      * intros Hn. lia.
      * intros [Ha Hb]. exfalso. apply E, Hb. left.
Qed.

Lemma labels_keep_spec ls b : NoDup (Labels b) → ls ≠ [] →
  ∃ t, labels_keep ls b = Ok t ∧ (t = true ↔ has_labels ls b).
Proof.
  intros Hnd Hne. unfold labels_keep, has_labels, Labels in *.
  destruct (String.eqb (default "" (b !! KeyLabels)) "") eqn:E.
  - exists false. split; [done|]. split; [done|]. intros H. destruct ls as [|l ls]; [done|].
    specialize (H l ltac:(left)). by apply elem_of_nil in H.
  - eexists. split; [done|]. rewrite Nat.eqb_eq.
    destruct (labels_outer_nodup (length ls) ls (split_on (Zbyte 44) (default "" (b !! KeyLabels))) Hnd 0) as [_ ->]; [lia|].
    naive_solver lia.
Qed.

Lemma SearchLabels_spec e ls d m : holds d m → all_named m → fair e →
  (∀ u b, m !! u = Some b → NoDup (Labels b)) →
  ∃ d' r, SearchLabels e ls d = (d', Ok r) ∧ holds d' m ∧ vis (db_log d') = vis (db_log d) ∧
    exactly m (has_labels ls) r.
Proof.
  intros Hh Ha Hf Hnd. destruct (holds_update d m Hh) as (d1 & Hu & Hs & Hv & _ & Hh1).
  assert (∃ r, SearchLabels e ls d = (d1, Ok r) ∧ exactly m (has_labels ls) r) as (r & Hr & He); [|by exists d1, r].
  unfold SearchLabels, mbind, M_bind. rewrite Hu. unfold get_snap. rewrite Hs.
  destruct (size m =? 0)%nat eqn:E0.
  { apply map_size_zero in E0. exists None. split; [done|]. intros u n. rewrite E0. simpl.
    split; [by rewrite lookup_empty|]. intros (b & Hb & _). by rewrite lookup_empty in Hb. }
  destruct ls as [|l ls].
  { destruct (allEntries_spec e m Hf Ha) as (r & Hr & He). exists r. unfold lift. rewrite Hr. split; [done|].
    intros u n. rewrite (He u n). split.
    - intros (b & Hb & Hn & _). exists b. split; [done|]. split; [done|]. intros l Hl. by apply elem_of_nil in Hl.
    - intros (b & Hb & Hn & _). eauto. }
  destruct (collect_ord (λ _ b, labels_keep (l :: ls) b) e 0 m Hf Ha) as (r & Hr & Hi).
  { intros u b Hb. destruct (labels_keep_spec (l :: ls) b) as (t & Ht & _); eauto. }
  exists (Some r). unfold lift. rewrite Hr. split; [done|]. intros u n. simpl. rewrite Hi. split.
  - intros (b & Hb & Hn & Hk). exists b. split; [done|]. split; [done|].
    destruct (labels_keep_spec (l :: ls) b) as (t & Ht & Hti); [eauto|done|]. rewrite Ht in Hk. simplify_eq. by apply Hti.
  - intros (b & Hb & Hn & Hm). exists b. split; [done|]. split; [done|].
    destruct (labels_keep_spec (l :: ls) b) as (t & Ht & Hti); [eauto|done|]. rewrite Ht. by rewrite (proj2 Hti Hm).
Qed.

Lemma AddLabel_spec e u l d m b : holds d m → m !! u = Some b →
  ∃ d' b', AddLabel e u l d = (d', Ok tt) ∧ holds d' (<[u := b']> m) ∧
    b' !! "updated" = Some (FormatInt (e_now e 2)) ∧
    (∀ k, k ≠ "labels" → k ≠ "updated" → b' !! k = b !! k) ∧
    (l ≠ "" → lacks (Zbyte 44) l → Labels b' = Labels b ++ [l]).
Proof.
  intros Hh Hb. destruct (MustFind_spec u d m b Hh Hb) as (d0 & Hm0 & Hh0 & _).
  set (lv := if String.eqb (default "" (b !! "labels")) "" then l
             else go_join "," (split_on (Zbyte 44) (default "" (b !! "labels")) ++ [l])).
  pose proof (holds_set (e_grow e 1) (e_now e 1) d0 u "updated" (FormatInt (e_now e 0)) m b Hh0 Hb) as Hh2.
  destruct (Set_key_spec e 2 u "labels" lv _ _ _ Hh2 (lookup_insert _ _ _) labels_not_protected) as (d1 & H1 & Hh1 & _).
  rewrite !insert_insert in Hh1. eexists d1, _. split; [|split; [exact Hh1|]].
  - unfold AddLabel. unfold mbind at 1, M_bind at 1. rewrite Hm0. exact H1.
  - split; [by rewrite lookup_insert_ne, lookup_insert|]. split.
    + intros k Hk1 Hk2. by rewrite !lookup_insert_ne.
    + intros Hl Hc. unfold Labels, KeyLabels. rewrite lookup_insert. simpl.
      unfold lv. destruct (String.eqb (default "" (b !! "labels")) "") eqn:E.
      * apply String.eqb_neq in Hl. rewrite Hl. by rewrite split_on_lacks.
      * apply String.eqb_neq in E. set (ls := split_on _ _).
        assert (ls ≠ []) as Hne by apply split_on_ne.
        assert (∀ x, x ∈ ls ++ [l] → lacks (Zbyte 44) x) as Hlk.
        { intros x Hx. apply elem_of_app in Hx as [Hx|Hx]; [by eapply split_lacks|].
          apply elem_of_list_singleton in Hx. by subst. }
        assert (split_on (Zbyte 44) (go_join "," (ls ++ [l])) = ls ++ [l]) as Hs.
        { apply (split_join (Zbyte 44)); [|done]. intros H. by apply app_eq_nil in H as [? _]. }
        destruct (String.eqb (go_join "," (ls ++ [l])) "") eqn:Ej; [|done].
        exfalso. apply String.eqb_eq in Ej. rewrite Ej in Hs. simpl in Hs.
        apply (f_equal length) in Hs. rewrite app_length in Hs. simpl in Hs. destruct ls; [done|simpl in Hs; lia].
Qed.

(** RemoveLabel: what it really leaves. *)
Lemma RemoveLabel_one e u d m b i : holds d m → m !! u = Some b → length (Labels b) = 1%nat →
  (i < 1)%Z →
  ∃ d', RemoveLabel e u i d = (d', Ok tt) ∧ holds d' (<[u := delete "labels" b]> m).
Proof.
  intros Hh Hb Hl Hi. destruct (MustFind_spec u d m b Hh Hb) as (d0 & Hm0 & Hh0 & _).
  exists (DeleteKey (e_grow e 0) (e_now e 0) d0 u "labels").
  split; [|by apply holds_deletekey].
  unfold RemoveLabel. unfold mbind at 1, M_bind at 1. rewrite Hm0. cbv zeta.
  assert (length (split_on (Zbyte 44) (default "" (b !! KeyLabels))) = 1%nat) as ->.
  { revert Hl. unfold Labels. by destruct (String.eqb _ _). }
  replace (Z.of_nat 1 <=? i)%Z with false by lia. done.
Qed.

Lemma RemoveLabel_many e u d m b i lst : holds d m → m !! u = Some b → (2 ≤ length (Labels b))%nat →
  (0 ≤ i < Z.of_nat (length (Labels b)))%Z → last (Labels b) = Some lst →
  ∃ d' b', RemoveLabel e u i d = (d', Ok tt) ∧ holds d' (<[u := b']> m) ∧
    b' !! "labels" = Some lst ∧ (∀ k, k ≠ "labels" → k ≠ "updated" → b' !! k = b !! k).
Proof.
  intros Hh Hb Hl Hi Hlast. destruct (MustFind_spec u d m b Hh Hb) as (d0 & Hm0 & Hh0 & _).
  assert (Labels b = split_on (Zbyte 44) (default "" (b !! KeyLabels))) as HL.
  { revert Hl. unfold Labels. destruct (String.eqb _ _); simpl; [lia|done]. }
  destruct (holds_touch_set e 0 d0 u "labels" lst m b Hh0 Hb) as (d1 & H1 & Hh1 & _).
  eexists d1, _. split; [|split; [exact Hh1|]].
  - unfold RemoveLabel. unfold mbind at 1, M_bind at 1. rewrite Hm0. cbv zeta. rewrite <-HL.
    replace (Z.of_nat (length (Labels b)) <=? i)%Z with false by lia.
    replace (length (Labels b) =? 1)%nat with false by (symmetry; apply Nat.eqb_neq; lia).
    replace (i <? 0)%Z with false by lia.
    assert (drop (length (Labels b) - 1) (Labels b) = [lst]) as Hd.
    { rewrite last_lookup in Hlast. replace (pred (length (Labels b))) with (length (Labels b) - 1)%nat in Hlast by lia.
      rewrite (drop_S _ _ _ Hlast). rewrite drop_ge by lia. done. }
    unfold shift_down. rewrite Hd.
    assert (∀ (l : list string), drop (length (l ++ [lst]) - 1) (l ++ [lst]) = [lst]) as Hd2.
    { intros l. rewrite app_length; simpl. replace (length l + 1 - 1)%nat with (length l) by lia. by rewrite drop_app. }
    rewrite (assoc_L (++)). rewrite Hd2. exact H1.
  - split; [by rewrite lookup_insert|]. intros k Hk1 Hk2. by rewrite !lookup_insert_ne.
Qed.

Lemma RemoveLabel_negative e u i d m b : holds d m → m !! u = Some b → (i < 0)%Z →
  (2 ≤ length (Labels b))%nat → (RemoveLabel e u i d).2 = Panic.
Proof.
  intros Hh Hb Hi Hl. destruct (MustFind_spec u d m b Hh Hb) as (d0 & Hm0 & _).
  assert (Labels b = split_on (Zbyte 44) (default "" (b !! KeyLabels))) as HL.
  { revert Hl. unfold Labels. destruct (String.eqb _ _); simpl; [lia|done]. }
  unfold RemoveLabel. unfold mbind at 1, M_bind at 1. rewrite Hm0. cbv zeta. rewrite <-HL.
  replace (Z.of_nat (length (Labels b)) <=? i)%Z with false by lia.
  replace (length (Labels b) =? 1)%nat with false by (symmetry; apply Nat.eqb_neq; lia).
  replace (i <? 0)%Z with true by lia. done.
Qed.

Lemma labels_single b y : b !! "labels" = Some y → y ≠ "" → lacks (Zbyte 44) y → Labels b = [y].
Proof.
  intros H Hne Hl. unfold Labels, KeyLabels. rewrite H. simpl. apply String.eqb_neq in Hne. rewrite Hne.
  by apply split_on_lacks.
Qed.

Lemma Labels_lacks b x : x ∈ Labels b → lacks (Zbyte 44) x.
Proof. unfold Labels. destruct (String.eqb _ _); [by intros ?%elem_of_nil|]. apply split_lacks. Qed.

(** ** Users *)

Lemma SplitUsername_user x : SplitUsername ("user/" +:+ x) = Ok x.
Proof.
  unfold SplitUsername, userPrefix.
  rewrite (str_index_prefix ("user/" +:+ x) "user/") by (apply has_prefix_spec; eauto). done.
Qed.

Lemma SplitUsername_no_panic n : ∃ x, SplitUsername n = Ok x.
Proof.
  unfold SplitUsername. destruct (str_index n userPrefix) as [i|] eqn:E; [|eauto].
  apply str_index_some in E as (a & b & -> & <-). rewrite <-sapp_length.
  replace (a +:+ userPrefix +:+ b) with ((a +:+ userPrefix) +:+ b) by apply sapp_assoc.
  rewrite str_drop_app. eauto.
Qed.

Lemma Users_spec e d m : holds d m → all_named m → fair e →
  ∃ d' r, Users e d = (d', Ok r) ∧ holds d' m ∧ vis (db_log d') = vis (db_log d) ∧
    exactly m (λ b, ∃ x, b !! "name" = Some ("user/" +:+ x)) r.
Proof.
  intros Hh Ha Hf. destruct (holds_update d m Hh) as (d1 & Hu & Hs & Hv & _ & Hh1).
  assert (∃ r, Users e d = (d1, Ok r) ∧ exactly m (λ b, ∃ x, b !! "name" = Some ("user/" +:+ x)) r)
    as (r & Hr & He); [|by exists d1, r].
  unfold Users, mbind, M_bind. rewrite Hu. unfold get_snap, lift. rewrite Hs.
  match goal with |- context[collect ?k _ _] => destruct (collect_ord k e 0 m Hf Ha) as (r & Hr & Hi) end.
  { intros u b Hb. destruct (Ha u b Hb) as [n Hn]. rewrite (Name_ok _ _ Hn). eauto. }
  rewrite Hr.
  assert (exactly m (λ b, ∃ x, b !! "name" = Some ("user/" +:+ x)) (Some r)) as He.
  { intros u n. simpl. rewrite Hi. split.
    - intros (b & Hb & Hn & Hk). exists b. split; [done|]. split; [done|]. rewrite (Name_ok _ _ Hn) in Hk.
      injection Hk as Hk. apply has_prefix_spec in Hk as [x ->]. by exists x.
    - intros (b & Hb & Hn & x & Hx). exists b. split; [done|]. split; [done|]. rewrite (Name_ok _ _ Hn).
      f_equal. apply has_prefix_spec. exists x. rewrite Hn in Hx. by injection Hx. }
  destruct (size r =? 0)%nat eqn:E; [|by exists (Some r)].
  exists None. split; [done|]. apply Nat.eqb_eq in E. apply map_size_empty_inv in E. subst r. exact He.
Qed.

(** ** findOne *)

Lemma exact_name_spec q l : 
  (∃ u, exact_name q l = u ∧ (u, q) ∈ l) ∨ (exact_name q l = "" ∧ ∀ u, (u, q) ∉ l).
Proof.
  induction l as [|[u n] l IH]; simpl; [right; split; [done|]; intros u; apply not_elem_of_nil|].
  destruct (String.eqb n q) eqn:E.
  - apply String.eqb_eq in E as ->. left. exists u. split; [done|left].
  - apply String.eqb_neq in E. destruct IH as [(u' & H1 & H2)|[H1 H2]].
    + left. exists u'. split; [done|by right].
    + right. split; [done|]. intros u' H. apply elem_of_cons in H as [[= -> ->]|H]; [done|]. by eapply H2.
Qed.

(** ** RenameDuplicates *)

Lemma same_but_stamps_refl m : same_but_stamps m m.
Proof. split; [done|]. intros; congruence. Qed.

Lemma same_but_stamps_touch m m' u b v : same_but_stamps m m' → m' !! u = Some b →
  same_but_stamps m (<[u := <["updated" := v]> b]> m').
Proof.
  intros [H1 H2] Hb. split.
  - intros x. rewrite H1. destruct (decide (x = u)) as [->|Hne].
    + rewrite lookup_insert, Hb. split; eauto.
    + by rewrite lookup_insert_ne.
  - intros x bx bx' Hx Hx' k Hk. destruct (decide (x = u)) as [->|Hne].
    + rewrite lookup_insert in Hx'. simplify_eq. rewrite lookup_insert_ne by done. eauto.
    + rewrite lookup_insert_ne in Hx' by done. eauto.
Qed.

Lemma rename_loop_spec e m0 l : ∀ i names ren d m, holds d m → same_but_stamps m0 m →
  (∀ u b, (u, b) ∈ l → m0 !! u = Some b ∧ ∃ x, b !! "name" = Some x) →
  ∃ d' r m', rename_loop e i l names ren d = (d', Ok r) ∧ holds d' m' ∧ same_but_stamps m0 m'.
Proof.
  induction l as [|[u b] l IH]; intros i names ren d m Hh Hs Hl; cbn [rename_loop].
  - by exists d, ren, m.
  - destruct (Hl u b ltac:(left)) as [Hb [x Hx]]. rewrite (Name_ok _ _ Hx).
    unfold mbind at 1, M_bind at 1, lift at 1.
    destruct (names !! x).
    + destruct (proj1 (proj1 Hs u)) as [b' Hb']; [eauto|].
      pose proof (holds_set (e_grow e (S i)) (e_now e (S i)) d u "updated" (FormatInt (e_now e i)) m b' Hh Hb') as Hh1.
      unfold mbind, M_bind, touchUpdated, dbSet, modify.
      rewrite Set_key_refused by apply name_is_protected. cbn [fst].
      eapply IH; [exact Hh1|by apply same_but_stamps_touch|]. intros; apply Hl; by right.
    + eapply IH; [exact Hh|done|]. intros; apply Hl; by right.
Qed.

Lemma RenameDuplicates_spec e d m : holds d m → all_named m → fair e →
  ∃ d' r m', RenameDuplicates e d = (d', Ok r) ∧ holds d' m' ∧ same_but_stamps m m'.
Proof.
  intros Hh Ha Hf. destruct (holds_update d m Hh) as (d1 & Hu & Hs & Hv & _ & Hh1).
  unfold RenameDuplicates. unfold mbind, M_bind. rewrite Hu. unfold get_snap. rewrite Hs.
  eapply rename_loop_spec; [exact Hh1|apply same_but_stamps_refl|].
  intros u b H. rewrite ord_elem in H by done. split; [done|]. eauto.
Qed.

(** Which names are reported as renamed. *)
Definition bearers (n : string) (l : list (string * entry)) : nat :=
  length (filter (λ p : string * entry, p.2 !! "name" = Some n) l).

Lemma rename_loop_reports e l : ∀ i names ren d d' r, rename_loop e i l names ren d = (d', Ok r) →
  ∀ n, is_Some (r !! n) ↔ is_Some (ren !! n) ∨ (is_Some (names !! n) ∧ 1 ≤ bearers n l)%nat ∨ (2 ≤ bearers n l)%nat.
Proof.
  induction l as [|[u b] l IH]; intros i names ren d d' r H n; cbn [rename_loop] in H.
  - injection H as _ <-. unfold bearers. simpl. naive_solver lia.
  - unfold mbind at 1, M_bind at 1, lift at 1 in H.
    unfold Name, KeyName in H. destruct (b !! "name") as [x|] eqn:Hx; [|done].
    assert (bearers n ((u, b) :: l) = if bool_decide (x = n) then S (bearers n l) else bearers n l) as Hb.
    { unfold bearers. rewrite filter_cons. simpl. destruct (bool_decide (x = n)) eqn:Eb.
      - apply bool_decide_eq_true in Eb. subst. by rewrite decide_True.
      - apply bool_decide_eq_false in Eb. rewrite decide_False; [done|]. intros H'. apply Eb. congruence. }
    rewrite Hb. destruct (names !! x) eqn:En.
    + unfold mbind at 1, M_bind at 1, touchUpdated, dbSet, modify in H.
      unfold mbind at 1, M_bind at 1 in H.
      apply (IH _ _ _ _ _ _) with (n := n) in H. rewrite H. clear H. destruct (bool_decide (x = n)) eqn:Eb.
      * apply bool_decide_eq_true in Eb. subst. rewrite lookup_insert. rewrite En.
        split; [intros _; right; left; split; [eauto|lia]|intros _; left; eauto].
      * apply bool_decide_eq_false in Eb. rewrite lookup_insert_ne by done. done.
    + apply (IH _ _ _ _ _ _) with (n := n) in H. rewrite H. clear H. destruct (bool_decide (x = n)) eqn:Eb.
      * apply bool_decide_eq_true in Eb. subst. rewrite lookup_insert. rewrite En.
        split; [intros [?|[[_ ?]|?]]; [by left|right; right; lia|right; right; lia]|].
        intros [?|[[[? ?] _]|?]]; [by left|done|]. right. left. split; [eauto|lia].
      * apply bool_decide_eq_false in Eb. by rewrite lookup_insert_ne.
Qed.

Lemma bearers_two e j m n : fair e → (2 ≤ bearers n (e_ord e j m))%nat ↔ ∃ u1 u2, u1 ≠ u2 ∧ called m u1 n ∧ called m u2 n.
Proof.
  intros Hf. unfold bearers.
  assert (NoDup (filter (λ p : string * entry, p.2 !! "name" = Some n) (e_ord e j m))) as Hnd.
  { apply NoDup_filter. rewrite (Hf j m). apply NoDup_map_to_list. }
  assert (∀ u b, (u, b) ∈ filter (λ p : string * entry, p.2 !! "name" = Some n) (e_ord e j m) ↔ m !! u = Some b ∧ b !! "name" = Some n) as Hel.
  { intros u b. rewrite elem_of_list_filter, ord_elem by done. simpl. naive_solver. }
  destruct (filter _ _) as [|[u1 b1] [|[u2 b2] l]]; simpl.
  - split; [lia|]. intros (u1 & u2 & _ & (b & Hb) & _). apply Hel in Hb. by apply elem_of_nil in Hb.
  - split; [lia|]. intros (v1 & v2 & Hne & (c1 & H1) & (c2 & H2)). apply Hel in H1, H2.
    apply elem_of_list_singleton in H1, H2. congruence.
  - split; [|lia]. intros _. exists u1, u2. split; [|split; [exists b1|exists b2]; apply Hel; repeat constructor].
    intros ->. assert (b1 = b2) as ->.
    { destruct (proj1 (Hel u2 b1) ltac:(repeat constructor)) as [H1 _].
      destruct (proj1 (Hel u2 b2) ltac:(repeat constructor)) as [H2 _]. congruence. }
    apply NoDup_cons in Hnd as [Hnd _]. apply Hnd. left.
Qed.

Lemma RenameDuplicates_reports e d m d' r : holds d m → fair e → RenameDuplicates e d = (d', Ok r) →
  ∀ n, is_Some (r !! n) ↔ ∃ u1 u2, u1 ≠ u2 ∧ called m u1 n ∧ called m u2 n.
Proof.
  intros Hh Hf H n. destruct (holds_update d m Hh) as (d1 & Hu & Hs & _).
  unfold RenameDuplicates in H. unfold mbind, M_bind in H. rewrite Hu in H. unfold get_snap in H. rewrite Hs in H.
  apply (rename_loop_reports _ _ _ _ _ _ _ _) with (n := n) in H. rewrite H, !lookup_empty, bearers_two by done.
  split; [intros [[? ?]|[[[? ?] _]|?]]; done|]. intros ?. by right; right.
Qed.

(** ** findOne *)

Lemma embeds_refl (R : Z → Z → Prop) l : (∀ x, R x x) → embeds R l l.
Proof. intros HR. induction l; by constructor. Qed.

Lemma name_matches_refl lower q : name_matches lower q q.
Proof.
  assert (∀ s, embeds (stands_for lower) (runes s) (runes s)) as He.
  { intros s. apply embeds_refl. by left. }
  unfold name_matches. pose proof (split_on_ne (Zbyte 47) q).
  assert ((length (split_on (Zbyte 47) q) ≤ length (split_on (Zbyte 47) q))%nat ∧
    ∀ (i : nat) (f k : string), split_on (Zbyte 47) q !! i = Some f → split_on (Zbyte 47) q !! i = Some k →
      embeds (stands_for lower) (runes f) (runes k)) as Hm.
  { split; [done|]. intros i f k H1 H2. simplify_eq. apply He. }
  destruct (split_on (Zbyte 47) q) as [|x [|y l]] eqn:E; [done| |exact Hm].
  assert (x = q) as ->; [|apply He]. rewrite <-(join_split (Zbyte 47) q), E. done.
Qed.

Lemma findOne_spec lower ord e q d m : holds d m → all_named m → plain_names lower m → fair e → fair_results ord →
  ∃ d' u, findOne lower ord e q d = (d', Ok u) ∧ holds d' m ∧ vis (db_log d') = vis (db_log d) ∧
    (u ≠ "" → ∃ n, called m u n ∧ name_matches lower q n ∧
       (n = q ∨ ∀ u' n', called m u' n' → name_matches lower q n' → u' = u)) ∧
    (∀ u0, called m u0 q → names_unique m → u = u0) ∧
    (∀ u0 n0, called m u0 n0 → name_matches lower q n0 →
       (∀ u' n', called m u' n' → name_matches lower q n' → u' = u0) → u = u0).
Proof.
  intros Hh Ha Hp Hf Ho. destruct (Search_spec lower e q d m Hh Ha Hp Hf) as (d1 & r & Hr & Hh1 & Hv & He).
  assert (∀ u n, res_map r !! u = Some n ↔ called m u n ∧ name_matches lower q n) as Hc.
  { intros u n. rewrite (He u n). split.
    - intros (b & Hb & Hn & n' & Hn' & Hm). rewrite Hn in Hn'. injection Hn' as <-. split; [by exists b|done].
    - intros [(b & Hb & Hn) Hm]. exists b. split; [done|]. split; [done|]. by exists n. }
  unfold findOne. unfold mbind, M_bind. rewrite Hr.
  assert (∀ u n, (u, n) ∈ ord (res_map r) ↔ called m u n ∧ name_matches lower q n) as Hel.
  { intros u n. rewrite (Ho (res_map r)), elem_of_map_to_list. apply Hc. }
  exists d1. destruct (ord (res_map r)) as [|[u1 n1] [|[u2 n2] l]] eqn:E.
  - exists "". split; [done|]. split; [done|]. split; [done|]. split; [done|]. split.
    + intros u0 H0 _. exfalso. eapply (not_elem_of_nil (u0, q)). apply Hel. split; [done|apply name_matches_refl].
    + intros u0 n0 H0 H1 _. exfalso. eapply (not_elem_of_nil (u0, n0)). by apply Hel.
  - exists u1. split; [done|]. split; [done|]. split; [done|].
    assert (∀ u' n', called m u' n' → name_matches lower q n' → u' = u1) as Hs.
    { intros u' n' H1 H2. assert ((u', n') ∈ [(u1, n1)]) as H by (by apply Hel).
      apply elem_of_list_singleton in H. congruence. }
    split; [|split].
    + intros _. exists n1. destruct (proj1 (Hel u1 n1) ltac:(left)) as [H1 H2]. split; [done|]. split; [done|]. by right.
    + intros u0 H0 _. symmetry. eapply Hs; [exact H0|apply name_matches_refl].
    + intros u0 n0 H0 H1 _. symmetry. eauto.
  - set (l' := (u1, n1) :: (u2, n2) :: l) in *. exists (exact_name q l'). split; [done|]. split; [done|]. split; [done|].
    destruct (exact_name_spec q l') as [(u & Hx & Hin)|[Hx Hno]].
    + rewrite Hx. apply Hel in Hin as [H1 H2]. split; [|split].
      * intros _. exists q. split; [done|]. split; [done|]. by left.
      * intros u0 H0 Hu. by eapply Hu.
      * intros u0 n0 H0 H3 Hs. by eapply Hs.
    + rewrite Hx. split; [done|]. split.
      * intros u0 H0 _. exfalso. apply (Hno u0), Hel. split; [done|apply name_matches_refl].
      * intros u0 n0 H0 H3 Hs. exfalso.
        destruct (proj1 (Hel u1 n1) ltac:(left)) as [A1 A2].
        destruct (proj1 (Hel u2 n2) ltac:(right; left)) as [B1 B2].
        pose proof (Hs u1 n1 A1 A2). pose proof (Hs u2 n2 B1 B2). subst u1 u2.
        assert (NoDup (l'.*1)) as Hnd.
        { rewrite <-E, (Ho (res_map r)). apply NoDup_fst_map_to_list. }
        simpl in Hnd. apply NoDup_cons in Hnd as [Hnd _]. apply Hnd. left.
Qed.

Lemma findOne_det lower ord1 ord2 e1 e2 q d m : holds d m → well_named m → plain_names lower m →
  fair e1 → fair e2 → fair_results ord1 → fair_results ord2 → m !! "" = None →
  (findOne lower ord1 e1 q d).2 = (findOne lower ord2 e2 q d).2.
Proof.
  intros Hh [Ha Hu] Hp H1 H2 O1 O2 Hempty.
  destruct (findOne_spec lower ord1 e1 q d m Hh Ha Hp H1 O1) as (d1 & u1 & -> & _ & _ & A1 & B1 & C1).
  destruct (findOne_spec lower ord2 e2 q d m Hh Ha Hp H2 O2) as (d2 & u2 & -> & _ & _ & A2 & B2 & C2).
  simpl. f_equal.
  assert (∀ u u', (u ≠ "" → ∃ n, called m u n ∧ name_matches lower q n ∧
       (n = q ∨ ∀ u' n', called m u' n' → name_matches lower q n' → u' = u)) →
    (∀ u0, called m u0 q → names_unique m → u' = u0) →
    (∀ u0 n0, called m u0 n0 → name_matches lower q n0 →
       (∀ u' n', called m u' n' → name_matches lower q n' → u' = u0) → u' = u0) → u ≠ "" → u = u') as Hgen.
  { intros u u' A B C Hne. destruct (A Hne) as (n & Hc & Hm & [-> |Hs]); [by rewrite (B u)|]. by rewrite (C u n). }
  destruct (decide (u1 = "")) as [->|Hn1]; [|by apply Hgen].
  destruct (decide (u2 = "")) as [->|Hn2]; [done|]. symmetry. by apply Hgen.
Qed.

(** ** Merging and names *)

Lemma push_check_sub res x s s' : push_check res x s = Ok s' →
  ∀ t, t ∈ ms_c s' → t ∈ ms_c s ∨ t = x.
Proof.
  unfold push_check. intros H t Ht.
  repeat case_match; simplify_eq; simpl in *;
    rewrite ?elem_of_app, ?elem_of_list_singleton in Ht; tauto.
Qed.

Lemma push_rest_sub res l : ∀ s s', push_rest res l s = Ok s' → ∀ t, t ∈ ms_c s' → t ∈ ms_c s ∨ t ∈ l.
Proof.
  induction l as [|x l IH]; intros s s' H t Ht; simpl in H; [simplify_eq; by left|].
  destruct (push_check res x s) as [s1| |] eqn:E; try done.
  destruct (IH _ _ H t Ht) as [H1|H1]; [|by right; right].
  destruct (push_check_sub _ _ _ _ E t H1) as [?| ->]; [by left|right; left].
Qed.

Lemma root_check_c res i j x y s : ms_c (root_check res i j x y s) = ms_c s.
Proof. unfold root_check. repeat case_match; done. Qed.

Lemma merge_loop_sub res a : ∀ i b j s s', merge_loop res a i b j s = Ok s' →
  ∀ t, t ∈ ms_c s' → t ∈ ms_c s ∨ t ∈ a ∨ t ∈ b.
Proof.
  induction a as [|x a IHa]; intros i b.
  - intros j s s' H t Ht. simpl in H. destruct (push_rest_sub _ _ _ _ H t Ht); tauto.
  - induction b as [|y b IHb]; intros j s s' H t Ht; cbn [merge_loop] in H.
    + destruct (push_rest_sub _ _ _ _ H t Ht); tauto.
    + destruct (tx_time x =? tx_time y)%Z.
      * destruct (IHa _ _ _ _ _ H t Ht) as [H1|[H1|H1]]; simpl in *.
        -- rewrite elem_of_app, elem_of_list_singleton in H1. destruct H1 as [?| ->]; [by left|right; left; left].
        -- right. left. by right.
        -- right. right. by right.
      * destruct (tx_time x <? tx_time y)%Z.
        -- destruct (push_check res x _) as [s1| |] eqn:E; try done.
           destruct (IHa _ _ _ _ _ H t Ht) as [H1|[H1|H1]]; [|right; left; by right|by right; right].
           destruct (push_check_sub _ _ _ _ E t H1) as [H2| ->]; [|right; left; left].
           rewrite root_check_c in H2. by left.
        -- destruct (push_check res y _) as [s1| |] eqn:E; try done.
           destruct (IHb _ _ _ H t Ht) as [H1|[H1|H1]]; [|by right; left|right; right; by right].
           destruct (push_check_sub _ _ _ _ E t H1) as [H2| ->]; [|right; right; left].
           rewrite root_check_c in H2. by left.
Qed.

Lemma TxMerge_sub a b res c : TxMerge a b res = Ok (Merged c) → ∀ t, t ∈ c → t ∈ a ∨ t ∈ b.
Proof.
  unfold TxMerge. intros H t Ht. destruct (existsb _ res); [done|].
  destruct (merge_fast a b) as [[|]| |]; simplify_eq; [by left|].
  destruct (merge_loop res a 0 b 0 _) as [s| |] eqn:E; try done.
  destruct (ms_conf s); simplify_eq. destruct (merge_loop_sub _ _ _ _ _ _ _ E t Ht) as [H|?]; [|done].
  simpl in H. by apply elem_of_nil in H.
Qed.

Lemma names_sub l c m : replays c m → (∀ t, t ∈ c → t ∈ l) → names_never_shared l → names_unique m.
Proof.
  intros Hr Hs Hn u1 u2 n (b1 & H1 & N1) (b2 & H2 & N2).
  assert (∀ u b, m !! u = Some b → b !! "name" = Some n → ∃ t, t ∈ l ∧ tx_kind t = "setk" ∧ tx_key t = "name" ∧ tx_value t = n ∧ tx_uuid t = u) as Hw.
  { intros u b Hb Hbn. destruct (proj1 (proj2 (last_writer _ _ Hr u) "name" n)) as (i & t & Ht & (K & U & N) & V & _).
    - by rewrite Hb.
    - exists t. apply elem_of_list_lookup_2 in Ht. naive_solver. }
  destruct (Hw u1 b1 H1 N1) as (t1 & L1 & K1 & X1 & V1 & <-).
  destruct (Hw u2 b2 H2 N2) as (t2 & L2 & K2 & X2 & V2 & <-). apply Hn; congruence.
Qed.

Lemma merge_names_unique a b res c m : TxMerge a b res = Ok (Merged c) → replays c m →
  names_never_shared (a ++ b) → names_unique m.
Proof.
  intros HM Hr Hn. eapply names_sub; [exact Hr| |exact Hn]. intros t Ht. apply elem_of_app.
  by eapply TxMerge_sub.
Qed.

(** A name once set stays, if neither it nor the entry is deleted. *)
Lemma name_stays c m u : replays c m →
  (∀ x, x ∈ c → ¬ (tx_kind x = "delk" ∧ tx_key x = "name")) → (∀ x, x ∈ c → ¬ is_del u x) →
  (∃ x, x ∈ c ∧ is_set u "name" x) → ∃ b n, m !! u = Some b ∧ b !! "name" = Some n.
Proof.
  revert m. induction c as [|t c IH] using rev_ind; intros m Hm Hk Hd (x & Hx & Hset).
  - by apply elem_of_nil in Hx.
  - apply replays_snoc in Hm as (m1 & H1 & Hs).
    assert (is_set u "name" t ∨ ∃ b n, m1 !! u = Some b ∧ b !! "name" = Some n) as Hor.
    { apply elem_of_app in Hx as [Hx|Hx].
      - right. eapply IH; [done| | |eauto]; intros y Hy; [apply Hk|apply Hd]; apply elem_of_app; by left.
      - apply elem_of_list_singleton in Hx as ->. by left. }
    assert (¬ (tx_kind t = "delk" ∧ tx_key t = "name")) as Hkt by (apply Hk, elem_of_app; right; left).
    assert (¬ is_del u t) as Hdt by (apply Hd, elem_of_app; right; left).
    unfold is_set, is_del in *.
    destruct Hs as [m1 ti u' k v Hu|m1 ti u' k v b' Hu|m1 ti u' k v b' Hu|m1 ti u' k v b' Hu|m1 ti kd u' k v]; simpl in *.
    + destruct Hor as [[? _]|(b & n & Hb & Hn)]; [done|].
      exists b, n. split; [|done]. rewrite lookup_insert_ne; [done|]. intros ->. congruence.
    + destruct Hor as [[? _]|(b & n & Hb & Hn)]; [done|].
      exists b, n. split; [|done]. rewrite lookup_delete_ne; [done|]. intros ->. by apply Hdt.
    + destruct (decide (u' = u)) as [->|Hne].
      * eexists (<[k := v]> b'). rewrite lookup_insert. destruct (decide (k = "name")) as [->|Hkn].
        -- exists v. by rewrite lookup_insert.
        -- destruct Hor as [(_ & _ & ?)|(b & n & Hb & Hn)]; [done|]. simplify_eq. exists n.
           by rewrite lookup_insert_ne.
      * destruct Hor as [(_ & ? & _)|(b & n & Hb & Hn)]; [done|]. exists b, n. by rewrite lookup_insert_ne.
    + destruct Hor as [[? _]|(b & n & Hb & Hn)]; [done|].
      destruct (decide (u' = u)) as [->|Hne].
      * simplify_eq. eexists _, n. rewrite lookup_insert. split; [done|].
        rewrite lookup_delete_ne; [done|]. intros ->. by apply Hkt.
      * exists b, n. by rewrite lookup_insert_ne.
    + destruct Hor as [[? _]|(b & n & Hb & Hn)]; [done|]. eauto.
Qed.

(** The merge of two stores whose entries are all named has only named
    entries. *)
Lemma merge_all_named a b c m ma mb : valid_log a → valid_log b → compatible a b → no_impostor a b →
  TxMerge a b [] = Ok (Merged c) → replays a ma → replays b mb → all_named ma → all_named mb →
  names_kept (a ++ b) → replays c m → all_named m.
Proof.
  intros Va Vb Hco Hni HM Ra Rb Na Nb Hk Rc u bu Hbu.
  assert (a = [] ∧ b = [] ∨ ¬ (a = [] ∧ b = [])) as [[-> ->]|Hne].
  { destruct a; [destruct b; [by left|]|]; right; by intros [? ?]. }
  { by vm_compute in HM. }
  pose proof (proj1 (Merge_merged_iff a b c Va Vb Hco Hni Hne) HM) as ([Hs Hu] & Hcf & _).
  destruct (proj1 (proj1 (last_writer _ _ Rc u))) as (i & t & Ht & Ha & Hnd); [by rewrite Hbu|].
  assert (∀ x, x ∈ c → ¬ is_del u x) as Hno.
  { intros x Hx [Kx Ux]. destruct (elem_of_list_lookup_1 _ _ Hx) as [j Hj].
    destruct (decide (i < j)%nat) as [Hlt|Hge]; [by eapply Hnd|].
    destruct (decide (i = j)) as [->|Hij]; [destruct Ha; congruence|].
    eapply (Hcf x t Hx (elem_of_list_lookup_2 _ _ _ Ht) Kx); [destruct Ha; congruence|].
    apply (sorted_lookup_earlier c j i x t Hs); [done|done|lia]. }
  assert (∀ l ml, (∀ x, x ∈ l → x ∈ c) → replays l ml → all_named ml → t ∈ l →
    ∃ x, x ∈ c ∧ is_set u "name" x) as Hl.
  { intros l ml Hsub Rl Nl Htl.
    destruct (elem_of_list_lookup_1 _ _ Htl) as [j Hj].
    assert (is_Some (ml !! u)) as [bl Hbl].
    { apply (proj1 (last_writer _ _ Rl u)). exists j, t. split; [done|]. split; [done|].
      intros k t' _ Hk' Hd. eapply Hno; [|exact Hd]. apply Hsub. by eapply elem_of_list_lookup_2. }
    destruct (Nl u bl Hbl) as [n Hn].
    destruct (proj1 (proj2 (last_writer _ _ Rl u) "name" n)) as (k & x & Hx & Hset & _); [by rewrite Hbl|].
    exists x. split; [|done]. apply Hsub. by eapply elem_of_list_lookup_2. }
  destruct (name_stays c m u Rc) as (b' & n & Hb' & Hn).
  - intros x Hx. apply Hk, elem_of_app. by apply Hu.
  - done.
  - apply elem_of_list_lookup_2 in Ht. apply Hu in Ht as H'. destruct H' as [H'|H'].
    + eapply (Hl a ma); eauto. intros x Hx. apply Hu. by left.
    + eapply (Hl b mb); eauto. intros x Hx. apply Hu. by right.
  - exists n. congruence.
Qed.

(** ** Stamps and history *)

Lemma Updated_spec b z : b !! "updated" = Some (FormatInt z) → in_int64 z → Updated b = Ok (Some z).
Proof. intros H Hz. unfold Updated, KeyUpdated. rewrite H, ParseInt_FormatInt by done. done. Qed.

Lemma prev_version d d' m u b t1 t2 : holds d m → m !! u = Some b → tx_uuid t1 = u → tx_uuid t2 = u →
  vis (db_log d') = vis (db_log d) ++ [t1; t2] → EntrySnapshotAt d' u 2 = Ok b.
Proof.
  intros [Hc Hr] Hb H1 H2 Hv.
  destruct (proj1 (proj1 (last_writer _ _ Hr u))) as (i & t & Ht & [_ Hu] & _); [by rewrite Hb|].
  (* the last transaction on u *)
  assert (∃ pre x post, vis (db_log d) = pre ++ x :: post ∧ tx_uuid x = u ∧ entry_txs u post = []) as (pre & x & post & Hl & Hx & Hp).
  { destruct (entry_cut u (vis (db_log d)) 0) as (pre & x & post & ? & ? & ?%nil_length_inv); [|eauto 6].
    apply elem_of_list_lookup_2 in Ht.
    assert (t ∈ entry_txs u (vis (db_log d))) as Hin by (by apply elem_of_list_filter).
    destruct (entry_txs u (vis (db_log d))); [by apply elem_of_nil in Hin|simpl; lia]. }
  rewrite Hl in Hr, Hv.
  rewrite cons_middle, (assoc_L (++)) in Hr. apply replays_from_app in Hr as (m1 & Hr1 & Hr2).
  assert (m1 !! u = Some b) as Hb1.
  { rewrite <-Hb. clear -Hr2 Hp. revert m1 Hr2 Hp. induction post as [|y post IH]; intros m1 Hr2 Hp.
    - by inversion Hr2.
    - unfold entry_txs in Hp. rewrite filter_cons in Hp. destruct (decide (on_entry u y)) as [|Hne]; [done|].
      inversion Hr2; subst. rewrite <-(IH m2) by done.
      unfold on_entry in Hne. match goal with H : tx_step _ _ _ |- _ => destruct H end; simpl in *;
        rewrite ?lookup_insert_ne, ?lookup_delete_ne by done; done. }
  pose proof (EntrySnapshotAt_in_range d' u pre x (post ++ [t1; t2]) m1) as HE.
  assert (length (entry_txs u (post ++ [t1; t2])) = 2%nat) as Hlen.
  { unfold entry_txs in *. rewrite filter_app, Hp. simpl. rewrite !filter_cons, !decide_True by done. done. }
  rewrite Hlen, Hb1 in HE. apply HE; [|done|done]. rewrite Hv. by rewrite <-(assoc_L (++)).
Qed.
