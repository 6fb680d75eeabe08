(** Proofs about get, login, label, rmlabel, edit and show. *)
From Verif Require Import Proof_TxLog Proof_GoStr Proof_Utf8 Proof_Dialogue Proof_Blobs Proof_Blobs2 Proof_Session2 Proof_Session3 Proof_Session5.
From Verif Require Export Proof_Repl2.
From Coq Require Import Lia.
From stdpp Require Import options.
Import Model_GoStr Proof_Utf8.
#[local] Open Scope nat_scope.

Lemma found_entry w s m q u b inp : ready w s m → picks (w_lower w) m q u → m !! u = Some b →
  ∃ s1 s2, findq w q s inp = (s1, UOk u inp) ∧ String.eqb u "" = false ∧ on_db (MustFind u) s1 inp = (s2, UOk b inp) ∧ unchanged s s2 ∧ ready w s2 m.
Proof.
  intros Hr Hp Hb. destruct (findq_ok w s m q u inp Hr Hp) as (s1 & E1 & U1 & R1 & Hu).
  destruct (mustfind_ok w s1 m u b inp R1 Hb) as (s2 & E2 & U2 & R2).
  exists s1, s2. split; [done|]. split; [by apply String.eqb_neq|]. split; [done|]. split; [by eapply unchanged_trans|done].
Qed.
Ltac finding s1 s2 u b inp E1 Eu E2 := rewrite (C_ok _ _ _ _ s1 u inp) by exact E1; rewrite Eu; rewrite (C_ok _ _ _ _ s2 b inp) by exact E2.

(** ** get *)
Lemma get_gives w s m q k i c u b inp : ready w s m → picks (w_lower w) m q u → m !! u = Some b → k ≠ "totp" → k ≠ "updated" →
  ∃ s', get_cmd w q k i c s inp = (s', UOk (match b !! k with Some v => give c k v | None => [Note] end) inp) ∧ unchanged s s'.
Proof.
  intros Hr Hp Hb H1 H2. destruct (found_entry w s m q u b inp Hr Hp Hb) as (s1 & s2 & E1 & Eu & E2 & U & R).
  exists s2. split; [|done]. unfold get_cmd. finding s1 s2 u b inp E1 Eu E2.
  rewrite (proj2 (String.eqb_neq k KeyTwoFactor)), (proj2 (String.eqb_neq k KeyUpdated)) by done. by destruct (b !! k).
Qed.
Lemma get_totp w s m q i c u b inp : ready w s m → picks (w_lower w) m q u → m !! u = Some b → TwoFactor w b ≠ Panic →
  ∃ s', get_cmd w q "totp" i c s inp = (s', UOk (match TwoFactor w b with Ok v => if decide (v = "") then [Note] else give c "totp" v | _ => [Note] end) inp) ∧ unchanged s s'.
Proof.
  intros Hr Hp Hb Hn. destruct (found_entry w s m q u b inp Hr Hp Hb) as (s1 & s2 & E1 & Eu & E2 & U & R).
  exists s2. split; [|done]. unfold get_cmd. finding s1 s2 u b inp E1 Eu E2. change (String.eqb "totp" KeyTwoFactor) with true. cbn iota.
  destruct (TwoFactor w b) as [v| |]; [|done|done]. by destruct v.
Qed.
Lemma get_none w s m q k i c inp : ready w s m → (∀ u, ¬ picks (w_lower w) m q u) →
  ∃ s', get_cmd w q k i c s inp = (s', UOk [Note] inp) ∧ unchanged s s'.
Proof.
  intros Hr Hp. destruct (findq_none w s m q inp Hr Hp) as (s1 & E1 & U1 & R1). exists s1. split; [|done].
  unfold get_cmd. by rewrite (C_ok _ _ _ _ s1 "" inp) by exact E1.
Qed.

(** ** label *)
Lemma validate_spec upper have x : validateLabel upper have x = true ↔ proper_label upper x ∧ x ∉ have.
Proof.
  unfold validateLabel, proper_label. rewrite andb_true_iff, negb_true_iff, <-not_true_iff_false, existsb_exists, forallb_forall, Forall_forall.
  split; intros [H1 H2]; split.
  - intros c Hc. apply elem_of_list_In, H1, negb_true_iff, orb_false_iff in Hc. done.
  - intros Hx. apply H2. exists x. split; [by apply elem_of_list_In|]. apply String.eqb_refl.
  - intros c Hc. apply elem_of_list_In, H1 in Hc as [Ha Hb]. by rewrite Ha, Hb.
  - intros (y & Hy & E). apply String.eqb_eq in E as <-. apply elem_of_list_In in Hy. done.
Qed.
Lemma labels_loop_spec upper lines i rest : Forall (λ x, x ≠ "" ∧ x ≠ ".") lines → label_end i → ∀ have ch,
  ∃ new, labels_loop upper have ch ((ILine <$> lines) ++ i :: rest) = UOk (have ++ new, ch || bool_decide (new ≠ [])) rest ∧ taken_labels upper have lines new.
Proof.
  intros Hl Hi. induction Hl as [|x lines [Hx1 Hx2] Hl IH]; intros have ch.
  - exists []. rewrite app_nil_r, bool_decide_eq_false_2 by (intros H; by apply H). rewrite orb_false_r. split.
    + destruct Hi as [->|[->| ->]]; done.
    + split; [done|]. split; [constructor|]. split; [by intros y ?%elem_of_nil|]. by intros y ?%elem_of_nil.
  - cbn [fmap list_fmap app labels_loop]. rewrite nonempty_len, (proj2 (String.eqb_neq x ".")) by done. cbn [orb].
    destruct (validateLabel upper have x) eqn:E.
    + apply validate_spec in E as [Hp Hn]. destruct (IH (have ++ [x]) true) as (new & E & S & N & A & C). exists (x :: new).
      rewrite <-app_assoc in E. cbn [app orb] in E. rewrite bool_decide_eq_true_2 by done. rewrite orb_true_r. split; [exact E|].
      split; [by constructor|]. split; [|split].
      * constructor; [|done]. intros Hin. apply A in Hin as [Hin _]. apply Hin. set_solver.
      * intros y Hy. apply elem_of_cons in Hy as [->|Hy]; [done|]. apply A in Hy. set_solver.
      * intros y Hy Hpy. apply elem_of_cons in Hy as [->|Hy]; [set_solver|]. specialize (C y Hy Hpy). set_solver.
    + destruct (IH have ch) as (new & E' & S & N & A & C). exists new. split; [exact E'|]. split; [by constructor|]. split; [done|]. split; [done|].
      intros y Hy Hpy. apply elem_of_cons in Hy as [->|Hy]; [|by apply C]. destruct (decide (x ∈ have)); [set_solver|].
      assert (validateLabel upper have x = true) by by apply validate_spec. congruence.
Qed.
Lemma labels_open : ¬ protected_key "labels". Proof. apply labels_not_protected. Qed.
Lemma label_adds w s m q u b lines i rest : ready w s m → picks (w_lower w) m q u → m !! u = Some b →
  Forall (λ x, x ≠ "" ∧ x ≠ ".") lines → label_end i →
  ∃ new s' o, taken_labels (w_upper w) (Labels b) lines new ∧ addLabels w q s ((ILine <$> lines) ++ i :: rest) = (s', UOk o rest) ∧
    if decide (new = []) then unchanged s s'
    else became s s' (<[u := <["labels" := go_join "," (Labels b ++ new)]> (stamped (e_now (w_env w 1) 0) b)]> m).
Proof.
  intros Hr Hp Hb Hl Hi. set (inp := (ILine <$> lines) ++ i :: rest).
  destruct (found_entry w s m q u b inp Hr Hp Hb) as (s1 & s2 & E1 & Eu & E2 & U & R).
  destruct (labels_loop_spec (w_upper w) lines i rest Hl Hi (Labels b) false) as (new & E & Hn). fold inp in E.
  pose proof Hr as (_ & [Ha _] & _). destruct (Ha u b Hb) as (n & Hname).
  destruct (decide (new = [])) as [->|Hne].
  - exists [], s2, []. split; [done|]. split; [|done].
    unfold addLabels. finding s1 s2 u b inp E1 Eu E2. rewrite (C_ok _ _ _ _ s2 (Labels b ++ [], false) rest) by (unfold ask; by rewrite E). done.
  - destruct (set_eff w 0 (w_env w 1) u "labels" (go_join "," (Labels b ++ new)) b s2 m rest R Hb labels_open) as (s3 & E3 & B3).
    exists new, s3, [Note]. split; [done|]. split; [|rewrite decide_False by done; by eapply became_after].
    unfold addLabels. finding s1 s2 u b inp E1 Eu E2. rewrite (C_ok _ _ _ _ s2 (Labels b ++ new, true) rest) by (unfold ask; rewrite E, bool_decide_eq_true_2 by done; done).
    rewrite (C_ok _ _ _ _ s3 tt rest) by exact E3. rewrite (C_ok _ _ _ _ s3 n rest) by (unfold try; by rewrite (Name_ok _ _ Hname)). done.
Qed.
(** and reading them back *)
Lemma Labels_joined b l t : l ≠ [] → l ≠ [""] → (∀ x, x ∈ l → lacks (Zbyte 44) x) → Labels (<["labels" := go_join "," l]> (stamped t b)) = l.
Proof.
  intros H1 H2 H3. unfold Labels, KeyLabels. rewrite lookup_insert.
  pose proof (split_join (Zbyte 44) l H1 H3) as E. change (String (Zbyte 44) "") with "," in E.
  cbv zeta. change (default "" (Some (go_join "," l))) with (go_join "," l).
  destruct (String.eqb (go_join "," l) "") eqn:Ee; [|exact E]. apply String.eqb_eq in Ee. rewrite Ee in E. simpl in E. by subst l.
Qed.

(** ** rmlabel *)
Lemma label_index_spec l L : ∀ i, match label_index l L i with
  | Some j => (i ≤ j < i + Z.of_nat (length L))%Z ∧ l ∈ L
  | None => l ∉ L
  end.
Proof.
  induction L as [|x L IH]; intros i; cbn [label_index]; [set_solver|].
  destruct (String.eqb x l) eqn:E.
  - apply String.eqb_eq in E as ->. cbn [length]. split; [lia|left].
  - apply String.eqb_neq in E. specialize (IH (i + 1)%Z). destruct (label_index l L (i + 1)%Z).
    + cbn [length]. split; [lia|]. right. apply IH.
    + set_solver.
Qed.
Lemma rmlabel_absent w s m q l u b inp : ready w s m → picks (w_lower w) m q u → m !! u = Some b → l ∉ Labels b →
  ∃ s', deleteLabel w q l s inp = (s', UOk [Note] inp) ∧ unchanged s s'.
Proof.
  intros Hr Hp Hb Hl. destruct (found_entry w s m q u b inp Hr Hp Hb) as (s1 & s2 & E1 & Eu & E2 & U & R).
  exists s2. split; [|done]. unfold deleteLabel. finding s1 s2 u b inp E1 Eu E2.
  pose proof (label_index_spec l (Labels b) 0) as H. destruct (label_index l (Labels b) 0); [|done]. by destruct H.
Qed.
Lemma rmlabel_single w s m q l u b inp : ready w s m → picks (w_lower w) m q u → m !! u = Some b → Labels b = [l] →
  ∃ s', deleteLabel w q l s inp = (s', UOk [Note] inp) ∧ became s s' (<[u := delete "labels" b]> m).
Proof.
  intros Hr Hp Hb Hl. destruct (found_entry w s m q u b inp Hr Hp Hb) as (s1 & s2 & E1 & Eu & E2 & U & R).
  pose proof Hr as (_ & [Ha _] & _). destruct (Ha u b Hb) as (n & Hname).
  destruct (RemoveLabel_one (w_env w 1) u (s_db s2) m b 0 (proj1 R) Hb) as (d' & E & Hh); [by rewrite Hl|lia|].
  exists (set_db d' s2). split.
  - unfold deleteLabel. finding s1 s2 u b inp E1 Eu E2. rewrite Hl. cbn [label_index]. rewrite String.eqb_refl.
    rewrite (C_ok _ _ _ _ (set_db d' s2) tt inp) by (unfold on_db; by rewrite E). rewrite (C_ok _ _ _ _ (set_db d' s2) n inp) by (unfold try; by rewrite (Name_ok _ _ Hname)). done.
  - eapply became_after; [done|]. split; [done|]. split; [|done]. pose proof (steady_RemoveLabel (w_env w 1) u 0 (s_db s2)) as H. by rewrite E in H.
Qed.
Lemma rmlabel_many w s m q l u b lst inp : ready w s m → picks (w_lower w) m q u → m !! u = Some b → l ∈ Labels b →
  2 ≤ length (Labels b) → last (Labels b) = Some lst →
  ∃ s' b', deleteLabel w q l s inp = (s', UOk [Note] inp) ∧ became s s' (<[u := b']> m) ∧ b' !! "labels" = Some lst ∧
    ∀ k, k ≠ "labels" → k ≠ "updated" → b' !! k = b !! k.
Proof.
  intros Hr Hp Hb Hin Hlen Hlast. destruct (found_entry w s m q u b inp Hr Hp Hb) as (s1 & s2 & E1 & Eu & E2 & U & R).
  pose proof Hr as (_ & [Ha _] & _). destruct (Ha u b Hb) as (n & Hname).
  pose proof (label_index_spec l (Labels b) 0) as H. destruct (label_index l (Labels b) 0) as [j|] eqn:Ej; [|done]. destruct H as [Hj _].
  destruct (RemoveLabel_many (w_env w 1) u (s_db s2) m b j lst (proj1 R) Hb Hlen) as (d' & b' & E & Hh & Hl & Ho); [lia|done|].
  exists (set_db d' s2), b'. split; [|split; [|done]].
  - unfold deleteLabel. finding s1 s2 u b inp E1 Eu E2. rewrite Ej.
    rewrite (C_ok _ _ _ _ (set_db d' s2) tt inp) by (unfold on_db; by rewrite E). rewrite (C_ok _ _ _ _ (set_db d' s2) n inp) by (unfold try; by rewrite (Name_ok _ _ Hname)). done.
  - eapply became_after; [done|]. split; [done|]. split; [|done]. pose proof (steady_RemoveLabel (w_env w 1) u j (s_db s2)) as H. by rewrite E in H.
Qed.

(** ** edit *)
Lemma edit_saves w s m q k u b new inp : ready w s m → picks (w_lower w) m q u → m !! u = Some b →
  w_editor w (default "" (b !! k)) = Exited 0 (Some new) → new ≠ "" → ¬ protected_key k →
  ∃ s', edit w q k s inp = (s', UOk [Note] inp) ∧ became s s' (<[u := <[k := new]> (stamped (e_now (w_env w 1) 0) b)]> m).
Proof.
  intros Hr Hp Hb He Hne Hk. destruct (found_entry w s m q u b inp Hr Hp Hb) as (s1 & s2 & E1 & Eu & E2 & U & R).
  destruct (set_eff w 0 (w_env w 1) u k new b s2 m inp R Hb Hk) as (s3 & E3 & B3). exists s3. split; [|by eapply became_after].
  unfold edit. finding s1 s2 u b inp E1 Eu E2. rewrite He. change (negb (0 =? 0)%Z) with false. cbn iota. rewrite nonempty_len by done.
  rewrite (C_ok _ _ _ _ s3 tt inp) by exact E3. done.
Qed.
Lemma edit_empties w s m q k u b inp : ready w s m → picks (w_lower w) m q u → m !! u = Some b →
  w_editor w (default "" (b !! k)) = Exited 0 (Some "") → k ≠ "name" → k ≠ "updated" →
  ∃ s', edit w q k s inp = (s', UOk [Note] inp) ∧ became s s' (<[u := delete k (stamped (e_now (w_env w 1) 0) b)]> m).
Proof.
  intros Hr Hp Hb He H1 H2. destruct (found_entry w s m q u b inp Hr Hp Hb) as (s1 & s2 & E1 & Eu & E2 & U & R).
  destruct (DeleteKey_key_spec (w_env w 1) u k (s_db s2) m b (proj1 R) Hb H1 H2) as (d' & E & Hh & _).
  exists (set_db d' s2). split.
  - unfold edit. finding s1 s2 u b inp E1 Eu E2. rewrite He. change (negb (0 =? 0)%Z) with false. cbn iota. change (String.length "" =? 0) with true. cbn iota.
    rewrite (C_ok _ _ _ _ (set_db d' s2) tt inp) by (unfold on_db, dropping; by rewrite E). done.
  - eapply became_after; [done|]. split; [done|]. split; [|done]. pose proof (steady_DeleteKey (w_env w 1) u k (s_db s2)) as H. by rewrite E in H.
Qed.
Lemma edit_gives_up w s m q k u b st f inp : ready w s m → picks (w_lower w) m q u → m !! u = Some b →
  w_editor w (default "" (b !! k)) = Exited st f → st ≠ 0%Z ∨ f = None →
  ∃ s', edit w q k s inp = (s', UOk [Note] inp) ∧ unchanged s s'.
Proof.
  intros Hr Hp Hb He Hs. destruct (found_entry w s m q u b inp Hr Hp Hb) as (s1 & s2 & E1 & Eu & E2 & U & R).
  exists s2. split; [|done]. unfold edit. finding s1 s2 u b inp E1 Eu E2. rewrite He. destruct f as [f|]; [|done].
  destruct Hs as [Hs|]; [|done]. rewrite (proj2 (Z.eqb_neq st 0)) by done. done.
Qed.
Lemma edit_not_run w s m q k u b e inp : ready w s m → picks (w_lower w) m q u → m !! u = Some b →
  w_editor w (default "" (b !! k)) = NotRun e →
  ∃ s', edit w q k s inp = (s', UErr e inp) ∧ unchanged s s'.
Proof.
  intros Hr Hp Hb He. destruct (found_entry w s m q u b inp Hr Hp Hb) as (s1 & s2 & E1 & Eu & E2 & U & R).
  exists s2. split; [|done]. unfold edit. finding s1 s2 u b inp E1 Eu E2. by rewrite He.
Qed.
Lemma edit_protected w s m q k u b new inp : ready w s m → picks (w_lower w) m q u → m !! u = Some b →
  w_editor w (default "" (b !! k)) = Exited 0 (Some new) → new ≠ "" → protected_key k →
  ∃ s', edit w q k s inp = (s', UOk [Note] inp) ∧ unchanged s s'.
Proof.
  intros Hr Hp Hb He Hne Hk. destruct (found_entry w s m q u b inp Hr Hp Hb) as (s1 & s2 & E1 & Eu & E2 & U & R).
  exists s2. split; [|done]. unfold edit. finding s1 s2 u b inp E1 Eu E2. rewrite He. change (negb (0 =? 0)%Z) with false. cbn iota. rewrite nonempty_len by done.
  rewrite (C_ok _ _ _ _ s2 tt inp) by by apply set_refused_eff. done.
Qed.
Lemma str_skip_all n s : String.length s ≤ n → str_skip n s = "".
Proof. revert s. induction n as [|n IH]; intros [|c s] H; try done; cbn [String.length] in H; [lia|]. cbn [str_skip]. apply IH. lia. Qed.
Lemma wipe_all n s : String.length s ≤ n → wipe n s = Model_Commands.zeros n.
Proof. intros H. unfold wipe. rewrite str_skip_all by done. apply sapp_nil. Qed.
Lemma edit_wiped old new : edit_leaves old (Exited 0 (Some new)) = Some (Model_Commands.zeros (Nat.max (String.length old) (String.length new))).
Proof. unfold edit_leaves. change (negb (0 =? 0)%Z) with false. cbn iota. rewrite wipe_all by lia. done. Qed.

(** ** show *)
Lemma find_idx_spec o l : ∀ i, match find_idx o l i with
  | Some j => ∃ p q, l = p ++ o :: q ∧ j = i + length p ∧ o ∉ p
  | None => o ∉ l
  end.
Proof.
  induction l as [|x l IH]; intros i; cbn [find_idx]; [set_solver|]. destruct (String.eqb o x) eqn:E.
  - apply String.eqb_eq in E as <-. exists [], l. split; [done|]. split; [simpl; lia|set_solver].
  - apply String.eqb_neq in E. specialize (IH (S i)). destruct (find_idx o l (S i)) as [j|].
    + destruct IH as (p & q & -> & -> & Hn). exists (x :: p), q. split; [done|]. split; [simpl; lia|set_solver].
    + set_solver.
Qed.
Lemma swap_out_perm l o : NoDup l → (o ∉ l ∧ swap_out l o = l) ∨ (∃ l', swap_out l o ≡ₚ l' ∧ l ≡ₚ o :: l').
Proof.
  intros Hnd. unfold swap_out. pose proof (find_idx_spec o l 0) as H. destruct (find_idx o l 0) as [j|]; [|by left].
  right. destruct H as (p & q & -> & -> & Hn). exists (p ++ q). split; [|by rewrite Permutation_middle].
  replace (0 + length p) with (length p + 0) by lia. rewrite insert_app_r. cbn [insert list_insert].
  destruct q as [|y q _] using rev_ind.
  - rewrite app_length. cbn [length]. replace (length p + 1 - 1) with (length p) by lia. rewrite take_app. by rewrite app_nil_r.
  - replace (List.last (p ++ o :: q ++ [y]) "") with y.
    2: { replace (p ++ o :: q ++ [y]) with ((p ++ o :: q) ++ [y]) by by rewrite <-app_assoc. symmetry. apply last_last. }
    replace (length (p ++ o :: q ++ [y]) - 1) with (length (p ++ y :: q)) by (rewrite !app_length; cbn [length]; rewrite app_length; cbn [length]; lia).
    replace (p ++ y :: q ++ [y]) with ((p ++ y :: q) ++ [y]) by by rewrite <-app_assoc. rewrite take_app.
    apply Permutation_app_head. by rewrite Permutation_cons_append.
Qed.
Lemma swap_outs l os : NoDup l → NoDup (fold_left swap_out os l) ∧ ∀ k, k ∈ fold_left swap_out os l ↔ k ∈ l ∧ k ∉ os.
Proof.
  revert l. induction os as [|o os IH]; intros l Hnd; cbn [fold_left]; [split; [done|set_solver]|].
  destruct (swap_out_perm l o Hnd) as [[Hn ->]|(l' & H1 & H2)].
  - destruct (IH l Hnd) as [N E]. split; [done|]. intros k. rewrite E, elem_of_cons. split; [|tauto]. intros [Hk Hos]. split; [done|]. intros [->|]; done.
  - rewrite H2 in Hnd. apply NoDup_cons in Hnd as [Ho Hnd].
    destruct (IH (swap_out l o)) as [N E]; [by rewrite H1|]. split; [done|]. intros k. rewrite E, H1, H2, !elem_of_cons.
    split; [|tauto]. intros [Hk Hos]. split; [by right|]. intros [->|]; done.
Qed.
Lemma insert_sorted_perm x l : insert_sorted x l ≡ₚ x :: l.
Proof. induction l as [|y l IH]; [done|]. cbn [insert_sorted]. destruct (String.leb x y); [done|]. rewrite IH. apply Permutation_swap. Qed.
Lemma sort_strings_perm l : sort_strings l ≡ₚ l.
Proof. induction l as [|x l IH]; [done|]. cbn [sort_strings]. by rewrite insert_sorted_perm, IH. Qed.

Lemma split_on_long c v : 1 < length (split_on c v) ↔ ¬ lacks c v.
Proof.
  split.
  - intros H Hl. rewrite split_on_lacks in H by done. simpl in H. lia.
  - intros Hl. destruct (split_on c v) as [|x [|y r]] eqn:E; [by apply split_on_ne in E| |cbn [length]; lia].
    exfalso. apply Hl. pose proof (join_split c v) as Hj. rewrite E in Hj. simpl in Hj. subst. apply (split_lacks c v). rewrite E. left.
Qed.
Lemma lacks_bytes c v : lacks c v ↔ c ∉ str_bytes v.
Proof. induction v as [|x v IH]; [simpl; set_solver|]. change (lacks c (String x v)) with (x ≠ c ∧ lacks c v). change (str_bytes (String x v)) with (x :: str_bytes v). rewrite IH. set_solver. Qed.
Lemma has_newline_spec v : has_newline v = bool_decide (Zbyte 10 ∈ str_bytes v).
Proof.
  unfold has_newline. destruct (decide (Zbyte 10 ∈ str_bytes v)) as [H|H].
  - rewrite bool_decide_eq_true_2 by done. apply Nat.ltb_lt, split_on_long. rewrite lacks_bytes. intros Hn. by apply Hn.
  - rewrite bool_decide_eq_false_2 by done. apply Nat.ltb_ge. destruct (decide (1 < length (split_on (Zbyte 10) v))) as [Hl|]; [|lia].
    apply split_on_long in Hl. rewrite lacks_bytes in Hl. by destruct Hl.
Qed.
Lemma show_key_spec w b k v : b !! k = Some v → k ≠ "updated" → TwoFactor w b ≠ Panic →
  ∃ l, show_key w b k = Ok l ∧ ∀ o, o ∈ l ↔ shown_as w b k v o.
Proof.
  intros Hv Hk Ht. unfold show_key, shown_as. rewrite (proj2 (String.eqb_neq k KeyUpdated)) by done. rewrite Hv.
  destruct (String.eqb k KeyPass) eqn:E1.
  { apply String.eqb_eq in E1 as ->. destruct (decide (KeyPass = "pass")); [|done]. unfold Get. change (existsb (EqualFold KeyPass) protectedKeys) with false. cbn [mbind outcome_bind].
    rewrite Hv. eexists. split; [done|]. set_solver. }
  apply String.eqb_neq in E1. destruct (decide (k = "pass")); [done|]. destruct (String.eqb k KeyLabels) eqn:E2.
  { apply String.eqb_eq in E2 as ->. destruct (decide (KeyLabels = "labels")); [|done]. eexists. split; [done|]. set_solver. }
  apply String.eqb_neq in E2. destruct (decide (k = "labels")); [done|]. destruct (String.eqb k KeyTwoFactor) eqn:E3.
  { apply String.eqb_eq in E3 as ->. destruct (decide (KeyTwoFactor = "totp")); [|done]. unfold TwoFactor in *. cbv zeta in *. rewrite Hv in *.
    change (default "" (Some v)) with v in *. destruct v as [|c v].
    - exists []. split; [done|]. intros o. rewrite elem_of_nil. destruct (w_totp w ""); [|split; [done|by intros [? _]]|done]. split; [done|by intros [? _]].
    - change (String.length (String c v) =? 0) with false in *. cbn iota in *. destruct (w_totp w (String c v)) as [t| |]; [| |done].
      + destruct t as [|c' t]; [exists []; split; [done|]; intros o; rewrite elem_of_nil; split; [done|by intros (_ & ? & _)]|].
        eexists. split; [done|]. intros o. rewrite elem_of_list_singleton. split; [done|by intros (_ & _ & ->)].
      + eexists. split; [done|]. intros o. rewrite elem_of_list_singleton. split; [done|by intros (_ & ->)]. }
  apply String.eqb_neq in E3. destruct (decide (k = "totp")); [done|]. rewrite has_newline_spec.
  destruct (decide (Zbyte 10 ∈ str_bytes v)).
  - rewrite bool_decide_eq_true_2 by done. eexists. split; [done|]. set_solver.
  - rewrite bool_decide_eq_false_2 by done. eexists. split; [done|]. set_solver.
Qed.
Lemma show_key_none w b k : b !! k = None ∨ k = "updated" → show_key w b k = Ok [].
Proof. unfold show_key. intros [H| ->]; [|done]. destruct (String.eqb k KeyUpdated); [done|]. by rewrite H. Qed.
Lemma show_keys_spec w b keys : TwoFactor w b ≠ Panic →
  ∃ l, show_keys w b keys = Ok l ∧ ∀ o, o ∈ l ↔ ∃ k v, k ∈ keys ∧ b !! k = Some v ∧ k ≠ "updated" ∧ shown_as w b k v o.
Proof.
  intros Ht. induction keys as [|k keys (l & E & IH)].
  - exists []. split; [done|]. intros o. rewrite elem_of_nil. split; [done|]. intros (k & v & H & _). by apply elem_of_nil in H.
  - cbn [show_keys]. destruct (decide (b !! k = None ∨ k = "updated")) as [Hk|Hk].
    + rewrite show_key_none by done. cbn [mbind outcome_bind]. rewrite E. cbn [mbind outcome_bind app]. exists l. split; [done|]. intros o. rewrite IH.
      split; intros (k' & v & H1 & H2 & H3 & H4).
      * exists k', v. split; [by right|done].
      * exists k', v. apply elem_of_cons in H1 as [->|H1]; [|done]. destruct Hk; [congruence|done].
    + destruct (b !! k) as [v|] eqn:Hv; [|exfalso; apply Hk; by left]. destruct (show_key_spec w b k v Hv) as (l1 & E1 & H1); [intros ->; apply Hk; by right|done|].
      rewrite E1. cbn [mbind outcome_bind]. rewrite E. cbn [mbind outcome_bind]. exists (l1 ++ l). split; [done|]. intros o. rewrite elem_of_app, IH, H1. split.
      * intros [H|(k' & v' & A & B & C & D)]; [exists k, v; split; [left|]; split; [done|]; split; [intros ->; apply Hk; by right|done]|exists k', v'; split; [by right|done]].
      * intros (k' & v' & A & B & C & D). apply elem_of_cons in A as [->|A]; [left; congruence|right; exists k', v'; done].
Qed.
Lemma show_blob_spec w b t snaps sn : w_keys w b ≡ₚ (map_to_list b).*1 → TwoFactor w b ≠ Panic → Updated b = Ok t →
  ∃ l, show_blob w b snaps sn = Ok (l ++ (match t with None => [] | Some t => [Row KeyUpdated (w_time w t)] end)
        ++ (if (0 <? snaps) && (sn =? 0)%Z then [Row "snaps" (FormatInt (Z.of_nat snaps))] else [])) ∧
    ∀ o, o ∈ l ↔ ∃ k v, b !! k = Some v ∧ k ≠ "updated" ∧ shown_as w b k v o.
Proof.
  intros Hk Ht Hu. unfold show_blob. cbv zeta.
  destruct (show_keys_spec w b (show_first ++ sort_strings (fold_left swap_out show_first (w_keys w b))) Ht) as (l & E & H).
  rewrite E. cbn [mbind outcome_bind]. rewrite Hu. cbn [mbind outcome_bind]. exists l. split; [done|]. intros o. rewrite H. split.
  - intros (k & v & _ & Hr). eauto.
  - intros (k & v & Hv & Hr). exists k, v. split; [|done]. rewrite elem_of_app, sort_strings_perm.
    assert (NoDup (w_keys w b)) as Hnd by (rewrite Hk; apply NoDup_fst_map_to_list). rewrite (proj2 (swap_outs _ show_first Hnd)).
    destruct (decide (k ∈ show_first)); [by left|right]. split; [|done]. rewrite Hk. apply elem_of_list_fmap. exists (k, v). split; [done|]. by apply elem_of_map_to_list.
Qed.
Lemma show_shows w s m q u b t inp : ready w s m → picks (w_lower w) m q u → m !! u = Some b →
  w_keys w b ≡ₚ (map_to_list b).*1 → TwoFactor w b ≠ Panic → Updated b = Ok t →
  ∃ s' l o, show w q 0 s inp = (s', UOk (l ++ o) inp) ∧ unchanged s s' ∧
    o = (match t with None => [] | Some t => [Row "updated" (w_time w t)] end) ++
        (let n := length (filter (λ x, tx_uuid x = u) (vis (db_log (s_db s)))) in if 0 <? n then [Row "snaps" (FormatInt (Z.of_nat n))] else []) ∧
    ∀ x, x ∈ l ↔ ∃ k v, b !! k = Some v ∧ k ≠ "updated" ∧ shown_as w b k v x.
Proof.
  intros Hr Hp Hb Hk Ht Hu. destruct (found_entry w s m q u b inp Hr Hp Hb) as (s1 & s2 & E1 & Eu & E2 & U & R).
  destruct (show_blob_spec w b t (NVersions (s_db s2) u) 0 Hk Ht Hu) as (l & E & H).
  eexists s2, l, _. split; [|split; [done|split; [|done]]].
  - unfold show. finding s1 s2 u b inp E1 Eu E2. rewrite (C_ok _ _ _ _ s2 s2 inp) by done. cbv zeta. change (0 =? 0)%Z with true. cbn iota.
    rewrite (C_ok _ _ _ _ s2 (Some b) inp) by done. cbn iota. destruct (size b =? 0) eqn:Ez.
    { apply Nat.eqb_eq, map_size_empty_iff in Ez. pose proof Hr as (_ & [Ha _] & _). destruct (Ha u b Hb) as (n & Hn). rewrite Ez in Hn. by rewrite lookup_empty in Hn. }
    unfold try. rewrite E. done.
  - rewrite andb_true_r. rewrite NVersions_spec. destruct U as (-> & _). done.
Qed.
