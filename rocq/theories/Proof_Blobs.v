(** Proofs about the password-store operations: the effect of each on the
    contents, and the name invariant. *)
From Verif Require Import Proof_TxLog Proof_GoStr Proof_Fuzzy.
From Verif Require Export Spec_Blobs.
From Coq Require Import Lia.
From stdpp Require Import options.

(** ** Reading *)

Lemma holds_update d m : holds d m →
  ∃ d', UpdateSnapshot d = (d', Ok tt) ∧ snap_of d' = m ∧ vis (db_log d') = vis (db_log d) ∧
    db_txpoint d' = db_txpoint d ∧ holds d' m.
Proof.
  intros [Hc Hr].
  destruct (update_complete d Hc) as (d' & Hd'); [by exists m|].
  destruct (UpdateSnapshot_log _ _ _ Hd') as [Hlog Htx].
  destruct (coherent_update _ _ _ Hc Hd') as (Hc' & _ & Hfull).
  destruct (Hfull eq_refl) as [_ Hrep].
  exists d'. split; [done|].
  assert (vis (db_log d') = vis (db_log d)) as Hv by (by rewrite Hlog).
  assert (snap_of d' = m) as Hs by (rewrite Hv in Hrep; eapply replays_det; done).
  split; [done|]. split; [done|]. split; [done|]. split; [done|]. by rewrite Hv.
Qed.

Lemma holds_det d m1 m2 : holds d m1 → holds d m2 → m1 = m2.
Proof. intros [_ H1] [_ H2]. eapply replays_det; done. Qed.

Lemma holds_new : holds db_new ∅.
Proof. split; [apply coherent_new|constructor]. Qed.

Lemma unused_lookup d m u : holds d m → unused d u → m !! u = None.
Proof.
  intros [_ Hr] Hu. destruct (m !! u) as [b|] eqn:E; [|done]. exfalso.
  destruct (proj1 (proj1 (last_writer _ _ Hr u))) as (i & t & Hl & Ha & _); [by rewrite E|].
  apply elem_of_list_lookup_2 in Hl. by apply (Hu t Hl), Ha.
Qed.

Lemma live_lookup d m u : holds d m → live d u → ∃ b, m !! u = Some b.
Proof. intros [_ Hr] (m' & b & Hr' & Hb). rewrite (replays_det _ _ _ Hr Hr'). eauto. Qed.

(** ** Writing *)

Lemma holds_append g now d t m m' : holds d m →
  tx_step m (mk_tx now (tx_kind t) (tx_uuid t) (tx_key t) (tx_value t)) m' →
  holds (appendLog g now d t) m' ∧
  vis (db_log (appendLog g now d t)) =
    vis (db_log d) ++ [mk_tx now (tx_kind t) (tx_uuid t) (tx_key t) (tx_value t)].
Proof.
  intros [Hc Hr] Hs. split; [|apply slice_append_vis]. split; [by apply coherent_append|].
  unfold appendLog. simpl. rewrite slice_append_vis. apply replays_snoc. eauto.
Qed.

Lemma holds_add g now d u m : holds d m → m !! u = None → holds (Add g now u d) (<[u := ∅]> m).
Proof. intros Hh Hu. apply (holds_append g now d _ m); [done|]. by constructor. Qed.
Lemma holds_set g now d u k v m b : holds d m → m !! u = Some b →
  holds (Set_ g now d u k v) (<[u := <[k := v]> b]> m).
Proof. intros Hh Hu. apply (holds_append g now d _ m); [done|]. by constructor. Qed.
Lemma holds_delete g now d u m b : holds d m → m !! u = Some b → holds (Delete g now d u) (delete u m).
Proof. intros Hh Hu. apply (holds_append g now d _ m); [done|]. by econstructor. Qed.
Lemma holds_deletekey g now d u k m b : holds d m → m !! u = Some b →
  holds (DeleteKey g now d u k) (<[u := delete k b]> m).
Proof. intros Hh Hu. apply (holds_append g now d _ m); [done|]. by econstructor. Qed.

(** Two writes to the same entry. *)
Lemma holds_touch_set e i d u k v m b : holds d m → m !! u = Some b →
  ∃ d', (_ ← touchUpdated e i u; dbSet e (S (S i)) u k v) d = (d', Ok tt) ∧
    holds d' (<[u := <[k := v]> (<["updated" := FormatInt (e_now e i)]> b)]> m) ∧
    vis (db_log d') = vis (db_log d) ++
      [mk_tx (e_now e (S i)) "setk" u "updated" (FormatInt (e_now e i)); mk_tx (e_now e (S (S i))) "setk" u k v] ∧
    db_txpoint d' = db_txpoint d ∧ db_version d' = db_version d.
Proof.
  intros Hh Hu. eexists. split; [reflexivity|]. split; [|split].
  - pose proof (holds_set (e_grow e (S i)) (e_now e (S i)) d u "updated" (FormatInt (e_now e i)) m b Hh Hu) as H1.
    pose proof (holds_set (e_grow e (S (S i))) (e_now e (S (S i))) _ u k v _ _ H1 (lookup_insert _ _ _)) as H2.
    rewrite insert_insert in H2. exact H2.
  - cbn. unfold Set_, appendLog; cbn. rewrite !slice_append_vis. cbn. by rewrite <-app_assoc.
  - done.
Qed.

Lemma holds_touch_delk e i d u k m b : holds d m → m !! u = Some b →
  ∃ d', (_ ← touchUpdated e i u; dbDeleteKey e (S (S i)) u k) d = (d', Ok tt) ∧
    holds d' (<[u := delete k (<["updated" := FormatInt (e_now e i)]> b)]> m) ∧
    vis (db_log d') = vis (db_log d) ++
      [mk_tx (e_now e (S i)) "setk" u "updated" (FormatInt (e_now e i)); mk_tx (e_now e (S (S i))) "delk" u k ""] ∧
    db_txpoint d' = db_txpoint d ∧ db_version d' = db_version d.
Proof.
  intros Hh Hu. eexists. split; [reflexivity|]. split; [|split].
  - pose proof (holds_set (e_grow e (S i)) (e_now e (S i)) d u "updated" (FormatInt (e_now e i)) m b Hh Hu) as H1.
    pose proof (holds_deletekey (e_grow e (S (S i))) (e_now e (S (S i))) _ u k _ _ H1 (lookup_insert _ _ _)) as H2.
    rewrite insert_insert in H2. exact H2.
  - cbn. unfold Set_, DeleteKey, appendLog; cbn. rewrite !slice_append_vis. cbn. by rewrite <-app_assoc.
  - done.
Qed.

(** ** Names *)

Lemma Name_ok b n : b !! "name" = Some n → Name b = Ok n.
Proof. intros H. unfold Name, KeyName. by rewrite H. Qed.

Lemma ord_elem e j m u b : fair e → (u, b) ∈ e_ord e j m ↔ m !! u = Some b.
Proof. intros Hf. rewrite (Hf j m). apply elem_of_map_to_list. Qed.

Lemma name_taken_list n l : (∀ u b, (u, b) ∈ l → ∃ x, b !! "name" = Some x) →
  ∃ t, name_taken n l = Ok t ∧ (t = true ↔ ∃ u b, (u, b) ∈ l ∧ b !! "name" = Some n).
Proof.
  induction l as [|[u b] l IH]; intros Hl; simpl.
  - exists false. split; [done|]. split; [done|]. intros (u & b & H & _). by apply elem_of_nil in H.
  - destruct (Hl u b ltac:(left)) as [x Hx]. rewrite (Name_ok _ _ Hx).
    destruct (String.eqb n x) eqn:E.
    + apply String.eqb_eq in E as <-. exists true. split; [done|]. split; [|done]. intros _.
      exists u, b. split; [left|done].
    + apply String.eqb_neq in E. destruct IH as (t & Ht & Hi); [intros; eapply Hl; by right|].
      exists t. split; [done|]. rewrite Hi. split.
      * intros (u' & b' & H & Hb). exists u', b'. split; [by right|done].
      * intros (u' & b' & H & Hb). apply elem_of_cons in H as [[= -> ->]|H]; [congruence|]. eauto.
Qed.

Lemma name_taken_ord e j m n : fair e → all_named m →
  ∃ t, name_taken n (e_ord e j m) = Ok t ∧ (t = true ↔ ∃ u, called m u n).
Proof.
  intros Hf Ha. destruct (name_taken_list n (e_ord e j m)) as (t & Ht & Hi).
  { intros u b H. rewrite ord_elem in H by done. eauto. }
  exists t. split; [done|]. rewrite Hi. unfold called. split.
  - intros (u & b & H & Hn). rewrite ord_elem in H by done. eauto.
  - intros (u & b & H & Hn). exists u, b. by rewrite ord_elem.
Qed.

Lemma New_spec e j n d m : holds d m → all_named m → fair e →
  ((∃ u, called m u n) ∧ ∃ d', New e j n d = (d', Fail ENameNotUnique) ∧ holds d' m ∧
     vis (db_log d') = vis (db_log d) ∧ db_txpoint d' = db_txpoint d) ∨
  ((∀ u, ¬ called m u n) ∧ (unused d (e_uuid e) → ∃ d', New e j n d = (d', Ok (e_uuid e)) ∧
     holds d' (<[e_uuid e := new_entry e n]> m) ∧ db_txpoint d' = db_txpoint d ∧
     vis (db_log d') = vis (db_log d) ++
       [mk_tx (e_now e 0) "add" (e_uuid e) "" "";
        mk_tx (e_now e 2) "setk" (e_uuid e) "updated" (FormatInt (e_now e 1));
        mk_tx (e_now e 3) "setk" (e_uuid e) "name" n] ∧
     db_version d' = length (vis (db_log d)))).
Proof.
  intros Hh Ha Hf.
  destruct (holds_update d m Hh) as (d1 & Hu & Hs & Hv & Htp & Hh1).
  destruct (name_taken_ord e j m n Hf Ha) as (t & Ht & Hi).
  assert (New e j n d = (taken ← lift (name_taken n (e_ord e j m));
    if (taken : bool) then lift (Fail ENameNotUnique)
    else
      _ ← modify (Add (e_grow e 0) (e_now e 0) (e_uuid e));
      _ ← touchUpdated e 1 (e_uuid e);
      _ ← dbSet e 3 (e_uuid e) KeyName n;
      mret (e_uuid e)) d1) as HN.
  { unfold New, mbind, M_bind. rewrite Hu. unfold get_snap. by rewrite Hs. }
  rewrite HN. unfold mbind at 1, M_bind at 1. unfold lift at 1. rewrite Ht.
  destruct t.
  - left. split; [by apply Hi|]. exists d1. split; [done|]. done.
  - right. split; [intros u Hc; assert (false = true) as Hft by (apply Hi; by exists u); discriminate Hft|]. intros Hun.
    assert (m !! e_uuid e = None) as Hnone by exact (unused_lookup d m _ Hh Hun).
    pose proof (holds_add (e_grow e 0) (e_now e 0) d1 (e_uuid e) m Hh1 Hnone) as H1.
    destruct (holds_touch_set e 1 _ (e_uuid e) "name" n _ _ H1 (lookup_insert _ _ _)) as (d2 & Hd2 & Hh2 & Hv2 & Ht2 & Hver2).
    exists d2. split.
    + revert Hd2. unfold mbind, M_bind, modify. unfold dbSet, touchUpdated, dbSet, modify. intros [= <-]. done.
    + split; [by rewrite insert_insert in Hh2|]. split; [by rewrite Ht2|]. split.
      * rewrite Hv2. unfold Add, appendLog; cbn. rewrite slice_append_vis, Hv. cbn. by rewrite <-app_assoc.
      * rewrite Hver2. cbn. destruct (coherent_update d d1 (Ok tt)) as (_ & _ & Hf2); [apply Hh|done|].
        destruct (Hf2 eq_refl) as [-> _]. by rewrite Hv.
Qed.

Lemma called_insert_same m u b n : called (<[u := b]> m) u n ↔ b !! "name" = Some n.
Proof.
  unfold called. split.
  - intros (b' & H & Hn). rewrite lookup_insert in H. by simplify_eq.
  - intros H. exists b. by rewrite lookup_insert.
Qed.
Lemma called_insert_other m u u' b n : u ≠ u' → called (<[u := b]> m) u' n ↔ called m u' n.
Proof. intros H. unfold called. by rewrite lookup_insert_ne. Qed.

(** Overwriting an entry without touching its name. *)
Lemma well_named_same m u b b' : well_named m → m !! u = Some b → b' !! "name" = b !! "name" →
  well_named (<[u := b']> m).
Proof.
  intros [Ha Hu] Hb Heq.
  assert (∀ x n, called (<[u := b']> m) x n ↔ called m x n) as Hc.
  { intros x n. destruct (decide (x = u)) as [->|Hne].
    - rewrite called_insert_same, Heq. unfold called. split; [eauto|]. intros (b1 & H & Hn). congruence.
    - by apply called_insert_other. }
  split.
  - intros x bx Hx. destruct (decide (x = u)) as [->|Hne].
    + rewrite lookup_insert in Hx. simplify_eq. rewrite Heq. eauto.
    + rewrite lookup_insert_ne in Hx by done. eauto.
  - intros u1 u2 n H1 H2. rewrite Hc in H1, H2. eauto.
Qed.

(** Giving an entry a name nobody has. *)
Lemma well_named_fresh m u b n : well_named m → (∀ x, ¬ called m x n) → b !! "name" = Some n →
  well_named (<[u := b]> m).
Proof.
  intros [Ha Hu] Hfree Hb. split.
  - intros x bx Hx. destruct (decide (x = u)) as [->|Hne].
    + rewrite lookup_insert in Hx. simplify_eq. eauto.
    + rewrite lookup_insert_ne in Hx by done. eauto.
  - intros u1 u2 x H1 H2.
    destruct (decide (u1 = u)) as [->|N1], (decide (u2 = u)) as [->|N2]; [done|..].
    + rewrite called_insert_same in H1. rewrite called_insert_other in H2 by done.
      assert (x = n) as -> by congruence. by apply Hfree in H2.
    + rewrite called_insert_same in H2. rewrite called_insert_other in H1 by done.
      assert (x = n) as -> by congruence. by apply Hfree in H1.
    + rewrite called_insert_other in H1, H2 by done. eauto.
Qed.

Lemma well_named_delete m u : well_named m → well_named (delete u m).
Proof.
  intros [Ha Hu].
  assert (∀ x n, called (delete u m) x n → called m x n) as Hc.
  { intros x n (b & Hb & Hn). apply lookup_delete_Some in Hb as [_ Hb]. by exists b. }
  split; [|intros u1 u2 n H1 H2; eauto].
  intros x b Hb. apply lookup_delete_Some in Hb as [_ Hb]. eauto.
Qed.

Lemma Rename_spec e u n d m b : holds d m → all_named m → fair e → m !! u = Some b →
  ((∃ x, called m x n) ∧ ∃ d', Rename e u n d = (d', Fail ENameNotUnique) ∧ holds d' m ∧
     vis (db_log d') = vis (db_log d)) ∨
  ((∀ x, ¬ called m x n) ∧ ∃ d', Rename e u n d = (d', Ok tt) ∧
     holds d' (<[u := <["name" := n]> (<["updated" := FormatInt (e_now e 0)]> b)]> m)).
Proof.
  intros Hh Ha Hf Hb.
  destruct (holds_update d m Hh) as (d1 & Hu & Hs & Hv & Htp & Hh1).
  destruct (name_taken_ord e 0 m n Hf Ha) as (t & Ht & Hi).
  assert (Rename e u n d = (taken ← lift (name_taken n (e_ord e 0 m));
    if (taken : bool) then lift (Fail ENameNotUnique)
    else match m !! u with
       | None => lift (Fail (EMsg "uuid not found"))
       | Some _ => _ ← touchUpdated e 0 u; dbSet e 2 u KeyName n
       end) d1) as HN.
  { unfold Rename, mbind, M_bind. rewrite Hu. unfold get_snap. by rewrite Hs. }
  rewrite HN, Hb. unfold mbind at 1, M_bind at 1. unfold lift at 1. rewrite Ht. destruct t.
  - left. split; [by apply Hi|]. by exists d1.
  - right. split; [intros x Hc; assert (false = true) as Hft by (apply Hi; by exists x); discriminate Hft|].
    destruct (holds_touch_set e 0 d1 u "name" n m b Hh1 Hb) as (d2 & Hd2 & Hh2 & _).
    exists d2. done.
Qed.

(** ** Protected keys *)

Lemma simple_fold_ascii c r : (97 ≤ c ≤ 122)%Z → rune_fold_eq r c = true ↔ case_of c r.
Proof.
  intros Hc. unfold rune_fold_eq, case_of.
  destruct (r =? c)%Z eqn:E0; [apply Z.eqb_eq in E0; split; [by left|done]|]. apply Z.eqb_neq in E0.
  destruct (Z.max r c <? 128)%Z eqn:E1.
  - rewrite andb_true_iff, inr_spec, Z.eqb_eq. lia.
  - rewrite Z.eqb_eq. replace (Z.min r c) with c by lia. replace (Z.max r c) with r by lia.
    assert (128 <= r)%Z as Hr by lia.
    destruct (decide (c = 107%Z)) as [->|Hk]; [|destruct (decide (c = 115%Z)) as [->|Hs]].
    + cbn. destruct (8490 <? r)%Z eqn:E2; cbn.
      * destruct (75 <? r)%Z eqn:E3; [|lia]. cbn. lia.
      * lia.
    + cbn. destruct (383 <? r)%Z eqn:E2; cbn.
      * destruct (83 <? r)%Z eqn:E3; [|lia]. cbn. lia.
      * lia.
    + assert (SimpleFold c = c - 32)%Z as ->.
      { unfold SimpleFold. repeat match goal with |- context[(c =? ?x)%Z] => replace (c =? x)%Z with false by lia end.
        rewrite inr_false by lia. by rewrite inr_true by lia. }
      cbn [fold_orbit]. replace (c - 32 =? c)%Z with false by lia. replace (c - 32 <? r)%Z with true by lia.
      assert (SimpleFold (c - 32) = c)%Z as ->.
      { unfold SimpleFold. repeat match goal with |- context[(c - 32 =? ?x)%Z] => replace (c - 32 =? x)%Z with false by lia end.
        rewrite inr_true by lia. lia. }
      replace (c =? c)%Z with true by lia. lia.
Qed.

Lemma equal_fold_runes_spec s t : Forall (λ c, (97 ≤ c ≤ 122)%Z) t →
  equal_fold_runes s t = true ↔ Forall2 case_of t s.
Proof.
  revert s. induction t as [|c t IH]; intros s Ht; destruct s as [|r s]; simpl.
  - split; [constructor|done].
  - split; [done|]. inversion 1.
  - split; [done|]. inversion 1.
  - inversion Ht; subst. rewrite andb_true_iff, simple_fold_ascii, IH by done. split.
    + intros [? ?]. by constructor.
    + inversion 1; by subst.
Qed.

Lemma EqualFold_spec key p : Forall (λ c, (97 ≤ c ≤ 122)%Z) (runes p) →
  EqualFold key p = true ↔ same_but_case p key.
Proof. apply equal_fold_runes_spec. Qed.

Lemma protected_spec key : existsb (EqualFold key) protectedKeys = true ↔ protected_key key.
Proof.
  rewrite existsb_exists. unfold protected_key.
  assert (∀ p, p ∈ protectedKeys → EqualFold key p = true ↔ same_but_case p key) as H.
  { intros p Hp. apply EqualFold_spec.
    assert (Forall (λ p, Forall (λ c, (97 ≤ c ≤ 122)%Z) (runes p)) protectedKeys) as Hall.
    { repeat constructor; vm_compute; intuition congruence. }
    rewrite Forall_forall in Hall. by apply Hall. }
  split; intros (p & Hp & Hq); exists p.
  - rewrite <-elem_of_list_In in Hp. split; [done|]. by apply H.
  - rewrite <-elem_of_list_In. split; [done|]. by apply H.
Qed.

Lemma name_is_protected : protected_key "name".
Proof. apply protected_spec. reflexivity. Qed.
Lemma updated_is_protected : protected_key "updated".
Proof. apply protected_spec. reflexivity. Qed.
Lemma labels_not_protected : ¬ protected_key "labels".
Proof. rewrite <-protected_spec. by vm_compute. Qed.

Lemma Set_key_refused e i u k v d : protected_key k → Set_key e i u k v d = (d, Fail (EKeyNotAllowed k)).
Proof. intros H. unfold Set_key. by rewrite (proj2 (protected_spec k) H). Qed.

Lemma Set_key_open e i u k v : ¬ protected_key k →
  Set_key e i u k v = (_ ← touchUpdated e i u; dbSet e (S (S i)) u k v).
Proof.
  intros H. unfold Set_key. destruct (existsb (EqualFold k) protectedKeys) eqn:E; [|done].
  by apply protected_spec in E.
Qed.

Lemma Set_key_spec e i u k v d m b : holds d m → m !! u = Some b → ¬ protected_key k →
  ∃ d', Set_key e i u k v d = (d', Ok tt) ∧
    holds d' (<[u := <[k := v]> (<["updated" := FormatInt (e_now e i)]> b)]> m) ∧
    vis (db_log d') = vis (db_log d) ++
      [mk_tx (e_now e (S i)) "setk" u "updated" (FormatInt (e_now e i)); mk_tx (e_now e (S (S i))) "setk" u k v].
Proof.
  intros Hh Hb Hk. rewrite Set_key_open by done.
  destruct (holds_touch_set e i d u k v m b Hh Hb) as (d' & H1 & H2 & H3 & _). eauto.
Qed.

Lemma DeleteKey_key_spec e u k d m b : holds d m → m !! u = Some b → k ≠ "name" → k ≠ "updated" →
  ∃ d', DeleteKey_key e u k d = (d', Ok tt) ∧
    holds d' (<[u := delete k (<["updated" := FormatInt (e_now e 0)]> b)]> m) ∧
    vis (db_log d') = vis (db_log d) ++
      [mk_tx (e_now e 1) "setk" u "updated" (FormatInt (e_now e 0)); mk_tx (e_now e 2) "delk" u k ""].
Proof.
  intros Hh Hb H1 H2. unfold DeleteKey_key, KeyName, KeyUpdated.
  apply String.eqb_neq in H1, H2. rewrite H1, H2. simpl.
  destruct (holds_touch_delk e 0 d u k m b Hh Hb) as (d' & Hd & Hm & Hv & _). eauto.
Qed.

Lemma DeleteKey_key_refused e u k d : k = "name" ∨ k = "updated" →
  DeleteKey_key e u k d = (d, Fail (EKeyNotAllowed k)).
Proof. by intros [-> | ->]. Qed.

Lemma MustFind_spec u d m b : holds d m → m !! u = Some b →
  ∃ d', MustFind u d = (d', Ok b) ∧ holds d' m ∧ vis (db_log d') = vis (db_log d).
Proof.
  intros Hh Hb. destruct (holds_update d m Hh) as (d1 & Hu & Hs & Hv & Htp & Hh1).
  exists d1. split; [|done].
  unfold MustFind, Find, mbind, M_bind. rewrite Hu. unfold get_snap, mret, M_ret. by rewrite Hs, Hb.
Qed.

(** ** The name invariant *)

Definition inv (d : db) : Prop := ∃ m, holds d m ∧ well_named m.

Lemma insert_name_ne (b : entry) k v : k ≠ "name" → <[k := v]> b !! "name" = b !! "name".
Proof. intros. by rewrite lookup_insert_ne. Qed.

Lemma protected_ne k : ¬ protected_key k → k ≠ "name" ∧ k ≠ "updated".
Proof. intros H. split; intros ->; apply H; [apply name_is_protected|apply updated_is_protected]. Qed.

Lemma inv_set_like d d' m u b b' : holds d m → well_named m → m !! u = Some b → b' !! "name" = b !! "name" →
  holds d' (<[u := b']> m) → inv d'.
Proof. intros Hh Hw Hb Hn Hh'. eexists. split; [done|]. by eapply well_named_same. Qed.

Lemma ones_snoc k : ones k +:+ "1" = ones (S k).
Proof. induction k as [|k IH]; [done|]. cbn [ones]. cbn [ones] in IH. simpl. by rewrite IH. Qed.
Lemma ones_length k : String.length (ones k) = k.
Proof. induction k; simpl; congruence. Qed.

Lemma newsync_spec fuel : ∀ e j n d m, holds d m → all_named m → fair e → unused d (e_uuid e) →
  (∃ k d', (k < fuel)%nat ∧ (∀ i, (i < k)%nat → ∃ u, called m u (n +:+ ones i)) ∧
     (∀ u, ¬ called m u (n +:+ ones k)) ∧
     newsync_loop fuel e j n d = Some (d', Ok (e_uuid e)) ∧
     holds d' (<[e_uuid e := new_entry e (n +:+ ones k)]> m)) ∨
  (newsync_loop fuel e j n d = None ∧ ∀ i, (i < fuel)%nat → ∃ u, called m u (n +:+ ones i)).
Proof.
  induction fuel as [|fuel IH]; intros e j n d m Hh Ha Hf Hu.
  - right. split; [done|]. intros; lia.
  - cbn [newsync_loop]. destruct (New_spec e j n d m Hh Ha Hf) as [[Ht (d1 & -> & Hh1 & Hv1 & _)]|[Ht Hn]].
    + assert (unused d1 (e_uuid e)) as Hu1 by (unfold unused; by rewrite Hv1).
      assert (∀ i, (n +:+ "1") +:+ ones i = n +:+ ones (S i)) as Ei by (intros; by rewrite sapp_assoc).
      destruct (IH e (S j) (n +:+ "1") d1 m Hh1 Ha Hf Hu1) as [(k & d' & Hk & Hbelow & Hfree & Hr & Hh')|[Hr Hall]].
      * left. exists (S k), d'. rewrite Ei in *. split; [lia|]. split; [|done].
        intros [|i] Hi; [simpl; by rewrite sapp_nil|]. rewrite <-Ei. apply Hbelow. lia.
      * right. split; [done|]. intros [|i] Hi; [simpl; by rewrite sapp_nil|]. rewrite <-Ei. apply Hall. lia.
    + left. destruct (Hn Hu) as (d' & -> & Hh' & _). exists 0%nat, d'. simpl. rewrite sapp_nil.
      split; [lia|]. split; [intros; lia|]. done.
Qed.

Lemma size_le_log log m : replays log m → (size m ≤ length log)%nat.
Proof.
  revert m. induction log as [|t log IH] using rev_ind; intros m Hm.
  - inversion Hm; subst. by rewrite map_size_empty.
  - apply replays_snoc in Hm as (m1 & H1 & Hs). apply IH in H1. rewrite app_length; simpl.
    inversion Hs; subst.
    + rewrite map_size_insert_None by done. lia.
    + pose proof (map_size_delete_Some u m1) as Hd. rewrite Hd by (by eexists). lia.
    + rewrite map_size_insert_Some by (by eexists). lia.
    + rewrite map_size_insert_Some by (by eexists). lia.
    + lia.
Qed.

Lemma sapp_inj_l a b c : a +:+ b = a +:+ c → b = c.
Proof. induction a as [|x a IH]; simpl; [done|]. intros [= H]. by apply IH. Qed.

Lemma taken_bound m n fuel : (∀ i, (i < fuel)%nat → ∃ u, called m u (n +:+ ones i)) → (fuel ≤ size m)%nat.
Proof.
  intros H.
  set (l1 := (λ i, n +:+ ones i) <$> seq 0 fuel).
  set (l2 := omap (λ p : string * entry, p.2 !! "name") (map_to_list m)).
  assert (length l1 ≤ length l2)%nat as Hle.
  { apply submseteq_length, NoDup_submseteq.
    - apply NoDup_fmap_2_strong; [|apply NoDup_seq].
      intros x y _ _ Hxy. apply sapp_inj_l in Hxy. apply (f_equal String.length) in Hxy. by rewrite !ones_length in Hxy.
    - intros x Hx. apply elem_of_list_fmap in Hx as (i & -> & Hi). apply elem_of_seq in Hi.
      destruct (H i) as (u & b & Hb & Hn); [lia|]. apply elem_of_list_omap. exists (u, b).
      split; [by apply elem_of_map_to_list|done]. }
  unfold l1 in Hle. rewrite fmap_length, seq_length in Hle.
  assert (length l2 ≤ size m)%nat; [|lia].
  unfold l2, size, map_size. generalize (map_to_list m). intros l.
  unfold omap. induction l as [|x l IH]; [done|]. simpl. destruct (x.2 !! "name"); simpl; lia.
Qed.

Lemma NewSync_spec e kind d m : holds d m → all_named m → fair e → unused d (e_uuid e) →
  ∃ k d', NewSync (S (size m)) e kind d = Some (d', Ok (e_uuid e)) ∧
    (∀ i, (i < k)%nat → ∃ u, called m u ("sync/" +:+ kind +:+ ones i)) ∧
    (∀ u, ¬ called m u ("sync/" +:+ kind +:+ ones k)) ∧
    holds d' (<[e_uuid e := new_entry e ("sync/" +:+ kind +:+ ones k)]> m).
Proof.
  intros Hh Ha Hf Hu. unfold NewSync, syncPrefix.
  destruct (newsync_spec (S (size m)) e 0 ("sync/" +:+ kind) d m Hh Ha Hf Hu) as [(k & d' & Hk & H1 & H2 & H3 & H4)|[_ Hall]].
  - exists k, d'. split; [done|]. rewrite !sapp_assoc in *. setoid_rewrite sapp_assoc in H1. done.
  - apply taken_bound in Hall. lia.
Qed.

(** More iterations change nothing once the loop has ended. *)
Lemma newsync_more f1 : ∀ f2 e j n d r, newsync_loop f1 e j n d = Some r → (f1 ≤ f2)%nat →
  newsync_loop f2 e j n d = Some r.
Proof.
  induction f1 as [|f1 IH]; intros f2 e j n d r H Hle; [done|]. destruct f2 as [|f2]; [lia|].
  cbn [newsync_loop] in *. destruct (New e j n d) as [d1 [u|er|]]; [done| |done].
  destruct er; try done. apply IH; [done|lia].
Qed.

Lemma bstep_inv d o d' r : inv d → allowed d o → bstep d o = (d', r) → inv d' ∧ r ≠ Panic.
Proof.
  intros (m & Hh & Hw) Hal Hst. destruct Hw as [Ha Huq]. pose proof (conj Ha Huq) as Hw.
  destruct o; cbn [bstep allowed] in *.
  - (* BNew *) destruct Hal as [Hf Hun].
    destruct (New_spec e 0 name d m Hh Ha Hf) as [[Ht (d1 & H1 & Hh1 & _)]|[Ht Hn]].
    + rewrite H1 in Hst. injection Hst as <- <-. split; [by exists m|done].
    + destruct (Hn Hun) as (d1 & H1 & Hh1 & _). rewrite H1 in Hst. injection Hst as <- <-. split; [|done].
      eexists. split; [done|]. eapply well_named_fresh; [done|done|]. apply lookup_insert.
  - destruct Hal as [Hf Hun]. unfold NewUser in Hst.
    destruct (New_spec e 0 (userPrefix +:+ name) d m Hh Ha Hf) as [[Ht (d1 & H1 & Hh1 & _)]|[Ht Hn]].
    + rewrite H1 in Hst. injection Hst as <- <-. split; [by exists m|done].
    + destruct (Hn Hun) as (d1 & H1 & Hh1 & _). rewrite H1 in Hst. injection Hst as <- <-. split; [|done].
      eexists. split; [done|]. eapply well_named_fresh; [done|done|]. apply lookup_insert.
  - destruct Hal as [Hf Hun].
    destruct (NewSync_spec e kind d m Hh Ha Hf Hun) as (k & d1 & H1 & _ & Hfree & Hh1).
    apply (newsync_more _ (S (length (vis (db_log d))))) in H1.
    2: { apply le_n_S. apply size_le_log. apply Hh. }
    unfold NewSync in Hst. rewrite H1 in Hst. injection Hst as <- <-. split; [|done].
    eexists. split; [done|]. eapply well_named_fresh; [done|done|]. apply lookup_insert.
  - destruct Hal as [Hf Hl]. destruct (live_lookup _ _ _ Hh Hl) as [b Hb].
    destruct (Rename_spec e u n d m b Hh Ha Hf Hb) as [[Ht (d1 & H1 & Hh1 & _)]|[Ht (d1 & H1 & Hh1)]];
      rewrite H1 in Hst; injection Hst as <- <-; (split; [|done]).
    + by exists m.
    + eexists. split; [done|]. eapply well_named_fresh; [done|done|]. apply lookup_insert.
  - destruct (live_lookup _ _ _ Hh Hal) as [b Hb].
    destruct (existsb (EqualFold k) protectedKeys) eqn:E.
    + apply protected_spec in E. rewrite Set_key_refused in Hst by done. injection Hst as <- <-.
      split; [by exists m|done].
    + assert (¬ protected_key k) as Hk by (rewrite <-protected_spec, E; done).
      destruct (Set_key_spec e 0 u k v d m b Hh Hb Hk) as (d1 & H1 & Hh1 & _).
      rewrite H1 in Hst. injection Hst as <- <-. split; [|done].
      eapply inv_set_like; [exact Hh|done|done| |exact Hh1].
      rewrite !insert_name_ne; [done|done|]. by apply protected_ne.
  - destruct (live_lookup _ _ _ Hh Hal) as [b Hb].
    destruct (decide (k = "name" ∨ k = "updated")) as [Hk|Hk].
    + rewrite DeleteKey_key_refused in Hst by done. injection Hst as <- <-. split; [by exists m|done].
    + destruct (DeleteKey_key_spec e u k d m b Hh Hb) as (d1 & H1 & Hh1 & _); [tauto|tauto|].
      rewrite H1 in Hst. injection Hst as <- <-. split; [|done].
      eapply inv_set_like; [exact Hh|done|done| |exact Hh1].
      rewrite lookup_delete_ne by (intros ->; tauto). by rewrite insert_name_ne.
  - destruct (live_lookup _ _ _ Hh Hal) as [b Hb]. unfold SetTwofactor in Hst. revert Hst.
    match goal with |- context[uri_ok ?x] => set (uri := x) end. destruct (uri_ok uri); intros Hst.
    + destruct (holds_touch_set e 0 d u "totp" uri m b Hh Hb) as (d1 & H1 & Hh1 & _).
      change (mbind _ (touchUpdated e 0 u) d) with
        ((_ ← touchUpdated e 0 u; dbSet e 2 u "totp" uri) d) in Hst.
      rewrite H1 in Hst. injection Hst as <- <-. split; [|done].
      eapply inv_set_like; [exact Hh|done|done| |exact Hh1]. by rewrite !insert_name_ne.
    + injection Hst as <- <-. split; [by exists m|done].
  - destruct (live_lookup _ _ _ Hh Hal) as [b Hb].
    destruct (MustFind_spec u d m b Hh Hb) as (d0 & Hm0 & Hh0 & _).
    unfold AddLabel in Hst. unfold mbind at 1, M_bind at 1 in Hst. rewrite Hm0 in Hst. cbv zeta in Hst.
    revert Hst. match goal with |- context[Set_key e 2 u KeyLabels ?x] => set (lv := x) end. intros Hst.
    pose proof (holds_set (e_grow e 1) (e_now e 1) d0 u "updated" (FormatInt (e_now e 0)) m b Hh0 Hb) as Hh2.
    destruct (Set_key_spec e 2 u "labels" lv _ _ _ Hh2 (lookup_insert _ _ _) labels_not_protected) as (d1 & H1 & Hh1 & _).
    assert (Set_key e 2 u KeyLabels lv (Set_ (e_grow e 1) (e_now e 1) d0 u "updated" (FormatInt (e_now e 0))) = (d', r)) as Hst' by exact Hst.
    unfold KeyLabels in Hst'. rewrite H1 in Hst'. injection Hst' as <- <-. split; [|done].
    rewrite insert_insert in Hh1.
    eapply inv_set_like; [exact Hh|done|done| |exact Hh1]. by rewrite !insert_name_ne.
  - destruct Hal as [Hal Hi]. destruct (live_lookup _ _ _ Hh Hal) as [b Hb].
    destruct (MustFind_spec u d m b Hh Hb) as (d0 & Hm0 & Hh0 & _).
    unfold RemoveLabel in Hst. unfold mbind at 1, M_bind at 1 in Hst. rewrite Hm0 in Hst. cbv zeta in Hst.
    revert Hst. set (ls := split_on (Zbyte 44) (default "" (b !! KeyLabels))). intros Hst.
    destruct (Z.of_nat (length ls) <=? i)%Z eqn:E1.
    { injection Hst as <- <-. split; [by exists m|done]. }
    destruct (length ls =? 1)%nat eqn:E2.
    { pose proof (holds_deletekey (e_grow e 0) (e_now e 0) d0 u "labels" m b Hh0 Hb) as Hh1.
      injection Hst as <- <-. split; [|done].
      eapply inv_set_like; [exact Hh|done|done| |exact Hh1]. by rewrite lookup_delete_ne. }
    replace (i <? 0)%Z with false in Hst by lia.
    revert Hst. match goal with |- context[dbSet e 2 u KeyLabels ?x] => set (lv := x) end. intros Hst.
    destruct (holds_touch_set e 0 d0 u "labels" lv m b Hh0 Hb) as (d1 & H1 & Hh1 & _).
    unfold KeyLabels in Hst. rewrite H1 in Hst. injection Hst as <- <-. split; [|done].
    eapply inv_set_like; [exact Hh|done|done| |exact Hh1]. by rewrite !insert_name_ne.
  - destruct (live_lookup _ _ _ Hh Hal) as [b Hb]. injection Hst as <- <-. split; [|done].
    eexists. split; [by eapply holds_delete|]. by apply well_named_delete.
  - destruct Hal as [Hal Hk]. destruct (live_lookup _ _ _ Hh Hal) as [b Hb]. injection Hst as <- <-. split; [|done].
    eapply inv_set_like; [exact Hh|done|done| |by eapply holds_set]. by rewrite insert_name_ne.
  - destruct (holds_update d m Hh) as (d1 & Hu & _ & _ & _ & Hh1). rewrite Hu in Hst. injection Hst as <- <-.
    split; [by exists m|done].
Qed.

Lemma reach_inv d : reach d → inv d.
Proof.
  induction 1 as [|d o d' r Hr IH Ha Hs].
  - exists ∅. split; [apply holds_new|]. split; [by intros u b ?|by intros u1 u2 n (b & ? & _)].
  - by eapply bstep_inv.
Qed.
