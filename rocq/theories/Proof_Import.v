(** Proofs about the import. *)
From Verif Require Import Spec_Import Proof_TxLog Proof_GoStr Proof_Blobs Proof_Repl4 Proof_Repl5.
From Coq Require Import Lia.
From stdpp Require Import options.
#[local] Open Scope nat_scope.

Definition at_entry (u : string) (m : snapshot) (b : entry) (d0 d : db) : Prop :=
  holds d (<[u := b]> m) ∧ db_txpoint d = db_txpoint d0 ∧ ∃ l, vis (db_log d) = vis (db_log d0) ++ l ∧ Forall (about u) l.

Lemma set_at e i u m b d0 d k v : at_entry u m b d0 d →
  ∃ d', dbSet e i u k v d = (d', Ok tt) ∧ at_entry u m (<[k := v]> b) d0 d'.
Proof.
  intros (Hh & Ht & l & Hl & Hf). eexists. split; [reflexivity|].
  pose proof (holds_set (e_grow e i) (e_now e i) d u k v _ b Hh (lookup_insert _ _ _)) as H. rewrite insert_insert in H.
  split; [done|]. split; [done|]. exists (l ++ [mk_tx (e_now e i) "setk" u k v]). split.
  - unfold Model_TxLog.Set_, appendLog; cbn. rewrite slice_append_vis, Hl. cbn. by rewrite <-app_assoc.
  - apply Forall_app. split; [done|]. by repeat constructor.
Qed.
Lemma raw_at e i u m b d0 d k v : at_entry u m b d0 d →
  ∃ d', raw_if e i u k v d = (d', Ok tt) ∧ at_entry u m (opt_key k v b) d0 d'.
Proof.
  intros H. unfold raw_if, opt_key. destruct v as [|c v].
  - exists d. split; [done|]. by rewrite decide_True by done.
  - rewrite decide_False by done. by apply set_at.
Qed.
Lemma unique_at e n d m : holds d m → all_named m → fair e → unused d (e_uuid e) →
  ∃ n' d', new_unique e n d = (d', Ok (e_uuid e)) ∧ first_free m n n' ∧ at_entry (e_uuid e) m (new_entry e n') d d'.
Proof.
  intros Hh Ha Hf Hu. unfold new_unique.
  destruct (newsync_spec (S (length (vis (db_log d)))) e 0 n d m Hh Ha Hf Hu) as [(k & d' & Hk & H1 & H2 & H3 & H4)|[_ Hall]].
  - exists (n +:+ ones k), d'. rewrite H3. split; [done|]. split; [by exists k|]. split; [done|].
    apply newsync_grows in H3. exact H3.
  - apply taken_bound in Hall. pose proof (size_le_log _ _ (proj2 Hh)). lia.
Qed.
Lemma labels_split lower r :
  (if (String.length (lp_group r) =? 0) then [] else [lower (lp_group r)]) ++ (if String.eqb (lp_fav r) "1" then ["lpfav"] else []) =
  (if decide (lp_group r = "") then [] else [lower (lp_group r)]) ++ (if decide (lp_fav r = "1") then ["lpfav"] else []).
Proof.
  f_equal.
  - by destruct (lp_group r).
  - destruct (String.eqb_spec (lp_fav r) "1") as [->|H]; [done|]. by rewrite decide_False.
Qed.
Lemma record_ok lower e1 e2 r d m : holds d m → all_named m → fair e1 → unused d (e_uuid e1) →
  ∃ n d', import_record lower e1 e2 (fields_of r) d = (d', Ok tt) ∧ first_free m (base_name lower r) n ∧
    at_entry (e_uuid e1) m (imported lower e1 n r) d d'.
Proof.
  intros Hh Ha Hf Hu. destruct (unique_at e1 (base_name lower r) d m Hh Ha Hf Hu) as (n & d1 & E1 & Hn & A1).
  destruct (raw_at e2 0 _ _ _ _ _ "user" (lp_user r) A1) as (d2 & E2 & A2).
  destruct (raw_at e2 1 _ _ _ _ _ "pass" (lp_pass r) A2) as (d3 & E3 & A3).
  destruct (raw_at e2 2 _ _ _ _ _ "url" (lp_url r) A3) as (d4 & E4 & A4).
  destruct (raw_at e2 3 _ _ _ _ _ "notes" (lp_extra r) A4) as (d5 & E5 & A5).
  destruct (set_at e2 4 _ _ _ _ _ "labels" (labels_of lower r) A5) as (d6 & E6 & A6).
  exists n, (if decide (has_label r) then d6 else d5). split; [|split; [done|]].
  - unfold import_record, mbind, M_bind, lift, fields_of, idx. cbn [lookup list_lookup].
    fold (base_name lower r). rewrite E1. change KeyUser with "user". rewrite E2. change KeyPass with "pass". rewrite E3.
    change KeyURL with "url". rewrite E4. change KeyNotes with "notes". rewrite E5. cbv zeta. rewrite labels_split.
    change KeyLabels with "labels". revert E6. unfold labels_of, has_label.
    destruct (decide (lp_group r = "")) as [Hg|Hg], (decide (lp_fav r = "1")) as [Hv|Hv]; cbn [app]; intros E6.
    + rewrite decide_True by by right. done.
    + rewrite decide_False by (intros [?|?]; done). done.
    + rewrite decide_True by by left. done.
    + rewrite decide_True by by left. done.
  - unfold imported. cbv zeta. by destruct (decide (has_label r)).
Qed.

Lemma imported_name lower e n r : imported lower e n r !! "name" = Some n.
Proof.
  unfold imported, opt_key, new_entry. cbv zeta.
  destruct (decide (has_label r)), (decide (lp_extra r = "")), (decide (lp_url r = "")), (decide (lp_pass r = "")), (decide (lp_user r = ""));
    rewrite ?lookup_insert_ne by done; apply lookup_insert.
Qed.
Lemma fresh_keep d d' l E u : vis (db_log d') = vis (db_log d) ++ l → Forall (about u) l → (∀ t, about u t → tx_uuid t = u) →
  unused d E → u ≠ E → unused d' E.
Proof.
  intros Hl Hf Ha Hu Hne t Ht. rewrite Hl in Ht. apply elem_of_app in Ht as [Ht|Ht]; [by apply Hu|].
  rewrite Forall_forall in Hf. apply Hf in Ht. apply Ha in Ht. congruence.
Qed.
Lemma about_uuid u t : about u t → tx_uuid t = u.
Proof. unfold about. naive_solver. Qed.

Lemma loop_ok lower E rs : ∀ i d m, i ≠ 0 → holds d m → all_named m → (∀ j, fair (E j)) →
  (∀ j, i ≤ j → unused d (e_uuid (E (2 * j)))) → (∀ j k, e_uuid (E (2 * j)) = e_uuid (E (2 * k)) → j = k) →
  ∃ m' d', import_loop lower E i 7 (map fields_of rs) None d = (d', Ok tt) ∧ imports lower E i rs m m' ∧ holds d' m' ∧ db_txpoint d' = db_txpoint d.
Proof.
  induction rs as [|r rs IH]; intros i d m Hi Hh Ha Hf Hu Hd.
  - exists m, d. split; [done|]. split; [constructor|done].
  - destruct (record_ok lower (E (2 * i)) (E (2 * i + 1)) r d m Hh Ha (Hf _) (Hu i ltac:(lia))) as (n & d1 & E1 & Hn & Hh1 & Ht1 & l & Hl & Hab).
    destruct (IH (S i) d1 (<[e_uuid (E (2 * i)) := imported lower (E (2 * i)) n r]> m) ltac:(lia) Hh1) as (m' & d' & E2 & Him & Hh' & Ht').
    + intros u b Hb. apply lookup_insert_Some in Hb as [[_ <-]|[_ Hb]]; [|by eapply Ha]. exists n. apply imported_name.
    + done.
    + intros j Hj. eapply fresh_keep; [exact Hl|exact Hab|apply about_uuid|apply Hu; lia|]. intros Heq. apply Hd in Heq. lia.
    + done.
    + exists m', d'. split; [|split; [by econstructor|split; [done|congruence]]].
      cbn [map import_loop]. change (length (fields_of r) =? 7) with true. cbn [negb]. rewrite (proj2 (Nat.eqb_neq i 0) Hi). cbn [andb].
      unfold mbind, M_bind. rewrite E1. exact E2.
Qed.
Lemma import_ok lower E rs d m : holds d m → all_named m → (∀ j, fair (E j)) → fresh_uuids d E →
  ∃ m' d', import_loop lower E 0 7 (map fields_of (header_row :: rs)) None d = (d', Ok tt) ∧ imports lower E 0 (header_row :: rs) m m' ∧
    holds d' m' ∧ db_txpoint d' = db_txpoint d.
Proof.
  intros Hh Ha Hf [Hu Hd].
  destruct (record_ok lower (E 0) (E 1) header_row d m Hh Ha (Hf _) (Hu 0)) as (n & d1 & E1 & Hn & Hh1 & Ht1 & l & Hl & Hab).
  destruct (loop_ok lower E rs 1 d1 (<[e_uuid (E 0) := imported lower (E 0) n header_row]> m) ltac:(lia) Hh1) as (m' & d' & E2 & Him & Hh' & Ht').
  - intros u b Hb. apply lookup_insert_Some in Hb as [[_ <-]|[_ Hb]]; [|by eapply Ha]. exists n. apply imported_name.
  - done.
  - intros j Hj. eapply fresh_keep; [exact Hl|exact Hab|apply about_uuid|apply Hu; lia|]. intros Heq. apply (Hd 0 j) in Heq. lia.
  - done.
  - exists m', d'. split; [|split; [by eapply (imports_cons lower E 0)|split; [done|congruence]]].
    cbn [map import_loop]. change (length (fields_of header_row) =? 7) with true. cbn [negb].
    assert (String.eqb (go_join "," (fields_of header_row)) header = true) as -> by (vm_compute; reflexivity). cbn [andb negb].
    change (0 =? 0) with true. cbn [andb]. unfold mbind, M_bind. change (2 * 0) with 0. change (0 + 1) with 1. rewrite E1. exact E2.
Qed.

(** ** What the result looks like *)
Lemma imports_old lower E i rs m m' : imports lower E i rs m m' →
  ∀ u b, m !! u = Some b → (∀ j, i ≤ j → e_uuid (E (2 * j)) ≠ u) → m' !! u = Some b.
Proof.
  induction 1 as [i m|i r rs m n m' Hn _ IH]; intros u b Hb Hu; [done|].
  apply IH; [|intros j Hj; apply Hu; lia]. rewrite lookup_insert_ne; [done|]. apply Hu. lia.
Qed.
Lemma imports_size lower E i rs m m' : imports lower E i rs m m' →
  (∀ j, i ≤ j → m !! e_uuid (E (2 * j)) = None) → (∀ j k, e_uuid (E (2 * j)) = e_uuid (E (2 * k)) → j = k) → size m' = size m + length rs.
Proof.
  induction 1 as [i m|i r rs m n m' Hn _ IH]; intros Hu Hd; [simpl; lia|].
  rewrite IH; [|intros j Hj; rewrite lookup_insert_ne; [apply Hu; lia|intros Heq; apply Hd in Heq; lia]|done].
  rewrite map_size_insert_None by (apply Hu; lia). cbn [length]. lia.
Qed.
Lemma imports_each lower E i rs m m' : imports lower E i rs m m' → (∀ j k, e_uuid (E (2 * j)) = e_uuid (E (2 * k)) → j = k) →
  ∀ k r, rs !! k = Some r → ∃ c, m' !! e_uuid (E (2 * (i + k))) = Some (imported lower (E (2 * (i + k))) (base_name lower r +:+ ones c) r).
Proof.
  induction 1 as [i m|i r0 rs m n m' Hn Him IH]; intros Hd k r Hk; [done|]. destruct k as [|k].
  - injection Hk as ->. destruct Hn as (c & -> & _). exists c. rewrite Nat.add_0_r.
    eapply imports_old; [exact Him|apply lookup_insert|]. intros j Hj Heq. apply Hd in Heq. lia.
  - destruct (IH Hd k r Hk) as [c Hc]. exists c. by rewrite <-Nat.add_succ_comm.
Qed.
Lemma imports_unique lower E i rs m m' : imports lower E i rs m m' → well_named m → well_named m'.
Proof.
  induction 1 as [i m|i r rs m n m' Hn _ IH]; intros Hw; [done|]. apply IH. eapply well_named_fresh; [done|by destruct Hn as (k & _ & _ & Hfree)|].
  apply imported_name.
Qed.
