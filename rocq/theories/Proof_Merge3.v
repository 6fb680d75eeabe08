(** Consequences: conflicts, answers, convergence. *)
From Verif Require Export Proof_Merge2.
From Coq Require Import Lia ZifyBool ZifyNat.
From stdpp Require Import options.

(** ** Logs start with an add *)
Lemma replayable_head x l : replayable (x :: l) → known_kinds (x :: l) → tx_kind x = "add".
Proof.
  intros [m Hr] Hk. inversion Hr as [|m1 t m2 lg m3 Hst _]; subst.
  specialize (Hk x (elem_of_list_here _ _)).
  inversion Hst; subst; simpl in *; try done; try (by rewrite lookup_empty in *). naive_solver.
Qed.

Lemma valid_head_add l x : valid_log l → head l = Some x → tx_kind x = "add".
Proof. destruct l as [|y l]; [done|]. intros (_ & Hr & Hk) [= ->]. by eapply replayable_head. Qed.

Lemma compatible_sym a b : compatible a b → compatible b a.
Proof.
  intros [H1 H2]. split; [eapply time_ids_sub; [|exact H1]|eapply unique_adds_sub; [|exact H2]];
    intros x; rewrite !elem_of_app; tauto.
Qed.

Lemma union_log_comm a b : time_sorted a → time_sorted b → time_ids (a ++ b) → union_log a b = union_log b a.
Proof.
  intros Ha Hb Hid. assert (time_ids (b ++ a)) as Hid'.
  { eapply time_ids_sub; [|exact Hid]. intros x; rewrite !elem_of_app; tauto. }
  eapply (is_union_unique a b); [by apply union_log_is_union|].
  destruct (union_log_is_union b a) as [H1 H2]; auto. split; [done|]. intros x. rewrite H2. tauto.
Qed.

Lemma look_alike_sym a b : look_alike a b → look_alike b a.
Proof. intros (H1 & (x & y & ? & ? & ?) & (x' & y' & ? & ? & ?)). split; [done|]. split; [by exists y, x|by exists y', x']. Qed.

Lemma is_union_is_union_log a b c : time_sorted a → time_sorted b → time_ids (a ++ b) →
  is_union a b c → c = union_log a b.
Proof. intros. eapply is_union_unique; [done|]. by apply union_log_is_union. Qed.

(** ** Round one: no answers yet *)
Definition root_of (a b : list tx) : list conflict := root_conf [] a b.

Lemma root_conf_elem res a b k : k ∈ root_conf res a b →
  ∃ x y, head a = Some x ∧ head b = Some y ∧ tx_time x ≠ tx_time y ∧ k = mk_conflict ConflictKindRoot x y resolveNone.
Proof.
  unfold root_conf. destruct a as [|x a], b as [|y b]; try (intros H; by apply elem_of_nil in H).
  destruct (Z.eqb_spec (tx_time x) (tx_time y)) as [|Hne]; [intros H; by apply elem_of_nil in H|].
  intros Hk. exists x, y. split_and!; try done. repeat case_match; try (by apply elem_of_nil in Hk);
    by apply elem_of_list_singleton in Hk.
Qed.

Lemma root_of_nil a b : root_of a b = [] ↔ same_root a b.
Proof.
  unfold root_of, root_conf, same_root. destruct a as [|x a], b as [|y b]; try (split; [naive_solver|done]).
  destruct (Z.eqb_spec (tx_time x) (tx_time y)); simpl; split; try done; try naive_solver.
Qed.

Lemma in_union_kinds a b x : valid_log a → valid_log b → x ∈ union_log a b →
  tx_kind x = "add" ∨ tx_kind x = "del" ∨ tx_kind x = "setk" ∨ tx_kind x = "delk".
Proof. intros (_ & _ & Ha) (_ & _ & Hb) [?|?]%union_log_elem; auto. Qed.

Lemma root_conf_not_delete a b res k d :
  valid_log a → valid_log b → compatible a b → k ∈ root_conf res a b → d ∈ union_log a b → tx_kind d = "del" →
  tx_time (cf_initial k) ≠ tx_time d.
Proof.
  intros Ha Hb [Hid _] (x & y & Hx & Hy & _ & ->)%root_conf_elem Hd Hk. simpl. intros Ht.
  assert (x = d) as ->.
  { apply Hid; auto.
    - apply elem_of_app; left. destruct a; [done|]. simplify_eq/=. by left.
    - apply elem_of_app. by apply union_log_elem. }
  rewrite (valid_head_add a d Ha Hx) in Hk. done.
Qed.

Lemma Merge_first_round a b :
  valid_log a → valid_log b → compatible a b → ¬ look_alike a b → ¬ (a = [] ∧ b = []) →
  ∃ conf, (∀ k, k ∈ conf ↔ ∃ d x, edit_after_delete (union_log a b) d x ∧ k = ds_conf d x) ∧
    NoDup (cf_initial <$> conf) ∧
    TxMerge a b [] = mresult_of (Some (union_log a b, root_of a b ++ conf)).
Proof.
  intros Ha Hb Hc Hl Hne.
  rewrite TxMerge_scan by (done || (intros r Hr; by apply elem_of_nil in Hr)).
  fold (root_of a b).
  destruct (scan_nil (union_log a b) [] ∅ (root_of a b) []) as (conf & Hscan & Hconf & Hnd).
  - simpl. apply union_log_sorted; [apply Ha|apply Hb].
  - apply Dinv_nil.
  - intros k. split; [intros Hk; by apply elem_of_nil in Hk|].
    intros (d & x & ((Hd & _) & _) & _). by apply elem_of_nil in Hd.
  - constructor.
  - intros k d Hk Hd Hdk. exact (root_conf_not_delete a b [] k d Ha Hb Hc Hk Hd Hdk).
  - exists conf. rewrite app_nil_r in Hscan. rewrite Hscan. done.
Qed.

(** ** Scanning with answers: no crash, and what can be reported *)
Definition sane_answers (res : list conflict) (c : list tx) : Prop :=
  ∀ d r, d ∈ c → tx_kind d = "del" → r ∈ res → tx_time (cf_initial r) = tx_time d →
    cf_res r = resolveDiscardInitial ∨ cf_res r = resolveDiscardConflict.

Lemma res_find_elem res t r : res_find res t = Some r → ∃ k, k ∈ res ∧ tx_time (cf_initial k) = t ∧ cf_res k = r.
Proof.
  induction res as [|k res IH]; [done|]. simpl. destruct (Z.eqb_spec (tx_time (cf_initial k)) t).
  - intros [= <-]. exists k. split; [by left|]. done.
  - intros (k' & ? & ?)%IH. exists k'. split; [by right|]. done.
Qed.

Lemma res_find_None res t : res_find res t = None ↔ ∀ k, k ∈ res → tx_time (cf_initial k) ≠ t.
Proof.
  induction res as [|k res IH]; simpl.
  - split; [|done]. intros _ k Hk. by apply elem_of_nil in Hk.
  - destruct (Z.eqb_spec (tx_time (cf_initial k)) t) as [He|He].
    + split; [done|]. intros H. exfalso. apply (H k); [by left|done].
    + rewrite IH. split; [|intros H k' Hk'; apply H; by right].
      intros H k' [->|Hk']%elem_of_cons; auto.
Qed.

Lemma res_find_discard res t : res_find res t = Some resolveDiscardInitial → res_discard_initial res t = true.
Proof.
  induction res as [|k res IH]; [done|]. simpl. destruct (tx_time (cf_initial k) =? t)%Z; [|done].
  intros [= ->]. done.
Qed.

Lemma res_discard_elem res t : res_discard_initial res t = true ↔
  ∃ k, k ∈ res ∧ tx_time (cf_initial k) = t ∧ cf_res k = resolveDiscardInitial.
Proof.
  induction res as [|k res IH]; simpl.
  - split; [done|]. intros (k & Hk & _). by apply elem_of_nil in Hk.
  - destruct (Z.eqb_spec (tx_time (cf_initial k)) t) as [He|He].
    + destruct (cf_res k) eqn:Er; (split; [|intros (k' & [->|Hk']%elem_of_cons & ? & ?)]); try congruence; try done;
        try (rewrite IH; intros (k' & ? & ?); exists k'; split; [by right|done]);
        try (apply IH; by exists k').
      intros _. exists k. split; [by left|done].
    + rewrite IH. split; intros (k' & Hk' & ? & ?); exists k'.
      * split; [by right|done].
      * apply elem_of_cons in Hk' as [->|Hk']; done.
Qed.

Lemma scan_total res l : ∀ D conf c,
  sane_answers res c → (∀ x, x ∈ l → x ∈ c) →
  (∀ u d, D !! u = Some d → d ∈ c ∧ tx_kind d = "del" ∧ tx_uuid d = u ∧ res_discard_initial res (tx_time d) = false ∧
     ∀ x, x ∈ l → earlier d x) →
  time_sorted l →
  ∃ k cf, scan res l D conf = Some (k, conf ++ cf) ∧
    ∀ q, q ∈ cf → ∃ d x, q = ds_conf d x ∧ d ∈ c ∧ x ∈ l ∧ tx_kind d = "del" ∧ tx_uuid x = tx_uuid d ∧ earlier d x.
Proof.
  induction l as [|x l IH]; intros D conf c Hsane Hl HD Hs.
  - exists [], []. rewrite app_nil_r. split; [done|]. intros q Hq. by apply elem_of_nil in Hq.
  - apply time_sorted_cons in Hs as [Hxl Hs].
    assert (∀ y, y ∈ l → y ∈ c) as Hl' by (intros; apply Hl; by right).
    assert (∀ u d, D !! u = Some d → d ∈ c ∧ tx_kind d = "del" ∧ tx_uuid d = u ∧ res_discard_initial res (tx_time d) = false ∧
     ∀ x, x ∈ l → earlier d x) as HD'.
    { intros u d (?&?&?&?&He)%HD. split_and!; auto. intros. apply He. by right. }
    assert (∀ cf : list conflict, (∀ q, q ∈ cf → ∃ d y, q = ds_conf d y ∧ d ∈ c ∧ y ∈ l ∧ tx_kind d = "del" ∧ tx_uuid y = tx_uuid d ∧ earlier d y) →
        ∀ q, q ∈ cf → ∃ d y, q = ds_conf d y ∧ d ∈ c ∧ y ∈ x :: l ∧ tx_kind d = "del" ∧ tx_uuid y = tx_uuid d ∧ earlier d y) as Hweak.
    { intros cf H q (d & y & ? & ? & ? & ? & ? & ?)%H. exists d, y. split_and!; auto. by right. }
    simpl scan. destruct (D !! tx_uuid x) as [d|] eqn:Ed.
    + pose proof (HD _ _ Ed) as (Hd & Hk & Hu & Hdi & He).
      destruct (res_find res (tx_time d)) as [r|] eqn:Er.
      * assert (r = resolveDiscardConflict) as ->.
        { pose proof Er as (k & Hkr & Ht & <-)%res_find_elem.
          destruct (Hsane d k Hd Hk Hkr Ht) as [Hri|]; [|done].
          rewrite Hri in Er. apply res_find_discard in Er. congruence. }
        destruct (IH D conf c) as (k & cf & Hscan & Hcf); auto. exists k, cf. split; [done|by apply Hweak].
      * cbv zeta. destruct (conf_noted conf (tx_time d)).
        -- destruct (IH D conf c) as (k & cf & Hscan & Hcf); auto. exists (x :: k), cf. rewrite Hscan. split; [done|by apply Hweak].
        -- destruct (IH D (conf ++ [ds_conf d x]) c) as (k & cf & Hscan & Hcf); auto.
           exists (x :: k), (ds_conf d x :: cf). unfold ds_conf in *. rewrite Hscan, <-app_assoc. split; [done|].
           intros q [->|Hq]%elem_of_cons; [|by apply (Hweak cf)].
           exists d, x. split_and!; auto; [by left|apply He; by left].
    + destruct (String.eqb_spec (tx_kind x) TxDelete) as [Hk|Hk]; simpl.
      * destruct (res_discard_initial res (tx_time x)) eqn:Edi.
        -- destruct (IH D conf c) as (k & cf & Hscan & Hcf); auto. exists k, cf. split; [done|by apply Hweak].
        -- destruct (IH (<[tx_uuid x := x]> D) conf c) as (k & cf & Hscan & Hcf); auto.
           { intros u d. destruct (decide (tx_uuid x = u)) as [<-|Hne].
             - rewrite lookup_insert. intros [= <-]. split_and!; auto. apply Hl. by left.
             - rewrite lookup_insert_ne by done. auto. }
           exists (x :: k), cf. rewrite Hscan. split; [done|by apply Hweak].
      * destruct (IH D conf c) as (k & cf & Hscan & Hcf); auto. exists (x :: k), cf. rewrite Hscan. split; [done|by apply Hweak].
Qed.

(** ** Scanning with an answer for every conflict *)
(** The answers in [res] are the choices [f] for exactly the deletes that
    something follows, and nothing else that matters. *)
Definition answers_for (f : tx → resolution) (res : list conflict) (c : list tx) : Prop :=
  ∀ d, d ∈ c → tx_kind d = "del" →
    (conflicting_delete c d → res_find res (tx_time d) = Some (f d)) ∧
    (res_discard_initial res (tx_time d) = true ↔ conflicting_delete c d ∧ f d = resolveDiscardInitial).

Definition not_restored (f : tx → resolution) (c : list tx) (d : tx) : Prop :=
  ¬ (conflicting_delete c d ∧ f d = resolveDiscardInitial).
#[global] Instance not_restored_dec f c d : Decision (not_restored f c d).
Proof. unfold not_restored. apply _. Defined.

Lemma sorted_filter (P : tx → Prop) `{!∀ x, Decision (P x)} l : time_sorted l → time_sorted (filter P l).
Proof.
  induction l as [|x l IH]; [done|]. rewrite time_sorted_cons. intros [H1 H2].
  destruct (decide (P x)); [rewrite filter_cons_True by done|rewrite filter_cons_False by done]; auto.
  apply time_sorted_cons. split; [|auto]. intros y [_ Hy]%elem_of_list_filter. auto.
Qed.

Lemma scan_answered f res l : ∀ p D conf,
  time_sorted (p ++ l) → two_choices f → answers_for f res (p ++ l) →
  Dinv (filter (not_restored f (p ++ l)) p) D →
  scan res l D conf = Some (filter (kept_by f (p ++ l)) l, conf).
Proof.
  induction l as [|x l IH]; intros p D conf Hs H2 Hans HD; [done|].
  pose proof (sorted_prefix _ _ _ Hs) as Hsp.
  remember (p ++ x :: l) as c eqn:Ec.
  assert (c = (p ++ [x]) ++ l) as Ec' by (by rewrite <-app_assoc).
  assert (x ∈ c) as Hxc by (subst c; apply elem_of_app; right; by left).
  assert (∀ y, y ∈ p → earlier y x) as Hpx.
  { intros y Hy. apply time_sorted_app in Hsp as (_ & _ & He). apply He; [done|by left]. }
  assert (∀ y, y ∈ p → y ∈ c) as Hpc by (intros; subst c; apply elem_of_app; by left).
  assert (∀ y, y ∈ c → earlier y x → y ∈ p) as Hpx'.
  { intros y Hy He. rewrite Ec in Hy. apply elem_of_app in Hy as [|[->|Hy]%elem_of_cons]; [done| |].
    - unfold earlier in He; lia.
    - rewrite Ec in Hs. apply time_sorted_app in Hs as (_ & Hs & _). apply time_sorted_cons in Hs as [Hs _].
      specialize (Hs y Hy). unfold earlier in *. lia. }
  assert (not_restored f c x → time_sorted (filter (not_restored f c) p ++ [x])) as Hsf.
  { intros HR. apply (sorted_filter (not_restored f c)) in Hsp. rewrite filter_app in Hsp.
    by rewrite (filter_cons_True _ x []) in Hsp. }
  specialize (IH (p ++ [x])). rewrite <-Ec', filter_app in IH.
  assert (D !! tx_uuid x = None →
      ¬ ∃ d, d ∈ c ∧ tx_kind d = "del" ∧ tx_uuid d = tx_uuid x ∧ earlier d x ∧ f d = resolveDiscardConflict) as Hnone.
  { intros Hnone (d & Hd & Hdk & Hdu & He & Hf).
    apply (Dinv_None _ D _ HD Hnone d); auto. apply elem_of_list_filter. split; [|auto].
    intros [_ ?]. congruence. }
  cbn [scan].
  destruct (D !! tx_uuid x) as [d|] eqn:Ed.
  - pose proof Ed as Ed'. apply HD in Ed as [(Hd & Hk & _) Hu]. apply elem_of_list_filter in Hd as [HR Hd].
    assert (conflicting_delete c d) as Hcd by (split; [done|]; exists x; auto).
    destruct (Hans d) as [Hrf _]; auto. rewrite (Hrf Hcd).
    assert (f d = resolveDiscardConflict) as Hfdc.
    { destruct (H2 d); [|done]. exfalso. by apply HR. }
    rewrite Hfdc. rewrite filter_cons_False.
    2: { intros [_ Hno]. apply Hno. exists d. split_and!; auto. }
    apply IH; auto.
    destruct (decide (not_restored f c x)) as [HRx|HRx].
    + rewrite (filter_cons_True _ x []) by done. apply Dinv_keep; auto. right. by rewrite Ed'.
    + rewrite (filter_cons_False _ x []) by done. by rewrite filter_nil, app_nil_r.
  - destruct (String.eqb_spec (tx_kind x) TxDelete) as [Hk|Hk]; cbn [negb].
    + destruct (Hans x Hxc Hk) as [_ Hdi].
      destruct (res_discard_initial res (tx_time x)) eqn:Edi.
      * destruct Hdi as [Hdi _]. destruct (Hdi eq_refl) as (Hcx & Hf).
        rewrite filter_cons_False by (intros [Hno _]; by apply Hno).
        apply IH; auto. rewrite (filter_cons_False _ x []) by (intros HR; by apply HR).
        by rewrite filter_nil, app_nil_r.
      * assert (not_restored f c x) as HRx.
        { intros H. destruct Hdi as [_ Hdi]. discriminate (Hdi H). }
        rewrite filter_cons_True by (split; [done|by apply Hnone]).
        erewrite IH; auto. rewrite (filter_cons_True _ x []) by done. apply Dinv_insert; auto.
    + assert (not_restored f c x) as HRx by (intros [[? _] _]; done).
      rewrite filter_cons_True by (split; [done|by apply Hnone]).
      erewrite IH; auto. rewrite (filter_cons_True _ x []) by done. apply Dinv_keep; auto.
Qed.

(** In a union of two valid logs nothing follows a second delete. *)
Lemma union_conflicting_first a b d :
  valid_log a → valid_log b → compatible a b → d ∈ union_log a b →
  conflicting_delete (union_log a b) d → first_delete (union_log a b) d.
Proof.
  intros Ha Hb Hc Hd (Hk & x & Hx & Hu & He).
  pose proof (valid_conflict_free _ Ha (compatible_sub_l _ _ Hc)) as HcfA.
  pose proof (valid_conflict_free _ Hb (compatible_sub_r _ _ Hc)) as HcfB.
  split; [done|]. split; [done|]. intros d' Hd' Hk' Hu'.
  destruct (Z.le_gt_cases (tx_time d) (tx_time d')) as [|Hlt]; [done|exfalso].
  assert (earlier d' d) by (unfold earlier; lia).
  assert (earlier d' x) by (unfold earlier in *; lia).
  apply union_log_elem in Hd as [Hd|Hd], Hd' as [Hd'|Hd'], Hx as [Hx|Hx].
  - by apply (HcfA d' d).
  - by apply (HcfA d' d).
  - by apply (HcfA d x).
  - by apply (HcfB d' x); congruence.
  - by apply (HcfA d' x); congruence.
  - by apply (HcfB d x).
  - by apply (HcfB d' d).
  - by apply (HcfB d' d).
Qed.

Lemma union_conflicting_not_common a b d :
  valid_log a → valid_log b → compatible a b →
  conflicting_delete (union_log a b) d → d ∈ a → d ∈ b → False.
Proof.
  intros Ha Hb Hc (Hk & x & Hx & Hu & He) Hda Hdb.
  apply union_log_elem in Hx as [Hx|Hx].
  - by apply (valid_conflict_free _ Ha (compatible_sub_l _ _ Hc) d x).
  - by apply (valid_conflict_free _ Hb (compatible_sub_r _ _ Hc) d x).
Qed.

Lemma Merge_conflicts_not_alike a b res cs : TxMerge a b res = Ok (Conflicts cs) → (∀ r, r ∈ res → cf_res r ≠ resolveNone) →
  ¬ look_alike a b ∧ ¬ (a = [] ∧ b = []).
Proof.
  intros HM Hres. unfold TxMerge in HM. destruct (existsb _ res) eqn:Ee.
  { apply existsb_exists in Ee as (r & Hr & Hn). apply elem_of_list_In in Hr. apply Hres in Hr. by destruct (cf_res r). }
  destruct (merge_fast_cases a b) as [(Hf & -> & ->)|[(Hf & ?)|(Hf & Hl)]]; rewrite Hf in HM; try done.
  split; [done|]. intros [-> ->]. done.
Qed.

Lemma answer_initial f k : cf_initial (answer f k) = cf_initial k.
Proof. unfold answer. by destruct (cf_kind k). Qed.

Lemma answers_first_round a b f conf :
  valid_log a → valid_log b → compatible a b →
  (∀ k, k ∈ conf ↔ ∃ d x, edit_after_delete (union_log a b) d x ∧ k = ds_conf d x) →
  answers_for f (answer f <$> (root_of a b ++ conf)) (union_log a b).
Proof.
  intros Ha Hb Hc Hconf d Hd Hk.
  assert (Hsu : time_sorted (union_log a b)) by (apply union_log_sorted; [apply Ha|apply Hb]).
  assert (∀ k, k ∈ answer f <$> (root_of a b ++ conf) → tx_time (cf_initial k) = tx_time d →
     conflicting_delete (union_log a b) d ∧ cf_res k = f d) as Hin.
  { intros k (k0 & -> & Hk0)%elem_of_list_fmap. rewrite answer_initial. intros Ht.
    apply elem_of_app in Hk0 as [Hk0|Hk0].
    - exfalso. exact (root_conf_not_delete a b [] k0 d Ha Hb Hc Hk0 Hd Hk Ht).
    - apply Hconf in Hk0 as (d0 & x0 & He & ->). simpl in Ht.
      assert (d0 = d) as ->. { apply (time_sorted_ids _ Hsu); auto. apply He. }
      split; [|done]. split; [done|]. exists x0. split_and!; apply He. }
  assert (conflicting_delete (union_log a b) d → ∃ k, k ∈ answer f <$> (root_of a b ++ conf) ∧
      tx_time (cf_initial k) = tx_time d) as Hex.
  { intros Hcd. pose proof (union_conflicting_first a b d Ha Hb Hc Hd Hcd) as Hfd.
    destruct Hcd as (_ & x & Hx & Hu & He).
    destruct (exists_first_edit _ d x Hfd Hx Hu He) as [y Hy].
    exists (answer f (ds_conf d y)). split; [|by rewrite answer_initial].
    apply elem_of_list_fmap. exists (ds_conf d y). split; [done|]. apply elem_of_app; right.
    apply Hconf. eauto. }
  split.
  - intros Hcd. destruct (res_find _ (tx_time d)) as [r|] eqn:Er.
    + apply res_find_elem in Er as (k & Hkin & Ht & <-). f_equal. by apply Hin.
    + exfalso. destruct (Hex Hcd) as (k & Hkin & Ht). rewrite res_find_None in Er. by apply (Er k).
  - rewrite res_discard_elem. split.
    + intros (k & Hkin & Ht & Hr). destruct (Hin k Hkin Ht) as [? Heq]. split; [done|congruence].
    + intros [Hcd Hf]. destruct (Hex Hcd) as (k & Hkin & Ht). destruct (Hin k Hkin Ht) as [? Heq].
      exists k. split_and!; auto. congruence.
Qed.

Lemma Merge_answered_log a b f cs :
  valid_log a → valid_log b → compatible a b → two_choices f →
  TxMerge a b [] = Ok (Conflicts cs) →
  TxMerge a b (answer f <$> cs) = Ok (Merged (filter (kept_by f (union_log a b)) (union_log a b))).
Proof.
  intros Ha Hb Hc H2 HM.
  destruct (Merge_conflicts_not_alike a b [] cs HM) as [Hl Hne]; [intros r Hr; by apply elem_of_nil in Hr|].
  destruct (Merge_first_round a b Ha Hb Hc Hl Hne) as (conf & Hconf & Hnd & HM').
  rewrite HM in HM'. unfold mresult_of in HM'.
  assert (cs = root_of a b ++ conf) as ->. { case_match; by simplify_eq. }
  pose proof (answers_first_round a b f conf Ha Hb Hc Hconf) as Hans.
  rewrite TxMerge_scan; auto.
  - replace (root_conf (answer f <$> (root_of a b ++ conf)) a b) with (@nil conflict).
    + rewrite (scan_answered f _ (union_log a b) []); auto.
      * simpl. apply union_log_sorted; [apply Ha|apply Hb].
      * simpl. apply Dinv_nil.
    + unfold root_of, root_conf in *. destruct a as [|x a], b as [|y b]; try done.
      destruct (tx_time x =? tx_time y)%Z; done.
  - intros r (k & -> & Hk)%elem_of_list_fmap. unfold answer. destruct (cf_kind k); simpl; [|done].
    destruct (H2 (cf_initial k)) as [-> | ->]; done.
  - intros x Hxa Hxb Hk. apply not_true_is_false. intros Hdi.
    assert (x ∈ union_log a b) as Hx by (apply union_log_complete; [apply Hc|by left]).
    destruct (Hans x Hx Hk) as [_ [Hcd _]]. destruct (Hcd Hdi) as [Hcd' _].
    by apply (union_conflicting_not_common a b x).
Qed.

Lemma Merge_answered a b c f cs :
  valid_log a → valid_log b → compatible a b → is_union a b c → two_choices f →
  TxMerge a b [] = Ok (Conflicts cs) →
  TxMerge a b (answer f <$> cs) = Ok (Merged (filter (kept_by f c) c)).
Proof.
  intros Ha Hb Hc Hu. rewrite (is_union_is_union_log a b c) by (apply Ha || apply Hb || apply Hc || done).
  by apply Merge_answered_log.
Qed.

(** ** What the merged log replays to *)
Lemma union_has_add a b x :
  valid_log a → valid_log b → compatible a b → x ∈ union_log a b → tx_kind x ≠ "add" →
  ∃ y, y ∈ union_log a b ∧ tx_kind y = "add" ∧ tx_uuid y = tx_uuid x ∧ earlier y x.
Proof.
  intros Ha Hb Hc Hx Hk. apply union_log_elem in Hx as [Hx|Hx].
  - destruct (valid_wf a Ha (compatible_sub_l _ _ Hc) x Hx Hk) as [(y & ? & ? & ? & ?) _].
    exists y. split_and!; auto. apply union_log_complete; [apply Hc|auto].
  - destruct (valid_wf b Hb (compatible_sub_r _ _ Hc) x Hx Hk) as [(y & ? & ? & ? & ?) _].
    exists y. split_and!; auto. apply union_log_complete; [apply Hc|auto].
Qed.

Lemma union_unique_adds a b : compatible a b → unique_adds (union_log a b).
Proof. intros [_ H]. eapply unique_adds_sub; [|exact H]. intros x Hx. apply elem_of_app. by apply union_log_elem. Qed.
Lemma union_known_kinds a b : valid_log a → valid_log b → known_kinds (union_log a b).
Proof. intros Ha Hb x Hx. exact (in_union_kinds a b x Ha Hb Hx). Qed.

(** an add is never after a delete of the same entry *)
Lemma union_add_not_after a b d x :
  valid_log a → valid_log b → compatible a b → d ∈ union_log a b → x ∈ union_log a b →
  tx_kind d = "del" → tx_kind x = "add" → tx_uuid d = tx_uuid x → ¬ earlier d x.
Proof.
  intros Ha Hb Hc Hd Hx Hk Hkx Hu He.
  destruct (union_has_add a b d Ha Hb Hc Hd) as (y & Hy & Hyk & Hyu & Hye); [by rewrite Hk|].
  assert (y = x) as -> by (apply (union_unique_adds a b Hc); auto; congruence). unfold earlier in *. lia.
Qed.

Lemma Merge_clean_replayable a b :
  valid_log a → valid_log b → compatible a b → conflict_free (union_log a b) → valid_log (union_log a b).
Proof.
  intros Ha Hb Hc Hcf.
  assert (time_sorted (union_log a b)) as Hs by (apply union_log_sorted; [apply Ha|apply Hb]).
  pose proof (union_known_kinds a b Ha Hb) as Hkk.
  split; [done|]. split; [|done]. apply replayable_wf; auto; [by apply union_unique_adds|].
  intros x Hx Hk. split; [by apply union_has_add|]. intros d Hd Hdk Hdu. apply (Hcf d x); auto.
Qed.

Lemma kept_valid a b f : valid_log a → valid_log b → compatible a b → two_choices f →
  valid_log (filter (kept_by f (union_log a b)) (union_log a b)).
Proof.
  intros Ha Hb Hc H2. set (c := union_log a b).
  assert (time_sorted c) as Hs by (apply union_log_sorted; [apply Ha|apply Hb]).
  assert (∀ x, x ∈ filter (kept_by f c) c → x ∈ c) as Hsub by (intros x [_ ?]%elem_of_list_filter; done).
  assert (known_kinds (filter (kept_by f c) c)) as Hkk.
  { eapply known_kinds_sub; [exact Hsub|]. by apply union_known_kinds. }
  assert (time_sorted (filter (kept_by f c) c)) as Hsf by (by apply sorted_filter).
  split; [done|]. split; [|done]. apply replayable_wf; auto.
  { eapply unique_adds_sub; [exact Hsub|]. by apply union_unique_adds. }
  intros x Hx Hk. pose proof (Hsub x Hx) as Hxc. split.
  - destruct (union_has_add a b x Ha Hb Hc Hxc Hk) as (y & Hy & Hyk & Hyu & Hye).
    exists y. split_and!; auto. apply elem_of_list_filter. split; [|done]. split.
    + intros [[Hyd _] _]. congruence.
    + intros (d & Hd & Hdk & Hdu & Hde & _). exact (union_add_not_after a b d y Ha Hb Hc Hd Hy Hdk Hyk Hdu Hde).
  - intros d [[Hd1 Hd2] Hdc]%elem_of_list_filter Hdk Hdu He.
    apply elem_of_list_filter in Hx as [[_ Hx2] _].
    destruct (H2 d) as [Hf|Hf].
    + apply Hd1. split; [|done]. split; [done|]. exists x. auto.
    + apply Hx2. exists d. auto.
Qed.

(** ** Results used by the property file *)
Lemma Merge_conflicts_exact a b c cs :
  valid_log a → valid_log b → compatible a b → is_union a b c →
  TxMerge a b [] = Ok (Conflicts cs) →
  (∀ k, k ∈ cs → cf_kind k = ConflictKindDeleteSet ∨ cf_kind k = ConflictKindRoot ∧ ¬ same_root a b) ∧
  (∀ d x, mk_conflict ConflictKindDeleteSet d x resolveNone ∈ cs ↔ edit_after_delete c d x) ∧
  (∀ k, k ∈ cs → cf_res k = resolveNone) ∧
  NoDup cs.
Proof.
  intros Ha Hb Hc Hu HM.
  rewrite (is_union_is_union_log a b c) by (apply Ha || apply Hb || apply Hc || done).
  destruct (Merge_conflicts_not_alike a b [] cs HM) as [Hl Hne]; [intros r Hr; by apply elem_of_nil in Hr|].
  destruct (Merge_first_round a b Ha Hb Hc Hl Hne) as (conf & Hconf & Hnd & HM').
  rewrite HM in HM'. unfold mresult_of in HM'.
  assert (cs = root_of a b ++ conf) as ->. { case_match; by simplify_eq. }
  assert (∀ k, k ∈ root_of a b → cf_kind k = ConflictKindRoot ∧ ¬ same_root a b ∧ cf_res k = resolveNone) as Hroot.
  { intros k (x & y & Hx & Hy & Ht & ->)%root_conf_elem. split_and!; try done. intros Hs. apply Ht. by apply Hs. }
  assert (∀ k, k ∈ conf → cf_kind k = ConflictKindDeleteSet ∧ cf_res k = resolveNone) as Hds.
  { intros k (d & x & _ & ->)%Hconf. done. }
  split_and!.
  - intros k [Hk|Hk]%elem_of_app; [apply Hroot in Hk|apply Hds in Hk]; naive_solver.
  - intros d x. rewrite elem_of_app. split.
    + intros [Hk|Hk]; [apply Hroot in Hk as [? _]; done|]. apply Hconf in Hk as (d' & x' & ? & [= <- <-]). done.
    + intros He. right. apply Hconf. eauto.
  - intros k [Hk|Hk]%elem_of_app; [apply Hroot in Hk|apply Hds in Hk]; naive_solver.
  - apply NoDup_app. split_and!.
    + unfold root_of, root_conf. repeat case_match; try apply NoDup_singleton; constructor.
    + intros k Hk1 Hk2. apply Hroot in Hk1 as [? _]. apply Hds in Hk2 as [? _]. congruence.
    + by apply NoDup_fmap_1 in Hnd.
Qed.

Lemma Merge_merged_iff a b c :
  valid_log a → valid_log b → compatible a b → no_impostor a b → ¬ (a = [] ∧ b = []) →
  TxMerge a b [] = Ok (Merged c) ↔ is_union a b c ∧ conflict_free c ∧ same_root a b.
Proof.
  intros Ha Hb Hc Hni Hne.
  assert (Hus : is_union a b (union_log a b)) by (apply union_log_is_union; apply Ha || apply Hb || apply Hc).
  destruct (decide (a = b)) as [->|Hab].
  - assert (TxMerge b b [] = Ok (Merged b)) as HM.
    { unfold TxMerge; simpl. destruct (merge_fast_cases b b) as [(_ & -> & _)|[(-> & _)|(_ & Hl)]]; [tauto|done|].
      exfalso. apply Hl. destruct b as [|x b]; [tauto|]. split; [done|]. split; [by exists x, x|].
      destruct (last (x :: b)) as [y|] eqn:El; [by exists y, y|by apply last_None in El]. }
    rewrite union_log_self in Hus. rewrite HM. split.
    + intros [= <-]. split; [done|]. split; [|intros x y ? ?; congruence].
      apply (valid_conflict_free b Hb). exact (compatible_sub_r b b Hc).
    + intros (Hu & _). rewrite (is_union_unique _ _ _ _ Hu Hus). done.
  - assert (¬ look_alike a b) as Hl by (intros Hl; by apply Hab, Hni).
    destruct (Merge_first_round a b Ha Hb Hc Hl Hne) as (conf & Hconf & Hnd & HM'). rewrite HM'.
    assert (conf = [] ↔ conflict_free (union_log a b)) as Hcf.
    { split.
      - intros -> d x Hd Hx Hk Hu He. destruct (exists_first_delete _ d Hd Hk) as (d' & Hd' & Hu').
        assert (earlier d' x) as He'.
        { destruct Hd' as (_ & _ & Hm). specialize (Hm d Hd Hk (eq_sym Hu')). unfold earlier in *. lia. }
        destruct (exists_first_edit _ d' x Hd' Hx) as [y Hy]; [congruence|done|].
        assert (ds_conf d' y ∈ []) as Hin by (apply Hconf; eauto). by apply elem_of_nil in Hin.
      - intros Hcf. destruct conf as [|k conf]; [done|].
        destruct (proj1 (Hconf k) (elem_of_list_here _ _)) as (d & x & (Hd & Hx & Hu & He & _) & _).
        exfalso. apply (Hcf d x); auto; apply Hd. }
    unfold mresult_of. split.
    + intros HM. assert (root_of a b = [] ∧ conf = [] ∧ c = union_log a b) as (Hr & Hcn & ->).
      { destruct (root_of a b) as [|k r]; [destruct conf; by simplify_eq/=|by simplify_eq/=]. }
      split; [done|]. split; [by apply Hcf|by apply root_of_nil].
    + intros (Hu & Hcf' & Hr). rewrite (is_union_unique _ _ _ _ Hu Hus) in *.
      apply root_of_nil in Hr. apply Hcf in Hcf'. by rewrite Hr, Hcf'.
Qed.

Lemma no_impostor_sym a b : no_impostor a b → no_impostor b a.
Proof. intros H Hl. symmetry. apply H. by apply look_alike_sym. Qed.
Lemma is_union_sym a b c : is_union a b c → is_union b a c.
Proof. intros [? H]. split; [done|]. intros x. rewrite H. tauto. Qed.
Lemma same_root_sym a b : same_root a b → same_root b a.
Proof. intros H x y Hx Hy. symmetry. by apply H. Qed.

Lemma Merge_comm a b c :
  valid_log a → valid_log b → compatible a b → no_impostor a b →
  TxMerge a b [] = Ok (Merged c) → TxMerge b a [] = Ok (Merged c).
Proof.
  intros Ha Hb Hc Hni HM.
  assert (¬ (a = [] ∧ b = [])) as Hne by (intros [-> ->]; done).
  apply Merge_merged_iff in HM as (Hu & Hcf & Hr); auto.
  apply Merge_merged_iff; auto using compatible_sym, no_impostor_sym, is_union_sym, same_root_sym. tauto.
Qed.

Lemma Merge_comm_answered a b f cs cs' :
  valid_log a → valid_log b → compatible a b → two_choices f →
  TxMerge a b [] = Ok (Conflicts cs) → TxMerge b a [] = Ok (Conflicts cs') →
  ∃ c, TxMerge a b (answer f <$> cs) = Ok (Merged c) ∧ TxMerge b a (answer f <$> cs') = Ok (Merged c).
Proof.
  intros Ha Hb Hc H2 HM HM'.
  rewrite (Merge_answered_log a b f cs), (Merge_answered_log b a f cs') by auto using compatible_sym.
  rewrite (union_log_comm a b) by (apply Ha || apply Hb || apply Hc). eauto.
Qed.

Lemma Merge_comm_conflicts a b cs :
  valid_log a → valid_log b → compatible a b → no_impostor a b →
  TxMerge a b [] = Ok (Conflicts cs) →
  ∃ cs', TxMerge b a [] = Ok (Conflicts cs') ∧
    ∀ k, cf_kind k = ConflictKindDeleteSet → k ∈ cs ↔ k ∈ cs'.
Proof.
  intros Ha Hb Hc Hni HM.
  assert (¬ (a = [] ∧ b = [])) as Hne by (intros [-> ->]; done).
  assert (¬ (b = [] ∧ a = [])) as Hne' by tauto.
  destruct (TxMerge b a []) as [[c|cs']|e|] eqn:HM'.
  - apply (Merge_comm b a c) in HM'; auto using compatible_sym, no_impostor_sym. congruence.
  - exists cs'. split; [done|]. intros k Hk.
    assert (Hus : is_union a b (union_log a b)) by (apply union_log_is_union; apply Ha || apply Hb || apply Hc).
    destruct (Merge_conflicts_exact a b _ cs Ha Hb Hc Hus HM) as (H1 & H2 & H3 & _).
    destruct (Merge_conflicts_exact b a _ cs' Hb Ha (compatible_sym _ _ Hc) (is_union_sym _ _ _ Hus) HM') as (H1' & H2' & H3' & _).
    destruct k as [kd d x r]. simpl in Hk. subst kd. split; intros Hin.
    + pose proof (H3 _ Hin) as Hr. simpl in Hr. subst r. apply H2', H2, Hin.
    + pose proof (H3' _ Hin) as Hr. simpl in Hr. subst r. apply H2, H2', Hin.
  - by apply Merge_nofail in HM'.
  - apply Merge_panic_iff in HM'. tauto.
Qed.

(** absorbing and grouping *)
Lemma valid_replayed_union a b c :
  valid_log a → valid_log b → compatible a b → no_impostor a b → TxMerge a b [] = Ok (Merged c) → valid_log c.
Proof.
  intros Ha Hb Hc Hni HM. assert (¬ (a = [] ∧ b = [])) as Hne by (intros [-> ->]; done).
  apply Merge_merged_iff in HM as (Hu & Hcf & Hr); auto.
  rewrite (is_union_is_union_log a b c) in * by (apply Ha || apply Hb || apply Hc || done).
  by apply Merge_clean_replayable.
Qed.

Lemma sorted_subset_length a c : time_sorted a → time_sorted c → (∀ x, x ∈ a → x ∈ c) → length a = length c → a = c.
Proof.
  intros Ha Hc Hsub Hl. apply time_sorted_unique; auto. intros x. split; [auto|]. intros Hx.
  assert (a ⊆+ c) as Hsm by (apply NoDup_submseteq; [by apply time_sorted_NoDup|done]).
  assert (a ≡ₚ c) as Hp by (by apply submseteq_Permutation_length_eq). by rewrite Hp.
Qed.

Lemma head_min a c x y : time_sorted a → time_sorted c → (∀ z, z ∈ a → z ∈ c) → head a = Some x → head c = Some y → (tx_time y ≤ tx_time x)%Z.
Proof.
  intros Ha Hc Hsub Hx Hy. destruct a as [|x' a]; [done|]. destruct c as [|y' c]; [done|]. simplify_eq/=.
  assert (x ∈ y :: c) as [->|Hin]%elem_of_cons by (apply Hsub; by left); [lia|].
  apply time_sorted_cons in Hc as [Hc _]. specialize (Hc x Hin). unfold earlier in Hc. lia.
Qed.

Lemma union_same_root a b c : time_sorted a → time_sorted b → is_union a b c → same_root a b → same_root c b ∧ same_root c a.
Proof.
  intros Ha Hb [Hs Hu] Hr.
  assert (∀ p q, time_sorted p → time_sorted q → (∀ x, x ∈ c ↔ x ∈ p ∨ x ∈ q) → same_root p q → same_root c q) as Hgen.
  { intros p q Hp Hq Hpq Hr' x y Hx Hy. 
    assert (tx_time x ≤ tx_time y)%Z by (apply (head_min q c); auto; intros; apply Hpq; by right).
    assert (x ∈ p ∨ x ∈ q) as [Hxp|Hxq].
    { apply Hpq. destruct c; [done|]. simplify_eq/=. by left. }
    - destruct p as [|z p]; [by apply elem_of_nil in Hxp|]. specialize (Hr' z y eq_refl Hy).
      apply elem_of_cons in Hxp as [->|Hxp]; [done|]. apply time_sorted_cons in Hp as [Hp _]. specialize (Hp x Hxp).
      unfold earlier in Hp. lia.
    - destruct q as [|z q]; [by apply elem_of_nil in Hxq|]. simplify_eq/=.
      apply elem_of_cons in Hxq as [->|Hxq]; [done|]. apply time_sorted_cons in Hq as [Hq _]. specialize (Hq x Hxq).
      unfold earlier in Hq. lia. }
  split; [by apply (Hgen a b)|]. apply (Hgen b a); auto using same_root_sym. intros x. rewrite Hu. tauto.
Qed.

Lemma conflict_free_sub l l' : (∀ x, x ∈ l → x ∈ l') → conflict_free l' → conflict_free l.
Proof. intros Hsub H d x Hd Hx. apply H; auto. Qed.

Lemma Merge_absorb a b c :
  valid_log a → valid_log b → compatible a b → no_impostor a b →
  TxMerge a b [] = Ok (Merged c) →
  TxMerge c b [] = Ok (Merged c) ∧ TxMerge b c [] = Ok (Merged c) ∧
  TxMerge c a [] = Ok (Merged c) ∧ TxMerge a c [] = Ok (Merged c).
Proof.
  intros Ha Hb Hc Hni HM. pose proof (valid_replayed_union a b c Ha Hb Hc Hni HM) as Hvc.
  assert (¬ (a = [] ∧ b = [])) as Hne by (intros [-> ->]; done).
  apply Merge_merged_iff in HM as ([Hs Hu] & Hcf & Hr); auto.
  assert (c ≠ []) as Hcne.
  { intros ->. apply Hne. split; [destruct a as [|x a]|destruct b as [|x b]]; try done; exfalso;
      apply (not_elem_of_nil x), Hu; [left|right]; by left. }
  destruct (union_same_root a b c) as [Hrb Hra]; auto; [apply Ha|apply Hb|by split|].
  assert (∀ q, valid_log q → (∀ x, x ∈ q → x ∈ c) → same_root c q → TxMerge c q [] = Ok (Merged c) ∧ TxMerge q c [] = Ok (Merged c)) as Hgen.
  { intros q Hq Hsub Hrq.
    assert (compatible c q) as Hcq.
    { split; [eapply time_ids_sub; [|exact (time_sorted_ids c Hs)]|eapply unique_adds_sub; [|exact (proj2 Hc)]];
        intros x; rewrite !elem_of_app, Hu; [intros [?|?]; auto; by apply Hu, Hsub|].
      intros [?|?]; auto. by apply Hu, Hsub. }
    assert (no_impostor c q) as Hni'.
    { intros (Hl & _). symmetry. apply sorted_subset_length; auto; apply Hq. }
    assert (TxMerge c q [] = Ok (Merged c)) as HM1.
    { apply Merge_merged_iff; auto; [tauto|]. split_and!; auto. split; [done|]. intros x. split; [auto|]. intros [?|?]; auto. }
    split; [done|]. by apply Merge_comm. }
  destruct (Hgen b Hb (λ x Hx, proj2 (Hu x) (or_intror Hx)) Hrb) as [? ?].
  destruct (Hgen a Ha (λ x Hx, proj2 (Hu x) (or_introl Hx)) Hra) as [? ?]. done.
Qed.

Lemma Merge_assoc a b c ab abc :
  valid_log a → valid_log b → valid_log c →
  time_ids (a ++ b ++ c) → unique_adds (a ++ b ++ c) → b ≠ [] →
  no_impostor a b → no_impostor ab c → no_impostor b c →
  (∀ bc, is_union b c bc → no_impostor a bc) →
  TxMerge a b [] = Ok (Merged ab) → TxMerge ab c [] = Ok (Merged abc) →
  ∃ bc, TxMerge b c [] = Ok (Merged bc) ∧ TxMerge a bc [] = Ok (Merged abc).
Proof.
  intros Ha Hb Hc Hid Hua Hbne Hni1 Hni2 Hni3 Hni4 HM1 HM2.
  assert (∀ l1 l2, (∀ x, x ∈ l1 ∨ x ∈ l2 → x ∈ a ∨ x ∈ b ∨ x ∈ c) → compatible l1 l2) as Hcomp.
  { intros l1 l2 H. split; [eapply time_ids_sub; [|exact Hid]|eapply unique_adds_sub; [|exact Hua]];
      intros x; rewrite !elem_of_app; auto. }
  assert (compatible a b) as Hcab by (apply Hcomp; tauto).
  pose proof (valid_replayed_union a b ab Ha Hb Hcab Hni1 HM1) as Hvab.
  apply Merge_merged_iff in HM1 as (Hu1 & Hcf1 & Hr1); auto; [|tauto].
  assert (∀ x, x ∈ ab ↔ x ∈ a ∨ x ∈ b) as Hab by apply Hu1.
  assert (ab ≠ []) as Habne.
  { intros ->. destruct b as [|x b]; [done|]. apply (not_elem_of_nil x), Hab. right. by left. }
  assert (compatible ab c) as Hcabc. { apply Hcomp. intros x. rewrite Hab. tauto. }
  apply Merge_merged_iff in HM2 as (Hu2 & Hcf2 & Hr2); auto; [|tauto].
  assert (∀ x, x ∈ abc ↔ x ∈ a ∨ x ∈ b ∨ x ∈ c) as Habc.
  { intros x. destruct Hu2 as [_ H]. rewrite H, Hab. tauto. }
  assert (compatible b c) as Hcbc by (apply Hcomp; tauto).
  assert (is_union b c (union_log b c)) as Hu3 by (apply union_log_is_union; apply Hb || apply Hc || apply Hcbc).
  assert (∀ x, x ∈ union_log b c ↔ x ∈ b ∨ x ∈ c) as Hbc by apply Hu3.
  assert (conflict_free (union_log b c)) as Hcf3.
  { eapply conflict_free_sub; [|exact Hcf2]. intros x. rewrite Hbc, Habc. tauto. }
  assert (same_root b c) as Hr3.
  { destruct (union_same_root a b ab) as [Hrb _]; auto; [apply Ha|apply Hb|].
    intros x y Hx Hy. destruct ab as [|z ab']; [done|].
    rewrite <-(Hr2 z y eq_refl Hy). symmetry. by apply Hrb. }
  exists (union_log b c). split.
  { apply Merge_merged_iff; auto. tauto. }
  apply Merge_merged_iff; auto.
  - by apply Merge_clean_replayable.
  - apply Hcomp. intros x. rewrite Hbc. tauto.
  - intros [-> H]. destruct b as [|x b]; [done|]. apply (not_elem_of_nil x). rewrite <-H. apply Hbc. left. by left.
  - split; [|split; [done|]].
    + split; [apply Hu2|]. intros x. rewrite Habc, Hbc. tauto.
    + destruct (union_same_root b c (union_log b c)) as [_ Hrb]; auto; [apply Hb|apply Hc|].
      intros x y Hx Hy. destruct b as [|z b']; [done|].
      rewrite (Hrb y z Hy eq_refl). by apply Hr1.
Qed.
