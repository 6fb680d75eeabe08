(** Dialogues, convergence, forks. *)
From Verif Require Export Proof_Merge3 Model_Merging.
From Coq Require Import Lia ZifyBool ZifyNat.
From stdpp Require Import options.

(** ** C16 *)
Lemma forked_no_impostor a b : time_sorted a → time_sorted b → forked a b → no_impostor a b.
Proof.
  intros Ha Hb (p & x & y & -> & -> & Hd) (Hl & _ & (u & v & Hu & Hv & Ht)).
  rewrite !app_length in Hl.
  destruct (last x) as [u'|] eqn:Ex; [|apply last_None in Ex; subst; destruct y; [done|simpl in Hl; lia]].
  destruct (last y) as [v'|] eqn:Ey; [|apply last_None in Ey; subst; destruct x; [done|simpl in Hl; lia]].
  rewrite last_app, Ex in Hu. rewrite last_app, Ey in Hv. simplify_eq.
  exfalso. apply (Hd u v); [..|done]; by apply last_Some_elem_of.
Qed.

(** ** Chains of rounds never crash *)
Definition good_conf (a b : list tx) (k : conflict) : Prop :=
  (cf_kind k = ConflictKindDeleteSet ∧ cf_res k ≠ resolveForce ∧ cf_initial k ∈ union_log a b ∧
    conflicting_delete (union_log a b) (cf_initial k)) ∨
  (cf_kind k = ConflictKindRoot ∧ head a = Some (cf_initial k)).

Lemma answered_good a b k k' : answered k k' → good_conf a b k → good_conf a b k'.
Proof.
  unfold good_conf. intros (-> & -> & _ & H) [(Hk & Hr & ? & ?)|(Hk & ?)]; [left|right]; auto.
Qed.

Lemma asked_round a b res : valid_log a → valid_log b → compatible a b → ¬ (a = [] ∧ b = []) →
  Forall (good_conf a b) res →
  ∃ r, TxMerge a b res = Ok r ∧ ∀ cs, r = Conflicts cs → Forall (good_conf a b) cs.
Proof.
  intros Ha Hb Hc Hne Hgood.
  assert (Hsu : time_sorted (union_log a b)) by (apply union_log_sorted; [apply Ha|apply Hb]).
  destruct (existsb (λ r, match cf_res r with resolveNone => true | _ => false end) res) eqn:Ee.
  { exists (Conflicts res). unfold TxMerge. rewrite Ee. split; [done|]. by intros cs [= <-]. }
  assert (∀ r, r ∈ res → cf_res r ≠ resolveNone) as Hnn.
  { intros r Hr Hn. assert (existsb (λ r, match cf_res r with resolveNone => true | _ => false end) res = true); [|congruence].
    apply existsb_exists. exists r. rewrite <-elem_of_list_In. split; [done|]. by rewrite Hn. }
  destruct (merge_fast_cases a b) as [(_ & -> & ->)|[(Hf & _)|(_ & Hl)]]; [tauto| |].
  { exists (Merged a). unfold TxMerge. rewrite Ee, Hf. split; [done|]. done. }
  assert (∀ k d, k ∈ res → d ∈ union_log a b → tx_kind d = "del" → tx_time (cf_initial k) = tx_time d →
      cf_kind k = ConflictKindDeleteSet ∧ conflicting_delete (union_log a b) d ∧ cf_res k ≠ resolveForce) as Hgk.
  { intros k d Hk Hd Hdk Ht. rewrite Forall_forall in Hgood.
    destruct (Hgood k Hk) as [(? & ? & Hin & Hcd)|(? & Hh)].
    - assert (cf_initial k = d) as <-; [|done]. by apply (time_sorted_ids _ Hsu).
    - exfalso. assert (cf_initial k = d) as <-.
      { apply (time_sorted_ids _ Hsu); auto. apply union_log_complete; [apply Hc|]. left.
        destruct a; [done|]. simplify_eq/=. by left. }
      rewrite (valid_head_add a _ Ha Hh) in Hdk. done. }
  rewrite TxMerge_scan; auto.
  2: { intros x Hxa Hxb Hk. apply not_true_is_false. intros (k & Hkin & Ht & Hr)%res_discard_elem.
       assert (x ∈ union_log a b) as Hx by (apply union_log_complete; [apply Hc|by left]).
       destruct (Hgk k x Hkin Hx Hk Ht) as (_ & Hcd & _). by apply (union_conflicting_not_common a b x). }
  destruct (scan_total res (union_log a b) ∅ (root_conf res a b) (union_log a b)) as (k & cf & -> & Hcf); auto.
  - intros d r Hd Hdk Hr Ht. destruct (Hgk r d Hr Hd Hdk Ht) as (_ & _ & Hnf). specialize (Hnn r Hr).
    destruct (cf_res r); auto; done.
  - intros u d. by rewrite lookup_empty.
  - assert (Forall (good_conf a b) (root_conf res a b ++ cf)) as Hall.
    { apply Forall_forall. intros q [Hq|Hq]%elem_of_app.
      - apply root_conf_elem in Hq as (x & y & Hx & _ & _ & ->). right. done.
      - apply Hcf in Hq as (d & x & -> & Hd & Hx & Hk & Hu & He). left. split_and!; try done.
        simpl. split; [done|]. exists x. auto. }
    unfold mresult_of. destruct (root_conf res a b ++ cf) as [|q qs] eqn:E.
    + exists (Merged k). split; [done|]. done.
    + exists (Conflicts (q :: qs)). split; [done|]. by intros cs [= <-].
Qed.

Lemma asked_good a b res : valid_log a → valid_log b → compatible a b → ¬ (a = [] ∧ b = []) →
  asked a b res → Forall (good_conf a b) res.
Proof.
  intros Ha Hb Hc Hne. induction 1 as [|res cs cs' _ IH HM Hans]; [constructor|].
  destruct (asked_round a b res Ha Hb Hc Hne IH) as (r & HM' & Hg). rewrite HM in HM'.
  injection HM' as <-. specialize (Hg cs eq_refl).
  clear HM IH. induction Hans; [constructor|]. inversion Hg; subst. constructor; eauto using answered_good.
Qed.

Lemma asked_total a b res : valid_log a → valid_log b → compatible a b → ¬ (a = [] ∧ b = []) →
  asked a b res → ∃ r, TxMerge a b res = Ok r.
Proof.
  intros Ha Hb Hc Hne Hask. destruct (asked_round a b res Ha Hb Hc Hne) as (r & ? & _); eauto using asked_good.
Qed.

Lemma settles_all a b f : valid_log a → valid_log b → compatible a b → ¬ (a = [] ∧ b = []) → two_choices f →
  settles a b f [].
Proof.
  intros Ha Hb Hc Hne H2. destruct (TxMerge a b []) as [[c|cs]|e|] eqn:HM.
  - by apply (settles_now _ _ _ _ c).
  - apply (settles_next _ _ _ _ cs HM). eapply settles_now. by apply Merge_answered_log.
  - by apply Merge_nofail in HM.
  - apply Merge_panic_iff in HM. tauto.
Qed.

(** ** C17, C18 *)
Lemma filter_iff_list (P Q : tx → Prop) `{!∀ x, Decision (P x)} `{!∀ x, Decision (Q x)} (l : list tx) :
  (∀ x, x ∈ l → P x ↔ Q x) → filter P l = filter Q l.
Proof.
  induction l as [|x l IH]; intros HPQ; [done|].
  assert (P x ↔ Q x) as Hx by (apply HPQ; by left).
  destruct (decide (P x)) as [HP|HP].
  - rewrite !filter_cons_True by tauto. f_equal. apply IH. intros; apply HPQ; by right.
  - rewrite !filter_cons_False by tauto. apply IH. intros; apply HPQ; by right.
Qed.

Lemma kept_delete c : filter (kept_by (λ _, resolveDiscardConflict) c) c = filter (λ x, ¬ after_delete c x) c.
Proof.
  apply filter_iff_list. intros x Hx. unfold kept_by, after_delete. split.
  - intros [_ H] (d & ? & ? & ? & ?). apply H. exists d. done.
  - intros H. split; [by intros [_ ?]|]. intros (d & ? & ? & ? & ? & _). apply H. by exists d.
Qed.
Lemma kept_restore c : filter (kept_by (λ _, resolveDiscardInitial) c) c = filter (λ x, ¬ conflicting_delete c x) c.
Proof.
  apply filter_iff_list. intros x Hx. unfold kept_by. split.
  - intros [H _] Hc. by apply H.
  - intros H. split; [by intros [? _]|]. by intros (d & ? & ? & ? & ? & ?).
Qed.

Lemma all_delete a b c cs : valid_log a → valid_log b → compatible a b → is_union a b c →
  TxMerge a b [] = Ok (Conflicts cs) →
  let r := filter (λ x, ¬ after_delete c x) c in
  TxMerge a b (answer (λ _, resolveDiscardConflict) <$> cs) = Ok (Merged r) ∧
  replayable r ∧
  ∀ d x, edit_after_delete c d x → ¬ visible r (tx_uuid d).
Proof.
  intros Ha Hb Hc Hu HM r.
  pose proof (Merge_answered a b c (λ _, resolveDiscardConflict) cs Ha Hb Hc Hu (λ _, or_intror eq_refl) HM) as HM'.
  rewrite kept_delete in HM'. split; [done|].
  assert (c = union_log a b) as Ec by (apply is_union_is_union_log; apply Ha || apply Hb || apply Hc || done).
  assert (valid_log r) as Hvr.
  { unfold r. rewrite <-kept_delete, Ec. by apply kept_valid; [..|right]. }
  split; [apply Hvr|].
  intros d x ((Hd & Hk & Hmin) & _) Hvis. apply visible_sorted in Hvis as (y & Hy & [Hyk Hyu] & Hn); [|apply Hvr].
  apply elem_of_list_filter in Hy as [_ Hy]. apply (Hn d).
  - apply elem_of_list_filter. split; [|done]. intros (d' & Hd' & Hk' & Hu' & He').
    specialize (Hmin d' Hd' Hk' Hu'). unfold earlier in He'. lia.
  - done.
  - subst c. destruct (union_has_add a b d Ha Hb Hc Hd) as (y' & Hy' & Hyk' & Hyu' & He); [by rewrite Hk|].
    assert (y = y') as -> by (apply (union_unique_adds a b Hc); auto; congruence). done.
Qed.

Lemma all_restore a b c cs : valid_log a → valid_log b → compatible a b → is_union a b c →
  TxMerge a b [] = Ok (Conflicts cs) →
  let r := filter (λ x, ¬ conflicting_delete c x) c in
  TxMerge a b (answer (λ _, resolveDiscardInitial) <$> cs) = Ok (Merged r) ∧
  replayable r ∧
  ∀ d x, edit_after_delete c d x →
    (∀ d', d' ∈ c → tx_kind d' = "del" → tx_uuid d' = tx_uuid d → d' = d) →
    visible r (tx_uuid d) ∧ entry_txs (tx_uuid d) r = filter (λ t, t ≠ d) (entry_txs (tx_uuid d) c).
Proof.
  intros Ha Hb Hc Hu HM r.
  pose proof (Merge_answered a b c (λ _, resolveDiscardInitial) cs Ha Hb Hc Hu (λ _, or_introl eq_refl) HM) as HM'.
  rewrite kept_restore in HM'. split; [done|].
  assert (c = union_log a b) as Ec by (apply is_union_is_union_log; apply Ha || apply Hb || apply Hc || done).
  assert (valid_log r) as Hvr.
  { unfold r. rewrite <-kept_restore, Ec. by apply kept_valid; [..|left]. }
  split; [apply Hvr|].
  intros d x (Hfd & Hx & Hux & Hex & _) Hone. pose proof Hfd as (Hd & Hk & Hmin).
  assert (conflicting_delete c d) as Hcd by (split; [done|]; exists x; auto).
  split.
  - apply visible_sorted; [apply Hvr|].
    assert (∃ y, y ∈ c ∧ tx_kind y = "add" ∧ tx_uuid y = tx_uuid d ∧ earlier y d) as (y & Hy & Hyk & Hyu & He).
    { subst c. apply union_has_add; auto. by rewrite Hk. }
    exists y. split; [|split; [done|]].
    + apply elem_of_list_filter. split; [|done]. intros [Hyd _]. congruence.
    + intros d' [Hnc Hd']%elem_of_list_filter [Hdk' Hdu'] _. rewrite (Hone d' Hd' Hdk' Hdu') in Hnc. done.
  - unfold r, entry_txs. rewrite !list_filter_filter. apply filter_iff_list.
    intros t Ht. unfold on_entry. split.
    + intros [Hut Hnc]. split; [|done]. intros ->. done.
    + intros [Hne Hut]. split; [done|]. intros [Htk Htc]. apply Hne. by apply Hone.
Qed.

(** ** mergeLogs *)
Lemma ask_delete_set_never inp k k' rest : ask_delete_set inp k ≠ UOk k' rest.
Proof. revert k. induction inp as [|[s|e] inp IH]; intros k; simpl; repeat case_match; try done; apply IH. Qed.

Lemma ask_all_ds ks inp k : k ∈ ks → cf_kind k = ConflictKindDeleteSet → ∀ ks' rest, ask_all ks inp ≠ UOk ks' rest.
Proof.
  revert inp. induction ks as [|k0 ks IH]; intros inp Hk Hkd ks' rest; [by apply elem_of_nil in Hk|].
  simpl. apply elem_of_cons in Hk as [->|Hk].
  - rewrite Hkd. destruct (ask_delete_set inp k0) eqn:E; try done. by apply ask_delete_set_never in E.
  - destruct (match cf_kind k0 with ConflictKindDeleteSet => _ | ConflictKindRoot => _ end); try done.
    destruct (ask_all ks rest0) eqn:E; try done. exfalso. by eapply IH.
Qed.

Lemma ask_all_no_panic ks inp : ask_all ks inp ≠ UPanic.
Proof.
  revert inp. induction ks as [|k ks IH]; intros inp; [done|]. simpl.
  assert (∀ inp, getYesNo inp ≠ UPanic) as Hy.
  { induction inp0 as [|[s|e] l IHl]; simpl; repeat case_match; done. }
  assert (∀ inp k, ask_delete_set inp k ≠ UPanic) as Hd.
  { induction inp0 as [|[s|e] l IHl]; intros k0; simpl; repeat case_match; done. }
  destruct (match cf_kind k with ConflictKindDeleteSet => _ | ConflictKindRoot => _ end) eqn:E; try done.
  - specialize (IH rest). destruct (ask_all ks rest); done.
  - unfold ask_root in E. repeat case_match; try done; exfalso; [by apply (Hd inp k)|by apply (Hy inp)].
Qed.

(** Once a delete/set conflict is pending, no input leads to a merged log. *)
Lemma mergeLogs_stuck local remote inp c rest :
  valid_log local → valid_log remote → compatible local remote →
  ¬ look_alike local remote →
  ¬ conflict_free (union_log local remote) → remote ≠ [] →
  mergeLogs local remote inp ≠ UOk c rest.
Proof.
  intros Ha Hb Hc Hl Hcf Hne. unfold mergeLogs. destruct remote as [|r remote]; [done|].
  simpl. destruct (Merge_first_round local (r :: remote) Ha Hb Hc Hl) as (conf & Hconf & _ & HM); [by intros [_ ?]|].
  assert (∃ k, k ∈ conf ∧ cf_kind k = ConflictKindDeleteSet) as (k & Hk & Hkd).
  { destruct conf as [|k conf].
    - exfalso. apply Hcf. intros d x Hd Hx Hk Hu He. destruct (exists_first_delete _ d Hd Hk) as (d' & Hd' & Hu').
      assert (earlier d' x) as He'.
      { destruct Hd' as (_ & _ & Hm). specialize (Hm d Hd Hk (eq_sym Hu')). unfold earlier in *. lia. }
      destruct (exists_first_edit _ d' x Hd' Hx) as [y Hy]; [congruence|done|].
      assert (ds_conf d' y ∈ []) as Hin by (apply Hconf; eauto). by apply elem_of_nil in Hin.
    - exists k. split; [by left|]. destruct (proj1 (Hconf k) (elem_of_list_here _ _)) as (d & x & _ & ->). done. }
  rewrite HM. unfold mresult_of.
  assert (k ∈ root_of local (r :: remote) ++ conf) as Hin by (apply elem_of_app; by right).
  destruct (root_of local (r :: remote) ++ conf) as [|q qs] eqn:E; [by apply elem_of_nil in Hin|].
  destruct (ask_all (q :: qs) inp) eqn:Ea; try done. by eapply ask_all_ds in Ea.
Qed.

Lemma getYesNo_true inp rest : getYesNo inp = UOk true rest →
  ∃ pre s, inp = pre ++ ILine s :: rest ∧ yes_word s = true.
Proof.
  induction inp as [|[s|e] inp IH]; simpl; try done.
  destruct (yes_word s) eqn:Ey.
  - intros [= ->]. exists [], s. done.
  - destruct (no_word s); [done|]. intros (pre & s' & -> & ?)%IH. by exists (ILine s :: pre), s'.
Qed.

Lemma ask_all_root ks inp ks' rest k : ask_all ks inp = UOk ks' rest → k ∈ ks → cf_kind k = ConflictKindRoot →
  ∃ pre s post, inp = pre ++ ILine s :: post ∧ yes_word s = true ∧ suffix rest post.
Proof.
  revert inp ks' rest. induction ks as [|k0 ks IH]; intros inp ks' rest Hask Hk Hkd; [by apply elem_of_nil in Hk|].
  assert (Hsuf : ∀ ks inp ks' rest, ask_all ks inp = UOk ks' rest → suffix rest inp).
  { clear. induction ks as [|k ks IH]; intros inp ks' rest; simpl; [by intros [= _ ->]|].
    destruct (cf_kind k).
    - destruct (ask_delete_set inp k) eqn:E; try done. by apply ask_delete_set_never in E.
    - unfold ask_root. destruct (getYesNo inp) as [[] r| | |] eqn:E; try done.
      apply getYesNo_true in E as (pre & s & -> & _).
      destruct (ask_all ks r) eqn:E2; try done. intros [= _ <-]. apply IH in E2.
      etrans; [done|]. exists (pre ++ [ILine s]). by rewrite <-app_assoc. }
  simpl in Hask. apply elem_of_cons in Hk as [<-|Hk].
  - rewrite Hkd in Hask. unfold ask_root in Hask.
    destruct (getYesNo inp) as [[] r| | |] eqn:E; try done.
    apply getYesNo_true in E as (pre & s & -> & ?).
    destruct (ask_all ks r) eqn:E2; try done. injection Hask as _ <-. exists pre, s, r. eauto.
  - destruct (match cf_kind k0 with ConflictKindDeleteSet => _ | ConflictKindRoot => _ end) as [k' r| | |] eqn:E0; try done.
    destruct (ask_all ks r) eqn:E2; try done. injection Hask as _ <-.
    destruct (IH _ _ _ E2 Hk Hkd) as (pre & s & post & -> & ? & ?).
    destruct (cf_kind k0); [by apply ask_delete_set_never in E0|].
    unfold ask_root in E0. destruct (getYesNo inp) as [[] r'| | |] eqn:E; try done. injection E0 as _ ->.
    apply getYesNo_true in E as (pre0 & s0 & -> & _).
    exists (pre0 ++ ILine s0 :: pre), s, post. rewrite <-app_assoc. done.
Qed.

(** Different roots: the loop cannot end without a forced first conflict. *)
Lemma conf_grows_push res x s s' : push_check res x s = Ok s' → ∃ cf, ms_conf s' = ms_conf s ++ cf.
Proof.
  unfold push_check. intros H. repeat case_match; simplify_eq/=; try (exists []; by rewrite app_nil_r). eauto.
Qed.
Lemma conf_grows_rest res l s s' : push_rest res l s = Ok s' → ∃ cf, ms_conf s' = ms_conf s ++ cf.
Proof.
  revert s. induction l as [|x l IH]; intros s; simpl.
  - intros [= <-]. exists []. by rewrite app_nil_r.
  - destruct (push_check res x s) as [s1| |] eqn:E; try done. apply conf_grows_push in E as [cf1 H1].
    intros [cf2 H2]%IH. exists (cf1 ++ cf2). by rewrite H2, H1, app_assoc.
Qed.
Lemma conf_grows res a b : ∀ i j s s', merge_loop res a i b j s = Ok s' → ∃ cf, ms_conf s' = ms_conf s ++ cf.
Proof.
  revert a b. refine (two_list_ind _ _ _ _).
  - intros b i j s s'. rewrite merge_loop_nil_l. apply conf_grows_rest.
  - intros a i j s s'. rewrite merge_loop_nil_r. apply conf_grows_rest.
  - intros x a y b IH1 IH2 IH3 i j s s'. rewrite merge_loop_cons. cbv zeta.
    destruct (tx_time x =? tx_time y)%Z.
    + intros (cf & H)%IH1. simpl in H. eauto.
    + assert (∃ cf, ms_conf (root_check res i j x y s) = ms_conf s ++ cf) as [cf0 H0].
      { unfold root_check. repeat case_match; simpl; eauto; exists []; by rewrite app_nil_r. }
      destruct (tx_time x <? tx_time y)%Z.
      * destruct (push_check _ _ _) as [s1| |] eqn:E; try done. apply conf_grows_push in E as [cf1 H1].
        intros (cf2 & H2)%IH2. exists (cf0 ++ cf1 ++ cf2). by rewrite H2, H1, H0, !app_assoc.
      * destruct (push_check _ _ _) as [s1| |] eqn:E; try done. apply conf_grows_push in E as [cf1 H1].
        intros (cf2 & H2)%IH3. exists (cf0 ++ cf1 ++ cf2). by rewrite H2, H1, H0, !app_assoc.
Qed.

Local Arguments merge_loop : simpl never.
Local Arguments push_check : simpl never.
Lemma Merge_root_needs_force a b res c x y :
  head a = Some x → head b = Some y → tx_time x ≠ tx_time y →
  TxMerge a b res = Ok (Merged c) →
  ∃ k res', res = k :: res' ∧ cf_res k = resolveForce.
Proof.
  intros Hx Hy Ht HM. destruct a as [|x' a]; [done|]. destruct b as [|y' b]; [done|]. simplify_eq/=.
  assert (¬ look_alike (x :: a) (y :: b)) as Hl.
  { intros (_ & (x' & y' & ? & ? & ?) & _). by simplify_eq/=. }
  unfold TxMerge in HM. destruct (existsb _ res); [done|].
  destruct (merge_fast_cases (x :: a) (y :: b)) as [(_ & ? & _)|[(_ & ?)|(Hf & _)]]; [done|done|].
  rewrite Hf in HM. rewrite merge_loop_cons in HM. cbv zeta in HM.
  destruct (Z.eqb_spec (tx_time x) (tx_time y)) as [|_]; [done|].
  unfold root_check in HM; simpl in HM.
  destruct res as [|k res]; [|destruct (cf_res k) eqn:Ek; try (by eauto)]; exfalso; simpl in HM;
  (destruct (tx_time x <? tx_time y)%Z;
    destruct (push_check _ _ _) as [s1| |] eqn:E; try done;
    apply conf_grows_push in E as [cf1 H1];
    destruct (merge_loop _ _ _ _ _ s1) as [s2| |] eqn:E2; try done;
    apply conf_grows in E2 as [cf2 H2]; rewrite H2, H1 in HM; done).
Qed.

(** The first round reports the root conflict. *)
Lemma Merge_root_reported a b x y : head a = Some x → head b = Some y → tx_time x ≠ tx_time y →
  ∃ cs, TxMerge a b [] = Ok (Conflicts (mk_conflict ConflictKindRoot x y resolveNone :: cs)).
Proof.
  intros Hx Hy Ht. destruct (TxMerge a b []) as [[c|cs]|e|] eqn:HM.
  - destruct (Merge_root_needs_force a b [] c x y Hx Hy Ht HM) as (k & res' & ? & _). done.
  - destruct a as [|x' a]; [done|]. destruct b as [|y' b]; [done|]. simplify_eq/=.
    assert (¬ look_alike (x :: a) (y :: b)) as Hl.
    { intros (_ & (x' & y' & ? & ? & ?) & _). by simplify_eq/=. }
    unfold TxMerge in HM. simpl existsb in HM. cbv iota in HM.
    destruct (merge_fast_cases (x :: a) (y :: b)) as [(_ & ? & _)|[(_ & ?)|(Hf & _)]]; [done|done|].
    rewrite Hf in HM. rewrite merge_loop_cons in HM. cbv zeta in HM.
    destruct (Z.eqb_spec (tx_time x) (tx_time y)) as [|_]; [done|].
    unfold root_check in HM; simpl in HM.
    (destruct (tx_time x <? tx_time y)%Z;
    destruct (push_check _ _ _) as [s1| |] eqn:E; try done;
    apply conf_grows_push in E as [cf1 H1];
    destruct (merge_loop _ _ _ _ _ s1) as [s2| |] eqn:E2; try done;
    apply conf_grows in E2 as [cf2 H2]; rewrite H2, H1 in HM; simpl in HM; injection HM as <-; eauto).
  - by apply Merge_nofail in HM.
  - apply Merge_panic_iff in HM as [-> ->]. done.
Qed.

Lemma mergeLogs_root local remote inp c rest x y :
  head local = Some x → head remote = Some y → tx_time x ≠ tx_time y →
  mergeLogs local remote inp = UOk c rest →
  ∃ pre s post, inp = pre ++ ILine s :: post ∧ yes_word s = true.
Proof.
  intros Hx Hy Ht. unfold mergeLogs. destruct remote as [|r remote]; [done|].
  simpl. destruct (Merge_root_reported local (r :: remote) x y Hx Hy Ht) as [cs ->].
  destruct (ask_all _ inp) eqn:Ea; try done. intros _.
  destruct (ask_all_root _ _ _ _ (mk_conflict ConflictKindRoot x y resolveNone) Ea) as (pre & s & post & -> & ? & _);
    [by left|done|]. eauto.
Qed.

(** Without delete/set conflicts and with a common root: no question at all. *)
Lemma mergeLogs_clean local remote inp :
  valid_log local → valid_log remote → compatible local remote → no_impostor local remote →
  conflict_free (union_log local remote) → same_root local remote → remote ≠ [] →
  mergeLogs local remote inp = UOk (union_log local remote) inp.
Proof.
  intros Ha Hb Hc Hni Hcf Hr Hne. unfold mergeLogs. destruct remote as [|r remote]; [done|]. simpl.
  assert (TxMerge local (r :: remote) [] = Ok (Merged (union_log local (r :: remote)))) as ->; [|done].
  apply Merge_merged_iff; auto; [by intros [_ ?]|]. split_and!; auto.
  apply union_log_is_union; apply Ha || apply Hb || apply Hc.
Qed.

(** ... and with different roots a single "yes" suffices. *)
Local Arguments union_log : simpl never.
Lemma mergeLogs_forced local remote s inp :
  valid_log local → valid_log remote → compatible local remote →
  conflict_free (union_log local remote) → local ≠ [] → remote ≠ [] → ¬ same_root local remote →
  yes_word s = true →
  mergeLogs local remote (ILine s :: inp) = UOk (union_log local remote) inp.
Proof.
  intros Ha Hb Hc Hcf Hne1 Hne2 Hr Hy.
  assert (¬ look_alike local remote) as Hl.
  { intros (_ & (x & y & Hx & Hy' & Ht) & _). apply Hr. intros x' y' ? ?. by simplify_eq. }
  destruct (Merge_first_round local remote Ha Hb Hc Hl) as (conf & Hconf & _ & HM); [by intros [? _]|].
  assert (conf = []) as ->.
  { destruct conf as [|k conf]; [done|].
    destruct (proj1 (Hconf k) (elem_of_list_here _ _)) as (d & x & (Hd & Hx & Hu & He & _) & _).
    exfalso. apply (Hcf d x); auto; apply Hd. }
  rewrite app_nil_r in HM.
  destruct local as [|x local]; [done|]. destruct remote as [|y remote]; [done|].
  unfold mergeLogs. simpl length. cbn [merge_rounds]. rewrite HM.
  unfold root_of, root_conf in *. destruct (Z.eqb_spec (tx_time x) (tx_time y)) as [Ht|Ht].
  { exfalso. apply Hr. intros x' y' ? ?. by simplify_eq/=. }
  simpl mresult_of. cbn [ask_all cf_kind]. unfold ask_root. cbn [getYesNo]. rewrite Hy. cbn [ask_all].
  pose proof (Merge_answered_log (x :: local) (y :: remote) (λ _, resolveDiscardConflict) _ Ha Hb Hc (λ _, or_intror eq_refl) HM) as HM2.
  simpl in HM2. unfold answer in HM2. simpl in HM2. rewrite HM2.
  f_equal. rewrite kept_delete.
  assert (∀ c : list tx, conflict_free c → ∀ l : list tx, (∀ z, z ∈ l → z ∈ c) → filter (λ x, ¬ after_delete c x) l = l) as Hall.
  { clear. intros c Hcf. induction l as [|z l IH]; intros Hsub; [done|].
    rewrite filter_cons_True; [f_equal; apply IH; intros; apply Hsub; by right|].
    intros (d & Hd & Hk & Hu & He). apply (Hcf d z); auto. apply Hsub. by left. }
  by apply Hall.
Qed.

(** ** Checking concrete logs *)
Fixpoint sorted_b (l : list tx) : bool :=
  match l with
  | x :: ((y :: _) as l') => (tx_time x <? tx_time y)%Z && sorted_b l'
  | _ => true
  end.
Lemma sorted_b_ok l : sorted_b l = true → time_sorted l.
Proof.
  induction l as [|x l IH]; [constructor|]. destruct l as [|y l]; [intros _; repeat constructor|].
  intros [H1 H2]%andb_true_iff. simpl in H2. specialize (IH H2). apply time_sorted_cons. split; [|done].
  apply time_sorted_cons in IH as [H3 _]. intros z [->|Hz]%elem_of_cons; unfold earlier; [lia|].
  specialize (H3 z Hz). unfold earlier in H3. lia.
Qed.
Definition kind_b (k : string) : bool :=
  String.eqb k "add" || String.eqb k "del" || String.eqb k "setk" || String.eqb k "delk".
Definition valid_b (l : list tx) : bool :=
  sorted_b l && forallb (λ x, kind_b (tx_kind x)) l && match replay_fn ∅ l with Some _ => true | None => false end.
Lemma valid_b_ok l : valid_b l = true → valid_log l.
Proof.
  unfold valid_b. intros [[H1 H2]%andb_true_iff H3]%andb_true_iff. split; [by apply sorted_b_ok|]. split.
  - apply replayable_fn. destruct (replay_fn ∅ l); [by eexists|done].
  - intros x Hx. rewrite forallb_forall in H2. rewrite elem_of_list_In in Hx. specialize (H2 x Hx).
    unfold kind_b in H2. repeat (apply orb_true_iff in H2 as [H2|H2]); apply String.eqb_eq in H2; auto.
Qed.
Definition compat_b (l : list tx) : bool :=
  forallb (λ x, forallb (λ y,
    implb (tx_time x =? tx_time y)%Z (bool_decide (x = y)) &&
    implb (String.eqb (tx_kind x) "add" && String.eqb (tx_kind y) "add" && String.eqb (tx_uuid x) (tx_uuid y))
      (bool_decide (x = y))) l) l.
Lemma compat_b_ok a b : compat_b (a ++ b) = true → compatible a b.
Proof.
  unfold compat_b. rewrite forallb_forall. intros H.
  assert (∀ x y, x ∈ a ++ b → y ∈ a ++ b →
    implb (tx_time x =? tx_time y)%Z (bool_decide (x = y)) = true ∧
    implb (String.eqb (tx_kind x) "add" && String.eqb (tx_kind y) "add" && String.eqb (tx_uuid x) (tx_uuid y))
      (bool_decide (x = y)) = true) as H'.
  { intros x y Hx Hy. rewrite elem_of_list_In in Hx, Hy. specialize (H x Hx). rewrite forallb_forall in H.
    specialize (H y Hy). by apply andb_true_iff in H. }
  split.
  - intros x y Hx Hy Ht. destruct (H' x y Hx Hy) as [H1 _]. apply Z.eqb_eq in Ht. rewrite Ht in H1. simpl in H1.
    by apply bool_decide_eq_true in H1.
  - intros x y Hx Hy Hkx Hky Hu. destruct (H' x y Hx Hy) as [_ H1].
    rewrite Hkx, Hky, Hu, !String.eqb_refl in H1. simpl in H1. by apply bool_decide_eq_true in H1.
Qed.
#[global] Instance mresult_eq_dec : EqDecision mresult.
Proof. assert (EqDecision conflict) by solve_decision. solve_decision. Defined.
Definition union_b (a b c : list tx) : bool :=
  sorted_b c && forallb (λ x, bool_decide (x ∈ a) || bool_decide (x ∈ b)) c && forallb (λ x, bool_decide (x ∈ c)) (a ++ b).
Lemma union_b_ok a b c : union_b a b c = true → is_union a b c.
Proof.
  unfold union_b. intros [[H1 H2]%andb_true_iff H3]%andb_true_iff. split; [by apply sorted_b_ok|].
  rewrite forallb_forall in H2, H3. intros x. split.
  - intros Hx. rewrite elem_of_list_In in Hx. apply H2 in Hx.
    apply orb_true_iff in Hx as [Hx|Hx]; apply bool_decide_eq_true in Hx; auto.
  - intros Hx. rewrite <-elem_of_app, elem_of_list_In in Hx. apply H3 in Hx. by apply bool_decide_eq_true in Hx.
Qed.
Lemma not_alike_ni a b : length a ≠ length b → no_impostor a b.
Proof. by intros ? (? & _). Qed.

(** ** Forms used by the property file *)
Lemma Merge_idem a : a ≠ [] → TxMerge a a [] = Ok (Merged a).
Proof.
  intros Hne. unfold TxMerge; simpl. destruct (merge_fast_cases a a) as [(_ & ? & _)|[(-> & _)|(_ & Hl)]]; [done|done|].
  exfalso. apply Hl. destruct a as [|x a]; [done|]. split; [done|]. split; [by exists x, x|].
  destruct (last (x :: a)) as [y|] eqn:El; [by exists y, y|by apply last_None in El].
Qed.

Lemma Merge_replayable a b c :
  valid_log a → valid_log b → compatible a b → no_impostor a b → TxMerge a b [] = Ok (Merged c) → replayable c.
Proof. intros Ha Hb Hc Hni HM. by apply (valid_replayed_union a b c Ha Hb Hc Hni HM). Qed.

Lemma Merge_replayable_all a b c :
  valid_log a → valid_log b → compatible a b → TxMerge a b [] = Ok (Merged c) → replayable c.
Proof.
  intros Ha Hb Hc HM. destruct (Merge_merged_union a b c HM) as [[_ ->]|[Hl _]]; [apply Ha|].
  apply (Merge_replayable a b c); auto. by intros ?.
Qed.

Lemma Merge_answered_replayable a b f cs c :
  valid_log a → valid_log b → compatible a b → two_choices f →
  TxMerge a b [] = Ok (Conflicts cs) →
  TxMerge a b (answer f <$> cs) = Ok (Merged c) → replayable c.
Proof.
  intros Ha Hb Hc H2 HM HM'. rewrite (Merge_answered_log a b f cs) in HM' by done. injection HM' as <-.
  by apply kept_valid.
Qed.

Lemma Merge_conflict_reported a b c d x :
  valid_log a → valid_log b → compatible a b → no_impostor a b → is_union a b c →
  edit_after_delete c d x →
  ∃ cs, TxMerge a b [] = Ok (Conflicts cs) ∧ mk_conflict ConflictKindDeleteSet d x resolveNone ∈ cs.
Proof.
  intros Ha Hb Hc Hni Hu Hed. destruct (TxMerge a b []) as [[c'|cs]|e|] eqn:HM.
  - exfalso. assert (¬ (a = [] ∧ b = [])) as Hne by (intros [-> ->]; done).
    apply Merge_merged_iff in HM as (Hu' & Hcf & _); auto. rewrite (is_union_unique _ _ _ _ Hu' Hu) in Hcf.
    destruct Hed as ((Hd & Hk & _) & Hx & Hux & He & _). by apply (Hcf d x).
  - exists cs. split; [done|]. by apply (Merge_conflicts_exact a b c cs Ha Hb Hc Hu HM).
  - by apply Merge_nofail in HM.
  - apply Merge_panic_iff in HM as [-> ->]. exfalso. destruct Hed as ((Hd & _) & _). apply Hu in Hd.
    by destruct Hd as [Hd|Hd]; apply elem_of_nil in Hd.
Qed.

Lemma subset_no_impostor a b : time_sorted a → time_sorted b → (∀ x, x ∈ a → x ∈ b) → look_alike a b → a = b.
Proof. intros Ha Hb Hsub (Hl & _). by apply sorted_subset_length. Qed.

Definition w_add t u := mk_tx t "add" u "" "".
Definition w_set t u k v := mk_tx t "setk" u k v.
Definition w_del t u := mk_tx t "del" u "" "".
Definition w_base : list tx := [w_add 1 "u"; w_add 2 "w"]%Z.

Lemma conflict_missed :
  ∃ a b c d x, valid_log a ∧ valid_log b ∧ compatible a b ∧ is_union a b c ∧
    edit_after_delete c d x ∧ TxMerge a b [] = Ok (Merged a).
Proof.
  pose (a := (w_base ++ [w_del 5 "u"; w_set 9 "w" "k" "v"])%Z).
  pose (b := (w_base ++ [w_set 6 "u" "k" "v"; w_set 9 "w" "k" "v"])%Z).
  pose (c := (w_base ++ [w_del 5 "u"; w_set 6 "u" "k" "v"; w_set 9 "w" "k" "v"])%Z).
  exists a, b, c, (w_del 5 "u"), (w_set 6 "u" "k" "v").
  split; [apply valid_b_ok; vm_compute; reflexivity|]. split; [apply valid_b_ok; vm_compute; reflexivity|].
  split; [apply compat_b_ok; vm_compute; reflexivity|]. split; [apply union_b_ok; vm_compute; reflexivity|].
  split; [|compute_dec].
  split; [split; [compute_dec|split; [done|]]|split; [compute_dec|split; [done|split; [done|]]]].
  - intros d' Hd' Hk _. unfold c, w_base in Hd'. simpl in Hd'. rewrite !elem_of_cons, elem_of_nil in Hd'.
    destruct Hd' as [->|[->|[->|[->|[->|[]]]]]]; simpl in *; done.
  - intros y Hy Hu He. unfold c, w_base in Hy. simpl in Hy. rewrite !elem_of_cons, elem_of_nil in Hy.
    destruct Hy as [->|[->|[->|[->|[->|[]]]]]]; unfold earlier in He; simpl in *; lia || done.
Qed.

Lemma fast_path_loses :
  ∃ p x1 x2 x3 m1 m2 r,
    valid_log (p ++ [x1]) ∧ valid_log (p ++ [x2]) ∧ valid_log (p ++ [x3]) ∧
    time_ids (p ++ [x1; x2; x3]) ∧
    TxMerge (p ++ [x1]) (p ++ [x3]) [] = Ok (Merged m1) ∧
    TxMerge (p ++ [x2]) (p ++ [x3]) [] = Ok (Merged m2) ∧
    TxMerge m1 m2 [] = Ok (Merged r) ∧
    x2 ∈ m2 ∧ x2 ∉ r.
Proof.
  pose (x1 := w_set 5 "u" "k" "one"). pose (x2 := w_set 6 "u" "k" "two"). pose (x3 := w_set 7 "w" "k" "three").
  exists w_base, x1, x2, x3, (w_base ++ [x1; x3]), (w_base ++ [x2; x3]), (w_base ++ [x1; x3]).
  split; [apply valid_b_ok; vm_compute; reflexivity|]. split; [apply valid_b_ok; vm_compute; reflexivity|].
  split; [apply valid_b_ok; vm_compute; reflexivity|].
  split; [apply (compat_b_ok w_base [x1; x2; x3]); vm_compute; reflexivity|].
  split; [compute_dec|]. split; [compute_dec|]. split; [compute_dec|]. split; compute_dec.
Qed.

Lemma restore_leaves_deleted :
  ∃ a b cs d x r, valid_log a ∧ valid_log b ∧ compatible a b ∧
    TxMerge a b [] = Ok (Conflicts cs) ∧ mk_conflict ConflictKindDeleteSet d x resolveNone ∈ cs ∧
    TxMerge a b (answer (λ _, resolveDiscardInitial) <$> cs) = Ok (Merged r) ∧
    ¬ visible r (tx_uuid d).
Proof.
  pose (a := (w_base ++ [w_del 5 "u"])%Z).
  pose (b := (w_base ++ [w_set 6 "u" "k" "v"; w_del 7 "u"])%Z).
  pose (r := (w_base ++ [w_set 6 "u" "k" "v"; w_del 7 "u"])%Z).
  exists a, b, [mk_conflict ConflictKindDeleteSet (w_del 5 "u") (w_set 6 "u" "k" "v") resolveNone],
    (w_del 5 "u"), (w_set 6 "u" "k" "v"), r.
  split; [apply valid_b_ok; vm_compute; reflexivity|]. split; [apply valid_b_ok; vm_compute; reflexivity|].
  split; [apply compat_b_ok; vm_compute; reflexivity|]. split; [compute_dec|]. split; [by left|].
  split; [compute_dec|].
  intros (y & Hy & [Hk Hu] & Hn)%visible_sorted; [|apply sorted_b_ok; vm_compute; reflexivity].
  apply (Hn (w_del 7 "u")); [compute_dec|done|].
  unfold r, w_base in Hy. simpl in Hy. rewrite !elem_of_cons, elem_of_nil in Hy.
  destruct Hy as [->|[->|[->|[->|[]]]]]; simpl in *; unfold earlier; simpl; lia || done.
Qed.

Lemma never_settles :
  ∃ a b f, time_sorted a ∧ time_sorted b ∧ compatible a b ∧ two_choices f ∧ ¬ settles a b f [].
Proof.
  pose (d1 := w_del 5 "u"). pose (d2 := w_del 6 "u"). pose (x := w_set 7 "u" "k" "v").
  pose (a := w_base ++ [d1]). pose (b := w_base ++ [d2; x]).
  pose (f := λ _ : tx, resolveDiscardInitial).
  pose (r1 := [mk_conflict ConflictKindDeleteSet d1 d2 resolveNone]).
  pose (r2 := [mk_conflict ConflictKindDeleteSet d2 x resolveNone]).
  exists a, b, f.
  split; [apply sorted_b_ok; vm_compute; reflexivity|]. split; [apply sorted_b_ok; vm_compute; reflexivity|].
  split; [apply compat_b_ok; vm_compute; reflexivity|]. split; [by left|].
  assert (TxMerge a b [] = Ok (Conflicts r1)) as H0 by compute_dec.
  assert (TxMerge a b (answer f <$> r1) = Ok (Conflicts r2)) as H1 by compute_dec.
  assert (TxMerge a b (answer f <$> r2) = Ok (Conflicts r1)) as H2 by compute_dec.
  assert (∀ res, settles a b f res → res = [] ∨ res = answer f <$> r1 ∨ res = answer f <$> r2 → False) as Hno.
  { induction 1 as [res c HM|res cs HM _ IH]; intros Hres.
    - destruct Hres as [->|[->| ->]]; congruence.
    - apply IH. destruct Hres as [->|[->| ->]]; rewrite HM in *; simplify_eq; auto. }
  intros Hs. by apply (Hno [] Hs); left.
Qed.

Lemma Merge_first_total a b : (∃ r, TxMerge a b [] = Ok r) ↔ ¬ (a = [] ∧ b = []).
Proof.
  rewrite <-Merge_panic_iff. split.
  - intros [r ->]. done.
  - intros H. destruct (TxMerge a b []) as [r|e|] eqn:HM; [eauto| |done]. by apply Merge_nofail in HM.
Qed.

Lemma mergeLogs_clean_spec local remote inp c :
  valid_log local → valid_log remote → compatible local remote → no_impostor local remote →
  is_union local remote c → conflict_free c → same_root local remote → remote ≠ [] →
  mergeLogs local remote inp = UOk c inp.
Proof.
  intros Ha Hb Hc Hni Hu. rewrite (is_union_is_union_log local remote c) by (apply Ha || apply Hb || apply Hc || done).
  by apply mergeLogs_clean.
Qed.

Lemma yes_words s : s ∈ ["y"; "Y"; "yes"; "YES"] ↔ yes_word s = true.
Proof.
  unfold yes_word. rewrite !elem_of_cons, elem_of_nil. rewrite !orb_true_iff, !String.eqb_eq. tauto.
Qed.

Lemma mergeLogs_forced_spec local remote c s inp :
  valid_log local → valid_log remote → compatible local remote →
  is_union local remote c → conflict_free c → local ≠ [] → remote ≠ [] → ¬ same_root local remote →
  s ∈ ["y"; "Y"; "yes"; "YES"] →
  mergeLogs local remote (ILine s :: inp) = UOk c inp.
Proof.
  intros Ha Hb Hc Hu. rewrite (is_union_is_union_log local remote c) by (apply Ha || apply Hb || apply Hc || done).
  rewrite yes_words. by apply mergeLogs_forced.
Qed.

Lemma mergeLogs_root_spec local remote inp c rest x y :
  head local = Some x → head remote = Some y → tx_time x ≠ tx_time y →
  mergeLogs local remote inp = UOk c rest →
  ∃ pre s post, inp = pre ++ ILine s :: post ∧ s ∈ ["y"; "Y"; "yes"; "YES"].
Proof.
  intros Hx Hy Ht HM. destruct (mergeLogs_root local remote inp c rest x y Hx Hy Ht HM) as (pre & s & post & ? & ?).
  exists pre, s, post. by rewrite yes_words.
Qed.

Lemma mergeLogs_stuck_spec local remote c d x inp r rest :
  valid_log local → valid_log remote → compatible local remote → no_impostor local remote →
  is_union local remote c → edit_after_delete c d x →
  mergeLogs local remote inp ≠ UOk r rest.
Proof.
  intros Ha Hb Hc Hni Hu Hed. pose proof Hu as Hu'.
  rewrite (is_union_is_union_log local remote c) in * by (apply Ha || apply Hb || apply Hc || done).
  assert (¬ conflict_free (union_log local remote)) as Hncf.
  { intros Hcf. destruct Hed as ((Hd & Hk & _) & Hx & Hux & He & _). by apply (Hcf d x). }
  apply mergeLogs_stuck; auto.
  - intros Hl. apply Hni in Hl as <-. apply Hncf. rewrite union_log_self.
    apply (valid_conflict_free local Ha (compatible_sub_l _ _ Hc)).
  - intros ->. apply Hncf. rewrite union_log_nil_r. apply (valid_conflict_free local Ha (compatible_sub_l _ _ Hc)).
Qed.
