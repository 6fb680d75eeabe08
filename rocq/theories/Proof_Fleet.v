(** Proofs about machines that sync through one file. *)
From Verif Require Import Proof_TxLog Proof_Merge Proof_Merge3 Proof_Merge4 Proof_Sync Spec_Fleet.
From Coq Require Import Lia.
From stdpp Require Import options.
#[local] Open Scope nat_scope.

Lemma put_same i l f : put i l f i = l.
Proof. unfold put. by rewrite Nat.eqb_refl. Qed.
Lemma put_other i j l f : j ≠ i → put i l f j = f j.
Proof. unfold put. intros H. by destruct (Nat.eqb_spec j i). Qed.

(** ** Sorted logs and their first transaction *)
Definition begins (r : tx) (l : list tx) : Prop := ∃ l', l = r :: l'.
Lemma begins_least r l : time_sorted l → begins r l → ∀ x, x ∈ l → x = r ∨ earlier r x.
Proof.
  intros Hs [l' ->] x Hx. apply elem_of_cons in Hx as [->|Hx]; [by left|right].
  inversion Hs as [|? ? _ Hf]; subst. rewrite Forall_forall in Hf. by apply Hf.
Qed.
Lemma least_begins r l : time_sorted l → r ∈ l → (∀ x, x ∈ l → x = r ∨ earlier r x) → begins r l.
Proof.
  intros Hs Hr H. destruct l as [|y l]; [by apply elem_of_nil in Hr|].
  destruct (H y (elem_of_list_here _ _)) as [->|He]; [by exists l|]. exfalso.
  assert (r = y ∨ earlier y r) as [->|He'] by (eapply begins_least; [done|by exists l|done]); unfold earlier in *; lia.
Qed.
Lemma union_begins r a b c : time_sorted a → time_sorted b → begins r a → begins r b → is_union a b c → begins r c.
Proof.
  intros Ha Hb Ra Rb [Hs Hc]. apply least_begins; [done| |].
  - apply Hc. left. destruct Ra as [l ->]. apply elem_of_list_here.
  - intros x [Hx|Hx]%Hc; [exact (begins_least r a Ha Ra x Hx)|exact (begins_least r b Hb Rb x Hx)].
Qed.
Lemma begins_root r a b : begins r a → begins r b → same_root a b.
Proof. intros [a' ->] [b' ->] x y [= <-] [= <-]. done. Qed.
Lemma alike_look a b : a ≠ [] → alike b a → look_alike a b.
Proof.
  intros Hne (Hl & Hh & Hla). destruct a as [|x a] using rev_ind; [done|]. clear IHa.
  destruct b as [|y b _] using rev_ind; [rewrite app_length in Hl; cbn in Hl; lia|]. split; [done|]. split.
  - destruct (a ++ [x]) as [|x0 ?] eqn:Ea; [by destruct a|]. destruct (b ++ [y]) as [|y0 ?] eqn:Eb; [by destruct b|].
    exists x0, y0. cbn in Hh. injection Hh as Hh. by rewrite Hh.
  - exists x, y. rewrite !last_snoc in *. cbn in Hla. injection Hla as Hla. by rewrite Hla.
Qed.

(** ** What holds all the time *)
Record good_fleet (n : nat) (r : tx) (st : fleet) : Prop := mk_good_fleet {
  g_hub : valid_log (f_hub st);
  g_log : ∀ i, valid_log (f_log st i);
  g_ids : time_ids (f_made st);
  g_hub_made : ∀ x, x ∈ f_hub st → x ∈ f_made st;
  g_log_made : ∀ i x, x ∈ f_log st i → x ∈ f_made st;
  g_hub_root : begins r (f_hub st);
  g_log_root : ∀ i, begins r (f_log st i);
  g_new : ∀ i, ∃ b l, f_log st i = b ++ l ∧ (∀ x, x ∈ b → x ∈ f_hub st) ∧ (∀ x, x ∈ l → x ∉ f_hub st ∧ ∀ j, j ≠ i → x ∉ f_log st j);
  g_kept : ∀ x, x ∈ f_made st → x ∈ f_hub st ∨ ∃ i, i < n ∧ x ∈ f_log st i;
  g_out : ∀ i, n ≤ i → ∀ x, x ∈ f_log st i → x ∈ f_hub st;
}.

Lemma fleet_ni n r st i : good_fleet n r st → no_impostor (f_log st i) (f_hub st).
Proof.
  intros G Ha. destruct (g_new _ _ _ G i) as (b & l & E & Hb & Hl). destruct l as [|x l _] using rev_ind.
  - rewrite app_nil_r in E. apply subset_no_impostor; [apply (g_log _ _ _ G)|apply (g_hub _ _ _ G)| |done]. by rewrite E.
  - destruct Ha as (_ & _ & x' & y & Hx & Hy & Ht). rewrite E, app_assoc, last_snoc in Hx. injection Hx as <-.
    assert (y ∈ f_hub st) as Hyh by (apply last_Some in Hy as [h ->]; apply elem_of_app; right; apply elem_of_list_singleton; done).
    assert (x ∈ f_log st i) as Hxl by (rewrite E; set_solver).
    assert (x = y) as -> by (eapply (g_ids _ _ _ G); [eapply g_log_made; eassumption|by apply (g_hub_made _ _ _ G)|done]).
    destruct (Hl y) as [Hn _]; [set_solver|]. done.
Qed.
Lemma fleet_compat n r st i : good_fleet n r st → unique_adds (f_made st) → compatible (f_log st i) (f_hub st).
Proof.
  intros G Hu. assert (∀ x, x ∈ f_log st i ++ f_hub st → x ∈ f_made st) as Hs.
  { intros x [H|H]%elem_of_app; [eapply g_log_made; eassumption|eapply g_hub_made; eassumption]. }
  split; [by eapply time_ids_sub; [|apply (g_ids _ _ _ G)]|]. intros x y Hx Hy. apply Hu; by apply Hs.
Qed.
(** A sync makes the union of both, on both sides, and asks nothing. *)
Lemma fleet_merge n r st i : good_fleet n r st → peaceful (f_made st) →
  let c := union_log (f_log st i) (f_hub st) in
  TxMerge (f_log st i) (f_hub st) [] = Ok (Merged c) ∧ is_union (f_log st i) (f_hub st) c ∧ conflict_free c ∧ valid_log c ∧ begins r c.
Proof.
  intros G [Hu Hcf] c. pose proof (g_log _ _ _ G i) as Vl. pose proof (g_hub _ _ _ G) as Vh. pose proof (fleet_compat n r st i G Hu) as Hc.
  assert (is_union (f_log st i) (f_hub st) c) as Hun by (apply union_log_is_union; [apply Vl|apply Vh|apply Hc]).
  assert (conflict_free c) as Hcc.
  { assert (∀ y, y ∈ c → y ∈ f_made st) as Hm by (intros y [H|H]%Hun; [exact (g_log_made _ _ _ G i y H)|exact (g_hub_made _ _ _ G y H)]).
    intros d x Hd Hx. exact (Hcf d x (Hm d Hd) (Hm x Hx)). }
  assert (TxMerge (f_log st i) (f_hub st) [] = Ok (Merged c)) as E.
  { apply Merge_merged_iff; [done|done|done|exact (fleet_ni n r st i G)| |].
    - intros [E0 _]. destruct (g_log_root _ _ _ G i) as [l El]. by rewrite E0 in El.
    - split; [done|]. split; [done|]. eapply begins_root; [apply (g_log_root _ _ _ G)|apply (g_hub_root _ _ _ G)]. }
  split; [done|]. split; [done|]. split; [done|]. split.
  - split; [apply Hun|]. split; [exact (Merge_replayable_all _ _ c Vl Vh Hc E)|]. by apply union_known_kinds.
  - eapply (union_begins r _ _ c); [apply Vl|apply Vh|apply (g_log_root _ _ _ G)|apply (g_hub_root _ _ _ G)|done].
Qed.
Lemma hub_ne n r st : good_fleet n r st → f_hub st ≠ [].
Proof. intros G E. destruct (g_hub_root _ _ _ G) as [l H]. by rewrite E in H. Qed.
Lemma log_ne n r st i : good_fleet n r st → f_log st i ≠ [].
Proof. intros G E. destruct (g_log_root _ _ _ G i) as [l H]. by rewrite E in H. Qed.
Lemma merged_unasked l h c inp : h ≠ [] → TxMerge l h [] = Ok (Merged c) → mergeLogs l h inp = UOk c inp.
Proof. intros Hh E. unfold mergeLogs. destruct h as [|x h]; [done|]. cbn [merge_rounds]. by rewrite E. Qed.
Lemma union_self_of a b : a = b → time_sorted a → union_log a b = a.
Proof. intros <- _. apply union_log_self. Qed.

Lemma fleet_step n r st i l h : good_fleet n r st → peaceful (f_made st) →
  (shared_sync_step (f_log st i) (f_hub st) l h ↔ l = union_log (f_log st i) (f_hub st) ∧ h = l).
Proof.
  intros G Hp. destruct (fleet_merge n r st i G Hp) as (E & Hun & _ & _ & _). pose proof (hub_ne _ _ _ G) as Hh. pose proof (log_ne _ _ _ i G) as Hl.
  destruct (no_changes_spec (f_hub st) (f_log st i) Hl) as (b & Eb & Hb).
  split.
  - intros [H|c H Hm].
    + assert (f_log st i = f_hub st) as Eq.
      { eapply (fleet_ni n r st i G). apply alike_look; [done|]. apply Hb. congruence. }
      rewrite <-Eq, union_log_self. done.
    + specialize (Hm []). rewrite (merged_unasked _ _ _ [] Hh E) in Hm. injection Hm as <-. done.
  - intros [-> ->]. destruct b.
    + assert (f_log st i = f_hub st) as Eq.
      { eapply (fleet_ni n r st i G). apply alike_look; [done|]. by apply Hb. }
      rewrite Eq, union_log_self. constructor. by rewrite Eq in Eb.
    + constructor; [done|]. intros inp. by apply merged_unasked.
Qed.

Lemma good_start n r p : valid_log p → time_ids p → begins r p → good_fleet n r (mk_fleet p (λ _, p) p).
Proof.
  intros Hv Ht Hr. constructor; cbn; try done; try (by intros).
  - intros i. exists p, []. rewrite app_nil_r. split; [done|]. split; [done|]. intros x Hx. by apply elem_of_nil in Hx.
  - intros x Hx. by left.
Qed.
Lemma good_change n r st i x : good_fleet n r st → i < n → (∀ y, y ∈ f_made st → tx_time y ≠ tx_time x) → valid_log (f_log st i ++ [x]) →
  good_fleet n r (mk_fleet (f_hub st) (put i (f_log st i ++ [x]) (f_log st)) (f_made st ++ [x])).
Proof.
  intros G Hi Hf Hv. assert (x ∉ f_made st) as Hx by (intros Hx; by apply (Hf x)).
  constructor; cbn [f_hub f_log f_made].
  - apply (g_hub _ _ _ G).
  - intros j. destruct (decide (j = i)) as [->|Hj]; [by rewrite put_same|rewrite put_other by done; apply (g_log _ _ _ G)].
  - intros a b Ha Hb Hab. apply elem_of_app in Ha as [Ha|Ha%elem_of_list_singleton], Hb as [Hb|Hb%elem_of_list_singleton]; subst; try done.
    + by apply (g_ids _ _ _ G).
    + by destruct (Hf a Ha).
    + by destruct (Hf b Hb).
  - intros y Hy. apply elem_of_app. left. by apply (g_hub_made _ _ _ G).
  - intros j y Hy. apply elem_of_app. destruct (decide (j = i)) as [->|Hj].
    + rewrite put_same in Hy. apply elem_of_app in Hy as [Hy|Hy]; [left; eapply g_log_made; eassumption|by right].
    + rewrite put_other in Hy by done. left. eapply g_log_made; eassumption.
  - apply (g_hub_root _ _ _ G).
  - intros j. destruct (decide (j = i)) as [->|Hj]; [rewrite put_same|rewrite put_other by done; apply (g_log_root _ _ _ G)].
    destruct (g_log_root _ _ _ G i) as [l ->]. by exists (l ++ [x]).
  - intros j. destruct (g_new _ _ _ G j) as (b & l & E & Hb & Hl). destruct (decide (j = i)) as [->|Hj].
    + exists b, (l ++ [x]). rewrite put_same, E, <-app_assoc. split; [done|]. split; [done|]. intros y [Hy|Hy%elem_of_list_singleton]%elem_of_app.
      * destruct (Hl y Hy) as [H1 H2]. split; [done|]. intros k Hk. rewrite put_other by done. by apply H2.
      * subst y. split; [intros H; apply Hx; by apply (g_hub_made _ _ _ G)|]. intros k Hk. rewrite put_other by done. intros H. apply Hx. eapply g_log_made; eassumption.
    + exists b, l. rewrite put_other by done. split; [done|]. split; [done|]. intros y Hy. destruct (Hl y Hy) as [H1 H2]. split; [done|].
      intros k Hk. destruct (decide (k = i)) as [->|Hki]; [|rewrite put_other by done; by apply H2]. rewrite put_same.
      intros [H|H%elem_of_list_singleton]%elem_of_app; [by apply (H2 i)|]. subst y. apply Hx. apply (g_log_made _ _ _ G j). rewrite E. apply elem_of_app. by right.
  - intros y [Hy|Hy%elem_of_list_singleton]%elem_of_app.
    + destruct (g_kept _ _ _ G y Hy) as [H|(j & Hj & H)]; [by left|]. right. exists j. split; [done|].
      destruct (decide (j = i)) as [->|Hji]; [rewrite put_same; apply elem_of_app; by left|by rewrite put_other].
    + subst y. right. exists i. split; [done|]. rewrite put_same. apply elem_of_app. right. by apply elem_of_list_singleton.
  - intros j Hj. rewrite put_other by lia. by apply (g_out _ _ _ G).
Qed.
Lemma good_sync n r st i l h : good_fleet n r st → peaceful (f_made st) → i < n → shared_sync_step (f_log st i) (f_hub st) l h →
  good_fleet n r (mk_fleet h (put i l (f_log st)) (f_made st)).
Proof.
  intros G Hp Hi H. apply (fleet_step n r st i l h G Hp) in H as [-> ->].
  destruct (fleet_merge n r st i G Hp) as (_ & [_ Hun] & _ & Vc & Rc). set (c := union_log (f_log st i) (f_hub st)) in *.
  constructor; cbn [f_hub f_log f_made]; try done.
  - intros j. destruct (decide (j = i)) as [->|Hj]; [by rewrite put_same|rewrite put_other by done; apply (g_log _ _ _ G)].
  - apply (g_ids _ _ _ G).
  - intros x [H|H]%Hun; [eapply g_log_made; eassumption|eapply g_hub_made; eassumption].
  - intros j x Hx. destruct (decide (j = i)) as [->|Hj].
    + rewrite put_same in Hx. apply Hun in Hx as [H|H]; [eapply g_log_made; eassumption|eapply g_hub_made; eassumption].
    + rewrite put_other in Hx by done. eapply g_log_made; eassumption.
  - intros j. destruct (decide (j = i)) as [->|Hj]; [by rewrite put_same|rewrite put_other by done; apply (g_log_root _ _ _ G)].
  - intros j. destruct (decide (j = i)) as [->|Hj].
    + exists c, []. rewrite put_same, app_nil_r. split; [done|]. split; [done|]. intros x Hx. by apply elem_of_nil in Hx.
    + destruct (g_new _ _ _ G j) as (b & l & E & Hb & Hl). exists b, l. rewrite put_other by done. split; [done|]. split; [intros x Hx; apply Hun; right; by apply Hb|].
      intros x Hx. destruct (Hl x Hx) as [H1 H2]. assert (x ∉ c) as Hxc by (intros [H|H]%Hun; [by apply (H2 i)|done]). split; [done|].
      intros k Hk. destruct (decide (k = i)) as [->|Hki]; [by rewrite put_same|rewrite put_other by done; by apply H2].
  - intros x Hx. destruct (g_kept _ _ _ G x Hx) as [H|(j & Hj & H)]; [left; apply Hun; by right|].
    destruct (decide (j = i)) as [->|Hji]; [left; apply Hun; by left|]. right. exists j. split; [done|]. by rewrite put_other.
  - intros j Hj x. rewrite put_other by lia. intros Hx. apply Hun. right. by apply (g_out _ _ _ G j).
Qed.

Lemma peaceful_sub l l' : (∀ x, x ∈ l → x ∈ l') → peaceful l' → peaceful l.
Proof. intros H [H1 H2]. split; [intros x y Hx Hy; apply H1; auto|intros d x Hd Hx; apply H2; auto]. Qed.
Lemma runs_good n p r st : valid_log p → begins r p → runs n p st → peaceful (f_made st) → good_fleet n r st.
Proof.
  intros Hv Hr H. induction H as [|st i x H IH Hi Hf Hx|st i l h H IH Hi Hs]; cbn [f_made]; intros Hp.
  - apply good_start; [done| |done]. by apply time_sorted_ids, Hv.
  - apply good_change; try done. apply IH. eapply peaceful_sub; [|exact Hp]. intros y Hy. apply elem_of_app. by left.
  - apply good_sync; try done. by apply IH.
Qed.

(** ** Rounds *)
Lemma round_good n r is : ∀ st st', good_fleet n r st → peaceful (f_made st) → Forall (λ i, i < n) is → round is st st' →
  good_fleet n r st' ∧ f_made st' = f_made st ∧ (∀ x, x ∈ f_hub st → x ∈ f_hub st') ∧ (∀ i x, x ∈ f_log st i → x ∈ f_log st' i) ∧
  (∀ i, i ∈ is → ∀ x, x ∈ f_log st i → x ∈ f_hub st') ∧ (∀ i, i ∉ is → f_log st' i = f_log st i).
Proof.
  induction is as [|i is IH]; intros st st' G Hp Hi H; inversion H as [|? ? ? l h ? Hs Hr]; subst.
  { split_and!; try done. intros i Hi' . by apply elem_of_nil in Hi'. }
  inversion Hi as [|? ? Hi0 Hi1]; subst. pose proof (good_sync n r st i l h G Hp Hi0 Hs) as G1.
  apply (fleet_step n r st i l h G Hp) in Hs as [-> ->]. destruct (fleet_merge n r st i G Hp) as (_ & [_ Hun] & _). set (c := union_log (f_log st i) (f_hub st)) in *.
  destruct (IH _ st' G1 Hp Hi1 Hr) as (G' & E1 & H1 & H2 & H3 & H4). cbn [f_hub f_log f_made] in *. split_and!; try done.
  - intros x Hx. apply H1, Hun. by right.
  - intros j x Hx. apply H2. destruct (decide (j = i)) as [->|Hj]; [rewrite put_same; apply Hun; by left|by rewrite put_other].
  - intros j Hj x Hx. destruct (decide (j = i)) as [->|Hji]; [apply H1, Hun; by left|]. apply elem_of_cons in Hj as [?|Hj]; [done|]. apply (H3 j Hj). by rewrite put_other.
  - intros j Hj. apply not_elem_of_cons in Hj as [Hji Hj]. rewrite (H4 j Hj). by rewrite put_other.
Qed.
Lemma round_runs n p is : ∀ st st', runs n p st → Forall (λ i, i < n) is → round is st st' → runs n p st'.
Proof.
  induction is as [|i is IH]; intros st st' G Hi H; inversion H as [|? ? ? l h ? Hs Hr]; subst; [done|]. inversion Hi; subst.
  eapply IH; [|done|done]. by apply runs_sync.
Qed.
Lemma round_exists n r is : ∀ st, good_fleet n r st → peaceful (f_made st) → Forall (λ i, i < n) is → ∃ st', round is st st'.
Proof.
  induction is as [|i is IH]; intros st G Hp Hi; [exists st; constructor|]. inversion Hi as [|? ? Hi0 Hi1]; subst.
  assert (shared_sync_step (f_log st i) (f_hub st) (union_log (f_log st i) (f_hub st)) (union_log (f_log st i) (f_hub st))) as Hs by (by apply (fleet_step n r st i)).
  destruct (IH _ (good_sync n r st i _ _ G Hp Hi0 Hs) Hp Hi1) as [st' H]. exists st'. by econstructor.
Qed.
Lemma sub_union a b : time_sorted a → time_sorted b → time_ids (a ++ b) → (∀ x, x ∈ a → x ∈ b) → union_log a b = b.
Proof.
  intros Ha Hb Ht Hs. symmetry. apply is_union_is_union_log; [done..|]. split; [done|]. intros x. split; [by right|]. intros [H|H]; auto.
Qed.
(** Once the file has everything a round only brings it to the machines. *)
Lemma round_full n r is : ∀ st st', good_fleet n r st → peaceful (f_made st) → Forall (λ i, i < n) is → (∀ x, x ∈ f_made st → x ∈ f_hub st) →
  round is st st' → f_hub st' = f_hub st ∧ (∀ i, i ∈ is → f_log st' i = f_hub st) ∧ (∀ i, f_log st i = f_hub st → f_log st' i = f_hub st).
Proof.
  induction is as [|i is IH]; intros st st' G Hp Hi Hf H; inversion H as [|? ? ? l h ? Hs Hr]; subst.
  { split; [done|]. split; [|done]. intros i Hi'. by apply elem_of_nil in Hi'. }
  inversion Hi as [|? ? Hi0 Hi1]; subst. pose proof (good_sync n r st i l h G Hp Hi0 Hs) as G1.
  apply (fleet_step n r st i l h G Hp) in Hs as [-> ->].
  assert (union_log (f_log st i) (f_hub st) = f_hub st) as E.
  { apply sub_union; [apply (g_log _ _ _ G)|apply (g_hub _ _ _ G)| |].
    - apply (fleet_compat n r st i G), Hp.
    - intros x Hx. apply Hf. eapply g_log_made; eassumption. }
  rewrite E in *. destruct (IH _ st' G1 Hp Hi1 Hf Hr) as (E1 & H1 & H2). cbn [f_hub f_log] in *. split; [done|]. split.
  - intros j [->|Hj]%elem_of_cons; [|by apply H1]. apply H2. by rewrite put_same.
  - intros j Hj. apply H2. destruct (decide (j = i)) as [->|Hji]; [by rewrite put_same|by rewrite put_other].
Qed.

Lemma fleet_converges n p st is js st1 st2 : valid_log p → p ≠ [] → runs n p st → peaceful (f_made st) →
  (∀ i, i ∈ is ↔ i < n) → (∀ i, i ∈ js ↔ i < n) → round is st st1 → round js st1 st2 →
  (∀ x, x ∈ f_hub st1 ↔ x ∈ f_made st) ∧ f_hub st2 = f_hub st1 ∧ ∀ i, i < n → f_log st2 i = f_hub st2.
Proof.
  intros Hv Hne H Hp Hi Hj R1 R2. destruct p as [|r p]; [done|]. assert (begins r (r :: p)) as Hr by (by exists p).
  pose proof (runs_good n _ r st Hv Hr H Hp) as G.
  assert (Forall (λ i, i < n) is) as Fi by (apply Forall_forall; intros i; apply Hi).
  assert (Forall (λ i, i < n) js) as Fj by (apply Forall_forall; intros i; apply Hj).
  destruct (round_good n r is st st1 G Hp Fi R1) as (G1 & E1 & H1 & H2 & H3 & _).
  assert (∀ x, x ∈ f_made st → x ∈ f_hub st1) as Hall.
  { intros x Hx. destruct (g_kept _ _ _ G x Hx) as [Hh|(i & Hin & Hh)]; [by apply H1|]. by apply (H3 i (proj2 (Hi i) Hin)). }
  destruct (round_full n r js st1 st2 G1) as (E2 & H4 & _); try done; [by rewrite E1|by rewrite E1|].
  split.
  - intros x. split; [|apply Hall]. intros Hx. rewrite <-E1. by apply (g_hub_made _ _ _ G1).
  - split; [done|]. intros i Hin. rewrite E2. apply H4. by apply Hj.
Qed.
Lemma fleet_sync n p st i : valid_log p → p ≠ [] → runs n p st → peaceful (f_made st) →
  ∃ c, (∀ l h, shared_sync_step (f_log st i) (f_hub st) l h ↔ l = c ∧ h = c) ∧ is_union (f_log st i) (f_hub st) c ∧ replayable c.
Proof.
  intros Hv Hne H Hp. destruct p as [|r p]; [done|]. assert (begins r (r :: p)) as Hr by (by exists p).
  pose proof (runs_good n _ r st Hv Hr H Hp) as G. exists (union_log (f_log st i) (f_hub st)).
  destruct (fleet_merge n r st i G Hp) as (_ & Hu & _ & Hvc & _). split; [|split; [done|apply Hvc]].
  intros l h. rewrite (fleet_step n r st i l h G Hp). split; [intros [-> ->]; done|intros [-> ->]; done].
Qed.
Lemma fleet_kept n p st is st' : valid_log p → p ≠ [] → runs n p st → peaceful (f_made st) → Forall (λ i, i < n) is → round is st st' →
  (∀ x, x ∈ f_hub st → x ∈ f_hub st') ∧ (∀ i x, x ∈ f_log st i → x ∈ f_log st' i) ∧ (∀ i, i ∈ is → ∀ x, x ∈ f_log st i → x ∈ f_hub st') ∧
  ∀ x, x ∈ f_made st → x ∈ f_hub st ∨ ∃ i, i < n ∧ x ∈ f_log st i.
Proof.
  intros Hv Hne H Hp Fi R. destruct p as [|r p]; [done|]. assert (begins r (r :: p)) as Hr by (by exists p).
  pose proof (runs_good n _ r st Hv Hr H Hp) as G. destruct (round_good n r is st st' G Hp Fi R) as (_ & _ & H1 & H2 & H3 & _).
  split; [done|]. split; [done|]. split; [done|]. apply (g_kept _ _ _ G).
Qed.
Lemma fleet_round n p st is : valid_log p → p ≠ [] → runs n p st → peaceful (f_made st) → Forall (λ i, i < n) is → ∃ st', round is st st'.
Proof.
  intros Hv Hne H Hp Fi. destruct p as [|r p]; [done|]. eapply (round_exists n r); [|done|done]. eapply runs_good; try done. by exists p.
Qed.
(** what the sync command needs *)
Lemma fleet_pair n p st i : valid_log p → p ≠ [] → runs n p st → peaceful (f_made st) →
  let l := f_log st i in let h := f_hub st in
  valid_log l ∧ valid_log h ∧ compatible l h ∧ no_impostor l h ∧ same_root l h ∧ h ≠ [] ∧ conflict_free (union_log l h) ∧ (alike h l → l = h).
Proof.
  intros Hv Hne H Hp l h. destruct p as [|r p]; [done|]. assert (begins r (r :: p)) as Hr by (by exists p).
  pose proof (runs_good n _ r st Hv Hr H Hp) as G. destruct (fleet_merge n r st i G Hp) as (_ & _ & Hc & _).
  pose proof (fleet_ni n r st i G) as Hni.
  split; [apply (g_log _ _ _ G)|]. split; [apply (g_hub _ _ _ G)|]. split; [apply (fleet_compat n r st i G), Hp|]. split; [done|].
  split; [eapply begins_root; [apply (g_log_root _ _ _ G)|apply (g_hub_root _ _ _ G)]|]. split; [apply (hub_ne n r st G)|]. split; [done|].
  intros Ha. apply Hni, alike_look; [apply (log_ne n r st i G)|done].
Qed.
