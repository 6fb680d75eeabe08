(** Proofs about the transaction log store. *)
From Verif Require Export Spec_TxLog.
From Coq Require Import Lia ZifyBool ZifyNat.
From stdpp Require Import options.

Lemma applyTx_step m t m' : applyTx m t = Ok m' ↔ tx_step m t m'.
Proof.
  destruct t as [ti kd u k v]; unfold applyTx, getEntry; simpl.
  unfold TxAdd, TxDelete, TxSetKey, TxDeleteKey.
  split.
  - destruct (String.eqb_spec kd "add") as [->|H1].
    { destruct (m !! u) eqn:E; [discriminate|]; intros [= <-]; by constructor. }
    destruct (String.eqb_spec kd "del") as [->|H2].
    { destruct (m !! u) eqn:E; [|discriminate]; intros [= <-]; by econstructor. }
    destruct (String.eqb_spec kd "setk") as [->|H3].
    { destruct (m !! u) eqn:E; [|discriminate]; intros [= <-]; by econstructor. }
    destruct (String.eqb_spec kd "delk") as [->|H4].
    { destruct (m !! u) eqn:E; [|discriminate]; intros [= <-]; by econstructor. }
    intros [= <-]; by constructor.
  - inversion 1 as [? ? ? ? ? Hu|? ? ? ? ? e Hu|? ? ? ? ? e Hu|? ? ? ? ? e Hu|? ? ? ? ? ? H1 H2 H3 H4]; subst; simpl;
      try (rewrite Hu; reflexivity).
    by rewrite (proj2 (String.eqb_neq _ _) H1), (proj2 (String.eqb_neq _ _) H2),
      (proj2 (String.eqb_neq _ _) H3), (proj2 (String.eqb_neq _ _) H4).
Qed.

Lemma applyTx_nopanic m t : applyTx m t ≠ Panic.
Proof. unfold applyTx, getEntry. repeat case_match; congruence. Qed.

Lemma tx_step_det m t m1 m2 : tx_step m t m1 → tx_step m t m2 → m1 = m2.
Proof. rewrite <-!applyTx_step. congruence. Qed.

Lemma replays_from_app m l1 l2 m' :
  replays_from m (l1 ++ l2) m' ↔ ∃ m1, replays_from m l1 m1 ∧ replays_from m1 l2 m'.
Proof.
  revert m; induction l1 as [|t l1 IH]; intros m; simpl.
  - split; [intros; exists m; split; [constructor|done]|].
    intros (m1 & H & ?); by inversion H; subst.
  - split.
    + inversion 1; subst. apply IH in H5 as (m1 & ? & ?). exists m1. split; [by econstructor|done].
    + intros (m1 & H & ?). inversion H; subst. econstructor; [done|]. apply IH; eauto.
Qed.

Lemma replays_from_one m t m' : replays_from m [t] m' ↔ tx_step m t m'.
Proof.
  split.
  - inversion 1 as [|? ? ? ? ? ? Hn]; subst. by inversion Hn; subst.
  - intros. econstructor; [done|constructor].
Qed.

Lemma replays_snoc log t m :
  replays (log ++ [t]) m ↔ ∃ m1, replays log m1 ∧ tx_step m1 t m.
Proof.
  unfold replays. rewrite replays_from_app.
  by setoid_rewrite replays_from_one.
Qed.

Lemma replays_from_det m log m1 m2 : replays_from m log m1 → replays_from m log m2 → m1 = m2.
Proof.
  induction 1 as [|? ? ? ? ? Hs ? IH]; inversion 1 as [|? ? ? ? ? Hs2]; subst; [done|].
  apply IH. by rewrite (tx_step_det _ _ _ _ Hs Hs2).
Qed.

Lemma replays_det log m1 m2 : replays log m1 → replays log m2 → m1 = m2.
Proof. apply replays_from_det. Qed.

Lemma apply_loop_ok m v l m' v' :
  apply_loop m v l = (m', v', Ok tt) ↔ replays_from m l m' ∧ v' = (v + length l)%nat.
Proof.
  revert m v; induction l as [|t l IH]; intros m v; simpl.
  - split; [intros [= -> ->]; split; [constructor|lia]|].
    intros [H ->]; inversion H; subst. by rewrite Nat.add_0_r.
  - destruct (applyTx m t) as [m1|e|] eqn:E.
    + rewrite IH. apply applyTx_step in E. split.
      * intros [? ->]; split; [by econstructor|lia].
      * intros [H ->]. inversion H; subst. split; [|lia].
        by rewrite (tx_step_det _ _ _ _ E H3).
    + split; [discriminate|]. intros [H ->]. inversion H; subst.
      apply applyTx_step in H3. congruence.
    + by apply applyTx_nopanic in E.
Qed.

Lemma apply_loop_fail m v l m' v' e :
  apply_loop m v l = (m', v', Fail e) →
  ∃ l1 t l2, l = l1 ++ t :: l2 ∧ replays_from m l1 m' ∧ v' = (v + length l1)%nat ∧ applyTx m' t = Fail e.
Proof.
  revert m v; induction l as [|t l IH]; intros m v; simpl; [discriminate|].
  destruct (applyTx m t) as [m1|e1|] eqn:E.
  - intros (l1 & t' & l2 & -> & ? & -> & ?)%IH. exists (t :: l1), t', l2. simpl.
    repeat split; [|lia|done]. econstructor; [by apply applyTx_step|done].
  - intros [= -> -> ->]. exists [], t, l. repeat split; [constructor|simpl; lia|done].
  - discriminate.
Qed.

Lemma apply_loop_nopanic m v l m' v' : apply_loop m v l ≠ (m', v', Panic).
Proof.
  revert m v; induction l as [|t l IH]; intros m v; simpl; [discriminate|].
  destruct (applyTx m t) eqn:E; [apply IH|discriminate|].
  by apply applyTx_nopanic in E.
Qed.

Lemma apply_loop_fail_intro m v l1 t l2 m' e :
  replays_from m l1 m' → applyTx m' t = Fail e →
  apply_loop m v (l1 ++ t :: l2) = (m', (v + length l1)%nat, Fail e).
Proof.
  intros H. revert v. induction H as [m|m1 t1 m2 log m3 Hs ? IH]; intros v He; simpl.
  - by rewrite He, Nat.add_0_r.
  - apply applyTx_step in Hs as ->. rewrite IH; [|done]. by rewrite Nat.add_succ_r.
Qed.

Lemma no_step_fail m t : (∀ m', ¬ tx_step m t m') → ∃ e, applyTx m t = Fail e.
Proof.
  intros H. destruct (applyTx m t) as [m'|e|] eqn:E; [|eauto|by apply applyTx_nopanic in E].
  apply applyTx_step in E. by apply H in E.
Qed.

(** ** Coherence invariant *)
(** Rollback has room to reslice. *)
Definition txroom (d : db) : Prop :=
  (db_txpoint d - 1 ≤ length (vis (db_log d)) + length (spare (db_log d)))%nat.

Lemma coherent_new : coherent db_new.
Proof. split; [done|]. constructor. Qed.

Lemma coherent_reset d : coherent (ResetSnapshot d).
Proof. split; simpl; [lia|]. constructor. Qed.

Lemma slice_append_vis {A} (z : A) g s x : vis (slice_append z g s x) = vis s ++ [x].
Proof. unfold slice_append. by destruct (spare s). Qed.

Lemma slice_append_cap {A} (z : A) g s x :
  (length (vis s) + length (spare s) ≤
   length (vis (slice_append z g s x)) + length (spare (slice_append z g s x)))%nat.
Proof.
  rewrite slice_append_vis, app_length; simpl.
  unfold slice_append. destruct (spare s); simpl; lia.
Qed.

Lemma coherent_append g now d t : coherent d → coherent (appendLog g now d t).
Proof.
  intros [Hv Hr]. unfold coherent, appendLog; simpl. rewrite slice_append_vis, app_length.
  split; [simpl; lia|]. rewrite take_app_le by lia. done.
Qed.

Lemma UpdateSnapshot_log d d' r :
  UpdateSnapshot d = (d', r) → db_log d' = db_log d ∧ db_txpoint d' = db_txpoint d.
Proof.
  unfold UpdateSnapshot. case_match; [by intros [= <- <-]|].
  destruct (apply_loop _ _ _) as [[? ?] ?]. by intros [= <- <-].
Qed.

Lemma coherent_update d d' r : coherent d → UpdateSnapshot d = (d', r) →
  coherent d' ∧ r ≠ Panic ∧
  (r = Ok tt → db_version d' = length (vis (db_log d')) ∧ replays (vis (db_log d')) (snap_of d')).
Proof.
  intros [Hv Hr]. unfold UpdateSnapshot. destruct (length (vis (db_log d)) <=? db_version d)%nat eqn:E.
  - intros [= <- <-]. apply Nat.leb_le in E. split; [done|]. split; [done|]. intros _.
    assert (db_version d = length (vis (db_log d))) as Heq by lia. split; [done|].
    rewrite Heq, firstn_all in Hr. done.
  - apply Nat.leb_gt in E.
    destruct (apply_loop _ _ _) as [[m v] [[]|e|]] eqn:Hl; intros [= <- <-].
    + apply apply_loop_ok in Hl as [Hl ->]. rewrite drop_length.
      assert (replays (vis (db_log d)) m) as Hm.
      { rewrite <-(take_drop (db_version d) (vis (db_log d))). apply replays_from_app. eauto. }
      replace (db_version d + (length (vis (db_log d)) - db_version d))%nat
        with (length (vis (db_log d))) by lia.
      split; [split; simpl; [done|by rewrite firstn_all]|]. done.
    + apply apply_loop_fail in Hl as (l1 & t & l2 & Heq & Hl & -> & He).
      assert (length (drop (db_version d) (vis (db_log d))) = length (l1 ++ t :: l2)) as HL by congruence.
      rewrite drop_length, app_length in HL; simpl in HL.
      split; [|split; [done|discriminate]]. split; simpl; [lia|].
      assert (take (db_version d + length l1) (vis (db_log d)) = take (db_version d) (vis (db_log d)) ++ l1) as ->.
      { rewrite <-(take_drop (db_version d) (vis (db_log d))) at 1. rewrite Heq.
        rewrite take_app_ge by (rewrite take_length; lia). rewrite take_length_le by lia.
        replace (db_version d + length l1 - db_version d)%nat with (length l1) by lia.
        f_equal. by rewrite take_app. }
      apply replays_from_app. eauto.
    + by apply apply_loop_nopanic in Hl.
Qed.

Lemma update_complete d : coherent d → replayable (vis (db_log d)) →
  ∃ d', UpdateSnapshot d = (d', Ok tt).
Proof.
  intros [Hv Hr] [m Hm]. unfold UpdateSnapshot.
  destruct (length (vis (db_log d)) <=? db_version d)%nat eqn:E; [eauto|].
  rewrite <-(take_drop (db_version d) (vis (db_log d))) in Hm.
  apply replays_from_app in Hm as (m1 & H1 & H2).
  rewrite (replays_det _ _ _ H1 Hr) in H2.
  destruct (apply_loop (snap_of d) (db_version d) (drop (db_version d) (vis (db_log d)))) as [[m' v'] r] eqn:Hl.
  rewrite (proj2 (apply_loop_ok _ _ _ m (db_version d + length (drop (db_version d) (vis (db_log d)))))) in Hl;
    [|by split]. injection Hl as <- <- <-. eauto.
Qed.

Lemma slice_upto_ok {A} (s : slice A) n : (n ≤ length (vis s) + length (spare s))%nat →
  slice_upto s n = Ok (mk_slice (take n (vis s ++ spare s)) (drop n (vis s ++ spare s))).
Proof.
  intros. unfold slice_upto. rewrite app_length.
  destruct (Nat.leb_spec n (length (vis s) + length (spare s)))%nat; [done|lia].
Qed.

Lemma RollbackN_spec n d : coherent d →
  (n ≤ length (vis (db_log d)))%nat →
  ∃ d', RollbackN n d = (d', Ok tt) ∧ coherent d' ∧
    vis (db_log d') = take (length (vis (db_log d)) - n) (vis (db_log d)) ∧
    vis (db_log d') ++ spare (db_log d') = vis (db_log d) ++ spare (db_log d) ∧
    db_txpoint d' = db_txpoint d.
Proof.
  intros [Hv Hr] Hn. unfold RollbackN.
  destruct (Nat.eqb_spec n 0) as [->|Hn0].
  { exists d. repeat split; try done. rewrite Nat.sub_0_r, firstn_all. done. }
  destruct (Nat.ltb_spec (length (vis (db_log d))) n); [lia|].
  set (ln := length (vis (db_log d))) in *.
  assert (∀ s, db_log s = db_log d → slice_upto (db_log s) (ln - n) =
     Ok (mk_slice (take (ln - n) (vis (db_log d))) (drop (ln-n) (vis (db_log d)) ++ spare (db_log d)))) as HS.
  { intros s ->. rewrite slice_upto_ok by lia.
    rewrite take_app_le, drop_app_le by lia. done. }
  destruct (Nat.ltb_spec (ln - n) (db_version d)).
  - rewrite HS by done. eexists. split; [done|]. simpl. split; [|split; [done|split; [|done]]].
    + split; simpl; [lia|]. constructor.
    + by rewrite app_assoc, take_drop.
  - rewrite HS by done. eexists. split; [done|]. simpl. split; [|split; [done|split; [|done]]].
    + split; simpl; [rewrite take_length; lia|]. rewrite take_take, Nat.min_l by lia. done.
    + by rewrite app_assoc, take_drop.
Qed.

Lemma RollbackN_too_many n d : (length (vis (db_log d)) < n)%nat →
  ∃ e, RollbackN n d = (d, Fail e).
Proof.
  intros. unfold RollbackN. destruct (Nat.eqb_spec n 0); [lia|].
  destruct (Nat.ltb_spec (length (vis (db_log d))) n); [eauto|lia].
Qed.

Lemma Rollback_spec d : coherent d → txroom d → db_txpoint d ≠ 0%nat →
  ∃ d', Rollback d = Ok d' ∧ db_txpoint d' = 0%nat ∧
    vis (db_log d') = take (db_txpoint d - 1) (vis (db_log d) ++ spare (db_log d)) ∧
    (db_version d ≠ db_txpoint d → coherent d').
Proof.
  intros [Hv Hr] Hroom Hp. unfold Rollback, txroom in *.
  destruct (Nat.eqb_spec (db_txpoint d) 0); [done|].
  destruct (Nat.ltb_spec (db_txpoint d) (db_version d)).
  - simpl. rewrite slice_upto_ok by done. eexists. split; [done|]. simpl.
    split; [done|]. split; [done|]. intros _. split; simpl; [lia|]. constructor.
  - rewrite slice_upto_ok by done. eexists. split; [done|]. simpl.
    split; [done|]. split; [done|]. intros. split; simpl.
    + rewrite take_length, app_length. lia.
    + rewrite take_take, Nat.min_l by lia. rewrite take_app_le by lia. done.
Qed.

Lemma txroom_append g now d t : txroom d → txroom (appendLog g now d t).
Proof.
  unfold txroom, appendLog; simpl.
  pose proof (slice_append_cap tx_zero g (db_log d)
    (mk_tx now (tx_kind t) (tx_uuid t) (tx_key t) (tx_value t))). lia.
Qed.

Lemma step_inv d o d' r :
  coherent d → txroom d → (o = ORollback → db_version d ≠ db_txpoint d) →
  step d o = (d', r) → r ≠ Panic → coherent d' ∧ txroom d'.
Proof.
  intros Hc Ht Hg Hs Hr. destruct o; simpl in Hs;
    try (injection Hs as <- <-; split; [by apply coherent_append|by apply txroom_append]).
  - injection Hs as <- <-. split; [done|]. unfold txroom; simpl. lia.
  - unfold Commit in Hs. destruct (db_txpoint d =? 0)%nat; simplify_eq.
    split; [done|]. unfold txroom; simpl; lia.
  - destruct (Nat.eq_dec (db_txpoint d) 0) as [E|E].
    { unfold Rollback in Hs. rewrite E in Hs. simpl in Hs. by simplify_eq. }
    destruct (Rollback_spec d Hc Ht E) as (d1 & Hd1 & Htp & Hvis & Hco).
    rewrite Hd1 in Hs. simplify_eq. split; [by apply Hco, Hg|].
    unfold txroom. rewrite Htp. lia.
  - destruct (Nat.le_gt_cases n (length (vis (db_log d)))) as [Hn|Hn].
    + destruct (RollbackN_spec n d Hc Hn) as (d1 & Hd1 & ? & _ & Hcap & Htp).
      rewrite Hs in Hd1. simplify_eq. split; [done|].
      unfold txroom in *. rewrite <-app_length in *. rewrite Hcap, Htp. done.
    + destruct (RollbackN_too_many n d Hn) as [e He]. rewrite He in Hs. by simplify_eq.
  - destruct (coherent_update _ _ _ Hc Hs) as [? _]. split; [done|].
    destruct (UpdateSnapshot_log _ _ _ Hs) as [HL HT]. unfold txroom. by rewrite HL, HT.
  - injection Hs as <- <-. split; [apply coherent_reset|done].
Qed.

Lemma run_app d o1 o2 :
  run d (o1 ++ o2) = match run d o1 with Ok d' => run d' o2 | Fail e => Fail e | Panic => Panic end.
Proof.
  revert d; induction o1 as [|o o1 IH]; intros d; simpl; [done|].
  destruct (step d o) as [d' [[]|e|]]; auto.
Qed.

Lemma run_nofail d ops e : run d ops ≠ Fail e.
Proof.
  revert d; induction ops as [|o ops IH]; intros d; simpl; [done|].
  destruct (step d o) as [d' [[]|?|]]; auto.
Qed.

Lemma run_inv d ops d' :
  coherent d → txroom d → lucky d ops → run d ops = Ok d' → coherent d' ∧ txroom d'.
Proof.
  revert d; induction ops as [|o ops IH]; intros d Hc Ht Hl; simpl.
  - by intros [= <-].
  - destruct (step d o) as [d1 r] eqn:Hs. intros Hrun.
    assert (r ≠ Panic ∧ run d1 ops = Ok d') as [Hr Hrun'] by (destruct r; done).
    destruct (step_inv d o d1 r) as [Hc1 Ht1]; try done.
    { intros ->. by apply (Hl [] ops d). }
    apply (IH d1); try done.
    intros pre post d2 -> Hpre. apply (Hl (o :: pre) post d2); [done|].
    simpl. rewrite Hs. by destruct r.
Qed.

Lemma C01_snapshot_coherent_lemma ops d d' :
  lucky db_new ops → run db_new ops = Ok d → UpdateSnapshot d = (d', Ok tt) →
  replays (vis (db_log d)) (snap_of d') ∧ db_version d' = length (vis (db_log d)) ∧
  vis (db_log d') = vis (db_log d).
Proof.
  intros Hl Hrun Hu.
  destruct (run_inv db_new ops d) as [Hc _]; try done.
  { apply coherent_new. } { unfold txroom; simpl; lia. }
  destruct (coherent_update _ _ _ Hc Hu) as (_ & _ & H). destruct (H eq_refl) as [H1 H2].
  destruct (UpdateSnapshot_log _ _ _ Hu) as [-> _] . destruct (UpdateSnapshot_log _ _ _ Hu) as [HL _].
  rewrite HL in *. done.
Qed.

Lemma C01_update_succeeds_lemma ops d :
  lucky db_new ops → run db_new ops = Ok d →
  (replayable (vis (db_log d)) ↔ ∃ d', UpdateSnapshot d = (d', Ok tt)).
Proof.
  intros Hl Hrun.
  destruct (run_inv db_new ops d) as [Hc _]; try done.
  { apply coherent_new. } { unfold txroom; simpl; lia. }
  split.
  - by apply update_complete.
  - intros [d' Hu]. destruct (coherent_update _ _ _ Hc Hu) as (_ & _ & H).
    destruct (UpdateSnapshot_log _ _ _ Hu) as [HL _]. rewrite HL in H.
    exists (snap_of d'). by apply H.
Qed.

(** ** Transactions *)

Lemma step_keeps_prefix d o d' r n :
  coherent d → body_op o → step d o = (d', r) → r ≠ Panic →
  (n ≤ length (vis (db_log d')))%nat → (n ≤ length (vis (db_log d)))%nat →
  take n (vis (db_log d')) = take n (vis (db_log d)) ∧ db_txpoint d' = db_txpoint d.
Proof.
  intros Hc Hb Hs Hr Hn' Hn. destruct o; simpl in Hs; try done;
    try (injection Hs as <- <-; unfold Add, Set_, Delete, DeleteKey, appendLog; simpl;
         rewrite slice_append_vis, take_app_le by done; done).
  - destruct (Nat.le_gt_cases n0 (length (vis (db_log d)))) as [Hn0|Hn0].
    + destruct (RollbackN_spec n0 d Hc Hn0) as (d1 & Hd1 & ? & Hvis & Hcap & Htp).
      rewrite Hs in Hd1. simplify_eq. rewrite Hvis in Hn' |- *.
      rewrite take_length in Hn'. rewrite take_take, Nat.min_l by lia. done.
    + destruct (RollbackN_too_many n0 d Hn0) as [e He]. rewrite He in Hs. by simplify_eq.
  - destruct (UpdateSnapshot_log _ _ _ Hs) as [-> ->]. done.
  - by injection Hs as <- <-.
Qed.

Lemma run_keeps_prefix d body d' n :
  coherent d → txroom d → Forall body_op body → stays_above d n body → run d body = Ok d' →
  take n (vis (db_log d')) = take n (vis (db_log d)) ∧ db_txpoint d' = db_txpoint d ∧
  coherent d' ∧ txroom d' ∧ (n ≤ length (vis (db_log d')))%nat.
Proof.
  revert d; induction body as [|o body IH]; intros d Hc Ht Hb Hst; simpl.
  - intros [= <-]. repeat split; try done; try apply Hc. by apply (Hst [] []).
  - destruct (step d o) as [d1 r] eqn:Hs. intros Hrun.
    assert (r ≠ Panic ∧ run d1 body = Ok d') as [Hr Hrun'] by (destruct r; done).
    inversion Hb as [|? ? Ho Hb']; subst.
    destruct (step_inv d o d1 r) as [Hc1 Ht1]; try done.
    { intros ->. done. }
    assert (run d [o] = Ok d1) as Hone. { simpl. rewrite Hs. by destruct r. }
    destruct (step_keeps_prefix d o d1 r n) as [Hpre Htp]; try done.
    { by apply (Hst [o] body). } { by apply (Hst [] (o :: body)). }
    destruct (IH d1) as (H1 & H2 & H3 & H4 & H5); try done.
    { intros pre post d2 -> Hp. apply (Hst (o :: pre) post); [done|]. simpl. rewrite Hs. by destruct r. }
    rewrite H1, H2. done.
Qed.

Lemma C02_lemma d body err d1 :
  coherent d → Forall body_op body → run (Begin d) body = Ok d1 →
  stays_above (Begin d) (length (vis (db_log d))) body →
  db_version d1 ≠ (length (vis (db_log d)) + 1)%nat →
  ∃ d2, Do d body (Some err) = Ok (d2, Some err) ∧ vis (db_log d2) = vis (db_log d) ∧
    coherent d2 ∧ db_txpoint d2 = 0%nat.
Proof.
  intros Hc Hb Hrun Hst Hlucky. unfold Do. rewrite Hrun.
  assert (txroom (Begin d)) as Ht by (unfold txroom; simpl; lia).
  destruct (run_keeps_prefix (Begin d) body d1 (length (vis (db_log d))) Hc Ht Hb Hst Hrun)
    as (Hpre & Htp & Hc1 & Ht1 & Hlen).
  simpl in Htp, Hpre. rewrite firstn_all in Hpre.
  destruct (Rollback_spec d1 Hc1 Ht1) as (d2 & -> & Htp2 & Hvis & Hco); [rewrite Htp; lia|].
  eexists. split; [done|]. split; [|split].
  - rewrite Hvis, Htp. replace (length (vis (db_log d)) + 1 - 1)%nat with (length (vis (db_log d))) by lia.
    by rewrite take_app_le by lia.
  - apply Hco. by rewrite Htp.
  - done.
Qed.

(** Reads after a failed transaction are the reads before it. *)
Lemma C02_reads_lemma d body err d1 d2 m :
  coherent d → Forall body_op body → run (Begin d) body = Ok d1 →
  stays_above (Begin d) (length (vis (db_log d))) body →
  db_version d1 ≠ (length (vis (db_log d)) + 1)%nat →
  Do d body (Some err) = Ok (d2, Some err) →
  replays (vis (db_log d)) m →
  ∃ d3, UpdateSnapshot d2 = (d3, Ok tt) ∧ snap_of d3 = m ∧ vis (db_log d3) = vis (db_log d).
Proof.
  intros Hc Hb Hrun Hst Hl HDo Hm.
  destruct (C02_lemma d body err d1 Hc Hb Hrun Hst Hl) as (d2' & HDo' & Hvis & Hc2 & _).
  rewrite HDo in HDo'. injection HDo' as <-.
  destruct (update_complete d2 Hc2) as [d3 Hd3]; [by rewrite Hvis; exists m|].
  exists d3. split; [done|].
  destruct (coherent_update _ _ _ Hc2 Hd3) as (_ & _ & H). destruct (H eq_refl) as [_ H2].
  destruct (UpdateSnapshot_log _ _ _ Hd3) as [HL _]. rewrite HL, Hvis in *.
  split; [|done]. by apply (replays_det _ _ _ H2).
Qed.

Lemma C02_commit_lemma d body d1 :
  coherent d → Forall body_op body → run (Begin d) body = Ok d1 →
  ∃ d2, Do d body None = Ok (d2, None) ∧ vis (db_log d2) = vis (db_log d1) ∧
    db_snapshot d2 = db_snapshot d1 ∧ db_version d2 = db_version d1 ∧ db_txpoint d2 = 0%nat.
Proof.
  intros Hc Hb Hrun. unfold Do. rewrite Hrun.
  assert (db_txpoint d1 ≠ 0%nat) as Hp.
  { assert (txroom (Begin d)) as Ht by (unfold txroom; simpl; lia).
    destruct (run_keeps_prefix (Begin d) body d1 0 Hc Ht Hb) as (_ & -> & _); [|done|simpl; lia].
    intros ? ? ? ? ?. lia. }
  unfold Commit. destruct (Nat.eqb_spec (db_txpoint d1) 0); [done|]. eexists. done.
Qed.

(** ** Append-only history *)
Lemma run_append_only d ops d' :
  Forall not_undo ops → run d ops = Ok d' →
  vis (db_log d') = vis (db_log d) ++ concat (map written ops).
Proof.
  revert d; induction ops as [|o ops IH]; intros d Hf; simpl.
  - intros [= <-]. by rewrite app_nil_r.
  - inversion Hf as [|? ? Ho Hf']; subst.
    destruct (step d o) as [d1 r] eqn:Hs. intros Hrun.
    assert (run d1 ops = Ok d') as Hrun' by (by destruct r).
    rewrite (IH d1) by done. rewrite app_assoc. f_equal.
    destruct o; simpl in Hs; try done;
      try (injection Hs as <- _; unfold Add, Set_, Delete, DeleteKey, appendLog; simpl;
         rewrite slice_append_vis; done).
    + injection Hs as <- _. simpl. by rewrite app_nil_r.
    + unfold Commit in Hs. destruct (db_txpoint d =? 0)%nat; injection Hs as <- _; simpl; by rewrite app_nil_r.
    + destruct (UpdateSnapshot_log _ _ _ Hs) as [-> _]. by rewrite app_nil_r.
    + injection Hs as <- _. simpl. by rewrite app_nil_r.
Qed.

(** ** Last writer *)
Lemma visible_snoc log t u :
  visible (log ++ [t]) u ↔ is_add u t ∨ (visible log u ∧ ¬ is_del u t).
Proof.
  split.
  - intros (i & t' & Hi & Ha & Hn). apply lookup_app_Some in Hi as [Hi|[Hge Hi]].
    + right. split.
      * exists i, t'. repeat split; try apply Ha; try done. intros j t'' Hij Hj. apply (Hn j); [done|].
        by apply lookup_app_l_Some.
      * apply (Hn (length log)); [by apply lookup_lt_Some in Hi|]. by rewrite lookup_app_r, Nat.sub_diag by lia.
    + left. apply list_lookup_singleton_Some in Hi as [_ ->]. done.
  - intros [Ha|[(i & t' & Hi & Ha & Hn) Hd]].
    + exists (length log), t. split; [by rewrite lookup_app_r, Nat.sub_diag by lia|]. split; [done|].
      intros j t' Hj Hl. apply lookup_lt_Some in Hl. rewrite app_length in Hl. simpl in Hl. lia.
    + exists i, t'. split; [by apply lookup_app_l_Some|]. split; [done|].
      intros j t'' Hij Hj. apply lookup_app_Some in Hj as [Hj|[Hge Hj]].
      * by apply (Hn j).
      * apply list_lookup_singleton_Some in Hj as [_ <-]. done.
Qed.

Lemma last_written_snoc log t u k v :
  last_written (log ++ [t]) u k v ↔
  (is_set u k t ∧ tx_value t = v) ∨
  (last_written log u k v ∧ ¬ is_set u k t ∧ ¬ is_delk u k t ∧ ¬ is_del u t).
Proof.
  split.
  - intros (i & t' & Hi & Ha & Hv & Hn). apply lookup_app_Some in Hi as [Hi|[Hge Hi]].
    + right. split.
      * exists i, t'. split; [done|]. split; [done|]. split; [done|]. intros j t'' Hij Hj. apply (Hn j); [done|].
        by apply lookup_app_l_Some.
      * apply (Hn (length log)); [by apply lookup_lt_Some in Hi|]. by rewrite lookup_app_r, Nat.sub_diag by lia.
    + left. apply list_lookup_singleton_Some in Hi as [_ ->]. done.
  - intros [[Ha Hv]|[(i & t' & Hi & Ha & Hv & Hn) Hd]].
    + exists (length log), t. split; [by rewrite lookup_app_r, Nat.sub_diag by lia|]. split; [done|]. split; [done|].
      intros j t' Hj Hl. apply lookup_lt_Some in Hl. rewrite app_length in Hl. simpl in Hl. lia.
    + exists i, t'. split; [by apply lookup_app_l_Some|]. split; [done|]. split; [done|].
      intros j t'' Hij Hj. apply lookup_app_Some in Hj as [Hj|[Hge Hj]].
      * by apply (Hn j).
      * apply list_lookup_singleton_Some in Hj as [_ <-]. done.
Qed.

Lemma visible_nil u : ¬ visible [] u.
Proof. intros (i & t & Hi & _). by rewrite lookup_nil in Hi. Qed.
Lemma last_written_nil u k v : ¬ last_written [] u k v.
Proof. intros (i & t & Hi & _). by rewrite lookup_nil in Hi. Qed.

Lemma last_writer log m : replays log m →
  ∀ u, (is_Some (m !! u) ↔ visible log u) ∧
       ∀ k v, (m !! u ≫= lookup k) = Some v ↔ last_written log u k v.
Proof.
  revert m. induction log as [|t log IH] using rev_ind; intros m Hm u.
  - inversion Hm; subst. rewrite lookup_empty. split.
    + split; [by intros [? ?]|by intros ?%visible_nil].
    + intros k v. split; [done|by intros ?%last_written_nil].
  - apply replays_snoc in Hm as (m1 & H1 & Hs). specialize (IH m1 H1).
    rewrite visible_snoc. setoid_rewrite last_written_snoc.
    unfold is_add, is_del, is_set, is_delk.
    destruct (IH u) as [IHu1 IHu2].
    inversion Hs as [? ? u' ? ? Hu|? ? u' ? ? e Hu|? ? u' k' v' e Hu|? ? u' k' v' e Hu|? ? ? u' ? ? N1 N2 N3 N4]; subst; simpl;
      destruct (decide (u' = u)) as [<-|Hne];
      rewrite ?lookup_insert, ?lookup_delete, ?lookup_insert_ne, ?lookup_delete_ne by done; split.
    + split; [by left|]. eauto.
    + intros k0 v0. rewrite <-IHu2, Hu. simpl. rewrite lookup_empty. naive_solver.
    + rewrite IHu1. naive_solver.
    + intros k0 v0. rewrite IHu2. naive_solver.
    + split; [by intros [? ?]|]. naive_solver.
    + intros k0 v0. naive_solver.
    + rewrite IHu1. naive_solver.
    + intros k0 v0. rewrite IHu2. naive_solver.
    + rewrite Hu in IHu1. rewrite <-IHu1. split; [|eauto]. intros _. right. split; [eauto|]. naive_solver.
    + intros k0 v0. rewrite <-IHu2, Hu. simpl.
      destruct (decide (k' = k0)) as [<-|Hk].
      * rewrite lookup_insert. naive_solver.
      * rewrite lookup_insert_ne by done. naive_solver.
    + rewrite IHu1. naive_solver.
    + intros k0 v0. rewrite IHu2. naive_solver.
    + rewrite Hu in IHu1. rewrite <-IHu1. split; [|eauto]. intros _. right. split; [eauto|]. naive_solver.
    + intros k0 v0. rewrite <-IHu2, Hu. simpl.
      destruct (decide (k' = k0)) as [<-|Hk].
      * rewrite lookup_delete. naive_solver.
      * rewrite lookup_delete_ne by done. naive_solver.
    + rewrite IHu1. naive_solver.
    + intros k0 v0. rewrite IHu2. naive_solver.
    + rewrite IHu1. naive_solver.
    + intros k0 v0. rewrite IHu2. naive_solver.
    + rewrite IHu1. naive_solver.
    + intros k0 v0. rewrite IHu2. naive_solver.
Qed.

(** ** History *)
Lemma replays_prefix l1 l2 : replayable (l1 ++ l2) → replayable l1.
Proof. intros [m (m1 & ? & _)%replays_from_app]. by exists m1. Qed.

Lemma replays_entry log m u : replays log m →
  ∃ m', replays (entry_txs u log) m' ∧ m' !! u = m !! u.
Proof.
  unfold entry_txs. revert m. induction log as [|t log IH] using rev_ind; intros m Hm.
  - inversion Hm; subst. exists ∅. split; [constructor|done].
  - apply replays_snoc in Hm as (m1 & H1 & Hs). destruct (IH m1 H1) as (m2 & H2 & Heq).
    rewrite filter_app. rewrite filter_cons, filter_nil. unfold on_entry.
    destruct (decide (tx_uuid t = u)) as [Hu|Hu].
    + assert (∃ m3, tx_step m2 t m3 ∧ m3 !! u = m !! u) as (m3 & Hs3 & Heq3).
      { inversion Hs as [? ? u' ? ? Hl|? ? u' ? ? e Hl|? ? u' k' v' e Hl|? ? u' k' v' e Hl|? ? ? u' ? ? N1 N2 N3 N4]; subst; simpl in *;
          try (rewrite <-Heq in Hl); eexists; (split; [by econstructor|]);
          rewrite ?lookup_insert, ?lookup_delete; done. }
      exists m3. split; [|done]. apply replays_snoc. eauto.
    + rewrite app_nil_r. exists m2. split; [done|]. rewrite Heq.
      inversion Hs; subst; simpl in *; rewrite ?lookup_insert_ne, ?lookup_delete_ne by done; done.
Qed.

Lemma SnapshotAt_in_range d n : replayable (vis (db_log d)) →
  (n ≤ length (vis (db_log d)))%nat →
  ∃ m, SnapshotAt d (Z.of_nat n) = Ok m ∧ replays (take (length (vis (db_log d)) - n) (vis (db_log d))) m.
Proof.
  intros Hrep Hn. unfold SnapshotAt.
  set (log := vis (db_log d)) in *.
  destruct (Z.ltb_spec (Z.of_nat (length log)) (Z.of_nat n)); [lia|].
  replace (Z.to_nat (Z.of_nat (length log) - 1 - Z.of_nat n + 1)) with (length log - n)%nat by lia.
  destruct (replays_prefix (take (length log - n) log) (drop (length log - n) log)) as [m Hm].
  { by rewrite take_drop. }
  exists m. rewrite (proj2 (apply_loop_ok ∅ 0 _ m (0 + length (take (length log - n) log)))); [|done].
  destruct (Z.ltb_spec (Z.of_nat (length log) - 1 - Z.of_nat n) (Z.of_nat (length log))); [done|lia].
Qed.

Lemma SnapshotAt_too_far d n : (Z.of_nat (length (vis (db_log d))) < n)%Z →
  ∃ e, SnapshotAt d n = Fail e.
Proof.
  intros. unfold SnapshotAt. destruct (Z.ltb_spec (Z.of_nat (length (vis (db_log d)))) n); [eauto|lia].
Qed.

Lemma SnapshotAt_negative d n : replayable (vis (db_log d)) → (n < 0)%Z → SnapshotAt d n = Panic.
Proof.
  intros [m Hm] Hn. unfold SnapshotAt.
  set (log := vis (db_log d)) in *.
  destruct (Z.ltb_spec (Z.of_nat (length log)) n); [lia|].
  rewrite take_ge by lia.
  rewrite (proj2 (apply_loop_ok ∅ 0 _ m (0 + length log))); [|done].
  destruct (Z.ltb_spec (Z.of_nat (length log) - 1 - n) (Z.of_nat (length log))); [lia|done].
Qed.

Lemma entry_txs_eq u log : filter (λ t, tx_uuid t = u) log = entry_txs u log.
Proof. unfold entry_txs. apply list_filter_iff. done. Qed.

Lemma EntrySnapshotAt_in_range d u pre t post m :
  vis (db_log d) = pre ++ t :: post → tx_uuid t = u →
  replays (pre ++ [t]) m →
  EntrySnapshotAt d u (Z.of_nat (length (entry_txs u post))) =
    match m !! u with Some e => Ok e | None => Fail (EKeyNotFound u "" "") end.
Proof.
  intros Hlog Hu Hm. unfold EntrySnapshotAt. rewrite Hlog, entry_txs_eq.
  assert (length (entry_txs u post) ≤ length post)%nat as Hle by apply filter_length.
  rewrite !app_length; simpl.
  destruct (Z.leb_spec (Z.of_nat (length pre + S (length post))) (Z.of_nat (length (entry_txs u post)))); [lia|].
  assert (entry_txs u (pre ++ t :: post) = entry_txs u (pre ++ [t]) ++ entry_txs u post) as ->.
  { unfold entry_txs. rewrite <-filter_app, <-app_assoc. done. }
  rewrite app_length.
  destruct (replays_entry _ _ u Hm) as (m' & Hm' & <-).
  assert (1 ≤ length (entry_txs u (pre ++ [t])))%nat.
  { unfold entry_txs. rewrite filter_app, app_length, filter_cons_True by done. simpl. lia. }
  set (n1 := length (entry_txs u (pre ++ [t]))) in *. set (n2 := length (entry_txs u post)) in *.
  destruct (Z.ltb_spec (Z.of_nat (n1 + n2)) (Z.of_nat n2)); [lia|].
  replace (Z.to_nat (Z.of_nat (n1 + n2) - 1 - Z.of_nat n2 + 1)) with n1 by lia.
  unfold n1. rewrite take_app.
  rewrite (proj2 (apply_loop_ok ∅ 0 _ m' (0 + n1))); [|by split].
  fold n1. destruct (Z.ltb_spec (Z.of_nat (n1 + n2) - 1 - Z.of_nat n2) (Z.of_nat (n1 + n2))); [done|lia].
Qed.

Lemma EntrySnapshotAt_too_far d u n :
  (Z.of_nat (length (entry_txs u (vis (db_log d)))) ≤ n)%Z →
  ∃ e, EntrySnapshotAt d u n = Fail e.
Proof.
  intros Hn. unfold EntrySnapshotAt. rewrite entry_txs_eq.
  set (log := vis (db_log d)) in *.
  destruct (Z.leb_spec (Z.of_nat (length log)) n); [eauto|].
  destruct (Z.ltb_spec (Z.of_nat (length (entry_txs u log))) n); [eauto|].
  assert (n = Z.of_nat (length (entry_txs u log))) as -> by lia.
  replace (Z.to_nat _) with 0%nat by lia. simpl.
  destruct (Z.ltb_spec (Z.of_nat (length (entry_txs u log)) - 1 - Z.of_nat (length (entry_txs u log)))
     (Z.of_nat (length (entry_txs u log)))); [|lia].
  rewrite lookup_empty. eauto.
Qed.

Lemma EntrySnapshotAt_negative d u n :
  replayable (vis (db_log d)) → (n < 0)%Z → EntrySnapshotAt d u n = Panic.
Proof.
  intros [m Hm] Hn. unfold EntrySnapshotAt. rewrite entry_txs_eq.
  set (log := vis (db_log d)) in *.
  destruct (Z.leb_spec (Z.of_nat (length log)) n); [lia|].
  destruct (Z.ltb_spec (Z.of_nat (length (entry_txs u log))) n); [lia|].
  rewrite take_ge by lia.
  destruct (replays_entry _ _ u Hm) as (m' & Hm' & _).
  rewrite (proj2 (apply_loop_ok ∅ 0 _ m' (0 + length (entry_txs u log)))); [|done].
  destruct (Z.ltb_spec (Z.of_nat (length (entry_txs u log)) - 1 - n) (Z.of_nat (length (entry_txs u log)))); [lia|done].
Qed.

(** Every version number of an entry is one of those cut points. *)
Lemma entry_cut u log n : (n < length (entry_txs u log))%nat →
  ∃ pre t post, log = pre ++ t :: post ∧ tx_uuid t = u ∧ length (entry_txs u post) = n.
Proof.
  unfold entry_txs. induction log as [|t log IH]; intros Hn; [simpl in Hn; lia|].
  rewrite filter_cons in Hn. destruct (decide (on_entry u t)) as [Hu|Hu].
  - simpl in Hn. destruct (decide (n = length (filter (on_entry u) log))) as [->|Hne].
    + exists [], t, log. done.
    + destruct IH as (pre & t' & post & -> & ? & ?); [lia|]. by exists (t :: pre), t', post.
  - destruct IH as (pre & t' & post & -> & ? & ?); [done|]. by exists (t :: pre), t', post.
Qed.

(** ** Bad transactions *)
Lemma bad_tx_reported d l1 t l2 m :
  coherent d → vis (db_log d) = l1 ++ t :: l2 → replays l1 m → (∀ m', ¬ tx_step m t m') →
  ∃ d' e, UpdateSnapshot d = (d', Fail e) ∧ snap_of d' = m ∧ db_version d' = length l1 ∧
    db_log d' = db_log d ∧ UpdateSnapshot d' = (d', Fail e).
Proof.
  intros [Hv Hr] Hlog Hm Hno.
  destruct (no_step_fail m t Hno) as [e He].
  assert (db_version d ≤ length l1)%nat as Hv1.
  { destruct (Nat.le_gt_cases (db_version d) (length l1)) as [|Hgt]; [done|exfalso].
    rewrite Hlog in Hr. rewrite take_app_ge in Hr by lia.
    replace (db_version d - length l1)%nat with (S (db_version d - length l1 - 1)) in Hr by lia.
    simpl in Hr. apply replays_from_app in Hr as (m1 & H1 & H2).
    rewrite (replays_det _ _ _ H1 Hm) in H2. inversion H2; subst. by eapply Hno. }
  assert (∃ l1', l1 = take (db_version d) l1 ++ l1' ∧ replays_from (snap_of d) l1' m) as (l1' & Hl1 & Hrep).
  { exists (drop (db_version d) l1). split; [by rewrite take_drop|].
    rewrite <-(take_drop (db_version d) l1) in Hm. apply replays_from_app in Hm as (m1 & H1 & H2).
    rewrite Hlog, take_app_le in Hr by done. by rewrite (replays_det _ _ _ Hr H1). }
  assert (length l1 = db_version d + length l1')%nat as HL1.
  { rewrite Hl1 at 1. rewrite app_length, take_length. lia. }
  set (d' := mk_db (length l1) (Some m) (db_log d) (db_txpoint d)).
  exists d', e. split; [|split; [done|split; [done|split; [done|]]]].
  - unfold UpdateSnapshot. rewrite Hlog at 1. rewrite app_length; simpl.
    destruct (Nat.leb_spec (length l1 + S (length l2)) (db_version d)); [lia|].
    replace (drop (db_version d) (vis (db_log d))) with (l1' ++ t :: l2).
    + rewrite (apply_loop_fail_intro _ _ _ _ _ m e) by done. rewrite <-HL1. done.
    + rewrite Hlog, drop_app_le by done. f_equal.
      rewrite Hl1 at 1. rewrite drop_app_ge by (rewrite take_length; lia).
      rewrite take_length_le by lia. by rewrite Nat.sub_diag.
  - unfold UpdateSnapshot; simpl. rewrite Hlog at 1. rewrite app_length; simpl.
    destruct (Nat.leb_spec (length l1 + S (length l2)) (length l1)); [lia|].
    rewrite Hlog, drop_app.
    unfold snap_of; simpl. by rewrite He.
Qed.

(** ** Counts *)
Lemma NVersions_spec d u : NVersions d u = length (entry_txs u (vis (db_log d))).
Proof.
  unfold NVersions, entry_txs. generalize (vis (db_log d)); intros log.
  assert (∀ n, nversions_loop u log n = (n + length (filter (on_entry u) log))%nat) as H.
  { induction log as [|t log IH]; intros n; simpl; [lia|].
    rewrite filter_cons. unfold on_entry at 1.
    destruct (String.eqb_spec (tx_uuid t) u), (decide (tx_uuid t = u)); try done; rewrite IH; simpl; lia. }
  by rewrite H.
Qed.

Lemma LastUpdated_spec d u :
  LastUpdated d u = match last (entry_txs u (vis (db_log d))) with Some t => tx_time t | None => (-1)%Z end.
Proof.
  unfold LastUpdated, entry_txs. generalize (vis (db_log d)); intros log.
  induction log as [|t log IH] using rev_ind; [done|].
  rewrite rev_app_distr, filter_app, filter_cons, filter_nil. simpl. unfold on_entry.
  destruct (String.eqb_spec (tx_uuid t) u), (decide (tx_uuid t = u)); try done.
  - by rewrite last_snoc.
  - by rewrite app_nil_r.
Qed.

(** ** Decision procedures for the guards (for the examples) *)
Fixpoint lucky_b (d : db) (ops : list op) : bool :=
  match ops with
  | [] => true
  | o :: r =>
      (match o with ORollback => negb (db_version d =? db_txpoint d)%nat | _ => true end) &&
      match step d o with (_, Panic) => true | (d', _) => lucky_b d' r end
  end.

Lemma lucky_b_ok d ops : lucky_b d ops = true → lucky d ops.
Proof.
  revert d; induction ops as [|o ops IH]; intros d; simpl.
  - intros _ [|? ?] post d' ?; simplify_eq.
  - intros [H1 H2]%andb_prop pre post d' Heq Hrun. destruct pre as [|o' pre]; simplify_eq/=.
    + rewrite negb_true_iff in H1. by apply Nat.eqb_neq.
    + destruct (step d o') as [d1 [[]|?|]]; try done; by eapply IH.
Qed.

Fixpoint stays_above_b (d : db) (n : nat) (ops : list op) : bool :=
  (n <=? length (vis (db_log d)))%nat &&
  match ops with
  | [] => true
  | o :: r => match step d o with (_, Panic) => true | (d', _) => stays_above_b d' n r end
  end.

Lemma stays_above_b_ok d n ops : stays_above_b d n ops = true → stays_above d n ops.
Proof.
  revert d; induction ops as [|o ops IH]; intros d; simpl.
  - intros [H1 _]%andb_prop [|? ?] post d' ? Hrun; simplify_eq/=. by apply Nat.leb_le.
  - intros [H1 H2]%andb_prop pre post d' Heq Hrun. destruct pre as [|o' pre]; simplify_eq/=.
    + by apply Nat.leb_le.
    + destruct (step d o') as [d1 [[]|?|]]; try done; by eapply IH.
Qed.

Fixpoint replay_fn (m : snapshot) (log : list tx) : option snapshot :=
  match log with
  | [] => Some m
  | t :: r => match applyTx m t with Ok m' => replay_fn m' r | _ => None end
  end.

Lemma replay_fn_ok m log m' : replay_fn m log = Some m' ↔ replays_from m log m'.
Proof.
  revert m; induction log as [|t log IH]; intros m; simpl.
  - split; [intros [= ->]; constructor|by inversion 1].
  - split.
    + destruct (applyTx m t) eqn:E; try done. intros ?%IH. econstructor; [by apply applyTx_step|done].
    + inversion 1 as [|? ? m2 ? ? Hs]; subst. apply applyTx_step in Hs as ->. by apply IH.
Qed.

Lemma replayable_fn log : is_Some (replay_fn ∅ log) → replayable log.
Proof. intros [m Hm]. exists m. by apply replay_fn_ok. Qed.

(** ** Transaction discipline *)
Lemma open_tx_correct ops : ∀ d, run db_new ops = Ok d → (db_txpoint d ≠ 0%nat ↔ open_tx ops = true).
Proof.
  induction ops as [|o ops IH] using rev_ind; intros d.
  - intros [= <-]. simpl. split; done.
  - rewrite run_app. unfold open_tx. rewrite fold_left_app. fold (open_tx ops). simpl.
    destruct (run db_new ops) as [d1| |] eqn:E; try done. specialize (IH d1 eq_refl).
    destruct (step d1 o) as [d2 r] eqn:Hs. intros Hr.
    assert (d2 = d ∧ r ≠ Panic) as [-> Hp] by (destruct r; simplify_eq; done). clear Hr.
    destruct o; simpl in Hs; try (injection Hs as <- <-; exact IH).
    + injection Hs as <- <-. simpl. split; [done|lia].
    + unfold Commit in Hs. destruct (Nat.eqb_spec (db_txpoint d1) 0); simplify_eq. simpl. split; done.
    + unfold Rollback in Hs. destruct (Nat.eqb_spec (db_txpoint d1) 0); [by simplify_eq|].
      destruct (slice_upto _ _) as [?|?|] eqn:Hsl; simplify_eq.
      * simpl. split; done.
      * unfold slice_upto in Hsl. by case_match.
    + assert (db_txpoint d = db_txpoint d1) as ->; [|done].
      unfold RollbackN in Hs. repeat case_match; simplify_eq; done.
    + destruct (UpdateSnapshot_log _ _ _ Hs) as [_ ->]. done.
Qed.


Lemma save_guard_spec d :
  (db_txpoint d = 0%nat → save_guard d = Ok tt) ∧
  (db_txpoint d ≠ 0%nat → ∃ e, save_guard d = Fail e).
Proof. unfold save_guard. destruct (Nat.eqb_spec (db_txpoint d) 0); split; eauto; done. Qed.

Lemma save_refused_inside ops d :
  run db_new ops = Ok d →
  (open_tx ops = true → ∃ e, save_guard d = Fail e) ∧ (open_tx ops = false → save_guard d = Ok tt).
Proof.
  intros Hr. pose proof (open_tx_correct ops d Hr) as H. destruct (save_guard_spec d) as [H1 H2].
  split; intros Ho.
  - apply H2, H. done.
  - apply H1. destruct (Nat.eq_dec (db_txpoint d) 0) as [|E]; [done|]. apply H in E. congruence.
Qed.

Lemma commit_rollback_need_begin ops d :
  run db_new ops = Ok d → open_tx ops = false → Commit d = Panic ∧ Rollback d = Panic.
Proof.
  intros Hr Ho. assert (db_txpoint d = 0%nat) as E.
  { destruct (Nat.eq_dec (db_txpoint d) 0) as [|E]; [done|]. apply (open_tx_correct ops d Hr) in E. congruence. }
  unfold Commit, Rollback. by rewrite E.
Qed.

Lemma run_coherent d ops d' :
  coherent d → db_txpoint d = 0%nat → lucky d ops → run d ops = Ok d' → coherent d'.
Proof.
  intros Hc Ht Hl Hr. apply (run_inv d ops d'); try done. unfold txroom. rewrite Ht. simpl. lia.
Qed.
