(** C99: machines that sync through one file. *)
From Verif Require Import Spec_Sync Spec_Merge Proof_Sync Proof_Sync2 Proof_Sync3 Proof_Sync5 Proof_TxLog Proof_Blobs Proof_Session Proof_SessionEx Proof_Crypt7 Proof_Sync6 Proof_Sync7 Proof_Merge Proof_Merge3 Proof_Merge4 Proof_Fleet Spec_Fleet Proof_Syncing Proof_SyncUsers Spec_SyncUsers Proof_Syncing5 Proof_SyncUsers2 Proof_SyncUsers3 Props_Merge Props_Sync Props_SyncUsers.
From Coq Require Import Lia.
From stdpp Require Import options.
Import Model_GoStr Spec_Fleet.
#[local] Open Scope nat_scope.
#[local] Opaque saveBlob loadBlob.

(** Whatever the machines did before and in which order they synced, a sync leaves the
    union of both logs on both sides, and asks nothing: no log passes for another one. *)
Theorem C99_sync_partial : ∀ n p st i, valid_log p → p ≠ [] → runs n p st → peaceful (f_made st) →
  ∃ c, (∀ l h, shared_sync_step (f_log st i) (f_hub st) l h ↔ l = c ∧ h = c) ∧ is_union (f_log st i) (f_hub st) c ∧ replayable c.
Proof. exact fleet_sync. Qed.
Print Assumptions C99_sync_partial.

(** Nothing recorded is lost: it is in the file or with a machine, what a machine has is in
    the file after its sync, and neither the file nor a machine ever loses something. *)
Theorem C99_kept_partial : ∀ n p st is st', valid_log p → p ≠ [] → runs n p st → peaceful (f_made st) → Forall (λ i, i < n) is → round is st st' →
  (∀ x, x ∈ f_hub st → x ∈ f_hub st') ∧ (∀ i x, x ∈ f_log st i → x ∈ f_log st' i) ∧ (∀ i, i ∈ is → ∀ x, x ∈ f_log st i → x ∈ f_hub st') ∧
  ∀ x, x ∈ f_made st → x ∈ f_hub st ∨ ∃ i, i < n ∧ x ∈ f_log st i.
Proof. exact fleet_kept. Qed.
Print Assumptions C99_kept_partial.

(** After every machine has synced the file has everything, and after every machine has
    synced once more, in any order, all have the log of the file.  What is missing in all of this are
    entries changed after they were deleted elsewhere. *)
Theorem C99_converge_partial : ∀ n p st is js st1 st2, valid_log p → p ≠ [] → runs n p st → peaceful (f_made st) →
  (∀ i, i ∈ is ↔ i < n) → (∀ i, i ∈ js ↔ i < n) → round is st st1 → round js st1 st2 →
  (∀ x, x ∈ f_hub st1 ↔ x ∈ f_made st) ∧ f_hub st2 = f_hub st1 ∧ ∀ i, i < n → f_log st2 i = f_hub st2.
Proof. exact fleet_converges. Qed.
Print Assumptions C99_converge_partial.

(** Such rounds of syncs can always be made. *)
Theorem C99_round_partial : ∀ n p st is, valid_log p → p ≠ [] → runs n p st → peaceful (f_made st) → Forall (λ i, i < n) is →
  ∃ st', round is st st' ∧ runs n p st'.
Proof.
  intros n p st is Hv Hne H Hp Fi. destruct (fleet_round n p st is Hv Hne H Hp Fi) as [st' R]. exists st'. split; [done|]. by eapply round_runs.
Qed.
Print Assumptions C99_round_partial.

(** The sync command of a machine with a single-user file, with the shared file as its
    remote, makes such a step. *)
Theorem C99_command_partial : ∀ n p st i P w name s sr inp m mr u url f sp e ord riv0 riv pass url2,
  valid_log p → p ≠ [] → runs n p st → peaceful (f_made st) →
  vis (db_log (s_db s)) = f_log st i → vis (db_log (s_db sr)) = f_hub st →
  prims_ok P → good (s_db s) m → well_named m → s_readOnly s = false → single_session P s pass →
  fair (y_env w 0) → fair_hosts w → y_iv w = Some riv → length riv = 40 →
  name ≠ "" → u ≠ "" → called m u name → at_file w m u url →
  good (s_db sr) mr → s_readOnly sr = false → single_session P sr pass → s_salt sr = s_salt s →
  length riv0 = 40 → saveBlob P e ord (Some riv0) sr = (sr, Ok (Some f)) → y_read w 0 url = Pulled (mk_slice f sp) →
  (∀ c m2, is_union (f_log st i) (f_hub st) c → replays c m2 → (Z.of_nat (length c) < 2 ^ 64)%Z ∧ at_file w m2 u url2) →
  ∃ l h s' ps, shared_sync_step (f_log st i) (f_hub st) l h ∧ sync P w name true s inp = (s', ps, UOk tt inp) ∧ vis (db_log (s_db s')) = l ∧
    (ps = [] ∧ h = f_hub st ∧ f_log st i = f_hub st ∨
     ∃ ct, ps = [mk_push u url2 ct (y_write w 0 url2 ct)] ∧
       ∀ sp rsalt r, ∃ s3, loadBlob P (Found (mk_slice ct sp)) None rsalt (ILine pass :: r) = UOk s3 r ∧ vis (db_log (s_db s3)) = h).
Proof.
  intros n p st i P w name s sr inp m mr u url f sp e ord riv0 riv pass url2 Hv Hne Hr Hp El Eh HP Hg Hn Hro Hss Hf Hfh Hiv Hl Hname Hu Hc Hat Hgr Hror Hssr Hsalt Hl0 Hsv Hrd Hm2.
  destruct (fleet_pair n p st i Hv Hne Hr Hp) as (Vl & Vh & Hco & Hni & Hro2 & Hhne & Hcf & Hal).
  destruct (C99_sync_partial n p st i Hv Hne Hr Hp) as (c & Hstep & Hun & [m2 Hm]).
  assert (c = union_log (f_log st i) (f_hub st)) as Ec by (apply is_union_is_union_log; [apply Vl|apply Vh|apply Hco|done]).
  assert (f_log st i ≠ []) as Hlne.
  { intros E0. rewrite E0 in Vl. assert (same_root (f_log st i) (f_hub st)) by done. apply (log_ne n (hd (mk_tx 0 "" "" "" "") p) st i); [|done].
    destruct p as [|r p]; [done|]. apply (runs_good n (r :: p) r st); try done. by exists p. }
  destruct (no_changes_spec (f_hub st) (f_log st i) Hlne) as (b & Eb & Hb). destruct b.
  - assert (alike (f_hub st) (f_log st i)) as Ha by (by apply Hb).
    destruct (C60_nothing_new P w name s sr inp m mr u url f sp e ord riv0 riv pass) as (s' & E & Hh & _); try done; [by rewrite El, Eh|].
    exists (f_log st i), (f_hub st), s', []. split; [by constructor|]. split; [exact E|]. split; [|left; split; [done|]; split; [done|by apply Hal]].
    destruct Hh as (_ & _ & _ & _ & _ & _ & Hlog & _). rewrite Hlog. cbn [merge_start m_log]. by rewrite app_nil_r.
  - assert (¬ alike (f_hub st) (f_log st i)) as Ha by (intros Ha; by apply Hb in Ha).
    destruct (Hm2 c m2 Hun Hm) as [Hlen Hat2].
    destruct (C60_shared_partial P w name s sr inp m mr u url f sp e ord riv0 riv pass c m2 url2) as (s' & ct & E & Hh & _ & _ & _ & Hld); try done; rewrite ?El, ?Eh; try done.
    { by rewrite Ec. }
    exists c, c, s', [mk_push u url2 ct (y_write w 0 url2 ct)]. split; [by apply Hstep|]. split; [exact E|]. split.
    + destruct Hh as (_ & _ & _ & _ & _ & _ & Hlog & _). rewrite Hlog. cbn [with_log m_log]. by rewrite app_nil_r.
    + right. exists ct. split; [done|]. intros sp' rsalt r. destruct (Hld sp' rsalt r) as (s3 & E3 & E4 & _). by exists s3.
Qed.
Print Assumptions C99_command_partial.

(** Three machines: the first two change something and sync, the third follows, with a
    clock that is behind. *)
Example C99_example : ∃ st, runs 3 base st ∧ valid_log base ∧ peaceful (f_made st) ∧
  f_hub st = base ++ [tset 9 "w" "k" "v"; tset 10 "u" "pass" "x"; tadd 11 "z"]%Z ∧ f_log st 0 = base ++ [tset 10 "u" "pass" "x"]%Z ∧ f_log st 2 = f_hub st.
Proof.
  assert (valid_log base) as Hb by (apply valid_b_ok; vm_compute; reflexivity).
  assert (∀ (l : list tx) x, Forall (λ y, tx_time y ≠ tx_time x) l → ∀ y, y ∈ l → tx_time y ≠ tx_time x) as Hfr by (intros l x H; by apply Forall_forall).
  assert (∀ l h c, no_changes h l = Ok false → h ≠ [] → TxMerge l h [] = Ok (Merged c) → shared_sync_step l h c c) as Hst.
  { intros l h c H1 H2 H3. constructor; [done|]. intros inp. by apply merged_unasked. }
  pose proof (runs_start 3 base) as R.
  apply (runs_change 3 base _ 0 (tset 10 "u" "pass" "x")) in R; [|lia|apply Hfr; repeat (constructor; [done|]); constructor|apply valid_b_ok; vm_compute; reflexivity].
  apply (runs_change 3 base _ 1 (tadd 11 "z")) in R; [|lia|apply Hfr; repeat (constructor; [done|]); constructor|apply valid_b_ok; vm_compute; reflexivity].
  apply (runs_change 3 base _ 2 (tset 9 "w" "k" "v")) in R; [|lia|apply Hfr; repeat (constructor; [done|]); constructor|apply valid_b_ok; vm_compute; reflexivity].
  apply (runs_sync 3 base _ 0 (base ++ [tset 10 "u" "pass" "x"]%Z) (base ++ [tset 10 "u" "pass" "x"]%Z)) in R; [|lia|apply Hst; [vm_compute; reflexivity|done|compute_dec]].
  apply (runs_sync 3 base _ 1 (base ++ [tset 10 "u" "pass" "x"; tadd 11 "z"]%Z) (base ++ [tset 10 "u" "pass" "x"; tadd 11 "z"]%Z)) in R; [|lia|apply Hst; [vm_compute; reflexivity|done|compute_dec]].
  apply (runs_sync 3 base _ 2 (base ++ [tset 9 "w" "k" "v"; tset 10 "u" "pass" "x"; tadd 11 "z"]%Z) (base ++ [tset 9 "w" "k" "v"; tset 10 "u" "pass" "x"; tadd 11 "z"]%Z)) in R; [|lia|apply Hst; [vm_compute; reflexivity|done|compute_dec]].
  eexists. split; [exact R|]. split; [done|]. cbn [f_made f_hub f_log]. split; [|split; [done|split; done]]. split.
  - intros x y Hx Hy. assert (compatible (base ++ [tset 10 "u" "pass" "x"; tadd 11 "z"; tset 9 "w" "k" "v"]%Z) []) as [_ H] by (apply compat_b_ok; vm_compute; reflexivity).
    rewrite app_nil_r in H. apply H; by rewrite ?app_assoc.
  - intros d x Hd _ Hk. assert (Forall (λ y, tx_kind y ≠ "del") (base ++ [tset 10 "u" "pass" "x"; tadd 11 "z"; tset 9 "w" "k" "v"]%Z)) as H by (repeat (constructor; [done|]); constructor).
    rewrite Forall_forall in H. by destruct (H d Hd).
Qed.

(** The second machine has synced a change, the first one syncs next. *)
Example C99_command_example : ∃ st s' ct, runs 2 sy_log st ∧ peaceful (f_made st) ∧ f_log st 0 = sy_log ∧ f_hub st = sy_log_p ∧
  sync toy (sy_world (λ _, Pulled (mk_slice (sy_file sy_log_p) []))) "first" true (sy_session sy_log) [] = (s', [mk_push "s1" "file:///a" ct None], UOk tt []) ∧
  vis (db_log (s_db s')) = sy_log_p.
Proof.
  set (x := mk_tx 20 "setk" "s2" "user" "root"). assert (valid_log sy_log) as Hv by (apply valid_b_ok; vm_compute; reflexivity).
  assert (valid_log sy_log_p) as Hvp by (apply valid_b_ok; vm_compute; reflexivity).
  pose proof (runs_start 2 sy_log) as R.
  apply (runs_change 2 sy_log _ 1 x) in R; [|lia|intros y Hy; revert y Hy; apply Forall_forall; repeat (constructor; [done|]); constructor|done].
  apply (runs_sync 2 sy_log _ 1 sy_log_p sy_log_p) in R; [|lia|].
  2:{ constructor; [vm_compute; reflexivity|]. intros inp. apply merged_unasked; [done|compute_dec]. }
  cbn [f_hub f_log f_made] in R. match type of R with runs _ _ ?S => set (st := S) in * end.
  assert (peaceful (f_made st)) as Hp.
  { split.
    - assert (compatible sy_log_p []) as [_ H] by (apply compat_b_ok; vm_compute; reflexivity). by rewrite app_nil_r in H.
    - intros d y Hd _ Hk. assert (Forall (λ y, tx_kind y ≠ "del") sy_log_p) as H by (repeat (constructor; [done|]); constructor).
      rewrite Forall_forall in H. by destruct (H d Hd). }
  destruct (C99_command_partial 2 sy_log st 0 toy (sy_world (λ _, Pulled (mk_slice (sy_file sy_log_p) []))) "first" (sy_session sy_log) (sy_session sy_log_p) [] sy_m sy_m_p "s1" "file:///a" (sy_file sy_log_p) []
    se_env map_to_list se_iv se_iv se_pass "file:///a") as (l & h & s' & ps & Hs & E & El & Hps).
  all: lazymatch goal with
    | |- ex _ => idtac
    | |- saveBlob _ _ _ _ _ = _ => apply (sy_saved _ sy_m_p), sy_good_p
    | |- prims_ok _ => apply toy_ok
    | |- good (s_db (sy_session sy_log)) _ => apply sy_good_0
    | |- good _ _ => apply sy_good_p
    | |- well_named _ => apply sy_named
    | |- single_session _ _ _ => apply sy_single
    | |- fair _ => apply se_fair
    | |- fair_hosts _ => apply sy_fair_hosts
    | |- called _ _ _ => exists sy_b1; split; [apply sy_s1|done]
    | |- at_file _ _ _ _ => split; [exists sy_b1; split; [apply sy_s1|done]|done]
    | |- ∀ c m2, _ => idtac
    | |- _ => done
    end.
  - intros c m2 Hu Hm. assert (c = sy_log_p) as ->.
    { eapply is_union_unique; [exact Hu|]. apply union_b_ok. vm_compute. reflexivity. }
    split; [done|]. assert (m2 = sy_m_p) as -> by (eapply replays_det; [exact Hm|apply sy_good_p]).
    split; [|done]. exists sy_b1. split; [|done]. unfold sy_m_p. rewrite lookup_insert_ne by done. apply sy_s1.
  - destruct (C99_sync_partial 2 sy_log st 0 Hv ltac:(done) R Hp) as (c & Hstep & Hu & _). apply Hstep in Hs as [-> ->].
    assert (c = sy_log_p) as ->.
    { eapply is_union_unique; [exact Hu|]. apply union_b_ok. vm_compute. reflexivity. }
    destruct Hps as [(_ & _ & Hsame)|(ct & -> & _)]; [|exists st, s', ct; split; [exact R|]; split; [exact Hp|]; split; [exact eq_refl|]; split; [exact eq_refl|]; split; [exact E|exact El]].
    apply (f_equal length) in Hsame. vm_compute in Hsame. discriminate.
Qed.

(** An entry deleted on one machine and changed on the other: the second one cannot sync
    any more, whatever is answered (C20). *)
Theorem C99_conflict_refuted : ∃ st, runs 2 base st ∧ valid_log base ∧ unique_adds (f_made st) ∧ ∀ l h, ¬ shared_sync_step (f_log st 1) (f_hub st) l h.
Proof.
  assert (∀ (l : list tx) x, Forall (λ y, tx_time y ≠ tx_time x) l → ∀ y, y ∈ l → tx_time y ≠ tx_time x) as Hfr by (intros l x H; by apply Forall_forall).
  pose proof (runs_start 2 base) as R.
  apply (runs_change 2 base _ 0 (tdel 10 "u")) in R; [|lia|apply Hfr; repeat (constructor; [done|]); constructor|apply valid_b_ok; vm_compute; reflexivity].
  apply (runs_sync 2 base _ 0 (base ++ [tdel 10 "u"]%Z) (base ++ [tdel 10 "u"]%Z)) in R; [|lia|].
  2:{ constructor; [vm_compute; reflexivity|]. intros inp. apply merged_unasked; [done|compute_dec]. }
  apply (runs_change 2 base _ 1 (tset 11 "u" "pass" "x")) in R; [|lia|apply Hfr; repeat (constructor; [done|]); constructor|apply valid_b_ok; vm_compute; reflexivity].
  eexists. split; [exact R|]. split; [apply valid_b_ok; vm_compute; reflexivity|]. split.
  - assert (compatible (base ++ [tdel 10 "u"; tset 11 "u" "pass" "x"]%Z) []) as [_ H] by (apply compat_b_ok; vm_compute; reflexivity). by rewrite app_nil_r in H.
  - cbn [f_log f_hub]. intros l h [H|c H Hm].
    + vm_compute in H. discriminate.
    + specialize (Hm []). vm_compute in Hm. discriminate.
Qed.
Print Assumptions C99_conflict_refuted.

(** Two machines that sync at the same time: both read the file before either has written
    it.  The logs they end with can pass for each other although each has something that
    the other has not, and then no further sync of any machine mends it. *)
Theorem C99_overlap_refuted : ∃ st a b, runs 3 base st ∧ valid_log base ∧ peaceful (f_made st) ∧
  shared_sync_step (f_log st 0) (f_hub st) a a ∧ shared_sync_step (f_log st 1) (f_hub st) b b ∧
  (∃ x y, x ∈ a ∧ x ∉ b ∧ y ∈ b ∧ y ∉ a) ∧
  ∀ is st', Forall (λ i, i < 3) is → round is (mk_fleet b (put 1 b (put 0 a (f_log st))) (f_made st)) st' → f_hub st' = b ∧ f_log st' 0 = a.
Proof.
  assert (∀ (l : list tx) x, Forall (λ y, tx_time y ≠ tx_time x) l → ∀ y, y ∈ l → tx_time y ≠ tx_time x) as Hfr by (intros l x H; by apply Forall_forall).
  assert (∀ l h c, no_changes h l = Ok false → h ≠ [] → TxMerge l h [] = Ok (Merged c) → shared_sync_step l h c c) as Hst.
  { intros l h c H1 H2 H3. constructor; [done|]. intros inp. by apply merged_unasked. }
  set (x := tset 10 "u" "pass" "x"). set (y := tset 11 "u" "user" "y"). set (z := tset 12 "w" "k" "v").
  pose proof (runs_start 3 base) as R.
  apply (runs_change 3 base _ 0 x) in R; [|lia|apply Hfr; repeat (constructor; [done|]); constructor|apply valid_b_ok; vm_compute; reflexivity].
  apply (runs_change 3 base _ 1 y) in R; [|lia|apply Hfr; repeat (constructor; [done|]); constructor|apply valid_b_ok; vm_compute; reflexivity].
  apply (runs_change 3 base _ 2 z) in R; [|lia|apply Hfr; repeat (constructor; [done|]); constructor|apply valid_b_ok; vm_compute; reflexivity].
  apply (runs_sync 3 base _ 2 (base ++ [z]) (base ++ [z])) in R; [|lia|apply Hst; [vm_compute; reflexivity|done|compute_dec]].
  eexists _, (base ++ [x; z]), (base ++ [y; z]). split; [exact R|]. split; [apply valid_b_ok; vm_compute; reflexivity|]. cbn [f_made f_hub f_log]. split.
  { split.
    - assert (compatible (base ++ [x; y; z]) []) as [_ H] by (apply compat_b_ok; vm_compute; reflexivity). by rewrite app_nil_r in H.
    - intros d e Hd _ Hk. assert (Forall (λ y, tx_kind y ≠ "del") (base ++ [x; y; z])) as H by (repeat (constructor; [done|]); constructor).
      rewrite Forall_forall in H. by destruct (H d Hd). }
  split; [apply Hst; [vm_compute; reflexivity|done|compute_dec]|]. split; [apply Hst; [vm_compute; reflexivity|done|compute_dec]|].
  split; [exists x, y; split_and!; compute_dec|].
  match goal with |- ∀ is st', _ → round is ?S st' → _ => set (st0 := S) end.
  assert (f_hub st0 = base ++ [y; z] ∧ f_log st0 0 = base ++ [x; z] ∧ f_log st0 1 = base ++ [y; z] ∧ (f_log st0 2 = base ++ [z] ∨ f_log st0 2 = base ++ [y; z])) as H0.
  { split; [done|]. split; [done|]. split; [done|]. by left. }
  clearbody st0. intros is. revert st0 H0. induction is as [|i is IH]; intros st0 (H1 & H2 & H3 & H4) st' Hi Hr; inversion Hr as [|? ? ? l h ? Hs Hr']; subst; [done|].
  inversion Hi as [|? ? Hi0 Hi1]; subst. refine (IH _ _ st' Hi1 Hr'). cbn [f_hub f_log].
  assert (∀ l0 h0 l h, no_changes h0 l0 = Ok true → shared_sync_step l0 h0 l h → l = l0 ∧ h = h0) as Hskip by (intros l0 h0 ? ? E []; [done|congruence]).
  destruct i as [|[|[|i]]]; [..|lia].
  - rewrite H1, H2 in Hs. apply Hskip in Hs as [-> ->]; [|vm_compute; reflexivity]. done.
  - rewrite H1, H3 in Hs. apply Hskip in Hs as [-> ->]; [|vm_compute; reflexivity]. done.
  - destruct H4 as [H4|H4]; rewrite H1, H4 in Hs.
    + destruct Hs as [E|c E Hm]; [vm_compute in E; discriminate|]. specialize (Hm []).
      rewrite (merged_unasked _ _ (base ++ [y; z])) in Hm; [|done|compute_dec]. injection Hm as <-. split; [done|]. split; [exact H2|]. split; [exact H3|]. by right.
    + apply Hskip in Hs as [-> ->]; [|vm_compute; reflexivity]. split; [done|]. split; [exact H2|]. split; [exact H3|]. by right.
Qed.
Print Assumptions C99_overlap_refuted.

(** ... and for a file of several users, when there is something new on either side *)
Theorem C99_command_users_partial : ∀ n p st i P w name s sr sa inp m mr u url f sp e ord riv0 x pass url2,
  valid_log p → p ≠ [] → runs n p st → peaceful (f_made st) →
  vis (db_log (s_db s)) = f_log st i → vis (db_log (s_db sr)) = f_hub st → f_log st i ≠ f_hub st →
  prims_ok P → serves P s m → s_readOnly s = false → s_user s = x → s_pass s = pass → s_key s = key_of P (str_bytes pass) (s_salt s) →
  fair (y_env w 0) → fair (y_env w 3) → fair_results (y_ord w) → fair_hosts w → (∀ b, y_iv w = Some b → length b = 40) →
  name ≠ "" → u ≠ "" → called m u name → at_file w m u url →
  serves P sr mr → s_readOnly sr = false → s_master sr = s_master s → unlocks P mr (s_master s) x pass → fair e → fair_results ord →
  (∀ b, riv0 = Some b → length b = 40) → saveBlob P e ord riv0 sr = (sa, Ok (Some f)) → y_read w 0 url = Pulled (mk_slice f sp) →
  (∀ c m2, is_union (f_log st i) (f_hub st) c → replays c m2 →
    (Z.of_nat (length c) < 2 ^ 64)%Z ∧ at_file w m2 u url2 ∧ well_named m2 ∧ table_ok P m2 ∧ unlocks P m2 (s_master s) x pass) →
  ∃ c m2 s' ct, shared_sync_step (f_log st i) (f_hub st) c c ∧ replays c m2 ∧ sync P w name true s inp = (s', [mk_push u url2 ct (y_write w 0 url2 ct)], UOk tt inp) ∧
    vis (db_log (s_db s')) = c ∧
    ∀ z pw, unlocks P m2 (s_master s) z pw → ∀ sp rsalt r, ∃ s3, loadBlob P (Found (mk_slice ct sp)) None rsalt (ILine z :: ILine pw :: r) = UOk s3 r ∧ vis (db_log (s_db s3)) = c.
Proof.
  intros n p st i P w name s sr sa inp m mr u url f sp e ord riv0 x pass url2 Hv Hne Hr Hp El Eh Hdiff HP Hsv Hro Hus Hpa Hk Hf Hf3 Hfr Hfh Hiv Hname Hu Hc Hat Hsr Hror Hma Hun2 He Ho Hriv Hsave Hrd Hm2.
  destruct (fleet_pair n p st i Hv Hne Hr Hp) as (Vl & Vh & Hco & Hni & Hro2 & Hhne & Hcf & Hal).
  destruct (C99_sync_partial n p st i Hv Hne Hr Hp) as (c & Hstep & Hun & [m2 Hm]).
  assert (c = union_log (f_log st i) (f_hub st)) as Ec by (apply is_union_is_union_log; [apply Vl|apply Vh|apply Hco|done]).
  destruct (Hm2 c m2 Hun Hm) as (Hlen & Hat2 & Hwn & Htb & Hul).
  destruct (C60_users_shared_partial P w name s sr sa inp m mr u url f sp e ord riv0 x pass c m2 url2) as (s' & ct & E & Hh & _ & _ & Hld);
    try assumption; rewrite ?El, ?Eh; try assumption.
  { by rewrite Ec. }
  { intros Ha. by apply Hdiff, Hal. }
  exists c, m2, s', ct. split; [by apply Hstep|]. split; [done|]. split; [exact E|]. split.
  - destruct Hh as (_ & _ & _ & _ & _ & _ & Hlog & _). rewrite Hlog. cbn [with_log m_log]. by rewrite app_nil_r.
  - intros z pw Hz sp' rsalt r. destruct (Hld z pw Hz sp' rsalt r) as (s3 & E3 & E4 & _). by exists s3.
Qed.
Print Assumptions C99_command_users_partial.

(** Alice's and Bob's file: the second machine has synced a new entry, the first one, with
    another one, syncs next. *)
Example C99_command_users_example : ∃ st s' ct, runs 2 cu_log st ∧ valid_log cu_log ∧ peaceful (f_made st) ∧
  f_log st 0 = cu_a ∧ f_hub st = cu_b ∧ serves clear (cu_session cu_a) cu_ma ∧ serves clear (cu_session cu_b) cu_mb ∧
  sync clear cu_sync "first" true (cu_session cu_a) [] = (s', [mk_push "s1" "file:///a" ct None], UOk tt []) ∧ vis (db_log (s_db s')) = cu_c.
Proof.
  assert (∀ (l : list tx) x, bool_decide (Forall (λ y, tx_time y ≠ tx_time x) l) = true → ∀ y, y ∈ l → tx_time y ≠ tx_time x) as Hfr.
  { intros l x H%bool_decide_eq_true. by apply Forall_forall. }
  assert (valid_log cu_log) as Hv by (apply valid_b_ok; vm_compute; reflexivity).
  pose proof (runs_start 2 cu_log) as R.
  apply (runs_change 2 cu_log _ 1 (mk_tx 42 "add" "b1" "" "")) in R; [|lia|apply Hfr; vm_compute; reflexivity|apply valid_b_ok; vm_compute; reflexivity].
  apply (runs_change 2 cu_log _ 1 (mk_tx 43 "setk" "b1" "name" "bank")) in R; [|lia|apply Hfr; vm_compute; reflexivity|apply valid_b_ok; vm_compute; reflexivity].
  apply (runs_sync 2 cu_log _ 1 cu_b cu_b) in R; [|lia|].
  2:{ constructor; [vm_compute; reflexivity|]. intros inp. apply merged_unasked; [done|]. vm_compute. reflexivity. }
  apply (runs_change 2 cu_log _ 0 (mk_tx 40 "add" "a1" "" "")) in R; [|lia|apply Hfr; vm_compute; reflexivity|apply valid_b_ok; vm_compute; reflexivity].
  apply (runs_change 2 cu_log _ 0 (mk_tx 41 "setk" "a1" "name" "mail")) in R; [|lia|apply Hfr; vm_compute; reflexivity|apply valid_b_ok; vm_compute; reflexivity].
  match type of R with runs _ _ ?S => set (st := S) in * end.
  assert (peaceful (f_made st)) as Hp.
  { split.
    - assert (compatible (f_made st) []) as [_ H] by (apply compat_b_ok; vm_compute; reflexivity). by rewrite app_nil_r in H.
    - intros d y Hd _ Hk. assert (bool_decide (Forall (λ y, tx_kind y ≠ "del") (f_made st)) = true) as H%bool_decide_eq_true by (vm_compute; reflexivity).
      rewrite Forall_forall in H. by destruct (H d Hd). }
  destruct (C60_users_example []) as (s' & ct & E & Hl & _). exists st, s', ct.
  split; [exact R|]. split; [exact Hv|]. split; [exact Hp|]. split; [vm_compute; reflexivity|]. split; [vm_compute; reflexivity|].
  split; [apply cu_serves_a|]. split; [apply cu_serves_b|]. split; [exact E|exact Hl].
Qed.
