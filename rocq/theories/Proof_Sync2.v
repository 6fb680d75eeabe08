(** Proofs about syncing: the whole command. *)
From Verif Require Import Spec_Sync Proof_Sync Proof_TxLog Proof_GoStr Proof_Blobs Proof_Blobs2 Proof_Hosts Proof_Session3 Proof_Session5 Proof_Session6.
From Coq Require Import Lia.
From stdpp Require Import options.
Import Model_GoStr.
#[local] Open Scope nat_scope.

Lemma update_again d d' : coherent d → UpdateSnapshot d = (d', Ok tt) → UpdateSnapshot d' = (d', Ok tt).
Proof.
  intros Hc H. destruct (coherent_update _ _ _ Hc H) as (_ & _ & Hf). destruct (Hf eq_refl) as [Hv _].
  unfold UpdateSnapshot at 1. rewrite Hv, Nat.leb_refl. done.
Qed.

(** ** The remotes *)
Lemma is_sync_marked w b : is_sync w b = true ↔ marked w b.
Proof.
  unfold is_sync, marked, key_of_entry. change KeySync with "sync". change KeyName with "name". change KeyURL with "url".
  rewrite !andb_true_iff, !negb_true_iff, !String.eqb_eq, !String.eqb_neq.
  change syncSCP with "scp". change syncFile with "file". split.
  - intros (((H1 & H2) & H3) & H4). destruct (b !! "sync") as [x|]; [|done]. cbn in H1. subst x.
    destruct (b !! "name") as [n|]; [|done]. destruct (b !! "url") as [url|]; [|done]. cbn in H2, H3, H4.
    split; [done|]. split; [by exists n|]. exists url. destruct (y_scheme w url) as [sch|]; [|done]. exists sch.
    apply orb_true_iff in H4. rewrite !String.eqb_eq in H4. done.
  - intros (-> & (n & -> & Hn) & url & sch & -> & Hu & E & Hs). cbn. rewrite E. rewrite orb_true_iff, !String.eqb_eq. done.
Qed.
Lemma collect_about w m : fair (y_env w 0) → about_remotes w "" m (collectSyncs w m).
Proof.
  intros Hf. unfold about_remotes. destruct (decide ("" = "")) as [_|]; [|done]. unfold collectSyncs.
  assert (NoDup (e_ord (y_env w 0) 0 m).*1) as Hnd by (rewrite (Hf 0 m); apply NoDup_fst_map_to_list).
  split.
  - revert Hnd. generalize (e_ord (y_env w 0) 0 m). intros l. induction l as [|[u b] l IH]; intros Hnd; [constructor|].
    cbn [fmap list_fmap fst] in Hnd. apply NoDup_cons in Hnd as [Hni Hnd]. rewrite filter_cons. destruct (decide _); [|by apply IH].
    cbn [fmap list_fmap fst]. constructor; [|by apply IH]. intros Hin. apply Hni. apply elem_of_list_fmap in Hin as ([u' b'] & -> & Hin).
    apply elem_of_list_filter in Hin as [_ Hin]. apply elem_of_list_fmap. by exists (u', b').
  - intros u. rewrite elem_of_list_fmap. split.
    + intros ([u' b] & -> & Hin). apply elem_of_list_filter in Hin as [Hs Hin]. rewrite (Hf 0 m) in Hin. apply elem_of_map_to_list in Hin.
      exists b. split; [done|]. by apply is_sync_marked.
    + intros (b & Hb & Hm). exists (u, b). split; [done|]. apply elem_of_list_filter. split; [by apply is_sync_marked|].
      rewrite (Hf 0 m). by apply elem_of_map_to_list.
Qed.

Lemma targets_spec w name d m : holds d m → all_named m → fair (y_env w 0) →
  ∃ ts, targets w name d = (fst (UpdateSnapshot d), Ok ts) ∧
    match ts with
    | Some us => about_remotes w name m us
    | None => name ≠ "" ∧ ∀ u, called m u name → (∃ u', called m u' name ∧ u' = "")
    end.
Proof.
  intros Hh Ha Hf. destruct (holds_update d m Hh) as (d1 & Hu & Hs & Hv & _ & Hh1). rewrite Hu. cbn [fst].
  unfold targets, mbind, M_bind. rewrite Hu. destruct (String.eqb name "") eqn:En.
  - apply String.eqb_eq in En as ->. unfold get_snap, mret, M_ret. rewrite Hs. eexists. split; [done|]. by apply collect_about.
  - apply String.eqb_neq in En.
    assert (UpdateSnapshot d1 = (d1, Ok tt)) as Hu1 by (eapply update_again; [apply Hh|done]).
    destruct (FindByName_spec (y_env w 0) name d1 m Hh1 Ha Hf) as (d2 & r & E & Hh2 & Hv2 & Hr).
    assert (d2 = d1) as ->.
    { revert E. unfold FindByName, mbind, M_bind. rewrite Hu1. unfold get_snap, lift. intros H. by injection H. }
    rewrite E. unfold mret, M_ret. eexists. split; [done|].
    destruct r as [[u b]|].
    + destruct Hr as [Hb Hn]. assert (called m u name) as Hc by by exists b.
      destruct (String.eqb u "") eqn:Eu.
      * apply String.eqb_eq in Eu as ->. split; [done|]. intros u _. by exists "".
      * apply String.eqb_neq in Eu. unfold about_remotes. rewrite decide_False by done. by exists u.
    + split; [done|]. intros u Hc. exfalso. naive_solver.
Qed.

Lemma replays_empty_log m : replays [] m → m = ∅.
Proof. unfold replays. by inversion 1. Qed.
Lemma about_nonempty w name m us d : about_remotes w name m us → us ≠ [] → holds d m → vis (db_log d) ≠ [].
Proof.
  intros Ha Hus [_ Hr] E. rewrite E in Hr. apply replays_empty_log in Hr as ->. unfold about_remotes in Ha.
  destruct (decide (name = "")).
  - destruct Ha as [_ Ha]. destruct us as [|u us]; [done|]. destruct (proj1 (Ha u)) as (b & Hb & _); [left|]. by rewrite lookup_empty in Hb.
  - destruct Ha as (u & -> & (b & Hb & _) & _). by rewrite lookup_empty in Hb.
Qed.
Lemma caught_up_log s : db_log (s_db (caught_up s)) = db_log (s_db s) ∧ db_txpoint (s_db (caught_up s)) = db_txpoint (s_db s).
Proof. unfold caught_up. cbn [s_db set_db]. destruct (UpdateSnapshot (s_db s)) as [d r] eqn:E. by apply UpdateSnapshot_log in E. Qed.
Lemma caught_up_same s : same_session s (caught_up s).
Proof. unfold same_session. destruct (caught_up_log s) as [E1 E2]. by repeat split. Qed.
Lemma pull_loop_about P w name m s us inp hosts kept ps rest : holds (s_db s) m → about_remotes w name m us →
  pull_loop P w (caught_up s) 0 us inp = UOk (hosts, kept, ps) rest →
  ∃ rs, pulls P w (caught_up s) 0 us inp rs rest ∧ hosts = new_hosts us rs ∧ kept = receivers us rs ∧ ps = opened_parts rs.
Proof.
  intros Hh Ha H. destruct us as [|u us].
  - cbn in H. apply UOk_inj in H as [[= <- <- <-] <-]. exists []. split; [constructor|done].
  - eapply pull_loop_pulls; [|done]. rewrite (proj1 (caught_up_log s)). by eapply about_nonempty.
Qed.
Lemma pull_loop_about_rev P w name m s us inp rs rest : holds (s_db s) m → about_remotes w name m us →
  pulls P w (caught_up s) 0 us inp rs rest →
  pull_loop P w (caught_up s) 0 us inp = UOk (new_hosts us rs, receivers us rs, opened_parts rs) rest.
Proof.
  intros Hh Ha H. destruct us as [|u us].
  - inversion H; subst. done.
  - eapply pulls_pull_loop; [|done]. rewrite (proj1 (caught_up_log s)). by eapply about_nonempty.
Qed.

(** ** Hosts *)
Lemma save_loop_grows e l : ∀ i d, ∃ d' txs, save_loop e i l d = (d', Ok tt) ∧ vis (db_log d') = vis (db_log d) ++ txs ∧
  db_txpoint d' = db_txpoint d ∧ ∀ t, t ∈ txs → tx_kind t = "setk" ∧ tx_key t = "knownhosts" ∧ tx_uuid t ∈ l.*1.
Proof.
  induction l as [|[u h] l IH]; intros i d; cbn [save_loop].
  - exists d, []. rewrite app_nil_r. split; [done|]. split; [done|]. split; [done|]. intros t Ht. by apply elem_of_nil in Ht.
  - unfold mbind, M_bind, get_snap, dbSet, modify. cbv zeta. set (d1 := Model_TxLog.Set_ _ _ _ _ _ _).
    destruct (IH (S i) d1) as (d' & txs & E & Hv & Hp & Ht). unfold mbind, M_bind, mret, M_ret in E |- *. exists d'.
    subst d1. unfold Model_TxLog.Set_, appendLog in Hv, Hp. cbn [db_log db_txpoint] in Hv, Hp. rewrite slice_append_vis, <-app_assoc in Hv.
    eexists. split; [exact E|]. split; [exact Hv|]. split; [done|].
    intros t Hin. apply elem_of_app in Hin as [Hin|Hin].
    + apply elem_of_list_singleton in Hin as ->. cbn. split; [done|]. split; [done|]. left.
    + destruct (Ht _ Hin) as (? & ? & ?). split; [done|]. split; [done|]. by right.
Qed.
Lemma save_loop_coherent e l : ∀ i d d' r, coherent d → save_loop e i l d = (d', r) → coherent d'.
Proof.
  induction l as [|[u h] l IH]; intros i d d' r Hc; cbn [save_loop].
  - unfold mret, M_ret. intros H. by injection H as <- _.
  - unfold mbind, M_bind, get_snap, dbSet, modify. cbv zeta. apply IH. apply coherent_append, Hc.
Qed.
Lemma saveHosts_grows e l d : coherent d → ∃ d' txs r, saveHosts e l d = (d', r) ∧ vis (db_log d') = vis (db_log d) ++ txs ∧
  db_txpoint d' = db_txpoint d ∧ (∀ t, t ∈ txs → tx_kind t = "setk" ∧ tx_key t = "knownhosts" ∧ tx_uuid t ∈ l.*1) ∧
  (r = Ok tt → holds d' (snap_of d') ∧ UpdateSnapshot d' = (d', Ok tt)).
Proof.
  intros Hc. destruct (save_loop_grows e l 0 d) as (d1 & txs & E & Hv & Hp & Ht). unfold saveHosts, mbind, M_bind. rewrite E.
  destruct (UpdateSnapshot d1) as [d2 r] eqn:E2. destruct (UpdateSnapshot_log _ _ _ E2) as [El Ep].
  exists d2, txs, r. rewrite El, Ep. split; [done|]. split; [done|]. split; [done|]. split; [done|].
  intros ->. assert (coherent d1) as Hc1 by by eapply save_loop_coherent.
  destruct (coherent_update _ _ _ Hc1 E2) as (Hc2 & _ & Hr). destruct (Hr eq_refl) as [_ Hr2]. split; [by split|].
  exact (update_again d1 d2 Hc1 E2).
Qed.
Lemma hosts_txs w k (hosts : gmap string string) txs : fair_hosts w →
  (∀ t, t ∈ txs → tx_kind t = "setk" ∧ tx_key t = "knownhosts" ∧ tx_uuid t ∈ (y_hosts w k hosts).*1) → host_txs hosts txs.
Proof.
  intros Hf H t Ht. destruct (H t Ht) as (? & ? & Hin). split; [done|]. split; [done|]. rewrite (Hf k hosts) in Hin.
  apply elem_of_list_fmap in Hin as ([u h] & -> & Hin). apply elem_of_map_to_list in Hin. by exists h.
Qed.

(** ** Before pushing *)
Lemma adopt_inv mr s inp s' rest : adopt mr s inp = (s', UOk tt rest) →
  has_merged mr [] s s' ∧ rest = inp ∧ replays (m_log mr) (snap_of (s_db s')) ∧ coherent (s_db s').
Proof.
  unfold adopt. intros H. apply C_inv in H as (s1 & [] & r1 & H1 & H). unfold change in H1. injection H1 as <- <-.
  apply C_inv in H as (s2 & [] & r1 & H1 & H). unfold change in H1. injection H1 as <- <-.
  unfold on_db, must in H. cbn [s_db set_db] in H.
  set (d0 := mk_db _ _ _ _) in H. destruct (UpdateSnapshot d0) as [d1 [[]|e|]] eqn:E; [|done|done].
  cbn [of_outcome] in H. injection H as <- <-. cbn [s_db set_db].
  assert (coherent d0) as Hc. { split; [cbn; lia|]. cbn. constructor. }
  destruct (UpdateSnapshot_log _ _ _ E) as [El Ep].
  destruct (coherent_update _ _ _ Hc E) as (Hc1 & _ & Hf). destruct (Hf eq_refl) as [_ Hr]. rewrite El in Hr.
  split; [|done]. unfold has_merged. cbn [s_db set_db s_user s_pass s_key s_salt s_master s_ivm s_created s_readOnly s_startTx set_master set_creds set_user].
  rewrite El, Ep, app_nil_r. done.
Qed.
Lemma sealed_inv P w s inp s' ct rest : sealed P w s inp = (s', UOk ct rest) → rest = inp ∧
  (s_readOnly s = false → saveBlob P (y_env w 3) (y_ord w) (y_iv w) s = (s', Ok (Some ct))) ∧
  ∃ d params, makeParams P (y_env w 3) (y_ord w) s (s_db s) = (d, Ok params) ∧ s' = set_db d s.
Proof.
  unfold sealed. intros H. apply C_inv in H as (s1 & s2 & r1 & H1 & H). unfold state in H1. injection H1 as <- <- <-.
  apply C_inv in H as (s1 & data & r1 & H1 & H). apply try_inv in H1 as (-> & -> & E1).
  apply C_inv in H as (s1 & params & r1 & H1 & H). unfold on_db in H1.
  destruct (makeParams _ _ _ _ _) as [d o] eqn:E2. destruct o as [p|e|]; [|done|done]. cbn [of_outcome] in H1. injection H1 as <- <- <-.
  apply try_inv in H as (-> & -> & E3). split; [done|]. split.
  - intros Hro. unfold saveBlob. rewrite Hro, E1, E2. rewrite E3. done.
  - by exists d, p.
Qed.

(** A snapshot that is up to date stays as it is while the parameters are made. *)
Lemma steady_params_loop P me key l : ∀ i p d d' o, UpdateSnapshot d = (d, Ok tt) → params_loop P me key i l p d = (d', o) → d' = d.
Proof.
  induction l as [|[u n] l IH]; intros i p d d' o Hu; cbn [params_loop].
  - unfold mret, M_ret. intros H. by injection H as <- _.
  - unfold mbind, M_bind. unfold lift at 1. destruct (SplitUsername n) as [x|e|]; [|intros H; by injection H as <- _|intros H; by injection H as <- _].
    destruct (String.eqb x ""); [unfold lift; intros H; by injection H as <- _|].
    unfold MustFind, Find, mbind, M_bind. rewrite Hu. unfold get_snap, mret, M_ret.
    destruct (snap_of d !! u) as [b|]; [|unfold lift; intros H; by injection H as <- _].
    unfold lift.
    repeat (match goal with |- context [hexed ?a ?b] => destruct (hexed a b) end; [|intros H; by injection H as <- _|intros H; by injection H as <- _]).
    by apply IH.
Qed.
Lemma steady_makeParams P e ord s d d' o : UpdateSnapshot d = (d, Ok tt) → makeParams P e ord s d = (d', o) → d' = d.
Proof.
  intros Hu. unfold makeParams. destruct (length (s_master s) =? 0).
  { unfold mret, M_ret. intros H. by injection H as <- _. }
  unfold mbind, M_bind, must, Model_Blobs.Users. unfold mbind, M_bind. rewrite Hu. unfold get_snap, lift.
  destruct (match collect _ _ _ with Ok _ => _ | Fail _ => _ | Panic => _ end) as [us|err|]; [|intros H; by injection H as <- _|intros H; by injection H as <- _].
  destruct (params_loop P (s_user s) (s_key s) 0 (ord (res_map us)) params_empty d) as [d1 o1] eqn:E.
  apply steady_params_loop in E as ->; [|done]. destruct o1; unfold mret, M_ret; intros H; by injection H as <- _.
Qed.

(** Whatever [prepare] gave *)
Lemma prepare_inv P w name psh s inp s' out rest m : holds (s_db s) m → all_named m → fair (y_env w 0) → fair_hosts w →
  prepare P w name psh s inp = (s', UOk out rest) →
  (out = None ∧ name ≠ "" ∧ (∀ u, called m u name → ∃ u', called m u' name ∧ u' = "") ∧ s' = caught_up s ∧ rest = inp) ∨
  ∃ us rs inp1, about_remotes w name m us ∧ pulls P w (caught_up s) 0 us inp rs inp1 ∧
    ((out = None ∧ s' = caught_up s ∧ ∃ e, mergeBlobs (y_env w 4) (caught_up s) (opened_parts rs) inp1 = UErr e rest) ∨
     ∃ mr m2, mergeBlobs (y_env w 4) (caught_up s) (opened_parts rs) inp1 = UOk mr rest ∧
       after_merge s mr (new_hosts us rs) s' m2 ∧
       ((psh = false ∧ out = None) ∨ (psh = true ∧ ∃ ct, out = Some (ct, receivers us rs) ∧ file_of P w s' ct))).
Proof.
  intros Hh Ha Hf Hfh H. unfold prepare in H.
  destruct (targets_spec w name (s_db s) m Hh Ha Hf) as (ts & Et & Hts).
  rewrite (C_ok _ _ _ _ (caught_up s) ts inp) in H by (unfold on_db; by rewrite Et).
  destruct ts as [us|].
  2:{ left. unfold mret, C_ret in H. injection H as <- <- <-. naive_solver. }
  right. rewrite (C_ok _ _ _ _ (caught_up s) (caught_up s) inp) in H by done.
  apply C_inv in H as (s1 & [[hosts kept] ps] & inp1 & H1 & H). unfold ask in H1. injection H1 as <- H1.
  destruct (pull_loop_about _ _ _ _ _ _ _ _ _ _ _ Hh Hts H1) as (rs & Hp & -> & -> & ->).
  exists us, rs, inp1. split; [done|]. split; [done|].
  apply C_inv in H as (s1 & mo & r1 & H2 & H). unfold attempt in H2.
  destruct (mergeBlobs _ _ _ _) as [mr r2|e r2| |] eqn:Em; [|left|done|done]; injection H2 as <- <- <-.
  2:{ unfold mret, C_ret in H. injection H as <- <- <-. split; [done|]. split; [done|]. by exists e. }
  right. apply C_inv in H as (s1 & [] & r1 & H2 & H). destruct (adopt_inv _ _ _ _ _ H2) as (Hm & -> & _ & Hc1).
  apply C_inv in H as (s2 & [] & r1 & H3 & H). unfold on_db in H3.
  destruct (saveHosts_grows (y_env w 1) (y_hosts w 0 (new_hosts us rs)) (s_db s1) Hc1) as (d' & txs & r & E & Hv & Hpt & Ht & Hok). rewrite E in H3.
  destruct r as [[]|e|]; [|done|done]. cbn [of_outcome] in H3. injection H3 as <- <-. destruct (Hok eq_refl) as [Hh2 Hst].
  assert (after_merge s mr (new_hosts us rs) (set_db d' s1) (snap_of d')) as Hm'.
  { exists txs. split; [|split; [by eapply hosts_txs|done]].
    destruct Hm as (A1 & A2 & A3 & A4 & A5 & A6 & A7 & A8 & A9 & A10 & A11). rewrite app_nil_r in A7.
    repeat split; try done; cbn [s_db set_db]; [by rewrite Hv, A7|]. rewrite Hpt, A11. apply caught_up_log. }
  exists mr, (snap_of d').
  destruct psh.
  - apply C_inv in H as (s2 & ct & r1 & H4 & H). unfold mret, C_ret in H. injection H as <- <- <-.
    destruct (sealed_inv _ _ _ _ _ _ _ H4) as (-> & Hsave & d2 & params & Emp & ->). cbn [s_db set_db] in Emp.
    apply steady_makeParams in Emp as ->; [|done]. change (set_db d' (set_db d' s1)) with (set_db d' s1) in *.
    split; [done|]. split; [done|]. right. split; [done|]. exists ct. split; [done|]. intros Hro. eexists. by apply Hsave.
  - unfold mret, C_ret in H. injection H as <- <- <-. split; [done|]. split; [done|]. by left.
Qed.

(** ** Pushing *)
Lemma push_loop_spec w s ct us : ∀ i inp ps x, push_loop w s i ct us inp = (ps, x) →
  (p_uuid <$> ps) `prefix_of` us ∧ (∀ p, p ∈ ps → p_file p = ct ∧ p_url p = key_of_entry (entry_at s (p_uuid p)) KeyURL) ∧
  (∀ hosts rest, x = UOk hosts rest → p_uuid <$> ps = us).
Proof.
  induction us as [|u us IH]; intros i inp ps x H; cbn [push_loop] in H.
  - injection H as <- <-. split; [done|]. split; [|done]. intros p Hp. by apply elem_of_nil in Hp.
  - destruct (pushBlob w i (entry_at s u) ct inp) as [[host oe] inp1|e r| |].
    2-4: injection H as <- <-; split; [apply prefix_nil|]; split; [intros p Hp; by apply elem_of_nil in Hp|done].
    destruct (push_loop w s (S i) ct us inp1) as [qs y] eqn:E. injection H as <- <-.
    destruct (IH _ _ _ _ E) as (H1 & H2 & H3). cbn [fmap list_fmap p_uuid]. split; [by apply prefix_cons|]. split.
    + intros p [->|Hp]%elem_of_cons; [done|by apply H2].
    + intros hosts rest Hx. destruct y as [hs r|e r| |]; [|done|done|done]. f_equal. by apply (H3 hs r).
Qed.

Lemma push_one_file w s ct us i inp ps x m2 : snap_of (s_db s) = m2 → push_loop w s i ct us inp = (ps, x) → one_file ct m2 ps.
Proof.
  intros <- H p Hp. destruct (push_loop_spec _ _ _ _ _ _ _ _ H) as (_ & H2 & _). destruct (H2 p Hp) as [-> ->].
  split; [done|]. unfold key_of_entry, entry_at. change KeyURL with "url". by destruct (snap_of (s_db s) !! p_uuid p).
Qed.

(** Whatever becomes of the sync: what was pushed, and where *)
Lemma sync_pushed P w name psh s inp s' ps r m : holds (s_db s) m → all_named m → fair (y_env w 0) → fair_hosts w →
  sync P w name psh s inp = (s', ps, r) → ps ≠ [] →
  psh = true ∧ ∃ us rs inp1 mr inp2 s2 m2 ct, about_remotes w name m us ∧ pulls P w (caught_up s) 0 us inp rs inp1 ∧
    mergeBlobs (y_env w 4) (caught_up s) (opened_parts rs) inp1 = UOk mr inp2 ∧
    after_merge s mr (new_hosts us rs) s2 m2 ∧ file_of P w s2 ct ∧
    (p_uuid <$> ps) `prefix_of` receivers us rs ∧ one_file ct m2 ps.
Proof.
  intros Hh Ha Hf Hfh H Hne. unfold sync in H.
  destruct (prepare P w name psh s inp) as [s1 [out rest|e rest| |]] eqn:Ep; [|congruence|congruence|congruence].
  destruct out as [[ct kept]|]; [|congruence].
  apply (prepare_inv _ _ _ _ _ _ _ _ _ m) in Ep as [(? & _)|(us & rs & inp1 & Hab & Hp & [(? & _)|(mr & m2 & Em & Hm & [(_ & ?)|(-> & ct' & Heq & Hs)])])]; [done|done|done| |done|done|done|done].
  injection Heq as <- ->. split; [done|].
  destruct (push_loop w s1 0 ct (receivers us rs) rest) as [qs x] eqn:El. destruct (push_loop_spec _ _ _ _ _ _ _ _ El) as (H1 & _).
  assert (qs = ps) as ->. { destruct x; try congruence. destruct (on_db _ _ _). congruence. }
  exists us, rs, inp1, mr, rest, s1, m2, ct. repeat (split; [done|]). eapply push_one_file; [|done]. by destruct Hm as (? & _ & _ & _ & ?).
Qed.

(** A sync that ends without an error *)
Lemma sync_done P w name psh s inp s' ps rest m : holds (s_db s) m → all_named m → fair (y_env w 0) → fair_hosts w →
  sync P w name psh s inp = (s', ps, UOk tt rest) →
  (ps = [] ∧ name ≠ "" ∧ (∀ u, called m u name → ∃ u', called m u' name ∧ u' = "") ∧ s' = caught_up s) ∨
  ∃ us rs inp1, about_remotes w name m us ∧ pulls P w (caught_up s) 0 us inp rs inp1 ∧
    ((ps = [] ∧ s' = caught_up s ∧ ∃ e, mergeBlobs (y_env w 4) (caught_up s) (opened_parts rs) inp1 = UErr e rest) ∨
     ∃ mr inp2 s2 m2, mergeBlobs (y_env w 4) (caught_up s) (opened_parts rs) inp1 = UOk mr inp2 ∧
       after_merge s mr (new_hosts us rs) s2 m2 ∧
       ((psh = false ∧ ps = [] ∧ s' = s2) ∨
        (psh = true ∧ ∃ ct hosts m3, file_of P w s2 ct ∧ p_uuid <$> ps = receivers us rs ∧ one_file ct m2 ps ∧
           (∀ u, is_Some (hosts !! u) → u ∈ receivers us rs) ∧
           after_merge s2 (merge_start s2) hosts s' m3))).
Proof.
  intros Hh Ha Hf Hfh H. unfold sync in H.
  destruct (prepare P w name psh s inp) as [s1 [out r1|e r1| |]] eqn:Ep; [|congruence|congruence|congruence].
  apply (prepare_inv _ _ _ _ _ _ _ _ _ m) in Ep as [(-> & Hn & Hu & -> & ->)|(us & rs & inp1 & Hab & Hp & Hcase)]; [| |done|done|done|done].
  - left. injection H as <- <- <-. done.
  - right. exists us, rs, inp1. split; [done|]. split; [done|].
    destruct Hcase as [(-> & -> & e & Em)|(mr & m2 & Em & Hm & [(-> & ->)|(-> & ct & -> & Hs)])].
    + left. injection H as <- <- <-. split; [done|]. split; [done|]. by exists e.
    + right. injection H as <- <- <-. exists mr, r1, s1, m2. split; [done|]. split; [done|]. by left.
    + right. exists mr, r1, s1, m2. split; [done|]. split; [done|]. right. split; [done|].
      destruct (push_loop w s1 0 ct (receivers us rs) r1) as [qs x] eqn:El. destruct (push_loop_spec _ _ _ _ _ _ _ _ El) as (_ & _ & H3).
      assert (Hone : one_file ct m2 qs) by (eapply push_one_file; [|done]; by destruct Hm as (? & _ & _ & _ & ?)).
      destruct x as [hosts r2|e r2| |]; [|congruence|congruence|congruence].
      unfold on_db in H. pose proof Hm as (txs & Hhm & Hht & [Hc2 _] & Hsn).
      destruct (saveHosts_grows (y_env w 2) (y_hosts w 1 hosts) (s_db s1) Hc2) as (d' & txs2 & r & E & Hv & Hpt & Ht & Hok). rewrite E in H.
      destruct r as [[]|e|]; [|done|done]. cbn [of_outcome] in H. injection H as <- <- <-. destruct (Hok eq_refl) as [Hh2 Hst].
      exists ct, hosts, (snap_of d'). split; [done|]. split; [by eapply H3|]. split; [done|]. split.
      * clear -El. revert El. generalize (receivers us rs) as l, 0, r1, qs, hosts. clear. intros l. induction l as [|u l IH]; intros i inp ps hosts H; cbn [push_loop] in H.
        { injection H as <- <- <-. intros u [x Hx]. by rewrite lookup_empty in Hx. }
        destruct (pushBlob w i (entry_at s1 u) ct inp) as [[host oe] inp1|e r| |]; [|done|done|done].
        destruct (push_loop w s1 (S i) ct l inp1) as [qs y] eqn:E. destruct y as [hs r|e r| |]; cbn [ubind] in H; [|done|done|done].
        injection H as <- <- <-. intros v. unfold note_host. destruct (String.eqb host ""); [intros Hv; right; by eapply IH|].
        destruct (decide (v = u)) as [->|Hne]; [left|]. rewrite lookup_insert_ne by done. intros Hv. right. by eapply IH.
      * exists txs2. split; [|split; [by eapply hosts_txs|done]]. by repeat split.
Qed.

(** ** Aborting *)
Lemma sync_aborted P w name psh s inp m us rs inp1 e rest : holds (s_db s) m →
  targets w name (s_db s) = (s_db (caught_up s), Ok (Some us)) → about_remotes w name m us →
  pulls P w (caught_up s) 0 us inp rs inp1 →
  mergeBlobs (y_env w 4) (caught_up s) (opened_parts rs) inp1 = UErr e rest →
  sync P w name psh s inp = (caught_up s, [], UOk tt rest).
Proof.
  intros Hh Et Hab Hp Em. unfold sync, prepare.
  rewrite (C_ok _ _ _ _ (caught_up s) (Some us) inp) by (unfold on_db; by rewrite Et).
  rewrite (C_ok _ _ _ _ (caught_up s) (caught_up s) inp) by done.
  rewrite (C_ok _ _ _ _ (caught_up s) (new_hosts us rs, receivers us rs, opened_parts rs) inp1) by (unfold ask; by erewrite pull_loop_about_rev).
  rewrite (C_ok _ _ _ _ (caught_up s) None rest) by (unfold attempt; by rewrite Em).
  done.
Qed.
