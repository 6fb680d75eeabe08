(** Proofs about syncing: two machines that share a file, and concrete runs. *)
From Verif Require Import Spec_Sync Spec_Merge Proof_Sync Proof_Sync2 Proof_Sync3 Proof_Sync4 Proof_TxLog Proof_GoStr Proof_Utf8 Proof_Blobs Proof_Blobs2 Proof_Merge4 Proof_Crypt2 Proof_Crypt5 Proof_Crypt7 Proof_Session Proof_Session3 Proof_Session5 Proof_Session6 Proof_SessionEx.
From Coq Require Import Lia.
From stdpp Require Import options.
Import Model_GoStr.
#[local] Open Scope nat_scope.

Lemma targets_all w d m : holds d m → targets w "" d = (fst (UpdateSnapshot d), Ok (Some (collectSyncs w m))).
Proof.
  intros Hh. destruct (holds_update d m Hh) as (d1 & Hu & Hs & _). unfold targets, mbind, M_bind. rewrite Hu. cbn [String.eqb fst].
  unfold get_snap, mret, M_ret. by rewrite Hs.
Qed.
Lemma targets_named w name d m u : holds d m → well_named m → fair (y_env w 0) → name ≠ "" → called m u name → u ≠ "" →
  targets w name d = (fst (UpdateSnapshot d), Ok (Some [u])).
Proof.
  intros Hh [Ha Hun] Hf Hn Hc Hu. destruct (targets_spec w name d m Hh Ha Hf) as (ts & Et & Hts). rewrite Et. f_equal. f_equal.
  destruct ts as [us|].
  - unfold about_remotes in Hts. rewrite decide_False in Hts by done. destruct Hts as (u' & -> & Hc' & _). by rewrite (Hun _ _ _ Hc Hc').
  - destruct Hts as [_ Hts]. destruct (Hts _ Hc) as (u' & Hc' & ->). by rewrite (Hun _ _ _ Hc Hc') in Hu.
Qed.
Lemma about_named w name m u : name ≠ "" → called m u name → u ≠ "" → about_remotes w name m [u].
Proof. intros Hn Hc Hu. unfold about_remotes. rewrite decide_False by done. by exists u. Qed.
Lemma caught_up_snap s m : holds (s_db s) m → snap_of (s_db (caught_up s)) = m.
Proof. intros Hh. unfold caught_up. cbn [s_db set_db]. destruct (holds_update _ _ Hh) as (d1 & -> & Hs & _). done. Qed.
Lemma entry_caught_up s m u b : holds (s_db s) m → m !! u = Some b → entry_at (caught_up s) u = b.
Proof. intros Hh Hb. unfold entry_at. rewrite (caught_up_snap s m) by done. by rewrite Hb. Qed.
Lemma creds_caught_up s : s_key (caught_up s) = s_key s ∧ s_salt (caught_up s) = s_salt s ∧ s_user (caught_up s) = s_user s ∧ s_pass (caught_up s) = s_pass s ∧ s_master (caught_up s) = s_master s ∧ s_ivm (caught_up s) = s_ivm s.
Proof. done. Qed.

(** Entry [u] of session [s], whose url is a file *)
Definition at_file (w : sync_world) (m : snapshot) (u url : string) : Prop :=
  (∃ b, m !! u = Some b ∧ b !! "url" = Some url) ∧ y_scheme w url = Some "file".
Lemma pull_file w s m u url i inp : holds (s_db s) m → at_file w m u url →
  pullBlob w i (entry_at (caught_up s) u) inp = UOk ("", y_read w i url) inp.
Proof.
  intros Hh ((b & Hb & Hu) & Hs). rewrite (entry_caught_up s m u b) by done. unfold pullBlob, key_of_entry. change KeyURL with "url".
  rewrite Hu. cbn [default from_option id]. by rewrite Hs.
Qed.
(** A file of somebody who has the same key *)
Lemma file_is P w s m u url i inp sr mr e ord riv f sp pass : prims_ok P → holds (s_db s) m → vis (db_log (s_db s)) ≠ [] → at_file w m u url →
  good (s_db sr) mr → s_readOnly sr = false → single_session P sr pass → s_key sr = s_key s → s_salt sr = s_salt s →
  length riv = 40 → saveBlob P e ord (Some riv) sr = (sr, Ok (Some f)) → y_read w i url = Pulled (mk_slice f sp) →
  remote_is P w (caught_up s) i u inp ""
    (if decide (alike (vis (db_log (s_db sr))) (vis (db_log (s_db s)))) then LeftAlone
     else Opened (mk_part (s_user s) (s_pass s) (single_params (s_key s) (s_salt s) riv) (vis (db_log (s_db sr))))) inp.
Proof.
  intros HP Hh Hne Hat Hg Hro Hss Hk Hsl Hl Hsv Hrd.
  destruct (own_file P sr mr e ord riv f sp (s_user s) (s_pass s) inp pass) as (pt & log & Ed & Hpt & Hlog & Hv); try done.
  rewrite Hk, Hsl in Ed. pose proof (pull_file w s m u url i inp Hh Hat) as Ep. rewrite Hrd in Ep.
  rewrite <-Hv. destruct (decide _) as [Ha|Ha].
  - eapply is_alike; try done. by rewrite (proj1 (caught_up_log s)).
  - eapply is_opened; try done. by rewrite (proj1 (caught_up_log s)).
Qed.
Lemma alike_look a b : look_alike a b → alike b a.
Proof. intros (H1 & (x & y & H2 & H3 & H4) & (x' & y' & H5 & H6 & H7)). unfold alike. rewrite H2, H3, H5, H6. cbn. split; [done|]. split; congruence. Qed.

(** Two machines with the same key share a file: one sync brings the union of
    both logs to this session and to the file. *)
Lemma shared_sync P w name s sr inp m mr u url f sp e ord riv0 riv pass c m2 url2 :
  prims_ok P → good (s_db s) m → well_named m → s_readOnly s = false → single_session P s pass →
  fair (y_env w 0) → fair_hosts w → y_iv w = Some riv → length riv = 40 →
  name ≠ "" → u ≠ "" → called m u name → at_file w m u url →
  good (s_db sr) mr → s_readOnly sr = false → single_session P sr pass → s_salt sr = s_salt s →
  length riv0 = 40 → saveBlob P e ord (Some riv0) sr = (sr, Ok (Some f)) → y_read w 0 url = Pulled (mk_slice f sp) →
  valid_log (vis (db_log (s_db s))) → valid_log (vis (db_log (s_db sr))) → compatible (vis (db_log (s_db s))) (vis (db_log (s_db sr))) →
  is_union (vis (db_log (s_db s))) (vis (db_log (s_db sr))) c → conflict_free c → same_root (vis (db_log (s_db s))) (vis (db_log (s_db sr))) →
  vis (db_log (s_db sr)) ≠ [] → ¬ alike (vis (db_log (s_db sr))) (vis (db_log (s_db s))) →
  replays c m2 → (Z.of_nat (length c) < 2 ^ 64)%Z → at_file w m2 u url2 →
  ∃ s' ct, sync P w name true s inp = (s', [mk_push u url2 ct (y_write w 0 url2 ct)], UOk tt inp) ∧
    has_merged (with_log (merge_start s) c) [] s s' ∧ good (s_db s') m2 ∧
    single_session P s' pass ∧ saveBlob P (y_env w 3) (y_ord w) (Some riv) s' = (s', Ok (Some ct)) ∧
    ∀ sp rsalt r, ∃ s3, loadBlob P (Found (mk_slice ct sp)) None rsalt (ILine pass :: r) = UOk s3 r ∧
      vis (db_log (s_db s3)) = c ∧ good (s_db s3) m2.
Proof.
  intros HP Hg Hw Hro Hss Hf Hfh Hiv Hliv Hn Hu Hc Hat Hgr Hror Hssr Hsalt Hlr Hsv Hrd V1 V2 Hco Hun Hcf Hroot Hne Hal Hr2 Hlen Hat2.
  assert (vis (db_log (s_db s)) ≠ []) as Hne1.
  { destruct Hc as (b & Hb & _). destruct Hg as [[_ Hr] _]. intros E. rewrite E in Hr. apply replays_empty_log in Hr as ->. by rewrite lookup_empty in Hb. }
  assert (s_key sr = s_key s) as Hkey.
  { destruct Hss as (_ & -> & _), Hssr as (_ & -> & _). by rewrite Hsalt. }
  pose proof (file_is P w s m u url 0 inp sr mr e ord riv0 f sp pass HP (proj1 Hg) Hne1 Hat Hgr Hror Hssr Hkey Hsalt Hlr Hsv Hrd) as Hfi.
  rewrite decide_False in Hfi by done. set (p := mk_part _ _ _ _) in Hfi.
  assert (pulls P w (caught_up s) 0 [u] inp [("", Opened p)] inp) as Hp by (econstructor; [done|constructor]).
  assert (mergeLogs (vis (db_log (s_db s))) (vis (db_log (s_db sr))) inp = UOk c inp) as Hml.
  { apply mergeLogs_clean_spec; try done. intros Hl. exfalso. by apply Hal, alike_look. }
  assert (mergeBlobs (y_env w 4) (caught_up s) [p] inp = UOk (with_log (merge_start s) c) inp) as Hmb.
  { rewrite merge_same_key; [|apply Hss|done]. subst p. cbn [b_log]. rewrite (proj1 (caught_up_log s)), Hml. done. }
  assert (∀ x, x ∈ c → x ∈ vis (db_log (s_db s)) ∨ x ∈ vis (db_log (s_db sr))) as Hin by (intros x Hx; by apply Hun).
  destruct Hg as (Hh & Htp & Hu8 & Hi64 & Hlen1). destruct Hgr as (Hhr & Htpr & Hu8r & Hi64r & Hlenr).
  rewrite Forall_forall in Hu8, Hi64, Hu8r, Hi64r.
  destruct (single_sync P w name s inp m [u] [("", Opened p)] inp (with_log (merge_start s) c) inp m2 pass riv) as (s2 & ct & Ep & Hm & Hs2 & Hg2 & Hst & Hss2 & Hsv2 & Hld); try done.
  { split; [done|]. split; [done|]. rewrite !Forall_forall. done. }
  { rewrite (targets_named w name (s_db s) m u) by done. done. }
  { by apply about_named. }
  { cbn [with_log m_log]. rewrite Forall_forall. intros x Hx. destruct (Hin x Hx); auto. }
  { cbn [with_log m_log]. rewrite Forall_forall. intros x Hx. destruct (Hin x Hx); auto. }
  { apply Hss. }
  { apply Hss. }
  { apply Hss. }
  { apply Hss. }
  exists s2, ct. unfold sync. rewrite Ep. cbn [receivers push_loop].
  destruct Hat2 as ((b2 & Hb2 & Hu2) & Hsch). unfold entry_at. rewrite Hs2, Hb2. cbn [default from_option id].
  unfold pushBlob, key_of_entry. change KeyURL with "url". rewrite Hu2. cbn [default from_option id]. rewrite Hsch.
  change (String.eqb "file" syncSCP) with false. change (String.eqb "file" syncFile) with true. cbv iota. cbn [ubind note_host String.eqb].
  rewrite fair_no_hosts by done. unfold on_db. rewrite saveHosts_nil by done. cbn [of_outcome].
  rewrite Hiv in Hsv2.
  split; [by destruct s2|]. split; [done|]. split; [done|]. split; [done|]. split; [done|]. exact Hld.
Qed.

(** ** Concrete machines *)
Definition sy_log : list tx :=
  [mk_tx 10 "add" "s1" "" ""; mk_tx 11 "setk" "s1" "name" "first"; mk_tx 12 "setk" "s1" "sync" "true"; mk_tx 13 "setk" "s1" "url" "file:///a";
   mk_tx 14 "add" "s2" "" ""; mk_tx 15 "setk" "s2" "name" "second"; mk_tx 16 "setk" "s2" "sync" "true"; mk_tx 17 "setk" "s2" "url" "file:///b"].
Definition sy_b1 : entry := <["url" := "file:///a"]> (<["sync" := "true"]> (<["name" := "first"]> ∅)).
Definition sy_b2 : entry := <["url" := "file:///b"]> (<["sync" := "true"]> (<["name" := "second"]> ∅)).
Definition sy_m : snapshot := <["s2" := sy_b2]> {["s1" := sy_b1]}.
(** the other machine moved the first file *)
Definition sy_log_c : list tx := sy_log ++ [mk_tx 20 "setk" "s1" "url" "file:///c"].
Definition sy_m_c : snapshot := <["s1" := <["url" := "file:///c"]> sy_b1]> sy_m.
(** the other machine has a new field *)
Definition sy_log_p : list tx := sy_log ++ [mk_tx 20 "setk" "s2" "user" "root"].
Definition sy_m_p : snapshot := <["s2" := <["user" := "root"]> sy_b2]> sy_m.

Definition sy_session (log : list tx) : session :=
  mk_session false false 8 (db_of log) "" se_pass (key_of toy (str_bytes se_pass) se_salt) se_salt [] [].
Definition sy_file (log : list tx) : bytes :=
  match snd (saveBlob toy se_env map_to_list (Some se_iv) (sy_session log)) with Ok (Some f) => f | _ => [] end.
Definition sy_world (files : string → pulled) : sync_world :=
  mk_sync_world (λ _, se_env) (λ _, Some "file") (λ _ _ _, UWait) (λ _, files) (λ _ _ _ _, UWait) (λ _ _ _, None) (λ _, map_to_list) map_to_list (Some se_iv).

Ltac sy_good := split; [split; [split; [compute_dec|apply replay_fn_ok; compute_dec]|apply replay_fn_ok; compute_dec]|]; split; [done|];
  split; [repeat (constructor; [utf8_tx|]); constructor|]; split; [repeat (constructor; [done|]); constructor|done].
Lemma sy_good_0 : good (db_of sy_log) sy_m. Proof. sy_good. Qed.
Lemma sy_good_c : good (db_of sy_log_c) sy_m_c. Proof. sy_good. Qed.
Lemma sy_good_p : good (db_of sy_log_p) sy_m_p. Proof. sy_good. Qed.
Lemma sy_single log : single_session toy (sy_session log) se_pass.
Proof. repeat split; done. Qed.
Lemma sy_saved log m : good (db_of log) m → saveBlob toy se_env map_to_list (Some se_iv) (sy_session log) = (sy_session log, Ok (Some (sy_file log))).
Proof.
  intros Hg. destruct (single_reopen toy (sy_session log) se_pass m se_env map_to_list se_iv [] None [] toy_ok Hg eq_refl (sy_single log) eq_refl) as (f & _ & E & _).
  unfold sy_file. rewrite E. done.
Qed.
Lemma sy_entries u b : sy_m !! u = Some b → (u = "s1" ∧ b = sy_b1) ∨ (u = "s2" ∧ b = sy_b2).
Proof.
  unfold sy_m. intros H. apply lookup_insert_Some in H as [[<- <-]|[_ H]]; [by right|]. apply lookup_singleton_Some in H as [<- <-]. by left.
Qed.
Lemma sy_named : well_named sy_m.
Proof.
  split.
  - intros u b H. apply sy_entries in H as [[-> ->]|[-> ->]]; [by exists "first"|by exists "second"].
  - intros u1 u2 n (b1 & H1 & N1) (b2 & H2 & N2). apply sy_entries in H1 as [[-> ->]|[-> ->]], H2 as [[-> ->]|[-> ->]]; [done| | |done]; exfalso;
      vm_compute in N1; vm_compute in N2; congruence.
Qed.
Lemma sy_fair_hosts files : fair_hosts (sy_world files). Proof. intros k m. reflexivity. Qed.
Lemma sy_collect files : collectSyncs (sy_world files) sy_m = ["s1"; "s2"] ∨ collectSyncs (sy_world files) sy_m = ["s2"; "s1"].
Proof.
  pose proof (collect_about (sy_world files) sy_m se_fair) as [Hnd Hin].
  assert (collectSyncs (sy_world files) sy_m ≡ₚ ["s1"; "s2"]) as Hp.
  { apply NoDup_Permutation; [done|repeat (constructor; [set_solver|]); constructor|]. intros u. rewrite Hin. split.
    - intros (b & Hb & _). apply sy_entries in Hb as [[-> _]|[-> _]]; set_solver.
    - intros [->|[->|[]%elem_of_nil]%elem_of_cons]%elem_of_cons.
      + exists sy_b1. split; [unfold sy_m; by rewrite lookup_insert_ne, lookup_singleton by done|]. split; [done|]. split; [by exists "first"|]. exists "file:///a", "file". naive_solver.
      + exists sy_b2. split; [unfold sy_m; by rewrite lookup_insert|]. split; [done|]. split; [by exists "second"|]. exists "file:///b", "file". naive_solver. }
  symmetry in Hp. apply Permutation_length_2_inv in Hp. naive_solver.
Qed.
