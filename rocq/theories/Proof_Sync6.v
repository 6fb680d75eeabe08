(** Concrete syncs. *)
From Verif Require Import Spec_Sync Spec_Merge Proof_Sync Proof_Sync2 Proof_Sync3 Proof_Sync4 Proof_Sync5 Proof_TxLog Proof_GoStr Proof_Utf8 Proof_Blobs Proof_Blobs2 Proof_Merge4 Proof_Crypt7 Proof_Session Proof_Session3 Proof_Session5 Proof_Session6 Proof_SessionEx.
From Coq Require Import Lia.
From stdpp Require Import options.
Import Model_GoStr.
#[local] Open Scope nat_scope.

#[local] Opaque saveBlob sy_file key_of.
Lemma sy_valid_0 : valid_log sy_log. Proof. apply valid_b_ok. vm_compute. reflexivity. Qed.
Lemma sy_valid_c : valid_log sy_log_c. Proof. apply valid_b_ok. vm_compute. reflexivity. Qed.
Lemma sy_valid_p : valid_log sy_log_p. Proof. apply valid_b_ok. vm_compute. reflexivity. Qed.
Lemma sy_compat_c : compatible sy_log sy_log_c. Proof. apply compat_b_ok. vm_compute. reflexivity. Qed.
Lemma sy_compat_p : compatible sy_log sy_log_p. Proof. apply compat_b_ok. vm_compute. reflexivity. Qed.
Lemma sy_union_c : is_union sy_log sy_log_c sy_log_c. Proof. apply union_b_ok. vm_compute. reflexivity. Qed.
Lemma sy_union_p : is_union sy_log sy_log_p sy_log_p. Proof. apply union_b_ok. vm_compute. reflexivity. Qed.
Lemma no_del_free c : Forall (λ t, tx_kind t ≠ "del") c → conflict_free c.
Proof. rewrite Forall_forall. intros H d x Hd _ Hk. by apply H in Hd. Qed.
Lemma sy_free_c : conflict_free sy_log_c. Proof. apply no_del_free. repeat (constructor; [done|]). constructor. Qed.
Lemma sy_free_p : conflict_free sy_log_p. Proof. apply no_del_free. repeat (constructor; [done|]). constructor. Qed.
Lemma sy_root l l' : same_root (sy_log ++ l) (sy_log ++ l').
Proof. by intros x y [= <-] [= <-]. Qed.
Lemma sy_not_alike x : ¬ alike (sy_log ++ [x]) sy_log.
Proof. intros [H _]. rewrite app_length in H. cbn in H. lia. Qed.
Lemma sy_s1 : sy_m !! "s1" = Some sy_b1. Proof. unfold sy_m. by rewrite lookup_insert_ne, lookup_singleton by done. Qed.
Lemma sy_s2 : sy_m !! "s2" = Some sy_b2. Proof. unfold sy_m. by rewrite lookup_insert. Qed.

(** The other machine moved the file: what is overwritten was never read. *)
Definition sy_files_c (url : string) : pulled := if String.eqb url "file:///a" then Pulled (mk_slice (sy_file sy_log_c) []) else Pulled (mk_slice (str_bytes "precious") []).
Lemma moved_run : ∃ s' ct,
  sync toy (sy_world sy_files_c) "first" true (sy_session sy_log) [] = (s', [mk_push "s1" "file:///c" ct None], UOk tt []) ∧
  vis (db_log (s_db s')) = sy_log_c ∧ vis (db_log (s_db (sy_session sy_log))) = sy_log ∧ sy_m !! "s1" = Some sy_b1 ∧ sy_b1 !! "url" = Some "file:///a".
Proof.
  destruct (shared_sync toy (sy_world sy_files_c) "first" (sy_session sy_log) (sy_session sy_log_c) [] sy_m sy_m_c "s1" "file:///a" (sy_file sy_log_c) []
    se_env map_to_list se_iv se_iv se_pass sy_log_c sy_m_c "file:///c") as (s' & ct & E & Hm & _).
  all: lazymatch goal with
    | |- saveBlob _ _ _ _ _ = _ => apply (sy_saved _ sy_m_c), sy_good_c
    | |- ¬ alike _ _ => apply sy_not_alike
    | |- prims_ok _ => apply toy_ok
    | |- good _ sy_m => apply sy_good_0
    | |- good _ sy_m_c => apply sy_good_c
    | |- well_named _ => apply sy_named
    | |- single_session _ _ _ => apply sy_single
    | |- fair _ => apply se_fair
    | |- fair_hosts _ => apply sy_fair_hosts
    | |- valid_log (vis (db_log (s_db (sy_session sy_log)))) => apply sy_valid_0
    | |- valid_log _ => apply sy_valid_c
    | |- compatible _ _ => apply sy_compat_c
    | |- is_union _ _ _ => apply sy_union_c
    | |- conflict_free _ => apply sy_free_c
    | |- same_root _ _ => apply (sy_root [])
    | |- replays _ _ => apply sy_good_c
    | |- called _ _ _ => idtac
    | |- at_file _ _ _ _ => idtac
    | |- ex _ => idtac
    | |- _ => done
    end.
  - exists sy_b1. split; [apply sy_s1|done].
  - split; [|done]. exists sy_b1. split; [apply sy_s1|done].
  - split; [|done]. eexists. split; [unfold sy_m_c; apply lookup_insert|apply lookup_insert].
  - exists s', ct. split; [exact E|]. destruct Hm as (_ & _ & _ & _ & _ & _ & Hv & _). rewrite app_nil_r in Hv. split; [exact Hv|]. split; [done|]. split; [apply sy_s1|done].
Qed.

(** Two remotes, one with something new: the other one does not get it. *)
Definition sy_files_p (url : string) : pulled := if String.eqb url "file:///a" then Pulled (mk_slice (sy_file sy_log) []) else Pulled (mk_slice (sy_file sy_log_p) []).
Lemma unchanged_run : ∃ s' ct,
  sync toy (sy_world sy_files_p) "" true (sy_session sy_log) [] = (s', [mk_push "s2" "file:///b" ct None], UOk tt []) ∧ vis (db_log (s_db s')) = sy_log_p.
Proof.
  set (w := sy_world sy_files_p). set (s := sy_session sy_log).
  assert (vis (db_log (s_db s)) ≠ []) as Hne by done.
  assert (∀ i inp, remote_is toy w (caught_up s) i "s1" inp "" LeftAlone inp) as H1.
  { intros i inp. pose proof (file_is toy w s sy_m "s1" "file:///a" i inp (sy_session sy_log) sy_m se_env map_to_list se_iv (sy_file sy_log) [] se_pass toy_ok (proj1 sy_good_0) Hne) as H.
    rewrite decide_True in H by done. apply H; [split; [exists sy_b1; split; [apply sy_s1|done]|done]|apply sy_good_0|done|apply sy_single|done|done|done|apply (sy_saved _ sy_m), sy_good_0|done]. }
  set (p := mk_part "" se_pass (single_params (s_key s) (s_salt s) se_iv) sy_log_p).
  assert (∀ i inp, remote_is toy w (caught_up s) i "s2" inp "" (Opened p) inp) as H2.
  { intros i inp. pose proof (file_is toy w s sy_m "s2" "file:///b" i inp (sy_session sy_log_p) sy_m_p se_env map_to_list se_iv (sy_file sy_log_p) [] se_pass toy_ok (proj1 sy_good_0) Hne) as H.
    rewrite decide_False in H by apply sy_not_alike. apply H; [split; [exists sy_b2; split; [apply sy_s2|done]|done]|apply sy_good_p|done|apply sy_single|done|done|done|apply (sy_saved _ sy_m_p), sy_good_p|done]. }
  assert (mergeBlobs (y_env w 4) (caught_up s) [p] [] = UOk (with_log (merge_start s) sy_log_p) []) as Hmb.
  { rewrite merge_same_key by done. subst p. cbn [b_log]. rewrite (proj1 (caught_up_log s)).
    change (vis (db_log (s_db s))) with sy_log. rewrite (mergeLogs_clean_spec sy_log sy_log_p [] sy_log_p); [done|apply sy_valid_0|apply sy_valid_p|apply sy_compat_p| |apply sy_union_p|apply sy_free_p|apply (sy_root [])|done].
    intros Hl. apply alike_look, sy_not_alike in Hl. done. }
  clearbody p.
  assert (∃ us rs, collectSyncs w sy_m = us ∧ pulls toy w (caught_up s) 0 us [] rs [] ∧ receivers us rs = ["s2"] ∧ opened_parts rs = [p] ∧ new_hosts us rs = ∅) as (us & rs & Hus & Hp & Hrec & Hop & Hnh).
  { destruct (sy_collect sy_files_p) as [E|E]; fold w in E.
    - exists ["s1"; "s2"], [("", LeftAlone); ("", Opened p)]. split; [done|]. split; [|done]. econstructor; [apply H1|]. econstructor; [apply H2|]. constructor.
    - exists ["s2"; "s1"], [("", Opened p); ("", LeftAlone)]. split; [done|]. split; [|done]. econstructor; [apply H2|]. econstructor; [apply H1|]. constructor. }
  pose proof sy_good_p as (Hhp & _ & Hup & Hip & Hlp).
  destruct (single_sync toy w "" s [] sy_m us rs [] (with_log (merge_start s) sy_log_p) [] sy_m_p se_pass se_iv) as (s2 & ct & Ep & Hm & Hs2 & _ & Hst & _ & _ & _).
  all: lazymatch goal with |- ex _ => idtac | |- prims_ok _ => apply toy_ok | |- good _ _ => apply sy_good_0 | |- _ => try done end.
  - rewrite (targets_all w (s_db s) sy_m) by apply sy_good_0. by rewrite Hus.
  - rewrite <-Hus. apply collect_about, se_fair.
  - apply sy_fair_hosts.
  - by rewrite Hop.
  - apply Hhp.
  - exists s2, ct. split; [|destruct Hm as (_ & _ & _ & _ & _ & _ & Hv & _); rewrite app_nil_r in Hv; exact Hv].
    unfold sync. rewrite Ep, Hrec. cbn [push_loop]. unfold entry_at. rewrite Hs2. unfold sy_m_p. rewrite lookup_insert. cbn [default from_option id].
    change (pushBlob w 0 _ ct []) with (UOk ("", None : option error) ([] : list input)). cbn [ubind note_host String.eqb].
    rewrite fair_no_hosts by apply sy_fair_hosts. unfold on_db. rewrite saveHosts_nil by done. cbn [of_outcome]. by destruct s2.
Qed.

(** ** Whose credentials *)
Definition sy_key (k : string) : session := mk_session false false 8 (db_of sy_log) "" "pw" (str_bytes k) (str_bytes "salt") [] [].
Definition sy_part (k : string) (master : option bytes) (log : list tx) : part :=
  mk_part k "pw" {| p_version := 1; NUsers := 0; User := 0; Keys := [str_bytes k]; Salts := [str_bytes "salt"]; Model_Crypt.Users := []; IVs := []; MKeys := []; IVM := None; Master := master |} log.
Definition sy_late1 : list tx := sy_log ++ [mk_tx 20 "setk" "s2" "user" "root"].
Definition sy_late2 : list tx := sy_log ++ [mk_tx 30 "setk" "s2" "pass" "x"].
Lemma latest_run : ∃ mr, mergeBlobs se_env (sy_key "k0") [sy_part "k1" None sy_late1; sy_part "k0" None sy_late2] [] = UOk mr [] ∧
  m_key mr = str_bytes "k1" ∧ m_user mr = "k1".
Proof.
  exists (mk_merged "k1" "pw" (str_bytes "k1") (str_bytes "salt") [] [] (sy_log ++ [mk_tx 20 "setk" "s2" "user" "root"; mk_tx 30 "setk" "s2" "pass" "x"])).
  split; [vm_compute; reflexivity|done].
Qed.
Definition sy_users : list tx := sy_log ++ [mk_tx 20 "add" "u" "" ""; mk_tx 21 "setk" "u" "name" "user/alice"].
Lemma mode_run : ∃ mr m, mergeBlobs se_env (sy_key "k0") [sy_part "alice" (Some (str_bytes "m")) sy_users; sy_part "k2" None sy_late2] [] = UOk mr [] ∧
  m_master mr = [] ∧ replays (m_log mr) m ∧ is_user m "alice".
Proof.
  exists (mk_merged "k2" "pw" (str_bytes "k2") (str_bytes "salt") [] [] (sy_log ++ [mk_tx 20 "add" "u" "" ""; mk_tx 21 "setk" "u" "name" "user/alice"; mk_tx 30 "setk" "s2" "pass" "x"])).
  exists (<["u" := <["name" := "user/alice"]> ∅]> (<["s2" := <["pass" := "x"]> sy_b2]> sy_m)).
  split; [vm_compute; reflexivity|]. split; [done|]. split; [apply replay_fn_ok; compute_dec|].
  exists "u". eexists. split; [apply lookup_insert|]. by rewrite lookup_insert.
Qed.
(** Another file entirely, and the answer no *)
Definition sy_other : list tx := [mk_tx 5 "add" "x" "" ""; mk_tx 6 "setk" "x" "name" "other"].
Lemma fork_run : mergeBlobs se_env (sy_session sy_log) [mk_part "" se_pass (single_params (key_of toy (str_bytes se_pass) se_salt) se_salt se_iv) sy_other] [ILine "no"] = UErr (EMsg "sync target was a total fork") [].
Proof. rewrite merge_same_key by done. cbn [b_log]. vm_compute. reflexivity. Qed.
