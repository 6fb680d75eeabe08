(** C96: two runs of the program on one file. *)
From Verif Require Import Proof_Crypt7 Proof_Utf8 Proof_TxLog Spec_Windows Spec_Main Proof_SessionEx Proof_Session Proof_Session3 Proof_Session6 Proof_Blobs Proof_Repl Proof_Repl2 Proof_Repl6 Proof_Main Proof_Text3 Proof_Cli Proof_Cli2 Proof_Windows Props_Repl Props_Text Props_Export Props_Multi Props_Cli Props_Runs.
From Coq Require Import Lia.
From stdpp Require Import options.
Import Model_GoStr.
#[local] Open Scope nat_scope.
#[local] Opaque saveBlob loadBlob key_of.

(** A file is not locked and not read again before it is written: of two runs that
    overlap the file has what the one that ends last makes of the file as it was before
    both, whatever the other one did. *)
Theorem C96_last_refuted : ∀ d a a' b, x_file (run_on b d).1 ≠ None → overlapping d a b = overlapping d a' b.
Proof. intros d a a' b H. unfold overlapping, left_by. by destruct (x_file (run_on b d).1). Qed.
Print Assumptions C96_last_refuted.

(** A session in which nothing is typed undoes whatever was done since it was opened. *)
Theorem C96_idle_refuted : ∀ d a b s m pass, prims_ok (o_P (v_o b)) → solo_file (o_P (v_o b)) s m pass d → idle b pass →
  has_store (o_P (v_o b)) (overlapping d a b) pass (s_db s) m.
Proof. intros d a b s m pass HP Hf Hi. destruct (idle_run b s m pass d HP Hf Hi) as (fl & E & H). unfold overlapping, left_by. by rewrite E. Qed.
Print Assumptions C96_idle_refuted.
Theorem C96_idle_users_refuted : ∀ d a b s m x pass, prims_ok (o_P (v_o b)) → users_file (other_disk (v_o b) d) s m → can_save (v_o b) → unlocks (o_P (v_o b)) m (s_master s) x pass →
  opening (v_o b) (v_f b) → f_time (v_f b) = "" → f_import (v_f b) = false → f_export (v_f b) = false → f_noSync (v_f b) = true →
  (∃ rest, v_inp b = ILine x :: ILine pass :: IErr EEnd :: rest) →
  ∃ fl, overlapping d a b = Found (mk_slice fl []) ∧ opens_for_all (o_P (v_o b)) s m m (s_db s) fl.
Proof.
  intros d a b s m x pass HP Hf Hc Hu H1 H2 H3 H4 H5 H6. destruct (idle_users b s m x pass d HP Hf Hc Hu H1 H2 H3 H4 H5 H6) as (fl & E & H).
  exists fl. unfold overlapping, left_by. by rewrite E.
Qed.
Print Assumptions C96_idle_users_refuted.

(** Started when the other has ended, a session adds to what the other left.  Missing:
    runs that overlap, refuted above; sessions with syncing, adduser or passwd; files
    with several users. *)
Theorem C96_in_turn_partial : ∀ (U U' : string → Prop) d a b s m pass inp inp' sa sb, o_P (v_o b) = o_P (v_o a) → prims_ok (o_P (v_o a)) →
  solo_file (o_P (v_o a)) s m pass d → well_named m → (∀ t, t ∈ vis (db_log (s_db s)) → U (tx_uuid t)) → editing U a pass inp → commands_on a d inp sa →
  (∀ t, t ∈ vis (db_log (s_db sa)) → U' (tx_uuid t)) → editing U' b pass inp' → commands_on b (after d a) inp' sb →
  log_grew s sa ∧ log_grew sa sb ∧ ∃ mb, has_store (o_P (v_o a)) (in_turn d a b) pass (s_db sb) mb.
Proof.
  intros U U' d a b s m pass inp inp' sa sb HPe HP Hf Hnm HU Ha Hca HU' Hb Hcb.
  destruct (edited_run U a s m pass d inp sa HP Hf Hnm HU Ha Hca) as (m1 & H1 & H2 & H3 & Hnm'). rewrite <- HPe in *.
  destruct (edited_run U' b sa m1 pass (after d a) inp' sb HP H3 Hnm' HU' Hb Hcb) as (m2 & H4 & H5 & _).
  split; [done|]. split; [done|]. by exists m2.
Qed.
Print Assumptions C96_in_turn_partial.
(** One in which nothing is typed leaves what the other left. *)
Theorem C96_idle_in_turn_partial : ∀ (U : string → Prop) d a b s m pass inp sa, o_P (v_o b) = o_P (v_o a) → prims_ok (o_P (v_o a)) →
  solo_file (o_P (v_o a)) s m pass d → well_named m → (∀ t, t ∈ vis (db_log (s_db s)) → U (tx_uuid t)) → editing U a pass inp → commands_on a d inp sa → idle b pass →
  log_grew s sa ∧ ∃ ma, has_store (o_P (v_o a)) (in_turn d a b) pass (s_db sa) ma.
Proof.
  intros U d a b s m pass inp sa HPe HP Hf Hnm HU Ha Hca Hi.
  destruct (edited_run U a s m pass d inp sa HP Hf Hnm HU Ha Hca) as (m1 & H1 & H2 & H3 & _). split; [done|]. exists m1. rewrite <- HPe in *.
  destruct (idle_run b sa m1 pass (after d a) HP H3 Hi) as (fl & E & H). unfold in_turn, after at 1, left_by. by rewrite E.
Qed.
Print Assumptions C96_idle_in_turn_partial.

(** What does not write the file harms no other run: so do runs that look at the past,
    that fail, or that only make a password. *)
Theorem C96_reader : ∀ d a b, x_file (run_on b d).1 = None → overlapping d a b = after d a.
Proof. intros d a b H. unfold overlapping, left_by. by rewrite H. Qed.
Print Assumptions C96_reader.
Theorem C96_past : ∀ d a b c, spelled (f_time (v_f b)) c → c ≠ mk_civil 1 1 1 0 0 0 0 → overlapping d a b = after d a.
Proof. intros d a b c H1 H2. apply C96_reader. by apply (bpass_read _ _ c). Qed.
Print Assumptions C96_past.

(** A value is set in one window, and the other is closed. *)
Definition wi_flags : flags := mk_flags false false false false false false true "" "s.blob" "".
Definition wi_a : window := mk_window (cli_o Absent) wi_flags (ILine se_pass :: ru_typed).
Definition wi_b : window := mk_window (cli_o Absent) wi_flags [ILine se_pass; IErr EEnd].
Lemma wi_set s1 : same_store (s_db se_single) (s_db s1) → good (s_db s1) se_m → s_readOnly s1 = false →
  ∃ s', run_repl tw s1 ru_typed = (s', [Report "user" "bob"], UOk tt []) ∧ vis (db_log (s_db s')) = vis (db_log (s_db se_single)) ++ ru_new.
Proof.
  intros Hsame Hg Hro.
  assert (Spec_Repl.ready (tw 0) s1 se_m) as Hr.
  { destruct ex_ready as (_ & R2 & R3 & R4 & _ & R6). split; [apply Hg|]. split; [exact R2|]. split; [exact R3|]. split; [exact R4|]. split; [intros i j m; reflexivity|exact R6]. }
  assert (¬ protected_key "user") as Hk by (rewrite <-protected_spec; vm_compute; discriminate).
  destruct (findq_ok (tw 0) s1 se_m "mail" "u1" [IErr EEnd] Hr ex_picks) as (s2 & E1 & (U1 & U2 & U3) & R1 & Hu).
  destruct (Set_key_spec (w_env (tw 0) 1) 0 "u1" "user" "bob" (s_db s2) se_m se_mail (proj1 R1) ex_m_u1 Hk) as (d' & E2 & Hh & Hv).
  exists (set_db d' s2). split; [|cbn [set_db s_db]; rewrite Hv, U1; destruct Hsame as (-> & _); exact eq_refl].
  assert (set_cmd (tw 0) "mail" "user" "bob" s1 [IErr EEnd] = (set_db d' s2, UOk [Report "user" "bob"] [IErr EEnd])) as Ec.
  { unfold set_cmd. rewrite (C_ok _ _ _ _ s2 "u1" [IErr EEnd]) by exact E1. change (("u1" =? "")%string) with false. change (("user" =? KeyPass)%string) with false.
    change (("user" =? KeyTwoFactor)%string) with false. change (("user" =? KeyURL)%string) with false. cbv iota. change (String.length "bob" =? 0) with false. cbv iota.
    rewrite (C_ok _ _ _ _ s2 "bob" [IErr EEnd]) by exact eq_refl. rewrite (C_ok _ _ _ _ (set_db d' s2) tt [IErr EEnd]); [exact eq_refl|].
    unfold on_db, dropping. rewrite E2. exact eq_refl. }
  with_strategy transparent [run_repl] unfold run_repl. unfold ru_typed. cbn [length].
  rewrite (loop_step _ tw 0 "" [] s1 _ _ (KSet "mail" "user" "bob") (set_db d' s2) "" [Report "user" "bob"] [IErr EEnd]).
  - cbn [run_loop app]. exact eq_refl.
  - rewrite Hro. vm_compute. reflexivity.
  - discriminate.
  - cbn [exec]. unfold showing. rewrite (C_ok _ _ _ _ (set_db d' s2) [Report "user" "bob"] [IErr EEnd]) by exact Ec. exact eq_refl.
Qed.
Lemma wi_idle : idle wi_b se_pass.
Proof. repeat split. - exists se_iv. split; exact eq_refl. - by exists []. Qed.
Lemma wi_editing : editing (λ u, u = "u1") wi_a se_pass ru_typed.
Proof.
  destruct C80_text_example as (H1 & H2 & H3 & H4 & H5 & _).
  split; [repeat split|]. split; [exact eq_refl|]. split; [exact eq_refl|]. split; [exact eq_refl|]. split; [exact eq_refl|]. split; [exists se_iv; split; exact eq_refl|].
  split; [exact eq_refl|]. split; [exact H1|]. split; [exact H2|]. split; [exact H3|]. split; [exact H4|]. split; [exact H5|].
  split; [intros line ->%ru_lines; utf8_lit|]. split; [|split]; intros line ->%ru_lines; vm_compute; discriminate.
Qed.
Example C96_example : ∃ d s', commands_on wi_a d ru_typed s' ∧ vis (db_log (s_db s')) = vis (db_log (s_db se_single)) ++ ru_new ∧
  (∃ m, has_store toy (in_turn d wi_a wi_b) se_pass (s_db s') m) ∧ has_store toy (overlapping d wi_a wi_b) se_pass (s_db se_single) se_m.
Proof.
  destruct cli_saved as [fl Es].
  destruct (single_reopen toy se_single se_pass se_m se_env map_to_list se_iv [] (Some se_salt) ru_typed toy_ok se_good eq_refl se_single_ok eq_refl) as (fl0 & s1 & E1 & El & Hsame & Hg1 & _ & Hro1 & _).
  rewrite Es in E1. injection E1 as <-. destruct (wi_set s1 Hsame Hg1 Hro1) as (s' & Er & Hv).
  assert (solo_file toy se_single se_m se_pass (Found (mk_slice fl []))) as Hf.
  { split; [exact se_good|]. split; [exact eq_refl|]. split; [exact se_single_ok|]. exists se_env, map_to_list, se_iv, fl, []. split; [exact eq_refl|]. split; [exact Es|exact eq_refl]. }
  assert (commands_on wi_a (Found (mk_slice fl [])) ru_typed s') as Hc.
  { exists s1, [Report "user" "bob"], []. split; [exact El|]. split; [exact Er|]. rewrite Hv, app_length. change (length (vis (db_log (s_db se_single)))) with 3. cbn. lia. }
  exists (Found (mk_slice fl [])), s'. split; [exact Hc|]. split; [exact Hv|]. split.
  - refine (proj2 (C96_idle_in_turn_partial (λ u, u = "u1") (Found (mk_slice fl [])) wi_a wi_b se_single se_m se_pass ru_typed s' eq_refl toy_ok Hf se_named _ wi_editing Hc wi_idle)).
    intros t Ht. by apply ex_sound in Ht.
  - exact (C96_idle_refuted (Found (mk_slice fl [])) wi_a wi_b se_single se_m se_pass toy_ok Hf wi_idle).
Qed.
Example C96_users_example : ∃ d, ∀ a, ∃ fl, overlapping d a (mk_window (cli_o Absent) wi_flags [ILine "bob"; ILine se_pass2; IErr EEnd]) = Found (mk_slice fl []) ∧
  opens_for_all toy se_multi se_m2 se_m2 (s_db se_multi) fl.
Proof.
  destruct ru_saved as (sa & fl & E). exists (Found (mk_slice fl [])). intros a.
  apply (C96_idle_users_refuted (Found (mk_slice fl [])) a (mk_window (cli_o Absent) wi_flags [ILine "bob"; ILine se_pass2; IErr EEnd]) se_multi se_m2 "bob" se_pass2 toy_ok).
  - apply (ru_file (other_disk (cli_o Absent) (Found (mk_slice fl []))) sa fl eq_refl eq_refl E).
  - apply (ru_save (cli_o Absent) eq_refl eq_refl eq_refl).
  - exact se_bob.
  - repeat split.
  - exact eq_refl.
  - exact eq_refl.
  - exact eq_refl.
  - exact eq_refl.
  - by exists [].
Qed.
