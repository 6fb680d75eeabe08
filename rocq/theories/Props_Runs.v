(** C86 for files with several users. *)
From Verif Require Import Proof_Crypt7 Proof_Session3 Proof_Repl Spec_Runs Spec_Json Spec_Import Spec_Export Proof_Utf8 Proof_TxLog Proof_Blobs Proof_SessionEx Proof_Session2 Proof_Session6 Proof_Repl6 Proof_Import Proof_Export Proof_Text3 Proof_Csv Proof_Csv2 Proof_Multi Proof_Runs Props_Import Props_Csv Props_Text Props_Multi Props_Cli.
From Coq Require Import Lia.
From stdpp Require Import options.
Import Model_GoStr.
#[local] Open Scope nat_scope.
#[local] Opaque saveBlob loadBlob key_of.

Lemma some40 (riv : bytes) : length riv = 40 → ∀ b, Some riv = Some b → length b = 40.
Proof. by intros H b [= <-]. Qed.

(** A user types their name and passphrase and is in the store that was saved. *)
Theorem C86_users_open : ∀ o s m x pass inp, prims_ok (o_P o) → users_file o s m → unlocks (o_P o) m (s_master s) x pass →
  ∃ s1, loadBlob (o_P o) (o_disk o) None (o_salt o) (ILine x :: ILine pass :: inp) = UOk s1 inp ∧
    same_store (s_db s) (s_db s1) ∧ serves (o_P o) s1 m ∧ s_user s1 = x.
Proof.
  intros o s m x pass inp HP (Hs & Hro & e & ord & riv & sa & fl & sp & He & Ho & Hl & Es & Hd) Hu.
  destruct (multi_saved _ _ _ _ _ _ _ _ HP Hs He Ho Hro (some40 _ Hl) Es x pass Hu sp (o_salt o) inp) as (s1 & El & H1 & H2 & _ & _ & _ & H6).
  exists s1. by rewrite Hd.
Qed.
Print Assumptions C86_users_open.

(** An export is the table of the snapshot in the file, and the file written back opens for
    every user with the same store. *)
Theorem C86_users_export_partial : ∀ o f s m x pass inp, prims_ok (o_P o) → users_file o s m → can_save o → unlocks (o_P o) m (s_master s) x pass →
  opening o f → f_time f = "" → f_import f = false → f_export f = true → f_format f = "CSV" → o_csv o = None → fair_keys (o_keys o) →
  ∃ csv rows fl', bpass o f (ILine x :: ILine pass :: inp) = (mk_effects None (Some csv) (Some fl'), exit_with o f None) ∧
    csv = go_join "" (map csv_record rows) ∧ table_of (snap_of (s_db s)) rows ∧ opens_for_all (o_P o) s m m (s_db s) fl'.
Proof.
  intros o f s m x pass inp HP (Hs & Hro & e & ord & riv & sa & fl & sp & He & Ho & Hl & Es & Hd) (He2 & Ho2 & b & Hb & Hbl) Hu Hop Ht.
  exact (multi_export o f s m e ord (Some riv) sa fl sp x pass HP Hs He Ho Hro (some40 _ Hl) Es Hd Hu Hop Ht He2 Ho2 b Hb Hbl inp).
Qed.
Print Assumptions C86_users_export_partial.

(** A run that is not told to sync, in which text is typed, none of the commands that change
    keys or users, and no user's entry is touched: the file written opens for everyone who could
    open the one read, with the store as it was at the end. *)
Theorem C86_users_session_partial : ∀ o f s m x pass inp (U : string → Prop) s1, prims_ok (o_P o) → users_file o s m → can_save o → unlocks (o_P o) m (s_master s) x pass →
  opening o f → f_time f = "" → f_import f = false → f_export f = false → f_noSync f = true →
  (∀ n, w_P (o_w o n) = o_P o) → (∀ n, rand_ok (w_rand (o_w o n))) → (∀ n, tame U (o_w o n)) → (∀ i j, drawn (o_w o i) = drawn (o_w o j) → i = j) → (∀ n, text_world (o_w o n)) →
  (∀ t, t ∈ vis (db_log (s_db s)) → U (tx_uuid t)) → typed_text inp → (∀ cmd, cmd ∈ changing_words → never_typed cmd inp) →
  loadBlob (o_P o) (o_disk o) None (o_salt o) (ILine x :: ILine pass :: inp) = UOk s1 inp →
  ∀ s' out rest, run_repl (o_w o) s1 inp = (s', out, UOk tt rest) → (Z.of_nat (length (vis (db_log (s_db s')))) < 2 ^ 64)%Z →
  (∀ l, vis (db_log (s_db s')) = vis (db_log (s_db s)) ++ l → Forall (spares m) l) →
  ∃ fl' m', bpass o f (ILine x :: ILine pass :: inp) = (mk_effects None None (Some fl'), exit_with o f None) ∧
    good (s_db s') m' ∧ same_users m m' ∧ log_grew s s' ∧ opens_for_all (o_P o) s m m' (s_db s') fl'.
Proof.
  intros o f s m x pass inp U s1 HP (Hs & Hro & e & ord & riv & sa & fl & sp & He & Ho & Hl & Es & Hd) (He2 & Ho2 & b & Hb & Hbl) Hu Hop Ht.
  exact (multi_session_run o f s m e ord (Some riv) sa fl sp x pass HP Hs He Ho Hro (some40 _ Hl) Es Hd Hu Hop Ht He2 Ho2 b Hb Hbl U inp s1).
Qed.
Print Assumptions C86_users_session_partial.

(** An import of records none of which is to be called user/…: the file has everything there
    was, the new entries, and the same users. *)
Theorem C86_users_import_partial : ∀ o f s m x pass a inp rs, prims_ok (o_P o) → users_file o s m → can_save o → unlocks (o_P o) m (s_master s) x pass →
  opening o f → f_time f = "" → f_import f = true → text_import o → o_lpass o = None → csv_text (unix (o_text o)) (map fields_of (header_row :: rs)) →
  fresh_uuids (s_db s) (o_import o) → a = "y" ∨ a = "Y" → (∀ r y k, r ∈ header_row :: rs → base_name (o_lower o) r +:+ ones k ≠ "user/" +:+ y) →
  ∃ d' m', imports (o_lower o) (o_import o) 0 (header_row :: rs) m m' ∧ holds d' m' ∧ same_users m m' ∧ ((Z.of_nat (length (vis (db_log d'))) < 2 ^ 64)%Z →
    ∃ fl', bpass o f (ILine x :: ILine pass :: ILine a :: inp) = (mk_effects None None (Some fl'), exit_with o f None) ∧ opens_for_all (o_P o) s m m' d' fl').
Proof.
  intros o f s m x pass a inp rs HP (Hs & Hro & e & ord & riv & sa & fl & sp & He & Ho & Hl & Es & Hd) (He2 & Ho2 & b & Hb & Hbl) Hu Hop Ht.
  exact (multi_import o f s m e ord (Some riv) sa fl sp x pass HP Hs He Ho Hro (some40 _ Hl) Es Hd Hu Hop Ht He2 Ho2 b Hb Hbl a inp rs).
Qed.
Print Assumptions C86_users_import_partial.

(** Refuted: what is imported is saved.  If one record is called user/…, in whatever case, the
    whole import is lost. *)
Theorem C86_users_import_refuted : ∀ o f s m x pass a inp rs r y, prims_ok (o_P o) → users_file o s m → can_save o → unlocks (o_P o) m (s_master s) x pass →
  opening o f → f_time f = "" → f_import f = true → o_lpass o = None → csv_text (unix (o_text o)) (map fields_of (header_row :: rs)) → (∀ j, fair (o_import o j)) →
  fresh_uuids (s_db s) (o_import o) → a = "y" ∨ a = "Y" → r ∈ rs → base_name (o_lower o) r = "user/" +:+ y →
  ∃ how, bpass o f (ILine x :: ILine pass :: ILine a :: inp) = (no_effects, how).
Proof.
  intros o f s m x pass a inp rs r y HP (Hs & Hro & e & ord & riv & sa & fl & sp & He & Ho & Hl & Es & Hd) (He2 & Ho2 & b & Hb & Hbl) Hu Hop Ht.
  exact (multi_import_lost o f s m e ord (Some riv) sa fl sp x pass HP Hs He Ho Hro (some40 _ Hl) Es Hd Hu Hop Ht He2 Ho2 b Hb Hbl a inp rs r y).
Qed.
Print Assumptions C86_users_import_refuted.

(** The file of alice and bob. *)
Definition ru_rec : lp := mk_lp "" "u" "p" "" "user/carol" "" "".
Definition ru_o (fl : bytes) : outside := cli_o (Found (mk_slice fl [])).
Definition ru_bad (fl : bytes) : outside := {|
  o_P := toy; o_terminal := None; o_abs := None; o_disk := Found (mk_slice fl []); o_salt := Some se_salt; o_rand := se_rand;
  o_lower := λ s, s; o_import := ex_import_env; o_lpass := None; o_text := go_join "" (map csv_record (map fields_of [header_row; ru_rec]));
  o_env := se_env; o_keys := elements; o_csv := None; o_w0 := tw 0; o_w1 := tw 1; o_w := tw;
  o_ord := map_to_list; o_riv := Some se_iv; o_clip := None; o_close := None |}.
Definition ru_flags : flags := mk_flags false false false false false false true "" "s.blob" "".
Lemma ru_saved : ∃ sa fl, saveBlob toy se_env map_to_list (Some se_iv) se_multi = (sa, Ok (Some fl)).
Proof. eapply (multi_saves toy se_multi se_m2); [exact toy_ok|exact se_serves|exact se_fair|exact se_ord|exact eq_refl|by intros b [= <-]|exact se_alice]. Qed.
Lemma ru_file o sa fl : o_P o = toy → o_disk o = Found (mk_slice fl []) → saveBlob toy se_env map_to_list (Some se_iv) se_multi = (sa, Ok (Some fl)) → users_file o se_multi se_m2.
Proof.
  intros HP Hd E. split; [rewrite HP; exact se_serves|]. split; [exact eq_refl|]. exists se_env, map_to_list, se_iv, sa, fl, [].
  split; [exact se_fair|]. split; [exact se_ord|]. split; [exact eq_refl|]. split; [rewrite HP; exact E|exact Hd].
Qed.
Lemma ru_save o : o_env o = se_env → o_ord o = map_to_list → o_riv o = Some se_iv → can_save o.
Proof. intros E1 E2 E3. split; [rewrite E1; exact se_fair|]. split; [rewrite E2; exact se_ord|]. exists se_iv. split; [exact E3|exact eq_refl]. Qed.
Example C86_users_export_example : ∃ fl csv rows fl', bpass (ru_o fl) (cli_export "") [ILine "bob"; ILine se_pass2] = (mk_effects None (Some csv) (Some fl'), Status 0) ∧
  csv = go_join "" (map csv_record rows) ∧ opens_for_all toy se_multi se_m2 se_m2 (s_db se_multi) fl'.
Proof.
  destruct ru_saved as (sa & fl & E). exists fl.
  destruct (C86_users_export_partial (ru_o fl) (cli_export "") se_multi se_m2 "bob" se_pass2 [] toy_ok (ru_file (ru_o fl) _ _ eq_refl eq_refl E) (ru_save (ru_o fl) eq_refl eq_refl eq_refl) se_bob)
    as (csv & rows & fl' & E1 & E2 & _ & E3); [repeat split|exact eq_refl|exact eq_refl|exact eq_refl|exact eq_refl|exact eq_refl|intros X; reflexivity|].
  exists csv, rows, fl'. split; [exact E1|]. split; [exact E2|exact E3].
Qed.

(** bob sets a value and ends the session. *)
Definition ru_typed : list input := [ILine "set mail user bob"; IErr EEnd].
Definition ru_new : list tx := [mk_tx 101 "setk" "u1" "updated" "100"; mk_tx 102 "setk" "u1" "user" "bob"].
Lemma ru_set s1 : same_store (s_db se_multi) (s_db s1) → serves toy s1 se_m2 → s_readOnly s1 = false →
  ∃ s', run_repl tw s1 ru_typed = (s', [Report "user" "bob"], UOk tt []) ∧ vis (db_log (s_db s')) = vis (db_log (s_db se_multi)) ++ ru_new.
Proof.
  intros Hsame Hs Hro.
  assert (Spec_Repl.ready (tw 0) s1 se_m2) as Hr.
  { destruct ex_ready2 as (_ & R2 & R3 & R4 & _ & R6). split; [apply Hs|]. split; [exact R2|]. split; [exact R3|]. split; [exact R4|]. split; [intros i j m; reflexivity|exact R6]. }
  assert (¬ protected_key "user") as Hk by (rewrite <-protected_spec; vm_compute; discriminate).
  destruct (findq_ok (tw 0) s1 se_m2 "mail" "u1" [IErr EEnd] Hr ex_picks2) as (s2 & E1 & (U1 & U2 & U3) & R1 & Hu).
  destruct (Set_key_spec (w_env (tw 0) 1) 0 "u1" "user" "bob" (s_db s2) se_m2 se_mail (proj1 R1) se_u1 Hk) as (d' & E2 & Hh & Hv).
  exists (set_db d' s2). split; [|cbn [set_db s_db]; rewrite Hv, U1; destruct Hsame as (-> & _); exact eq_refl].
  assert (set_cmd (tw 0) "mail" "user" "bob" s1 [IErr EEnd] = (set_db d' s2, UOk [Report "user" "bob"] [IErr EEnd])) as Ec.
  { unfold set_cmd. rewrite (C_ok _ _ _ _ s2 "u1" [IErr EEnd]) by exact E1. change (("u1" =? "")%string) with false. change (("user" =? KeyPass)%string) with false.
    change (("user" =? KeyTwoFactor)%string) with false. change (("user" =? KeyURL)%string) with false. cbv iota. change (String.length "bob" =? 0) with false. cbv iota.
    rewrite (C_ok _ _ _ _ s2 "bob" [IErr EEnd]) by exact eq_refl. rewrite (C_ok _ _ _ _ (set_db d' s2) tt [IErr EEnd]); [exact eq_refl|].
    unfold on_db, dropping. rewrite E2. exact eq_refl. }
  with_strategy transparent [run_repl] unfold run_repl. unfold ru_typed. cbn [length].
  rewrite (loop_step _ tw 0 "" [] s1 _ _ (KSet "mail" "user" "bob") (set_db d' s2) "" [Report "user" "bob"] [IErr EEnd]).
  - cbn [run_loop app]. exact eq_refl.
  - rewrite Hro. vm_compute. reflexivity.
  - discriminate.
  - cbn [exec]. unfold showing. rewrite (C_ok _ _ _ _ (set_db d' s2) [Report "user" "bob"] [IErr EEnd]) by exact Ec. exact eq_refl.
Qed.
Lemma ru_lines line : ILine line ∈ ru_typed → line = "set mail user bob".
Proof. intros H. apply elem_of_cons in H as [[= ->]|H]; [done|]. apply elem_of_cons in H as [H|H]; [discriminate H|]. by apply elem_of_nil in H. Qed.
Lemma ru_never cmd : cmd ∈ changing_words → never_typed cmd ru_typed.
Proof.
  intros Hc line ->%ru_lines. change (Some "set" ≠ Some cmd). intros [= <-]. unfold changing_words in Hc. rewrite !elem_of_cons, elem_of_nil in Hc.
  repeat (destruct Hc as [Hc|Hc]; [discriminate Hc|]). destruct Hc.
Qed.
Lemma ru_spares : Forall (spares se_m2) ru_new.
Proof.
  assert (∀ x, ¬ called se_m2 "u1" ("user/" +:+ x)) as Hu by (intros x [[? _]|[? _]]%se_called; discriminate).
  constructor; [|constructor; [|constructor]]; (split; [exact Hu|]; intros x (_ & _ & Hk); discriminate Hk).
Qed.
#[local] Opaque run_repl.
Example C86_users_session_example : ∃ fl fl' m' d, bpass (ru_o fl) ru_flags (ILine "bob" :: ILine se_pass2 :: ru_typed) = (mk_effects None None (Some fl'), Status 0) ∧
  vis (db_log d) = vis (db_log (s_db se_multi)) ++ ru_new ∧ opens_for_all toy se_multi se_m2 m' d fl'.
Proof.
  destruct ru_saved as (sa & fl & E). exists fl.
  pose proof (ru_file (ru_o fl) _ _ eq_refl eq_refl E) as Hf.
  destruct (multi_saved toy se_multi se_m2 se_env map_to_list (Some se_iv) sa fl toy_ok se_serves se_fair se_ord eq_refl (some40 se_iv eq_refl) E "bob" se_pass2 se_bob [] (Some se_salt) ru_typed) as (s1 & El & Hsame & Hs1 & _ & Hro & _).
  destruct (ru_set s1 Hsame Hs1 Hro) as (s' & Er & Hv).
  destruct (C86_users_session_partial (ru_o fl) ru_flags se_multi se_m2 "bob" se_pass2 ru_typed mu_U s1 toy_ok Hf (ru_save (ru_o fl) eq_refl eq_refl eq_refl) se_bob) with (s' := s') (out := [Report "user" "bob"]) (rest := @nil input) as (fl' & m' & E1 & _ & _ & _ & E2).
  - repeat split.
  - exact eq_refl.
  - exact eq_refl.
  - exact eq_refl.
  - exact eq_refl.
  - intros n. exact eq_refl.
  - intros n. apply se_rand_ok.
  - apply mu_tame.
  - apply mu_drawn.
  - apply tw_text.
  - apply mu_sound.
  - intros line ->%ru_lines. utf8_lit.
  - exact ru_never.
  - exact El.
  - exact Er.
  - rewrite Hv, app_length. change (length (vis (db_log (s_db se_multi)))) with 13. cbn. lia.
  - intros l Hl. rewrite Hv in Hl. apply app_inv_head in Hl as <-. exact ru_spares.
  - exists fl', m', (s_db s'). split; [exact E1|]. split; [exact Hv|exact E2].
Qed.

(** The import of a record called mail, and of one called user/carol *)
Lemma ru_fresh : fresh_uuids (s_db se_multi) ex_import_env.
Proof.
  split; [|apply ex_import_fresh]. intros i t Ht Heq. apply (proj2 (proj2 mu_sound)) in Ht. unfold mu_U in Ht. rewrite Heq in Ht. cbn [e_uuid ex_import_env] in Ht.
  rewrite !elem_of_cons, elem_of_nil in Ht. repeat (destruct Ht as [Ht|Ht]; [discriminate Ht|]). destruct Ht.
Qed.
Example C86_users_import_example : ∃ fl d m', imports (λ s, s) ex_import_env 0 [header_row; ex_rec] se_m2 m' ∧ same_users se_m2 m' ∧
  ((Z.of_nat (length (vis (db_log d))) < 2 ^ 64)%Z → ∃ fl', bpass (ru_o fl) cli_import [ILine "alice"; ILine se_pass; ILine "y"] = (mk_effects None None (Some fl'), Status 0) ∧
    opens_for_all toy se_multi se_m2 m' d fl').
Proof.
  destruct ru_saved as (sa & fl & E). exists fl.
  destruct (C86_users_import_partial (ru_o fl) cli_import se_multi se_m2 "alice" se_pass "y" [] [ex_rec] toy_ok (ru_file (ru_o fl) _ _ eq_refl eq_refl E) (ru_save (ru_o fl) eq_refl eq_refl eq_refl) se_alice) as (d & m' & H1 & H2 & H3 & H4).
  - repeat split.
  - exact eq_refl.
  - exact eq_refl.
  - exact (proj1 C86_import_ex).
  - exact eq_refl.
  - exact (proj2 (proj2 (proj2 (proj2 C86_import_ex)))).
  - exact ru_fresh.
  - by left.
  - intros r y k Hr. apply elem_of_cons in Hr as [->|[->|Hr%elem_of_nil]%elem_of_cons]; [discriminate|discriminate|destruct Hr].
  - exists d, m'. split; [exact H1|]. split; [exact H3|exact H4].
Qed.
Example C86_users_lost_example : ∃ fl how, bpass (ru_bad fl) cli_import [ILine "alice"; ILine se_pass; ILine "y"] = (no_effects, how).
Proof.
  destruct ru_saved as (sa & fl & E). exists fl.
  apply (C86_users_import_refuted (ru_bad fl) cli_import se_multi se_m2 "alice" se_pass "y" [] [ru_rec] ru_rec "carol" toy_ok (ru_file (ru_bad fl) _ _ eq_refl eq_refl E) (ru_save (ru_bad fl) eq_refl eq_refl eq_refl) se_alice).
  - repeat split.
  - exact eq_refl.
  - exact eq_refl.
  - exact eq_refl.
  - apply (written_text (map fields_of [header_row; ru_rec])). repeat (constructor; [by split|]). constructor.
  - intros j i m. apply se_fair.
  - exact ru_fresh.
  - by left.
  - by left.
  - exact eq_refl.
Qed.
