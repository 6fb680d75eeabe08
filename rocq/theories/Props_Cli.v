(** C85: the --time flag.  C86: what the subcommands do.  C87: the path in the prompt. *)
From Verif Require Import Spec_Cli Spec_Json Spec_Main Spec_Syncing Proof_GoStr Proof_Utf8 Proof_TxLog Proof_Blobs Proof_Hosts Proof_Export Proof_SessionEx Proof_Session Proof_Session2 Proof_Session3 Proof_Session6 Proof_Repl Proof_Repl2 Proof_Repl6 Proof_Sync5 Proof_Crypt7 Proof_Time Proof_Time2 Proof_Cli Proof_Cli2 Proof_Csv Proof_Csv2 Proof_Syncing5 Proof_Text Props_Import Props_Export Props_Repl Props_Text Props_Syncing.
From Coq Require Import Lia.
From stdpp Require Import options.
Import Model_GoStr.
#[local] Open Scope nat_scope.
#[local] Opaque saveBlob loadBlob key_of.

(** ** C85: the time *)

(** A text is read as the time it writes, and nothing else is read.  The usage says
    YYYY-MM-DD HH:mm:ss; also allowed are more blanks, an hour of one digit and a fraction
    of a second. *)
Theorem C85_reads : ∀ s c, time_parse s = Some c ↔ spelled s c.
Proof. intros s c. split; [apply time_parse_inv|apply time_parse_spelled]. Qed.
Print Assumptions C85_reads.
Theorem C85_stamp : ∀ c, valid_time c → cv_nsec c = 0%Z → time_parse (stamp c) = Some c.
Proof. intros c Hv Hn. by apply time_parse_spelled, stamp_spelled. Qed.
Print Assumptions C85_stamp.
Theorem C85_one : ∀ s c c', spelled s c → spelled s c' → c = c'.
Proof. intros s c c' H H'. apply time_parse_spelled in H, H'. congruence. Qed.
Print Assumptions C85_one.
Example C85_leap_day : time_parse "2024-02-29 23:59:59" = Some (mk_civil 2024 2 29 23 59 59 0) ∧
  time_parse "2023-02-29 23:59:59" = None ∧ time_parse "2024-02-29" = None ∧ time_parse "2024-02-29  7:05:09.25" = Some (mk_civil 2024 2 29 7 5 9 250000000).
Proof. by vm_compute. Qed.

(** The number of seconds is that of the calendar: 0 at the epoch, a day more is 86400
    seconds more, and within a day hours, minutes and seconds count. *)
Theorem C85_epoch : Date_unix epoch = 0%Z.
Proof. exact Date_epoch. Qed.
Print Assumptions C85_epoch.
Theorem C85_next_day : ∀ c, valid_time c → (Date_unix (next_day c) = Date_unix c + 86400)%Z ∧ ((cv_year c < 9999)%Z → valid_time (next_day c)).
Proof. intros c Hv. split; [by apply Date_next|by apply next_valid]. Qed.
Print Assumptions C85_next_day.
Theorem C85_time_of_day : ∀ c, (Date_unix c = Date_unix (midnight c) + 3600 * cv_hour c + 60 * cv_min c + cv_sec c)%Z.
Proof. exact Date_time. Qed.
Print Assumptions C85_time_of_day.
(** A later time has a larger number. *)
Theorem C85_order : ∀ c c', valid_time c → valid_time c' → sooner c c' ↔ (instant c < instant c')%Z.
Proof.
  intros c c' H H'. split; [by apply sooner_instant|]. intros Hl. destruct (sooner_total c c') as [->|[?|Hs]]; [lia|done|].
  apply sooner_instant in Hs; [lia|done..].
Qed.
Print Assumptions C85_order.
Theorem C85_different : ∀ c c', valid_time c → valid_time c' → instant c = instant c' → c = c'.
Proof. exact instant_inj. Qed.
Print Assumptions C85_different.
Example C85_instant : Date_unix (mk_civil 2021 3 14 15 9 26 0) = 1615734566%Z ∧ Date_unix (next_day (mk_civil 2023 12 31 0 0 0 0)) = 1704067200%Z.
Proof. by vm_compute. Qed.

(** A file opened with a time from 1678 to 2261 shows the transactions up to that time.
    Missing: other years, refuted below. *)
Theorem C85_at_partial : ∀ f c, spelled (f_time f) c → representable c → f_help f = false →
  parseCli f = CliGo (Some c) ∧ history_at (Some c) = Some (instant c).
Proof.
  intros f c Hs Hr Hh. split; [by apply parse_some|]. unfold history_at.
  destruct (IsZero c) eqn:E; [apply IsZero_year_one in E as ->; [unfold representable in Hr; cbn in Hr; lia|apply Hs]|].
  f_equal. by apply (UnixNano_fits c (proj1 Hs) Hr).
Qed.
Print Assumptions C85_at_partial.
Theorem C85_shows_partial : ∀ P s pass m e ord riv sp rsalt c rest,
  prims_ok P → good (s_db s) m → s_readOnly s = false → single_session P s pass → length riv = 40 → valid_time c → representable c →
  ∃ f s2 past m', saveBlob P e ord (Some riv) s = (s, Ok (Some f)) ∧
    loadBlob P (Found (mk_slice f sp)) (history_at (Some c)) rsalt (ILine pass :: rest) = UOk s2 rest ∧ s_readOnly s2 = true ∧
    history (instant c) (vis (db_log (s_db s))) past ∧ vis (db_log (s_db s2)) = past ∧ replays past m' ∧ holds (s_db s2) m'.
Proof.
  intros P s pass m e ord riv sp rsalt c rest HP Hg Hro Hs Hl Hv Hr.
  assert (history_at (Some c) = Some (instant c)) as ->.
  { unfold history_at. destruct (IsZero c) eqn:E; [apply IsZero_year_one in E as ->; [unfold representable in Hr; cbn in Hr; lia|done]|].
    f_equal. by apply (UnixNano_fits c Hv Hr). }
  by eapply C55_shows_single.
Qed.
Print Assumptions C85_shows_partial.
Theorem C85_shows_multi_partial : ∀ P s x pass m e ord riv sp rsalt c rest,
  prims_ok P → good (s_db s) m → all_named m → fair e → fair_results ord →
  s_readOnly s = false → multi_session P s m → unlocks P m (s_master s) x pass → (∀ b, riv = Some b → length b = 40) → valid_time c → representable c →
  ∃ f s1 s2 past m', saveBlob P e ord riv s = (s1, Ok (Some f)) ∧
    loadBlob P (Found (mk_slice f sp)) (history_at (Some c)) rsalt (ILine x :: ILine pass :: rest) = UOk s2 rest ∧ s_readOnly s2 = true ∧
    history (instant c) (vis (db_log (s_db s))) past ∧ vis (db_log (s_db s2)) = past ∧ replays past m' ∧ holds (s_db s2) m'.
Proof.
  intros P s x pass m e ord riv sp rsalt c rest HP Hg Ha Hf Ho Hro Hm Hu Hl Hv Hr.
  assert (history_at (Some c) = Some (instant c)) as ->.
  { unfold history_at. destruct (IsZero c) eqn:E; [apply IsZero_year_one in E as ->; [unfold representable in Hr; cbn in Hr; lia|done]|].
    f_equal. by apply (UnixNano_fits c Hv Hr). }
  by eapply C55_shows_multi.
Qed.
Print Assumptions C85_shows_multi_partial.

(** With a time the store file is never written, whatever the subcommand, the input and
    the state of the outside.  Missing: the first instant of year 1, refuted below. *)
Theorem C85_readonly_partial : ∀ o f c inp, spelled (f_time f) c → c ≠ mk_civil 1 1 1 0 0 0 0 → x_file (bpass o f inp).1 = None.
Proof. exact bpass_read. Qed.
Print Assumptions C85_readonly_partial.

(** What is not a time ends the program with status 1 before anything is done. *)
Theorem C85_bad : ∀ o f inp, f_time f ≠ "" → (∀ c, ¬ spelled (f_time f) c) → bpass o f inp = (no_effects, Status 1).
Proof. intros o f inp H1 H2. unfold bpass. by rewrite parse_bad. Qed.
Print Assumptions C85_bad.

(** The first instant of year 1 is Go's zero time: the flag is as good as not given. *)
Lemma year_one f : f_time f = "0001-01-01 00:00:00" → parseCli f = if f_help f then CliExit 0 else CliGo (Some (mk_civil 1 1 1 0 0 0 0)).
Proof. intros E. unfold parseCli. rewrite E. by replace (time_parse "0001-01-01 00:00:00") with (Some (mk_civil 1 1 1 0 0 0 0)) by (vm_compute; reflexivity). Qed.
Theorem C85_year_one_refuted : ∀ o f inp, f_time f = "0001-01-01 00:00:00" → bpass o f inp = bpass o (without_time f) inp.
Proof.
  intros o f inp E. unfold bpass. rewrite (year_one f E).
  assert (parseCli (without_time f) = if f_help f then CliExit 0 else CliGo None) as -> by done. destruct (f_help f); [done|].
  change (history_at (Some (mk_civil 1 1 1 0 0 0 0))) with (history_at None). reflexivity.
Qed.
Print Assumptions C85_year_one_refuted.

(** A concrete run *)
Definition cli_records : list (list string) := map fields_of [header_row; ex_rec].
Definition cli_o (k : disk) : outside := {|
  o_P := toy; o_terminal := None; o_abs := None; o_disk := k; o_salt := Some se_salt; o_rand := se_rand;
  o_lower := λ s, s; o_import := ex_import_env; o_lpass := None; o_text := go_join "" (map csv_record cli_records);
  o_env := se_env; o_keys := elements; o_csv := None; o_w0 := tw 0; o_w1 := tw 1; o_w := tw;
  o_ord := map_to_list; o_riv := Some se_iv; o_clip := None; o_close := None |}.
Definition cli_export (t : string) : flags := mk_flags false false false true false false false t "s.blob" "CSV".
Definition cli_import : flags := mk_flags false false true false false false false "" "s.blob" "".
Lemma cli_saved : ∃ fl, saveBlob toy se_env map_to_list (Some se_iv) se_single = (se_single, Ok (Some fl)).
Proof. destruct (single_reopen toy se_single se_pass se_m se_env map_to_list se_iv [] None [] toy_ok se_good eq_refl se_single_ok eq_refl) as (f & _ & E & _). by exists f. Qed.
Lemma cli_run fl sp inp : saveBlob toy se_env map_to_list (Some se_iv) se_single = (se_single, Ok (Some fl)) →
  ∃ csv rows fl', bpass (cli_o (Found (mk_slice fl sp))) (cli_export "") (ILine se_pass :: inp) = (mk_effects None (Some csv) (Some fl'), Status 0) ∧
    csv = go_join "" (map csv_record rows) ∧ table_of ∅ rows.
Proof.
  intros E. destruct (export_run (cli_o (Found (mk_slice fl sp))) (cli_export "") se_single se_pass se_m fl sp inp se_env map_to_list se_iv) as (csv & rows & fl' & E1 & E2 & E3 & _);
    [exact toy_ok|exact se_good|exact eq_refl|exact se_single_ok|exact eq_refl|exact E|exact eq_refl|exists se_iv; split; exact eq_refl|repeat split|exact eq_refl|exact eq_refl|exact eq_refl|exact eq_refl|exact eq_refl|exact se_fair|intros X; reflexivity|].
  exists csv, rows, fl'. split; [exact E1|]. split; [exact E2|exact E3].
Qed.
(** So a file opened as of that time is written. *)
Theorem C85_readonly_refuted : ¬ ∀ o f c inp, spelled (f_time f) c → x_file (bpass o f inp).1 = None.
Proof.
  intros H. destruct cli_saved as [fl Es]. destruct (cli_run fl [] [] Es) as (csv & rows & fl' & E & _).
  specialize (H (cli_o (Found (mk_slice fl []))) (cli_export "0001-01-01 00:00:00") (mk_civil 1 1 1 0 0 0 0) [ILine se_pass]).
  rewrite C85_year_one_refuted in H by done. change (without_time (cli_export "0001-01-01 00:00:00")) with (cli_export "") in H. rewrite E in H.
  assert (Some fl' = None) as Hx; [|discriminate Hx]. apply H. apply time_parse_inv. vm_compute. reflexivity.
Qed.
Print Assumptions C85_readonly_refuted.

(** Other years wrap around: what is said to be the state in 2500 is a store without
    anything, though every transaction is earlier; and for a time in 1500 all of today's
    transactions are shown. *)
Theorem C85_2500_refuted : ∀ log, Forall (λ t, (0 ≤ tx_time t)%Z ∧ (tx_time t < instant (mk_civil 2500 1 1 0 0 0 0))%Z) log →
  history_at (Some (mk_civil 2500 1 1 0 0 0 0)) = Some (-1721518473709551616)%Z ∧ history (-1721518473709551616)%Z log [].
Proof.
  intros log H. split; [by vm_compute|]. exists log. split; [done|]. split; [constructor|]. destruct H as [|t log Ht _]; [done|]. lia.
Qed.
Print Assumptions C85_2500_refuted.
Theorem C85_1500_refuted : ∀ log, Forall (λ t, (0 ≤ tx_time t)%Z ∧ (tx_time t < 3600000000000000000)%Z) log →
  (instant (mk_civil 1500 1 1 0 0 0 0) < 0)%Z ∧ ∃ z, history_at (Some (mk_civil 1500 1 1 0 0 0 0)) = Some z ∧ history z log log.
Proof.
  intros log H. split; [by vm_compute|]. eexists. split; [vm_compute; reflexivity|]. exists []. split; [by rewrite app_nil_r|]. split; [|done].
  eapply Forall_impl; [exact H|]. cbn. lia.
Qed.
Print Assumptions C85_1500_refuted.

(** ** C86: the subcommands *)

(** The file is the one given, else that of $BPASS, else the default.  Missing: a file
    given that is the default one, refuted below. *)
Theorem C86_file_partial : ∀ given d e, (given ≠ Some d ∨ e = "") → file_used d (flag_value given d) e = wanted given d e.
Proof.
  intros given d e H. unfold file_used, flag_value, wanted. destruct given as [p|].
  - destruct (String.eqb_spec p d) as [->|]; [|done]. destruct H as [H| ->]; done.
  - rewrite String.eqb_refl. destruct e; cbn [String.length Nat.eqb]; by case_decide.
Qed.
Print Assumptions C86_file_partial.
Theorem C86_file_refuted : ∀ d e, d ≠ e → e ≠ "" → wanted (Some d) d e = d ∧ file_used d (flag_value (Some d) d) e = e.
Proof. intros d e Hd He. split; [done|]. unfold file_used, flag_value. rewrite String.eqb_refl. by destruct e. Qed.
Print Assumptions C86_file_refuted.
Example C86_file_ex : file_used "/home/a/.bpass" "x.blob" "y.blob" = "x.blob" ∧ file_used "/home/a/.bpass" "/home/a/.bpass" "y.blob" = "y.blob".
Proof. done. Qed.

(** What is printed, exported or written comes from the subcommand for it, and a run that
    panics or waits for input leaves the store file as it was. *)
Theorem C86_only : ∀ o f inp,
  (x_printed (bpass o f inp).1 ≠ None → f_gen f = true) ∧
  (x_csv (bpass o f inp).1 ≠ None → f_export f = true ∧ f_import f = false ∧ f_gen f = false) ∧
  (x_file (bpass o f inp).1 ≠ None → f_gen f = false ∧ f_version f = false ∧ (bpass o f inp).2 = exit_with o f None).
Proof.
  intros o f inp. unfold bpass. destruct (parseCli f) as [z|t]; [done|]. destruct (f_version f) eqn:Ev; [done|]. destruct (o_terminal o); [done|].
  destruct (f_gen f) eqn:Eg; [by destruct (newPassword _ _)|]. destruct (o_abs o); [done|]. destruct (loadBlob _ _ _ _ _) as [s inp1|? ?| |]; [|done..].
  destruct (work o f s inp1) as [csv r] eqn:Ew. assert (csv ≠ None → f_export f = true ∧ f_import f = false) as Hc.
  { unfold work in Ew. destruct (f_import f); [injection Ew as <- _; done|]. destruct (f_export f); [done|]. injection Ew as <- _; done. }
  destruct r as [fl r|? ?| |]; cbn [fst snd x_printed x_csv x_file]; (split; [done|]; split; [intros H; by destruct (Hc H)|done]).
Qed.
Print Assumptions C86_only.

(** version prints and ends; gen prints a new password and has nothing to do with the
    file. *)
Theorem C86_version : ∀ o f t inp, parseCli f = CliGo t → f_version f = true → bpass o f inp = (no_effects, Status 0).
Proof. intros o f t inp E Hv. unfold bpass. by rewrite E, Hv. Qed.
Print Assumptions C86_version.
Theorem C86_gen : ∀ o f t inp pw rest, parseCli f = CliGo t → f_version f = false → o_terminal o = None → f_gen f = true →
  newPassword (o_rand o) inp = UOk pw rest → bpass o f inp = (mk_effects (Some pw) None None, Status 0).
Proof. intros o f t inp pw rest E Hv Ht Hg Hp. unfold bpass. by rewrite E, Hv, Ht, Hg, Hp. Qed.
Print Assumptions C86_gen.
Theorem C86_gen_alone : ∀ o f inp k, f_gen f = true → bpass o f inp = bpass (other_disk o k) f inp.
Proof. intros o f inp k Hg. unfold bpass. rewrite Hg. destruct (parseCli f); [done|]. destruct (f_version f); [done|]. unfold other_disk; cbn [o_terminal o_rand]. by destruct (o_terminal o). Qed.
Print Assumptions C86_gen_alone.
Example C86_gen_ex : ∃ f, f_gen f = true ∧ parseCli f = CliGo None ∧ bpass (cli_o Absent) f [ILine "m"; ILine "pw"; ILine "pw"] = (mk_effects (Some "pw") None None, Status 0).
Proof.
  exists (mk_flags false true false false false false false "" "s.blob" ""). split; [done|]. split; [done|].
  by apply (C86_gen _ _ None _ _ []); [| | | |apply se_typed].
Qed.

(** An export is the table of the snapshot in the file, and the file written back opens
    with the same store.  Missing: that the snapshot has everything that was saved,
    refuted below; files with more than one user. *)
Theorem C86_export_partial : ∀ o f s pass m fl sp inp e ord riv,
  prims_ok (o_P o) → good (s_db s) m → s_readOnly s = false → single_session (o_P o) s pass → length riv = 40 →
  saveBlob (o_P o) e ord (Some riv) s = (s, Ok (Some fl)) → o_disk o = Found (mk_slice fl sp) → (∃ b, o_riv o = Some b ∧ length b = 40) →
  opening o f → f_time f = "" → f_import f = false → f_export f = true → f_format f = "CSV" → o_csv o = None → fair (o_env o) → fair_keys (o_keys o) →
  ∃ csv rows fl', bpass o f (ILine pass :: inp) = (mk_effects None (Some csv) (Some fl'), exit_with o f None) ∧
    csv = go_join "" (map csv_record rows) ∧ table_of (snap_of (s_db s)) rows ∧
    ∀ sp rsalt r, ∃ s2, loadBlob (o_P o) (Found (mk_slice fl' sp)) None rsalt (ILine pass :: r) = UOk s2 r ∧ same_store (s_db s) (s_db s2) ∧ good (s_db s2) m.
Proof. exact export_run. Qed.
Print Assumptions C86_export_partial.

(** With a time the export is the whole store of that time, and the file stays as it is. *)
Theorem C86_export_past_partial : ∀ o f c s pass m fl sp inp e ord riv,
  prims_ok (o_P o) → good (s_db s) m → s_readOnly s = false → single_session (o_P o) s pass → length riv = 40 →
  saveBlob (o_P o) e ord (Some riv) s = (s, Ok (Some fl)) → o_disk o = Found (mk_slice fl sp) →
  opening o f → spelled (f_time f) c → representable c → f_import f = false → f_export f = true → f_format f = "CSV" → o_csv o = None → fair (o_env o) → fair_keys (o_keys o) →
  ∃ csv rows past m', bpass o f (ILine pass :: inp) = (mk_effects None (Some csv) None, exit_with o f None) ∧
    csv = go_join "" (map csv_record rows) ∧ history (instant c) (vis (db_log (s_db s))) past ∧ replays past m' ∧ table_of m' rows.
Proof. exact export_past. Qed.
Print Assumptions C86_export_past_partial.

(** A sync leaves the snapshot up to date. *)
Theorem C86_synced : ∀ P y name s inp s' rest (U R : string → Prop), fair (y_env y 0) → fair_hosts y → remotes_within P y R →
  settled U s → sync_cmd P y name s inp = (s', UOk tt rest) → db_version (s_db s') = length (vis (db_log (s_db s'))).
Proof. exact sync_current. Qed.
Print Assumptions C86_synced.
(** A sync with nothing to sync with only brings the snapshot up to date. *)
Theorem C84_alone : ∀ P y s inp m pass riv, prims_ok P → good (s_db s) m → s_readOnly s = false → single_session P s pass → fair (y_env y 0) → fair_hosts y →
  y_iv y = Some riv → length riv = 40 → (∀ u b, m !! u = Some b → ¬ marked y b) →
  ∃ s', sync_cmd P y "" s inp = (s', UOk tt inp) ∧ vis (db_log (s_db s')) = vis (db_log (s_db s)) ∧ snap_of (s_db s') = m ∧ good (s_db s') m ∧ single_session P s' pass ∧
    s_readOnly s' = false ∧ s_startTx s' = s_startTx s ∧ s_pass s' = s_pass s.
Proof. exact sync_alone. Qed.
Print Assumptions C84_alone.

(** So after a session that changed something and was not told not to sync the export is
    the whole store.  Missing as in C84_saved_partial. *)
Theorem C86_session_export_partial : ∀ P (Q U R : string → Prop) w w0 w1 y y0 y1 e ord riv s pass m0 inp s' out rest,
  (∀ n k, w_sync (w n) k = sync_cmd P (y n) k) → (∀ k, w_sync w0 k = sync_cmd P y0 k) → (∀ k, w_sync w1 k = sync_cmd P y1 k) →
  (∀ n, tame_sync P R (y n)) → tame_sync P R y0 → tame_sync P R y1 → (∀ u, R u → U u) →
  (∀ n, tame U (w n)) → (∀ i j, drawn (w i) = drawn (w j) → i = j) → (∀ n, w_P (w n) = P) → (∀ n, rand_ok (w_rand (w n))) → (∀ n, text_world (w n)) →
  prims_ok P → length riv = 40 →
  good (s_db s) m0 → (∀ t, t ∈ vis (db_log (s_db s)) → U (tx_uuid t)) →
  s_readOnly s = false → single_session P s pass → Q pass → (s_pass s = "" ∨ Q (s_pass s)) → may_open Q inp → typed_text inp →
  session_main P true w0 w1 w e ord (Some riv) s inp = (s', UOk out rest) → s_startTx s' ≠ length (vis (db_log (s_db s'))) → (Z.of_nat (length (vis (db_log (s_db s')))) < 2 ^ 64)%Z →
  ∃ fl pass' m, out = Some fl ∧ Q pass' ∧ good (s_db s') m ∧
    ∀ o f sp typed, o_P o = P → o_disk o = Found (mk_slice fl sp) → (∃ b, o_riv o = Some b ∧ length b = 40) →
      opening o f → f_time f = "" → f_import f = false → f_export f = true → f_format f = "CSV" → o_csv o = None → fair (o_env o) → fair_keys (o_keys o) →
      ∃ csv rows fl', bpass o f (ILine pass' :: typed) = (mk_effects None (Some csv) (Some fl'), exit_with o f None) ∧
        csv = go_join "" (map csv_record rows) ∧ table_of m rows.
Proof. exact session_export. Qed.
Print Assumptions C86_session_export_partial.

(** The entry called mail gets a user; nothing is marked for syncing. *)
Definition as_sync : sync_world := sy_world (λ _, Model_Sync.NotFound).
Definition as_w (n : nat) : world := with_sync as_sync (tw n).
Definition as_typed : list input := [ILine "set mail user bob"; IErr EEnd].
Lemma as_pullable ct : ¬ pullable as_sync ct.
Proof. intros [(i & b & inp & host & rest & H)|(i & url & H)]; discriminate H. Qed.
Lemma as_tame : tame_sync toy (λ _, False) as_sync.
Proof.
  split; [split; [apply se_fair|apply sy_fair_hosts]|]. split; [split; intros; exact Logic.I|].
  split; [intros log t (ct & params & pt & sl & Hp & _); by apply as_pullable in Hp|]. split; [intros ct params pt Hp; by apply as_pullable in Hp|].
  split; [intros k; apply se_clock|]. split; intros; exact Logic.I.
Qed.
Lemma as_set s inp : good (s_db s) se_m → s_startTx s = 3 → vis (db_log (s_db s)) = se_log →
  ∃ s' m', set_cmd (as_w 0) "mail" "user" "bob" s inp = (s', UOk [Report "user" "bob"] inp) ∧ good (s_db s') m' ∧ s' = set_db (s_db s') s ∧
    length (vis (db_log (s_db s'))) = 5 ∧ ∀ u b, m' !! u = Some b → ¬ marked as_sync b.
Proof.
  intros Hg Hst Hl.
  assert (Spec_Repl.ready (as_w 0) s se_m) as Hr.
  { destruct ex_ready as (_ & R2 & R3 & R4 & _ & R6). split; [apply Hg|]. split; [done|]. split; [exact R3|]. split; [done|]. split; [intros i j m; reflexivity|exact R6]. }
  assert (¬ protected_key "user") as Hk by (rewrite <-protected_spec; vm_compute; done).
  destruct (findq_ok (as_w 0) s se_m "mail" "u1" inp Hr ex_picks) as (s1 & E1 & (U1 & U2 & U3) & R1 & Hu).
  destruct (Set_key_spec (w_env (as_w 0) 1) 0 "u1" "user" "bob" (s_db s1) se_m se_mail (proj1 R1) ex_m_u1 Hk) as (d' & E2 & Hh & Hv).
  set (m' := <["u1" := _]> se_m) in Hh. exists (set_db d' s1), m'. split; [|split; [|split; [|split]]].
  - unfold set_cmd. rewrite (C_ok _ _ _ _ s1 "u1" inp) by exact E1. change (("u1" =? "")%string) with false. change (("user" =? KeyPass)%string) with false.
    change (("user" =? KeyTwoFactor)%string) with false. change (("user" =? KeyURL)%string) with false. cbv iota. change (String.length "bob" =? 0) with false. cbv iota.
    rewrite (C_ok _ _ _ _ s1 "bob" inp) by exact eq_refl. rewrite (C_ok _ _ _ _ (set_db d' s1) tt inp); [exact eq_refl|].
    unfold on_db, dropping. rewrite E2. exact eq_refl.
  - destruct Hg as (_ & G1 & G2 & G3 & G4).
    pose proof (steady_Set_key (w_env (as_w 0) 1) 0 "u1" "user" "bob" (s_db s1)) as Htp. rewrite E2 in Htp. cbn [fst] in Htp.
    split; [exact Hh|]. cbn [set_db s_db]. split; [rewrite Htp, U2; exact G1|]. rewrite Hv, U1, Hl. rewrite Hl in G2, G3.
    split; [apply Forall_app; split; [exact G2|]; repeat (constructor; [utf8_tx|]); constructor|]. split; [apply Forall_app; split; [exact G3|]; repeat (constructor; [done|]); constructor|done].
  - rewrite U3. by destruct s.
  - cbn [set_db s_db]. by rewrite Hv, U1, Hl.
  - intros u b Hb (Hs & _). unfold m' in Hb. apply lookup_insert_Some in Hb as [[<- <-]|[_ Hb]].
    + unfold se_mail in Hs. rewrite !lookup_insert_ne in Hs by done. by rewrite lookup_empty in Hs.
    + apply one_entry in Hb as [-> ->]. unfold se_mail in Hs. rewrite !lookup_insert_ne in Hs by done. by rewrite lookup_empty in Hs.
Qed.
Example C86_session_ex :
  (∀ n k, w_sync (as_w n) k = sync_cmd toy as_sync k) ∧ tame_sync toy (λ _, False) as_sync ∧ (∀ n, tame (λ u, u = "u1") (as_w n)) ∧
  (∀ i j, drawn (as_w i) = drawn (as_w j) → i = j) ∧ (∀ n, w_P (as_w n) = toy) ∧ (∀ n, rand_ok (w_rand (as_w n))) ∧ (∀ n, text_world (as_w n)) ∧
  good (s_db se_single) se_m ∧ (∀ t, t ∈ se_log → tx_uuid t = "u1") ∧ single_session toy se_single se_pass ∧
  may_open (λ p, p ∈ [se_pass; "set mail user bob"]) as_typed ∧ typed_text as_typed ∧
  ∃ s' fl, session_main toy true (as_w 0) (as_w 1) as_w se_env map_to_list (Some se_iv) se_single as_typed = (s', UOk (Some fl) []) ∧
    s_startTx s' = 3 ∧ length (vis (db_log (s_db s'))) = 5.
Proof.
  split; [done|]. split; [apply as_tame|].
  split; [intros n; split; [intros i j m; reflexivity|]; split; [exact se_ord|]; discriminate|].
  split; [intros i j E; unfold drawn in E; cbn in E; injection E as E; apply (f_equal String.length) in E; by rewrite !ones_length in E|].
  split; [done|]. split; [intros n; apply se_rand_ok|]. split; [intros n; exact (tw_text n)|]. split; [apply se_good|].
  split; [intros t Ht; by apply ex_sound in Ht|]. split; [apply se_single_ok|].
  assert (∀ line, ILine line ∈ as_typed → line = "set mail user bob") as Hl.
  { intros line H. apply elem_of_cons in H as [[= ->]|H]; [done|]. apply elem_of_cons in H as [H|H]; [discriminate H|]. by apply elem_of_nil in H. }
  split; [|split].
  - split; [intros line ->%Hl H; vm_compute in H; discriminate|]. split; [left; intros line ->%Hl H; vm_compute in H; discriminate|]. intros p ->%Hl. right. by left.
  - intros line ->%Hl. utf8_lit.
  - destruct (sync_alone toy as_sync se_single as_typed se_m se_pass se_iv toy_ok se_good eq_refl se_single_ok se_fair (sy_fair_hosts _) eq_refl eq_refl) as (s1 & E1 & V1 & _ & G1 & S1 & R1 & T1 & _).
    { intros u b Hb (Hs & _). apply one_entry in Hb as [-> ->]. unfold se_mail in Hs. rewrite !lookup_insert_ne in Hs by done. by rewrite lookup_empty in Hs. }
    destruct (as_set s1 [IErr EEnd] G1 T1 V1) as (s2 & m2 & E2 & G2 & D2 & L2 & M2).
    assert (single_session toy s2 se_pass) as S2 by (rewrite D2; exact S1).
    assert (s_readOnly s2 = false) as R2 by (rewrite D2; exact R1).
    assert (s_startTx s2 = 3) as T2 by (rewrite D2; exact T1).
    destruct (sync_alone toy as_sync s2 [] m2 se_pass se_iv toy_ok G2 R2 S2 se_fair (sy_fair_hosts _) eq_refl eq_refl M2) as (s3 & E3 & V3 & _ & G3 & S3 & R3 & T3 & _).
    destruct (single_reopen toy s3 se_pass m2 se_env map_to_list se_iv [] None [] toy_ok G3 R3 S3 eq_refl) as (fl & _ & Ef & _).
    exists s3, fl. split; [|split; [congruence|congruence]].
    assert (run_repl as_w s1 as_typed = (s2, [Report "user" "bob"], UOk tt [])) as Hrun.
    { unfold run_repl, as_typed. cbn [length run_loop]. rewrite R1.
      replace (parse_line false "" "set mail user bob") with (Run (KSet "mail" "user" "bob")) by (vm_compute; reflexivity). cbn [exec]. unfold showing, mbind, C_bind.
      rewrite E2. reflexivity. }
    unfold session_main, auto_sync at 1. unfold mbind, C_bind, state. change (s_readOnly se_single) with false. cbn [negb andb].
    change (w_sync (as_w 0) "") with (sync_cmd toy as_sync ""). rewrite E1, Hrun, T2, L2. cbn [Nat.eqb negb andb]. unfold auto_sync, mbind, C_bind, state. rewrite R2. cbn [negb andb].
    change (w_sync (as_w 1) "") with (sync_cmd toy as_sync ""). rewrite E3, Ef. reflexivity.
Qed.

(** Otherwise it need not be: the file of a store that has an entry is exported as the
    table of nothing. *)
Theorem C86_export_refuted : ¬ ∀ o f s pass m fl sp inp e ord riv,
  prims_ok (o_P o) → good (s_db s) m → s_readOnly s = false → single_session (o_P o) s pass → length riv = 40 →
  saveBlob (o_P o) e ord (Some riv) s = (s, Ok (Some fl)) → o_disk o = Found (mk_slice fl sp) → (∃ b, o_riv o = Some b ∧ length b = 40) →
  opening o f → f_time f = "" → f_import f = false → f_export f = true → f_format f = "CSV" → o_csv o = None → fair (o_env o) → fair_keys (o_keys o) →
  ∃ rows, x_csv (bpass o f (ILine pass :: inp)).1 = Some (go_join "" (map csv_record rows)) ∧ length rows = S (size m).
Proof.
  intros H. destruct cli_saved as [fl Es]. destruct (cli_run fl [] [] Es) as (csv & rows & fl' & E & Ec & Ht).
  destruct (H (cli_o (Found (mk_slice fl []))) (cli_export "") se_single se_pass se_m fl [] [] se_env map_to_list se_iv) as (rows2 & E2 & Hl);
    [exact toy_ok|exact se_good|exact eq_refl|exact se_single_ok|exact eq_refl|exact Es|exact eq_refl|exists se_iv; split; exact eq_refl|repeat split|exact eq_refl|exact eq_refl|exact eq_refl|exact eq_refl|exact eq_refl|exact se_fair|intros X; reflexivity|].
  rewrite E in E2. cbn [fst x_csv] in E2. injection E2 as E2.
  assert (rows = [[]]) as ->.
  { destruct Ht as (ks & us & body & -> & Hk & Hu & _ & _ & Hb). destruct us as [|u us]; [|destruct (proj1 (proj2 Hu u) ltac:(left)) as [b Hx]; by rewrite lookup_empty in Hx].
    inversion Hb; subst. destruct ks as [|k ks]; [done|]. destruct (proj1 (proj2 Hk k) ltac:(left)) as (u & b & Hx & _). by rewrite lookup_empty in Hx. }
  rewrite Ec in E2. change (size se_m) with (size ({["u1" := se_mail]} : snapshot)) in Hl. rewrite map_size_singleton in Hl.
  destruct rows2 as [|r1 [|r2 [|? ?]]]; try discriminate Hl. apply (f_equal String.length) in E2. unfold csv_record in E2. cbn [map] in E2.
  rewrite !join_empty in E2. cbn [go_join] in E2. rewrite !sapp_length in E2. cbn in E2. lia.
Qed.
Print Assumptions C86_export_refuted.
Example C86_export_ex : ∃ fl csv fl', bpass (cli_o (Found (mk_slice fl []))) (cli_export "") [ILine se_pass] = (mk_effects None (Some csv) (Some fl'), Status 0).
Proof. destruct cli_saved as [fl Es]. destruct (cli_run fl [] [] Es) as (csv & rows & fl' & E & _). by exists fl, csv, fl'. Qed.
(** As of a time the entry is there. *)
Example C86_export_past_ex : ∃ fl csv rows, bpass (cli_o (Found (mk_slice fl []))) (cli_export "2021-03-14 15:09:26") [ILine se_pass] = (mk_effects None (Some csv) None, Status 0) ∧
  csv = go_join "" (map csv_record rows) ∧ table_of se_m rows.
Proof.
  destruct cli_saved as [fl Es].
  destruct (export_past (cli_o (Found (mk_slice fl []))) (cli_export "2021-03-14 15:09:26") (mk_civil 2021 3 14 15 9 26 0) se_single se_pass se_m fl [] [] se_env map_to_list se_iv) as (csv & rows & past & m' & E1 & E2 & H1 & H2 & H3);
    [exact toy_ok|exact se_good|exact eq_refl|exact se_single_ok|exact eq_refl|exact Es|exact eq_refl|repeat split|apply time_parse_inv; vm_compute; reflexivity|unfold representable; cbn; lia|exact eq_refl|exact eq_refl|exact eq_refl|exact eq_refl|exact se_fair|intros X; reflexivity|].
  exists fl, csv, rows. split; [exact E1|]. split; [exact E2|].
  assert (history (instant (mk_civil 2021 3 14 15 9 26 0)) se_log se_log) as Hh.
  { exists []. split; [by rewrite app_nil_r|]. split; [|done]. repeat (constructor; [vm_compute; discriminate|]). constructor. }
  pose proof (C55_past _ _ _ _ H1 Hh) as ->. destruct se_good as [[_ Hr] _]. assert (m' = se_m) as -> by (by eapply replays_det). exact H3.
Qed.

(** An import into a new file: the file opens with the password and has exactly what was
    imported.  Missing: output of lpass that is not UTF-8 or not LastPass's CSV. *)
Theorem C86_import_new_partial : ∀ o f pass rsalt inp rs b,
  prims_ok (o_P o) → pass ≠ "" → o_disk o = Absent → o_salt o = Some rsalt → length rsalt = 32 → o_riv o = Some b → length b = 40 →
  text_import o → o_lpass o = None → csv_text (unix (o_text o)) (map fields_of (header_row :: rs)) → fresh_uuids db_new (o_import o) →
  opening o f → f_time f = "" → f_import f = true →
  ∃ d' m', imports (o_lower o) (o_import o) 0 (header_row :: rs) ∅ m' ∧ holds d' m' ∧ ((Z.of_nat (length (vis (db_log d'))) < 2 ^ 64)%Z →
    ∃ fl, bpass o f (ILine pass :: ILine pass :: inp) = (mk_effects None None (Some fl), exit_with o f None) ∧
      ∀ sp rsalt r, ∃ s2, loadBlob (o_P o) (Found (mk_slice fl sp)) None rsalt (ILine pass :: r) = UOk s2 r ∧ same_store d' (s_db s2) ∧ good (s_db s2) m').
Proof.
  intros o f pass rsalt inp rs b HP Hp Hd Hsa Hsl Hb Hbl Htx Hlp Hre Hfr Hop Ht Hi.
  eapply (import_run o f (mk_session true false 0 db_new "" "" (key_of (o_P o) (str_bytes pass) rsalt) rsalt [] []) ∅ pass _ inp inp rs b HP); try done.
  - rewrite Hd, Hsa. Transparent loadBlob. unfold loadBlob. rewrite prompt_line. cbn [ubind]. destruct pass as [|c pass]; [done|]. cbn [String.length Nat.eqb]. rewrite prompt_line. cbn [ubind].
    rewrite String.eqb_refl. cbn [negb]. rewrite DeriveKey_ok. done. Opaque loadBlob.
  - split; [split; [split; [cbn; lia|]|]; constructor|]. split; [done|]. split; [constructor|]. split; [constructor|]. done.
  - by left.
Qed.
Print Assumptions C86_import_new_partial.

(** An import into a file that exists is done after a y. *)
Theorem C86_import_partial : ∀ o f s m pass fl sp a inp rs b e ord riv,
  prims_ok (o_P o) → good (s_db s) m → all_named m → s_readOnly s = false → single_session (o_P o) s pass → length riv = 40 →
  saveBlob (o_P o) e ord (Some riv) s = (s, Ok (Some fl)) → o_disk o = Found (mk_slice fl sp) → a = "y" ∨ a = "Y" → o_riv o = Some b → length b = 40 →
  text_import o → o_lpass o = None → csv_text (unix (o_text o)) (map fields_of (header_row :: rs)) → fresh_uuids (s_db s) (o_import o) →
  opening o f → f_time f = "" → f_import f = true →
  ∃ d' m', imports (o_lower o) (o_import o) 0 (header_row :: rs) m m' ∧ holds d' m' ∧ ((Z.of_nat (length (vis (db_log d'))) < 2 ^ 64)%Z →
    ∃ fl', bpass o f (ILine pass :: ILine a :: inp) = (mk_effects None None (Some fl'), exit_with o f None) ∧
      ∀ sp rsalt r, ∃ s2, loadBlob (o_P o) (Found (mk_slice fl' sp)) None rsalt (ILine pass :: r) = UOk s2 r ∧ same_store d' (s_db s2) ∧ good (s_db s2) m').
Proof.
  intros o f s m pass fl sp a inp rs b e ord riv HP Hg Ha Hro Hss Hl Es Hd Hy Hb Hbl Htx Hlp Hre [Hfr Hfr2] Hop Ht Hi.
  destruct (single_reopen _ s pass m e ord riv sp (o_salt o) (ILine a :: inp) HP Hg Hro Hss Hl) as (fl0 & s1 & E1 & El & Hsame & Hg1 & Hs1 & Hro1 & Hcr & _).
  rewrite Es in E1. injection E1 as <-.
  eapply (import_run o f s1 m pass _ _ inp rs b HP); try done; [by rewrite Hd|right; split; [done|by exists a]|].
  split; [|done]. destruct Hsame as (El1 & _). intros i t Ht'. rewrite El1 in Ht'. by apply Hfr.
Qed.
Print Assumptions C86_import_partial.
Example C86_import_ex : text_import (cli_o Absent) ∧ fresh_uuids db_new (o_import (cli_o Absent)) ∧ fresh_uuids se_db (o_import (cli_o Absent)) ∧ opening (cli_o Absent) cli_import ∧
  csv_text (unix (o_text (cli_o Absent))) (map fields_of (header_row :: [ex_rec])).
Proof.
  split; [|split; [|split; [apply ex_import_fresh|split; [done|]]]].
  - split; [done|]. split.
    + apply utf8_ascii. intros c Hc. revert c Hc. apply Forall_forall. vm_compute. repeat (constructor; [reflexivity|]). constructor.
    + intros j. split; [intros i m; apply se_fair|]. split; [intros i; apply se_clock|]. cbn [o_import cli_o ex_import_env e_uuid]. apply utf8_app; [utf8_lit|].
      induction j as [|j IH]; [utf8_lit|]. cbn [ones]. apply (utf8_app "1" (ones j)); [utf8_lit|exact IH].
  - split; [intros i t Hx; cbn in Hx; by apply elem_of_nil in Hx|apply ex_import_fresh].
  - apply (written_text cli_records). repeat (constructor; [by split|]). constructor.
Qed.

(** Whatever fails, the file is not written, but the status does not tell: it is the
    same as if nothing had failed. *)
Theorem C86_failed : ∀ o f inp x, opening o f → parseCli f = CliGo None → 
  (∃ r, loadBlob (o_P o) (o_disk o) None (o_salt o) inp = UErr x r) → bpass o f inp = (no_effects, exit_with o f (Some x)).
Proof. intros o f inp x Hop E [r El]. rewrite (bpass_opens o f None inp Hop E). cbn [history_at]. by rewrite El. Qed.
Print Assumptions C86_failed.
Theorem C86_status_refuted : ∀ o f x, exit_with o f (Some x) = exit_with o f None.
Proof. intros o f x. unfold exit_with, exit_status. done. Qed.
Print Assumptions C86_status_refuted.
(** Without a terminal the program does not end with a message but panics. *)
Theorem C86_terminal_refuted : ∀ o f t inp x, parseCli f = CliGo t → f_version f = false → o_terminal o = Some x → bpass o f inp = (no_effects, Crashed).
Proof. intros o f t inp x E Hv Ht. unfold bpass. by rewrite E, Hv, Ht. Qed.
Print Assumptions C86_terminal_refuted.

(** ** C87: the path in the prompt *)

(** The file's name and the number of its directories are kept. *)
Theorem C87_parts : ∀ f, ∃ g dirs initials name, shortPath f = Ok g ∧ parts (Zbyte 47) f (dirs ++ [name]) ∧ parts (Zbyte 47) g (initials ++ [name]) ∧ length initials = length dirs.
Proof. intros f. destruct (short_parts f) as (g & dirs & name & E & H1 & H2). exists g, dirs, (map short_part dirs), name. split; [done|]. split; [done|]. split; [done|]. apply map_length. Qed.
Print Assumptions C87_parts.
(** Each directory is cut to its first character.  Missing: names that begin outside
    ASCII, refuted below. *)
Theorem C87_short_partial : ∀ f, plain_dirs f → ∃ g, shortPath f = Ok g ∧ shortened f g.
Proof. exact short_ok. Qed.
Print Assumptions C87_short_partial.
Theorem C87_one : ∀ f g g', shortened f g → shortened f g' → g = g'.
Proof. exact shortened_one. Qed.
Print Assumptions C87_one.
Example C87_example : shortPath "/home/aaron/keys/store.blob" = Ok "/h/a/k/store.blob" ∧ shortPath "store.blob" = Ok "store.blob".
Proof. by vm_compute. Qed.
(** The byte that begins a character outside ASCII is taken for a character of its own. *)
Theorem C87_short_refuted : ¬ ∀ f g, utf8 f → shortPath f = Ok g → shortened f g.
Proof.
  intros H. set (f := "/" +:+ encode_rune 8364 +:+ "/s").
  assert (shortened f ("/" +:+ encode_rune 226 +:+ "/s")) as H1.
  { apply H; [unfold f; apply utf8_app; [utf8_lit|]; apply utf8_app; [by apply utf8_rune|utf8_lit]|vm_compute; reflexivity]. }
  assert (shortened f ("/" +:+ encode_rune 8364 +:+ "/s")) as H2.
  { exists [""; encode_rune 8364], [""; encode_rune 8364], "s". split; [apply parts_split; vm_compute; reflexivity|]. split; [apply parts_split; vm_compute; reflexivity|].
    constructor; [by left|]. constructor; [|constructor]. right. exists 8364%Z, "". split; [done|]. by vm_compute. }
  pose proof (shortened_one _ _ _ H1 H2) as Hx. vm_compute in Hx. discriminate Hx.
Qed.
Print Assumptions C87_short_refuted.
