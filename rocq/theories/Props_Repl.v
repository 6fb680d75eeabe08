(** Properties of the commands and of the command loop: C55, C64, C69 to C77. *)
From Verif Require Import Proof_TxLog Proof_GoStr Proof_Utf8 Proof_Blobs Proof_Crypt7 Proof_Session Proof_SessionEx Proof_Repl6 Proof_Repl7.
From Verif Require Export Spec_Repl.
From Coq Require Import Lia Sorting.Sorted.
From stdpp Require Import options.
Import Model_GoStr Proof_Utf8.
#[local] Open Scope nat_scope.

(** ** C55: the past is shown and nothing is written *)

(** A single-user file opened with --time [t]: the session is read-only and its log
    are the leading transactions up to [t]. *)
Theorem C55_shows_single : ∀ P s pass m e ord riv sp rsalt t rest,
  prims_ok P → good (s_db s) m → s_readOnly s = false →
  single_session P s pass → length riv = 40 →
  ∃ f s2 past m', saveBlob P e ord (Some riv) s = (s, Ok (Some f)) ∧
    loadBlob P (Found (mk_slice f sp)) (Some t) rsalt (ILine pass :: rest) = UOk s2 rest ∧ s_readOnly s2 = true ∧
    history t (vis (db_log (s_db s))) past ∧ vis (db_log (s_db s2)) = past ∧ replays past m' ∧ holds (s_db s2) m'.
Proof. exact past_single. Qed.
Print Assumptions C55_shows_single.

(** The same for a multi-user file. *)
Theorem C55_shows_multi : ∀ P s x pass m e ord riv sp rsalt t rest,
  prims_ok P → good (s_db s) m → all_named m → fair e → fair_results ord →
  s_readOnly s = false → multi_session P s m → unlocks P m (s_master s) x pass → (∀ b, riv = Some b → length b = 40) →
  ∃ f s1 s2 past m', saveBlob P e ord riv s = (s1, Ok (Some f)) ∧
    loadBlob P (Found (mk_slice f sp)) (Some t) rsalt (ILine x :: ILine pass :: rest) = UOk s2 rest ∧ s_readOnly s2 = true ∧
    history t (vis (db_log (s_db s))) past ∧ vis (db_log (s_db s2)) = past ∧ replays past m' ∧ holds (s_db s2) m'.
Proof. exact past_multi. Qed.
Print Assumptions C55_shows_multi.

(** That part of the log is determined by the time. *)
Theorem C55_past : ∀ t log p1 p2,
  history t log p1 → history t log p2 → p1 = p2.
Proof. exact history_one. Qed.
Print Assumptions C55_past.

(** Whatever is typed in a read-only session: log and session stay as they are and
    no file is written. *)
Theorem C55_nothing_written : ∀ P a w0 w1 w e ord riv s inp s' r,
  s_readOnly s = true →
  session_main P a w0 w1 w e ord riv s inp = (s', r) → unchanged s s' ∧ ∀ f rest, r ≠ UOk (Some f) rest.
Proof. exact main_read. Qed.
Print Assumptions C55_nothing_written.

Example C55_example :
  prims_ok toy ∧ good (s_db se_single) se_m ∧ s_readOnly se_single = false ∧ single_session toy se_single se_pass ∧ length se_iv = 40 ∧
  history 11 (vis (db_log (s_db se_single))) [mk_tx 10 "add" "u1" "" ""; mk_tx 11 "setk" "u1" "name" "mail"].
Proof.
  split; [apply toy_ok|]. split; [apply se_good|]. split; [done|]. split; [apply se_single_ok|]. split; [done|].
  exists [mk_tx 12 "setk" "u1" "pass" "hunter2"]. split; [done|]. split; [|done]. repeat (constructor; [cbn; lia|]). constructor.
Qed.

(** The time may fall between the transactions that one command appended: the
    entry is shown without its name, and [ls] panics. *)
Theorem C55_unnamed_refuted :
  match rewind 10 se_db with
  | Ok d => match run_repl (λ _, ex_world) (mk_session false true (length (vis (db_log d))) d "" se_pass [] [] [] []) [ILine "ls"] with
            | (_, _, UPanic) => bool_decide (vis (db_log d) = [mk_tx 10 "add" "u1" "" ""])
            | _ => false
            end
  | _ => false
  end = true.
Proof. vm_compute. reflexivity. Qed.
Print Assumptions C55_unnamed_refuted.

(** ** C64: set stores the text typed *)

(** The line is read as it should be, and all spacing inside the text is kept; what
    is missing is white space at its end. *)
Theorem C64_line_partial : ∀ q k t,
  q ≠ "" → k ≠ "" → lacks (Zbyte 32) q → lacks (Zbyte 32) k → t ≠ "" → no_trailing t →
  parse_line false "" ("set " +:+ q +:+ " " +:+ k +:+ " " +:+ t) = Run (KSet q k t).
Proof. exact set_line. Qed.
Print Assumptions C64_line_partial.

(** The same with a context entry. *)
Theorem C64_line_ctx_partial : ∀ c k t,
  c ≠ "" → k ≠ "" → lacks (Zbyte 32) k → t ≠ "" → no_trailing t →
  parse_line false c ("set " +:+ k +:+ " " +:+ t) = Run (KSet c k t).
Proof. exact set_line_ctx. Qed.
Print Assumptions C64_line_ctx_partial.

(** One such line in a session: the entry chosen gets exactly the text. *)
Theorem C64_stored_partial : ∀ f w n shown s m q k t u b rest,
  s_readOnly s = false → ready (w n) s m → picks (w_lower (w n)) m q u → m !! u = Some b →
  q ≠ "" → k ≠ "" → lacks (Zbyte 32) q → lacks (Zbyte 32) k → t ≠ "" → no_trailing t →
  ¬ protected_key k → (k = "url" → w_url (w n) t = GoodUrl) →
  ∃ s', run_loop (S f) w n "" shown s (ILine ("set " +:+ q +:+ " " +:+ k +:+ " " +:+ t) :: rest) =
      run_loop f w (S n) "" (shown ++ [Report k t]) s' rest ∧
    became s s' (<[u := <[k := t]> (stamped (e_now (w_env (w n) 1) 0) b)]> m).
Proof.
  intros f w n shown s m q k t u b rest Hro Hr Hp Hb Hq Hk Lq Lk Ht Hn Hpk Hu.
  destruct (set_stores (w n) s m q k t u b rest Hr Hp Hb Hpk Ht Hu) as (s' & E & H). exists s'. split; [|done].
  apply (loop_step f w n "" shown s _ rest (KSet q k t)); [rewrite Hro; by apply set_line|done|].
  cbn [exec]. unfold showing. by rewrite (Proof_Session3.C_ok _ _ _ _ s' [Report k t] rest) by exact E.
Qed.
Print Assumptions C64_stored_partial.

Example C64_example :
  s_readOnly se_single = false ∧ ready ex_world se_single se_m ∧ picks toy_lower se_m "mail" "u1" ∧ se_m !! "u1" = Some se_mail ∧
  lacks (Zbyte 32) "mail" ∧ lacks (Zbyte 32) "notes" ∧ no_trailing "a  b   c" ∧ ¬ protected_key "notes" ∧
  parse_line false "" "set mail notes a  b   c" = Run (KSet "mail" "notes" "a  b   c").
Proof.
  split; [done|]. split; [apply ex_ready|]. split; [apply ex_picks|]. split; [apply ex_m_u1|]. split; [repeat split; done|]. split; [repeat split; done|].
  split; [|split; [rewrite <-protected_spec; by vm_compute|vm_compute; reflexivity]].
  apply (no_trailing_app "a  b  " "c"); [done|]. intros r [|c t] Hr E.
  - apply IsSpace_spaces in Hr. unfold spaces in Hr. repeat (apply elem_of_cons in Hr as [->|Hr]; [done|]). by apply elem_of_nil in Hr.
  - cbn in E. injection E as _ E. destruct t; [|done]. cbn in E. by apply (space_nonempty r Hr).
Qed.

(** White space at the end of the text is lost. *)
Theorem C64_trailing_refuted : parse_line false "" "set mail pass hunter2  " = Run (KSet "mail" "pass" "hunter2").
Proof. vm_compute. reflexivity. Qed.
Print Assumptions C64_trailing_refuted.

(** The arguments are found by splitting at blanks, the command at any white
    space: after "set" and a tab the first word is dropped ... *)
Theorem C64_tab_refuted : parse_line false "" ("set" +:+ String (Zbyte 9) "mail pass x") = Run (KSet "pass" "x" "").
Proof. vm_compute. reflexivity. Qed.
Print Assumptions C64_tab_refuted.

(** ... and two blanks count as an empty word between them. *)
Theorem C64_blanks_refuted : parse_line false "" "set mail  pass x" = Usage ∧
  parse_line false "mail" "set  pass x" = Usage ∧ parse_line false "" "set  mail pass x" = Usage.
Proof. repeat split; vm_compute; reflexivity. Qed.
Print Assumptions C64_blanks_refuted.

(** ** C69: the store stays in good order whatever is typed *)

(** One command, whether it succeeds or fails. *)
Theorem C69_command : ∀ (U R : string → Prop) w ctx c s inp s' r,
  tame U w → sync_sound R w → (∀ u, R u → U u) → sound U s → exec w ctx c s inp = (s', r) →
  (∀ a rest, r = UOk a rest → sound (λ u, U u ∨ u = drawn w) s') ∧ (∀ e rest, r = UErr e rest → sound (λ u, U u ∨ u = drawn w) s').
Proof. exact exec_sound. Qed.
Print Assumptions C69_command.

(** A whole session: whatever lines are typed, the store has no open transaction, its
    log replays, and names are present and unique. *)
Theorem C69_session : ∀ (U R : string → Prop) w,
  (∀ u, R u → U u) → (∀ n, tame U (w n)) → (∀ i j, drawn (w i) = drawn (w j) → i = j) → (∀ n, sync_sound R (w n)) →
  ∀ fuel n ctx shown s inp s' o r, sound (upto U w n) s → run_loop fuel w n ctx shown s inp = (s', o, r) →
    ∃ k, (∀ rest, r = UOk tt rest → sound (upto U w k) s') ∧ (∀ e rest, r = UErr e rest → sound (upto U w k) s').
Proof. exact run_loop_sound. Qed.
Print Assumptions C69_session.

Lemma ex_sound : sound (λ u, u = "u1") se_single.
Proof.
  split; [done|]. split; [exists se_m; split; [apply se_good|apply se_named]|].
  intros t Ht. apply elem_of_list_In in Ht. cbn in Ht. destruct Ht as [<-|[<-|[<-|[]]]]; done.
Qed.
Lemma ex_tame u : u ≠ "u1" → tame (λ u, u = "u1") (ex_w u).
Proof. intros Hu. split; [intros i j m; reflexivity|]. split; [exact se_ord|]. exact Hu. Qed.
Example C69_example :
  sound (upto (λ u, u = "u1") ex_ws 0) se_single ∧ (∀ n, tame (λ u, u = "u1") (ex_ws n)) ∧ (∀ i j, drawn (ex_ws i) = drawn (ex_ws j) → i = j) ∧
  (∀ n, sync_sound (λ _, False) (ex_ws n)).
Proof.
  split; [|split; [|split]].
  - destruct ex_sound as (H1 & H2 & H3). split; [done|]. split; [done|]. intros t Ht. left. by apply H3.
  - intros n. by apply ex_tame.
  - intros i j E. unfold drawn, ex_ws in E. cbn in E. injection E as E. apply (f_equal String.length) in E. by rewrite !ones_length in E.
  - intros n U k s inp s' r _ Hs [= <- <-]. split; by intros.
Qed.

(** ** C70: commands only append to the log *)

(** Nothing in the log is ever changed or removed, except by a synchronisation. *)
Theorem C70_append : ∀ (U : string → Prop) w ctx c s inp s' r,
  tame U w → sound U s → (∀ n, c ≠ KSync n) → exec w ctx c s inp = (s', r) →
  (∀ a rest, r = UOk a rest → log_grew s s') ∧ (∀ e rest, r = UErr e rest → log_grew s s').
Proof. exact exec_grows. Qed.
Print Assumptions C70_append.

Example C70_example : tame (λ u, u = "u1") ex_world ∧ sound (λ u, u = "u1") se_single ∧ (∀ n, KRm "mail" ≠ KSync n).
Proof. split; [by apply ex_tame|]. split; [apply ex_sound|done]. Qed.

(** ** C71: additions are complete or leave nothing *)

(** add: what was typed, nothing else. *)
Theorem C71_add : ∀ w n s m inp email r1 user r2 pass r3,
  ready w s m → db_txpoint (s_db s) = 0 → (∀ u, ¬ called m u n) → unused (s_db s) (e_uuid (w_env w 0)) →
  prompt inp = UOk email r1 → prompt r1 = UOk user r2 → newPassword (w_rand w) r2 = UOk pass r3 →
  ∃ s', addNew w n s inp = (s', UOk [] r3) ∧
    became s s' (<[e_uuid (w_env w 0) := opt_key "pass" pass (opt_key "email" email (opt_key "user" user (new_entry (w_env w 0) n)))]> m).
Proof. exact add_ok. Qed.
Print Assumptions C71_add.

(** A name that is taken is refused before anything is asked. *)
Theorem C71_add_taken : ∀ w n s m inp u,
  ready w s m → db_txpoint (s_db s) = 0 → called m u n →
  ∃ s', addNew w n s inp = (s', UOk [Note] inp) ∧ unchanged s s' ∧ holds (s_db s') m.
Proof. exact add_taken. Qed.
Print Assumptions C71_add_taken.

(** A failed add leaves nothing. *)
Theorem C71_add_failed : ∀ w n s m inp s' e rest,
  ready w s m → db_txpoint (s_db s) = 0 → addNew w n s inp = (s', UErr e rest) → unchanged s s' ∧ holds (s_db s') m.
Proof. exact add_err. Qed.
Print Assumptions C71_add_failed.

(** addsync: the entry gets the first free name of its kind, and what was typed. *)
Theorem C71_addsync : ∀ w kind s m inp url keys rest,
  ready w s m → db_txpoint (s_db s) = 0 → unused (s_db s) (e_uuid (w_env w 0)) →
  sync_answers w kind inp url keys rest →
  ∃ k s' b, addSync w kind s inp = (s', UOk [Names ["sync/" +:+ kind +:+ ones k]] rest) ∧
    (∀ i, i < k → ∃ u, called m u ("sync/" +:+ kind +:+ ones i)) ∧ (∀ u, ¬ called m u ("sync/" +:+ kind +:+ ones k)) ∧
    became s s' (<[e_uuid (w_env w 0) := b]> m) ∧ sync_entry ("sync/" +:+ kind +:+ ones k) url keys b.
Proof. exact addsync_ok. Qed.
Print Assumptions C71_addsync.

(** A failed addsync leaves nothing. *)
Theorem C71_addsync_failed : ∀ w kind s m inp s' e rest,
  ready w s m → db_txpoint (s_db s) = 0 → unused (s_db s) (e_uuid (w_env w 0)) →
  addSync w kind s inp = (s', UErr e rest) → unchanged s s' ∧ holds (s_db s') m.
Proof. exact addsync_err. Qed.
Print Assumptions C71_addsync_failed.

Example C71_example :
  ready ex_world se_single se_m ∧ db_txpoint (s_db se_single) = 0 ∧ (∀ u, ¬ called se_m u "bank") ∧ unused (s_db se_single) (e_uuid (w_env ex_world 0)) ∧
  prompt [ILine "me@x.org"; ILine ""; ILine "m"; ILine "s3cret"; ILine "s3cret"] = UOk "me@x.org" [ILine ""; ILine "m"; ILine "s3cret"; ILine "s3cret"] ∧
  newPassword (w_rand ex_world) [ILine "m"; ILine "s3cret"; ILine "s3cret"] = UOk "s3cret" [] ∧ called se_m "u1" "mail" ∧
  sync_answers ex_world "file" [ILine "backup"] "file:///home/backup" None [].
Proof.
  split; [apply ex_ready|]. split; [done|]. split; [by apply ex_free|]. split; [apply se_unused|]. split; [done|]. split; [apply se_typed|].
  split; [eexists; split; [apply ex_m_u1|apply ex_mail_name]|]. left. split; [done|]. exists "backup", "/home/backup". done.
Qed.

(** ** C72: a command changes the chosen entry, as told *)

(** set with a text *)
Theorem C72_set : ∀ w s m q k v u b inp,
  ready w s m → picks (w_lower w) m q u → m !! u = Some b → ¬ protected_key k → v ≠ "" →
  (k = "url" → w_url w v = GoodUrl) →
  ∃ s', set_cmd w q k v s inp = (s', UOk [Report k v] inp) ∧
    became s s' (<[u := <[k := v]> (stamped (e_now (w_env w 1) 0) b)]> m).
Proof. exact set_stores. Qed.
Print Assumptions C72_set.

(** set without a text asks for it *)
Theorem C72_set_asked : ∀ w s m q k u b inp v rest,
  ready w s m → picks (w_lower w) m q u → m !! u = Some b → ¬ protected_key k → k ≠ "pass" → k ≠ "url" →
  promptMultiline inp = UOk v rest →
  ∃ s', set_cmd w q k "" s inp = (s', UOk [Report k v] rest) ∧
    became s s' (<[u := <[k := v]> (stamped (e_now (w_env w 1) 0) b)]> m).
Proof. exact set_asked. Qed.
Print Assumptions C72_set_asked.

Theorem C72_set_pass_asked : ∀ w s m q u b inp v rest,
  ready w s m → picks (w_lower w) m q u → m !! u = Some b →
  newPassword (w_rand w) inp = UOk v rest →
  ∃ s', set_cmd w q "pass" "" s inp = (s', UOk [Report "pass" v] rest) ∧
    became s s' (<[u := <["pass" := v]> (stamped (e_now (w_env w 1) 0) b)]> m).
Proof. exact set_pass_asked. Qed.
Print Assumptions C72_set_pass_asked.

(** set totp *)
Theorem C72_set_totp : ∀ w s m q v u b inp,
  ready w s m → picks (w_lower w) m q u → m !! u = Some b →
  let uri := if has_prefix v "otpauth://" then v else w_coerce w u v in
  ∃ s', if w_uri_ok w uri
    then set_cmd w q "totp" v s inp = (s', UOk [Report "totp" v] inp) ∧
      became s s' (<[u := <["totp" := uri]> (stamped (e_now (w_env w 1) 0) b)]> m)
    else set_cmd w q "totp" v s inp = (s', UOk [Note] inp) ∧ unchanged s s'.
Proof. exact set_totp. Qed.
Print Assumptions C72_set_totp.

(** a text that is no url is refused *)
Theorem C72_set_url_refused : ∀ w s m q v u inp,
  ready w s m → picks (w_lower w) m q u → w_url w v ≠ GoodUrl →
  ∃ s', set_cmd w q "url" v s inp = (s', UOk [Note] inp) ∧ unchanged s s'.
Proof. exact set_bad_url. Qed.
Print Assumptions C72_set_url_refused.

(** no entry, or several, are chosen *)
Theorem C72_set_none : ∀ w s m q k v inp,
  ready w s m → (∀ u, ¬ picks (w_lower w) m q u) →
  ∃ s', set_cmd w q k v s inp = (s', UOk [Note] inp) ∧ unchanged s s'.
Proof. exact set_none. Qed.
Print Assumptions C72_set_none.

(** rmk *)
Theorem C72_rmk : ∀ w s m q k u b v inp,
  ready w s m → picks (w_lower w) m q u → m !! u = Some b → b !! k = Some v → k ≠ "name" → k ≠ "updated" →
  ∃ s', deleteKey w q k s inp = (s', UOk [Deleted k] inp) ∧
    became s s' (<[u := delete k (stamped (e_now (w_env w 1) 0) b)]> m).
Proof. exact rmk_deletes. Qed.
Print Assumptions C72_rmk.

Theorem C72_rmk_name : ∀ w s m q k u b inp,
  ready w s m → picks (w_lower w) m q u → m !! u = Some b → k = "name" ∨ k = "updated" →
  ∃ s', deleteKey w q k s inp = (s', UOk (if b !! k then [Note] else [Deleted k]) inp) ∧ unchanged s s'.
Proof. exact rmk_protected. Qed.
Print Assumptions C72_rmk_name.

Theorem C72_rmk_none : ∀ w s m q k inp,
  ready w s m → (∀ u, ¬ picks (w_lower w) m q u) →
  ∃ s', deleteKey w q k s inp = (s', UOk [Note] inp) ∧ unchanged s s'.
Proof. exact rmk_none. Qed.
Print Assumptions C72_rmk_none.

(** mv *)
Theorem C72_mv : ∀ w s m src dst u b inp,
  ready w s m → m !! u = Some b → b !! "name" = Some src → (∀ x, ¬ called m x dst) →
  ∃ s', rename w src dst s inp = (s', UOk [Moved src dst] inp) ∧
    became s s' (<[u := <["name" := dst]> (stamped (e_now (w_env w 1) 0) b)]> m).
Proof. exact mv_moves. Qed.
Print Assumptions C72_mv.

Theorem C72_mv_taken : ∀ w s m src dst x inp,
  ready w s m → called m x dst →
  ∃ s', rename w src dst s inp = (s', UOk [Note] inp) ∧ unchanged s s'.
Proof. exact mv_taken. Qed.
Print Assumptions C72_mv_taken.

Theorem C72_mv_absent : ∀ w s m src dst inp,
  ready w s m → (∀ u, ¬ called m u src) →
  ∃ s', rename w src dst s inp = (s', UOk [Note] inp) ∧ unchanged s s'.
Proof. exact mv_absent. Qed.
Print Assumptions C72_mv_absent.

(** edit *)
Theorem C72_edit : ∀ w s m q k u b new inp,
  ready w s m → picks (w_lower w) m q u → m !! u = Some b →
  w_editor w (default "" (b !! k)) = Exited 0 (Some new) → new ≠ "" → ¬ protected_key k →
  ∃ s', edit w q k s inp = (s', UOk [Note] inp) ∧ became s s' (<[u := <[k := new]> (stamped (e_now (w_env w 1) 0) b)]> m).
Proof. exact edit_saves. Qed.
Print Assumptions C72_edit.

Theorem C72_edit_empty : ∀ w s m q k u b inp,
  ready w s m → picks (w_lower w) m q u → m !! u = Some b →
  w_editor w (default "" (b !! k)) = Exited 0 (Some "") → k ≠ "name" → k ≠ "updated" →
  ∃ s', edit w q k s inp = (s', UOk [Note] inp) ∧ became s s' (<[u := delete k (stamped (e_now (w_env w 1) 0) b)]> m).
Proof. exact edit_empties. Qed.
Print Assumptions C72_edit_empty.

Theorem C72_edit_given_up : ∀ w s m q k u b st f inp,
  ready w s m → picks (w_lower w) m q u → m !! u = Some b →
  w_editor w (default "" (b !! k)) = Exited st f → st ≠ 0%Z ∨ f = None →
  ∃ s', edit w q k s inp = (s', UOk [Note] inp) ∧ unchanged s s'.
Proof. exact edit_gives_up. Qed.
Print Assumptions C72_edit_given_up.

Theorem C72_edit_protected : ∀ w s m q k u b new inp,
  ready w s m → picks (w_lower w) m q u → m !! u = Some b →
  w_editor w (default "" (b !! k)) = Exited 0 (Some new) → new ≠ "" → protected_key k →
  ∃ s', edit w q k s inp = (s', UOk [Note] inp) ∧ unchanged s s'.
Proof. exact edit_protected. Qed.
Print Assumptions C72_edit_protected.

(** label: the proper new ones among the lines typed are added *)
Theorem C72_label : ∀ w s m q u b lines i rest,
  ready w s m → picks (w_lower w) m q u → m !! u = Some b →
  Forall (λ x, x ≠ "" ∧ x ≠ ".") lines → label_end i →
  ∃ new s' o, taken_labels (w_upper w) (Labels b) lines new ∧ addLabels w q s ((ILine <$> lines) ++ i :: rest) = (s', UOk o rest) ∧
    if decide (new = []) then unchanged s s'
    else became s s' (<[u := <["labels" := go_join "," (Labels b ++ new)]> (stamped (e_now (w_env w 1) 0) b)]> m).
Proof. exact label_adds. Qed.
Print Assumptions C72_label.

(** labels without commas are read back as they were typed *)
Theorem C72_label_read : ∀ b l t,
  l ≠ [] → l ≠ [""] → (∀ x, x ∈ l → lacks (Zbyte 44) x) → Labels (<["labels" := go_join "," l]> (stamped t b)) = l.
Proof. exact Labels_joined. Qed.
Print Assumptions C72_label_read.

Theorem C72_rmlabel_absent : ∀ w s m q l u b inp,
  ready w s m → picks (w_lower w) m q u → m !! u = Some b → l ∉ Labels b →
  ∃ s', deleteLabel w q l s inp = (s', UOk [Note] inp) ∧ unchanged s s'.
Proof. exact rmlabel_absent. Qed.
Print Assumptions C72_rmlabel_absent.

(** the only label is removed *)
Theorem C72_rmlabel_only : ∀ w s m q l u b inp,
  ready w s m → picks (w_lower w) m q u → m !! u = Some b → Labels b = [l] →
  ∃ s', deleteLabel w q l s inp = (s', UOk [Note] inp) ∧ became s s' (<[u := delete "labels" b]> m).
Proof. exact rmlabel_single. Qed.
Print Assumptions C72_rmlabel_only.

Example C72_example :
  ready ex_world se_single se_m ∧ picks toy_lower se_m "mail" "u1" ∧ se_m !! "u1" = Some se_mail ∧ ¬ protected_key "notes" ∧
  w_url ex_world "http://x.org" = GoodUrl ∧ w_url ex_world "x.org" ≠ GoodUrl ∧ se_mail !! "pass" = Some "hunter2" ∧ se_mail !! "name" = Some "mail" ∧ (∀ x, ¬ called se_m x "post") ∧
  w_editor ex_world (default "" (se_mail !! "pass")) = Exited 0 (Some "hunter2!") ∧
  taken_labels (w_upper ex_world) (Labels se_mail) ["web"; "Web"; "web"; "old"] ["web"; "old"] ∧
  Labels (<["labels" := "web"]> se_mail) = ["web"].
Proof.
  split; [apply ex_ready|]. split; [apply ex_picks|]. split; [apply ex_m_u1|]. split; [rewrite <-protected_spec; by vm_compute|].
  split; [by vm_compute|]. split; [by vm_compute|]. split; [apply lookup_insert|]. split; [apply ex_mail_name|]. split; [by apply ex_free|].
  split; [unfold se_mail; by rewrite lookup_insert|]. split; [|vm_compute; reflexivity].
  assert (proper_label (w_upper ex_world) "web") as H1 by (apply Forall_forall; intros r Hr; vm_compute in Hr; repeat (apply elem_of_cons in Hr as [->|Hr]; [by vm_compute|]); by apply elem_of_nil in Hr).
  assert (proper_label (w_upper ex_world) "old") as H2 by (apply Forall_forall; intros r Hr; vm_compute in Hr; repeat (apply elem_of_cons in Hr as [->|Hr]; [by vm_compute|]); by apply elem_of_nil in Hr).
  assert (Labels se_mail = []) as -> by (vm_compute; reflexivity).
  split; [repeat constructor|]. split; [compute_dec|]. split.
  - intros x Hx. split; [apply not_elem_of_nil|]. apply elem_of_list_In in Hx. cbn in Hx. destruct Hx as [<-|[<-|[]]]; done.
  - intros x Hx Hp. cbn [app]. apply elem_of_list_In in Hx. cbn in Hx. destruct Hx as [<-|[<-|[<-|[<-|[]]]]]; try compute_dec.
    exfalso. unfold proper_label in Hp. apply (Forall_inv (P := λ r, IsSpace r = false ∧ inr 65 90 r = false)) in Hp as [_ Hp]. vm_compute in Hp. done.
Qed.

(** set of a key that may not be set (such as the name) changes nothing, and
    reports success. *)

Theorem C72_set_protected_refuted : ∀ w s m q k v u inp,
  ready w s m → picks (w_lower w) m q u → protected_key k → k ≠ "totp" → v ≠ "" →
  ∃ s', set_cmd w q k v s inp = (s', UOk [Report k v] inp) ∧ unchanged s s'.
Proof. exact set_protected. Qed.
Print Assumptions C72_set_protected_refuted.

(** rmk of a key the entry does not have reports that it was deleted. *)

Theorem C72_rmk_absent_refuted : ∀ w s m q k u b inp,
  ready w s m → picks (w_lower w) m q u → m !! u = Some b → b !! k = None →
  ∃ s', deleteKey w q k s inp = (s', UOk [Deleted k] inp) ∧ unchanged s s'.
Proof. exact rmk_absent. Qed.
Print Assumptions C72_rmk_absent_refuted.

(** rmlabel, for an entry with several labels, keeps only the last of them,
    whichever was to be removed. *)

Theorem C72_rmlabel_refuted : ∀ w s m q l u b lst inp,
  ready w s m → picks (w_lower w) m q u → m !! u = Some b → l ∈ Labels b →
  2 ≤ length (Labels b) → last (Labels b) = Some lst →
  ∃ s' b', deleteLabel w q l s inp = (s', UOk [Note] inp) ∧ became s s' (<[u := b']> m) ∧ b' !! "labels" = Some lst ∧
    ∀ k, k ≠ "labels" → k ≠ "updated" → b' !! k = b !! k.
Proof. exact rmlabel_many. Qed.
Print Assumptions C72_rmlabel_refuted.

(** A label typed with a comma becomes two labels. *)
Theorem C72_label_comma_refuted : ∀ w s m q u b rest,
  ready w s m → picks (w_lower w) m q u → m !! u = Some b → Labels b = [] → w_upper w 97 = false → w_upper w 98 = false → w_upper w 44 = false →
  ∃ s' o b', addLabels w q s (ILine "a,b" :: ILine "" :: rest) = (s', UOk o rest) ∧ became s s' (<[u := b']> m) ∧ Labels b' = ["a"; "b"].
Proof.
  intros w s m q u b rest Hr Hp Hb Hl Ha Hb' Hc.
  destruct (label_adds w s m q u b ["a,b"] (ILine "") rest Hr Hp Hb) as (new & s' & o & (Ht1 & Ht2 & Ht3 & Ht4) & E & H); [by repeat constructor|by left|].
  assert (new = ["a,b"]) as ->.
  { assert ("a,b" ∈ Labels b ++ new) as Hin.
    { apply Ht4; [by apply elem_of_list_singleton|]. unfold proper_label. change (runes "a,b") with [97; 44; 98]%Z. repeat constructor; done. }
    rewrite Hl in Hin. cbn [app] in Hin. apply sublist_length in Ht1 as Hlen. cbn in Hlen.
    destruct new as [|x [|y new]]; cbn in Hlen; [by apply elem_of_nil in Hin|by apply elem_of_list_singleton in Hin as ->|lia]. }
  rewrite Hl in H. destruct (decide (["a,b"] = [])) as [|_]; [done|]. eexists s', o, _. split; [exact E|]. split; [exact H|].
  unfold Labels. rewrite lookup_insert. vm_compute. reflexivity.
Qed.
Print Assumptions C72_label_comma_refuted.

(** ** C73: what is shown is what is stored *)

Theorem C73_get : ∀ w s m q k i c u b inp,
  ready w s m → picks (w_lower w) m q u → m !! u = Some b → k ≠ "totp" → k ≠ "updated" →
  ∃ s', get_cmd w q k i c s inp = (s', UOk (match b !! k with Some v => give c k v | None => [Note] end) inp) ∧ unchanged s s'.
Proof. exact get_gives. Qed.
Print Assumptions C73_get.

Theorem C73_get_totp : ∀ w s m q i c u b inp,
  ready w s m → picks (w_lower w) m q u → m !! u = Some b → TwoFactor w b ≠ Panic →
  ∃ s', get_cmd w q "totp" i c s inp = (s', UOk (match TwoFactor w b with Ok v => if decide (v = "") then [Note] else give c "totp" v | _ => [Note] end) inp) ∧ unchanged s s'.
Proof. exact get_totp. Qed.
Print Assumptions C73_get_totp.

Theorem C73_get_none : ∀ w s m q k i c inp,
  ready w s m → (∀ u, ¬ picks (w_lower w) m q u) →
  ∃ s', get_cmd w q k i c s inp = (s', UOk [Note] inp) ∧ unchanged s s'.
Proof. exact get_none. Qed.
Print Assumptions C73_get_none.

(** show: every key but the stamp, as it is stored; then the stamp and the number of
    versions *)
Theorem C73_show : ∀ w s m q u b t inp,
  ready w s m → picks (w_lower w) m q u → m !! u = Some b →
  w_keys w b ≡ₚ (map_to_list b).*1 → TwoFactor w b ≠ Panic → Updated b = Ok t →
  ∃ s' l o, show w q 0 s inp = (s', UOk (l ++ o) inp) ∧ unchanged s s' ∧
    o = (match t with None => [] | Some t => [Row "updated" (w_time w t)] end) ++
        (let n := length (filter (λ x, tx_uuid x = u) (vis (db_log (s_db s)))) in if 0 <? n then [Row "snaps" (FormatInt (Z.of_nat n))] else []) ∧
    ∀ x, x ∈ l ↔ ∃ k v, b !! k = Some v ∧ k ≠ "updated" ∧ shown_as w b k v x.
Proof. exact show_shows. Qed.
Print Assumptions C73_show.

(** ls: the names the query matches, in order *)
Theorem C73_ls : ∀ w s m q inp,
  ready w s m →
  ∃ s' o, list_cmd w q s inp = (s', UOk o inp) ∧ unchanged s s' ∧ lists m (λ b, ∃ n, b !! "name" = Some n ∧ name_matches (w_lower w) q n) o.
Proof. exact ls_lists. Qed.
Print Assumptions C73_ls.

(** labels: the entries with all these labels; missing are entries with the same
    label twice *)
Theorem C73_labels_partial : ∀ w s m ls inp,
  ready w s m → (∀ u b, m !! u = Some b → NoDup (Labels b)) →
  ∃ s' o, listByLabels w ls s inp = (s', UOk o inp) ∧ unchanged s s' ∧ lists m (has_labels ls) o.
Proof. exact labels_lists. Qed.
Print Assumptions C73_labels_partial.

Example C73_example :
  ready ex_world se_single se_m ∧ picks toy_lower se_m "mail" "u1" ∧ se_m !! "u1" = Some se_mail ∧
  w_keys ex_world se_mail ≡ₚ (map_to_list se_mail).*1 ∧ TwoFactor ex_world se_mail ≠ Panic ∧ Updated se_mail = Ok None ∧
  (∀ u b, se_m !! u = Some b → NoDup (Labels b)) ∧
  match list_cmd ex_world "ml" se_single [] with (_, UOk [Names l] _) => bool_decide (l = ["mail"]) | _ => false end = true ∧
  match list_cmd ex_world "" se_multi [] with (_, UOk [Names l] _) => bool_decide (l = ["mail"; "user/alice"; "user/bob"]) | _ => false end = true.
Proof.
  split; [apply ex_ready|]. split; [apply ex_picks|]. split; [apply ex_m_u1|]. split; [done|]. split; [by vm_compute|]. split; [by vm_compute|].
  split; [|split; vm_compute; reflexivity]. intros u b Hb. apply one_entry in Hb as [_ ->]. vm_compute. constructor.
Qed.

(** show with a negative number panics. *)
Theorem C73_show_negative_refuted :
  match run_repl (λ _, ex_world) se_single [ILine "show mail -1"] with (_, _, UPanic) => true | _ => false end = true.
Proof. vm_compute. reflexivity. Qed.
Print Assumptions C73_show_negative_refuted.

(** ** C74: breaking off at a prompt only breaks off the command *)

(** add *)
Theorem C74_add_partial : ∀ w ctx n s m inp rest,
  ready w s m → db_txpoint (s_db s) = 0 → (∀ u, ¬ called m u n) → add_breaks w inp EEnd rest →
  ∃ s', exec w ctx (KAdd n) s inp = (s', UOk (ctx, [Note]) rest) ∧ unchanged s s' ∧ holds (s_db s') m.
Proof. exact add_end. Qed.
Print Assumptions C74_add_partial.

(** addsync *)
Theorem C74_addsync_partial : ∀ w ctx k s m inp s' rest,
  ready w s m → db_txpoint (s_db s) = 0 → unused (s_db s) (e_uuid (w_env w 0)) →
  addSync w k s inp = (s', UErr EEnd rest) →
  exec w ctx (KAddSync k) s inp = (s', UOk (ctx, [Note]) rest) ∧ unchanged s s' ∧ holds (s_db s') m.
Proof. exact addsync_end. Qed.
Print Assumptions C74_addsync_partial.

(** rm *)
Theorem C74_rm_partial : ∀ w ctx n s m u rest,
  ready w s m → called m u n → n ≠ "" → s_user s = "" ∨ ((∀ a b, n = a +:+ "user/" +:+ b → ∃ b', n = "user/" +:+ b') ∧ ¬ own_entry s n) →
  ∃ s', exec w ctx (KRm n) s (IErr EEnd :: rest) = (s', UOk (if String.eqb ctx n then "" else ctx, []) rest) ∧ unchanged s s' ∧ holds (s_db s') m.
Proof. exact rm_end. Qed.
Print Assumptions C74_rm_partial.

(** label keeps what was typed so far *)
Theorem C74_label_partial : ∀ w ctx s m q u b lines rest,
  ready w s m → picks (w_lower w) m q u → m !! u = Some b → Forall (λ x, x ≠ "" ∧ x ≠ ".") lines →
  ∃ s' o, exec w ctx (KLabel q) s ((ILine <$> lines) ++ IErr EEnd :: rest) = (s', UOk (ctx, o) rest).
Proof.
  intros w ctx s m q u b lines rest Hr Hp Hb Hl.
  destruct (label_adds w s m q u b lines (IErr EEnd) rest Hr Hp Hb Hl) as (new & s' & o & _ & E & _); [by right; right|].
  exists s', o. cbn [exec]. unfold showing. by rewrite (Proof_Session3.C_ok _ _ _ _ s' o rest) by exact E.
Qed.
Print Assumptions C74_label_partial.

(** For other commands the error ends the program, which saves nothing: what was
    done before in the same session is lost. *)

Theorem C74_loop_ends : ∀ f w n ctx shown s line rest c s' e rest',
  parse_line (s_readOnly s) ctx line = Run c → c ≠ KExit →
  exec (w n) ctx c s rest = (s', UErr e rest') → run_loop (S f) w n ctx shown s (ILine line :: rest) = (s', shown, UErr e rest').
Proof. exact loop_err. Qed.
Print Assumptions C74_loop_ends.

Theorem C74_nothing_saved : ∀ P w0 w1 w e ord riv s inp s2 o x rest,
  run_repl w s inp = (s2, o, UErr x rest) →
  session_main P false w0 w1 w e ord riv s inp = (s2, UErr x rest).
Proof. exact main_err. Qed.
Print Assumptions C74_nothing_saved.

(** passwd *)
Theorem C74_passwd_refuted : ∀ w ctx u s inp e rest,
  newPassword (w_rand w) inp = UErr e rest → exec w ctx (KPasswd u) s inp = (s, UErr e rest).
Proof. exact passwd_end. Qed.
Print Assumptions C74_passwd_refuted.

(** set of a password *)
Theorem C74_set_pass_refuted : ∀ w ctx q u s m inp e rest,
  ready w s m → picks (w_lower w) m q u → newPassword (w_rand w) inp = UErr e rest →
  ∃ s', exec w ctx (KSet q "pass" "") s inp = (s', UErr e rest) ∧ unchanged s s'.
Proof. exact set_pass_end. Qed.
Print Assumptions C74_set_pass_refuted.

(** edit, if the editor cannot be started *)
Theorem C74_edit_refuted : ∀ w ctx q k u b s m inp e,
  ready w s m → picks (w_lower w) m q u → m !! u = Some b → w_editor w (default "" (b !! k)) = NotRun e →
  ∃ s', exec w ctx (KEdit q k) s inp = (s', UErr e inp) ∧ unchanged s s'.
Proof. exact edit_end. Qed.
Print Assumptions C74_edit_refuted.

(** For instance: a changed password is lost by Ctrl-D at the prompt of a later
    passwd. *)
Theorem C74_lost_refuted : ∀ w0 w1 e ord riv rest,
  ∃ s' s, session_main toy false w0 w1 ex_ws e ord riv se_single
      [ILine "set mail pass s3cret"; ILine "passwd"; IErr EEnd; rest] = (s', UErr EEnd [rest]) ∧
    became se_single s (<["u1" := <["pass" := "s3cret"]> (stamped (e_now (w_env (ex_ws 0) 1) 0) se_mail)]> se_m) ∧ s' = s.
Proof.
  intros w0 w1 e ord riv rest.
  assert (ready (ex_ws 0) se_single se_m) as Hr by exact ex_ready.
  destruct (set_stores (ex_ws 0) se_single se_m "mail" "pass" "s3cret" "u1" se_mail [ILine "passwd"; IErr EEnd; rest] Hr ex_picks ex_m_u1) as (s & E & H);
    [rewrite <-protected_spec; by vm_compute|done|done|].
  exists s, s. split; [|done]. apply (main_err _ _ _ _ _ _ _ _ _ s ([] ++ [Report "pass" "s3cret"])).
  unfold run_repl. cbn [length]. rewrite (loop_step _ ex_ws 0 "" [] se_single _ _ (KSet "mail" "pass" "s3cret") s "" [Report "pass" "s3cret"] [ILine "passwd"; IErr EEnd; rest]).
  - apply (loop_err _ ex_ws 1 "" _ s "passwd" [IErr EEnd; rest] (KPasswd "")); [|done|].
    + destruct H as (_ & _ & ->). cbn [s_readOnly set_db se_single]. vm_compute. reflexivity.
    + apply passwd_end. vm_compute. reflexivity.
  - vm_compute. reflexivity.
  - done.
  - cbn [exec]. unfold showing. by rewrite (Proof_Session3.C_ok _ _ _ _ s [Report "pass" "s3cret"] [ILine "passwd"; IErr EEnd; rest]) by exact E.
Qed.
Print Assumptions C74_lost_refuted.

Example C74_example :
  ready ex_world se_single se_m ∧ db_txpoint (s_db se_single) = 0 ∧ (∀ u, ¬ called se_m u "bank") ∧
  add_breaks ex_world [ILine "me@x.org"; IErr EEnd] EEnd [] ∧ called se_m "u1" "mail" ∧ s_user se_single = "" ∧
  newPassword (w_rand ex_world) [IErr EEnd] = UErr EEnd [].
Proof.
  split; [apply ex_ready|]. split; [done|]. split; [by apply ex_free|]. split; [right; exists "me@x.org", [IErr EEnd]; split; [done|by left]|].
  split; [eexists; split; [apply ex_m_u1|apply ex_mail_name]|]. split; [done|]. vm_compute. reflexivity.
Qed.

(** ** C75: edit leaves no readable copy of the value *)

(** After an editor that exits with status 0, the temporary file is all zeros before it
    is removed. *)
Theorem C75_wiped_partial : ∀ old new,
  edit_leaves old (Exited 0 (Some new)) = Some (Model_Commands.zeros (Nat.max (String.length old) (String.length new))).
Proof. exact edit_wiped. Qed.
Print Assumptions C75_wiped_partial.

(** If the editor cannot be run, the value stays in the file that is removed. *)
Theorem C75_not_run_refuted : ∀ old e, edit_leaves old (NotRun e) = Some old.
Proof. done. Qed.
Print Assumptions C75_not_run_refuted.

(** If it exits with another status, only as many bytes are overwritten as the old
    value had. *)
Lemma str_skip_app a b : str_skip (String.length a) (a +:+ b) = b. Proof. induction a as [|c a IH]; [by destruct b|done]. Qed.
Theorem C75_status_refuted : ∀ old st typed secret,
  st ≠ 0%Z → String.length typed = String.length old →
  edit_leaves old (Exited st (Some (typed +:+ secret))) = Some (Model_Commands.zeros (String.length old) +:+ secret).
Proof.
  intros old st typed secret Hst Hl. unfold edit_leaves, wipe. rewrite (proj2 (Z.eqb_neq st 0) Hst). cbn [negb]. rewrite <-Hl. by rewrite str_skip_app.
Qed.
Print Assumptions C75_status_refuted.
Example C75_example : edit_leaves "abc" (Exited 1 (Some "xyz and the new password")) = Some (Model_Commands.zeros 3 +:+ " and the new password").
Proof. exact (C75_status_refuted "abc" 1 "xyz" " and the new password" ltac:(done) eq_refl). Qed.

(** ** C76: after any command the store can be saved *)

(** A single-user session: any command but sync and adduser leaves it a single-user
    session with its keys in order ... *)
Theorem C76_single_partial : ∀ P w ctx c s inp s' r,
  w_P w = P → rand_ok (w_rand w) → (∀ n, c ≠ KSync n) → (∀ u, c ≠ KAddUser u) →
  s_readOnly s = false → (∃ pass, single_session P s pass) → exec w ctx c s inp = (s', r) →
  (∀ a rest, r = UOk a rest → s_readOnly s' = false ∧ ∃ pass, single_session P s' pass) ∧
  (∀ e rest, r = UErr e rest → s_readOnly s' = false ∧ ∃ pass, single_session P s' pass).
Proof. intros P w ctx c s inp s' r HP Hr Hs Ha Hro Hp E. by apply (J_exec P w HP Hr ctx c Hs Ha s inp s' r). Qed.
Print Assumptions C76_single_partial.
(** ... and such a session, with the store in good order as shown above, is saved. *)
Theorem C76_single_saves_partial : ∀ P (U : string → Prop) s e ord riv,
  prims_ok P → sound U s → s_readOnly s = false → (∃ pass, single_session P s pass) → length riv = 40 →
  ∃ f, saveBlob P e ord (Some riv) s = (s, Ok (Some f)).
Proof. intros P U s e ord riv HP Hs Hro Hp. apply (J_saves P U); [done|done|by split]. Qed.
Print Assumptions C76_single_saves_partial.
Example C76_single_example : rand_ok (w_rand ex_world) ∧ s_readOnly se_single = false ∧ (∃ pass, single_session toy se_single pass) ∧ sound (λ u, u = "u1") se_single.
Proof. split; [apply se_rand_ok|]. split; [done|]. split; [exists se_pass; apply se_single_ok|apply ex_sound]. Qed.

(** A multi-user session cannot be saved any more after ... *)

(** add of an entry "user/..." *)
Theorem C76_add_refuted : ∀ w n x s m inp email r1 user r2 pass r3,
  ready w s m → db_txpoint (s_db s) = 0 → n = "user/" +:+ x → (∀ u, ¬ called m u n) → unused (s_db s) (e_uuid (w_env w 0)) →
  s_readOnly s = false → s_master s ≠ [] →
  prompt inp = UOk email r1 → prompt r1 = UOk user r2 → newPassword (w_rand w) r2 = UOk pass r3 →
  ∃ s', addNew w n s inp = (s', UOk [] r3) ∧ ∀ P e ord riv s'' f, fair e → fair_results ord → saveBlob P e ord riv s' ≠ (s'', Ok f).
Proof. exact add_user_unsavable. Qed.
Print Assumptions C76_add_refuted.

(** mv of an entry to such a name *)
Theorem C76_mv_refuted : ∀ w src x s m u b inp,
  ready w s m → m !! u = Some b → b !! "name" = Some src → b !! "salt" = None → (∀ v, ¬ called m v ("user/" +:+ x)) →
  s_readOnly s = false → s_master s ≠ [] →
  ∃ s', rename w src ("user/" +:+ x) s inp = (s', UOk [Moved src ("user/" +:+ x)] inp) ∧ ∀ P e ord riv s'' f, fair e → fair_results ord → saveBlob P e ord riv s' ≠ (s'', Ok f).
Proof. exact mv_user_unsavable. Qed.
Print Assumptions C76_mv_refuted.

(** rmk of a user's salt *)
Theorem C76_rmk_refuted : ∀ w q s m u b x v inp,
  ready w s m → picks (w_lower w) m q u → m !! u = Some b → b !! "name" = Some ("user/" +:+ x) → b !! "salt" = Some v →
  s_readOnly s = false → s_master s ≠ [] →
  ∃ s', deleteKey w q "salt" s inp = (s', UOk [Deleted "salt"] inp) ∧ ∀ P e ord riv s'' f, fair e → fair_results ord → saveBlob P e ord riv s' ≠ (s'', Ok f).
Proof. exact rmk_salt_unsavable. Qed.
Print Assumptions C76_rmk_refuted.

Example C76_example :
  ready ex_world se_multi se_m2 ∧ db_txpoint (s_db se_multi) = 0 ∧ (∀ u, ¬ called se_m2 u "user/carol") ∧ unused (s_db se_multi) (e_uuid (w_env ex_world 0)) ∧
  s_readOnly se_multi = false ∧ s_master se_multi ≠ [] ∧ se_m2 !! "u1" = Some se_mail ∧ se_mail !! "name" = Some "mail" ∧ se_mail !! "salt" = None ∧
  picks toy_lower se_m2 "user/alice" "u2" ∧ se_user "alice" se_pass se_salt !! "salt" = Some (hex_encode se_salt).
Proof.
  split; [apply ex_ready2|]. split; [done|]. split; [apply ex_free2; compute_dec|]. split; [apply se_unused2|]. split; [done|]. split; [done|].
  split; [apply se_u1|]. split; [apply ex_mail_name|]. split; [unfold se_mail; by rewrite !lookup_insert_ne by done|]. split; [apply ex_picks_alice|].
  unfold se_user, with_row. rewrite !lookup_insert_ne by done. apply lookup_insert.
Qed.

(** ** C77: a failure shows in the exit status *)

(** The error that ended the session is overwritten before the status is computed:
    the status is 0 whenever the terminal could be closed. *)
Theorem C77_status_refuted : ∀ err clip no_clear, exit_status err clip None no_clear = 0%Z.
Proof. by intros err clip []. Qed.
Print Assumptions C77_status_refuted.
(** What holds: without any error it is 0, and it is 1 if the terminal could not be
    closed. *)
Theorem C77_status_partial : ∀ err clip e no_clear, exit_status err clip (Some e) no_clear = 1%Z ∧ exit_status None None None no_clear = 0%Z.
Proof. by intros err clip e []. Qed.
Print Assumptions C77_status_partial.
Example C77_example : exit_status (Some EInterrupt) (Some EInterrupt) None false = 0%Z.
Proof. done. Qed.
