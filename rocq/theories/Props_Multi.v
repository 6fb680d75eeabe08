(** C80 for sessions of any mode: stores with one user, with several, and those that
    become one or the other on the way. *)
From Verif Require Import Proof_Crypt7 Spec_Multi Proof_TxLog Proof_Blobs Proof_SessionEx Proof_Session Proof_Session2 Proof_Session3 Proof_Repl2 Proof_Repl5 Proof_Repl6 Proof_Repl7 Spec_Lines Proof_Lines Proof_Main Proof_Text3 Proof_Multi Props_Repl Props_Text.
From Coq Require Import Lia.
From stdpp Require Import options.
Import Model_GoStr.
#[local] Open Scope nat_scope.

(** Whatever is typed but sync (passwd, adduser, rekey, rekeyall and rm too), a session that ends
    well has only appended to the log. If it ends without a master key it is saved and opens with one
    passphrase. If it ends with one and everything called user/… has credentials, it is saved and
    opens for every user whose credentials hold that master key. *)
Theorem C80_any_partial : ∀ P (U : string → Prop) w w0 w1 e ord riv s inp s' o rest,
  (∀ n, w_P (w n) = P) → (∀ n, rand_ok (w_rand (w n))) → (∀ n, tame U (w n)) → (∀ i j, drawn (w i) = drawn (w j) → i = j) →
  prims_ok P → length riv = 40 → fair e → fair_results ord →
  sound U s → keyed_session P (λ _, True) s → never_typed "sync" inp → run_repl w s inp = (s', o, UOk tt rest) →
  log_grew s s' ∧
  (s_master s' = [] → ∃ f pass, session_main P false w0 w1 w e ord (Some riv) s inp = (s', UOk (Some f) rest) ∧
    ∀ m, good (s_db s') m → ∀ sp rsalt r, ∃ s2, loadBlob P (Found (mk_slice f sp)) None rsalt (ILine pass :: r) = UOk s2 r ∧
      same_store (s_db s') (s_db s2) ∧ good (s_db s2) m) ∧
  (s_master s' ≠ [] → ∀ m, good (s_db s') m → table_ok P m → ∀ x pass, unlocks P m (s_master s') x pass →
    ∃ f s2, session_main P false w0 w1 w e ord (Some riv) s inp = (s2, UOk (Some f) rest) ∧ vis (db_log (s_db s2)) = vis (db_log (s_db s')) ∧
      ∀ sp rsalt r, ∃ s3, loadBlob P (Found (mk_slice f sp)) None rsalt (ILine x :: ILine pass :: r) = UOk s3 r ∧
        same_store (s_db s') (s_db s3) ∧ serves P s3 m ∧ s_user s3 = x).
Proof. intros P U w w0 w1 e ord riv s inp s' o rest HP Hr Ht Hd. exact (any_saved P U w HP Hr Ht Hd w0 w1 e ord riv s inp s' o rest). Qed.
Print Assumptions C80_any_partial.

(** The keys stay in order: after every command but sync the session's key is that of some
    passphrase, and the master key is gone or has its size. *)
Theorem C80_keys : ∀ w ctx c s inp s' r, rand_ok (w_rand w) → keyed_session (w_P w) (λ _, True) s → (∀ n, c ≠ KSync n) →
  exec w ctx c s inp = (s', r) → (∃ a rest, r = UOk a rest) ∨ (∃ x rest, r = UErr x rest) → keyed_session (w_P w) (λ _, True) s'.
Proof.
  intros w ctx c s inp s' r Hr Hs Hc E H. destruct (keyed_exec (w_P w) (λ _, True) w eq_refl Hr ctx c Hc (λ _ _ _, Logic.I) s inp s' r Hs E) as [H1 H2].
  destruct H as [(a & rest & ->)|(x & rest & ->)]; [by eapply H1|by eapply H2].
Qed.
Print Assumptions C80_keys.

(** Only passwd, adduser, rekey, rekeyall, rm and sync change anything in a session but its
    store. *)
Theorem C80_only_store : ∀ w ro ctx line c s inp s' r, parse_line ro ctx line = Run c →
  (∀ cmd, cmd ∈ changing_words → head (Fields (TrimSpace line)) ≠ Some cmd) →
  exec w ctx c s inp = (s', r) → (∃ a rest, r = UOk a rest) ∨ (∃ x rest, r = UErr x rest) → s' = set_db (s_db s') s.
Proof.
  intros w ro ctx line c s inp s' r Ep Hw E H.
  assert (¬ changing c) as Hc. { intros Hc. destruct (changing_word _ _ _ _ Ep Hc) as (cmd & Hh & Hcw). by apply (Hw cmd). }
  destruct (K_exec (λ s0, s0 = set_db (s_db s0) s) (λ d s0 H0, ltac:(cbv beta in *; rewrite H0; done)) w ctx c Hc s inp s' r) as [H1 H2]; [by destruct s|done|].
  destruct H as [(a & rest & ->)|(x & rest & ->)]; [by eapply H1|by eapply H2].
Qed.
Print Assumptions C80_only_store.

(** Transactions that leave the users alone leave the same users. *)
Theorem C80_spared : ∀ d d' m m' l, holds d m → holds d' m' → vis (db_log d') = vis (db_log d) ++ l → Forall (spares m) l → same_users m m'.
Proof. exact spare_users. Qed.
Print Assumptions C80_spared.

(** Then everyone who could open the store still can. *)
Theorem C80_still : ∀ P m m' master, same_users m m' →
  (table_ok P m → table_ok P m') ∧ ∀ x pass, unlocks P m master x pass → unlocks P m' master x pass.
Proof. intros P m m' master H. split; [by apply same_table|]. intros x pass. by apply same_unlocks. Qed.
Print Assumptions C80_still.

(** A multi-user session in which text is typed, none of the commands above, and no user's
    entry is touched: it is saved, and every user who could open the store before opens it
    with the same passphrase and finds it as it was at the end. *)
Theorem C80_users_partial : ∀ P (U : string → Prop) w w0 w1 e ord riv s m inp s' o rest,
  (∀ n, w_P (w n) = P) → (∀ n, rand_ok (w_rand (w n))) → (∀ n, tame U (w n)) → (∀ i j, drawn (w i) = drawn (w j) → i = j) → (∀ n, text_world (w n)) →
  prims_ok P → length riv = 40 → fair e → fair_results ord →
  sound U s → serves P s m → s_readOnly s = false → typed_text inp → (∀ cmd, cmd ∈ changing_words → never_typed cmd inp) →
  run_repl w s inp = (s', o, UOk tt rest) → (Z.of_nat (length (vis (db_log (s_db s')))) < 2 ^ 64)%Z →
  (∀ l, vis (db_log (s_db s')) = vis (db_log (s_db s)) ++ l → Forall (spares m) l) →
  ∃ m', good (s_db s') m' ∧ same_users m m' ∧ log_grew s s' ∧ ∀ x pass, unlocks P m (s_master s) x pass →
  ∃ f s2, session_main P false w0 w1 w e ord (Some riv) s inp = (s2, UOk (Some f) rest) ∧ vis (db_log (s_db s2)) = vis (db_log (s_db s')) ∧
    ∀ sp rsalt r, ∃ s3, loadBlob P (Found (mk_slice f sp)) None rsalt (ILine x :: ILine pass :: r) = UOk s3 r ∧
      same_store (s_db s') (s_db s3) ∧ serves P s3 m' ∧ s_user s3 = x.
Proof.
  intros P U w w0 w1 e ord riv s m inp s' o rest HP Hr Ht Hd Hw HPo Hl He Ho Hs Hm Hro Hi Hn E HL Hsp.
  destruct (repl_any P U w HP Hr Ht Hd (λ _, True) (λ c, ∀ k, c ≠ KSync k) s inp s' o rest) as (k & Hs' & _ & Hg); try done.
  { intros k Hk. by destruct (Hk k). }
  { intros line ro ctx c Hin Ep. apply (proj1 (never_cmd inp line ro ctx c Hin Ep)). apply Hn. by unfold changing_words; rewrite !elem_of_cons; tauto. }
  destruct Hs' as (Htp & (m' & Hm' & _) & _).
  assert (good (s_db s') m') as Hgd.
  { apply clean_good; try done. eapply C81_loop; [exact Hw| |exact Hi| |exact E|left; by eexists].
    - eapply good_clean, Hm.
    - right. apply Hn. unfold changing_words; rewrite !elem_of_cons; tauto. }
  exists m'. split; [done|]. destruct Hg as [l Hg]. assert (same_users m m') as Hsu by (eapply spare_users; [apply Hm|exact Hm'|exact Hg|by apply Hsp]).
  split; [done|]. split; [by exists l|]. intros x pass Hu.
  destruct (users_saved P U w HP Hr Ht Hd w0 w1 e ord riv s m inp s' o rest HPo Hl He Ho Hs Hm Hro Hn E m' Hgd Hsu x pass Hu) as (f & s2 & H1 & H2 & _ & H3).
  by exists f, s2.
Qed.
Print Assumptions C80_users_partial.

(** A session of alice, who changes an entry. *)
Definition mu_typed : list input := [ILine "set mail pass s3cret"; IErr EEnd].
Definition mu_U (u : string) : Prop := u ∈ ["u1"; "u2"; "u3"].
Definition mu_new : list tx := [mk_tx 101 "setk" "u1" "updated" "100"; mk_tx 102 "setk" "u1" "pass" "s3cret"].
Lemma mu_sound : sound mu_U se_multi.
Proof.
  split; [done|]. split; [exists se_m2; split; [apply se_good2|apply se_named2]|].
  change (∀ t, t ∈ se_log ++ se_user_log "u2" "alice" se_pass se_salt ++ se_user_log "u3" "bob" se_pass2 se_salt2 → mu_U (tx_uuid t)).
  assert (∀ u x pass salt t, t ∈ se_user_log u x pass salt → tx_uuid t = u) as Hu.
  { intros u x pass salt t Ht. unfold se_user_log in Ht. repeat (apply elem_of_cons in Ht as [->|Ht]; [done|]). by apply elem_of_nil in Ht. }
  intros t Ht. unfold mu_U. rewrite !elem_of_cons. apply elem_of_app in Ht as [Ht|[Ht|Ht]%elem_of_app].
  - left. apply (proj2 (proj2 ex_sound)). exact Ht.
  - right. left. by eapply Hu.
  - right. right. left. by eapply Hu.
Qed.
Lemma mu_tame n : tame mu_U (tw n).
Proof. split; [intros i j m; reflexivity|]. split; [exact se_ord|]. unfold mu_U. cbn. rewrite !elem_of_cons, elem_of_nil. intros [H|[H|[H|H]]]; done. Qed.
Lemma mu_tail : drop 13 (vis (db_log (s_db (run_repl tw se_multi mu_typed).1.1))) = mu_new ∧
  match (run_repl tw se_multi mu_typed).2 with UOk _ [] => true | _ => false end = true.
Proof. split; vm_compute; reflexivity. Qed.
#[local] Opaque run_repl session_main.
Lemma mu_never cmd : cmd ≠ "set" → never_typed cmd mu_typed.
Proof. intros Hc line Hl. unfold mu_typed in Hl. repeat (apply elem_of_cons in Hl as [Hl|Hl]; [try discriminate Hl; injection Hl as ->; change (Some "set" ≠ Some cmd); congruence|]). by apply elem_of_nil in Hl. Qed.
Lemma mu_text : typed_text mu_typed.
Proof. intros line Hl. unfold mu_typed in Hl. repeat (apply elem_of_cons in Hl as [Hl|Hl]; [try discriminate Hl; injection Hl as ->; utf8_lit|]). by apply elem_of_nil in Hl. Qed.
Lemma mu_never_any cmd : cmd ∈ changing_words → never_typed cmd mu_typed.
Proof. intros Hc. apply mu_never. intros ->. unfold changing_words in Hc. rewrite !elem_of_cons, elem_of_nil in Hc. repeat (destruct Hc as [Hc|Hc]; [discriminate Hc|]). done. Qed.
Lemma mu_keyed : keyed_session toy (λ _, True) se_multi.
Proof. split; [split; [done|by right]|]. split; [|by right]. exists se_pass. done. Qed.
Lemma mu_drawn i j : drawn (tw i) = drawn (tw j) → i = j.
Proof. intros E. unfold drawn in E. cbn in E. injection E as E. apply (f_equal String.length) in E. by rewrite !ones_length in E. Qed.
Example C80_users_example : ∃ s' o,
  run_repl tw se_multi mu_typed = (s', o, UOk tt []) ∧ vis (db_log (s_db s')) = vis (db_log (s_db se_multi)) ++ mu_new ∧ Forall (spares se_m2) mu_new ∧
  ∀ w0 w1 e ord, fair e → fair_results ord → ∃ m', good (s_db s') m' ∧ ∀ x pass, (x, pass) ∈ [("alice", se_pass); ("bob", se_pass2)] →
    ∃ f s2, session_main toy false w0 w1 tw e ord (Some se_iv) se_multi mu_typed = (s2, UOk (Some f) []) ∧
      ∀ sp rsalt r, ∃ s3, loadBlob toy (Found (mk_slice f sp)) None rsalt (ILine x :: ILine pass :: r) = UOk s3 r ∧ serves toy s3 m' ∧ s_user s3 = x.
Proof.
  destruct mu_tail as [Hd Hr]. destruct (run_repl tw se_multi mu_typed) as [[s' o] r] eqn:E. cbn [fst snd] in Hd, Hr. destruct r as [[] [|]| | |]; [|discriminate Hr..]. clear Hr.
  exists s', o. split; [exact eq_refl|].
  destruct (repl_any toy mu_U tw (λ _, eq_refl) (λ _, se_rand_ok) mu_tame mu_drawn (λ _, True) (λ c, ∀ k, c ≠ KSync k) se_multi mu_typed s' o []) as (k & _ & _ & l & Hg).
  { intros k Hk. by destruct (Hk k). }
  { intros n ctx c _ s inp s2 r _ _. split; intros; exact Logic.I. }
  { exact mu_sound. }
  { exact Logic.I. }
  { intros line ro ctx c Hin Ep. apply (proj1 (never_cmd mu_typed line ro ctx c Hin Ep)). by apply mu_never. }
  { exact E. }
  assert (l = mu_new) as ->. { rewrite <- Hd, Hg. change 13 with (length (vis (db_log (s_db se_multi)))). by rewrite drop_app. }
  assert (Forall (spares se_m2) mu_new) as Hsp.
  { assert (∀ x, ¬ called se_m2 "u1" ("user/" +:+ x)) as Hu by (intros x [[? _]|[? _]]%se_called; done).
    constructor; [|constructor; [|constructor]]; (split; [exact Hu|]; intros x (_ & _ & Hk); done). }
  split; [done|]. split; [done|]. intros w0 w1 e ord He Ho.
  destruct (C80_users_partial toy mu_U tw w0 w1 e ord se_iv se_multi se_m2 mu_typed s' o []) as (m' & Hm' & _ & _ & H).
  - intros n. exact eq_refl.
  - intros n. apply se_rand_ok.
  - apply mu_tame.
  - apply mu_drawn.
  - apply tw_text.
  - apply toy_ok.
  - exact eq_refl.
  - exact He.
  - exact Ho.
  - apply mu_sound.
  - apply se_serves.
  - exact eq_refl.
  - exact mu_text.
  - exact mu_never_any.
  - exact E.
  - rewrite Hg, app_length. change (length (vis (db_log (s_db se_multi)))) with 13. cbn. lia.
  - intros l' Hl'. rewrite Hg in Hl'. apply app_inv_head in Hl' as <-. exact Hsp.
  - exists m'. split; [exact Hm'|]. intros x pass Hx. assert (unlocks toy se_m2 (s_master se_multi) x pass) as Hu.
    { clear -Hx. apply elem_of_cons in Hx as [[= -> ->]|[[= -> ->]|Hx%elem_of_nil]%elem_of_cons]; [exact se_alice|exact se_bob|destruct Hx]. }
    destruct (H x pass Hu) as (f & s2 & H1 & _ & H2). exists f, s2. split; [exact H1|]. intros sp rsalt r. destruct (H2 sp rsalt r) as (s3 & H3 & _ & H4 & H5). exists s3. split; [exact H3|]. split; [exact H4|exact H5].
Qed.
Example C80_any_example : keyed_session toy (λ _, True) se_multi ∧ keyed_session toy (λ _, True) se_single ∧ never_typed "sync" [ILine "adduser carol"; ILine "rekeyall"; ILine "y"; IErr EEnd].
Proof.
  split; [apply mu_keyed|]. split; [split; [split; [done|by right]|]; split; [|by left]; exists se_pass; split; [done|]; apply se_single_ok|].
  intros line Hl. repeat (apply elem_of_cons in Hl as [Hl|Hl]; [try discriminate Hl; injection Hl as ->; by vm_compute|]). by apply elem_of_nil in Hl.
Qed.

(** ** C74: only the end of the input at a prompt of add or addsync is taken for breaking off *)
Theorem C74_other_errors : ∀ w ctx s inp s' e rest, e ≠ EEnd →
  (∀ n, addNew w n s inp = (s', UErr e rest) → exec w ctx (KAdd n) s inp = (s', UErr e rest)) ∧
  (∀ k, addSync w k s inp = (s', UErr e rest) → exec w ctx (KAddSync k) s inp = (s', UErr e rest)).
Proof.
  intros w ctx s inp s' e rest He. split; intros n E; cbn [exec]; unfold showing, addNewInterruptible, addSyncInterruptible, interruptible, mbind, C_bind; rewrite E; by destruct e.
Qed.
Print Assumptions C74_other_errors.
Example C74_other_errors_example : match addNew ex_world "bank" se_single [IErr EInterrupt] with (_, UErr EInterrupt []) => true | _ => false end = true ∧
  match exec ex_world "" (KAdd "bank") se_single [IErr EInterrupt] with (_, UErr EInterrupt []) => true | _ => false end = true ∧
  match exec ex_world "" (KAdd "bank") se_single [IErr EEnd] with (_, UOk _ []) => true | _ => false end = true.
Proof. split; [|split]; vm_compute; reflexivity. Qed.

(** ** C80: a multi-user session that ends well may be lost altogether *)
Theorem C80_lost_refuted : ∀ w0 w1 e ord riv, fair e → fair_results ord →
  ∃ s' o, run_repl ex_ws se_multi [ILine "mv mail user/carol"; IErr EEnd] = (s', o, UOk tt []) ∧
    ∀ s2 f rest, session_main toy false w0 w1 ex_ws e ord riv se_multi [ILine "mv mail user/carol"; IErr EEnd] ≠ (s2, UOk (Some f) rest).
Proof.
  intros w0 w1 e ord riv He Ho. assert (ready (ex_ws 0) se_multi se_m2) as Hr by exact ex_ready2.
  assert (se_mail !! "salt" = None) as Hsalt by (unfold se_mail; by rewrite !lookup_insert_ne by done).
  destruct (C76_mv_refuted (ex_ws 0) "mail" "carol" se_multi se_m2 "u1" se_mail [IErr EEnd] Hr se_u1 ex_mail_name Hsalt) as (s & E & H); [apply ex_free2; compute_dec|done|done|].
  assert (run_repl ex_ws se_multi [ILine "mv mail user/carol"; IErr EEnd] = (s, [Moved "mail" "user/carol"], UOk tt [])) as Hrun.
  { with_strategy transparent [run_repl] unfold run_repl. cbn [length].
    rewrite (loop_step _ ex_ws 0 "" [] se_multi _ _ (KMv "mail" "user/carol") s "" [Moved "mail" "user/carol"] [IErr EEnd]).
    - cbn [run_loop app]. exact eq_refl.
    - vm_compute. reflexivity.
    - discriminate.
    - cbn [exec]. unfold showing. rewrite (Proof_Session3.C_ok _ _ _ _ s [Moved "mail" "user/carol"] [IErr EEnd]) by exact E. exact eq_refl. }
  exists s, [Moved "mail" "user/carol"]. split; [exact Hrun|]. intros s2 f rest Hm. 
  with_strategy transparent [session_main] unfold session_main in Hm. rewrite no_auto, Hrun in Hm. cbn [andb] in Hm. rewrite no_auto in Hm.
  destruct (saveBlob toy e ord riv s) as [s3 [[f'|]|x|]] eqn:Es; try discriminate Hm. exact (H toy e ord riv s3 (Some f') He Ho Es).
Qed.
Print Assumptions C80_lost_refuted.
