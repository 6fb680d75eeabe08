(** Proofs about the lists shown, the past, aborted commands and stores that
    cannot be saved. *)
From Verif Require Import Proof_TxLog Proof_GoStr Proof_Utf8 Proof_Dialogue Proof_Blobs Proof_Blobs2 Proof_Session Proof_Session2 Proof_Session3 Proof_Session4 Proof_Session5 Proof_SessionEx Proof_Fuzzy.
From Verif Require Export Proof_Repl2 Proof_Repl3 Proof_Repl4 Proof_Repl5.
From Coq Require Import Lia Sorting.Sorted.
From stdpp Require Import options.
Import Model_GoStr Proof_Utf8.
#[local] Open Scope nat_scope.

(** ** Lists of names *)
Lemma insert_sorted_sorted x l : Sorted (λ a b, String.leb a b = true) l → Sorted (λ a b, String.leb a b = true) (insert_sorted x l).
Proof.
  induction l as [|y l IH]; intros H; cbn [insert_sorted]; [repeat constructor|].
  destruct (String.leb x y) eqn:E; [constructor; [done|by constructor]|]. apply Sorted_inv in H as [H1 H2].
  assert (String.leb y x = true) as Hyx by (destruct (String.leb_total x y) as [Hx|Hx]; [congruence|done]).
  constructor; [by apply IH|]. destruct l as [|z l]; cbn [insert_sorted]; [by constructor|]. destruct (String.leb x z); [by constructor|].
  apply HdRel_inv in H2. by constructor.
Qed.
Lemma sort_strings_sorted l : Sorted (λ a b, String.leb a b = true) (sort_strings l).
Proof. induction l as [|x l IH]; cbn [sort_strings]; [constructor|by apply insert_sorted_sorted]. Qed.
Lemma names_of_lists w m P r : well_named m → fair_results (r_ord (w_rand w)) → exactly m P r → lists m P (names_of w r).
Proof.
  intros [_ Hu] Ho Hx. unfold names_of. pose proof (Ho (res_map r)) as Hp.
  assert (∀ p, p ∈ r_ord (w_rand w) (res_map r) ↔ ∃ b, m !! p.1 = Some b ∧ b !! "name" = Some p.2 ∧ P b) as Hin.
  { intros [u n]. rewrite Hp, elem_of_map_to_list. apply Hx. }
  assert (NoDup (r_ord (w_rand w) (res_map r))) as Hnd by (rewrite Hp; apply NoDup_map_to_list).
  destruct (r_ord (w_rand w) (res_map r)) as [|p l]; [left; split; [done|]|right].
  - intros u b n Hb Hn HP. assert ((u, n) ∈ ([] : list (string * string))) as H by (apply Hin; eauto). by apply elem_of_nil in H.
  - exists (sort_strings (p :: l).*2). split; [done|]. split; [|split; [apply sort_strings_sorted|split]].
    + intros E. assert (p.2 ∈ sort_strings (p :: l).*2) as H by (rewrite sort_strings_perm; left). rewrite E in H. by apply elem_of_nil in H.
    + rewrite sort_strings_perm. apply (NoDup_fmap_2_strong snd); [|done]. intros [u n] [u' n'] H1 H2 E. cbn in E. subst n'.
      apply Hin in H1 as (b & ? & ? & _), H2 as (b' & ? & ? & _). f_equal. apply (Hu u u' n); [by exists b|by exists b'].
    + intros n. rewrite sort_strings_perm, elem_of_list_fmap. split.
      * intros ([u n'] & -> & H). apply Hin in H as (b & ?). exists u, b. done.
      * intros (u & b & H). exists (u, n). split; [done|]. apply Hin. by exists b.
Qed.
Lemma ls_lists w s m q inp : ready w s m →
  ∃ s' o, list_cmd w q s inp = (s', UOk o inp) ∧ unchanged s s' ∧ lists m (λ b, ∃ n, b !! "name" = Some n ∧ name_matches (w_lower w) q n) o.
Proof.
  intros (Hh & Hw & Hp & _ & Hf & Ho). destruct (Search_spec (w_lower w) (w_env w 0) q (s_db s) m Hh (proj1 Hw) Hp (Hf 0)) as (d & r & E & H1 & H2 & Hx).
  exists (set_db d s), (names_of w r). split; [|split].
  - unfold list_cmd. rewrite (C_ok _ _ _ _ (set_db d s) r inp) by (unfold on_db; by rewrite E). done.
  - apply unchanged_db; [done|]. pose proof (quiet_Search (w_lower w) (w_env w 0) q (s_db s)) as [_ H]. by rewrite E in H.
  - by apply names_of_lists.
Qed.
Lemma labels_lists w s m ls inp : ready w s m → (∀ u b, m !! u = Some b → NoDup (Labels b)) →
  ∃ s' o, listByLabels w ls s inp = (s', UOk o inp) ∧ unchanged s s' ∧ lists m (has_labels ls) o.
Proof.
  intros (Hh & Hw & Hp & _ & Hf & Ho) Hl. destruct (SearchLabels_spec (w_env w 0) ls (s_db s) m Hh (proj1 Hw) (Hf 0) Hl) as (d & r & E & H1 & H2 & Hx).
  exists (set_db d s), (names_of w r). split; [|split].
  - unfold listByLabels. rewrite (C_ok _ _ _ _ (set_db d s) r inp) by (unfold on_db; by rewrite E). done.
  - apply unchanged_db; [done|]. pose proof (quiet_SearchLabels (w_env w 0) ls (s_db s)) as [_ H]. by rewrite E in H.
  - by apply names_of_lists.
Qed.

(** ** The past *)
Lemma history_one t log p1 p2 : history t log p1 → history t log p2 → p1 = p2.
Proof.
  revert p1 p2. induction log as [|x log IH]; intros p1 p2 (r1 & E1 & F1 & H1) (r2 & E2 & F2 & H2).
  - symmetry in E1, E2. apply app_nil in E1 as [-> _], E2 as [-> _]. done.
  - destruct p1 as [|y1 p1], p2 as [|y2 p2]; [done| | |].
    + cbn in E1. subst r1. injection E2 as <- E2. apply Forall_cons in F2 as [F2 _]. lia.
    + cbn in E2. subst r2. injection E1 as <- E1. apply Forall_cons in F1 as [F1 _]. lia.
    + injection E1 as <- E1. injection E2 as <- E2. f_equal. apply Forall_cons in F1 as [_ F1], F2 as [_ F2].
      apply IH; [exists r1|exists r2]; done.
Qed.
Lemma same_holds d d' m : same_store d d' → holds d m → holds d' m.
Proof. intros (Hv & Hver & Hs & Htp) [[Hle Hc] Hm]. unfold holds, coherent. rewrite Hv, Hver, Hs. done. Qed.
Lemma past_single P s pass m e ord riv sp rsalt t rest : prims_ok P → good (s_db s) m → s_readOnly s = false →
  single_session P s pass → length riv = 40 →
  ∃ f s2 past m', saveBlob P e ord (Some riv) s = (s, Ok (Some f)) ∧
    loadBlob P (Found (mk_slice f sp)) (Some t) rsalt (ILine pass :: rest) = UOk s2 rest ∧ s_readOnly s2 = true ∧
    history t (vis (db_log (s_db s))) past ∧ vis (db_log (s_db s2)) = past ∧ replays past m' ∧ holds (s_db s2) m'.
Proof.
  intros HP Hg Hro Hs Hr. destruct (single_save_load P s pass m e ord riv sp rsalt (Some t) rest HP Hg Hro Hs Hr) as (f & d' & E1 & Hsame & E2).
  pose proof (same_holds _ _ _ Hsame (proj1 Hg)) as Hh. destruct (rewind_ok t d' m Hh) as (d2 & m' & past & E & H1 & H2 & H3 & _ & H4 & _).
  eexists f, _, past, m'. split; [done|]. split; [rewrite E2; unfold finish; rewrite E; cbn [mbind outcome_bind of_outcome]; reflexivity|].
  split; [done|]. destruct Hsame as (<- & _). done.
Qed.
Lemma past_multi P s x pass m e ord riv sp rsalt t rest : prims_ok P → good (s_db s) m → all_named m → fair e → fair_results ord →
  s_readOnly s = false → multi_session P s m → unlocks P m (s_master s) x pass → (∀ b, riv = Some b → length b = 40) →
  ∃ f s1 s2 past m', saveBlob P e ord riv s = (s1, Ok (Some f)) ∧
    loadBlob P (Found (mk_slice f sp)) (Some t) rsalt (ILine x :: ILine pass :: rest) = UOk s2 rest ∧ s_readOnly s2 = true ∧
    history t (vis (db_log (s_db s))) past ∧ vis (db_log (s_db s2)) = past ∧ replays past m' ∧ holds (s_db s2) m'.
Proof.
  intros HP Hg Ha Hf Ho Hro Hs Hu Hr. destruct (multi_save_load P s x pass m e ord riv sp rsalt (Some t) rest HP Hg Ha Hf Ho Hro Hs Hu Hr) as (f & d' & s1 & salt & E1 & _ & Hsame & _ & E2).
  pose proof (same_holds _ _ _ Hsame (proj1 Hg)) as Hh. destruct (rewind_ok t d' m Hh) as (d2 & m' & past & E & H1 & H2 & H3 & _ & H4 & _).
  eexists f, s1, _, past, m'. split; [done|]. split; [rewrite E2; unfold finish; rewrite E; cbn [mbind outcome_bind of_outcome]; reflexivity|].
  split; [done|]. destruct Hsame as (<- & _). done.
Qed.

(** ** Commands broken off *)
Lemma within_fail {A} (body : C A) s m inp s1 e rest : holds (s_db s) m → db_txpoint (s_db s) = 0 →
  body (set_db (Begin (s_db s)) s) inp = (s1, UErr e rest) → tr s s1 →
  ∃ s', within body s inp = (s', UErr e rest) ∧ unchanged s s' ∧ holds (s_db s') m.
Proof.
  intros Hh Htp E [Hg Ho]. unfold within. rewrite E. destruct (grown_rollback _ _ Hg) as (d' & -> & Hc & Hv & Ht). eexists. split; [done|].
  split; [split; [done|]; split; [cbn [s_db set_db]; congruence|]|].
  - cbn [s_db set_db]. unfold only_db in Ho. rewrite Ho. by rewrite set_set_db.
  - split; [done|]. cbn [s_db set_db]. rewrite Hv. apply Hh.
Qed.
Lemma add_broken w n s m inp e rest : ready w s m → db_txpoint (s_db s) = 0 → (∀ u, ¬ called m u n) → add_breaks w inp e rest →
  ∃ s', addNew w n s inp = (s', UErr e rest) ∧ unchanged s s' ∧ holds (s_db s') m.
Proof.
  intros Hr Htp Hn Hb. pose proof Hr as (Hh & [Ha _] & _ & _ & Hf & _). set (s0 := set_db (Begin (s_db s)) s).
  destruct (Model_Blobs.New (w_env w 0) 0 n (Begin (s_db s))) as [d1 r] eqn:E1.
  destruct (New_grown (s_db s) m (Begin (s_db s)) (w_env w 0) 0 n d1 r Hh Ha (Hf 0) (grown_begin _ (proj1 Hh)) eq_refl E1) as [Hg [[-> _]| ->]].
  { exfalso. destruct (New_spec (w_env w 0) 0 n (Begin (s_db s)) m (holds_begin _ _ Hh) Ha (Hf 0)) as [[(u & Hc) _]|[_ H]]; [by apply (Hn u)|].
    clear H. revert E1. unfold Model_Blobs.New, mbind, M_bind.
    destruct (grown_update (s_db s) m (Begin (s_db s)) Hh (grown_begin _ (proj1 Hh)) eq_refl) as (dx & Ex & _ & _ & Hs1). rewrite Ex. unfold get_snap. rewrite Hs1.
    destruct (name_taken_ord (w_env w 0) 0 m n (Hf 0) Ha) as (tk & -> & Ht). unfold lift. destruct tk; [|unfold touchUpdated, modify, dbSet, mret, M_ret; done].
    exfalso. destruct Ht as [Ht _]. destruct (Ht eq_refl) as (u & Hc). by apply (Hn u). }
  apply (within_fail _ s m inp (set_db d1 s0) e rest Hh Htp); [|split; [done|]; unfold s0, only_db; by rewrite set_set_db].
  fold s0. rewrite (C_ok _ _ _ _ (set_db d1 s0) (Some (e_uuid (w_env w 0))) inp) by (unfold catching, s0; cbn [s_db set_db]; by rewrite E1). cbn iota.
  destruct Hb as [P1|(email & r1 & P1 & [P2|(user & r2 & P2 & P3)])].
  - unfold mbind at 1, C_bind at 1, ask at 1. by rewrite P1.
  - rewrite (C_ok _ _ _ _ (set_db d1 s0) email r1) by (unfold ask; by rewrite P1). unfold mbind at 1, C_bind at 1, ask at 1. by rewrite P2.
  - rewrite (C_ok _ _ _ _ (set_db d1 s0) email r1) by (unfold ask; by rewrite P1). rewrite (C_ok _ _ _ _ (set_db d1 s0) user r2) by (unfold ask; by rewrite P2).
    unfold mbind at 1, C_bind at 1, ask at 1. by rewrite P3.
Qed.
Lemma add_end w ctx n s m inp rest : ready w s m → db_txpoint (s_db s) = 0 → (∀ u, ¬ called m u n) → add_breaks w inp EEnd rest →
  ∃ s', exec w ctx (KAdd n) s inp = (s', UOk (ctx, [Note]) rest) ∧ unchanged s s' ∧ holds (s_db s') m.
Proof.
  intros Hr Htp Hn Hb. destruct (add_broken w n s m inp EEnd rest Hr Htp Hn Hb) as (s' & E & H). exists s'. split; [|done].
  cbn [exec]. unfold showing, addNewInterruptible. rewrite (C_ok _ _ _ _ s' [Note] rest) by (unfold interruptible; by rewrite E). done.
Qed.
Lemma addsync_end w ctx k s m inp s' rest : ready w s m → db_txpoint (s_db s) = 0 → unused (s_db s) (e_uuid (w_env w 0)) →
  addSync w k s inp = (s', UErr EEnd rest) →
  exec w ctx (KAddSync k) s inp = (s', UOk (ctx, [Note]) rest) ∧ unchanged s s' ∧ holds (s_db s') m.
Proof.
  intros Hr Htp Hu E. split; [|by apply (addsync_err w k s m inp s' EEnd rest)].
  cbn [exec]. unfold showing, addSyncInterruptible. rewrite (C_ok _ _ _ _ s' [Note] rest) by (unfold interruptible; by rewrite E). done.
Qed.
Lemma not_own s n : s_user s = "" ∨ ((∀ a b, n = a +:+ "user/" +:+ b → ∃ b', n = "user/" +:+ b') ∧ ¬ own_entry s n) → counts_as_own s n = false.
Proof.
  intros Hor. destruct (decide (s_user s = "")) as [E|Hs].
  - unfold counts_as_own. rewrite E. destruct (SplitUsername n) as [x| |]; [|done..]. by destruct (String.eqb x "").
  - destruct Hor as [?|[Hp Hown]]; [done|]. destruct (counts_as_own s n) eqn:E; [|done]. exfalso. by apply Hown, own_counts.
Qed.
Lemma rm_end w ctx n s m u rest : ready w s m → called m u n → n ≠ "" → s_user s = "" ∨ ((∀ a b, n = a +:+ "user/" +:+ b → ∃ b', n = "user/" +:+ b') ∧ ¬ own_entry s n) →
  ∃ s', exec w ctx (KRm n) s (IErr EEnd :: rest) = (s', UOk (if String.eqb ctx n then "" else ctx, []) rest) ∧ unchanged s s' ∧ holds (s_db s') m.
Proof.
  intros (Hh & Hw & _ & Hne & Hf & _) Hc Hn Ho. assert (u ≠ "") as Hu by (intros ->; destruct Hc as (b & Hb & _); congruence).
  destruct (deleteEntry_found (w_env w 0) n s m (IErr EEnd :: rest) u Hh Hw (Hf 0) Hc Hu) as [_ H2].
  destruct (H2 (or_introl (not_own _ _ Ho))) as (s1 & H3 & H4 & H5). cbn [prompt_end prompt] in H5. rewrite decide_False in H5 by done.
  exists s1. split; [|auto]. cbn [exec]. unfold silent. by rewrite (C_ok _ _ _ _ s1 tt rest) by exact H5.
Qed.

(** An error of a command ends the loop and with it the program: nothing is saved. *)
Lemma loop_err f w n ctx shown s line rest c s' e rest' : parse_line (s_readOnly s) ctx line = Run c → c ≠ KExit →
  exec (w n) ctx c s rest = (s', UErr e rest') → run_loop (S f) w n ctx shown s (ILine line :: rest) = (s', shown, UErr e rest').
Proof. intros Hp Hc E. cbn [run_loop]. rewrite Hp. destruct c; rewrite ?E; done. Qed.
Lemma loop_step f w n ctx shown s line rest c s' ctx' o rest' : parse_line (s_readOnly s) ctx line = Run c → c ≠ KExit →
  exec (w n) ctx c s rest = (s', UOk (ctx', o) rest') → run_loop (S f) w n ctx shown s (ILine line :: rest) = run_loop f w (S n) ctx' (shown ++ o) s' rest'.
Proof. intros Hp Hc E. cbn [run_loop]. rewrite Hp. destruct c; rewrite ?E; done. Qed.
Lemma main_err P w0 w1 w e ord riv s inp s2 o x rest : run_repl w s inp = (s2, o, UErr x rest) →
  session_main P false w0 w1 w e ord riv s inp = (s2, UErr x rest).
Proof.
  intros E. unfold session_main. assert (auto_sync false w0 s inp = (s, UOk tt inp)) as ->.
  { unfold auto_sync. rewrite (C_ok _ _ _ _ s s inp) by done. rewrite andb_false_r. done. }
  by rewrite E.
Qed.
Lemma passwd_end w ctx u s inp e rest : newPassword (w_rand w) inp = UErr e rest → exec w ctx (KPasswd u) s inp = (s, UErr e rest).
Proof. intros E. cbn [exec]. unfold silent, passwd. unfold mbind at 1, C_bind at 1. unfold mbind at 1, C_bind at 1, ask at 1. by rewrite E. Qed.
Lemma set_pass_end w ctx q u s m inp e rest : ready w s m → picks (w_lower w) m q u → newPassword (w_rand w) inp = UErr e rest →
  ∃ s', exec w ctx (KSet q "pass" "") s inp = (s', UErr e rest) ∧ unchanged s s'.
Proof.
  intros Hr Hp E. destruct (findq_ok w s m q u inp Hr Hp) as (s1 & E1 & U1 & R1 & Hu). exists s1. split; [|done].
  cbn [exec]. unfold showing. unfold mbind at 1, C_bind at 1. unfold set_cmd. rewrite (C_ok _ _ _ _ s1 u inp) by exact E1. rewrite (proj2 (String.eqb_neq u "")) by done.
  change (String.eqb "pass" KeyPass) with true. cbn iota. change (String.length "" =? 0) with true. cbn iota.
  unfold mbind at 1, C_bind at 1, ask at 1. by rewrite E.
Qed.
Lemma edit_end w ctx q k u b s m inp e : ready w s m → picks (w_lower w) m q u → m !! u = Some b → w_editor w (default "" (b !! k)) = NotRun e →
  ∃ s', exec w ctx (KEdit q k) s inp = (s', UErr e inp) ∧ unchanged s s'.
Proof.
  intros Hr Hp Hb He. destruct (edit_not_run w s m q k u b e inp Hr Hp Hb He) as (s' & E & H). exists s'. split; [|done].
  cbn [exec]. unfold showing. unfold mbind at 1, C_bind at 1. by rewrite E.
Qed.

(** ** Stores that cannot be saved *)
Lemma ready_named w s m : ready w s m → all_named m ∧ names_unique m. Proof. intros (_ & H & _). exact H. Qed.
Lemma add_user_unsavable w n x s m inp email r1 user r2 pass r3 : ready w s m → db_txpoint (s_db s) = 0 → n = "user/" +:+ x → (∀ u, ¬ called m u n) → unused (s_db s) (e_uuid (w_env w 0)) →
  s_readOnly s = false → s_master s ≠ [] →
  prompt inp = UOk email r1 → prompt r1 = UOk user r2 → newPassword (w_rand w) r2 = UOk pass r3 →
  ∃ s', addNew w n s inp = (s', UOk [] r3) ∧ ∀ P e ord riv s'' f, fair e → fair_results ord → saveBlob P e ord riv s' ≠ (s'', Ok f).
Proof.
  intros Hr Htp Hx Hn Hu Hro Hm P1 P2 P3. destruct (add_ok w n s m inp email r1 user r2 pass r3 Hr Htp Hn Hu P1 P2 P3) as (s' & E & Hh & Ht & Hs).
  exists s'. split; [done|]. intros P e ord riv s'' f Hf Ho. set (u := e_uuid (w_env w 0)) in *.
  set (b := opt_key "pass" pass (opt_key "email" email (opt_key "user" user (new_entry (w_env w 0) n)))) in *.
  assert (b !! "name" = Some n) as Hbn.
  { unfold b, opt_key, new_entry. repeat case_decide; rewrite ?lookup_insert_ne by done; by simplify_map_eq. }
  apply (no_creds_no_save P e ord riv s' (<[u := b]> m) u x b Hh); [|done|done|by rewrite Hs|rewrite Hs; cbn [s_master set_db]; by destruct (s_master s)|apply lookup_insert|by rewrite <-Hx|right].
  - intros v b' H. apply lookup_insert_Some in H as [[<- <-]|[_ H]]; [by exists n|]. by apply (proj1 (ready_named _ _ _ Hr) v b').
  - unfold b, opt_key, new_entry. repeat case_decide; rewrite ?lookup_insert_ne by done; done.
Qed.
Lemma mv_user_unsavable w src x s m u b inp : ready w s m → m !! u = Some b → b !! "name" = Some src → b !! "salt" = None → (∀ v, ¬ called m v ("user/" +:+ x)) →
  s_readOnly s = false → s_master s ≠ [] →
  ∃ s', rename w src ("user/" +:+ x) s inp = (s', UOk [Moved src ("user/" +:+ x)] inp) ∧ ∀ P e ord riv s'' f, fair e → fair_results ord → saveBlob P e ord riv s' ≠ (s'', Ok f).
Proof.
  intros Hr Hb Hn Hsa Hfree Hro Hm. destruct (mv_moves w s m src _ u b inp Hr Hb Hn Hfree) as (s' & E & Hh & Ht & Hs).
  exists s'. split; [done|]. intros P e ord riv s'' f Hf Ho.
  eapply (no_creds_no_save P e ord riv s' _ u x _ Hh); [|done|done|by rewrite Hs|rewrite Hs; cbn [s_master set_db]; by destruct (s_master s)|apply lookup_insert|apply lookup_insert|right].
  - intros v b' H. apply lookup_insert_Some in H as [[<- <-]|[_ H]]; [eexists; apply lookup_insert|]. by apply (proj1 (ready_named _ _ _ Hr) v b').
  - rewrite lookup_insert_ne by done. unfold stamped. by rewrite lookup_insert_ne by done.
Qed.
Lemma rmk_salt_unsavable w q s m u b x v inp : ready w s m → picks (w_lower w) m q u → m !! u = Some b → b !! "name" = Some ("user/" +:+ x) → b !! "salt" = Some v →
  s_readOnly s = false → s_master s ≠ [] →
  ∃ s', deleteKey w q "salt" s inp = (s', UOk [Deleted "salt"] inp) ∧ ∀ P e ord riv s'' f, fair e → fair_results ord → saveBlob P e ord riv s' ≠ (s'', Ok f).
Proof.
  intros Hr Hp Hb Hn Hv Hro Hm. destruct (rmk_deletes w s m q "salt" u b v inp Hr Hp Hb Hv ltac:(done) ltac:(done)) as (s' & E & Hh & Ht & Hs).
  exists s'. split; [done|]. intros P e ord riv s'' f Hf Ho.
  assert (delete "salt" (stamped (e_now (w_env w 1) 0) b) !! "name" = Some ("user/" +:+ x)) as Hn'.
  { rewrite lookup_delete_ne by done. unfold stamped. by rewrite lookup_insert_ne by done. }
  eapply (no_creds_no_save P e ord riv s' _ u x _ Hh); [|done|done|by rewrite Hs|rewrite Hs; cbn [s_master set_db]; by destruct (s_master s)|apply lookup_insert|exact Hn'|right; apply lookup_delete].
  intros w' b' H. apply lookup_insert_Some in H as [[<- <-]|[_ H]]; [eauto|]. by apply (proj1 (ready_named _ _ _ Hr) w' b').
Qed.

(** ** A world for examples *)
Definition ex_env (u : string) (i : nat) : env := mk_env (λ j, 100 + Z.of_nat (10 * i + j))%Z (λ _, 0) u (λ _ m, map_to_list m).
Definition ex_w (u : string) : world := {|
  w_P := toy; w_env := ex_env u; w_rand := se_rand; w_lower := toy_lower; w_upper := inr 65 90;
  w_url := λ v, if has_prefix v "http" then GoodUrl else NoScheme;
  w_coerce := λ u v, "otpauth://totp/" +:+ v; w_uri_ok := λ _, true; w_totp := λ v, Ok "123456"; w_time := FormatInt;
  w_keys := λ b, (map_to_list b).*1; w_editor := λ v, Exited 0 (Some (v +:+ "!")); w_abs := λ v, Some ("/home/" +:+ v);
  w_file_url := λ v, "file://" +:+ v; w_scp_url := λ u h p f pw, "scp://" +:+ u +:+ "@" +:+ h +:+ ":" +:+ p +:+ "/" +:+ f;
  w_sshkey := λ _, Some ("private", "public"); w_sync := λ _ s inp, (s, UOk tt inp) |}.
Definition ex_world : world := ex_w "u9".
(** the commands of a session draw different uuids *)
Definition ex_ws (n : nat) : world := ex_w ("v" +:+ ones n).
Lemma lower_ok n : ascii_str n → lower_fits toy_lower n.
Proof.
  intros Ha. apply ascii_lower_fits; [|done]. intros r Hr. unfold toy_lower, inr. destruct (65 <=? r)%Z eqn:E1; destruct (r <=? 90)%Z eqn:E2; simpl; [lia|..];
    replace (r =? 570)%Z with false by lia; replace (r =? 574)%Z with false by lia; lia.
Qed.
Lemma plain_ascii m : (∀ u n, called m u n → ascii_str n) → plain_names toy_lower m.
Proof. intros H u n Hc. apply H in Hc. split; [by apply ascii_valid|by apply lower_ok]. Qed.
Lemma ascii_lit n : Forall (λ c, (byteZ c < 128)%Z) (String.list_ascii_of_string n) → ascii_str n.
Proof. intros H. unfold ascii_str. rewrite Forall_forall in H. exact H. Qed.
Lemma ex_ready : ready ex_world se_single se_m.
Proof.
  split; [apply se_good|]. split; [apply se_named|]. split; [|split; [|split; [|exact se_ord]]].
  - apply plain_ascii. intros u n (b & Hb & Hn). apply one_entry in Hb as [-> ->]. apply ascii_lit. unfold se_mail in Hn. rewrite lookup_insert_ne, lookup_insert in Hn by done. injection Hn as <-. compute_dec.
  - unfold se_m. by rewrite lookup_singleton_ne by done.
  - intros i j m. reflexivity.
Qed.
Lemma ex_ready2 : ready ex_world se_multi se_m2.
Proof.
  split; [apply se_good2|]. split; [apply se_named2|]. split; [|split; [|split; [|exact se_ord]]].
  - apply plain_ascii. intros u n (b & Hb & Hn). apply ascii_lit. apply three_entries in Hb as [[-> ->]|[[-> ->]|[-> ->]]].
    + rewrite se_user_name in Hn. injection Hn as <-. compute_dec.
    + rewrite se_user_name in Hn. injection Hn as <-. compute_dec.
    + unfold se_mail in Hn. rewrite lookup_insert_ne, lookup_insert in Hn by done. injection Hn as <-. compute_dec.
  - unfold se_m2, se_m. rewrite !lookup_insert_ne by done. by rewrite lookup_singleton_ne by done.
  - intros i j m. reflexivity.
Qed.
Lemma ex_mail_name : se_mail !! "name" = Some "mail". Proof. unfold se_mail. rewrite lookup_insert_ne by done. apply lookup_insert. Qed.
Lemma ex_m_u1 : se_m !! "u1" = Some se_mail. Proof. apply lookup_singleton. Qed.
Lemma ex_picks : picks toy_lower se_m "mail" "u1". Proof. left. exists se_mail. split; [apply ex_m_u1|apply ex_mail_name]. Qed.
Lemma ex_picks2 : picks toy_lower se_m2 "mail" "u1". Proof. left. exists se_mail. split; [apply se_u1|apply ex_mail_name]. Qed.
Lemma ex_picks_alice : picks toy_lower se_m2 "user/alice" "u2". Proof. left. eexists. split; [apply se_u2|apply se_user_name]. Qed.
Lemma ex_free n : n ≠ "mail" → ∀ u, ¬ called se_m u n.
Proof. intros Hn u (b & Hb & H). apply one_entry in Hb as [-> ->]. rewrite ex_mail_name in H. congruence. Qed.
Lemma ex_free2 n : n ∉ ["mail"; "user/alice"; "user/bob"] → ∀ u, ¬ called se_m2 u n.
Proof.
  intros Hn u (b & Hb & H). apply Hn. apply three_entries in Hb as [[-> ->]|[[-> ->]|[-> ->]]]; [rewrite se_user_name in H|rewrite se_user_name in H|rewrite ex_mail_name in H]; injection H as <-; set_solver.
Qed.
