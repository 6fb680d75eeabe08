(** Proofs about exports, imports and short paths. *)
From Verif Require Export Proof_Cli.
From Verif Require Import Spec_Json Spec_Main Spec_Syncing Spec_Sync Proof_GoStr Proof_Utf8 Proof_TxLog Proof_Blobs Proof_Session Proof_Session2 Proof_Session3 Proof_Session4 Proof_Session5 Proof_Session6 Proof_Repl Proof_Repl6 Proof_Export Proof_Hosts Proof_Import Proof_Text Proof_Text2 Proof_Text3 Proof_Sync2 Proof_Sync3 Proof_Sync4 Proof_Sync5 Proof_Syncing Proof_Syncing2 Proof_Syncing3 Proof_Syncing4 Props_Export Props_Syncing Props_Session Proof_Csv Proof_Csv2.
From Coq Require Import Lia.
From stdpp Require Import options.
Import Model_GoStr Proof_Utf8.
#[local] Open Scope nat_scope.
#[local] Opaque saveBlob loadBlob.

(** ** A sync leaves the snapshot up to date *)

Lemma update_full d d' : UpdateSnapshot d = (d', Ok tt) → length (vis (db_log d')) ≤ db_version d'.
Proof.
  unfold UpdateSnapshot. destruct (Nat.leb_spec (length (vis (db_log d))) (db_version d)); [by intros [= <-]|].
  destruct (apply_loop _ _ _) as [[m v] r] eqn:E. intros [= <- ->]. cbn. apply apply_loop_ok in E as [_ ->]. rewrite drop_length. lia.
Qed.
Lemma sync_full P y name s inp s' rest m : holds (s_db s) m → fair (y_env y 0) → sync_cmd P y name s inp = (s', UOk tt rest) →
  length (vis (db_log (s_db s'))) ≤ db_version (s_db s').
Proof.
  intros Hh Hf E. destruct (sync_steps _ _ _ _ _ _ _ _ Hh Hf E) as [->|H].
  - destruct (holds_update _ m Hh) as (d1 & Hu & _). unfold caught_up. rewrite Hu. cbn. by eapply update_full.
  - destruct H as (us & hosts & kept & parts & mr & inp1 & inp2 & s1 & d2 & ct & hosts2 & ps & _ & _ & _ & _ & _ & _ & d3 & E3 & ->).
    unfold saveHosts, mbind, M_bind in E3. destruct (save_loop _ _ _ _) as [d [[]|e|]]; [|by injection E3..]. cbn. by eapply update_full.
Qed.
Lemma sync_current P y name s inp s' rest (U R : string → Prop) : fair (y_env y 0) → fair_hosts y → remotes_within P y R →
  settled U s → sync_cmd P y name s inp = (s', UOk tt rest) → db_version (s_db s') = length (vis (db_log (s_db s'))).
Proof.
  intros Hf Hfh HR Hs E. pose proof (sync_steady _ _ _ _ _ _ _ _ _ Hf Hfh HR Hs E) as (_ & [m' [[Hv _] _]] & _). destruct Hs as (_ & [m Hm] & _).
  pose proof (sync_full _ _ _ _ _ _ _ _ Hm Hf E). lia.
Qed.

(** ** Short paths *)

Lemma short_one c : (byteZ c < 128)%Z → encode_rune (byteZ c) = String c "".
Proof. destruct c as [[] [] [] [] [] [] [] []]; intros H; first [reflexivity|exfalso; vm_compute in H; discriminate H]. Qed.
Lemma lacks_short p : lacks slash p → lacks slash (short_part p).
Proof.
  destruct p as [|c p]; [done|]. cbn [short_part]. intros [H _]. revert H.
  destruct c as [[] [] [] [] [] [] [] []]; intros H; vm_compute; repeat split; try discriminate. exfalso. by apply H.
Qed.
Lemma last_split c s : split_on c s = removelast (split_on c s) ++ [List.last (split_on c s) ""].
Proof. apply app_removelast_last, split_on_ne. Qed.
Lemma short_parts f : ∃ g dirs name, shortPath f = Ok g ∧ parts slash f (dirs ++ [name]) ∧ parts slash g (map short_part dirs ++ [name]).
Proof.
  unfold shortPath. pose proof (last_split slash f) as E. set (dirs := removelast (split_on slash f)) in *. set (name := List.last (split_on slash f) "") in *. clearbody dirs name.
  assert (parts slash f (dirs ++ [name])) as Hf by (apply parts_split; by rewrite E). cbv zeta.
  destruct (Nat.eqb_spec (length (split_on slash f)) 1) as [Hl|_].
  - exists f, dirs, name. split; [done|]. split; [done|]. rewrite E, app_length in Hl. cbn in Hl. destruct dirs as [|x dirs]; [|cbn in Hl; lia]. done.
  - eexists _, dirs, name. split; [done|]. split; [done|]. split; [by destruct dirs|]. split; [|done].
    destruct Hf as (_ & Hf & _). intros p [[q [-> Hq]]%elem_of_list_fmap|Hp]%elem_of_app; [apply lacks_short, Hf; set_solver|apply Hf; set_solver].
Qed.
Lemma short_ok f : plain_dirs f → ∃ g, shortPath f = Ok g ∧ shortened f g.
Proof.
  intros Hp. destruct (short_parts f) as (g & dirs & name & E & Hf & Hg). exists g. split; [done|]. exists dirs, (map short_part dirs), name. split; [done|]. split; [done|].
  assert (∀ c r, String c r ∈ dirs → (byteZ c < 128)%Z) as Hd by (intros c r Hin; by eapply Hp).
  clear -Hd. induction dirs as [|p dirs IH]; constructor; [|apply IH; intros c r H; apply (Hd c r); by right].
  destruct p as [|c p]; [by left|]. right. exists (byteZ c), p. pose proof (Hd c p ltac:(left)) as Hc. cbn [short_part]. rewrite short_one by done.
  split; [|done]. apply valid_rune_spec. pose proof (byteZ_range c). lia.
Qed.
Lemma shortened_one f g g' : shortened f g → shortened f g' → g = g'.
Proof.
  intros (d & i & n & H1 & (_ & _ & ->) & Hi) (d' & i' & n' & H2 & (_ & _ & ->) & Hi'). apply parts_split in H1, H2. rewrite <- H2 in H1. apply app_inj_tail in H1 as [-> ->].
  do 2 f_equal. clear H2. revert i' Hi'. induction Hi as [|p j d i Hp Hi IH]; intros i' Hi'; inversion Hi' as [|? j' ? k' Hp' Hk]; subst; [done|]. f_equal; [|by apply IH].
  destruct Hp as [[-> ->]|(r & t & Hr & -> & ->)], Hp' as [[E E']|(r' & t' & Hr' & E & ->)].
  - done.
  - exfalso. destruct (enc_shape r' Hr') as (c & u & Ec & _). rewrite Ec in E. discriminate E.
  - exfalso. destruct (enc_shape r Hr) as (c & u & Ec & _). rewrite Ec in E. discriminate E.
  - f_equal. assert (decode_rune (encode_rune r +:+ t) = decode_rune (encode_rune r' +:+ t')) as Ed by (by rewrite E).
    rewrite !Proof_Utf8.decode_encode in Ed by done. congruence.
Qed.

(** ** Exports *)

Lemma export_run o f s pass m fl sp inp e ord riv : prims_ok (o_P o) → good (s_db s) m → s_readOnly s = false → single_session (o_P o) s pass → length riv = 40 →
  saveBlob (o_P o) e ord (Some riv) s = (s, Ok (Some fl)) → o_disk o = Found (mk_slice fl sp) → (∃ b, o_riv o = Some b ∧ length b = 40) →
  opening o f → f_time f = "" → f_import f = false → f_export f = true → f_format f = "CSV" → o_csv o = None → fair (o_env o) → fair_keys (o_keys o) →
  ∃ csv rows fl', bpass o f (ILine pass :: inp) = (mk_effects None (Some csv) (Some fl'), exit_with o f None) ∧
    csv = go_join "" (map csv_record rows) ∧ table_of (snap_of (s_db s)) rows ∧
    ∀ sp rsalt r, ∃ s2, loadBlob (o_P o) (Found (mk_slice fl' sp)) None rsalt (ILine pass :: r) = UOk s2 r ∧ same_store (s_db s) (s_db s2) ∧ good (s_db s2) m.
Proof.
  intros HP Hg Hro Hss Hriv Es Hd (b & Hb & Hbl) Hop Ht Hi He Hfo Hc Hf Hk.
  destruct (single_reopen _ s pass m e ord riv sp (o_salt o) inp HP Hg Hro Hss Hriv) as (fl0 & s1 & E1 & El & Hsame & Hg1 & Hs1 & Hro1 & _).
  rewrite Es in E1. injection E1 as <-.
  destruct (single_reopen _ s1 pass m (o_env o) (o_ord o) b [] None [] HP Hg1 Hro1 Hs1 Hbl) as (fl' & _ & E2 & _).
  rewrite (bpass_opens o f None _ Hop (parse_none f Ht (proj1 (proj2 (proj2 Hop))))). rewrite Hd. cbn [history_at]. rewrite El.
  unfold work. rewrite Hi, He, Hfo, Hc. eexists _, (export_rows (o_env o) (o_keys o) (s_db s1)), fl'.
  split; [cbn [export negb String.eqb]; unfold export; cbn [negb]; rewrite Hb, E2; reflexivity|]. split; [reflexivity|].
  split; [destruct Hsame as (_ & _ & <- & _); by apply export_table|].
  intros sp' rsalt r. destruct (single_reopen _ s1 pass m (o_env o) (o_ord o) b sp' rsalt r HP Hg1 Hro1 Hs1 Hbl) as (fl2 & s2 & E3 & El2 & Hsame2 & Hg2 & _).
  rewrite E2 in E3. injection E3 as <-. exists s2. split; [done|]. split; [|done].
  destruct Hsame as (A1 & A2 & A3 & A4), Hsame2 as (B1 & B2 & B3 & B4). unfold same_store. by rewrite B1, B2, B3, A1, A2, A3.
Qed.
(** An export as of a time *)
Lemma export_past o f c s pass m fl sp inp e ord riv : prims_ok (o_P o) → good (s_db s) m → s_readOnly s = false → single_session (o_P o) s pass → length riv = 40 →
  saveBlob (o_P o) e ord (Some riv) s = (s, Ok (Some fl)) → o_disk o = Found (mk_slice fl sp) →
  opening o f → spelled (f_time f) c → representable c → f_import f = false → f_export f = true → f_format f = "CSV" → o_csv o = None → fair (o_env o) → fair_keys (o_keys o) →
  ∃ csv rows past m', bpass o f (ILine pass :: inp) = (mk_effects None (Some csv) None, exit_with o f None) ∧
    csv = go_join "" (map csv_record rows) ∧ history (instant c) (vis (db_log (s_db s))) past ∧ replays past m' ∧ table_of m' rows.
Proof.
  intros HP Hg Hro Hss Hriv Es Hd Hop Ht Hrep Hi He Hfo Hc Hf Hk.
  destruct (single_save_load _ s pass m e ord riv sp (o_salt o) (Some (instant c)) inp HP Hg Hro Hss Hriv) as (fl0 & d' & E1 & Hsame & E2).
  rewrite Es in E1. injection E1 as <-.
  pose proof (same_holds _ _ _ Hsame (proj1 Hg)) as Hh. destruct (rewind_ok (instant c) d' m Hh) as (d2 & m' & past & Er & H1 & H2 & H3 & H4 & _).
  rewrite (bpass_opens o f (Some c) _ Hop (parse_some f c Ht (proj1 (proj2 (proj2 Hop))))). rewrite Hd.
  assert (history_at (Some c) = Some (instant c)) as ->.
  { unfold history_at. destruct (IsZero c) eqn:E; [apply IsZero_year_one in E as ->; [unfold representable in Hrep; cbn in Hrep; lia|apply Ht]|]. f_equal. by apply (UnixNano_fits c (proj1 Ht) Hrep). }
  rewrite E2. unfold finish. rewrite Er. cbn [mbind outcome_bind of_outcome]. unfold work. rewrite Hi, He, Hfo, Hc. cbn [s_db].
  eexists _, (export_rows (o_env o) (o_keys o) d2), past, m'.
  split; [unfold export; cbn [negb]; rewrite saveBlob_read by done; reflexivity|]. split; [reflexivity|]. split; [destruct Hsame as (<- & _); done|]. split; [done|].
  rewrite <- H4. by apply export_table.
Qed.

(** ** A session that wrote something and synced at its end leaves the snapshot up to date *)

Lemma sync_start P y name s inp s' rest m : holds (s_db s) m → fair (y_env y 0) → sync_cmd P y name s inp = (s', UOk tt rest) → s_startTx s' = s_startTx s.
Proof.
  intros Hh Hf E. destruct (sync_steps _ _ _ _ _ _ _ _ Hh Hf E) as [->|H]; [done|].
  destruct H as (us & hosts & kept & parts & mr & inp1 & inp2 & s1 & d2 & ct & hosts2 & ps & _ & _ & _ & Ha & _ & _ & d3 & E3 & ->).
  apply adopt_inv in Ha as (Hme & _). by destruct Hme as (_ & _ & _ & _ & _ & _ & _ & _ & _ & Hst & _).
Qed.
Section current.
  Context (P : prims) (Q U R : string → Prop) (w : nat → world) (w0 w1 : world) (y : nat → sync_world) (y0 y1 : sync_world).
  Context (Hs : ∀ n k, w_sync (w n) k = sync_cmd P (y n) k) (Hs0 : ∀ k, w_sync w0 k = sync_cmd P y0 k) (Hs1 : ∀ k, w_sync w1 k = sync_cmd P y1 k).
  Context (Hy : ∀ n, tame_sync P R (y n)) (Hy0 : tame_sync P R y0) (Hy1 : tame_sync P R y1) (HRU : ∀ u, R u → U u).
  Context (Ht : ∀ n, tame U (w n)) (Hd : ∀ i j, drawn (w i) = drawn (w j) → i = j).
  Context (HP : ∀ n, w_P (w n) = P) (Hr : ∀ n, rand_ok (w_rand (w n))) (Hw : ∀ n, text_world (w n)).
  #[local] Set Default Proof Using "All".

  Lemma main_current e ord riv s inp s' out rest : prims_ok P → length riv = 40 → ready P Q U s inp →
    session_main P true w0 w1 w e ord (Some riv) s inp = (s', UOk out rest) → s_startTx s' ≠ length (vis (db_log (s_db s'))) →
    db_version (s_db s') = length (vis (db_log (s_db s'))) ∧ s_readOnly s' = false ∧ (∃ pass, Q pass ∧ single_session P s' pass) ∧
    clean (s_db s') ∧ db_txpoint (s_db s') = 0 ∧ (∃ m, holds (s_db s') m) ∧ ∃ f, out = Some f ∧ saveBlob P e ord (Some riv) s' = (s', Ok (Some f)).
  Proof.
    intros HPo Hl Hre. unfold session_main. destruct (auto_sync true w0 s inp) as [s1 [[] inp1|? ?| |]] eqn:E1; [|done..].
    assert (ready P Q U s1 inp1) as H1 by (eapply auto_sync_ready; [exact Hs0|exact Hy0|exact HRU|exact Hre|exact E1]).
    destruct (run_repl w s1 inp1) as [[s2 o2] [[] inp2|? ?| |]] eqn:E2; [|done..].
    destruct (repl_ready P Q U R w w0 w1 y y0 y1 Hs Hs0 Hs1 Hy Hy0 Hy1 HRU Ht Hd HP Hr Hw _ _ _ _ _ H1 E2) as [k H2]. cbv zeta.
    destruct (auto_sync _ w1 s2 inp2) as [s3 [[] inp3|? ?| |]] eqn:E3; [|done..].
    assert (ready P Q (upto U w k) s3 inp3) as H3. { eapply auto_sync_ready; [exact Hs1|exact Hy1| |exact H2|exact E3]. intros u Hu. left. by apply HRU. }
    pose proof H3 as ((H0 & [m3 Hm3] & _) & [[Hro _] (pass & Hq & Hss)] & _ & Hc & _).
    destruct (J_saved P s3 e ord riv HPo H0 Hro) as [f Ef]; [by exists pass|exact Hl|]. rewrite Ef. cbn [of_outcome]. intros [= <- <- <-] Hn.
    split; [|split; [done|]; split; [by exists pass|]; split; [done|]; split; [done|]; split; [by exists m3|]; by exists f].
    unfold auto_sync, mbind, C_bind, state in E3. pose proof H2 as (St2 & [[Hro2 _] _] & _). rewrite Hro2 in E3. cbn [negb andb] in E3.
    destruct (Nat.eqb_spec (s_startTx s2) (length (vis (db_log (s_db s2))))) as [He|He]; cbn [negb] in E3; [injection E3 as <- <-; done|].
    rewrite Hs1 in E3. destruct Hy1 as ([Hf Hfh] & _ & HR & _). eapply sync_current; [exact Hf|exact Hfh|exact HR|exact St2|exact E3].
  Qed.
End current.

(** So the next export is complete. *)
Lemma session_export P (Q U R : string → Prop) w w0 w1 y y0 y1 e ord riv s pass m0 inp s' out rest :
  (∀ n k, w_sync (w n) k = sync_cmd P (y n) k) → (∀ k, w_sync w0 k = sync_cmd P y0 k) → (∀ k, w_sync w1 k = sync_cmd P y1 k) →
  (∀ n, tame_sync P R (y n)) → tame_sync P R y0 → tame_sync P R y1 → (∀ u, R u → U u) →
  (∀ n, tame U (w n)) → (∀ i j, drawn (w i) = drawn (w j) → i = j) → (∀ n, w_P (w n) = P) → (∀ n, rand_ok (w_rand (w n))) → (∀ n, text_world (w n)) →
  prims_ok P → length riv = 40 →
  good (s_db s) m0 → (∀ t, t ∈ vis (db_log (s_db s)) → U (tx_uuid t)) →
  s_readOnly s = false → single_session P s pass → Q pass → (s_pass s = "" ∨ Q (s_pass s)) → may_open Q inp → typed_text inp →
  session_main P true w0 w1 w e ord (Some riv) s inp = (s', UOk out rest) → s_startTx s' ≠ length (vis (db_log (s_db s'))) → (Z.of_nat (length (vis (db_log (s_db s')))) < 2 ^ 64)%Z →
  ∃ fl pass' m, out = Some fl ∧ Q pass' ∧ good (s_db s') m ∧
    ∀ o f sp typed, o_P o = P → o_disk o = Found (mk_slice fl sp) → (∃ b, o_riv o = Some b ∧ length b = 40) →
      opening o f → f_time f = "" → f_import f = false → f_export f = true → f_format f = "CSV" → o_csv o = None → fair (o_env o) → fair_keys (o_keys o) →
      ∃ csv rows fl', bpass o f (ILine pass' :: typed) = (mk_effects None (Some csv) (Some fl'), exit_with o f None) ∧
        csv = go_join "" (map csv_record rows) ∧ table_of m rows.
Proof.
  intros Hs Hs0 Hs1 Hy Hy0 Hy1 HRU Ht Hd HP Hr Hw HPo Hl Hg HU Hro Hss Hq Hsp Hm Hi E Hst Hn.
  destruct (main_current P Q U R w w0 w1 y y0 y1 Hs Hs0 Hs1 Hy Hy0 Hy1 HRU Ht Hd HP Hr Hw e ord riv s inp s' out rest HPo Hl) as (Hv & Hro' & (pass' & Hq' & Hss') & Hc & H0 & [m Hh] & fl & -> & Ef); [|exact E|exact Hst|].
  { split; [split; [apply Hg|]; split; [exists m0; apply Hg|done]|]. split; [split; [done|]; by exists pass|]. split; [done|]. split; [by eapply good_clean|done]. }
  pose proof (clean_good _ _ Hc Hh H0 Hn) as Hg'. exists fl, pass', m. split; [done|]. split; [done|]. split; [done|].
  intros o f sp typed Ho Hdi Hb Hop Ht' Hi' He Hfo Hcs Hf Hk. subst P.
  destruct (export_run o f s' pass' m fl sp typed e ord riv HPo Hg' Hro' Hss' Hl Ef Hdi Hb Hop Ht' Hi' He Hfo Hcs Hf Hk) as (csv & rows & fl' & E1 & E2 & E3 & _).
  exists csv, rows, fl'. split; [done|]. split; [done|]. by rewrite (version_full _ _ Hh Hv) in E3.
Qed.

(** ** Imports *)

Lemma import_run o f s m pass inp inp1 inp2 rs b : prims_ok (o_P o) → loadBlob (o_P o) (o_disk o) None (o_salt o) inp = UOk s inp1 →
  good (s_db s) m → all_named m → s_readOnly s = false → single_session (o_P o) s pass →
  (s_created s = true ∧ inp1 = inp2) ∨ (s_created s = false ∧ ∃ a, (a = "y" ∨ a = "Y") ∧ inp1 = ILine a :: inp2) →
  o_riv o = Some b → length b = 40 → text_import o → o_lpass o = None → csv_text (unix (o_text o)) (map fields_of (header_row :: rs)) → fresh_uuids (s_db s) (o_import o) →
  opening o f → f_time f = "" → f_import f = true →
  ∃ d' m', imports (o_lower o) (o_import o) 0 (header_row :: rs) m m' ∧ holds d' m' ∧ ((Z.of_nat (length (vis (db_log d'))) < 2 ^ 64)%Z →
    ∃ fl, bpass o f inp = (mk_effects None None (Some fl), exit_with o f None) ∧
      ∀ sp rsalt r, ∃ s2, loadBlob (o_P o) (Found (mk_slice fl sp)) None rsalt (ILine pass :: r) = UOk s2 r ∧ same_store d' (s_db s2) ∧ good (s_db s2) m').
Proof.
  intros HP El Hg Ha Hro Hss Hc Hb Hbl (Hl & Hutf & HE) Hlp Hre Hfr Hop Ht Hi.
  assert (Forall (Forall utf8) (map fields_of rs)) as Hrs'.
  { pose proof (utf8_csv _ _ Hre (utf8_unix (S (String.length (o_text o))) (o_text o) (Nat.lt_succ_diag_r _) Hutf)) as H. rewrite map_cons in H. by inversion H. }
  destruct (import_saved (o_P o) (o_lower o) (o_import o) rs s inp1 inp2 (o_env o) (o_ord o) b pass m HP Hbl Hl HE Hrs' Hfr Hg Ha Hro Hss Hc) as (s' & m' & _ & Him & Hh & Hsv).
  exists (s_db s'), m'. split; [done|]. split; [done|]. intros Hlen. destruct (Hsv Hlen) as (fl & E & _ & Hop').
  exists fl. split; [|done]. rewrite (bpass_opens o f None _ Hop (parse_none f Ht (proj1 (proj2 (proj2 Hop))))). cbn [history_at]. rewrite El.
  unfold work. rewrite Hi, Hlp, (proj2 (csv_reads _ _) Hre). cbn [fst snd]. by rewrite Hb, E.
Qed.

(** ** Nothing to sync with *)
Lemma sync_alone P y s inp m pass riv : prims_ok P → good (s_db s) m → s_readOnly s = false → single_session P s pass → fair (y_env y 0) → fair_hosts y →
  y_iv y = Some riv → length riv = 40 → (∀ u b, m !! u = Some b → ¬ marked y b) →
  ∃ s', sync_cmd P y "" s inp = (s', UOk tt inp) ∧ vis (db_log (s_db s')) = vis (db_log (s_db s)) ∧ snap_of (s_db s') = m ∧ good (s_db s') m ∧ single_session P s' pass ∧
    s_readOnly s' = false ∧ s_startTx s' = s_startTx s ∧ s_pass s' = s_pass s.
Proof.
  intros HP Hg Hro Hss Hf Hfh Hiv Hl Hm.
  assert (collectSyncs y m = []) as Hc.
  { pose proof (collect_about y m Hf) as Ha. unfold about_remotes in Ha. rewrite decide_True in Ha by done. destruct Ha as [_ Hin].
    destruct (collectSyncs y m) as [|u us]; [done|]. destruct (proj1 (Hin u) ltac:(left)) as (b & Hb & Hk). by destruct (Hm u b Hb). }
  pose proof Hss as (M1 & M2 & M3 & M4). pose proof Hg as (Hh & _ & G1 & G2 & G3).
  destruct (caught_up_log s) as [El _].
  destruct (single_sync P y "" s inp m [] [] inp (merge_start (caught_up s)) inp m pass riv) as (s2 & ct & Ep & Hme & Hsn & Hg2 & Hu & Hs2 & Esv & _); try done.
  - rewrite (targets_all y (s_db s) m (proj1 Hg)). by rewrite Hc.
  - rewrite <- Hc. by apply collect_about.
  - constructor.
  - cbn [merge_start m_log]. rewrite El. apply Hh.
  - cbn [merge_start m_log]. by rewrite El.
  - cbn [merge_start m_log]. by rewrite El.
  - cbn [merge_start m_log]. by rewrite El.
  - exists s2. unfold sync_cmd, sync. rewrite Ep. cbn [receivers push_loop].
    assert (y_hosts y 1 ∅ = []) as Hh0 by (pose proof (Hfh 1 ∅) as Hp; rewrite map_to_list_empty in Hp; by symmetry in Hp; apply Permutation_nil in Hp).
    unfold on_db, saveHosts, mbind, M_bind. rewrite Hh0. cbn [save_loop]. unfold mret, M_ret. rewrite Hu. cbn [of_outcome]. unfold receivers.
    split; [by destruct s2|]. destruct Hme as (_ & Hp2 & _ & _ & _ & _ & Hv & _ & Hr & Hst & _). cbn [merge_start m_log] in Hv. rewrite El, app_nil_r in Hv.
    split; [done|]. split; [done|]. split; [done|]. split; [done|]. split; [by rewrite Hr|]. split; [done|]. done.
Qed.
