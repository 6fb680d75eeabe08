(** Proofs about two runs on one file. *)
From Verif Require Import Spec_Windows Spec_Main Proof_TxLog Proof_Blobs Proof_Session Proof_Session2 Proof_Session3 Proof_Session5 Proof_Multi Proof_Session6 Proof_Repl6 Proof_Main Proof_Cli Proof_Cli2 Proof_Text3 Proof_Repl5 Proof_Repl7 Spec_Lines Proof_Runs.
From Coq Require Import Lia.
From stdpp Require Import options.
Import Model_GoStr.
#[local] Open Scope nat_scope.
#[local] Opaque saveBlob loadBlob key_of.

Lemma no_sync w s inp : auto_sync false w s inp = (s, UOk tt inp).
Proof. unfold auto_sync. rewrite (C_ok _ _ _ _ s s inp) by done. by rewrite andb_false_r. Qed.
Lemma idle_main P w0 w1 w e ord riv s rest : session_main P false w0 w1 w e ord riv s (IErr EEnd :: rest) =
  ((saveBlob P e ord riv s).1, of_outcome (saveBlob P e ord riv s).2 rest).
Proof.
  unfold session_main. rewrite no_sync. change (run_repl w s (IErr EEnd :: rest)) with (s, @nil out, UOk tt rest).
  cbv beta iota zeta. cbn [andb]. rewrite no_sync. by destruct (saveBlob P e ord riv s).
Qed.

Lemma idle_run v s m pass d : prims_ok (o_P (v_o v)) → solo_file (o_P (v_o v)) s m pass d → idle v pass →
  ∃ fl, x_file (run_on v d).1 = Some fl ∧ has_store (o_P (v_o v)) (Found (mk_slice fl [])) pass (s_db s) m.
Proof.
  intros HP (Hg & Hro & Hss & e & ord & riv & fl & sp & Hl & Es & ->) (Hop & Ht & Hi & He & Hn & (b & Hb & Hbl) & rest & Hin).
  destruct (single_reopen _ s pass m e ord riv sp (o_salt (v_o v)) (IErr EEnd :: rest) HP Hg Hro Hss Hl) as (fl0 & s1 & E1 & El & Hsame & Hg1 & Hs1 & Hro1 & _).
  rewrite Es in E1. injection E1 as <-.
  destruct (single_reopen _ s1 pass m (o_env (v_o v)) (o_ord (v_o v)) b [] None [] HP Hg1 Hro1 Hs1 Hbl) as (fl' & _ & E2 & _).
  exists fl'. split.
  - unfold run_on. rewrite (bpass_opens _ _ None _ (Hop : opening (other_disk (v_o v) (Found (mk_slice fl sp))) (v_f v)) (parse_none _ Ht (proj1 (proj2 (proj2 Hop))))).
    unfold other_disk. cbn [o_P o_disk o_salt]. cbn [history_at]. rewrite Hin, El. unfold work. rewrite Hi, He, Hn. cbn [negb o_P o_w0 o_w1 o_w o_env o_ord o_riv].
    rewrite idle_main, Hb, E2. reflexivity.
  - intros rsalt r. destruct (single_reopen _ s1 pass m (o_env (v_o v)) (o_ord (v_o v)) b [] rsalt r HP Hg1 Hro1 Hs1 Hbl) as (fl2 & s2 & E3 & El2 & Hsame2 & Hg2 & _).
    rewrite E2 in E3. injection E3 as <-. exists s2. split; [done|]. split; [by eapply same_trans|done].
Qed.

Lemma later_run v s m pass d (U : string → Prop) inp s1 s' out rest : prims_ok (o_P (v_o v)) → solo_file (o_P (v_o v)) s m pass d → well_named m →
  opening (v_o v) (v_f v) → f_time (v_f v) = "" → f_import (v_f v) = false → f_export (v_f v) = false → f_noSync (v_f v) = true → (∃ b, o_riv (v_o v) = Some b ∧ length b = 40) →
  v_inp v = ILine pass :: inp →
  (∀ n, w_P (o_w (v_o v) n) = o_P (v_o v)) → (∀ n, rand_ok (w_rand (o_w (v_o v) n))) → (∀ n, tame U (o_w (v_o v) n)) →
  (∀ i j, drawn (o_w (v_o v) i) = drawn (o_w (v_o v) j) → i = j) → (∀ n, text_world (o_w (v_o v) n)) →
  (∀ t, t ∈ vis (db_log (s_db s)) → U (tx_uuid t)) → typed_text inp → never_typed "sync" inp → never_typed "adduser" inp → never_typed "passwd" inp →
  loadBlob (o_P (v_o v)) d None (o_salt (v_o v)) (ILine pass :: inp) = UOk s1 inp →
  run_repl (o_w (v_o v)) s1 inp = (s', out, UOk tt rest) → (Z.of_nat (length (vis (db_log (s_db s')))) < 2 ^ 64)%Z →
  ∃ fl m', x_file (run_on v d).1 = Some fl ∧ log_grew s s' ∧ has_store (o_P (v_o v)) (Found (mk_slice fl [])) pass (s_db s') m' ∧
    solo_file (o_P (v_o v)) s' m' pass (Found (mk_slice fl [])) ∧ well_named m'.
Proof.
  intros HP (Hg & Hro & Hss & e & ord & riv & fl & sp & Hl & Es & ->) Hnm Hop Ht Hi He Hn (b & Hb & Hbl) Hin HwP Hr Htm Hdr Htw HU Hty N1 N2 N3 El E HL.
  destruct (single_reopen _ s pass m e ord riv sp (o_salt (v_o v)) inp HP Hg Hro Hss Hl) as (fl0 & s1' & E1 & El' & Hsame & Hg1 & Hs1 & Hro1 & _ & _ & Hp1).
  rewrite Es in E1. injection E1 as <-. rewrite El in El'. injection El' as <-.
  assert (vis (db_log (s_db s1)) = vis (db_log (s_db s))) as Hv by apply Hsame.
  assert (sound U s1) as Hsd.
  { split; [apply Hsame|]. split; [exists m; split; [apply Hg1|done]|]. by rewrite Hv. }
  destruct (main_text (o_P (v_o v)) (λ p, p = pass) U (o_w (v_o v)) (o_w0 (v_o v)) (o_w1 (v_o v)) (o_env (v_o v)) (o_ord (v_o v)) b s1 inp s' out rest m) as (f & p & m' & -> & Em & Hlg & Hg' & Hx); try done.
  { split; [split; [done|by right]|]. by exists pass. }
  { repeat split; try done. by left. }
  assert (sound (upto U (o_w (v_o v)) 0) s1) as Hs0 by (eapply sound_mono; [|done]; by left).
  destruct (loop_whole (o_P (v_o v)) (λ p, p = pass) U (o_w (v_o v)) HwP Hr Htm Hdr _ _ _ _ _ _ _ _ _ Hs0
    (conj (conj Hro1 (or_intror Hp1)) (ex_intro _ pass (conj eq_refl Hs1))) (conj N1 (conj N2 (or_introl N3))) E) as (k & Hk & _).
  destruct (Hk _ eq_refl) as ((_ & (mn & Hmn & Hwn) & _) & ((Hro' & _) & p & -> & Hss') & _).
  assert (∃ q, saveBlob (o_P (v_o v)) (o_env (v_o v)) (o_ord (v_o v)) (Some b) s' = (s', Ok (Some q))) as [q Eq].
  { destruct (single_reopen _ s' pass m' (o_env (v_o v)) (o_ord (v_o v)) b [] None [] HP Hg' Hro' Hss' Hbl) as (q & _ & Eq & _). by exists q. }
  pose proof Em as Em'. unfold session_main in Em'. rewrite no_sync, E in Em'. cbv beta iota zeta in Em'. cbn [andb] in Em'. rewrite no_sync, Eq in Em'.
  assert (q = f) as -> by (cbn in Em'; congruence).
  assert (mn = m') as -> by (destruct Hmn as [_ R1]; destruct Hg' as [[_ R2] _]; by eapply replays_det).
  exists f, m'. split; [|split; [|split; [|split; [|done]]]].
  - unfold run_on. rewrite (bpass_opens _ _ None _ (Hop : opening (other_disk (v_o v) (Found (mk_slice fl sp))) (v_f v)) (parse_none _ Ht (proj1 (proj2 (proj2 Hop))))).
    unfold other_disk. cbn [o_P o_disk o_salt]. cbn [history_at]. rewrite Hin, El. unfold work. rewrite Hi, He, Hn. cbn [negb o_P o_w0 o_w1 o_w o_env o_ord o_riv].
    rewrite Hb, Em. reflexivity.
  - destruct Hlg as [l Hlg]. exists l. by rewrite <- Hv.
  - intros rsalt r. apply Hx.
  - split; [done|]. split; [done|]. split; [done|]. exists (o_env (v_o v)), (o_ord (v_o v)), b, f, []. by rewrite Eq.
Qed.

(** ** Two users' windows *)
Lemma idle_users v s m x pass d : prims_ok (o_P (v_o v)) → users_file (other_disk (v_o v) d) s m → can_save (v_o v) → unlocks (o_P (v_o v)) m (s_master s) x pass →
  opening (v_o v) (v_f v) → f_time (v_f v) = "" → f_import (v_f v) = false → f_export (v_f v) = false → f_noSync (v_f v) = true →
  (∃ rest, v_inp v = ILine x :: ILine pass :: IErr EEnd :: rest) →
  ∃ fl, x_file (run_on v d).1 = Some fl ∧ opens_for_all (o_P (v_o v)) s m m (s_db s) fl.
Proof.
  intros HP (Hs & Hro & e & ord & riv & sa & fl & sp & He & Ho & Hl & Es & Hd) (He2 & Ho2 & b & Hb & Hbl) Hu Hop Ht Hi Hx Hn (rest & Hin).
  cbn [other_disk o_P o_disk] in *. subst d.
  assert (∀ c, Some riv = Some c → length c = 40) as Hl' by (by intros c [= <-]).
  destruct (run_opens (other_disk (v_o v) (Found (mk_slice fl sp))) (v_f v) s m e ord (Some riv) sa fl sp x pass HP Hs He Ho Hro Hl' Es eq_refl Hu Hop Ht He2 Ho2 b Hb Hbl (IErr EEnd :: rest))
    as (s1 & _ & Hsame & Hs1 & Hm1 & Hro1 & _ & _ & E).
  assert (∀ c, o_riv (v_o v) = Some c → length c = 40) as Hr by (intros c; rewrite Hb; intros [= <-]; done).
  destruct (multi_saves _ s1 m (o_env (v_o v)) (o_ord (v_o v)) (o_riv (v_o v)) x pass HP Hs1 He2 Ho2 Hro1 Hr) as (sb & fl' & E2); [by rewrite Hm1|].
  exists fl'. split.
  - unfold run_on. rewrite Hin, E. unfold work. rewrite Hi, Hx, Hn. cbn [negb other_disk o_P o_w0 o_w1 o_w o_env o_ord o_riv]. rewrite idle_main, E2. reflexivity.
  - intros y pass' Hy sp' rsalt r. rewrite <- Hm1 in Hy.
    destruct (multi_saved _ _ _ _ _ _ _ _ HP Hs1 He2 Ho2 Hro1 Hr E2 y pass' Hy sp' rsalt r) as (s2 & El & H1 & H2 & _ & _ & _ & H3).
    exists s2. split; [done|]. split; [by eapply same_trans|]. by split.
Qed.

Lemma edited_run (U : string → Prop) v s m pass d inp s' : prims_ok (o_P (v_o v)) → solo_file (o_P (v_o v)) s m pass d → well_named m → (∀ t, t ∈ vis (db_log (s_db s)) → U (tx_uuid t)) →
  editing U v pass inp → commands_on v d inp s' →
  ∃ m', log_grew s s' ∧ has_store (o_P (v_o v)) (after d v) pass (s_db s') m' ∧ solo_file (o_P (v_o v)) s' m' pass (after d v) ∧ well_named m'.
Proof.
  intros HP Hf Hnm HU (A1 & A2 & A3 & A4 & A5 & A6 & A7 & A8 & A9 & A10 & A11 & A12 & A13 & A14 & A15 & A16) (s1 & out & rest & El & E & HL). rewrite A7 in El.
  destruct (later_run v s m pass d U inp s1 s' out rest) as (fl & m' & Hx & H1 & H2 & H3); try done.
  exists m'. unfold after, left_by. rewrite Hx. done.
Qed.
