(** Proofs about whole runs of the program on a file with several users. *)
From Verif Require Import Spec_Multi Spec_Import Spec_Export Proof_TxLog Proof_Blobs Proof_Session Proof_Session2 Proof_Session3 Proof_Session5 Proof_Session6 Proof_Export Proof_Import Proof_Text3 Proof_Multi Proof_Csv Proof_Csv2 Proof_Cli Proof_Cli2 Props_Export Props_Multi.
From Coq Require Import Lia.
From stdpp Require Import options.
Import Model_GoStr.
#[local] Open Scope nat_scope.
#[local] Opaque saveBlob loadBlob.

(** A file saved by a session opens for every user with the store of the session. *)
Lemma multi_saved P s m e ord riv sa fl : prims_ok P → serves P s m → fair e → fair_results ord → s_readOnly s = false → (∀ b, riv = Some b → length b = 40) →
  saveBlob P e ord riv s = (sa, Ok (Some fl)) →
  ∀ x pass, unlocks P m (s_master s) x pass → ∀ sp rsalt r, ∃ s2, loadBlob P (Found (mk_slice fl sp)) None rsalt (ILine x :: ILine pass :: r) = UOk s2 r ∧
    same_store (s_db s) (s_db s2) ∧ serves P s2 m ∧ s_master s2 = s_master s ∧ s_readOnly s2 = false ∧ s_created s2 = false ∧ s_user s2 = x.
Proof.
  intros HP Hs He Ho Hro Hriv Es x pass Hu sp rsalt r.
  destruct (multi_reopen P s x pass m e ord riv sp rsalt r HP Hs He Ho Hro Hu Hriv) as (f & s' & s2 & E & _ & El & H1 & H2 & H3 & _ & H4 & H5 & H6 & _).
  rewrite Es in E. injection E as <- <-. exists s2. repeat (split; [done|]). done.
Qed.
Lemma multi_saves P s m e ord riv x pass : prims_ok P → serves P s m → fair e → fair_results ord → s_readOnly s = false → (∀ b, riv = Some b → length b = 40) →
  unlocks P m (s_master s) x pass → ∃ sa fl, saveBlob P e ord riv s = (sa, Ok (Some fl)).
Proof.
  intros HP Hs He Ho Hro Hriv Hu. destruct (multi_reopen P s x pass m e ord riv [] None [] HP Hs He Ho Hro Hu Hriv) as (f & s' & s2 & E & _). by exists s', f.
Qed.
Lemma same_trans d d1 d2 : same_store d d1 → same_store d1 d2 → same_store d d2.
Proof. intros (A1 & A2 & A3 & A4) (B1 & B2 & B3 & B4). unfold same_store. by rewrite B1, B2, B3, A1, A2, A3. Qed.

Lemma imports_users lower E i rs : ∀ m0 m1, imports lower E i rs m0 m1 →
  (∀ j, i ≤ j → m0 !! e_uuid (E (2 * j)) = None) → (∀ j k, e_uuid (E (2 * j)) = e_uuid (E (2 * k)) → j = k) →
  (∀ r y k, r ∈ rs → base_name lower r +:+ ones k ≠ "user/" +:+ y) → same_users m0 m1.
Proof.
  induction 1 as [i m0|i r rs m0 n m1 Hn Him IH]; intros Hf Hdj Hno; [by intros u y _|].
  assert (same_users (<[e_uuid (E (2 * i)) := imported lower (E (2 * i)) n r]> m0) m1) as Hsu.
  { apply IH; [|done|]. - intros j Hj. rewrite lookup_insert_ne; [apply Hf; lia|]. intros Heq. apply Hdj in Heq. lia.
    - intros r' y k Hr. apply Hno. by right. }
  destruct Hn as (k & Hnk & _). assert (∀ y, n ≠ "user/" +:+ y) as Hny by (intros y ->; apply (Hno r y k); [by left|done]).
  set (u0 := e_uuid (E (2 * i))) in *. intros u y Hc.
  assert (u ≠ u0) as Hne.
  { intros ->. assert (called (<[u0:=imported lower (E (2 * i)) n r]> m0) u0 ("user/" +:+ y)) as (b & Hb & Hbn).
    { destruct Hc as [(b & Hb & _)|(b & Hb & Hbn)]; [unfold u0 in Hb; by rewrite (Hf i) in Hb|].
      eapply same_called; [by apply same_users_sym|]. by exists b. }
    rewrite lookup_insert in Hb. injection Hb as <-. rewrite imported_name in Hbn. injection Hbn as Hbn. by apply (Hny y). }
  rewrite <- (lookup_insert_ne m0 u0 u (imported lower (E (2 * i)) n r)) by done. apply (Hsu u y).
  destruct Hc as [(b & Hb & Hbn)|Hc]; [left; exists b; by rewrite lookup_insert_ne by done|by right].
Qed.

Lemma imported_no_salt lower e n r : imported lower e n r !! "salt" = None.
Proof.
  unfold imported, opt_key, new_entry. repeat (destruct (decide _)); rewrite ?lookup_insert_ne by done; apply lookup_empty.
Qed.

Section runs.
  Context (o : outside) (f : flags) (s : session) (m : snapshot) (e : env) (ord : gmap string string → list (string * string)) (riv : option bytes) (sa : session) (fl sp : bytes) (x pass : string).
  Context (HP : prims_ok (o_P o)) (Hs : serves (o_P o) s m) (He : fair e) (Ho : fair_results ord) (Hro : s_readOnly s = false) (Hriv : ∀ b, riv = Some b → length b = 40).
  Context (Es : saveBlob (o_P o) e ord riv s = (sa, Ok (Some fl))) (Hd : o_disk o = Found (mk_slice fl sp)) (Hu : unlocks (o_P o) m (s_master s) x pass).
  Context (Hop : opening o f) (Ht : f_time f = "") (He2 : fair (o_env o)) (Ho2 : fair_results (o_ord o)) (b2 : bytes) (Hriv2 : o_riv o = Some b2) (Hl2 : length b2 = 40).
  #[local] Set Default Proof Using "All".

  Lemma run_opens inp : ∃ s1, loadBlob (o_P o) (o_disk o) None (o_salt o) (ILine x :: ILine pass :: inp) = UOk s1 inp ∧
    same_store (s_db s) (s_db s1) ∧ serves (o_P o) s1 m ∧ s_master s1 = s_master s ∧ s_readOnly s1 = false ∧ s_created s1 = false ∧ s_user s1 = x ∧
    bpass o f (ILine x :: ILine pass :: inp) = match work o f s1 inp with
      | (csv, UOk file _) => (mk_effects None csv file, exit_with o f None)
      | (csv, UErr x _) => (mk_effects None csv None, exit_with o f (Some x))
      | (csv, UPanic) => (mk_effects None csv None, Crashed)
      | (csv, UWait) => (mk_effects None csv None, Waiting)
      end.
  Proof.
    destruct (multi_saved _ _ _ _ _ _ _ _ HP Hs He Ho Hro Hriv Es x pass Hu sp (o_salt o) inp) as (s1 & El & H1 & H2 & H3 & H4 & H5 & H6).
    exists s1. rewrite Hd. repeat (split; [done|]).
    rewrite (bpass_opens o f None _ Hop (parse_none f Ht (proj1 (proj2 (proj2 Hop))))). rewrite Hd. cbn [history_at]. by rewrite El.
  Qed.

  Lemma multi_export inp : f_import f = false → f_export f = true → f_format f = "CSV" → o_csv o = None → fair_keys (o_keys o) →
    ∃ csv rows fl', bpass o f (ILine x :: ILine pass :: inp) = (mk_effects None (Some csv) (Some fl'), exit_with o f None) ∧
      csv = go_join "" (map csv_record rows) ∧ table_of (snap_of (s_db s)) rows ∧
      ∀ y pass', unlocks (o_P o) m (s_master s) y pass' → ∀ sp rsalt r, ∃ s2, loadBlob (o_P o) (Found (mk_slice fl' sp)) None rsalt (ILine y :: ILine pass' :: r) = UOk s2 r ∧
        same_store (s_db s) (s_db s2) ∧ serves (o_P o) s2 m ∧ s_user s2 = y.
  Proof.
    intros Hi Hx Hfo Hc Hk. destruct (run_opens inp) as (s1 & _ & Hsame & Hs1 & Hm1 & Hro1 & _ & _ & ->).
    assert (∀ b, o_riv o = Some b → length b = 40) as Hr by (intros b; rewrite Hriv2; intros [= <-]; done).
    destruct (multi_saves _ s1 m (o_env o) (o_ord o) (o_riv o) x pass HP Hs1 He2 Ho2 Hro1 Hr) as (sb & fl' & E2); [by rewrite Hm1|].
    unfold work. rewrite Hi, Hx, Hfo, Hc, E2. eexists _, (export_rows (o_env o) (o_keys o) (s_db s1)), fl'.
    split; [unfold export; cbn [negb]; reflexivity|]. split; [reflexivity|]. split; [destruct Hsame as (_ & _ & <- & _); by apply export_table|].
    intros y pass' Hy sp' rsalt r. rewrite <- Hm1 in Hy.
    destruct (multi_saved _ _ _ _ _ _ _ _ HP Hs1 He2 Ho2 Hro1 Hr E2 y pass' Hy sp' rsalt r) as (s2 & El & H1 & H2 & _ & _ & _ & H3).
    exists s2. split; [done|]. split; [by eapply same_trans|]. by split.
  Qed.

  Lemma multi_session_run (U : string → Prop) inp s1 : f_import f = false → f_export f = false → f_noSync f = true →
    (∀ n, w_P (o_w o n) = o_P o) → (∀ n, rand_ok (w_rand (o_w o n))) → (∀ n, tame U (o_w o n)) → (∀ i j, drawn (o_w o i) = drawn (o_w o j) → i = j) → (∀ n, text_world (o_w o n)) →
    (∀ t, t ∈ vis (db_log (s_db s)) → U (tx_uuid t)) → typed_text inp → (∀ cmd, cmd ∈ changing_words → never_typed cmd inp) →
    loadBlob (o_P o) (o_disk o) None (o_salt o) (ILine x :: ILine pass :: inp) = UOk s1 inp →
    ∀ s' out rest, run_repl (o_w o) s1 inp = (s', out, UOk tt rest) → (Z.of_nat (length (vis (db_log (s_db s')))) < 2 ^ 64)%Z →
    (∀ l, vis (db_log (s_db s')) = vis (db_log (s_db s)) ++ l → Forall (spares m) l) →
    ∃ fl' m', bpass o f (ILine x :: ILine pass :: inp) = (mk_effects None None (Some fl'), exit_with o f None) ∧
      good (s_db s') m' ∧ same_users m m' ∧ log_grew s s' ∧
      ∀ y pass', unlocks (o_P o) m (s_master s) y pass' → ∀ sp rsalt r, ∃ s3, loadBlob (o_P o) (Found (mk_slice fl' sp)) None rsalt (ILine y :: ILine pass' :: r) = UOk s3 r ∧
        same_store (s_db s') (s_db s3) ∧ serves (o_P o) s3 m' ∧ s_user s3 = y.
  Proof.
    intros Hi Hx Hn HwP Hr Htm Hdr Htw HU Hin Hch El s' out rest E HL Hsp.
    destruct (run_opens inp) as (s1' & El' & Hsame & Hs1 & Hm1 & Hro1 & _ & _ & ->). rewrite El in El'. injection El' as <-.
    assert (sound U s1) as Hsd.
    { split; [apply Hsame|]. split; [exists m; split; apply Hs1|]. by destruct Hsame as (-> & _). }
    assert (vis (db_log (s_db s1)) = vis (db_log (s_db s))) as Hv by apply Hsame.
    destruct (C80_users_partial (o_P o) U (o_w o) (o_w0 o) (o_w1 o) (o_env o) (o_ord o) b2 s1 m inp s' out rest) as (m' & Hg & Hsu & Hlg & H); try done.
    { by rewrite Hv. }
    rewrite Hm1 in H. destruct (H x pass Hu) as (fl' & s2 & E2 & _).
    exists fl', m'. split; [unfold work; rewrite Hi, Hx, Hn, Hriv2; cbn [negb]; by rewrite E2|]. split; [done|]. split; [done|].
    split; [destruct Hlg as [l Hlg]; exists l; by rewrite <- Hv|].
    intros y pass' Hy sp' rsalt r. destruct (H y pass' Hy) as (fl2 & s3 & E3 & _ & H3). rewrite E2 in E3. injection E3 as <- <-.
    destruct (H3 sp' rsalt r) as (s4 & H4 & H5 & H6 & H7). by exists s4.
  Qed.

  Lemma multi_import a inp rs : f_import f = true → text_import o → o_lpass o = None → csv_text (unix (o_text o)) (map fields_of (header_row :: rs)) →
    fresh_uuids (s_db s) (o_import o) → a = "y" ∨ a = "Y" → (∀ r y k, r ∈ header_row :: rs → base_name (o_lower o) r +:+ ones k ≠ "user/" +:+ y) →
    ∃ d' m', imports (o_lower o) (o_import o) 0 (header_row :: rs) m m' ∧ holds d' m' ∧ same_users m m' ∧ ((Z.of_nat (length (vis (db_log d'))) < 2 ^ 64)%Z →
      ∃ fl', bpass o f (ILine x :: ILine pass :: ILine a :: inp) = (mk_effects None None (Some fl'), exit_with o f None) ∧
        ∀ y pass', unlocks (o_P o) m (s_master s) y pass' → ∀ sp rsalt r, ∃ s3, loadBlob (o_P o) (Found (mk_slice fl' sp)) None rsalt (ILine y :: ILine pass' :: r) = UOk s3 r ∧
          same_store d' (s_db s3) ∧ serves (o_P o) s3 m' ∧ s_user s3 = y).
  Proof.
    intros Hi (Hl & Hutf & HE) Hlp Hre Hfr Ha Hno.
    destruct (run_opens (ILine a :: inp)) as (s1 & _ & Hsame & Hs1 & Hm1 & Hro1 & Hc1 & _ & ->).
    assert (Forall (Forall utf8) (map fields_of (header_row :: rs))) as Hrs'.
    { exact (utf8_csv _ _ Hre (utf8_unix (S (String.length (o_text o))) (o_text o) (Nat.lt_succ_diag_r _) Hutf)). }
    assert (vis (db_log (s_db s1)) = vis (db_log (s_db s))) as Hv by apply Hsame.
    assert (fresh_uuids (s_db s1) (o_import o)) as Hfr1.
    { destruct Hfr as [F1 F2]. split; [|done]. intros i. specialize (F1 i). unfold unused in *. by rewrite Hv. }
    pose proof Hs1 as (Hg & Hw & L1 & L2 & L3 & Htb & Hun).
    destruct (import_ok (o_lower o) (o_import o) rs (s_db s1) m (proj1 Hg) (proj1 Hw) (λ j, proj1 (HE j)) Hfr1) as (m' & d' & E1 & Him & Hh' & Htp).
    assert (importLastpass (o_lower o) (o_import o) None (map fields_of (header_row :: rs)) None s1 (ILine a :: inp) = (set_db d' s1, UOk tt inp)) as Ei.
    { unfold importLastpass, mbind, C_bind, state. rewrite Hc1. unfold mret, C_ret, ask, prompt.
      assert (String.eqb a "Y" || String.eqb a "y" = true) as -> by (by destruct Ha as [-> | ->]). cbn [negb]. unfold on_db.
      change (first_fields (map fields_of (header_row :: rs))) with 7. by rewrite E1. }
    assert (same_users m m') as Hsu.
    { eapply imports_users; [exact Him| |apply Hfr|exact Hno]. intros j _. apply (unused_lookup (s_db s1)); [apply Hg|apply Hfr1]. }
    exists d', m'. split; [done|]. split; [done|]. split; [done|]. intros HL.
    assert (good d' m') as Hg'.
    { apply clean_good; [|done|rewrite Htp; apply Hg|done]. eapply (import_clean (o_lower o) (o_import o) None _ None s1 (ILine a :: inp) (set_db d' s1)); [exact Hl|exact HE|exact Hrs'|by eapply good_clean|exact Ei]. }
    assert (serves (o_P o) (set_db d' s1) m') as Hs2.
    { split; [done|]. assert (well_named m') as Hw' by (eapply imports_unique; done). split; [done|]. do 3 (split; [done|]). split; [by eapply same_table|apply Hw']. }
    assert (∀ b, o_riv o = Some b → length b = 40) as Hr by (intros b; rewrite Hriv2; intros [= <-]; done).
    assert (∀ y p, unlocks (o_P o) m (s_master s) y p → unlocks (o_P o) m' (s_master (set_db d' s1)) y p) as Hun'.
    { intros y p Hy. change (s_master (set_db d' s1)) with (s_master s1). rewrite Hm1. by eapply same_unlocks. }
    destruct (multi_saves _ (set_db d' s1) m' (o_env o) (o_ord o) (o_riv o) x pass HP Hs2 He2 Ho2 Hro1 Hr (Hun' _ _ Hu)) as (sb & fl' & E2).
    exists fl'. split.
    - unfold work. rewrite Hi, Hlp, (proj2 (csv_reads _ _) Hre). cbn [fst snd]. unfold import_main. by rewrite Ei, E2.
    - intros y p Hy sp' rsalt r.
      destruct (multi_saved _ _ _ _ _ _ _ _ HP Hs2 He2 Ho2 Hro1 Hr E2 y p (Hun' _ _ Hy) sp' rsalt r) as (s3 & H1 & H2 & H3 & _ & _ & _ & H4). by exists s3.
  Qed.
  (** An entry called user/… that comes from the import has no credentials. *)
  Lemma multi_import_lost a inp rs r y : f_import f = true → o_lpass o = None → csv_text (unix (o_text o)) (map fields_of (header_row :: rs)) → (∀ j, fair (o_import o j)) →
    fresh_uuids (s_db s) (o_import o) → a = "y" ∨ a = "Y" → r ∈ rs → base_name (o_lower o) r = "user/" +:+ y →
    ∃ how, bpass o f (ILine x :: ILine pass :: ILine a :: inp) = (no_effects, how).
  Proof.
    intros Hi Hlp Hre HE Hfr Ha Hin Hy.
    destruct (run_opens (ILine a :: inp)) as (s1 & _ & Hsame & Hs1 & Hm1 & Hro1 & Hc1 & _ & ->).
    assert (vis (db_log (s_db s1)) = vis (db_log (s_db s))) as Hv by apply Hsame.
    assert (fresh_uuids (s_db s1) (o_import o)) as Hfr1.
    { destruct Hfr as [F1 F2]. split; [|done]. intros i. specialize (F1 i). unfold unused in *. by rewrite Hv. }
    pose proof Hs1 as (Hg & Hw & L1 & _).
    destruct (import_ok (o_lower o) (o_import o) rs (s_db s1) m (proj1 Hg) (proj1 Hw) HE Hfr1) as (m' & d' & E1 & Him & Hh' & Htp).
    assert (importLastpass (o_lower o) (o_import o) None (map fields_of (header_row :: rs)) None s1 (ILine a :: inp) = (set_db d' s1, UOk tt inp)) as Ei.
    { unfold importLastpass, mbind, C_bind, state. rewrite Hc1. unfold mret, C_ret, ask, prompt.
      assert (String.eqb a "Y" || String.eqb a "y" = true) as -> by (by destruct Ha as [-> | ->]). cbn [negb]. unfold on_db.
      change (first_fields (map fields_of (header_row :: rs))) with 7. by rewrite E1. }
    apply elem_of_list_lookup in Hin as [k Hk].
    destruct (imports_each _ _ _ _ _ _ Him (proj2 Hfr1) (S k) r Hk) as [c Hc].
    assert (∀ s' fl', saveBlob (o_P o) (o_env o) (o_ord o) (o_riv o) (set_db d' s1) ≠ (s', Ok fl')) as Hns.
    { eapply (no_creds_no_save _ _ _ _ _ m' _ (y +:+ ones c)); [exact Hh'|eapply imports_unique; [exact Him|exact Hw]|exact He2|exact Ho2|exact Hro1| |exact Hc| |].
      - change (s_master (set_db d' s1)) with (s_master s1). rewrite L1. done.
      - rewrite imported_name, Hy. by rewrite sapp_assoc.
      - right. apply imported_no_salt. }
    unfold work. rewrite Hi, Hlp, (proj2 (csv_reads _ _) Hre). cbn [fst snd]. unfold import_main. rewrite Ei.
    destruct (saveBlob (o_P o) (o_env o) (o_ord o) (o_riv o) (set_db d' s1)) as [s2 [fl'|z|]] eqn:E2; [by destruct (Hns s2 fl')|by eexists..].
  Qed.
End runs.
