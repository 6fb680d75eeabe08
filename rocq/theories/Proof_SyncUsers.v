(** Proofs about sessions with syncing in a store with several users. *)
From Verif Require Import Proof_TxLog Proof_Blobs Proof_Utf8 Spec_SyncUsers Proof_Session Proof_Session3 Proof_Session5 Proof_Session6 Proof_Repl5 Proof_Repl7 Proof_Lines Proof_Main Proof_Text3 Proof_Sync Proof_Sync2 Proof_Sync3 Proof_Syncing Proof_Syncing2 Proof_Syncing3 Proof_Multi Proof_Runs.
From Coq Require Import Lia.
From stdpp Require Import options.
Import Model_GoStr.
#[local] Open Scope nat_scope.

(** Remotes with the session's own master key: nothing changes but the log. *)
Lemma merge_same_master e s l : s_master s ≠ [] → Forall (λ p, Master (b_params p) = Some (s_master s)) l →
  ∀ inp mr rest, mergeBlobs e s l inp = UOk mr rest → creds_of_session s mr.
Proof.
  intros Hm Hl inp mr rest. unfold mergeBlobs.
  cut (∀ m0, creds_of_session s m0 → merge_parts e (s_key s) (s_master s) m0 l inp = UOk mr rest → creds_of_session s mr).
  { intros H. apply H. done. }
  revert inp. induction Hl as [|p l Hpm _ IH]; intros inp m0 H0; cbn [merge_parts].
  - intros H. by apply UOk_inj in H as [<- <-].
  - intros H. apply ubind_ok in H as (m2 & inp1 & E & H). apply merge_one_ok in E as (merged & inp2 & take & E1 & E2 & Hm2).
    assert (take = false) as ->.
    { revert E2. unfold take_remote, remote_master. rewrite Hpm. cbn [nil_bytes]. rewrite Nat.eqb_refl. cbn [negb].
      assert ((length (s_master s) =? 0) = false) as -> by (destruct (s_master s); done). cbn [andb].
      rewrite decide_True by done. intros E. by apply UOk_inj in E as [<- _]. }
    subst m2. by eapply IH in H.
Qed.
Lemma sync_keys P y name s inp s' rest m M I K : holds (s_db s) m → fair (y_env y 0) → remotes_share P y M → M ≠ [] →
  holds_keys M I K s → sync_cmd P y name s inp = (s', UOk tt rest) → holds_keys M I K s' ∧ s_user s' = s_user s ∧ s_pass s' = s_pass s ∧ s_salt s' = s_salt s.
Proof.
  intros Hh Hf Hsh HM (K1 & K2 & K3 & K4) E. destruct (sync_steps _ _ _ _ _ _ _ _ Hh Hf E) as [->|Hs]; [done|].
  destruct Hs as (us & hosts & kept & parts & mr & inp1 & inp2 & s1 & d2 & ct & hosts2 & ps & Hus & E1 & Em & Ea & Es & Ep & d3 & Es2 & ->).
  apply adopt_inv in Ea as (Hm & _). destruct Hm as (A1 & A2 & A3 & A4 & A5 & A6 & A7 & A8 & A9 & A10 & A11).
  assert (creds_of_session (caught_up s) mr) as (B1 & B2 & B3 & B4 & B5 & B6).
  { eapply merge_same_master; [|apply Forall_forall|exact Em].
    - change (s_master (caught_up s)) with (s_master s). by rewrite K2.
    - intros p Hp. destruct (pull_loop_parts _ _ _ _ _ _ _ _ _ _ E1 p Hp) as (ct' & v & pt & sl & Hct & Hd & Hn & _).
      change (s_master (caught_up s)) with (s_master s). rewrite K2. apply (Hsh ct' (b_params p) pt); [done|]. by eexists _, _, _, _, _. }
  unfold holds_keys. cbn [s_readOnly s_master s_ivm s_key s_user s_pass s_salt set_db].
  rewrite A9, A5, A6, A3, A1, A2, A4, B1, B2, B3, B4, B5, B6. done.
Qed.

(** ** A whole session *)
Section whole.
  Context (P : prims) (U R : string → Prop) (M I K : bytes) (w : nat → world) (w0 w1 : world) (y : nat → sync_world) (y0 y1 : sync_world).
  Context (HM : M ≠ []).
  Context (Hs : ∀ n k, w_sync (w n) k = sync_cmd P (y n) k) (Hs0 : ∀ k, w_sync w0 k = sync_cmd P y0 k) (Hs1 : ∀ k, w_sync w1 k = sync_cmd P y1 k).
  Context (Hy : ∀ n, tame_users P R M (y n)) (Hy0 : tame_users P R M y0) (Hy1 : tame_users P R M y1) (HRU : ∀ u, R u → U u).
  Context (Ht : ∀ n, tame U (w n)) (Hd : ∀ i j, drawn (w i) = drawn (w j) → i = j) (Hw : ∀ n, text_world (w n)).
  #[local] Set Default Proof Using "All".
  Definition spared (inp : list input) : Prop := ∀ cmd, cmd ∈ changing_words → cmd ≠ "sync" → never_typed cmd inp.
  Definition uready (V : string → Prop) (s : session) (inp : list input) : Prop := settled V s ∧ holds_keys M I K s ∧ spared inp ∧ clean (s_db s) ∧ typed_text inp.
  Lemma spared_suffix inp rest : rest `suffix_of` inp → spared inp → spared rest.
  Proof. intros Hr H cmd H1 H2. eapply never_suffix; [exact Hr|by apply H]. Qed.
  Lemma uready_mono (V V' : string → Prop) s inp : (∀ u, V u → V' u) → uready V s inp → uready V' s inp.
  Proof. intros H ((H1 & H2 & H3) & H4). split; [|done]. split; [done|]. split; [done|]. intros t Hin. by apply H, H3. Qed.
  Lemma sync_uready V y' name s inp s' rest : tame_users P R M y' → uready V s inp → sync_cmd P y' name s inp = (s', UOk tt rest) → uready (λ u, V u ∨ R u) s' rest.
  Proof.
    intros ([Hf Hfh] & Ho & HR & Hsh & Hty) (Hst & HJ & Hm & Hc & Hi) E.
    assert (rest `suffix_of` inp) as Hsu. { pose proof (reads_sync P y' name Ho _ _ _ _ E) as H. exact H. }
    pose proof Hst as (H0 & [m Hh] & _). split; [by eapply sync_steady|]. split; [by eapply sync_keys|].
    split; [by eapply spared_suffix|]. split; [eapply sync_text; [exact Hh|exact Hf|exact Hfh|exact Hty|exact H0|exact Hc|exact Hi|exact E]|]. by eapply typed_suffix.
  Qed.
  Lemma auto_uready (V : string → Prop) b w' y' s inp s' rest : (∀ k, w_sync w' k = sync_cmd P y' k) → tame_users P R M y' → (∀ u, R u → V u) →
    uready V s inp → auto_sync b w' s inp = (s', UOk tt rest) → uready V s' rest.
  Proof.
    intros Hw' Hy' HRV Hr. unfold auto_sync. intros E. apply C_inv in E as (s2 & a & r1 & E1 & E). injection E1 as <- <- <-.
    destruct (negb (s_readOnly s) && b); [|injection E as <- <-; done]. rewrite Hw' in E.
    eapply uready_mono; [|eapply sync_uready; [exact Hy'|exact Hr|exact E]]. intros u [?|?]; [done|by apply HRV].
  Qed.
  Lemma exec_keys n ctx c s line inp s' a rest : settled (upto U w n) s → holds_keys M I K s → spared (ILine line :: inp) → parse_line (s_readOnly s) ctx line = Run c →
    exec (w n) ctx c s inp = (s', UOk a rest) → holds_keys M I K s'.
  Proof.
    intros Hst HJ Hm Ep E. destruct (is_sync_cmd c) as [[k ->]|Hc].
    - cbn [exec] in E. unfold silent in E. apply C_inv in E as (s2 & [] & r1 & E1 & E). unfold mret, C_ret in E. injection E as <- _ _. rewrite Hs in E1.
      destruct Hst as (_ & [m Hh] & _). destruct (Hy n) as ([Hf _] & _ & _ & Hsh & _). by eapply sync_keys.
    - assert (¬ changing c) as Hch.
      { intros Hch. destruct (changing_word _ _ _ _ Ep Hch) as (cmd & Hh & Hcw). destruct (decide (cmd = "sync")) as [->|Hne].
        - destruct (Fields (TrimSpace line)) as [|? fs] eqn:Ef; [done|]. injection Hh as ->. pose proof (proj1 (parse_means _ _ _ _ _ _ Ef) Ep) as [Hmn _]. inversion Hmn; subst; try discriminate; first [exfalso; exact Hch|destruct Hc; eexists; reflexivity].
        - by apply (Hm cmd Hcw Hne line (elem_of_list_here _ _)). }
      destruct (K_exec (holds_keys M I K) (λ d s0 H0, H0) (w n) ctx c Hch s inp s' (UOk a rest) HJ E) as [H _]. by apply (H a rest).
  Qed.
  Lemma repl_uready s inp s' o rest : uready U s inp → run_repl w s inp = (s', o, UOk tt rest) → ∃ k, uready (upto U w k) s' rest.
  Proof.
    intros (H1 & H2 & H3 & H4 & H5) E.
    assert (∀ n k, reads (w_sync (w n) k)) as Hrd by (intros n k; rewrite Hs; apply reads_sync, Hy).
    destruct (loop_inv w (λ n ctx s inp, settled (upto U w n) s ∧ (holds_keys M I K s ∧ spared inp) ∧ clean (s_db s) ∧ utf8 ctx ∧ typed_text inp)) with (4 := E) as (k & ctx' & A1 & [A2 A3] & A4 & A5 & A6).
    - intros n ctx s2 i r (B1 & [B2 B3] & B4 & B5 & B6). split; [done|]. split; [split; [done|]; eapply spared_suffix; [|done]; by apply suffix_cons_r|]. split; [done|]. split; [done|].
      eapply typed_suffix; [|done]. by apply suffix_cons_r.
    - intros n ctx s2 line rest1 c s3 ctx' o' rest' (B1 & [B2 B3] & B4 & B5 & B6) Ep E'.
      split; [|split; [split|]].
      + eapply (exec_steady P U R w y); try done; intros n'; destruct (Hy n') as (? & ? & ? & ? & ?); done.
      + by eapply exec_keys.
      + eapply spared_suffix; [|exact B3]. etransitivity; [|by apply suffix_cons_r]. eapply exec_suffix; [|exact E']. intros k _. apply Hrd.
      + eapply (exec_clean P U R w y); try done; intros n'; destruct (Hy n') as (? & ? & ? & ? & ?); done.
    - split; [split; [apply H1|]; split; [apply H1|]; intros t Hin; left; by apply H1|]. split; [done|]. split; [done|]. split; [apply utf8_empty|done].
    - by exists k.
  Qed.
  Lemma main_uready b e ord riv s inp s' out rest : uready U s inp → session_main P b w0 w1 w e ord riv s inp = (s', UOk out rest) →
    ∃ k s3, uready (upto U w k) s3 rest ∧ saveBlob P e ord riv s3 = (s', Ok out).
  Proof.
    intros Hre. unfold session_main. destruct (auto_sync b w0 s inp) as [s2 [[] inp1|? ?| |]] eqn:E1; [|done..].
    assert (uready U s2 inp1) as H1 by (eapply auto_uready; [exact Hs0|exact Hy0|exact HRU|exact Hre|exact E1]).
    destruct (run_repl w s2 inp1) as [[s3 o2] [[] inp2|? ?| |]] eqn:E2; [|done..]. destruct (repl_uready _ _ _ _ _ H1 E2) as [k H2].
    set (wr := negb (s_startTx s3 =? length (vis (db_log (s_db s3))))%nat). cbv zeta.
    destruct (auto_sync (b && wr) w1 s3 inp2) as [s4 [[] inp3|? ?| |]] eqn:E3; [|done..].
    assert (uready (upto U w k) s4 inp3) as H3. { eapply auto_uready; [exact Hs1|exact Hy1| |exact H2|exact E3]. intros u Hu. left. by apply HRU. }
    destruct (saveBlob P e ord riv s4) as [s5 [x|x|]] eqn:E4; cbn [of_outcome]; [|done..]. intros [= <- <- <-]. by exists k, s4.
  Qed.
  Lemma main_users b e ord riv s inp s' out rest : prims_ok P → length riv = 40 → length M = 80 → length I = 40 → K = [] ∨ length K = 80 → fair e → fair_results ord →
    uready U s inp → session_main P b w0 w1 w e ord (Some riv) s inp = (s', UOk out rest) →
    ∃ s3 m3, saveBlob P e ord (Some riv) s3 = (s', Ok out) ∧ holds (s_db s3) m3 ∧ holds_keys M I K s3 ∧ (∃ k, ∀ t, t ∈ vis (db_log (s_db s3)) → upto U w k (tx_uuid t)) ∧
      ((Z.of_nat (length (vis (db_log (s_db s3)))) < 2 ^ 64)%Z → well_named m3 → table_ok P m3 → serves P s3 m3 ∧
       ∀ x pass, unlocks P m3 M x pass → ∃ f, out = Some f ∧
       ∀ sp rsalt r, ∃ s2, loadBlob P (Found (mk_slice f sp)) None rsalt (ILine x :: ILine pass :: r) = UOk s2 r ∧ same_store (s_db s3) (s_db s2) ∧ serves P s2 m3 ∧
         s_master s2 = M ∧ s_user s2 = x).
  Proof.
    intros HPo Hl HlM HlI HlK He Ho Hre E. destruct (main_uready _ _ _ _ _ _ _ _ _ Hre E) as (k & s3 & (St & HJ & _ & Hc & _) & Esv).
    destruct St as (H0 & [m Hh] & Hu). exists s3, m. split; [done|]. split; [done|]. split; [done|]. split; [by exists k|]. intros Hn Hwn Htab.
    pose proof (clean_good _ _ Hc Hh H0 Hn) as Hg. destruct HJ as (K1 & K2 & K3 & K4).
    assert (serves P s3 m) as Hsv. { split; [done|]. split; [done|]. unfold multi_session. rewrite K2, K3, K4. repeat (split; [done|]). apply Hwn. }
    split; [done|]. intros x pass Hx. rewrite <- K2 in Hx. destruct (multi_saves P s3 m e ord (Some riv) x pass HPo Hsv He Ho K1) as (sa & fl & Es); [by intros b0 [= <-]|done|].
    pose proof Esv as Esv'. rewrite Es in Esv'. injection Esv' as -> <-. exists fl. split; [done|]. intros sp rsalt r.
    destruct (multi_saved P s3 m e ord (Some riv) s' fl HPo Hsv He Ho K1) with (2 := Es) (3 := Hx) (sp := sp) (rsalt := rsalt) (r := r) as (s2 & A1 & A2 & A3 & A4 & A5 & A6 & A7); [by intros b0 [= <-]|].
    exists s2. split; [done|]. split; [done|]. split; [done|]. split; [by rewrite A4|done].
  Qed.
  (** A session that has come to its end is saved, if somebody can still log in. *)
  Lemma main_users_failed b e ord riv s inp s' x rest : prims_ok P → length riv = 40 → length M = 80 → length I = 40 → K = [] ∨ length K = 80 → fair e → fair_results ord →
    uready U s inp → session_main P b w0 w1 w e ord (Some riv) s inp = (s', UErr x rest) →
    auto_sync b w0 s inp = (s', UErr x rest) ∨ ∃ s1 inp1, auto_sync b w0 s inp = (s1, UOk tt inp1) ∧
      ((∃ o, run_repl w s1 inp1 = (s', o, UErr x rest)) ∨
       ∃ s2 o inp2, run_repl w s1 inp1 = (s2, o, UOk tt inp2) ∧
         (auto_sync true w1 s2 inp2 = (s', UErr x rest) ∨
          ∃ s3 m3, holds (s_db s3) m3 ∧ holds_keys M I K s3 ∧ saveBlob P e ord (Some riv) s3 = (s', Fail x) ∧
            ¬ ((Z.of_nat (length (vis (db_log (s_db s3)))) < 2 ^ 64)%Z ∧ well_named m3 ∧ table_ok P m3 ∧ ∃ z pw, unlocks P m3 M z pw))).
  Proof.
    intros HPo Hl HlM HlI HlK He Ho Hre. unfold session_main. destruct (auto_sync b w0 s inp) as [s1 [[] inp1|? ?| |]] eqn:E1; [|intros [= <- <- <-]; by left|done|done].
    intros E. right. exists s1, inp1. split; [done|].
    assert (uready U s1 inp1) as H1 by (eapply auto_uready; [exact Hs0|exact Hy0|exact HRU|exact Hre|exact E1]).
    destruct (run_repl w s1 inp1) as [[s2 o2] [[] inp2|? ?| |]] eqn:E2; [|left; exists o2; congruence|done|done]. right. exists s2, o2, inp2. split; [done|].
    destruct (repl_uready _ _ _ _ _ H1 E2) as [k H2]. cbv zeta in E.
    set (wr := b && negb (s_startTx s2 =? length (vis (db_log (s_db s2))))%nat) in E.
    destruct (auto_sync wr w1 s2 inp2) as [s3 [[] inp3|? ?| |]] eqn:E3; [| |done|done].
    - right. assert (uready (upto U w k) s3 inp3) as (St & HJ & _ & Hc & _).
      { eapply auto_uready; [exact Hs1|exact Hy1| |exact H2|exact E3]. intros u Hu. left. by apply HRU. }
      destruct St as (H0 & [m Hh] & Hu). exists s3, m. split; [done|]. split; [done|].
      destruct (saveBlob P e ord (Some riv) s3) as [s5 [z|z|]] eqn:E4; cbn [of_outcome] in E; [discriminate E| |discriminate E].
      injection E as <- <- <-. split; [done|]. intros (Hn & Hwn & Htab & zz & pw & Hz).
      pose proof (clean_good _ _ Hc Hh H0 Hn) as Hg. destruct HJ as (K1 & K2 & K3 & K4).
      assert (serves P s3 m) as Hsv. { split; [done|]. split; [done|]. unfold multi_session. rewrite K2, K3, K4. repeat (split; [done|]). apply Hwn. }
      rewrite <- K2 in Hz. destruct (multi_saves P s3 m e ord (Some riv) zz pw HPo Hsv He Ho K1) as (sa & fl & Es); [by intros b0 [= <-]|done|]. congruence.
    - left. injection E as -> -> ->. destruct wr; [done|]. exfalso. unfold auto_sync, mbind, C_bind, state in E3. rewrite andb_false_r in E3. discriminate E3.
  Qed.
End whole.
