(** A whole session with syncing. *)
From Verif Require Import Proof_TxLog Proof_GoStr Proof_Crypt5 Proof_Session Proof_Session2 Spec_Syncing Proof_Session3 Proof_Session5 Proof_Session6 Proof_Repl7 Proof_Main Proof_Text3 Proof_Sync Proof_Sync2 Proof_Sync3 Proof_Syncing Proof_Syncing2.
From Coq Require Import Lia.
From stdpp Require Import options.
Import Model_GoStr.
#[local] Open Scope nat_scope.

(** What every part of a session keeps *)
Definition ready (P : prims) (Q V : string → Prop) (s : session) (inp : list input) : Prop :=
  settled V s ∧ JQ P Q s ∧ may_open Q inp ∧ clean (s_db s) ∧ typed_text inp.
Lemma ready_mono P Q (V V' : string → Prop) s inp : (∀ u, V u → V' u) → ready P Q V s inp → ready P Q V' s inp.
Proof. intros H ((H1 & H2 & H3) & H4). split; [|done]. split; [done|]. split; [done|]. intros t Ht. by apply H, H3. Qed.
Lemma sync_ready P Q (V R : string → Prop) y name s inp s' rest : tame_sync P R y → ready P Q V s inp → sync_cmd P y name s inp = (s', UOk tt rest) →
  ready P Q (λ u, V u ∨ R u) s' rest.
Proof.
  intros ([Hf Hfh] & Ho & HR & Hsi & Hty) (Hs & HJ & Hm & Hc & Hi) E.
  assert (rest `suffix_of` inp) as Hsu. { pose proof (reads_sync P y name Ho _ _ _ _ E) as H. exact H. }
  pose proof Hs as (H0 & [m Hh] & _). split; [by eapply sync_steady|]. split; [eapply sync_JQ; [exact Hh|exact Hf|exact Hfh|exact Ho|exact Hsi|apply Hm|exact HJ|exact E]|].
  split; [by eapply may_suffix|]. split; [eapply sync_text; [exact Hh|exact Hf|exact Hfh|exact Hty|exact H0|exact Hc|exact Hi|exact E]|]. by eapply typed_suffix.
Qed.
Lemma auto_sync_ready P Q (V R : string → Prop) b w y s inp s' rest : (∀ k, w_sync w k = sync_cmd P y k) → tame_sync P R y → (∀ u, R u → V u) →
  ready P Q V s inp → auto_sync b w s inp = (s', UOk tt rest) → ready P Q V s' rest.
Proof.
  intros Hw Hy HRV Hr. unfold auto_sync. intros E. apply C_inv in E as (s1 & a & r1 & E1 & E). injection E1 as <- <- <-.
  destruct (negb (s_readOnly s) && b); [|injection E as <- <-; done]. rewrite Hw in E.
  eapply ready_mono; [|eapply sync_ready; [exact Hy|exact Hr|exact E]]. intros u [?|?]; [done|by apply HRV].
Qed.

Lemma J_saved P s e ord riv : prims_ok P → db_txpoint (s_db s) = 0 → s_readOnly s = false → (∃ pass, single_session P s pass) → length riv = 40 →
  ∃ f, saveBlob P e ord (Some riv) s = (s, Ok (Some f)).
Proof.
  intros HP Htp Hro (pass & Hm & Hk & Hs & Hp) Hr.
  assert (∃ b, Save (s_db s) = Ok b) as [b Hb] by (unfold Save, save_guard; rewrite Htp; eexists; done).
  assert (length (s_key s) = 80) as Lk by (rewrite Hk; apply (scrypt_len _ HP)).
  destruct (single_round_trip P (params_single (s_key s) (s_salt s)) riv b (s_key s) (s_salt s) []) as (f & E & _); try done.
  { apply validate_ok. split; [|by left]. unfold sizes_ok. cbn [params_single Keys Salts]. split; [done|]. split; [done|]. split; constructor; auto. }
  { intros H. rewrite H in Lk. done. }
  exists f. unfold saveBlob. rewrite Hro, Hb. unfold makeParams. rewrite Hm. cbn [length Nat.eqb]. unfold mret, M_ret, cryptVersion. rewrite E. cbn [mbind outcome_bind].
  by destruct s.
Qed.

(** Where the transactions of the log come from after a sync *)
Lemma sync_origin P y name s inp s' rest m : holds (s_db s) m → fair (y_env y 0) → fair_hosts y → sync_cmd P y name s inp = (s', UOk tt rest) →
  ∀ t, t ∈ vis (db_log (s_db s')) → t ∈ vis (db_log (s_db s)) ∨ (∃ log, remote_log P y log ∧ t ∈ log) ∨
    (tx_kind t = "setk" ∧ tx_key t = "knownhosts" ∧ is_Some (m !! tx_uuid t)).
Proof.
  intros Hm Hf Hfh E. destruct (sync_weak _ _ _ _ _ _ _ _ Hm Hf Hfh E) as [->|H].
  - rewrite (proj1 (caught_up_log s)). by left.
  - destruct H as (us & hosts & kept & parts & mr & txs & inp1 & inp2 & inp3 & Hus & Ep & Em & Hme & Htx & Hw).
    pose proof Hme as (_ & _ & _ & _ & _ & _ & Hv & _). apply mergeBlobs_ok in Em as [Em _].
    apply (merged_from (λ t, t ∈ vis (db_log (s_db s)) ∨ ∃ log, remote_log P y log ∧ t ∈ log)) in Em.
    + rewrite Hv. intros t [Ht|Ht]%elem_of_app; [destruct (proj1 (Forall_forall _ _) Em t Ht); tauto|]. right; right. destruct (Htx t Ht) as (? & ? & Hin). auto.
    + rewrite (proj1 (caught_up_log s)). apply Forall_forall. by left.
    + intros p Hp. destruct (pull_loop_parts _ _ _ _ _ _ _ _ _ _ Ep p Hp) as (ct & v & pt & sl & Hct & Hd & Hn & ->).
      apply Forall_forall. intros t Ht. right. exists (vis sl). split; [|done]. exists ct, (b_params p), pt, sl. split; [done|]. split; [|done]. by eexists _, _, _, _, _.
Qed.

Section whole.
  Context (P : prims) (Q U R : string → Prop) (w : nat → world) (w0 w1 : world) (y : nat → sync_world) (y0 y1 : sync_world).
  Context (Hs : ∀ n k, w_sync (w n) k = sync_cmd P (y n) k) (Hs0 : ∀ k, w_sync w0 k = sync_cmd P y0 k) (Hs1 : ∀ k, w_sync w1 k = sync_cmd P y1 k).
  Context (Hy : ∀ n, tame_sync P R (y n)) (Hy0 : tame_sync P R y0) (Hy1 : tame_sync P R y1) (HRU : ∀ u, R u → U u).
  Context (Ht : ∀ n, tame U (w n)) (Hd : ∀ i j, drawn (w i) = drawn (w j) → i = j).
  Context (HP : ∀ n, w_P (w n) = P) (Hr : ∀ n, rand_ok (w_rand (w n))) (Hw : ∀ n, text_world (w n)).
  #[local] Set Default Proof Using "All".

  Lemma repl_ready s inp s' o rest : ready P Q U s inp → run_repl w s inp = (s', o, UOk tt rest) → ∃ k, ready P Q (upto U w k) s' rest.
  Proof.
    intros (H1 & H2 & H3 & H4 & H5) E.
    destruct (repl_clean P U R w y Hs Ht Hd) with (Q := Q) (s := s) (inp := inp) (s' := s') (o := o) (rest := rest) as ([k Hk] & A2 & A3 & A4 & A5); try done; try (intros n; apply Hy).
    by exists k.
  Qed.

  Lemma main_ready b e ord riv s inp s' out rest : ready P Q U s inp → session_main P b w0 w1 w e ord riv s inp = (s', UOk out rest) →
    ∃ k s3, ready P Q (upto U w k) s3 rest ∧ saveBlob P e ord riv s3 = (s', Ok out).
  Proof.
    intros Hre. unfold session_main. destruct (auto_sync b w0 s inp) as [s1 [[] inp1|? ?| |]] eqn:E1; [|done..].
    assert (ready P Q U s1 inp1) as H1 by (eapply auto_sync_ready; [exact Hs0|exact Hy0|exact HRU|exact Hre|exact E1]).
    destruct (run_repl w s1 inp1) as [[s2 o2] [[] inp2|? ?| |]] eqn:E2; [|done..]. destruct (repl_ready _ _ _ _ _ H1 E2) as [k H2].
    set (wr := negb (s_startTx s2 =? length (vis (db_log (s_db s2))))%nat). cbv zeta.
    destruct (auto_sync (b && wr) w1 s2 inp2) as [s3 [[] inp3|? ?| |]] eqn:E3; [|done..].
    assert (ready P Q (upto U w k) s3 inp3) as H3. { eapply auto_sync_ready; [exact Hs1|exact Hy1| |exact H2|exact E3]. intros u Hu. left. by apply HRU. }
    destruct (saveBlob P e ord riv s3) as [s4 [x|x|]] eqn:E4; cbn [of_outcome]; [|done..]. intros [= <- <- <-]. by exists k, s3.
  Qed.

  (** The session is saved, and the file opens again. *)
  Lemma main_synced b e ord riv s inp s' out rest : prims_ok P → length riv = 40 → ready P Q U s inp →
    session_main P b w0 w1 w e ord (Some riv) s inp = (s', UOk out rest) → (Z.of_nat (length (vis (db_log (s_db s')))) < 2 ^ 64)%Z →
    ∃ f pass m, out = Some f ∧ Q pass ∧ good (s_db s') m ∧ (∃ k, ∀ t, t ∈ vis (db_log (s_db s')) → upto U w k (tx_uuid t)) ∧
      ∀ sp rsalt r, ∃ s2, loadBlob P (Found (mk_slice f sp)) None rsalt (ILine pass :: r) = UOk s2 r ∧ same_store (s_db s') (s_db s2) ∧ good (s_db s2) m.
  Proof.
    intros HPo Hl Hre E Hn. destruct (main_ready _ _ _ _ _ _ _ _ _ Hre E) as (k & s3 & (St & [[Hro _] (pass & Hq & Hss)] & _ & Hc & _) & Esv).
    destruct St as (H0 & [m Hh] & Hu).
    destruct (saveBlob P e ord (Some riv) s3) as [s4 o4] eqn:Ef. assert (s4 = s3 ∧ ∃ f, o4 = Ok (Some f)) as [-> [f ->]].
    { destruct (J_saved P s3 e ord riv HPo H0 Hro) as [f Ef']; [by exists pass|exact Hl|]. rewrite Ef in Ef'. injection Ef' as -> ->. split; [done|by exists f]. }
    injection Esv as <- <-.
    pose proof (clean_good _ _ Hc Hh H0 Hn) as Hg. exists f, pass, m. split; [done|]. split; [done|]. split; [done|]. split; [by exists k|].
    intros sp rsalt r. destruct (single_reopen P s3 pass m e ord riv sp rsalt r HPo Hg Hro Hss Hl) as (f' & s2 & Ef' & El & Hsame & Hg2 & _).
    rewrite Ef in Ef'. injection Ef' as <-. by exists s2.
  Qed.

  (** An error comes from a sync or from the commands, not from saving. *)
  Lemma main_failed b e ord riv s inp s' x rest : prims_ok P → length riv = 40 → ready P Q U s inp →
    session_main P b w0 w1 w e ord (Some riv) s inp = (s', UErr x rest) →
    auto_sync b w0 s inp = (s', UErr x rest) ∨ ∃ s1 inp1, auto_sync b w0 s inp = (s1, UOk tt inp1) ∧
      ((∃ o, run_repl w s1 inp1 = (s', o, UErr x rest)) ∨
       ∃ s2 o inp2, run_repl w s1 inp1 = (s2, o, UOk tt inp2) ∧ auto_sync true w1 s2 inp2 = (s', UErr x rest)).
  Proof.
    intros HPo Hl Hre. unfold session_main. destruct (auto_sync b w0 s inp) as [s1 [[] inp1|? ?| |]] eqn:E1; [|intros [= <- <- <-]; by left|done|done].
    intros E. right. exists s1, inp1. split; [done|].
    assert (ready P Q U s1 inp1) as H1 by (eapply auto_sync_ready; [exact Hs0|exact Hy0|exact HRU|exact Hre|exact E1]).
    destruct (run_repl w s1 inp1) as [[s2 o2] [[] inp2|? ?| |]] eqn:E2; [|left; exists o2; congruence|done|done]. right. exists s2, o2, inp2. split; [done|].
    destruct (repl_ready _ _ _ _ _ H1 E2) as [k H2]. cbv zeta in E.
    set (wr := b && negb (s_startTx s2 =? length (vis (db_log (s_db s2))))%nat) in E.
    destruct (auto_sync wr w1 s2 inp2) as [s3 [[] inp3|? ?| |]] eqn:E3; [| |done|done].
    - exfalso. assert (ready P Q (upto U w k) s3 inp3) as ((H0 & _) & [[Hro _] (pass & Hq & Hss)] & _).
      { eapply auto_sync_ready; [exact Hs1|exact Hy1| |exact H2|exact E3]. intros u Hu. left. by apply HRU. }
      destruct (J_saved P s3 e ord riv HPo H0 Hro) as [f Ef]; [by exists pass|exact Hl|]. rewrite Ef in E. cbn [of_outcome] in E. congruence.
    - injection E as -> -> ->. destruct wr; [done|]. exfalso. unfold auto_sync, mbind, C_bind, state in E3. rewrite andb_false_r in E3. discriminate E3.
  Qed.
End whole.
