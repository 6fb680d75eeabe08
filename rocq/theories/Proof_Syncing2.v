(** Proofs about whole sessions with syncing in them: the store stays in order,
    stays text, and is saved so that it can be opened. *)
From Verif Require Import Proof_TxLog Proof_GoStr Proof_Utf8 Proof_JsonText Proof_Merge Proof_Blobs Proof_Blobs2 Proof_Crypt2 Proof_Crypt5 Proof_Crypt6 Proof_Crypt7 Proof_Session2 Proof_Session3 Proof_Session5 Proof_Session6 Proof_Sync Proof_Sync2 Proof_Sync3 Proof_Text2 Proof_Text3.
From Verif Require Export Proof_Syncing Proof_Repl7.
From Coq Require Import Lia.
From stdpp Require Import options.
Import Model_GoStr Proof_Utf8.
#[local] Open Scope nat_scope.

(** ** The key after a sync with single-user remotes *)
Lemma single_decrypt P u pw key salt ct v p pt : Decrypt P u pw key salt ct = Ok (v, p, pt) → Master p = None →
  ∃ k s, Keys p !! Z.to_nat (User p) = Some k ∧ Salts p !! Z.to_nat (User p) = Some s ∧ length s = 32 ∧
    ((key = Some k ∧ salt = s) ∨ (k = key_of P pw s ∧ pw ≠ [])).
Proof.
  destruct ct as [f sp]. intros H Hm. apply Decrypt_inv in H as (-> & m & rest & n & p0 & Hf & Hh & Hn & -> & H).
  unfold dispatch in H. destruct (negb (n =? 0)%Z && (length u =? 0)); [done|]. destruct (n =? 0)%Z eqn:En.
  - apply single_inv in H as (m' & s' & iv & ct & k' & -> & Lm & Ls & Li & Hc & -> & Hd). exists k', s'. split; [done|]. split; [done|]. split; [done|].
    unfold Proof_Crypt2.choose in Hc. assert (∀ b : bool, b = (length pw =? 0)%nat → (if b then Fail EWrongPassphrase else Ok (key_of P pw s')) = Ok k' → k' = key_of P pw s' ∧ pw ≠ []) as Hx.
    { intros b Eb H. destruct b; [done|]. injection H as <-. split; [done|]. by intros ->. }
    destruct key as [k|]; [|right; exact (Hx _ eq_refl Hc)]. destruct (beq salt s') eqn:Eb; [|right; exact (Hx _ eq_refl Hc)]. unfold beq in Eb. apply bool_decide_eq_true in Eb. injection Hc as <-. by left.
  - exfalso. apply Z.eqb_neq in En. clear Hf.
    apply multi_inv in H as (m' & tbl & t & ivm & ct & -> & Lm & Lt & Li & Hread & Hok & k' & master & header & Hk & Hm' & Hhd & Hd & ->); [|lia]. done.
Qed.
Lemma pull_loop_typed P y s l : ssh_in_order y → ∀ i inp hosts kept parts rest, pull_loop P y s i l inp = UOk (hosts, kept, parts) rest → ∀ p, p ∈ parts →
  b_pass p = s_pass s ∨ ILine (b_pass p) ∈ inp.
Proof.
  intros Hy. induction l as [|u l IH]; intros i inp hosts kept parts rest H; cbn [pull_loop] in H.
  - apply UOk_inj in H as [[= <- <- <-] <-]. intros p Hp. by apply elem_of_nil in Hp.
  - apply ubind_ok in H as ([[h k] op] & inp1 & E1 & H). apply ubind_ok in H as ([[hs ks] qs] & inp2 & E2 & H).
    apply UOk_inj in H as [[= <- <- <-] <-]. pose proof (rd_pull_one P y s i u inp Hy) as Hrd. rewrite E1 in Hrd. destruct Hrd as [used ->].
    intros p [Hp|Hp]%elem_of_app.
    2:{ destruct (IH _ _ _ _ _ _ E2 p Hp) as [|Hin]; [by left|right]. apply elem_of_app. by right. }
    clear IH E2. destruct op as [p'|]; [|by apply elem_of_nil in Hp]. apply elem_of_list_singleton in Hp as ->.
    unfold pull_one in E1. apply ubind_ok in E1 as ([host got] & inp3 & Eb & E1). destruct got as [| |ct]; [by apply UOk_inj in E1 as [[=] _]..|].
    apply ubind_ok in E1 as (r & inp4 & Ed & E1). destruct r as [[[[params user] pass] pt]|]; [|by apply UOk_inj in E1 as [[=] _]].
    destruct (_ =? _); [by apply UOk_inj in E1 as [[=] _]|]. destruct (NewLog pt) as [sl|e|] eqn:En; [|by apply UOk_inj in E1 as [[=] _]|done].
    apply ubind_ok in E1 as (same & inp5 & _ & E1). destruct same; [by apply UOk_inj in E1 as [[=] _]|]. apply UOk_inj in E1 as [[= <- <- <-] _].
    pose proof (rd_pullBlob y i (entry_at s u) (used ++ inp1) Hy) as Hrb. rewrite Eb in Hrb. destruct Hrb as [used1 ->].
    apply decrypt_typed in Ed as (_ & used2 & -> & _ & Hpass). cbn [b_pass]. destruct Hpass as [|Hin]; [by left|right]. apply elem_of_app. right. apply elem_of_app. by left.
Qed.

Lemma str_bytes_ne s : str_bytes s ≠ [] → s ≠ "". Proof. by intros H ->. Qed.
Lemma sync_JQ P (Q : string → Prop) y name s inp s' rest m : holds (s_db s) m → fair (y_env y 0) → fair_hosts y → ssh_in_order y → remotes_single P y →
  (∀ pass, ILine pass ∈ inp → Q pass) → JQ P Q s → sync_cmd P y name s inp = (s', UOk tt rest) → JQ P Q s'.
Proof.
  intros Hh Hf Hfh Hy Hsi Hq HJ E. destruct (sync_steps _ _ _ _ _ _ _ _ Hh Hf E) as [->|Hs]; [done|].
  pose proof Hs as (us & hosts & kept & parts & mr & inp1 & inp2 & s1 & d2 & ct & hosts2 & ps & Hus & E1 & Em & Ea & Es & Ep & d3 & Es2 & ->).
  apply adopt_inv in Ea as (Hm & _). destruct Hm as (A1 & A2 & A3 & A4 & A5 & A6 & A7 & A8 & A9 & A10 & A11).
  destruct HJ as [[Hro Hpass] (pass & Hqp & S1 & S2 & S3 & S4)]. unfold JQ, single_session. cbn [s_readOnly s_pass s_master s_key s_salt set_db]. rewrite A9, A2, A3, A4, A5.
  change (s_readOnly (caught_up s)) with (s_readOnly s).
  apply mergeBlobs_ok in Em as [_ [Hc|(p & Hp & Hc)]].
  - destruct Hc as (B1 & B2 & B3 & B4 & B5 & B6). rewrite B2, B3, B4, B5. split; [done|]. exists pass. done.
  - destruct Hc as (B1 & B2 & B3 & B4 & B5 & B6).
    destruct (pull_loop_parts _ _ _ _ _ _ _ _ _ _ E1 p Hp) as (ct' & v & pt & sl & Hct & Hd & Hn & _).
    assert (Master (b_params p) = None) as Hmn by (apply (Hsi ct' (b_params p) pt); [done|]; by eexists _, _, _, _, _).
    destruct (single_decrypt _ _ _ _ _ _ _ _ _ Hd Hmn) as (k & sa & Hk & Hsa & Hl & Hcase). rewrite B3 in Hk. rewrite B4 in Hsa. injection Hk as ->. injection Hsa as ->.
    assert (b_pass p = "" ∨ Q (b_pass p)) as Hbp.
    { destruct (pull_loop_typed _ _ _ _ Hy _ _ _ _ _ _ E1 p Hp) as [->|Hin]; [exact Hpass|right; by apply Hq]. }
    rewrite B2, B5, Hmn. split; [done|]. destruct Hcase as [[H1 H2]|[H1 H2]].
    + exists pass. split; [done|]. split; [done|]. change (s_key (caught_up s)) with (s_key s) in H1. change (s_salt (caught_up s)) with (s_salt s) in H2.
      split; [|by split]. unfold opt_bytes in H1. destruct (s_key s) as [|x l] eqn:Ek; [done|]. injection H1 as <-. rewrite <-H2. done.
    + apply str_bytes_ne in H2. exists (b_pass p). split; [by destruct Hbp|]. done.
Qed.

(** ** Text *)
Lemma typed_suffix inp rest : rest `suffix_of` inp → typed_text inp → typed_text rest.
Proof. intros [l ->] H line Hl. apply H. apply elem_of_app. by right. Qed.
Lemma entry_at_utf8 s u : snapshot_utf8 (snap_of (s_db s)) → entry_utf8 (entry_at s u).
Proof. intros H. unfold entry_at. destruct (_ !! u) as [b|] eqn:E; [by eapply H|]. intros k v Hk. cbn [default id] in Hk. by rewrite lookup_empty in Hk. Qed.
Definition hosts_utf8 (hosts : gmap string string) : Prop := ∀ u h, hosts !! u = Some h → utf8 h.
Lemma note_host_utf8 u h hosts : utf8 h → hosts_utf8 hosts → hosts_utf8 (note_host u h hosts).
Proof.
  intros Hh H v x. unfold note_host. destruct (String.eqb h ""); [by apply H|].
  destruct (decide (v = u)) as [->|Hne]; [rewrite lookup_insert; by intros [= <-]|rewrite lookup_insert_ne by done; by apply H].
Qed.
Lemma decryptBlob_text P key salt ct user pass inp a rest : typed_text inp → decryptBlob P key salt ct user pass inp = UOk a rest → typed_text rest.
Proof. intros H E. eapply typed_suffix; [|exact H]. pose proof (rd_decryptBlob P key salt ct inp user pass) as Hr. by rewrite E in Hr. Qed.
Lemma pullBlob_text y i b inp host g rest : text_sync y → entry_utf8 b → typed_text inp → pullBlob y i b inp = UOk (host, g) rest → utf8 host ∧ typed_text rest.
Proof.
  intros (_ & Hy & _) Hb Hi. unfold pullBlob. destruct (y_scheme _ _) as [sch|]; [|done]. destruct (String.eqb sch Model_Sync.syncSCP).
  - intros H. unfold pull_ui in H. specialize (Hy i b inp Hb Hi). destruct (y_ssh_pull y i b inp) as [[h g'] r|e r| |]; [| |done|done]; apply UOk_inj in H as [[= <- <-] <-]; [exact Hy|].
    split; [apply utf8_empty|done].
  - destruct (String.eqb sch Model_Sync.syncFile); intros H; apply UOk_inj in H as [[= <- <-] <-]; (split; [apply utf8_empty|done]).
Qed.
Lemma pushBlob_text y i b ct inp host g rest : text_sync y → entry_utf8 b → typed_text inp → pushBlob y i b ct inp = UOk (host, g) rest → utf8 host ∧ typed_text rest.
Proof.
  intros (_ & _ & Hy) Hb Hi. unfold pushBlob. destruct (y_scheme _ _) as [sch|]; [|done]. destruct (String.eqb sch Model_Sync.syncSCP).
  - intros H. unfold push_ui in H. specialize (Hy i b ct inp Hb Hi). destruct (y_ssh_push y i b ct inp) as [[h g'] r|e r| |]; [| |done|done]; apply UOk_inj in H as [[= <- <-] <-]; [exact Hy|].
    split; [apply utf8_empty|done].
  - destruct (String.eqb sch Model_Sync.syncFile); intros H; apply UOk_inj in H as [[= <- <-] <-]; (split; [apply utf8_empty|done]).
Qed.
Lemma pull_loop_text P y s l : text_sync y → snapshot_utf8 (snap_of (s_db s)) → ∀ i inp hosts kept parts rest, typed_text inp →
  pull_loop P y s i l inp = UOk (hosts, kept, parts) rest → hosts_utf8 hosts ∧ typed_text rest.
Proof.
  intros Hy Hs. induction l as [|u l IH]; intros i inp hosts kept parts rest Hi H; cbn [pull_loop] in H.
  - apply UOk_inj in H as [[= <- <- <-] <-]. split; [|done]. intros v x Hx. by rewrite lookup_empty in Hx.
  - apply ubind_ok in H as ([[h k] op] & inp1 & E1 & H). apply ubind_ok in H as ([[hs ks] qs] & inp2 & E2 & H).
    apply UOk_inj in H as [[= <- <- <-] <-]. assert (utf8 h ∧ typed_text inp1) as [Hh Hi1].
    { unfold pull_one in E1. apply ubind_ok in E1 as ([host got] & inp3 & Eb & E1).
      apply (pullBlob_text _ _ _ _ _ _ _ Hy (entry_at_utf8 s u Hs) Hi) in Eb as [Hh Hi3].
      destruct got as [| |ct]; [by apply UOk_inj in E1 as [[= <- _ _] <-]..|].
      apply ubind_ok in E1 as (r & inp4 & Ed & E1). apply decryptBlob_text in Ed; [|done].
      destruct r as [[[[params user] pass] pt]|]; [|by apply UOk_inj in E1 as [[= <- _ _] <-]].
      destruct (_ =? _); [by apply UOk_inj in E1 as [[= <- _ _] <-]|]. destruct (NewLog pt) as [sl|e|] eqn:En; [|by apply UOk_inj in E1 as [[= <- _ _] <-]|done].
      apply ubind_ok in E1 as (same & inp5 & E5 & E1). unfold of_outcome in E5. destruct (no_changes _ _) as [b|e|]; [|done|done]. apply UOk_inj in E5 as [_ <-].
      destruct same; by apply UOk_inj in E1 as [[= <- _ _] <-]. }
    destruct (IH _ _ _ _ _ _ Hi1 E2) as [H1 H2]. split; [by apply note_host_utf8|done].
Qed.
Lemma push_loop_text y s ct l : text_sync y → snapshot_utf8 (snap_of (s_db s)) → ∀ i inp ps hosts rest, typed_text inp →
  push_loop y s i ct l inp = (ps, UOk hosts rest) → hosts_utf8 hosts ∧ typed_text rest.
Proof.
  intros Hy Hs. induction l as [|u l IH]; intros i inp ps hosts rest Hi H; cbn [push_loop] in H.
  - injection H as <- <- <-. split; [|done]. intros v x Hx. by rewrite lookup_empty in Hx.
  - destruct (pushBlob y i (entry_at s u) ct inp) as [[host oe] inp1|e r| |] eqn:Eb; [|done..].
    apply (pushBlob_text _ _ _ _ _ _ _ _ Hy (entry_at_utf8 s u Hs) Hi) in Eb as [Hh Hi1].
    destruct (push_loop y s (S i) ct l inp1) as [ps' x] eqn:E. destruct x as [hs r|e r| |]; [|done..]. cbn [ubind] in H. injection H as <- <- <-.
    destruct (IH _ _ _ _ _ Hi1 E) as [H1 H2]. split; [by apply note_host_utf8|done].
Qed.
Lemma add_line_utf8 a b : utf8 a → utf8 b → utf8 (add_line a b).
Proof.
  intros Ha Hb. unfold add_line. destruct (_ =? _); [done|]. apply utf8_join; [by apply utf8_cons, utf8_empty|]. apply Forall_app_2; [by apply utf8_split_on|by apply Forall_singleton].
Qed.
Lemma mcl_set1 e i u k v : clock_ok e → utf8 u → utf8 k → utf8 v → mcl (dbSet e i u k v) (λ _, True).
Proof. intros Hc U K V d d' o Hd [= <- <-]. split; [|done]. apply clean_append; [done| |apply Hc]. split; [cbn [tx_kind]; utf8_lit|done]. Qed.
Lemma mcl_saveHosts e l : clock_ok e → (∀ u h, (u, h) ∈ l → utf8 u ∧ utf8 h) → mcl (saveHosts e l) (λ _, True).
Proof.
  intros He H. unfold saveHosts. eapply (mcl_bind _ _ (λ _, True)); [|intros _ _; apply mcl_update]. generalize 0. revert H.
  induction l as [|[u h] l IH]; intros H i; cbn [save_loop]; [by apply mcl_ret|].
  eapply mcl_bind; [apply mcl_snap|]. intros m Hm. eapply (mcl_bind _ _ (λ _, True)).
  - apply mcl_set1; [done|by apply (H u h); left|utf8_lit|]. destruct (H u h) as [_ Hh]; [by left|]. apply add_line_utf8; [|done].
    destruct (m !! u) as [b|] eqn:E; cbn [default id]; [|rewrite lookup_empty; apply utf8_empty].
    destruct (b !! KeyKnownHosts) as [x|] eqn:E2; cbn [default id]; [|apply utf8_empty]. by apply (proj2 (Hm _ _ E) _ _ E2).
  - intros _ _. apply IH. intros; apply H; by right.
Qed.
Lemma sync_text P y name s inp s' rest m : holds (s_db s) m → fair (y_env y 0) → fair_hosts y → text_sync y →
  db_txpoint (s_db s) = 0 → clean (s_db s) → typed_text inp → sync_cmd P y name s inp = (s', UOk tt rest) → clean (s_db s').
Proof.
  intros Hh Hf Hfh Hy H0 Hc Hi E. assert (clean (s_db (caught_up s))) as Hc1.
  { unfold caught_up. cbn [s_db set_db]. destruct (UpdateSnapshot (s_db s)) as [d r] eqn:Eu. by apply (mcl_update _ _ _ Hc Eu). }
  destruct (sync_steps _ _ _ _ _ _ _ _ Hh Hf E) as [->|Hs]; [done|].
  pose proof Hs as (us & hosts & kept & parts & mr & inp1 & inp2 & s1 & d2 & ct & hosts2 & ps & Hus & E1 & Em & Ea & Es & Ep & d3 & Es2 & ->).
  destruct (pull_loop_text P y _ us Hy (proj1 Hc1) _ _ _ _ _ _ Hi E1) as [Hh1 Hi1].
  assert (typed_text inp2) as Hi2. { eapply typed_suffix; [|exact Hi1]. pose proof (rd_merge_parts (y_env y 4) (s_key (caught_up s)) (s_master (caught_up s)) parts (merge_start (caught_up s)) inp1) as Hr. unfold mergeBlobs in Em. by rewrite Em in Hr. }
  apply mergeBlobs_ok in Em as [Em _]. apply (merged_from (λ t, tx_utf8 t ∧ in_int64 (tx_time t))) in Em; [|apply Hc1|].
  2:{ intros p Hp. destruct (pull_loop_parts _ _ _ _ _ _ _ _ _ _ E1 p Hp) as (ct' & v & pt & sl & _ & _ & Hn & ->). by apply NewLog_fine in Hn. }
  assert (∀ u, u ∈ us → utf8 u) as Hu8.
  { intros u Hu. destruct (Hus u Hu) as [b Hb]. destruct Hh as [_ Hr]. destruct (replays_mentions _ _ _ _ Hr Hb) as (t & Ht & <-). 
    destruct Hc as (_ & Hl & _). rewrite Forall_forall in Hl. apply (Hl t Ht). }
  assert (clean (s_db s1)) as Hc2.
  { pose proof Ea as Ea'. apply adopt_inv in Ea' as (Hm & _ & Hr & _). destruct Hm as (_ & _ & _ & _ & _ & _ & Hv & _ & _ & _ & Htp). rewrite app_nil_r in Hv.
    destruct (caught_up_log s) as [_ Htp2]. split; [|rewrite Hv; split; [exact Em|rewrite Htp, Htp2, H0; lia]].
    eapply replays_from_utf8; [exact Hr| |]; [eapply Forall_impl; [exact Em|]; by intros t []|]. intros ? ? Hx. by rewrite lookup_empty in Hx. }
  destruct (pull_loop_dom _ _ _ _ _ _ _ _ _ _ E1) as [Hd Hk]. pose proof (push_loop_dom _ _ _ _ _ _ _ _ _ Ep) as Hd2.
  assert (clean d2) as Hc3.
  { eapply (mcl_saveHosts (y_env y 1) (y_hosts y 0 hosts)); [apply Hy| |exact Hc2|exact Es]. intros u h Hin. rewrite (Hfh 0 hosts) in Hin. apply elem_of_map_to_list in Hin.
    split; [apply Hu8, Hd; by exists h|by eapply Hh1]. }
  destruct (push_loop_text y (set_db d2 s1) ct kept Hy (proj1 Hc3) _ _ _ _ _ Hi2 Ep) as [Hh2 _].
  eapply (mcl_saveHosts (y_env y 2) (y_hosts y 1 hosts2)); [apply Hy| |exact Hc3|exact Es2]. intros u h Hin. rewrite (Hfh 1 hosts2) in Hin. apply elem_of_map_to_list in Hin.
  split; [apply Hu8, Hk, Hd2; by exists h|by eapply Hh2].
Qed.

(** ** The command loop *)
Lemma loop_inv w (I : nat → string → session → list input → Prop) :
  (∀ n ctx s i rest, I n ctx s (i :: rest) → I n ctx s rest) →
  (∀ n ctx s line rest c s' ctx' o rest', I n ctx s (ILine line :: rest) → parse_line (s_readOnly s) ctx line = Run c →
    exec (w n) ctx c s rest = (s', UOk (ctx', o) rest') → I (S n) ctx' s' rest') →
  ∀ f n ctx shown s inp s' o rest, I n ctx s inp → run_loop f w n ctx shown s inp = (s', o, UOk tt rest) → ∃ k ctx', I k ctx' s' rest.
Proof.
  intros Hdrop Hstep f. induction f as [|f IH]; intros n ctx shown s inp s' o rest Hs E; [done|].
  destruct inp as [|[line|e] inp]; cbn [run_loop] in E; [done| |].
  2:{ destruct e; try done. injection E as <- <- <-. exists n, ctx. by eapply Hdrop. }
  destruct (parse_line (s_readOnly s) ctx line) as [| | | |c] eqn:Ep; try (by eapply IH; [eapply Hdrop|exact E]).
  assert ((match exec (w n) ctx c s inp with
            | (s', UOk (ctx', o) rest') => run_loop f w (S n) ctx' (shown ++ o) s' rest'
            | (s', UErr e rest') => (s', shown, UErr e rest')
            | (s', UPanic) => (s', shown, UPanic)
            | (s', UWait) => (s', shown, UWait)
            end) = (s', o, UOk tt rest) → ∃ k ctx', I k ctx' s' rest) as Hrun.
  { destruct (exec (w n) ctx c s inp) as [s2 [[ctx' o'] rest2|e2 rest2| |]] eqn:E2; [|done..]. eapply IH. by eapply Hstep. }
  destruct c; try exact (Hrun E). injection E as <- <- <-. exists n, ctx. by eapply Hdrop.
Qed.

Lemma is_sync_cmd c : (∃ k, c = KSync k) ∨ ¬ (∃ k, c = KSync k).
Proof. destruct c; try (right; intros [k Hk]; discriminate). left. by eexists. Qed.

Lemma may_suffix (Q : string → Prop) inp rest : rest `suffix_of` inp → may_open Q inp → may_open Q rest.
Proof.
  intros Hs (H1 & H2 & H3). split; [by eapply never_suffix|]. split; [destruct H2; [left; by eapply never_suffix|by right]|].
  destruct Hs as [l ->]. intros pass Hp. apply H3. apply elem_of_app. by right.
Qed.

Section syncing.
  Context (P : prims) (U R : string → Prop) (w : nat → world) (y : nat → sync_world).
  Context (Hsync : ∀ n k, w_sync (w n) k = sync_cmd P (y n) k).
  Context (Ht : ∀ n, tame U (w n)) (Hd : ∀ i j, drawn (w i) = drawn (w j) → i = j).
  Context (Hf : ∀ n, fair (y_env (y n) 0) ∧ fair_hosts (y n)) (HR : ∀ n, remotes_within P (y n) R) (HRU : ∀ u, R u → U u).
  #[local] Set Default Proof Using "All".

  Lemma steady_mono (V V' : string → Prop) s : (∀ u, V u → V' u) → settled V s → settled V' s.
  Proof. intros H (H1 & H2 & H3). split; [done|]. split; [done|]. intros t Hin. by apply H, H3. Qed.
  Lemma exec_steady n ctx c s inp s' a rest : settled (upto U w n) s → exec (w n) ctx c s inp = (s', UOk a rest) → settled (upto U w (S n)) s'.
  Proof.
    intros Hs E. assert (∀ u, upto U w n u → upto U w (S n) u) as Hup by (intros u [Hu|(i & Hi & ->)]; [by left|right; exists i; split; [lia|done]]).
    destruct (is_sync_cmd c) as [[k ->]|Hc].
    - cbn [exec] in E. unfold silent in E. apply C_inv in E as (s1 & [] & r1 & E1 & E). unfold mret, C_ret in E. injection E as <- _ _. rewrite Hsync in E1.
      apply (steady_mono (λ u, upto U w n u ∨ R u)); [intros u [Hu|Hu]; [by apply Hup|left; by apply HRU]|].
      eapply sync_steady; [apply Hf|apply Hf|apply HR|exact Hs|exact E1].
    - assert (tame (upto U w n) (w n)) as (Hfw & Ho & Hn).
      { destruct (Ht n) as (H1 & H2 & H3). split; [done|]. split; [done|]. intros [Hu|(i & Hi & E')]; [done|]. apply (Hd n i) in E'. lia. }
      set (V := λ u, upto U w n u ∨ u = drawn (w n)).
      assert (∀ u, V u → upto U w (S n) u) as Hm. { intros u [Hu| ->]; [by apply Hup|right; exists n; split; [lia|done]]. }
      assert (∀ l l' : list tx, (∀ t, t ∈ l → V (tx_uuid t)) → (∀ t, t ∈ l' → V (tx_uuid t)) → ∀ t, t ∈ l ++ l' → V (tx_uuid t)) as H1.
      { intros l l' Ha Hb t [?|?]%elem_of_app; [by apply Ha|by apply Hb]. }
      assert (∀ (l : list tx) t, (∀ t, t ∈ l → V (tx_uuid t)) → t ∈ l → V (tx_uuid t)) as H2 by (intros l t Ha; by apply Ha).
      destruct Hs as (Htp & Hw & Hu).
      destruct (wk_exec (λ l, ∀ t, t ∈ l → V (tx_uuid t)) V H1 H2 (w n) Hfw Ho (or_intror eq_refl) ctx c) with s inp s' (UOk a rest) as [Ha _].
      + intros k Ek. destruct Hc. by exists k.
      + split; [|intros t Hin E'; apply Hn; rewrite <-E'; by apply Hu]. split; [done|]. split; [done|]. split; [|by intros ? ?%elem_of_nil]. intros t Hin. left. by apply Hu.
      + done.
      + destruct (Ha _ _ eq_refl) as (B1 & B2 & B3 & _). split; [done|]. split; [done|]. intros t Hin. by apply Hm, B3.
  Qed.
  Lemma repl_steady s inp s' o rest : settled U s → run_repl w s inp = (s', o, UOk tt rest) → ∃ k, settled (upto U w k) s'.
  Proof.
    intros Hs E. destruct (loop_inv w (λ n _ s _, settled (upto U w n) s)) with (4 := E) as (k & ctx' & H); [done| | |by exists k].
    - intros n ctx s1 line rest1 c s2 ctx' o' rest' H _ E'. by eapply exec_steady.
    - eapply steady_mono; [|exact Hs]. by left.
  Qed.

  (** ** Keys *)
  Context (Q : string → Prop) (HP : ∀ n, w_P (w n) = P) (Hr : ∀ n, rand_ok (w_rand (w n))).
  Context (Hy : ∀ n, ssh_in_order (y n)) (Hsi : ∀ n, remotes_single P (y n)).
  Lemma sync_reads n k : reads (w_sync (w n) k).
  Proof using Hsync Hy. rewrite Hsync. by apply reads_sync. Qed.
  Lemma exec_JQ n ctx c s line inp s' a rest : settled (upto U w n) s → JQ P Q s → may_open Q (ILine line :: inp) → parse_line (s_readOnly s) ctx line = Run c →
    exec (w n) ctx c s inp = (s', UOk a rest) → JQ P Q s' ∧ may_open Q rest.
  Proof.
    intros Hs HJ Hm Ep E. assert (may_open Q inp) as Hmi by (eapply may_suffix; [by apply suffix_cons_r|done]). split.
    2:{ eapply may_suffix; [|exact Hmi]. eapply exec_suffix; [|exact E]. intros k _. apply sync_reads. }
    destruct Hm as (Hm1 & Hm2 & Hm3). destruct (never_cmd (ILine line :: inp) line (s_readOnly s) ctx c) as (_ & Hc2 & Hc3); [by left|done|].
    destruct (is_sync_cmd c) as [[k ->]|Hc].
    - cbn [exec] in E. unfold silent in E. apply C_inv in E as (s1 & [] & r1 & E1 & E). unfold mret, C_ret in E. injection E as <- _ _. rewrite Hsync in E1.
      destruct Hs as (_ & [m Hh] & _). eapply sync_JQ; [exact Hh|apply Hf|apply Hf|apply Hy|apply Hsi|apply Hmi|exact HJ|exact E1].
    - destruct (JQ_exec P Q (w n) (HP n) (Hr n) ctx c) with s inp s' (UOk a rest) as [Ja _].
      + intros k Ek. apply Hc. by exists k.
      + by apply Hc2.
      + intros u Eu. destruct Hm2 as [Hn|Hn]; [by destruct (Hc3 Hn u)|done].
      + done.
      + exact E.
      + by eapply Ja.
  Qed.
  Lemma repl_JQ s inp s' o rest : settled U s → JQ P Q s → may_open Q inp → run_repl w s inp = (s', o, UOk tt rest) →
    (∃ k, settled (upto U w k) s') ∧ JQ P Q s' ∧ may_open Q rest.
  Proof.
    intros Hs HJ Hm E. destruct (loop_inv w (λ n _ s inp, settled (upto U w n) s ∧ JQ P Q s ∧ may_open Q inp)) with (4 := E) as (k & ctx' & H1 & H2 & H3).
    - intros n ctx s1 i r (H1 & H2 & H3). split; [done|]. split; [done|]. eapply may_suffix; [|done]. by apply suffix_cons_r.
    - intros n ctx s1 line rest1 c s2 ctx' o' rest' (H1 & H2 & H3) Ep E'. split; [by eapply exec_steady|]. by eapply exec_JQ.
    - split; [|done]. eapply steady_mono; [|exact Hs]. by left.
    - split; [by exists k|done].
  Qed.

  (** ** Text *)
  Context (Hw : ∀ n, text_world (w n)) (Hyt : ∀ n, text_sync (y n)).
  Lemma exec_clean n ctx c s line inp s' ctx' o rest : settled (upto U w n) s → clean (s_db s) → utf8 ctx → typed_text (ILine line :: inp) →
    parse_line (s_readOnly s) ctx line = Run c → exec (w n) ctx c s inp = (s', UOk (ctx', o) rest) → clean (s_db s') ∧ utf8 ctx' ∧ typed_text rest.
  Proof using Hsync Ht Hd Hf HR HRU Hy Hw Hyt.
    intros Hs Hc Hx Hi Ep E. assert (typed_text inp) as Hi' by (eapply typed_suffix; [by apply suffix_cons_r|done]).
    assert (utf8 line) as Hl by (apply Hi; by left).
    destruct (is_sync_cmd c) as [[k ->]|Hk].
    - assert (typed_text rest) as Hrt by (eapply typed_suffix; [|exact Hi']; eapply exec_suffix; [|exact E]; intros k' _; apply sync_reads).
      cbn [exec] in E. unfold silent in E. apply C_inv in E as (s1 & [] & r1 & E1 & E). unfold mret, C_ret in E. injection E as <- <- _ _. rewrite Hsync in E1.
      destruct Hs as (H0 & [m Hh] & _). split; [|done]. eapply sync_text; [exact Hh|apply Hf|apply Hf|apply Hyt|exact H0|exact Hc|exact Hi'|exact E1].
    - destruct (ccl_exec (w n) (Hw n) ctx c Hx (typed_here _ _ _ _ Hx Hl Ep)) with s inp s' (UOk (ctx', o) rest) as [H1 [H2 H3]].
      + intros k Ek. destruct Hk. by exists k.
      + done.
      + by apply texts_typed.
      + exact E.
      + split; [done|]. split; [done|]. by apply texts_typed.
  Qed.
  Lemma repl_clean s inp s' o rest : settled U s → JQ P Q s → may_open Q inp → clean (s_db s) → typed_text inp → run_repl w s inp = (s', o, UOk tt rest) →
    (∃ k, settled (upto U w k) s') ∧ JQ P Q s' ∧ may_open Q rest ∧ clean (s_db s') ∧ typed_text rest.
  Proof.
    intros Hs HJ Hm Hc Hi E.
    destruct (loop_inv w (λ n ctx s inp, settled (upto U w n) s ∧ (JQ P Q s ∧ may_open Q inp) ∧ clean (s_db s) ∧ utf8 ctx ∧ typed_text inp)) with (4 := E) as (k & ctx' & H1 & [H2 H3] & H4 & H5 & H6).
    - intros n ctx s1 i r (H1 & [H2 H3] & H4 & H5 & H6). split; [done|]. split; [split; [done|]; eapply may_suffix; [|done]; by apply suffix_cons_r|]. split; [done|]. split; [done|].
      eapply typed_suffix; [|done]. by apply suffix_cons_r.
    - intros n ctx s1 line rest1 c s2 ctx' o' rest' (H1 & [H2 H3] & H4 & H5 & H6) Ep E'. split; [by eapply exec_steady|]. split; [by eapply exec_JQ|]. by eapply exec_clean.
    - split; [eapply steady_mono; [|exact Hs]; by left|]. split; [done|]. split; [done|]. split; [apply utf8_empty|done].
    - split; [by exists k|done].
  Qed.
End syncing.
