(** Proofs about add and addsync: what they add, and that nothing is left of
    them when they are broken off. *)
From Verif Require Import Proof_TxLog Proof_GoStr Proof_Utf8 Proof_Dialogue Proof_Blobs Proof_Blobs2 Proof_Session2 Proof_Session3 Proof_Session5.
From Verif Require Export Proof_Repl3.
From Coq Require Import Lia.
From stdpp Require Import options.
Import Model_GoStr Proof_Utf8.
#[local] Open Scope nat_scope.

(** ** A transaction that can be taken back *)
Definition grown (d0 d : db) : Prop :=
  coherent d ∧ (∃ l, vis (db_log d) = vis (db_log d0) ++ l) ∧ db_version d ≤ length (vis (db_log d0)) ∧
  db_txpoint d = S (length (vis (db_log d0))).
(** only the store changed *)
Definition only_db (s s' : session) : Prop := s' = set_db (s_db s') s.
Definition tr (s0 s : session) : Prop := grown (s_db s0) (s_db s) ∧ only_db s0 s.

Lemma grown_begin d : coherent d → grown d (Begin d).
Proof. intros [H1 H2]. split; [done|]. split; [exists []; by rewrite app_nil_r|]. split; [done|]. cbn [Begin db_txpoint]. lia. Qed.
Lemma grown_append g now d0 d t : grown d0 d → grown d0 (appendLog g now d t).
Proof.
  intros (Hc & (l & Hl) & Hv & Ht). split; [by apply coherent_append|]. split; [|done].
  unfold appendLog. cbn [db_log]. rewrite slice_append_vis, Hl, <-app_assoc. eauto.
Qed.
Lemma grown_set d0 d e i u k v : grown d0 d → grown d0 (dbSet e i u k v d).1.
Proof. intros H. by apply grown_append. Qed.
Lemma grown_Set_key d0 d e i u k v : grown d0 d → grown d0 (Set_key e i u k v d).1.
Proof.
  intros H. unfold Set_key. destruct (existsb _ _); [done|]. unfold touchUpdated, mbind, M_bind, dbSet, modify. cbn [fst]. by apply grown_append, grown_append.
Qed.
Lemma grown_rollback d0 d : grown d0 d → ∃ d', Rollback d = Ok d' ∧ coherent d' ∧ vis (db_log d') = vis (db_log d0) ∧ db_txpoint d' = 0.
Proof.
  intros (Hc & (l & Hl) & Hv & Ht). destruct (Rollback_spec d Hc) as (d' & E & T & V & C).
  - unfold txroom. rewrite Ht, Hl, app_length. lia.
  - lia.
  - exists d'. split; [done|]. split; [apply C; lia|]. split; [|done]. rewrite V, Ht, Hl. replace (S (length (vis (db_log d0))) - 1) with (length (vis (db_log d0))) by lia.
    by rewrite <-app_assoc, take_app.
Qed.

(** [fine I x]: from a session with [I], [x] leads to another one, also when it fails. *)
Definition fine {A} (I : session → Prop) (x : C A) : Prop :=
  ∀ s inp s' r, I s → x s inp = (s', r) → (∀ e rest, r = UErr e rest → I s') ∧ (∀ a rest, r = UOk a rest → I s').
(** only the failing end *)
Definition fine_err {A} (I : session → Prop) (x : C A) : Prop :=
  ∀ s inp s' e rest, I s → x s inp = (s', UErr e rest) → I s'.
Lemma fine_weaken {A} I (x : C A) : fine I x → fine_err I x.
Proof. intros H s inp s' e rest Ht E. by eapply (proj1 (H _ _ _ _ Ht E)). Qed.
Lemma fine_ret {A} I (a : A) : fine I (mret a).
Proof. intros s inp s' r Ht [= <- <-]. done. Qed.
Lemma fine_ask {A} I (f : list input → ui A) : fine I (ask f).
Proof. intros s inp s' r Ht [= <- <-]. done. Qed.
Lemma fine_try {A} I (o : outcome A) : fine I (try o).
Proof. intros s inp s' r Ht [= <- <-]. done. Qed.
Lemma fine_state I : fine I state.
Proof. intros s inp s' r Ht [= <- <-]. done. Qed.
Lemma fine_bind {A B} I (x : C A) (f : A → C B) : fine I x → (∀ a, fine I (f a)) → fine I (mbind f x).
Proof.
  intros Hx Hf s inp s' r Ht. unfold mbind, C_bind. destruct (x s inp) as [s1 r1] eqn:E. destruct (Hx _ _ _ _ Ht E) as [H1 H2].
  destruct r1 as [a rest|e rest| |].
  - intros E2. eapply Hf; [|exact E2]. by eapply H2.
  - intros [= <- <-]. split; [|done]. intros. by eapply H1.
  - by intros [= <- <-].
  - by intros [= <- <-].
Qed.
Lemma fine_err_bind {A B} I (x : C A) (f : A → C B) : fine I x → (∀ a, fine_err I (f a)) → fine_err I (mbind f x).
Proof.
  intros Hx Hf s inp s' e rest Ht. unfold mbind, C_bind. destruct (x s inp) as [s1 r1] eqn:E. destruct (Hx _ _ _ _ Ht E) as [H1 H2].
  destruct r1 as [a rest1|e1 rest1| |].
  - intros E2. eapply Hf; [|exact E2]. by eapply H2.
  - intros [= <- <- <-]. by eapply H1.
  - done.
  - done.
Qed.
Lemma fine_db {A} (I : session → Prop) (m : M A) : (∀ s, I s → I (set_db (m (s_db s)).1 s)) → fine I (on_db m).
Proof.
  intros H s inp s' r Ht. unfold on_db. pose proof (H s Ht) as Hg. destruct (m (s_db s)) as [d o]. intros [= <- <-]. done.
Qed.
Lemma fine_if {A} I (b : bool) (x y : C A) : fine I x → fine I y → fine I (if b then x else y). Proof. by destruct b. Qed.
Lemma tr_db s0 s d : tr s0 s → grown (s_db s0) d → tr s0 (set_db d s).
Proof. intros [_ H] Hg. split; [done|]. unfold only_db in *. rewrite H. by rewrite !set_set_db. Qed.
Lemma grown_dropping d0 (m : M unit) d : grown d0 (m d).1 → grown d0 (dropping m d).1.
Proof. unfold dropping. by destruct (m d) as [d' [| |]]. Qed.
Lemma fine_raw s0 e i u k v : fine (tr s0) (on_db (raw_if e i u k v)).
Proof. apply fine_db. intros s [Hg Ho]. apply tr_db; [done|]. unfold raw_if. case_match; [done|]. by apply grown_set. Qed.

(** an aborted transaction *)
Lemma within_abort {A} (body : C A) s m inp s' e rest : holds (s_db s) m → db_txpoint (s_db s) = 0 → fine_err (tr s) body →
  within body s inp = (s', UErr e rest) → unchanged s s' ∧ holds (s_db s') m.
Proof.
  intros Hh Htp Hf. unfold within. destruct (body (set_db (Begin (s_db s)) s) inp) as [s1 [a r|e1 r| |]] eqn:E.
  - by destruct (Commit (s_db s1)).
  - assert (tr s (set_db (Begin (s_db s)) s)) as Ht0. { split; [apply grown_begin, Hh|done]. }
    pose proof (Hf _ _ _ _ _ Ht0 E) as [Hg Ho].
    destruct (grown_rollback _ _ Hg) as (d' & -> & Hc & Hv & Ht). intros [= <- <- <-].
    split; [split; [done|]; split; [cbn [s_db set_db]; congruence|]|].
    + cbn [s_db set_db]. unfold only_db in Ho. rewrite Ho. by rewrite set_set_db.
    + split; [done|]. cbn [s_db set_db]. rewrite Hv. apply Hh.
  - done.
  - done.
Qed.
Lemma within_done {A} (body : C A) s s1 inp a rest : body (set_db (Begin (s_db s)) s) inp = (s1, UOk a rest) → db_txpoint (s_db s1) ≠ 0 →
  within body s inp = (set_db (mk_db (db_version (s_db s1)) (db_snapshot (s_db s1)) (db_log (s_db s1)) 0) s1, UOk a rest).
Proof. intros E Ht. unfold within. rewrite E. unfold Commit. by rewrite (proj2 (Nat.eqb_neq _ _)) by done. Qed.

(** ** New inside a transaction *)
Lemma grown_update d0 m d : holds d0 m → grown d0 d → vis (db_log d) = vis (db_log d0) → ∃ d', UpdateSnapshot d = (d', Ok tt) ∧ grown d0 d' ∧ vis (db_log d') = vis (db_log d0) ∧ snap_of d' = m.
Proof.
  intros [_ Hr] (Hc & _ & Hv & Ht) Hl. destruct (holds_update d m) as (d' & E & Hs & Hvis & Htp & Hh); [split; [done|by rewrite Hl]|].
  exists d'. split; [done|]. split; [|split; [congruence|done]]. split; [apply Hh|]. split; [exists []; rewrite app_nil_r; congruence|]. split; [|congruence].
  destruct Hh as [[Hle _] _]. rewrite Hvis, Hl in Hle. done.
Qed.
Lemma New_grown d0 m d e j n d' r : holds d0 m → all_named m → fair e → grown d0 d → vis (db_log d) = vis (db_log d0) → Model_Blobs.New e j n d = (d', r) →
  grown d0 d' ∧ (r = Fail ENameNotUnique ∧ vis (db_log d') = vis (db_log d0) ∨ r = Ok (e_uuid e)).
Proof.
  intros Hh Ha Hf Hg Hv. destruct (grown_update d0 m d Hh Hg Hv) as (d1 & E & Hg1 & Hv1 & Hs1).
  unfold Model_Blobs.New, mbind, M_bind. rewrite E. unfold get_snap. rewrite Hs1.
  destruct (name_taken_ord e j m n Hf Ha) as (t & Et & _). rewrite Et. unfold lift. destruct t.
  - intros [= <- <-]. split; [done|]. by left.
  - unfold touchUpdated, modify, dbSet, mret, M_ret. intros [= <- <-]. split; [|by right]. by repeat apply grown_append.
Qed.
Lemma newsync_grown fuel : ∀ d0 m d e j n r, holds d0 m → all_named m → fair e → grown d0 d → vis (db_log d) = vis (db_log d0) →
  newsync_loop fuel e j n d = Some r → grown d0 r.1.
Proof.
  induction fuel as [|f IH]; intros d0 m d e j n r Hh Ha Hf Hg Hv; [done|]. cbn [newsync_loop].
  destruct (Model_Blobs.New e j n d) as [d1 r1] eqn:E. destruct (New_grown d0 m d e j n d1 r1 Hh Ha Hf Hg Hv E) as [Hg1 [[-> Hv1]| ->]].
  - by apply (IH d0 m).
  - by intros [= <-].
Qed.

(** ** add *)
Lemma add_err' w n s m inp s' e rest : holds (s_db s) m → all_named m → (∀ i, fair (w_env w i)) → db_txpoint (s_db s) = 0 → addNew w n s inp = (s', UErr e rest) → unchanged s s' ∧ holds (s_db s') m.
Proof.
  intros Hh Ha Hf Htp. unfold addNew. set (d := s_db s) in *.
  intros H.
  assert (∀ body : C (list out), within body s inp = (s', UErr e rest) → (∀ s1, body (set_db (Begin d) s) inp = (s1, UErr e rest) → tr s s1) → unchanged s s' ∧ holds (s_db s') m) as Hw.
  { clear H. intros body Hb Ht. unfold within in Hb. fold d in Hb. destruct (body (set_db (Begin d) s) inp) as [s1 [a r|e1 r| |]] eqn:E; [by destruct (Commit (s_db s1))| |done|done].
    assert (e1 = e ∧ r = rest) as [-> ->] by (destruct (Rollback (s_db s1)); by inversion Hb).
    destruct (Ht s1 eq_refl) as [Hg Ho]. destruct (grown_rollback _ _ Hg) as (d' & E' & Hc & Hv & Htp'). rewrite E' in Hb. injection Hb as <-.
    split; [split; [done|]; split; [cbn [s_db set_db]; fold d; congruence|]|].
    + cbn [s_db set_db]. unfold only_db in Ho. rewrite Ho. by rewrite set_set_db.
    + split; [done|]. cbn [s_db set_db]. rewrite Hv. apply Hh. }
  apply (Hw _ H). intros s1 Hs1.
  assert (grown d (Begin d)) as Hg0 by (apply grown_begin, Hh).
  revert Hs1. unfold mbind at 1, C_bind at 1. unfold catching. cbn [s_db set_db].
  destruct (Model_Blobs.New (w_env w 0) 0 n (Begin d)) as [d1 r1] eqn:E. destruct (New_grown d m (Begin d) _ _ _ d1 r1 Hh Ha (Hf 0) Hg0 eq_refl E) as [Hg1 [[-> Hv1]| ->]].
  - cbn [if_taken]. done.
  - assert (tr s (set_db d1 (set_db (Begin d) s))) as Ht1 by (split; [exact Hg1|done]).
    revert Ht1. generalize (set_db d1 (set_db (Begin d) s)). intros s2 Ht1 H2.
    eapply fine_weaken; [|exact Ht1|exact H2].
    repeat (first [apply fine_ask | apply fine_raw | apply fine_ret | apply fine_bind; [|intros ?]]).
Qed.
Lemma add_err w n s m inp s' e rest : ready w s m → db_txpoint (s_db s) = 0 → addNew w n s inp = (s', UErr e rest) → unchanged s s' ∧ holds (s_db s') m.
Proof. intros (Hh & [Ha _] & _ & _ & Hf & _). by apply add_err'. Qed.
Lemma holds_begin d m : holds d m → holds (Begin d) m. Proof. intros [[H1 H2] H3]. done. Qed.
Lemma holds_point d m : holds d m → holds (mk_db (db_version d) (db_snapshot d) (db_log d) 0) m. Proof. intros [[H1 H2] H3]. done. Qed.
Lemma new_holds e n d m : holds d m → all_named m → fair e → (∀ u, ¬ called m u n) → unused d (e_uuid e) → ∀ p,
  ∃ d', Model_Blobs.New e 0 n (mk_db (db_version d) (db_snapshot d) (db_log d) p) = (d', Ok (e_uuid e)) ∧ holds d' (<[e_uuid e := new_entry e n]> m) ∧ db_txpoint d' = p.
Proof.
  intros Hh Ha Hf Hn Hu p. assert (holds (mk_db (db_version d) (db_snapshot d) (db_log d) p) m) as Hh' by (destruct Hh as [[H1 H2] H3]; done).
  destruct (New_spec e 0 n _ m Hh' Ha Hf) as [[(u & Hc) _]|[_ H]]; [by destruct (Hn u)|]. destruct (H Hu) as (d' & E & H1 & H2 & _). eauto.
Qed.
Lemma raw_holds e i u k v d m b : holds d (<[u := b]> m) → ∃ d', raw_if e i u k v d = (d', Ok tt) ∧ holds d' (<[u := opt_key k v b]> m) ∧ db_txpoint d' = db_txpoint d.
Proof.
  intros Hh. unfold raw_if, opt_key. destruct v as [|c v].
  - exists d. done.
  - rewrite decide_False by done. cbn [String.length Nat.eqb]. eexists. split; [reflexivity|]. split; [|done].
    pose proof (holds_set (e_grow e i) (e_now e i) d u k (String c v) _ b Hh (lookup_insert _ _ _)) as H. by rewrite insert_insert in H.
Qed.
Lemma add_ok w n s m inp email r1 user r2 pass r3 : ready w s m → db_txpoint (s_db s) = 0 → (∀ u, ¬ called m u n) → unused (s_db s) (e_uuid (w_env w 0)) →
  prompt inp = UOk email r1 → prompt r1 = UOk user r2 → newPassword (w_rand w) r2 = UOk pass r3 →
  ∃ s', addNew w n s inp = (s', UOk [] r3) ∧
    became s s' (<[e_uuid (w_env w 0) := opt_key "pass" pass (opt_key "email" email (opt_key "user" user (new_entry (w_env w 0) n)))]> m).
Proof.
  intros Hr Htp Hn Hu P1 P2 P3. pose proof Hr as (Hh & [Ha _] & _ & _ & Hf & _).
  destruct (new_holds (w_env w 0) n (s_db s) m Hh Ha (Hf 0) Hn Hu (S (length (vis (db_log (s_db s)))))) as (d1 & E1 & H1 & T1).
  destruct (raw_holds (w_env w 1) 0 (e_uuid (w_env w 0)) KeyUser user d1 m _ H1) as (d2 & E2 & H2 & T2).
  destruct (raw_holds (w_env w 1) 1 (e_uuid (w_env w 0)) KeyEmail email d2 m _ H2) as (d3 & E3 & H3 & T3).
  destruct (raw_holds (w_env w 1) 2 (e_uuid (w_env w 0)) KeyPass pass d3 m _ H3) as (d4 & E4 & H4 & T4).
  set (s0 := set_db (Begin (s_db s)) s).
  eexists. split; [unfold addNew; apply (within_done _ s (set_db d4 s)); [|cbn [s_db set_db]; lia]|].
  - fold s0. assert (Model_Blobs.New (w_env w 0) 0 n (s_db s0) = (d1, Ok (e_uuid (w_env w 0)))) as E1'.
    { unfold s0. cbn [s_db set_db]. unfold Begin. rewrite Nat.add_1_r. exact E1. }
    rewrite (C_ok _ _ _ _ (set_db d1 s0) (Some (e_uuid (w_env w 0))) inp) by (unfold catching; by rewrite E1'). cbn iota.
    rewrite (C_ok _ _ _ _ (set_db d1 s0) email r1) by (unfold ask; by rewrite P1). rewrite (C_ok _ _ _ _ (set_db d1 s0) user r2) by (unfold ask; by rewrite P2).
    rewrite (C_ok _ _ _ _ (set_db d1 s0) pass r3) by (unfold ask; by rewrite P3).
    rewrite (C_ok _ _ _ _ (set_db d2 s0) tt r3) by (unfold on_db; cbn [s_db set_db]; by rewrite E2). rewrite (C_ok _ _ _ _ (set_db d3 s0) tt r3) by (unfold on_db; cbn [s_db set_db]; by rewrite E3).
    rewrite (C_ok _ _ _ _ (set_db d4 s0) tt r3) by (unfold on_db; cbn [s_db set_db]; by rewrite E4). done.
  - split; [cbn [s_db set_db]; by apply holds_point|]. split; [done|]. done.
Qed.
Lemma add_taken w n s m inp u : ready w s m → db_txpoint (s_db s) = 0 → called m u n →
  ∃ s', addNew w n s inp = (s', UOk [Note] inp) ∧ unchanged s s' ∧ holds (s_db s') m.
Proof.
  intros Hr Htp Hc. pose proof Hr as (Hh & [Ha _] & _ & _ & Hf & _).
  destruct (New_spec (w_env w 0) 0 n (Begin (s_db s)) m (holds_begin _ _ Hh) Ha (Hf 0)) as [[_ (d1 & E1 & H1 & V1 & T1)]|[Hn _]]; [|by destruct (Hn u)].
  eexists. split; [unfold addNew; apply (within_done _ s (set_db d1 s)); [|cbn [s_db set_db]; rewrite T1; cbn [Begin db_txpoint]; lia]|].
  - rewrite (C_ok _ _ _ _ (set_db d1 s) None inp) by (unfold catching; cbn [s_db set_db]; by rewrite E1). done.
  - split; [split; [exact V1|split; [cbn [s_db set_db db_txpoint]; done|done]]|]. cbn [s_db set_db]. by apply holds_point.
Qed.

(** ** addsync *)

(** a transaction in which entry [u] was added and has a name *)
Definition adding (s0 : session) (m : snapshot) (u n : string) (s : session) : Prop :=
  tr s0 s ∧ ∃ b, holds (s_db s) (<[u := b]> m) ∧ b !! "name" = Some n.
Lemma adding_set s0 m u n s e i k v : k ≠ "name" → adding s0 m u n s → adding s0 m u n (set_db (dbSet e i u k v (s_db s)).1 s).
Proof.
  intros Hk [[Hg Ho] (b & Hb & Hn)]. split; [apply tr_db; [done|by apply grown_set]|].
  exists (<[k := v]> b). split; [|by rewrite lookup_insert_ne]. cbn [s_db set_db].
  pose proof (holds_set (e_grow e i) (e_now e i) _ u k v _ b Hb (lookup_insert _ _ _)) as H. by rewrite insert_insert in H.
Qed.
Lemma Set_key_two e i u k v d : ¬ protected_key k → Set_key e i u k v d = dbSet e (S (S i)) u k v (dbSet e (S i) u "updated" (FormatInt (e_now e i)) d).1.
Proof. intros H. rewrite Set_key_open by done. done. Qed.
Lemma adding_Set_key s0 m u n s e i k v : ¬ protected_key k → adding s0 m u n s → adding s0 m u n (set_db (dropping (Set_key e i u k v) (s_db s)).1 s).
Proof.
  intros Hk H. pose proof (protected_ne k Hk) as [Hn _].
  pose proof (adding_set s0 m u n s e (S i) "updated" (FormatInt (e_now e i)) ltac:(done) H) as H1.
  pose proof (adding_set s0 m u n _ e (S (S i)) k v Hn H1) as H2. unfold dropping. rewrite Set_key_two by done. exact H2.
Qed.
Lemma priv_open : ¬ protected_key "privkey". Proof. rewrite <-protected_spec. by vm_compute. Qed.
Lemma pub_open : ¬ protected_key "pubkey". Proof. rewrite <-protected_spec. by vm_compute. Qed.
Lemma fine_set s0 m u n e i k v : k ≠ "name" → fine (adding s0 m u n) (on_db (dbSet e i u k v)).
Proof. intros. apply fine_db. intros s Hs. by apply adding_set. Qed.
Lemma fine_Set_key s0 m u n e i k v : ¬ protected_key k → fine (adding s0 m u n) (on_db (dropping (Set_key e i u k v))).
Proof. intros. apply fine_db. intros s Hs. by apply adding_Set_key. Qed.
Lemma fine_scp s0 m u n w : fine (adding s0 m u n) (addSCPEntry w u).
Proof.
  unfold addSCPEntry. do 5 (apply fine_bind; [apply fine_ask|intros ?]). apply fine_if.
  - apply fine_bind; [apply fine_ask|intros ?]. apply fine_ret.
  - apply fine_bind; [|intros ?; apply fine_ret]. destruct (w_sshkey w _) as [[priv pub]|]; [|apply fine_ret].
    apply fine_bind; [apply fine_Set_key, priv_open|intros _]. apply fine_if; [apply fine_Set_key, pub_open|by apply fine_set].
Qed.
Lemma newsync_here e kind s m : holds (s_db s) m → all_named m → fair e → unused (s_db s) (e_uuid e) →
  ∃ k d', NewSync (S (length (vis (db_log (s_db s))))) e kind (Begin (s_db s)) = Some (d', Ok (e_uuid e)) ∧
    (∀ i, i < k → ∃ u, called m u ("sync/" +:+ kind +:+ ones i)) ∧
    (∀ u, ¬ called m u ("sync/" +:+ kind +:+ ones k)) ∧
    grown (s_db s) d' ∧ holds d' (<[e_uuid e := new_entry e ("sync/" +:+ kind +:+ ones k)]> m).
Proof.
  intros Hh Ha Hf Hu. pose proof (grown_begin _ (proj1 Hh)) as Hg.
  destruct (NewSync_spec e kind (Begin (s_db s)) m (holds_begin _ _ Hh) Ha Hf Hu) as (k & d' & E & H1 & H2 & H3).
  exists k, d'. assert (NewSync (S (length (vis (db_log (s_db s))))) e kind (Begin (s_db s)) = Some (d', Ok (e_uuid e))) as E'.
  { unfold NewSync in *. eapply newsync_more; [exact E|]. pose proof (size_le_log _ _ (proj2 Hh)). lia. }
  split; [exact E'|]. split; [done|]. split; [done|]. split; [|done]. unfold NewSync in E'.
  by apply (newsync_grown _ (s_db s) m (Begin (s_db s))) in E'.
Qed.
Lemma find_named s0 m u n s inp : adding s0 m u n s → ∃ s' b, on_db (Find u) s inp = (s', UOk (Some b) inp) ∧ b !! "name" = Some n ∧ s_db s' = (UpdateSnapshot (s_db s)).1 ∧
  holds (s_db s') (<[u := b]> m) ∧ db_txpoint (s_db s') = db_txpoint (s_db s) ∧ s' = set_db (s_db s') s.
Proof.
  intros [_ (b & Hb & Hn)]. destruct (holds_update _ _ Hb) as (d' & E & Hs & Hv & Htp & Hh').
  exists (set_db d' s), b. unfold on_db, Find, mbind, M_bind. rewrite E. unfold get_snap, mret, M_ret. rewrite Hs, lookup_insert. done.
Qed.
Lemma addsync_err' w kind s m inp s' e rest : holds (s_db s) m → all_named m → (∀ i, fair (w_env w i)) → db_txpoint (s_db s) = 0 → unused (s_db s) (e_uuid (w_env w 0)) →
  addSync w kind s inp = (s', UErr e rest) → unchanged s s' ∧ holds (s_db s') m.
Proof.
  intros Hh Ha Hf Htp Hu. unfold addSync. destruct (negb _); [done|].
  intros H. destruct (newsync_here (w_env w 0) kind s m Hh Ha (Hf 0) Hu) as (k & d1 & E1 & _ & _ & Hg1 & H1).
  set (u := e_uuid (w_env w 0)) in *. set (n := "sync/" +:+ kind +:+ ones k) in *.
  unfold within in H.
  rewrite (C_ok _ _ _ _ (set_db (Begin (s_db s)) s) (set_db (Begin (s_db s)) s) inp) in H by done.
  rewrite (C_ok _ _ _ _ (set_db d1 s) u inp) in H by (unfold on_db; cbn [s_db set_db Begin db_log]; rewrite E1; done).
  assert (adding s m u n (set_db d1 s)) as Ht1. { split; [split; [exact Hg1|done]|]. exists (new_entry (w_env w 0) n). split; [exact H1|]. apply lookup_insert. }
  revert H. match goal with |- context [match ?x (set_db d1 s) inp with _ => _ end] => assert (fine_err (adding s m u n) x) as Hx; [|destruct (x (set_db d1 s) inp) as [s1 [a r|e1 r| |]] eqn:E2] end.
  { apply fine_err_bind.
    { apply fine_if; [|apply fine_scp]. apply fine_bind; [apply fine_ask|intros f]. destruct (w_abs w f); [apply fine_ret|apply fine_try]. }
    intros url. apply fine_err_bind; [by apply fine_set|intros _]. apply fine_err_bind; [by apply fine_set|intros _].
    intros sx ix sy ey ry Ht. destruct (find_named _ _ _ _ _ ix Ht) as (s2 & b & E3 & Hn & _).
    rewrite (C_ok _ _ _ _ _ _ _ E3). rewrite (C_ok _ _ _ _ s2 n ix) by (unfold try, Name, KeyName; rewrite Hn; done). done. }
  - by destruct (Commit (s_db s1)).
  - destruct (Hx _ _ _ _ _ Ht1 E2) as [[Hg Ho] _]. destruct (grown_rollback _ _ Hg) as (d' & E' & Hc & Hv & Htp'). rewrite E'. intros [= <- <- <-].
    split; [split; [done|]; split; [cbn [s_db set_db]; congruence|]|].
    + cbn [s_db set_db]. unfold only_db in Ho. rewrite Ho. by rewrite set_set_db.
    + split; [done|]. cbn [s_db set_db]. rewrite Hv. apply Hh.
  - done.
  - done.
Qed.

Lemma addsync_err w kind s m inp s' e rest : ready w s m → db_txpoint (s_db s) = 0 → unused (s_db s) (e_uuid (w_env w 0)) →
  addSync w kind s inp = (s', UErr e rest) → unchanged s s' ∧ holds (s_db s') m.
Proof. intros (Hh & [Ha _] & _ & _ & Hf & _). by apply addsync_err'. Qed.

(** What a new sync entry holds, step by step. *)
Definition synced (m : snapshot) (s0 : session) (u : string) (s : session) (b : entry) : Prop :=
  holds (s_db s) (<[u := b]> m) ∧ db_txpoint (s_db s) = S (length (vis (db_log (s_db s0)))) ∧ only_db s0 s.
Lemma synced_set m s0 u s b e i k v inp : synced m s0 u s b → ∃ s', on_db (dbSet e i u k v) s inp = (s', UOk tt inp) ∧ synced m s0 u s' (<[k := v]> b).
Proof.
  intros (Hh & Ht & Ho). eexists. split; [reflexivity|]. split; [|split].
  - cbn [s_db set_db]. pose proof (holds_set (e_grow e i) (e_now e i) _ u k v _ b Hh (lookup_insert _ _ _)) as H. by rewrite insert_insert in H.
  - done.
  - unfold only_db in *. rewrite Ho. done.
Qed.
Lemma synced_Set_key m s0 u s b e i k v inp : ¬ protected_key k → synced m s0 u s b →
  ∃ s' t, on_db (dropping (Set_key e i u k v)) s inp = (s', UOk tt inp) ∧ synced m s0 u s' (<[k := v]> (<["updated" := t]> b)).
Proof.
  intros Hk H. destruct (synced_set m s0 u s b e (S i) "updated" (FormatInt (e_now e i)) inp H) as (s1 & E1 & H1).
  destruct (synced_set m s0 u s1 _ e (S (S i)) k v inp H1) as (s2 & E2 & H2). exists s2, (FormatInt (e_now e i)).
  split; [|done]. unfold on_db, dropping. rewrite Set_key_two by done. injection E1 as <-. injection E2 as <-. done.
Qed.
Lemma scp_url w u s0 s m b inp url keys rest : scp_answers w inp url keys rest → synced m s0 u s b →
  ∃ s' b', addSCPEntry w u s inp = (s', UOk url rest) ∧ synced m s0 u s' b' ∧
    ∀ k, k ≠ "updated" → b' !! k = if decide (k = "privkey") then (match keys with Some p => Some p.1 | None => b !! k end) else if decide (k = "pubkey") then (match keys with Some p => Some p.2 | None => b !! k end) else b !! k.
Proof.
  intros (user & host & port & file & choice & r1 & r2 & r3 & r4 & r5 & A1 & A2 & A3 & A4 & A5 & H) Hs. unfold addSCPEntry.
  rewrite (C_ok _ _ _ _ s user r1) by (unfold ask; by rewrite A1). rewrite (C_ok _ _ _ _ s host r2) by (unfold ask; by rewrite A2).
  rewrite (C_ok _ _ _ _ s port r3) by (unfold ask; by rewrite A3). rewrite (C_ok _ _ _ _ s file r4) by (unfold ask; by rewrite A4).
  rewrite (C_ok _ _ _ _ s choice r5) by (unfold ask; by rewrite A5).
  destruct (decide (choice = 2%Z)) as [->|Hc].
  - destruct H as (pass & A6 & -> & ->). change (2 =? 2)%Z with true. cbn iota. rewrite (C_ok _ _ _ _ s pass rest) by (unfold ask; by rewrite A6).
    exists s, b. split; [done|]. split; [done|]. intros k Hk. by repeat case_decide.
  - destruct H as (-> & -> & ->). rewrite (proj2 (Z.eqb_neq _ _)) by done.
    destruct (w_sshkey w choice) as [[priv pub]|].
    + destruct (synced_Set_key m s0 u s b (w_env w 1) 0 "privkey" priv r5 priv_open Hs) as (s1 & t1 & E1 & H1).
      assert (∃ s2 b2, (if (choice =? 0)%Z then on_db (dropping (Set_key (w_env w 2) 0 u KeyPub pub)) else on_db (dbSet (w_env w 2) 0 u KeyPub pub)) s1 r5 = (s2, UOk tt r5) ∧
        synced m s0 u s2 b2 ∧ ∀ k, k ≠ "updated" → b2 !! k = if decide (k = "privkey") then Some priv else if decide (k = "pubkey") then Some pub else b !! k) as (s2 & b2 & E2 & H2 & Hb2).
      { destruct (choice =? 0)%Z.
        - destruct (synced_Set_key m s0 u s1 _ (w_env w 2) 0 "pubkey" pub r5 pub_open H1) as (s2 & t2 & E2 & H2).
          eexists s2, _. split; [exact E2|]. split; [exact H2|]. intros k Hk. repeat case_decide; subst; simplify_map_eq; done.
        - destruct (synced_set m s0 u s1 _ (w_env w 2) 0 "pubkey" pub r5 H1) as (s2 & E2 & H2).
          eexists s2, _. split; [exact E2|]. split; [exact H2|]. intros k Hk. repeat case_decide; subst; simplify_map_eq; done. }
      exists s2, b2. split; [|split; [done|exact Hb2]].
      rewrite (C_ok _ _ _ _ s2 tt r5); [done|]. rewrite (C_ok _ _ _ _ _ _ _ E1). exact E2.
    + exists s, b. split; [done|]. split; [done|]. intros k Hk. by repeat case_decide.
Qed.
Lemma addsync_ok w kind s m inp url keys rest : ready w s m → db_txpoint (s_db s) = 0 → unused (s_db s) (e_uuid (w_env w 0)) →
  sync_answers w kind inp url keys rest →
  ∃ k s' b, addSync w kind s inp = (s', UOk [Names ["sync/" +:+ kind +:+ ones k]] rest) ∧
    (∀ i, i < k → ∃ u, called m u ("sync/" +:+ kind +:+ ones i)) ∧ (∀ u, ¬ called m u ("sync/" +:+ kind +:+ ones k)) ∧
    became s s' (<[e_uuid (w_env w 0) := b]> m) ∧ sync_entry ("sync/" +:+ kind +:+ ones k) url keys b.
Proof.
  intros Hr Htp Hu Hans. pose proof Hr as (Hh & [Ha _] & _ & _ & Hf & _).
  destruct (newsync_here (w_env w 0) kind s m Hh Ha (Hf 0) Hu) as (k & d1 & E1 & Hlow & Hfree & Hg1 & H1).
  set (u := e_uuid (w_env w 0)) in *. set (n := "sync/" +:+ kind +:+ ones k) in *.
  assert (synced m s u (set_db d1 s) (new_entry (w_env w 0) n)) as Hs1. { split; [exact H1|]. split; [apply Hg1|done]. }
  assert (∃ s2 b2, (if String.eqb kind syncFile then file ← ask getString; match w_abs w file with None => try (Fail EEnd) | Some abs => mret (w_file_url w abs) end
      else addSCPEntry w u) (set_db d1 s) inp = (s2, UOk url rest) ∧ synced m s u s2 b2 ∧
      ∀ j, j ≠ "updated" → b2 !! j = if decide (j = "name") then Some n else if decide (j = "privkey") then fst <$> keys else if decide (j = "pubkey") then snd <$> keys else None) as (s2 & b2 & E2 & Hs2 & Hb2).
  { destruct Hans as [(-> & f & abs & A1 & A2 & -> & ->)|[-> Hscp]].
    - exists (set_db d1 s), (new_entry (w_env w 0) n). split; [|split; [done|]].
      + change (String.eqb "file" syncFile) with true. cbn iota. rewrite (C_ok _ _ _ _ (set_db d1 s) f rest) by (unfold ask; by rewrite A1). by rewrite A2.
      + intros j Hj. unfold new_entry. repeat case_decide; subst; simplify_map_eq; done.
    - change (String.eqb "scp" syncFile) with false. cbn iota. destruct (scp_url w u s (set_db d1 s) m _ inp url keys rest Hscp Hs1) as (s2 & b2 & E2 & Hs2 & Hb2).
      exists s2, b2. split; [done|]. split; [done|]. intros j Hj. rewrite Hb2 by done. unfold new_entry. destruct keys; repeat case_decide; subst; simplify_map_eq; done. }
  destruct (synced_set m s u s2 b2 (w_env w 3) 0 "sync" "true" rest Hs2) as (s3 & E3 & Hs3).
  destruct (synced_set m s u s3 _ (w_env w 3) 1 "url" url rest Hs3) as (s4 & E4 & Hs4).
  pose proof Hs4 as (Hh4 & Ht4 & Ho4).
  assert (∃ s5, on_db (Find u) s4 rest = (s5, UOk (Some (<["url" := url]> (<["sync" := "true"]> b2))) rest) ∧ synced m s u s5 (<["url" := url]> (<["sync" := "true"]> b2))) as (s5 & E5 & Hs5).
  { destruct (holds_update _ _ Hh4) as (d' & E & Hsn & Hv & Htp' & Hh'). exists (set_db d' s4). unfold on_db, Find, mbind, M_bind. rewrite E. unfold get_snap, mret, M_ret.
    rewrite Hsn, lookup_insert. split; [done|]. split; [exact Hh'|]. split; [cbn [s_db set_db]; congruence|]. unfold only_db in *. by rewrite Ho4. }
  destruct Hs5 as (Hh5 & Ht5 & Ho5).
  eexists k, _, _. split; [|split; [exact Hlow|split; [exact Hfree|split]]].
  - unfold addSync. replace (negb _) with false by (destruct Hans as [[-> _]|[-> _]]; done).
    apply (within_done _ s s5); [|lia].
    rewrite (C_ok _ _ _ _ (set_db (Begin (s_db s)) s) (set_db (Begin (s_db s)) s) inp) by done.
    rewrite (C_ok _ _ _ _ (set_db d1 s) u inp) by (unfold on_db; cbn [s_db set_db Begin db_log]; rewrite E1; done).
    rewrite (C_ok _ _ _ _ _ _ _ E2). rewrite (C_ok _ _ _ _ _ _ _ E3). rewrite (C_ok _ _ _ _ _ _ _ E4). rewrite (C_ok _ _ _ _ _ _ _ E5).
    rewrite (C_ok _ _ _ _ s5 n rest); [done|]. unfold try, Name. rewrite !lookup_insert_ne by done. unfold KeyName. rewrite Hb2 by done. done.
  - split; [cbn [s_db set_db]; by apply holds_point, Hh5|]. split; [done|]. unfold only_db in Ho5. rewrite Ho5. done.
  - intros j Hj. repeat case_decide; subst; simplify_map_eq; rewrite ?Hb2 by done; by repeat case_decide.
Qed.
