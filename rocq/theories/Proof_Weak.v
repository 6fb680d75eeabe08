(** Proofs that a store whose history can be replayed stays one whatever is
    typed, also when names are missing or not unique. *)
From Verif Require Import Proof_TxLog Proof_GoStr Proof_Utf8 Proof_Dialogue Proof_Blobs Proof_Blobs2 Proof_Session2 Proof_Session3 Proof_Session5 Proof_Text2.
From Verif Require Export Proof_Repl5.
From Coq Require Import Lia.
From stdpp Require Import options.
Import Model_GoStr Proof_Utf8.
#[local] Open Scope nat_scope.

(** ** Stores whose history can be replayed *)
Definition winv (d : db) : Prop := ∃ m, holds d m.

Lemma wlive_extend d d' l u : winv d' → live d u → vis (db_log d') = vis (db_log d) ++ l → Forall (λ t, tx_uuid t = u → tx_kind t ≠ "del") l → live d' u.
Proof.
  intros (m' & [_ Hr]) (m & b & Hm & Hb) Hv Hl. rewrite Hv in Hr.
  enough (∀ m0, replays (vis (db_log d) ++ l) m0 → is_Some (m0 !! u)) as He.
  { destruct (He m' Hr) as [b' Hb']. exists m', b'. by rewrite Hv. }
  clear Hr Hv. revert Hl. induction l as [|t l IH] using rev_ind; intros Hl m0 H0.
  - rewrite app_nil_r in H0. rewrite (replays_det _ _ _ H0 Hm). eauto.
  - apply Forall_app in Hl as [Hl Ht]. apply (proj1 (Forall_singleton _ _)) in Ht. rewrite app_assoc in H0. apply replays_snoc in H0 as (m1 & H1 & Hs). specialize (IH Hl m1 H1).
    inversion Hs; subst; cbn [tx_uuid tx_kind] in *.
    + destruct (decide (u0 = u)) as [->|]; [rewrite lookup_insert|rewrite lookup_insert_ne by done]; eauto.
    + destruct (decide (u0 = u)) as [->|]; [exfalso; by apply Ht|]. by rewrite lookup_delete_ne.
    + destruct (decide (u0 = u)) as [->|]; [rewrite lookup_insert|rewrite lookup_insert_ne by done]; eauto.
    + destruct (decide (u0 = u)) as [->|]; [rewrite lookup_insert|rewrite lookup_insert_ne by done]; eauto.
    + done.
Qed.

(** ** Reading *)
Definition wkeep {A} (m : M A) : Prop := ∀ d, winv d → winv (m d).1.
Lemma wkeep_ret {A} (a : A) : wkeep (mret a). Proof. by intros d. Qed.
Lemma wkeep_lift {A} (o : outcome A) : wkeep (lift o). Proof. by intros d. Qed.
Lemma wkeep_get : wkeep get_snap. Proof. by intros d. Qed.
Lemma wkeep_update : wkeep UpdateSnapshot.
Proof. intros d [m Hm]. destruct (holds_update d m Hm) as (d' & E & _ & _ & _ & Hh). rewrite E. by exists m. Qed.
Lemma wkeep_bind {A B} (f : A → M B) (m : M A) : wkeep m → (∀ a, wkeep (f a)) → wkeep (mbind f m).
Proof. intros Hm Hf d Hd. unfold mbind, M_bind. pose proof (Hm d Hd). destruct (m d) as [d' [a| |]]; cbn [fst] in *; [by apply Hf|done|done]. Qed.
Lemma wkeep_if {A} (b : bool) (x y : M A) : wkeep x → wkeep y → wkeep (if b then x else y). Proof. by destruct b. Qed.
Ltac wki := repeat (first
  [ apply wkeep_ret | apply wkeep_lift | apply wkeep_get | apply wkeep_update | apply wkeep_if | apply wkeep_bind; [|intros ?]
  | match goal with |- wkeep (match ?x with _ => _ end) => destruct x end ]).
Lemma wkeep_Find u : wkeep (Find u). Proof. unfold Find. wki. Qed.
Lemma wkeep_MustFind u : wkeep (MustFind u). Proof. unfold MustFind. apply wkeep_bind; [apply wkeep_Find|]. intros ?; wki. Qed.
Lemma wkeep_Search lower e q : wkeep (Search lower e q). Proof. unfold Search. cbv zeta. wki. Qed.
Lemma wkeep_SearchLabels e q : wkeep (SearchLabels e q). Proof. unfold SearchLabels. cbv zeta. wki. Qed.
Lemma wkeep_findOne lower ord e q : wkeep (findOne lower ord e q). Proof. unfold findOne. apply wkeep_bind; [apply wkeep_Search|]. intros ?; cbv zeta. wki. Qed.
Lemma wkeep_FindByName e n : wkeep (FindByName e n). Proof. unfold FindByName. wki. Qed.
Lemma wkeep_MustFindUser e n : wkeep (MustFindUser e n). Proof. unfold MustFindUser, FindUser. apply wkeep_bind; [apply wkeep_FindByName|]. intros ?; wki. Qed.
Lemma wkeep_Users e : wkeep (Model_Blobs.Users e). Proof. unfold Model_Blobs.Users. wki. Qed.

(** the entries found are there *)
Lemma wsearch_live lower e q d d' r u n : winv d → fair e → Search lower e q d = (d', Ok r) → res_map r !! u = Some n → live d' u.
Proof.
  intros (m & Hh) Hf. destruct (holds_update d m Hh) as (d1 & E & Hs & Hv & _ & Hh1). unfold Search, mbind, M_bind. rewrite E. unfold get_snap. rewrite Hs.
  destruct (size m =? 0); [by intros [= <- <-]|].
  assert (∀ keep mm, collect keep (e_ord e 0 m) ∅ = Ok mm → mm !! u = Some n → live d1 u) as Hc.
  { intros keep mm H Hu. apply (collect_in _ _ _ _ _ _ H) in Hu as [Hu|Hu]; [done|]. apply (live_snap d1 m); [done|]. by eapply fair_in. }
  destruct (String.eqb q "").
  - unfold allEntries, lift. destruct (e_ord e 0 m) as [|x l] eqn:Eo; [by intros [= <- <-]|]. destruct (collect _ (x :: l) ∅) as [mm| |] eqn:Ec; [|done|done].
    intros [= <- <-] Hu. by eapply Hc.
  - unfold lift. destruct (collect _ (e_ord e 0 m) ∅) as [mm| |] eqn:Ec; [|done|done]. intros [= <- <-] Hu. by eapply Hc.
Qed.
Lemma wfindOne_live lower ord e q d d' u : winv d → fair e → fair_results ord → findOne lower ord e q d = (d', Ok u) → u ≠ "" → live d' u.
Proof.
  intros Hi Hf Ho. unfold findOne. unfold mbind at 1, M_bind at 1. destruct (Search lower e q d) as [d1 [r| |]] eqn:E; [|done|done].
  assert (∀ x n, (x, n) ∈ ord (res_map r) → live d1 x) as Hl. { intros x n H. rewrite (Ho _) in H. apply elem_of_map_to_list in H. by eapply wsearch_live. }
  cbv zeta. destruct (ord (res_map r)) as [|[x n] [|y l]]; unfold mret, M_ret; intros [= <- <-] Hu; [done| |].
  - apply (Hl x n). by left.
  - destruct (exact_in q ((x, n) :: y :: l) Hu) as [z Hz]. by apply (Hl _ z).
Qed.
Lemma wfind_name_in n l u b : find_name n l = Ok (Some (u, b)) → (u, b) ∈ l.
Proof.
  induction l as [|[x y] l IH]; [done|]. cbn [find_name]. destruct (Name y) as [nm| |]; [|done|done].
  destruct (String.eqb _ _); [intros [= -> ->]; by left|]. intros H. right. by apply IH.
Qed.
Lemma wFindByName_live e n d d' u b : winv d → fair e → FindByName e n d = (d', Ok (Some (u, b))) → live d' u.
Proof.
  intros (m & Hh) Hf. destruct (holds_update d m Hh) as (d1 & E & Hs & _ & _ & Hh1). unfold FindByName, mbind, M_bind. rewrite E. unfold get_snap. rewrite Hs.
  unfold lift. intros [= <- E2]. apply (live_snap d1 m); [done|]. apply wfind_name_in in E2. eapply fair_in; [exact Hf|]. apply elem_of_list_fmap. by exists (u, b).
Qed.
Lemma wMustFindUser_live e n d d' u b : winv d → fair e → MustFindUser e n d = (d', Ok (u, b)) → live d' u.
Proof.
  intros Hi Hf. unfold MustFindUser, FindUser. unfold mbind, M_bind. destruct (FindByName _ _ d) as [d1 [[[x y]|]| |]] eqn:E; [|done|done|done].
  destruct (String.eqb x ""); [done|]. unfold mret, M_ret. intros [= <- <- <-]. by eapply wFindByName_live.
Qed.
Lemma wUsers_live e d d' r u n : winv d → fair e → Model_Blobs.Users e d = (d', Ok r) → res_map r !! u = Some n → live d' u.
Proof.
  intros (m & Hh) Hf. destruct (holds_update d m Hh) as (d1 & E & Hs & _ & _ & Hh1). unfold Model_Blobs.Users, mbind, M_bind. rewrite E. unfold get_snap. rewrite Hs.
  unfold lift. destruct (collect _ (e_ord e 0 m) ∅) as [mm| |] eqn:Ec; [|done|done]. destruct (size mm =? 0); intros [= <- <-] Hu; [done|].
  apply (collect_in _ _ _ _ _ _ Ec) in Hu as [Hu|Hu]; [done|]. apply (live_snap d1 m); [done|]. by eapply fair_in.
Qed.

(** ** Operations on an entry that is there *)
Definition wop {A} (u : string) (m : M A) : Prop := ∀ d, winv d → live d u → winv (m d).1 ∧ live (m d).1 u.
Lemma wop_ret {A} u (a : A) : wop u (mret a). Proof. by intros d. Qed.
Lemma wop_lift {A} u (o : outcome A) : wop u (lift o). Proof. by intros d. Qed.
Lemma wop_bind {A B} u (f : A → M B) (m : M A) : wop u m → (∀ a, wop u (f a)) → wop u (mbind f m).
Proof. intros Hm Hf d Hd Hl. unfold mbind, M_bind. pose proof (Hm d Hd Hl) as [H1 H2]. destruct (m d) as [d' [a| |]]; cbn [fst] in *; [by apply (Hf a d')|done|done]. Qed.
Lemma wop_if {A} u (b : bool) (x y : M A) : wop u x → wop u y → wop u (if b then x else y). Proof. by destruct b. Qed.
Lemma wop_read {A} u (m : M A) : quiet m → wkeep m → wop u m.
Proof. intros Hq Hk d Hd Hl. destruct (Hq d) as [H1 _]. split; [by apply Hk|]. apply (live_vis d); [by rewrite H1|done]. Qed.
Lemma wop_dropping u m : wop u m → wop u (dropping m).
Proof. intros H d Hd Hl. unfold dropping. pose proof (H d Hd Hl). destruct (m d) as [d' [a| |]]; done. Qed.
Lemma wop_set u e i k v : wop u (dbSet e i u k v).
Proof.
  intros d [m Hm] Hl. destruct (live_lookup d m u Hm Hl) as [b Hb]. unfold dbSet, modify. cbn [fst].
  pose proof (holds_set (e_grow e i) (e_now e i) d u k v m b Hm Hb) as H. split; [by eexists|]. eapply live_snap; [exact H|]. rewrite lookup_insert. eauto.
Qed.
Lemma wop_delk u e i k : wop u (dbDeleteKey e i u k).
Proof.
  intros d [m Hm] Hl. destruct (live_lookup d m u Hm Hl) as [b Hb]. unfold dbDeleteKey, modify. cbn [fst].
  pose proof (holds_deletekey (e_grow e i) (e_now e i) d u k m b Hm Hb) as H. split; [by eexists|]. eapply live_snap; [exact H|]. rewrite lookup_insert. eauto.
Qed.
Ltac wopt := repeat (first
  [ apply wop_ret | apply wop_lift | apply wop_set | apply wop_delk
  | apply wop_read; first [apply quiet_MustFind | apply quiet_Find | apply quiet_update | apply quiet_get | apply wkeep_MustFind | apply wkeep_Find | apply wkeep_update | apply wkeep_get]
  | apply wop_if | apply wop_dropping | apply wop_bind; [|intros ?]
  | match goal with |- wop _ (match ?x with _ => _ end) => destruct x end ]).
Lemma wop_Set_key e i u k v : wop u (Set_key e i u k v). Proof. unfold Set_key, touchUpdated. wopt. Qed.
Lemma wop_DeleteKey e u k : wop u (DeleteKey_key e u k). Proof. unfold DeleteKey_key, touchUpdated. wopt. Qed.
Lemma wop_Rename e u n : wop u (Rename e u n). Proof. unfold Rename, touchUpdated. wopt. Qed.
Lemma wop_Twofactor c ok e u v : wop u (SetTwofactor c ok e u v). Proof. unfold SetTwofactor, touchUpdated. cbv zeta. wopt. Qed.
Lemma wop_RemoveLabel e u i : wop u (RemoveLabel e u i).
Proof. unfold RemoveLabel, touchUpdated. apply wop_bind; [wopt|]. intros b. cbv zeta. wopt. Qed.

(** ** A new entry, whatever the names *)
Lemma New_any e j n d m d' r : holds d m → m !! e_uuid e = None → Model_Blobs.New e j n d = (d', r) →
  (r = Ok (e_uuid e) ∧ holds d' (<[e_uuid e := new_entry e n]> m)) ∨ ((∀ u, r ≠ Ok u) ∧ holds d' m ∧ vis (db_log d') = vis (db_log d)).
Proof.
  intros Hh Hu. destruct (holds_update d m Hh) as (d1 & E & Hs & Hv & _ & Hh1). unfold Model_Blobs.New, mbind, M_bind. rewrite E. unfold get_snap. rewrite Hs.
  unfold lift. destruct (name_taken n (e_ord e j m)) as [[]|x|].
  - intros [= <- <-]. right. done.
  - unfold touchUpdated, modify, dbSet, mret, M_ret. intros [= <- <-]. left. split; [done|].
    pose proof (holds_add (e_grow e 0) (e_now e 0) d1 (e_uuid e) m Hh1 Hu) as H1.
    pose proof (holds_set (e_grow e 2) (e_now e 2) _ (e_uuid e) KeyUpdated (FormatInt (e_now e 1)) _ _ H1 (lookup_insert _ _ _)) as H2.
    pose proof (holds_set (e_grow e 3) (e_now e 3) _ (e_uuid e) KeyName n _ _ H2 (lookup_insert _ _ _)) as H3.
    rewrite !insert_insert in H3. exact H3.
  - intros [= <- <-]. right. done.
  - intros [= <- <-]. right. done.
Qed.
Lemma New_grown_any d0 m d e j n d' r : holds d0 m → m !! e_uuid e = None → grown d0 d → vis (db_log d) = vis (db_log d0) → Model_Blobs.New e j n d = (d', r) →
  grown d0 d' ∧ ((r = Ok (e_uuid e) ∧ holds d' (<[e_uuid e := new_entry e n]> m)) ∨ ((∀ u, r ≠ Ok u) ∧ vis (db_log d') = vis (db_log d0))).
Proof.
  intros Hh Hu Hg Hv E. split.
  - revert E. destruct (grown_update d0 m d Hh Hg Hv) as (d1 & E & Hg1 & Hv1 & Hs1).
    unfold Model_Blobs.New, mbind, M_bind. rewrite E. unfold get_snap. rewrite Hs1.
    unfold lift. destruct (name_taken n (e_ord e j m)) as [[]|x|]; [by intros [= <- <-]| |by intros [= <- <-]|by intros [= <- <-]].
    unfold touchUpdated, modify, dbSet, mret, M_ret. intros [= <- <-]. by repeat apply grown_append.
  - assert (holds d m) as Hd. { split; [apply Hg|]. rewrite Hv. apply Hh. }
    destruct (New_any e j n d m d' r Hd Hu E) as [H|(H1 & _ & H3)]; [by left|]. right. split; [done|congruence].
Qed.
Lemma newsync_any fuel : ∀ d0 m d e j n d' r, holds d0 m → m !! e_uuid e = None → grown d0 d → vis (db_log d) = vis (db_log d0) →
  newsync_loop fuel e j n d = Some (d', r) →
  grown d0 d' ∧ ((r = Ok (e_uuid e) ∧ ∃ n', holds d' (<[e_uuid e := new_entry e n']> m)) ∨ ((∀ u, r ≠ Ok u) ∧ vis (db_log d') = vis (db_log d0))).
Proof.
  induction fuel as [|f IH]; intros d0 m d e j n d' r Hh Hu Hg Hv; [done|]. cbn [newsync_loop].
  destruct (Model_Blobs.New e j n d) as [d1 r1] eqn:E. destruct (New_grown_any d0 m d e j n d1 r1 Hh Hu Hg Hv E) as [Hg1 [[-> H1]|[H1 H2]]].
  - intros [= <- <-]. split; [done|]. left. eauto.
  - assert (Some (d1, r1) = Some (d', r) → grown d0 d' ∧ ((r = Ok (e_uuid e) ∧ ∃ n', holds d' (<[e_uuid e := new_entry e n']> m)) ∨ ((∀ u, r ≠ Ok u) ∧ vis (db_log d') = vis (db_log d0)))) as Hd.
    { intros [= <- <-]. split; [done|]. by right. }
    destruct r1 as [x|x|]; [done| |done]. destruct x; try done. by apply (IH d0 m).
Qed.
Lemma newsync_ok fuel : ∀ d m e j n d' u, holds d m → m !! e_uuid e = None → newsync_loop fuel e j n d = Some (d', Ok u) →
  u = e_uuid e ∧ ∃ n', holds d' (<[e_uuid e := new_entry e n']> m).
Proof.
  induction fuel as [|f IH]; intros d m e j n d' u Hh Hu; [done|]. cbn [newsync_loop].
  destruct (Model_Blobs.New e j n d) as [d1 r1] eqn:E. destruct (New_any e j n d m d1 r1 Hh Hu E) as [[-> H1]|(H1 & H2 & _)].
  - intros [= <- <-]. eauto.
  - destruct r1 as [x|x|]; [by destruct (H1 x)| |done]. destruct x; try done. by apply IH.
Qed.
Lemma wadd_err w n s m inp s' e rest : holds (s_db s) m → m !! e_uuid (w_env w 0) = None → db_txpoint (s_db s) = 0 →
  addNew w n s inp = (s', UErr e rest) → unchanged s s' ∧ holds (s_db s') m.
Proof.
  intros Hh Hu Htp. unfold addNew. set (d := s_db s) in *.
  intros H.
  assert (∀ body : C (list out), within body s inp = (s', UErr e rest) → (∀ s1, body (set_db (Begin d) s) inp = (s1, UErr e rest) → tr s s1) → unchanged s s' ∧ holds (s_db s') m) as Hw.
  { clear H. intros body Hb Ht. unfold within in Hb. fold d in Hb. destruct (body (set_db (Begin d) s) inp) as [s1 [a r|e1 r| |]] eqn:E; [by destruct (Commit (s_db s1))| |done|done].
    assert (e1 = e ∧ r = rest) as [-> ->] by (destruct (Rollback (s_db s1)); by inversion Hb).
    destruct (Ht s1 eq_refl) as [Hg Ho]. destruct (grown_rollback _ _ Hg) as (d' & E' & Hc & Hv & Htp'). rewrite E' in Hb. injection Hb as <-.
    split; [split; [done|]; split; [cbn [s_db set_db]; fold d; congruence|]|].
    + cbn [s_db set_db]. unfold only_db in Ho. rewrite Ho. by rewrite set_set_db.
    + split; [done|]. cbn [s_db set_db]. rewrite Hv. apply Hh. }
  apply (Hw _ H). intros s1 Hs1.
  assert (grown d (Begin d)) as Hg0 by (apply grown_begin, Hh).
  revert Hs1. unfold mbind at 1, C_bind at 1. unfold catching. cbn [s_db set_db].
  destruct (Model_Blobs.New (w_env w 0) 0 n (Begin d)) as [d1 r1] eqn:E. destruct (New_grown_any d m (Begin d) _ _ _ d1 r1 Hh Hu Hg0 eq_refl E) as [Hg1 Hr1].
  assert (tr s (set_db d1 (set_db (Begin d) s))) as Ht1 by (split; [exact Hg1|done]).
  revert Ht1. generalize (set_db d1 (set_db (Begin d) s)). intros s2 Ht1 H2.
  assert (∀ (k : C (list out)) i sx, fine (tr s) k → k s2 i = (sx, UErr e rest) → tr s sx) as Hk. { intros k i sx Hf Ek. by eapply (fine_weaken _ _ Hf). }
  destruct r1 as [u|x|]; [| |done].
  - eapply Hk; [|exact H2]. repeat (first [apply fine_ask | apply fine_raw | apply fine_ret | apply fine_bind; [|intros ?]]).
  - destruct x; unfold if_taken, mret, C_ret in H2; first [discriminate H2 | injection H2 as <- _ _; exact Ht1].
Qed.
Lemma waddsync_err w kind s m inp s' e rest : holds (s_db s) m → db_txpoint (s_db s) = 0 → m !! e_uuid (w_env w 0) = None →
  addSync w kind s inp = (s', UErr e rest) → unchanged s s' ∧ holds (s_db s') m.
Proof.
  intros Hh Htp Hu. unfold addSync. destruct (negb _); [done|].
  intros H. unfold within in H.
  rewrite (C_ok _ _ _ _ (set_db (Begin (s_db s)) s) (set_db (Begin (s_db s)) s) inp) in H by done.
  assert (∀ s1 (e1 : error) r, tr s s1 → match Rollback (s_db s1) with Ok d => (set_db d s1, UErr e1 r) | _ => (s1, UPanic) end = (s', UErr e rest : ui (list out)) → unchanged s s' ∧ holds (s_db s') m) as Hend.
  { intros s1 e1 r [Hg Ho]. destruct (grown_rollback _ _ Hg) as (d' & E' & Hc & Hv & Htp'). rewrite E'. intros [= <- <- <-].
    split; [split; [done|]; split; [cbn [s_db set_db]; congruence|]|].
    + cbn [s_db set_db]. unfold only_db in Ho. rewrite Ho. by rewrite set_set_db.
    + split; [done|]. cbn [s_db set_db]. rewrite Hv. apply Hh. }
  revert H. unfold mbind at 1, C_bind at 1. unfold on_db at 1. cbn [s_db set_db Begin db_log].
  destruct (NewSync (S (length (vis (db_log (s_db s))))) (w_env w 0) kind (Begin (s_db s))) as [[d1 r1]|] eqn:E1.
  2: { cbn [of_outcome]. done. }
  apply (newsync_any _ (s_db s) m) in E1 as [Hg1 Hr1]; [|done|done|apply grown_begin, Hh|done].
  assert (tr s (set_db d1 (set_db (Begin (s_db s)) s))) as Ht by (split; [exact Hg1|done]).
  destruct r1 as [u|x|]; cbn [of_outcome]; [|by intros H; eapply Hend|done].
  destruct Hr1 as [[[= ->] [n H1]]|[H1 _]]; [|by destruct (H1 u)].
  set (u := e_uuid (w_env w 0)) in *. rewrite set_set_db in Ht |- *.
  assert (adding s m u n (set_db d1 s)) as Ht1. { split; [exact Ht|]. exists (new_entry (w_env w 0) n). split; [exact H1|]. apply lookup_insert. }
  match goal with |- context [match ?x (set_db d1 s) inp with _ => _ end] => assert (fine_err (adding s m u n) x) as Hx; [|destruct (x (set_db d1 s) inp) as [s1 [a r|e1 r| |]] eqn:E2] end.
  { apply fine_err_bind.
    { apply fine_if; [|apply fine_scp]. apply fine_bind; [apply fine_ask|intros f]. destruct (w_abs w f); [apply fine_ret|apply fine_try]. }
    intros url. apply fine_err_bind; [by apply fine_set|intros _]. apply fine_err_bind; [by apply fine_set|intros _].
    intros sx ix sy ey ry Hta. destruct (find_named _ _ _ _ _ ix Hta) as (s2 & b & E3 & Hn & _).
    rewrite (C_ok _ _ _ _ _ _ _ E3). rewrite (C_ok _ _ _ _ s2 n ix) by (unfold try, Name, KeyName; rewrite Hn; done). done. }
  - by destruct (Commit (s_db s1)).
  - destruct (Hx _ _ _ _ _ Ht1 E2) as [Htr _]. by apply Hend.
  - done.
  - done.
Qed.

#[local] Set Default Proof Using "All".
Section wcommands.
  Context (G : list tx → Prop) (V : string → Prop).
  Hypothesis HG : ∀ l l', G l → (∀ t, t ∈ l' → V (tx_uuid t)) → G (l ++ l').
  Hypothesis HV : ∀ l t, G l → t ∈ l → V (tx_uuid t).

  (** in good order, transaction point [p], the log satisfies [G], and the entries [L] exist *)
  Definition WI (p : nat) (L : list string) (s : session) : Prop :=
    winv (s_db s) ∧ db_txpoint (s_db s) = p ∧ G (vis (db_log (s_db s))) ∧ ∀ u, u ∈ L → live (s_db s) u.
  Notation keeps p L x := (hoare (WI p L) x (λ _, WI p L) (WI p L)).

  Lemma wlive_V p L s u : WI p L s → live (s_db s) u → V u.
  Proof.
    intros (_ & _ & Hg & _) (m & b & Hm & Hb). destruct (replays_mentions _ _ _ _ Hm Hb) as (t & Ht & <-). by eapply HV.
  Qed.
  Lemma WI_weaken p L L' s : WI p L s → (∀ u, u ∈ L' → u ∈ L) → WI p L' s.
  Proof. intros (H1 & H2 & H3 & H4) H. repeat split; try done. eauto. Qed.
  Lemma WI_fields p L s s' : s_db s' = s_db s → WI p L s → WI p L s'.
  Proof. unfold WI. by intros ->. Qed.
  Lemma WI_step p L s d' l : WI p L s → winv d' → db_txpoint d' = db_txpoint (s_db s) → vis (db_log d') = vis (db_log (s_db s)) ++ l →
    (∀ t, t ∈ l → V (tx_uuid t) ∧ ∀ u, u ∈ L → tx_uuid t = u → tx_kind t ≠ "del") → WI p L (set_db d' s).
  Proof.
    intros (H1 & H2 & H3 & H4) Hi Ht Hv Hl. repeat split; cbn [s_db set_db].
    - done.
    - congruence.
    - rewrite Hv. apply HG; [done|]. intros t Htl. by apply Hl.
    - intros u Hu. eapply wlive_extend; [done|by apply H4|done|]. apply Forall_forall. intros t Htl. by apply Hl.
  Qed.
  Lemma wk_read {A} p L (m : M A) : quiet m → wkeep m → keeps p L (on_db m).
  Proof.
    intros Hq Hk s inp s' r Hs. unfold on_db. pose proof (Hq (s_db s)) as [Hl Ht]. pose proof (Hk (s_db s) (proj1 Hs)) as Hi.
    destruct (m (s_db s)) as [d o]. cbn [fst] in *. intros [= <- <-].
    assert (WI p L (set_db d s)); [|done]. apply (WI_step _ _ _ _ []); [done|done|done|by rewrite Hl, app_nil_r|]. by intros t ?%elem_of_nil.
  Qed.
  (** an operation on an existing entry *)
  Lemma wk_op {A} p L u (m : M A) : u ∈ L → grows (about u) m → wop u m → keeps p L (on_db m).
  Proof.
    intros Hu Hg Ha s inp s' r Hs. unfold on_db. pose proof (Hg (s_db s)) as (Ht & l & Hv & Hl). pose proof Hs as (Hi & _ & _ & HL). pose proof (Ha (s_db s) Hi (HL u Hu)) as [Hi' _].
    destruct (m (s_db s)) as [d o']. cbn [fst] in *. intros [= <- <-].
    assert (WI p L (set_db d s)); [|done]. apply (WI_step _ _ _ _ l); [done|done|done|done|]. intros t Htl. rewrite Forall_forall in Hl. destruct (Hl t Htl) as [E1 E2].
    split; [|done]. rewrite E1. eapply wlive_V; [exact Hs|]. by apply HL.
  Qed.
  Lemma wcatching_fst {A B} (m : M A) (h : error → option B) k s inp : (catching m h k s inp).1 = set_db (m (s_db s)).1 s.
  Proof. unfold catching. by destruct (m (s_db s)) as [d [| |]]. Qed.
  Lemma wk_catching {A B} p L (m : M A) (h : error → option B) k : keeps p L (on_db m) → keeps p L (catching m h k).
  Proof.
    intros H s inp s' r Hs. unfold catching. specialize (H s inp). unfold on_db in H. cbv beta in H. revert H. destruct (m (s_db s)) as [d [a|e|]]; intros H.
    - intros [= <- <-]. destruct (H _ _ Hs eq_refl) as [H1 H2]. split; [|done]. intros. by eapply H1.
    - intros [= <- <-]. destruct (H _ _ Hs eq_refl) as [H1 H2]. assert (WI p L (set_db d s)) by (by eapply H2). done.
    - by intros [= <- <-].
  Qed.
  Lemma wk_weaken {A} p L L' (x : C A) : keeps p L' x → (∀ u, u ∈ L → u ∈ L') → hoare (WI p L') x (λ _, WI p L) (WI p L).
  Proof. intros H HL. eapply hoare_conseq; [exact H|done| |]; cbv beta; intros; (eapply WI_weaken; [|exact HL]); assumption. Qed.

  Ltac memb := first [by apply elem_of_list_here | apply elem_of_list_further; memb | done].

  Lemma wk_set p L u e i k v : u ∈ L → keeps p L (on_db (dbSet e i u k v)).
  Proof. intros Hu. apply (wk_op p L u); [done|apply grows_set|apply wop_set]. Qed.
  Lemma wk_Set_key p L u e k v : u ∈ L → keeps p L (on_db (dropping (Set_key e 0 u k v))).
  Proof. intros Hu. apply (wk_op p L u); [done|apply grows_dropping, grows_Set_key|apply wop_dropping, wop_Set_key]. Qed.
  Lemma wk_DeleteKey p L u e k : u ∈ L → keeps p L (on_db (DeleteKey_key e u k)).
  Proof. intros Hu. apply (wk_op p L u); [done|apply grows_DeleteKey|apply wop_DeleteKey]. Qed.
  Lemma wk_DeleteKey' p L u e k : u ∈ L → keeps p L (on_db (dropping (DeleteKey_key e u k))).
  Proof. intros Hu. apply (wk_op p L u); [done|apply grows_dropping, grows_DeleteKey|apply wop_dropping, wop_DeleteKey]. Qed.
  Lemma wk_Rename p L u e n : u ∈ L → keeps p L (on_db (Rename e u n)).
  Proof. intros Hu. apply (wk_op p L u); [done|apply grows_Rename|apply wop_Rename]. Qed.
  Lemma wk_Twofactor p L u c ok e v : u ∈ L → keeps p L (on_db (SetTwofactor c ok e u v)).
  Proof. intros Hu. apply (wk_op p L u); [done|apply grows_Twofactor|apply wop_Twofactor]. Qed.
  Lemma wk_RemoveLabel p L u e i : u ∈ L → keeps p L (on_db (RemoveLabel e u i)).
  Proof. intros Hu. apply (wk_op p L u); [done|apply grows_RemoveLabel|apply wop_RemoveLabel]. Qed.
  Lemma wk_row p L u e i salt iv mkey : u ∈ L → keeps p L (on_db (put_row e i u salt iv mkey)).
  Proof.
    intros Hu. assert (keeps p L (_ ← on_db (dbSet e i u KeySalt (hex_encode salt)); _ ← on_db (dbSet e (S i) u KeyIV (hex_encode iv)); on_db (dbSet e (S (S i)) u KeyMKey (hex_encode mkey)))) as H.
    { apply (hoare_bind _ _ _ (λ _, WI p L)); [by apply wk_set|intros _]. apply (hoare_bind _ _ _ (λ _, WI p L)); [by apply wk_set|intros _]. by apply wk_set. }
    exact H.
  Qed.
  Lemma wk_change p L f : (∀ s, s_db (f s) = s_db s) → keeps p L (change f).
  Proof. intros Hf s inp s' r Hs [= <- <-]. assert (WI p L (f s)) by (apply (WI_fields p L s); [apply Hf|exact Hs]). done. Qed.
  Lemma whoare_pre {A} (P : session → Prop) (φ : Prop) (x : C A) Q E : (φ → hoare P x Q E) → hoare (λ s, P s ∧ φ) x Q E.
  Proof. intros H s inp s' r [Hs Hp]. by apply H. Qed.
  Lemma wk_get p L : hoare (WI p L) state (λ _, WI p L) (WI p L).
  Proof. intros s inp s' r Hs [= <- <-]. split; [|done]. by intros ? ? [= <- <-]. Qed.

  (** finding *)
  Definition wfound p L (u : string) (s : session) : Prop := if decide (u = "") then WI p L s else WI p (u :: L) s.
  Lemma WI_cons p L s u : WI p L s → live (s_db s) u → WI p (u :: L) s.
  Proof. intros (H1 & H2 & H3 & H4) Hl. repeat split; try done. intros x [->|Hx]%elem_of_cons; [done|by apply H4]. Qed.
  Lemma wk_find p L w q : fair (w_env w 0) → fair_results (r_ord (w_rand w)) → hoare (WI p L) (findq w q) (wfound p L) (WI p L).
  Proof.
    intros Hf Ho s inp s' r Hs E. pose proof (wk_read p L _ (quiet_findOne (w_lower w) (r_ord (w_rand w)) (w_env w 0) q) (wkeep_findOne _ _ _ _) s inp s' r Hs E) as [H1 H2].
    split; [|done]. intros u rest ->. specialize (H1 u rest eq_refl). unfold wfound. destruct (decide (u = "")); [done|]. apply WI_cons; [done|].
    unfold findq, on_db in E. destruct (findOne _ _ _ _ (s_db s)) as [d o] eqn:Ef. injection E as <- E. destruct o as [x|e|]; [|done|done]. cbn [of_outcome] in E. injection E as -> ->.
    cbn [s_db set_db]. eapply wfindOne_live; [apply Hs|done|done|exact Ef|done].
  Qed.
  (** the frame of the commands that take a query *)
  Lemma wk_query {A} p L w q (a : A) (k : string → C A) : fair (w_env w 0) → fair_results (r_ord (w_rand w)) →
    (∀ u, keeps p (u :: L) (k u)) → keeps p L (u ← findq w q; if String.eqb u "" then mret a else k u).
  Proof.
    intros Hf Ho Hk. eapply hoare_bind; [by apply wk_find|]. intros u. unfold wfound. destruct (String.eqb u "") eqn:Eu.
    - apply String.eqb_eq in Eu as ->. apply hoare_ret. intros s. by destruct (decide ("" = "")).
    - apply String.eqb_neq in Eu. apply (hoare_conseq _ (WI p (u :: L)) _ _ (λ _, WI p (u :: L)) _ (WI p (u :: L))); [apply Hk| | |].
      + intros s. by destruct (decide (u = "")).
      + intros _ s Hs. apply (WI_weaken _ _ _ _ Hs). intros; by apply elem_of_list_further.
      + intros s Hs. apply (WI_weaken _ _ _ _ Hs). intros; by apply elem_of_list_further.
  Qed.
  Ltac rd := apply wk_read; first [apply quiet_MustFind|apply quiet_Find|apply quiet_Search|apply quiet_SearchLabels|apply quiet_Users|apply quiet_FindByName
    |apply wkeep_MustFind|apply wkeep_Find|apply wkeep_Search|apply wkeep_SearchLabels|apply wkeep_Users|apply wkeep_FindByName].
  Ltac kk := repeat (first
    [ by apply hoare_ret | apply hoare_ask | apply hoare_try | apply wk_get | rd
    | apply wk_Set_key; memb | apply wk_set; memb | apply wk_DeleteKey; memb | apply wk_DeleteKey'; memb | apply wk_Twofactor; memb | apply wk_row; memb
    | apply wk_change; by intros | apply wk_catching | apply hoare_if
    | eapply hoare_bind; [|intros ?; cbv beta]
    | match goal with |- hoare _ (match ?x with _ => _ end) _ _ => destruct x end ]).

  Section wworld.
    Context (w : world).
    Hypothesis Hf : ∀ i, fair (w_env w i).
    Hypothesis Ho : fair_results (r_ord (w_rand w)).

    Lemma wk_mv p L a b : keeps p L (rename w a b).
    Proof.
      unfold rename. eapply (hoare_bind _ _ _ (λ r s, WI p L s ∧ match r with Some (u, _) => live (s_db s) u | None => True end)).
      - intros s inp s' r Hs E. pose proof (wk_read p L _ (quiet_FindByName (w_env w 0) a) (wkeep_FindByName _ _) s inp s' r Hs E) as [H1 H2].
        split; [|done]. intros x rest ->. split; [by eapply H1|]. destruct x as [[u b']|]; [|done].
        unfold on_db in E. destruct (FindByName _ _ (s_db s)) as [d o] eqn:Ef. injection E as <- E. destruct o as [x|e|]; [|done|done]. cbn [of_outcome] in E. injection E as -> ->.
        cbn [s_db set_db]. eapply wFindByName_live; [apply Hs|apply Hf|exact Ef].
      - intros [[u b']|]; [|eapply hoare_conseq; [by apply (hoare_ret _ (WI p L) (λ _, WI p L) (WI p L))|by intros s [? _]|done|done]].
        apply hoare_if; [apply hoare_ret; by intros s [? _]|].
        eapply hoare_conseq; [apply (wk_weaken p L (u :: L)); [apply wk_catching, wk_Rename; memb|intros; by apply elem_of_list_further]| |done|done].
        intros s [Hs Hl]. by apply WI_cons.
    Qed.
    Lemma wk_rmk p L q k : keeps p L (deleteKey w q k).
    Proof. apply wk_query; [done|done|]. intros u. kk. Qed.
    Lemma wk_ls p L q : keeps p L (list_cmd w q). Proof. unfold list_cmd. kk. Qed.
    Lemma wk_labels p L q : keeps p L (listByLabels w q). Proof. unfold listByLabels. kk. Qed.
    Lemma wk_get_cmd p L q k i c : keeps p L (get_cmd w q k i c). Proof. apply wk_query; [done|done|]. intros u. kk. Qed.
    Lemma wk_login p L q : keeps p L (login w q). Proof. apply wk_query; [done|done|]. intros u. kk. Qed.
    Lemma wk_set_cmd p L q k v : keeps p L (set_cmd w q k v). Proof. apply wk_query; [done|done|]. intros u. kk. Qed.
    Lemma wk_edit p L q k : keeps p L (edit w q k). Proof. apply wk_query; [done|done|]. intros u. kk. Qed.
    Lemma wk_label p L q : keeps p L (addLabels w q). Proof. apply wk_query; [done|done|]. intros u. kk. Qed.
    Lemma wk_rmlabel p L q l : keeps p L (deleteLabel w q l).
    Proof.
      apply wk_query; [done|done|]. intros u. eapply hoare_bind; [rd|intros b; cbv beta]. destruct (label_index l (Labels b) 0) as [i|] eqn:E; [|by apply hoare_ret].
      eapply hoare_bind; [apply wk_RemoveLabel; memb|intros ?; cbv beta]. kk.
    Qed.
    Lemma wk_show p L q i : keeps p L (show w q i).
    Proof. apply wk_query; [done|done|]. intros u. eapply hoare_bind; [rd|intros b; cbv beta]. eapply hoare_bind; [apply wk_get|intros s; cbv beta zeta]. kk. Qed.
    Lemma wk_dump p L q : keeps p L (dump w q). Proof. apply wk_query; [done|done|]. intros u. kk. Qed.
    Lemma wk_dumpall p L : keeps p L dumpall. Proof. unfold dumpall. kk. Qed.
    Lemma wk_cd p L ctx q : keeps p L (exec w ctx (KCd q)).
    Proof. destruct q as [q|]; [|by apply hoare_ret]. apply wk_query; [done|done|]. intros u. kk. Qed.
    Lemma wk_open p L q : keeps p L (openurl w q).
    Proof.
      assert (keeps p L (x ← findq w q; if String.eqb x "" then mret [Note] else
         blob ← on_db (MustFind x);
         link ← try (Get blob KeyURL);
         if (String.length link =? 0)%nat then _ ← try (Name blob); mret [Note]
         else match w_url w link with NotUrl => mret [Note] | _ => mret [Opened link] end)) as H.
      { apply wk_query; [done|done|]. intros u. kk. }
      intros s inp s' r Hs. unfold openurl. specialize (H s inp). unfold mbind at 1, C_bind at 1 in H. destruct (findq w q s inp) as [s1 [u rest|e rest| |]] eqn:E.
      - intros E'. by apply (H _ _ Hs).
      - intros [= <- <-]. destruct (H _ _ Hs eq_refl) as [_ H2]. split; [|done]. intros. by eapply H2.
      - by intros [= <- <-].
      - by intros [= <- <-].
    Qed.

    (** *** new entries *)
    Definition WN (p : nat) (s : session) : Prop := WI p [] s ∧ unused (s_db s) (e_uuid (w_env w 0)).
    Hypothesis HU : V (e_uuid (w_env w 0)).
    Lemma wnew_step e n p s d r : e = w_env w 0 → WN p s → Model_Blobs.New e 0 n (s_db s) = (d, r) →
      ((∀ u, r ≠ Ok u) ∧ WI p [] (set_db d s)) ∨ (r = Ok (e_uuid e) ∧ WI p [e_uuid e] (set_db d s)).
    Proof.
      intros -> [Hs Hu] E. pose proof Hs as ((m & Hh) & _). pose proof (grows_New (w_env w 0) 0 n (s_db s)) as (T & l & Hv & Hl). rewrite E in T, Hv. cbn [fst] in T, Hv.
      assert (winv d → WI p [] (set_db d s)) as Hp. { intros Hi'. apply (WI_step _ _ _ _ l); [done..|]. intros t Ht. rewrite Forall_forall in Hl. destruct (Hl t Ht) as [-> _]. split; [done|]. by intros ? ?%elem_of_nil. }
      destruct (New_any (w_env w 0) 0 n (s_db s) m d r Hh (unused_lookup _ _ _ Hh Hu) E) as [[-> H]|(H1 & H2 & _)].
      - right. split; [done|]. apply WI_cons; [apply Hp; by eexists|]. cbn [s_db set_db]. apply (live_snap d _ _ H). rewrite lookup_insert. eauto.
      - left. split; [done|]. apply Hp. by eexists.
    Qed.
    Lemma wk_adduser p x : hoare (WN p) (adduser (w_P w) (w_env w 0) (w_rand w) x) (λ _, WI p []) (WI p []).
    Proof.
      intros s inp s' r Hs. unfold adduser, NewUser. destruct (Model_Blobs.New (w_env w 0) 0 (userPrefix +:+ x) (s_db s)) as [d o] eqn:E.
      destruct (wnew_step _ _ p s d o eq_refl Hs E) as [[Ho' H]|[-> H]].
      { destruct o as [u|er|].
        - by destruct (Ho' u).
        - destruct er; intros [= <- <-]; split; intros; first [discriminate | exact H].
        - by intros [= <- <-]. }
      - match goal with |- ?y (set_db d s) inp = _ → _ => assert (hoare (WI p [e_uuid (w_env w 0)]) y (λ _, WI p []) (WI p [])) as Hy; [|intros E'; by apply (Hy _ _ _ _ H E')] end.
        apply (wk_weaken p [] [e_uuid (w_env w 0)]); [|by intros ? ?%elem_of_nil]. apply hoare_try_ok. kk.
    Qed.
    Lemma wk_user p L x : hoare (WI p L) (on_db (MustFindUser (w_env w 0) x)) (λ r, WI p (r.1 :: L)) (WI p L).
    Proof.
      intros s inp s' r Hs E. pose proof (wk_read p L _ (quiet_MustFindUser (w_env w 0) x) (wkeep_MustFindUser _ _) s inp s' r Hs E) as [H1 H2].
      split; [|done]. intros [u b] rest ->. specialize (H1 _ rest eq_refl). cbn [fst]. apply WI_cons; [done|].
      unfold on_db in E. destruct (MustFindUser _ _ (s_db s)) as [d o] eqn:Ef. injection E as <- E. destruct o as [y|e|]; [|done|done]. cbn [of_outcome] in E. injection E as -> ->.
      cbn [s_db set_db]. eapply wMustFindUser_live; [apply Hs|apply Hf|exact Ef].
    Qed.
    Lemma wk_user_row p L x (k : string → C unit) : (∀ u, keeps p (u :: L) (k u)) → keeps p L ('(uuid, _) ← on_db (MustFindUser (w_env w 0) x); k uuid).
    Proof.
      intros H. eapply hoare_bind; [apply wk_user|]. intros [u b]. cbn [fst]. apply wk_weaken; [apply H|]. intros; by apply elem_of_list_further.
    Qed.
    Lemma wk_passwd p L x : keeps p L (passwd (w_P w) (w_env w 0) (w_rand w) x).
    Proof.
      unfold passwd. eapply hoare_bind; [apply hoare_ask|intros pw; cbv beta]. apply hoare_if; [by apply hoare_ret|].
      eapply hoare_bind; [apply hoare_try|intros [key salt]; cbv beta iota]. eapply hoare_bind; [apply wk_get|intros s0; cbv beta].
      eapply hoare_bind; [kk|intros ?; cbv beta]. apply hoare_if; [by apply hoare_ret|].
      apply wk_user_row. intros u. kk.
    Qed.
    Lemma wk_rekey p L x : keeps p L (rekey (w_P w) (w_env w 0) (w_rand w) x).
    Proof.
      unfold rekey. cbv zeta. eapply hoare_bind; [apply wk_get|intros s0; cbv beta]. eapply hoare_bind; [kk|intros pw; cbv beta]. apply hoare_if; [by apply hoare_ret|].
      eapply hoare_bind; [apply hoare_try|intros [key salt]; cbv beta iota].
      eapply hoare_bind; [kk|intros ?; cbv beta]. apply hoare_if; [by apply hoare_ret|].
      apply wk_user_row. intros u. kk.
    Qed.
    Lemma wk_rekey_loop p L l : ∀ n printed, (∀ u x, (u, x) ∈ l → u ∈ L) → keeps p L (rekey_loop (w_P w) (w_env w 0) (w_rand w) n l printed).
    Proof.
      induction l as [|[u x] l IH]; intros n printed HL; [by apply hoare_ret|]. cbn [rekey_loop]. cbv zeta.
      assert (u ∈ L) by (eapply HL; by left).
      do 2 (eapply hoare_bind; [apply hoare_try|intros ?; cbv beta]). eapply hoare_bind; [apply hoare_try|intros [key salt]; cbv beta iota].
      eapply hoare_bind; [apply wk_get|intros s0; cbv beta]. eapply hoare_bind; [kk|intros ?; cbv beta]. eapply hoare_bind; [apply hoare_try|intros [mk iv]; cbv beta iota].
      eapply hoare_bind; [by apply wk_row|intros ?; cbv beta]. apply IH. intros. eapply HL. by right.
    Qed.
    Lemma wk_rekeyAll p L : keeps p L (rekeyAll (w_P w) (w_env w 0) (w_rand w)).
    Proof.
      unfold rekeyAll. eapply hoare_bind; [apply wk_get|intros s0; cbv beta]. apply hoare_if; [by apply hoare_ret|].
      eapply hoare_bind; [apply hoare_ask|intros yes; cbv beta]. apply hoare_if; [by apply hoare_ret|].
      eapply hoare_bind; [apply hoare_try|intros [ma iv]; cbv beta iota].
      eapply (hoare_bind _ _ _ (λ r, WI p ((r_ord (w_rand w) (res_map r)).*1 ++ L))).
      - intros s inp s' r Hs E. pose proof (wk_read p L _ (quiet_Users (w_env w 0)) (wkeep_Users _) s inp s' r Hs E) as [H1 H2].
        split; [|done]. intros x rest ->. specialize (H1 _ rest eq_refl). destruct H1 as (A1 & A2 & A3 & A4). repeat split; [done..|].
        unfold on_db in E. destruct (Model_Blobs.Users _ (s_db s)) as [d o] eqn:Ef. injection E as <- E. destruct o as [y|e|]; [|done|done]. cbn [of_outcome] in E. injection E as -> ->.
        intros u [Hu|Hu]%elem_of_app; [|by apply A4]. apply elem_of_list_fmap in Hu as ([u' n] & -> & Hu). rewrite (Ho _) in Hu. apply elem_of_map_to_list in Hu.
        cbn [s_db set_db fst]. eapply wUsers_live; [apply Hs|apply Hf|exact Ef|exact Hu].
      - intros users. apply wk_weaken; [|intros; apply elem_of_app; by right].
        eapply hoare_bind; [apply wk_rekey_loop|intros ?; cbv beta; kk].
        intros u x Hu. apply elem_of_app. left. apply elem_of_list_fmap. by exists (u, x).
    Qed.
    Lemma wk_rm p x : keeps p [] (deleteEntry (w_env w 0) x).
    Proof.
      unfold deleteEntry. eapply (hoare_bind _ _ _ (λ r s, match r with Some (u, _) => WI p [u] s | None => WI p [] s end)).
      - intros s inp s' r Hs E. pose proof (wk_read p [] _ (quiet_FindByName (w_env w 0) x) (wkeep_FindByName _ _) s inp s' r Hs E) as [H1 H2].
        split; [|done]. intros y rest ->. specialize (H1 _ rest eq_refl). destruct y as [[u b']|]; [|done]. apply WI_cons; [done|].
        unfold on_db in E. destruct (FindByName _ _ (s_db s)) as [d o] eqn:Ef. injection E as <- E. destruct o as [z|e|]; [|done|done]. cbn [of_outcome] in E. injection E as -> ->.
        cbn [s_db set_db]. eapply wFindByName_live; [apply Hs|apply Hf|exact Ef].
      - intros [[u b']|]; [|by apply hoare_ret].
        assert (∀ L s, WI p L s → WI p [] s) as Hz. { intros L s Hs. apply (WI_weaken _ _ _ _ Hs). by intros ? ?%elem_of_nil. }
        eapply (hoare_conseq _ (WI p [u]) _ _ (λ _, WI p []) _ (WI p [])); [|done|done|done].
        apply hoare_if; [apply hoare_ret; apply Hz|].
        assert (∀ A (y : C A) (k : A → C unit), keeps p [u] y → (∀ a, hoare (WI p [u]) (k a) (λ _, WI p []) (WI p [])) → hoare (WI p [u]) (mbind k y) (λ _, WI p []) (WI p [])) as Hb.
        { intros A y k H1 H2. eapply hoare_bind; [|apply H2]. eapply hoare_conseq; [exact H1|done|done|apply Hz]. }
        apply Hb; [apply wk_get|intros s0]. apply Hb; [apply hoare_try|intros un]. cbv zeta. apply Hb; [kk|intros refused]. apply hoare_if; [apply hoare_ret; apply Hz|].
        apply Hb; [apply hoare_ask|intros line]. apply hoare_if; [apply hoare_ret; apply Hz|]. apply Hb; [kk|intros _].
        intros s inp s' r Hs. pose proof Hs as (Hi & Ht & Hg & HL). assert (live (s_db s) u) as Hl by (apply HL; by left).
        unfold on_db. destruct (dbDelete (w_env w 0) 0 u (s_db s)) as [d r1] eqn:E.
        assert (winv d) as Hi'. { destruct Hi as [m Hm]. destruct (live_lookup _ _ _ Hm Hl) as [b Hb0]. unfold dbDelete, modify in E. injection E as <- _. eexists. by eapply holds_delete. }
        intros [= <- <-].
        assert (WI p [] (set_db d s)); [|done]. pose proof (grows_del u (w_env w 0) 0 (s_db s)) as (T & l & Hv & Hfl). rewrite E in T, Hv. cbn [fst] in T, Hv.
        apply (WI_step p [] s d l); [by apply (Hz [u])|done|done|done|]. intros t Htl. rewrite Forall_forall in Hfl. rewrite (Hfl t Htl). split; [by eapply wlive_V|by intros ? ?%elem_of_nil].
    Qed.

    (** *** add and addsync *)
    Lemma wk_within {A} (body : C A) s inp s' r : hoare (WN (S (length (vis (db_log (s_db s)))))) body (λ _, WI (S (length (vis (db_log (s_db s))))) []) (λ _, True) →
      WN 0 s → (∀ e rest, within body s inp = (s', UErr e rest) → unchanged s s' ∧ winv (s_db s')) → within body s inp = (s', r) →
      (∀ a rest, r = UOk a rest → WI 0 [] s') ∧ (∀ e rest, r = UErr e rest → WI 0 [] s').
    Proof.
      intros Hb Hs He E. pose proof Hs as [(Hi & Ht & Hg & _) Hun]. split.
      - intros a rest ->. unfold within in E. destruct (body (set_db (Begin (s_db s)) s) inp) as [s1 r1] eqn:E1.
        assert (WN (S (length (vis (db_log (s_db s))))) (set_db (Begin (s_db s)) s)) as Hn.
        { split; [|exact Hun]. repeat split; cbn [s_db set_db].
          - destruct Hi as (m & Hh). exists m. by apply holds_begin.
          - cbn [Begin db_txpoint]. lia.
          - exact Hg.
          - by intros ? ?%elem_of_nil. }
        destruct (Hb _ _ _ _ Hn E1) as [H1 _]. destruct r1 as [a1 rest1| | |]; [|destruct (Rollback (s_db s1)); done|done|done].
        destruct (H1 _ _ eq_refl) as (Bi & Bt & Bg & _). unfold Commit in E. rewrite (proj2 (Nat.eqb_neq _ _)) in E by lia. injection E as <- _ _.
        repeat split; cbn [s_db set_db db_txpoint db_log].
        + destruct Bi as (m & Hh). exists m. by apply holds_point.
        + exact Bg.
        + by intros ? ?%elem_of_nil.
      - intros e rest ->. destruct (He e rest E) as [(V1 & T1 & _) Hi']. repeat split; [done|congruence|by rewrite V1|by intros ? ?%elem_of_nil].
    Qed.
    Lemma wbody_bind {A B} p (y : C A) (k : A → C B) : (∀ L, keeps p L y) → ∀ L Q, (∀ a, hoare (WI p L) (k a) Q (λ _, True)) → hoare (WI p L) (mbind k y) Q (λ _, True).
    Proof. intros Hy L Q Hk. eapply hoare_bind; [|apply Hk]. eapply hoare_conseq; [apply Hy|done|done|done]. Qed.
    Lemma wk_addNew n s inp s' r : WN 0 s → addNew w n s inp = (s', r) → (∀ a rest, r = UOk a rest → WI 0 [] s') ∧ (∀ e rest, r = UErr e rest → WI 0 [] s').
    Proof.
      intros Hs. pose proof Hs as [((m & Hh) & Ht & _) Hun]. unfold addNew. intros E. apply (wk_within _ s inp s' r) in E; [done| |done|].
      - set (p := S (length (vis (db_log (s_db s))))).
        eapply (hoare_bind _ _ _ (λ r, match r with Some u => WI p [u] | None => WI p [] end)).
        + intros s1 i1 s2 r1 Hn. unfold catching. destruct (Model_Blobs.New (w_env w 0) 0 n (s_db s1)) as [d o] eqn:En.
          destruct (wnew_step _ _ p s1 d o eq_refl Hn En) as [[Ho' H]|[-> H]]; [|intros [= <- <-]; (split; [|done]); intros ? ? [= <- <-]; exact H].
          destruct o as [u|er|]; [by destruct (Ho' u)| |by intros [= <- <-]]. destruct er; intros [= <- <-]; (split; [|done]); intros ? ? Hx; unfold if_taken in Hx; first [discriminate Hx|injection Hx as <- <-; exact H].
        + intros [u|]; [|by apply hoare_ret].
          eapply hoare_conseq; [apply (wk_weaken p [] [u]); [|by intros ? ?%elem_of_nil]|done|done|done].
          assert (∀ e i k v, k ≠ "name" → keeps p [u] (on_db (raw_if e i u k v))) as Hr.
          { intros e i k v Hk. unfold raw_if. case_match; [apply (wk_read p [u]); [apply quiet_ret|apply wkeep_ret]|]. by apply wk_set; left. }
          repeat (first [by apply hoare_ret | apply hoare_ask | by apply Hr | eapply hoare_bind; [|intros ?; cbv beta]]).
      - intros e rest Ee. destruct (wadd_err w n s m inp s' e rest Hh (unused_lookup _ _ _ Hh Hun) Ht Ee) as [Hu' Hh']. split; [done|]. by exists m.
    Qed.
    Lemma wk_scp p u : keeps p [u] (addSCPEntry w u). Proof. unfold addSCPEntry. kk. Qed.
    Lemma wk_addSync kind s inp s' r : WN 0 s → addSync w kind s inp = (s', r) → (∀ a rest, r = UOk a rest → WI 0 [] s') ∧ (∀ e rest, r = UErr e rest → WI 0 [] s').
    Proof.
      intros Hs. pose proof Hs as [((m & Hh) & Ht & _) Hun]. unfold addSync. destruct (negb _) eqn:Ek.
      { intros [= <- <-]. split; [|done]. intros. apply Hs. }
      intros E. apply (wk_within _ s inp s' r) in E; [done| |done|].
      - set (p := S (length (vis (db_log (s_db s))))).
        eapply (hoare_bind _ _ _ (λ s0 s, WN p s ∧ s0 = s)). { intros ? ? ? ? ? [= <- <-]. split; [|done]. by intros ? ? [= <- <-]. }
        intros s0. eapply (hoare_bind _ _ _ (λ u, WI p [u])).
        + intros s1 i1 s2 r1 [Hn ->] E1. unfold on_db in E1. destruct (NewSync _ _ kind (s_db s1)) as [[d o]|] eqn:En; [|injection E1 as <- <-; done].
          injection E1 as <- <-. split; [|done]. intros u rest Eo. pose proof Hn as [Hi Hun1]. destruct Hi as (Hi & _). pose proof (proj1 Hn) as HI.
          pose proof En as En'. unfold NewSync in En'. apply newsync_grows in En' as (T & l & Hv & Hl). cbn [fst] in T, Hv.
          assert (winv d → WI p [] (set_db d s1)) as Hp. { intros Hid. apply (WI_step p [] s1 d l); [done..|]. intros t Htl. rewrite Forall_forall in Hl. destruct (Hl t Htl) as [-> _]. split; [done|]. by intros ? ?%elem_of_nil. }
          destruct Hi as (m1 & Hh1). destruct o as [x|er|]; [|done|done]. cbn [of_outcome] in Eo. injection Eo as -> _.
          unfold NewSync in En. destruct (newsync_ok _ _ _ _ _ _ _ _ Hh1 (unused_lookup _ _ _ Hh1 Hun1) En) as (-> & n' & Hh2).
          apply WI_cons; [apply Hp; by eexists|]. cbn [s_db set_db]. apply (live_snap d _ _ Hh2). rewrite lookup_insert. eauto.
        + intros u. eapply hoare_conseq; [apply (wk_weaken p [] [u]); [|by intros ? ?%elem_of_nil]|done|done|done].
          eapply hoare_bind; [apply hoare_if; [|apply wk_scp]|intros url; cbv beta]; kk.
      - intros e rest Ee. destruct (waddsync_err w kind s m inp s' e rest Hh Ht (unused_lookup _ _ _ Hh Hun)) as [Hu' Hh']; [unfold addSync; rewrite Ek; exact Ee|]. split; [done|]. by exists m.
    Qed.
    Lemma wk_interruptible {A} (a0 : A) (x : C A) s inp s' r : (∀ s1 r1, x s inp = (s1, r1) → (∀ a rest, r1 = UOk a rest → WI 0 [] s1) ∧ (∀ e rest, r1 = UErr e rest → WI 0 [] s1)) →
      interruptible a0 x s inp = (s', r) → (∀ a rest, r = UOk a rest → WI 0 [] s') ∧ (∀ e rest, r = UErr e rest → WI 0 [] s').
    Proof.
      intros Hx. unfold interruptible. destruct (x s inp) as [s1 r1] eqn:E. destruct (Hx _ _ eq_refl) as [H1 H2].
      destruct r1 as [a rest|e rest| |].
      - intros [= <- <-]. done.
      - assert (WI 0 [] s1) as Hi by (by eapply H2). destruct e; intros [= <- <-]; split; intros; exact Hi.
      - by intros [= <- <-].
      - by intros [= <- <-].
    Qed.
    Lemma wk_exec ctx c : (∀ n, c = KSync n → keeps 0 [] (w_sync w n)) → hoare (WN 0) (exec w ctx c) (λ _, WI 0 []) (WI 0 []).
    Proof.
      intros Hsync. destruct c; cbn [exec]; unfold silent, showing;
        try (eapply (hoare_bind _ _ _ (λ _, WI 0 [])); [|intros ?; by apply hoare_ret]).
      2: apply wk_adduser.
      4: intros s inp s' r Hs; apply wk_interruptible; intros s1 r1; by apply wk_addNew.
      19: intros s inp s' r Hs; apply wk_interruptible; intros s1 r1; by apply wk_addSync.
      all: eapply (hoare_conseq _ (WI 0 []) _ _ (λ _, WI 0 []) _ (WI 0 [])); [|by intros ? []|done|done].
      - apply wk_passwd.
      - apply wk_rekey.
      - apply wk_rekeyAll.
      - apply wk_mv.
      - apply wk_rm.
      - apply wk_rmk.
      - apply wk_ls.
      - apply (wk_cd 0 [] ctx query).
      - apply wk_get_cmd.
      - apply wk_login.
      - apply wk_set_cmd.
      - apply wk_edit.
      - apply wk_open.
      - apply wk_label.
      - apply wk_rmlabel.
      - apply wk_labels.
      - apply wk_show.
      - by apply Hsync.
      - apply wk_dump.
      - apply wk_dumpall.
      - by apply hoare_ret.
      - by apply hoare_ret.
    Qed.
  End wworld.
End wcommands.