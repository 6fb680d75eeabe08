(** Proofs that the store stays in good order whatever is typed. *)
From Verif Require Import Proof_TxLog Proof_GoStr Proof_Utf8 Proof_Dialogue Proof_Blobs Proof_Blobs2 Proof_Session2 Proof_Session3 Proof_Session5.
From Verif Require Export Proof_Repl4.
From Coq Require Import Lia.
From stdpp Require Import options.
Import Model_GoStr Proof_Utf8.
#[local] Open Scope nat_scope.

(** ** What operations append to the log *)
Definition grows {A} (P : tx → Prop) (m : M A) : Prop :=
  ∀ d, db_txpoint (m d).1 = db_txpoint d ∧ ∃ l, vis (db_log (m d).1) = vis (db_log d) ++ l ∧ Forall P l.
Lemma grows_quiet {A} P (m : M A) : quiet m → grows P m.
Proof. intros H d. destruct (H d) as [H1 H2]. split; [done|]. exists []. rewrite H1, app_nil_r. done. Qed.
Lemma grows_ret {A} P (a : A) : grows P (mret a). Proof. apply grows_quiet, quiet_ret. Qed.
Lemma grows_lift {A} P (o : outcome A) : grows P (lift o). Proof. apply grows_quiet, quiet_lift. Qed.
Lemma grows_append P (f : db → db) : (∀ d, ∃ g now t, f d = appendLog g now d t ∧ P (mk_tx now (tx_kind t) (tx_uuid t) (tx_key t) (tx_value t))) → grows P (modify f).
Proof.
  intros H d. destruct (H d) as (g & now & t & E & Ht). unfold modify. rewrite E. cbn [fst]. split; [done|].
  eexists. unfold appendLog. cbn [db_log]. rewrite slice_append_vis. split; [reflexivity|]. by repeat constructor.
Qed.
Lemma grows_bind {A B} P (f : A → M B) (m : M A) : grows P m → (∀ a, grows P (f a)) → grows P (mbind f m).
Proof.
  intros Hm Hf d. unfold mbind, M_bind. pose proof (Hm d) as (T1 & l1 & V1 & P1). destruct (m d) as [d' [a| |]]; cbn [fst] in *; [|by eauto|by eauto].
  destruct (Hf a d') as (T2 & l2 & V2 & P2). split; [congruence|]. exists (l1 ++ l2). rewrite V2, V1, app_assoc. split; [done|]. by apply Forall_app.
Qed.
Lemma grows_if {A} P (b : bool) (x y : M A) : grows P x → grows P y → grows P (if b then x else y). Proof. by destruct b. Qed.
Lemma grows_dropping P m : grows P m → grows P (dropping m).
Proof. intros H d. unfold dropping. pose proof (H d). destruct (m d) as [d' [a| |]]; done. Qed.

(** additions and changes, no deletion, for one entry *)
Definition about (u : string) (t : tx) : Prop := tx_uuid t = u ∧ tx_kind t ≠ "del".
Lemma grows_set u e i k v : grows (about u) (dbSet e i u k v).
Proof. apply grows_append. intros d. eexists _, _, _. split; [reflexivity|]. done. Qed.
Lemma grows_delk u e i k : grows (about u) (dbDeleteKey e i u k).
Proof. apply grows_append. intros d. eexists _, _, _. split; [reflexivity|]. done. Qed.
Lemma grows_add g now u : grows (about u) (modify (Model_TxLog.Add g now u)).
Proof. apply grows_append. intros d. eexists _, _, _. split; [reflexivity|]. done. Qed.
Lemma grows_del u e i : grows (λ t, tx_uuid t = u) (dbDelete e i u).
Proof. apply grows_append. intros d. eexists _, _, _. split; [reflexivity|]. done. Qed.
Ltac growth := repeat (first
  [ apply grows_ret | apply grows_lift | apply grows_set | apply grows_delk | apply grows_add
  | apply grows_quiet; first [apply quiet_findOne | apply quiet_MustFind | apply quiet_Find | apply quiet_Search | apply quiet_SearchLabels | apply quiet_update | apply quiet_get]
  | apply grows_if | apply grows_dropping | apply grows_bind; [|intros ?]
  | match goal with |- grows _ (match ?x with _ => _ end) => destruct x end ]).
Lemma grows_Set_key e i u k v : grows (about u) (Set_key e i u k v). Proof. unfold Set_key, touchUpdated. growth. Qed.
Lemma grows_DeleteKey e u k : grows (about u) (DeleteKey_key e u k). Proof. unfold DeleteKey_key, touchUpdated. growth. Qed.
Lemma grows_Rename e u n : grows (about u) (Rename e u n). Proof. unfold Rename, touchUpdated. growth. Qed.
Lemma grows_New e j n : grows (about (e_uuid e)) (Model_Blobs.New e j n). Proof. unfold Model_Blobs.New, touchUpdated. growth. Qed.
Lemma grows_Twofactor c ok e u v : grows (about u) (SetTwofactor c ok e u v). Proof. unfold SetTwofactor, touchUpdated. cbv zeta. growth. Qed.
Lemma grows_RemoveLabel e u i : grows (about u) (RemoveLabel e u i).
Proof. unfold RemoveLabel, touchUpdated. apply grows_bind; [growth|]. intros b. cbv zeta. growth. Qed.
Lemma newsync_grows fuel : ∀ e j n d r, newsync_loop fuel e j n d = Some r →
  db_txpoint r.1 = db_txpoint d ∧ ∃ l, vis (db_log r.1) = vis (db_log d) ++ l ∧ Forall (about (e_uuid e)) l.
Proof.
  induction fuel as [|f IH]; intros e j n d r; [done|]. cbn [newsync_loop]. pose proof (grows_New e j n d) as (T & l & V & P).
  destruct (Model_Blobs.New e j n d) as [d1 r1]. cbn [fst] in *.
  assert (∀ r', r' = (d1, r1) → db_txpoint r'.1 = db_txpoint d ∧ ∃ l, vis (db_log r'.1) = vis (db_log d) ++ l ∧ Forall (about (e_uuid e)) l) as Hd by (intros ? ->; eauto).
  destruct r1 as [u|er|]; [intros [= <-]; by apply Hd| |intros [= <-]; by apply Hd].
  destruct er; try (intros [= <-]; by apply Hd).
  intros H. apply IH in H as (T2 & l2 & V2 & P2). split; [congruence|]. exists (l ++ l2). rewrite V2, V, app_assoc. split; [done|]. by apply Forall_app.
Qed.

(** an entry that nothing deletes stays *)
Lemma live_extend d d' l u : inv d' → live d u → vis (db_log d') = vis (db_log d) ++ l → Forall (λ t, tx_uuid t = u → tx_kind t ≠ "del") l → live d' u.
Proof.
  intros (m' & [_ Hr] & _) (m & b & Hm & Hb) Hv Hl. rewrite Hv in Hr.
  enough (∀ m0, replays (vis (db_log d) ++ l) m0 → is_Some (m0 !! u)) as He.
  { destruct (He m' Hr) as [b' Hb']. exists m', b'. by rewrite Hv. }
  clear Hr Hv. revert Hl. induction l as [|t l IH] using rev_ind; intros Hl m0 H0.
  - rewrite app_nil_r in H0. rewrite (replays_det _ _ _ H0 Hm). eauto.
  - apply Forall_app in Hl as [Hl Ht]. apply (proj1 (Forall_singleton _ _)) in Ht. rewrite app_assoc in H0. apply replays_snoc in H0 as (m1 & H1 & Hs). specialize (IH Hl m1 H1).
    inversion Hs; subst; cbn [tx_uuid tx_kind] in *.
    + destruct (decide (u0 = u)) as [->|]; [rewrite lookup_insert|rewrite lookup_insert_ne by done]; eauto.
    + destruct (decide (u0 = u)) as [->|]; [exfalso; by apply Ht|]. by rewrite lookup_delete_ne.
    + destruct (decide (u0 = u)) as [->|]; [rewrite lookup_insert|rewrite lookup_insert_ne by done]; eauto.
    + destruct (decide (u0 = u)) as [->|]; [rewrite lookup_insert|rewrite lookup_insert_ne by done]; eauto.
    + done.
Qed.

Lemma replays_mentions log m u b : replays log m → m !! u = Some b → ∃ t, t ∈ log ∧ tx_uuid t = u.
Proof.
  revert m b. induction log as [|t log IH] using rev_ind; intros m b Hm Hb.
  - inversion Hm; subst. done.
  - apply replays_snoc in Hm as (m1 & H1 & Hs). destruct (decide (tx_uuid t = u)) as [Ht|Ht].
    + exists t. split; [|done]. apply elem_of_app. right. by left.
    + assert (m1 !! u = Some b) as Hb1.
      { inversion Hs; subst; cbn [tx_uuid] in *; rewrite ?lookup_insert_ne, ?lookup_delete_ne in Hb by done; done. }
      destruct (IH m1 b H1 Hb1) as (t' & Ht' & E). exists t'. split; [|done]. apply elem_of_app. by left.
Qed.

(** ** Reading keeps the store in order *)
Definition keepinv {A} (m : M A) : Prop := ∀ d, inv d → inv (m d).1.
Lemma keepinv_ret {A} (a : A) : keepinv (mret a). Proof. by intros d. Qed.
Lemma keepinv_lift {A} (o : outcome A) : keepinv (lift o). Proof. by intros d. Qed.
Lemma keepinv_get : keepinv get_snap. Proof. by intros d. Qed.
Lemma keepinv_update : keepinv UpdateSnapshot.
Proof. intros d Hd. destruct (UpdateSnapshot d) as [d' r] eqn:E. by apply (bstep_inv d BRead d' r). Qed.
Lemma keepinv_bind {A B} (f : A → M B) (m : M A) : keepinv m → (∀ a, keepinv (f a)) → keepinv (mbind f m).
Proof. intros Hm Hf d Hd. unfold mbind, M_bind. pose proof (Hm d Hd). destruct (m d) as [d' [a| |]]; cbn [fst] in *; [by apply Hf|done|done]. Qed.
Lemma keepinv_if {A} (b : bool) (x y : M A) : keepinv x → keepinv y → keepinv (if b then x else y). Proof. by destruct b. Qed.
Ltac ki := repeat (first
  [ apply keepinv_ret | apply keepinv_lift | apply keepinv_get | apply keepinv_update | apply keepinv_if | apply keepinv_bind; [|intros ?]
  | match goal with |- keepinv (match ?x with _ => _ end) => destruct x end ]).
Lemma keepinv_Find u : keepinv (Find u). Proof. unfold Find. ki. Qed.
Lemma keepinv_MustFind u : keepinv (MustFind u). Proof. unfold MustFind. apply keepinv_bind; [apply keepinv_Find|]. intros ?; ki. Qed.
Lemma keepinv_Search lower e q : keepinv (Search lower e q). Proof. unfold Search. cbv zeta. ki. Qed.
Lemma keepinv_SearchLabels e q : keepinv (SearchLabels e q). Proof. unfold SearchLabels. cbv zeta. ki. Qed.
Lemma keepinv_findOne lower ord e q : keepinv (findOne lower ord e q). Proof. unfold findOne. apply keepinv_bind; [apply keepinv_Search|]. intros ?; cbv zeta. ki. Qed.
Lemma keepinv_FindByName e n : keepinv (FindByName e n). Proof. unfold FindByName. ki. Qed.
Lemma keepinv_MustFindUser e n : keepinv (MustFindUser e n). Proof. unfold MustFindUser, FindUser. apply keepinv_bind; [apply keepinv_FindByName|]. intros ?; ki. Qed.
Lemma keepinv_Users e : keepinv (Model_Blobs.Users e). Proof. unfold Model_Blobs.Users. ki. Qed.
Ltac qu := repeat (first
  [ apply quiet_ret | apply quiet_lift | apply quiet_get | apply quiet_update | apply quiet_if | apply quiet_bind; [|intros ?]
  | match goal with |- quiet (match ?x with _ => _ end) => destruct x end ]).
Lemma quiet_FindByName e n : quiet (FindByName e n). Proof. unfold FindByName. qu. Qed.
Lemma quiet_MustFindUser e n : quiet (MustFindUser e n). Proof. unfold MustFindUser, FindUser. apply quiet_bind; [apply quiet_FindByName|]. intros ?; qu. Qed.
Lemma quiet_Users e : quiet (Model_Blobs.Users e). Proof. unfold Model_Blobs.Users. qu. Qed.

(** the entries found are there *)
Lemma collect_in keep l : ∀ acc r u n, collect keep l acc = Ok r → r !! u = Some n → acc !! u = Some n ∨ u ∈ l.*1.
Proof.
  induction l as [|[u b] l IH]; intros acc r x n; cbn [collect].
  - intros [= <-]. by left.
  - destruct (keep u b) as [[]| |]; [|..|done|done].
    + destruct (Name b) as [nm| |]; [|done|done]. intros H Hx. apply (IH _ _ _ _ H) in Hx as [Hx|Hx]; [|right; by right].
      destruct (decide (u = x)) as [->|]; [right; left|]. rewrite lookup_insert_ne in Hx by done. by left.
    + intros H Hx. apply (IH _ _ _ _ H) in Hx as [Hx|Hx]; [by left|right; by right].
Qed.
Lemma fair_in e j m u : fair e → u ∈ (e_ord e j m).*1 → is_Some (m !! u).
Proof. intros Hf. rewrite (Hf j m). intros ([x b] & -> & H)%elem_of_list_fmap. apply elem_of_map_to_list in H. eauto. Qed.
Lemma live_snap d m u : holds d m → is_Some (m !! u) → live d u. Proof. intros [_ H] [b Hb]. by exists m, b. Qed.
Lemma live_vis d d' u : vis (db_log d') = vis (db_log d) → live d u → live d' u. Proof. intros E (m & b & H & Hb). exists m, b. by rewrite E. Qed.
Lemma search_live lower e q d d' r u n : inv d → fair e → Search lower e q d = (d', Ok r) → res_map r !! u = Some n → live d' u.
Proof.
  intros (m & Hh & _) Hf. destruct (holds_update d m Hh) as (d1 & E & Hs & Hv & _ & Hh1). unfold Search, mbind, M_bind. rewrite E. unfold get_snap. rewrite Hs.
  destruct (size m =? 0); [by intros [= <- <-]|].
  assert (∀ keep mm, collect keep (e_ord e 0 m) ∅ = Ok mm → mm !! u = Some n → live d1 u) as Hc.
  { intros keep mm H Hu. apply (collect_in _ _ _ _ _ _ H) in Hu as [Hu|Hu]; [done|]. apply (live_snap d1 m); [done|]. by eapply fair_in. }
  destruct (String.eqb q "").
  - unfold allEntries, lift. destruct (e_ord e 0 m) as [|x l] eqn:Eo; [by intros [= <- <-]|]. destruct (collect _ (x :: l) ∅) as [mm| |] eqn:Ec; [|done|done].
    intros [= <- <-] Hu. by eapply Hc.
  - unfold lift. destruct (collect _ (e_ord e 0 m) ∅) as [mm| |] eqn:Ec; [|done|done]. intros [= <- <-] Hu. by eapply Hc.
Qed.
Lemma exact_in q l : exact_name q l ≠ "" → ∃ n, (exact_name q l, n) ∈ l.
Proof. induction l as [|[u n] l IH]; [done|]. cbn [exact_name]. destruct (String.eqb n q); [exists n; by left|]. intros H. destruct (IH H) as [x Hx]. exists x. by right. Qed.
Lemma findOne_live lower ord e q d d' u : inv d → fair e → fair_results ord → findOne lower ord e q d = (d', Ok u) → u ≠ "" → live d' u.
Proof.
  intros Hi Hf Ho. unfold findOne. unfold mbind at 1, M_bind at 1. destruct (Search lower e q d) as [d1 [r| |]] eqn:E; [|done|done].
  assert (∀ x n, (x, n) ∈ ord (res_map r) → live d1 x) as Hl. { intros x n H. rewrite (Ho _) in H. apply elem_of_map_to_list in H. by eapply search_live. }
  cbv zeta. destruct (ord (res_map r)) as [|[x n] [|y l]]; unfold mret, M_ret; intros [= <- <-] Hu; [done| |].
  - apply (Hl x n). by left.
  - destruct (exact_in q ((x, n) :: y :: l) Hu) as [z Hz]. by apply (Hl _ z).
Qed.
Lemma FindByName_live e n d d' u b : inv d → fair e → FindByName e n d = (d', Ok (Some (u, b))) → live d' u.
Proof.
  intros (m & Hh & [Ha _]) Hf E. destruct (FindByName_spec e n d m Hh Ha Hf) as (d1 & r & E1 & Hh1 & _ & Hr). rewrite E in E1. injection E1 as -> <-.
  apply (live_snap d1 m); [done|]. destruct Hr. eauto.
Qed.
Lemma MustFindUser_live e n d d' u b : inv d → fair e → MustFindUser e n d = (d', Ok (u, b)) → live d' u.
Proof.
  intros Hi Hf. unfold MustFindUser, FindUser. unfold mbind, M_bind. destruct (FindByName _ _ d) as [d1 [[[x y]|]| |]] eqn:E; [|done|done|done].
  destruct (String.eqb x ""); [done|]. unfold mret, M_ret. intros [= <- <- <-]. by eapply FindByName_live.
Qed.
Lemma Users_live e d d' r u n : inv d → fair e → Model_Blobs.Users e d = (d', Ok r) → res_map r !! u = Some n → live d' u.
Proof.
  intros (m & Hh & [Ha _]) Hf E Hu. destruct (Users_spec e d m Hh Ha Hf) as (d1 & r' & E1 & Hh1 & _ & Hx). rewrite E in E1. injection E1 as -> <-.
  apply (live_snap d1 m); [done|]. apply Hx in Hu as (b & Hb & _). eauto.
Qed.

(** ** Triples *)
Definition hoare {A} (P : session → Prop) (x : C A) (Q : A → session → Prop) (E : session → Prop) : Prop :=
  ∀ s inp s' r, P s → x s inp = (s', r) → (∀ a rest, r = UOk a rest → Q a s') ∧ (∀ e rest, r = UErr e rest → E s').
Lemma hoare_bind {A B} P (x : C A) (f : A → C B) Q R E : hoare P x Q E → (∀ a, hoare (Q a) (f a) R E) → hoare P (mbind f x) R E.
Proof.
  intros Hx Hf s inp s' r Hs. unfold mbind, C_bind. destruct (x s inp) as [s1 r1] eqn:Ex. destruct (Hx _ _ _ _ Hs Ex) as [H1 H2].
  destruct r1 as [a rest|e rest| |]; [|by intros [= <- <-]; split; [|intros; by eapply H2]|by intros [= <- <-]|by intros [= <- <-]].
  intros H. eapply Hf; [|exact H]. by eapply H1.
Qed.
Lemma hoare_conseq {A} (P P' : session → Prop) (x : C A) (Q Q' : A → session → Prop) (E E' : session → Prop) :
  hoare P' x Q' E' → (∀ s, P s → P' s) → (∀ a s, Q' a s → Q a s) → (∀ s, E' s → E s) → hoare P x Q E.
Proof. intros H H1 H2 H3 s inp s' r Hs Hx. destruct (H _ _ _ _ (H1 _ Hs) Hx) as [Ha Hb]. split; intros; [apply H2|apply H3]; eauto. Qed.
Lemma hoare_ret {A} (a : A) (P : session → Prop) (Q : A → session → Prop) E : (∀ s, P s → Q a s) → hoare P (mret a) Q E.
Proof. intros H s inp s' r Hs [= <- <-]. split; [|done]. intros ? ? [= <- <-]. by apply H. Qed.
Lemma hoare_ask {A} (f : list input → ui A) (P : session → Prop) : hoare P (ask f) (λ _, P) P.
Proof. intros s inp s' r Hs [= <- <-]. done. Qed.
Lemma hoare_try {A} (o : outcome A) (P : session → Prop) : hoare P (try o) (λ _, P) P.
Proof. intros s inp s' r Hs [= <- <-]. done. Qed.
Lemma hoare_state (P : session → Prop) E : hoare P state (λ s0 s, P s ∧ s0 = s) E.
Proof. intros s inp s' r Hs [= <- <-]. split; [|done]. by intros ? ? [= <- <-]. Qed.
Lemma hoare_if {A} (b : bool) (x y : C A) P Q E : hoare P x Q E → hoare P y Q E → hoare P (if b then x else y) Q E. Proof. by destruct b. Qed.

#[local] Set Default Proof Using "All".
Lemma hoare_try_ok {A B} (a : A) (f : A → C B) P Q E : hoare P (f a) Q E → hoare P (mbind f (try (Ok a))) Q E.
Proof. intros H s inp s' r Hs E'. by apply (H s inp). Qed.
Section commands.
  Context (G : list tx → Prop) (V : string → Prop).
  Hypothesis HG : ∀ l l', G l → (∀ t, t ∈ l' → V (tx_uuid t)) → G (l ++ l').
  Hypothesis HV : ∀ l t, G l → t ∈ l → V (tx_uuid t).

  (** in good order, transaction point [p], the log satisfies [G], and the entries [L] exist *)
  Definition I (p : nat) (L : list string) (s : session) : Prop :=
    inv (s_db s) ∧ db_txpoint (s_db s) = p ∧ G (vis (db_log (s_db s))) ∧ ∀ u, u ∈ L → live (s_db s) u.
  Notation keeps p L x := (hoare (I p L) x (λ _, I p L) (I p L)).

  Lemma live_V p L s u : I p L s → live (s_db s) u → V u.
  Proof.
    intros (_ & _ & Hg & _) (m & b & Hm & Hb). destruct (replays_mentions _ _ _ _ Hm Hb) as (t & Ht & <-). by eapply HV.
  Qed.
  Lemma I_weaken p L L' s : I p L s → (∀ u, u ∈ L' → u ∈ L) → I p L' s.
  Proof. intros (H1 & H2 & H3 & H4) H. repeat split; try done. eauto. Qed.
  Lemma I_fields p L s s' : s_db s' = s_db s → I p L s → I p L s'.
  Proof. unfold I. by intros ->. Qed.
  Lemma I_step p L s d' l : I p L s → inv d' → db_txpoint d' = db_txpoint (s_db s) → vis (db_log d') = vis (db_log (s_db s)) ++ l →
    (∀ t, t ∈ l → V (tx_uuid t) ∧ ∀ u, u ∈ L → tx_uuid t = u → tx_kind t ≠ "del") → I p L (set_db d' s).
  Proof.
    intros (H1 & H2 & H3 & H4) Hi Ht Hv Hl. repeat split; cbn [s_db set_db].
    - done.
    - congruence.
    - rewrite Hv. apply HG; [done|]. intros t Htl. by apply Hl.
    - intros u Hu. eapply live_extend; [done|by apply H4|done|]. apply Forall_forall. intros t Htl. by apply Hl.
  Qed.
  Lemma keep_read {A} p L (m : M A) : quiet m → keepinv m → keeps p L (on_db m).
  Proof.
    intros Hq Hk s inp s' r Hs. unfold on_db. pose proof (Hq (s_db s)) as [Hl Ht]. pose proof (Hk (s_db s) (proj1 Hs)) as Hi.
    destruct (m (s_db s)) as [d o]. cbn [fst] in *. intros [= <- <-].
    assert (I p L (set_db d s)); [|done]. apply (I_step _ _ _ _ []); [done|done|done|by rewrite Hl, app_nil_r|]. by intros t ?%elem_of_nil.
  Qed.
  (** an operation on an existing entry *)
  Lemma keep_op {A} p L u (m : M A) o : u ∈ L → grows (about u) m → (∀ d, live d u → allowed d o) → (∀ d, (bstep d o).1 = (m d).1) → keeps p L (on_db m).
  Proof.
    intros Hu Hg Ha Hb s inp s' r Hs. unfold on_db. pose proof (Hg (s_db s)) as (Ht & l & Hv & Hl). pose proof (Hb (s_db s)) as Hb'.
    destruct (bstep (s_db s) o) as [d1 r1] eqn:E. pose proof Hs as (Hi & _ & _ & HL). apply bstep_inv in E as [Hi' _]; [|done|by apply Ha, HL].
    destruct (m (s_db s)) as [d o']. cbn [fst] in *. subst d1. intros [= <- <-].
    assert (I p L (set_db d s)); [|done]. apply (I_step _ _ _ _ l); [done|done|done|done|]. intros t Htl. rewrite Forall_forall in Hl. destruct (Hl t Htl) as [E1 E2].
    split; [|done]. rewrite E1. eapply live_V; [exact Hs|]. by apply HL.
  Qed.
  Lemma catching_fst {A B} (m : M A) (h : error → option B) k s inp : (catching m h k s inp).1 = set_db (m (s_db s)).1 s.
  Proof. unfold catching. by destruct (m (s_db s)) as [d [| |]]. Qed.
  Lemma keep_catching {A B} p L (m : M A) (h : error → option B) k : keeps p L (on_db m) → keeps p L (catching m h k).
  Proof.
    intros H s inp s' r Hs. unfold catching. specialize (H s inp). unfold on_db in H. cbv beta in H. revert H. destruct (m (s_db s)) as [d [a|e|]]; intros H.
    - intros [= <- <-]. destruct (H _ _ Hs eq_refl) as [H1 H2]. split; [|done]. intros. by eapply H1.
    - intros [= <- <-]. destruct (H _ _ Hs eq_refl) as [H1 H2]. assert (I p L (set_db d s)) by (by eapply H2). done.
    - by intros [= <- <-].
  Qed.
  Lemma keep_weaken {A} p L L' (x : C A) : keeps p L' x → (∀ u, u ∈ L → u ∈ L') → hoare (I p L') x (λ _, I p L) (I p L).
  Proof. intros H HL. eapply hoare_conseq; [exact H|done| |]; cbv beta; intros; (eapply I_weaken; [|exact HL]); assumption. Qed.

  Ltac memb := first [by apply elem_of_list_here | apply elem_of_list_further; memb | done].

  Lemma keep_set p L u e i k v : u ∈ L → k ≠ "name" → keeps p L (on_db (dbSet e i u k v)).
  Proof.
    intros Hu Hk. apply (keep_op p L u _ (BRawSet {| e_now := λ _, e_now e i; e_grow := λ _, e_grow e i; e_uuid := e_uuid e; e_ord := e_ord e |} u k v)); [done|apply grows_set| |].
    - intros d Hd. done.
    - intros d. done.
  Qed.
  Lemma keep_Set_key p L u e k v : u ∈ L → keeps p L (on_db (dropping (Set_key e 0 u k v))).
  Proof.
    intros Hu. apply (keep_op p L u _ (BSet e u k v)); [done|apply grows_dropping, grows_Set_key|done|].
    intros d. cbn [bstep]. unfold dropping. by destruct (Set_key e 0 u k v d) as [d' [| |]].
  Qed.
  Lemma keep_DeleteKey p L u e k : u ∈ L → keeps p L (on_db (DeleteKey_key e u k)).
  Proof. intros Hu. apply (keep_op p L u _ (BDeleteKey e u k)); [done|apply grows_DeleteKey|done|]. done. Qed.
  Lemma keep_DeleteKey' p L u e k : u ∈ L → keeps p L (on_db (dropping (DeleteKey_key e u k))).
  Proof.
    intros Hu. apply (keep_op p L u _ (BDeleteKey e u k)); [done|apply grows_dropping, grows_DeleteKey|done|].
    intros d. cbn [bstep]. unfold dropping. by destruct (DeleteKey_key e u k d) as [d' [| |]].
  Qed.
  Lemma keep_Rename p L u e n : fair e → u ∈ L → keeps p L (on_db (Rename e u n)).
  Proof. intros Hf Hu. apply (keep_op p L u _ (BRename e u n)); [done|apply grows_Rename|done|]. done. Qed.
  Lemma keep_Twofactor p L u c ok e v : u ∈ L → keeps p L (on_db (SetTwofactor c ok e u v)).
  Proof. intros Hu. apply (keep_op p L u _ (BTwofactor c ok e u v)); [done|apply grows_Twofactor|done|]. done. Qed.
  Lemma keep_RemoveLabel p L u e i : (0 ≤ i)%Z → u ∈ L → keeps p L (on_db (RemoveLabel e u i)).
  Proof. intros Hi Hu. apply (keep_op p L u _ (BRemoveLabel e u i)); [done|apply grows_RemoveLabel|done|]. done. Qed.
  Lemma keep_row p L u e i salt iv mkey : u ∈ L → keeps p L (on_db (put_row e i u salt iv mkey)).
  Proof.
    intros Hu. assert (keeps p L (_ ← on_db (dbSet e i u KeySalt (hex_encode salt)); _ ← on_db (dbSet e (S i) u KeyIV (hex_encode iv)); on_db (dbSet e (S (S i)) u KeyMKey (hex_encode mkey)))) as H.
    { apply (hoare_bind _ _ _ (λ _, I p L)); [by apply keep_set|intros _]. apply (hoare_bind _ _ _ (λ _, I p L)); [by apply keep_set|intros _]. by apply keep_set. }
    exact H.
  Qed.
  Lemma keep_change p L f : (∀ s, s_db (f s) = s_db s) → keeps p L (change f).
  Proof. intros Hf s inp s' r Hs [= <- <-]. assert (I p L (f s)) by (apply (I_fields p L s); [apply Hf|exact Hs]). done. Qed.
  Lemma hoare_pre {A} (P : session → Prop) (φ : Prop) (x : C A) Q E : (φ → hoare P x Q E) → hoare (λ s, P s ∧ φ) x Q E.
  Proof. intros H s inp s' r [Hs Hp]. by apply H. Qed.
  Lemma keep_get p L : hoare (I p L) state (λ _, I p L) (I p L).
  Proof. intros s inp s' r Hs [= <- <-]. split; [|done]. by intros ? ? [= <- <-]. Qed.

  (** finding *)
  Definition found p L (u : string) (s : session) : Prop := if decide (u = "") then I p L s else I p (u :: L) s.
  Lemma I_cons p L s u : I p L s → live (s_db s) u → I p (u :: L) s.
  Proof. intros (H1 & H2 & H3 & H4) Hl. repeat split; try done. intros x [->|Hx]%elem_of_cons; [done|by apply H4]. Qed.
  Lemma keep_find p L w q : fair (w_env w 0) → fair_results (r_ord (w_rand w)) → hoare (I p L) (findq w q) (found p L) (I p L).
  Proof.
    intros Hf Ho s inp s' r Hs E. pose proof (keep_read p L _ (quiet_findOne (w_lower w) (r_ord (w_rand w)) (w_env w 0) q) (keepinv_findOne _ _ _ _) s inp s' r Hs E) as [H1 H2].
    split; [|done]. intros u rest ->. specialize (H1 u rest eq_refl). unfold found. destruct (decide (u = "")); [done|]. apply I_cons; [done|].
    unfold findq, on_db in E. destruct (findOne _ _ _ _ (s_db s)) as [d o] eqn:Ef. injection E as <- E. destruct o as [x|e|]; [|done|done]. cbn [of_outcome] in E. injection E as -> ->.
    cbn [s_db set_db]. eapply findOne_live; [apply Hs|done|done|exact Ef|done].
  Qed.
  (** the frame of the commands that take a query *)
  Lemma keep_query {A} p L w q (a : A) (k : string → C A) : fair (w_env w 0) → fair_results (r_ord (w_rand w)) →
    (∀ u, keeps p (u :: L) (k u)) → keeps p L (u ← findq w q; if String.eqb u "" then mret a else k u).
  Proof.
    intros Hf Ho Hk. eapply hoare_bind; [by apply keep_find|]. intros u. unfold found. destruct (String.eqb u "") eqn:Eu.
    - apply String.eqb_eq in Eu as ->. apply hoare_ret. intros s. by destruct (decide ("" = "")).
    - apply String.eqb_neq in Eu. apply (hoare_conseq _ (I p (u :: L)) _ _ (λ _, I p (u :: L)) _ (I p (u :: L))); [apply Hk| | |].
      + intros s. by destruct (decide (u = "")).
      + intros _ s Hs. apply (I_weaken _ _ _ _ Hs). intros; by apply elem_of_list_further.
      + intros s Hs. apply (I_weaken _ _ _ _ Hs). intros; by apply elem_of_list_further.
  Qed.
  Ltac rd := apply keep_read; first [apply quiet_MustFind|apply quiet_Find|apply quiet_Search|apply quiet_SearchLabels|apply quiet_Users|apply quiet_FindByName
    |apply keepinv_MustFind|apply keepinv_Find|apply keepinv_Search|apply keepinv_SearchLabels|apply keepinv_Users|apply keepinv_FindByName].
  Ltac kk := repeat (first
    [ by apply hoare_ret | apply hoare_ask | apply hoare_try | apply keep_get | rd
    | apply keep_Set_key; memb | apply keep_set; [memb|done] | apply keep_DeleteKey; memb | apply keep_DeleteKey'; memb | apply keep_Twofactor; memb | apply keep_row; memb
    | apply keep_change; by intros | apply keep_catching | apply hoare_if
    | eapply hoare_bind; [|intros ?; cbv beta]
    | match goal with |- hoare _ (match ?x with _ => _ end) _ _ => destruct x end ]).

  Section world.
    Context (w : world).
    Hypothesis Hf : ∀ i, fair (w_env w i).
    Hypothesis Ho : fair_results (r_ord (w_rand w)).

    Lemma keep_mv p L a b : keeps p L (rename w a b).
    Proof.
      unfold rename. eapply (hoare_bind _ _ _ (λ r s, I p L s ∧ match r with Some (u, _) => live (s_db s) u | None => True end)).
      - intros s inp s' r Hs E. pose proof (keep_read p L _ (quiet_FindByName (w_env w 0) a) (keepinv_FindByName _ _) s inp s' r Hs E) as [H1 H2].
        split; [|done]. intros x rest ->. split; [by eapply H1|]. destruct x as [[u b']|]; [|done].
        unfold on_db in E. destruct (FindByName _ _ (s_db s)) as [d o] eqn:Ef. injection E as <- E. destruct o as [x|e|]; [|done|done]. cbn [of_outcome] in E. injection E as -> ->.
        cbn [s_db set_db]. eapply FindByName_live; [apply Hs|apply Hf|exact Ef].
      - intros [[u b']|]; [|eapply hoare_conseq; [by apply (hoare_ret _ (I p L) (λ _, I p L) (I p L))|by intros s [? _]|done|done]].
        apply hoare_if; [apply hoare_ret; by intros s [? _]|].
        eapply hoare_conseq; [apply (keep_weaken p L (u :: L)); [apply keep_catching, keep_Rename; [apply Hf|memb]|intros; by apply elem_of_list_further]| |done|done].
        intros s [Hs Hl]. by apply I_cons.
    Qed.
    Lemma keep_rmk p L q k : keeps p L (deleteKey w q k).
    Proof. apply keep_query; [done|done|]. intros u. kk. Qed.
    Lemma keep_ls p L q : keeps p L (list_cmd w q). Proof. unfold list_cmd. kk. Qed.
    Lemma keep_labels p L q : keeps p L (listByLabels w q). Proof. unfold listByLabels. kk. Qed.
    Lemma keep_get_cmd p L q k i c : keeps p L (get_cmd w q k i c). Proof. apply keep_query; [done|done|]. intros u. kk. Qed.
    Lemma keep_login p L q : keeps p L (login w q). Proof. apply keep_query; [done|done|]. intros u. kk. Qed.
    Lemma keep_set_cmd p L q k v : keeps p L (set_cmd w q k v). Proof. apply keep_query; [done|done|]. intros u. kk. Qed.
    Lemma keep_edit p L q k : keeps p L (edit w q k). Proof. apply keep_query; [done|done|]. intros u. kk. Qed.
    Lemma keep_label p L q : keeps p L (addLabels w q). Proof. apply keep_query; [done|done|]. intros u. kk. Qed.
    Lemma label_index_pos l ls : ∀ i j, label_index l ls i = Some j → (i ≤ j)%Z.
    Proof. induction ls as [|x ls IH]; intros i j; [done|]. cbn [label_index]. destruct (String.eqb x l); [intros [= ->]; lia|]. intros H. apply IH in H. lia. Qed.
    Lemma keep_rmlabel p L q l : keeps p L (deleteLabel w q l).
    Proof.
      apply keep_query; [done|done|]. intros u. eapply hoare_bind; [rd|intros b; cbv beta]. destruct (label_index l (Labels b) 0) as [i|] eqn:E; [|by apply hoare_ret].
      apply label_index_pos in E. eapply hoare_bind; [apply keep_RemoveLabel; [done|memb]|intros ?; cbv beta]. kk.
    Qed.
    Lemma keep_show p L q i : keeps p L (show w q i).
    Proof. apply keep_query; [done|done|]. intros u. eapply hoare_bind; [rd|intros b; cbv beta]. eapply hoare_bind; [apply keep_get|intros s; cbv beta zeta]. kk. Qed.
    Lemma keep_dump p L q : keeps p L (dump w q). Proof. apply keep_query; [done|done|]. intros u. kk. Qed.
    Lemma keep_dumpall p L : keeps p L dumpall. Proof. unfold dumpall. kk. Qed.
    Lemma keep_cd p L ctx q : keeps p L (exec w ctx (KCd q)).
    Proof. destruct q as [q|]; [|by apply hoare_ret]. apply keep_query; [done|done|]. intros u. kk. Qed.
    Lemma keep_open p L q : keeps p L (openurl w q).
    Proof.
      assert (keeps p L (x ← findq w q; if String.eqb x "" then mret [Note] else
         blob ← on_db (MustFind x);
         link ← try (Get blob KeyURL);
         if (String.length link =? 0)%nat then _ ← try (Name blob); mret [Note]
         else match w_url w link with NotUrl => mret [Note] | _ => mret [Opened link] end)) as H.
      { apply keep_query; [done|done|]. intros u. kk. }
      intros s inp s' r Hs. unfold openurl. specialize (H s inp). unfold mbind at 1, C_bind at 1 in H. destruct (findq w q s inp) as [s1 [u rest|e rest| |]] eqn:E.
      - intros E'. by apply (H _ _ Hs).
      - intros [= <- <-]. destruct (H _ _ Hs eq_refl) as [_ H2]. split; [|done]. intros. by eapply H2.
      - by intros [= <- <-].
      - by intros [= <- <-].
    Qed.

    (** *** new entries *)
    Definition N (p : nat) (s : session) : Prop := I p [] s ∧ unused (s_db s) (e_uuid (w_env w 0)).
    Hypothesis HU : V (e_uuid (w_env w 0)).
    Lemma new_step e n p s d r : e = w_env w 0 → N p s → Model_Blobs.New e 0 n (s_db s) = (d, r) →
      (r = Fail ENameNotUnique ∧ I p [] (set_db d s)) ∨ (r = Ok (e_uuid e) ∧ I p [e_uuid e] (set_db d s)).
    Proof.
      intros -> [Hs Hu] E. pose proof Hs as (Hi & _). pose proof (grows_New (w_env w 0) 0 n (s_db s)) as (T & l & Hv & Hl). rewrite E in T, Hv. cbn [fst] in T, Hv.
      assert (inv d) as Hi'. { apply (bstep_inv (s_db s) (BNew (w_env w 0) n) d (match r with Ok _ => Ok tt | Fail x => Fail x | Panic => Panic end)); [done| |]; [split; [apply Hf|done]|]. cbn [bstep]. rewrite E. by destruct r. }
      assert (I p [] (set_db d s)) as Hp. { apply (I_step _ _ _ _ l); [done..|]. intros t Ht. rewrite Forall_forall in Hl. destruct (Hl t Ht) as [-> _]. split; [done|]. by intros ? ?%elem_of_nil. }
      destruct Hi as (m & Hh & [Ha _]). destruct (New_spec (w_env w 0) 0 n (s_db s) m Hh Ha (Hf 0)) as [[_ (d1 & E1 & _)]|[_ H]].
      - rewrite E in E1. injection E1 as -> ->. by left.
      - destruct (H Hu) as (d1 & E1 & Hh1 & _). rewrite E in E1. injection E1 as -> ->. right. split; [done|]. apply I_cons; [done|]. cbn [s_db set_db].
        apply (live_snap d1 _ _ Hh1). rewrite lookup_insert. eauto.
    Qed.
    Lemma keep_adduser p x : hoare (N p) (adduser (w_P w) (w_env w 0) (w_rand w) x) (λ _, I p []) (I p []).
    Proof.
      intros s inp s' r Hs. unfold adduser, NewUser. destruct (Model_Blobs.New (w_env w 0) 0 (userPrefix +:+ x) (s_db s)) as [d o] eqn:E.
      destruct (new_step _ _ p s d o eq_refl Hs E) as [[-> H]|[-> H]].
      - intros [= <- <-]. split; [|done]. intros. exact H.
      - match goal with |- ?y (set_db d s) inp = _ → _ => assert (hoare (I p [e_uuid (w_env w 0)]) y (λ _, I p []) (I p [])) as Hy; [|intros E'; by apply (Hy _ _ _ _ H E')] end.
        apply (keep_weaken p [] [e_uuid (w_env w 0)]); [|by intros ? ?%elem_of_nil]. apply hoare_try_ok. kk.
    Qed.
    Lemma keep_user p L x : hoare (I p L) (on_db (MustFindUser (w_env w 0) x)) (λ r, I p (r.1 :: L)) (I p L).
    Proof.
      intros s inp s' r Hs E. pose proof (keep_read p L _ (quiet_MustFindUser (w_env w 0) x) (keepinv_MustFindUser _ _) s inp s' r Hs E) as [H1 H2].
      split; [|done]. intros [u b] rest ->. specialize (H1 _ rest eq_refl). cbn [fst]. apply I_cons; [done|].
      unfold on_db in E. destruct (MustFindUser _ _ (s_db s)) as [d o] eqn:Ef. injection E as <- E. destruct o as [y|e|]; [|done|done]. cbn [of_outcome] in E. injection E as -> ->.
      cbn [s_db set_db]. eapply MustFindUser_live; [apply Hs|apply Hf|exact Ef].
    Qed.
    Lemma keep_user_row p L x (k : string → C unit) : (∀ u, keeps p (u :: L) (k u)) → keeps p L ('(uuid, _) ← on_db (MustFindUser (w_env w 0) x); k uuid).
    Proof.
      intros H. eapply hoare_bind; [apply keep_user|]. intros [u b]. cbn [fst]. apply keep_weaken; [apply H|]. intros; by apply elem_of_list_further.
    Qed.
    Lemma keep_passwd p L x : keeps p L (passwd (w_P w) (w_env w 0) (w_rand w) x).
    Proof.
      unfold passwd. eapply hoare_bind; [apply hoare_ask|intros pw; cbv beta]. apply hoare_if; [by apply hoare_ret|].
      eapply hoare_bind; [apply hoare_try|intros [key salt]; cbv beta iota]. eapply hoare_bind; [apply keep_get|intros s0; cbv beta].
      eapply hoare_bind; [kk|intros ?; cbv beta]. apply hoare_if; [by apply hoare_ret|].
      apply keep_user_row. intros u. kk.
    Qed.
    Lemma keep_rekey p L x : keeps p L (rekey (w_P w) (w_env w 0) (w_rand w) x).
    Proof.
      unfold rekey. cbv zeta. eapply hoare_bind; [apply keep_get|intros s0; cbv beta]. eapply hoare_bind; [kk|intros pw; cbv beta]. apply hoare_if; [by apply hoare_ret|].
      eapply hoare_bind; [apply hoare_try|intros [key salt]; cbv beta iota].
      eapply hoare_bind; [kk|intros ?; cbv beta]. apply hoare_if; [by apply hoare_ret|].
      apply keep_user_row. intros u. kk.
    Qed.
    Lemma keep_rekey_loop p L l : ∀ n printed, (∀ u x, (u, x) ∈ l → u ∈ L) → keeps p L (rekey_loop (w_P w) (w_env w 0) (w_rand w) n l printed).
    Proof.
      induction l as [|[u x] l IH]; intros n printed HL; [by apply hoare_ret|]. cbn [rekey_loop]. cbv zeta.
      assert (u ∈ L) by (eapply HL; by left).
      do 2 (eapply hoare_bind; [apply hoare_try|intros ?; cbv beta]). eapply hoare_bind; [apply hoare_try|intros [key salt]; cbv beta iota].
      eapply hoare_bind; [apply keep_get|intros s0; cbv beta]. eapply hoare_bind; [kk|intros ?; cbv beta]. eapply hoare_bind; [apply hoare_try|intros [mk iv]; cbv beta iota].
      eapply hoare_bind; [by apply keep_row|intros ?; cbv beta]. apply IH. intros. eapply HL. by right.
    Qed.
    Lemma keep_rekeyAll p L : keeps p L (rekeyAll (w_P w) (w_env w 0) (w_rand w)).
    Proof.
      unfold rekeyAll. eapply hoare_bind; [apply keep_get|intros s0; cbv beta]. apply hoare_if; [by apply hoare_ret|].
      eapply hoare_bind; [apply hoare_ask|intros yes; cbv beta]. apply hoare_if; [by apply hoare_ret|].
      eapply hoare_bind; [apply hoare_try|intros [ma iv]; cbv beta iota].
      eapply (hoare_bind _ _ _ (λ r, I p ((r_ord (w_rand w) (res_map r)).*1 ++ L))).
      - intros s inp s' r Hs E. pose proof (keep_read p L _ (quiet_Users (w_env w 0)) (keepinv_Users _) s inp s' r Hs E) as [H1 H2].
        split; [|done]. intros x rest ->. specialize (H1 _ rest eq_refl). destruct H1 as (A1 & A2 & A3 & A4). repeat split; [done..|].
        unfold on_db in E. destruct (Model_Blobs.Users _ (s_db s)) as [d o] eqn:Ef. injection E as <- E. destruct o as [y|e|]; [|done|done]. cbn [of_outcome] in E. injection E as -> ->.
        intros u [Hu|Hu]%elem_of_app; [|by apply A4]. apply elem_of_list_fmap in Hu as ([u' n] & -> & Hu). rewrite (Ho _) in Hu. apply elem_of_map_to_list in Hu.
        cbn [s_db set_db fst]. eapply Users_live; [apply Hs|apply Hf|exact Ef|exact Hu].
      - intros users. apply keep_weaken; [|intros; apply elem_of_app; by right].
        eapply hoare_bind; [apply keep_rekey_loop|intros ?; cbv beta; kk].
        intros u x Hu. apply elem_of_app. left. apply elem_of_list_fmap. by exists (u, x).
    Qed.
    Lemma keep_rm p x : keeps p [] (deleteEntry (w_env w 0) x).
    Proof.
      unfold deleteEntry. eapply (hoare_bind _ _ _ (λ r s, match r with Some (u, _) => I p [u] s | None => I p [] s end)).
      - intros s inp s' r Hs E. pose proof (keep_read p [] _ (quiet_FindByName (w_env w 0) x) (keepinv_FindByName _ _) s inp s' r Hs E) as [H1 H2].
        split; [|done]. intros y rest ->. specialize (H1 _ rest eq_refl). destruct y as [[u b']|]; [|done]. apply I_cons; [done|].
        unfold on_db in E. destruct (FindByName _ _ (s_db s)) as [d o] eqn:Ef. injection E as <- E. destruct o as [z|e|]; [|done|done]. cbn [of_outcome] in E. injection E as -> ->.
        cbn [s_db set_db]. eapply FindByName_live; [apply Hs|apply Hf|exact Ef].
      - intros [[u b']|]; [|by apply hoare_ret].
        assert (∀ L s, I p L s → I p [] s) as Hz. { intros L s Hs. apply (I_weaken _ _ _ _ Hs). by intros ? ?%elem_of_nil. }
        eapply (hoare_conseq _ (I p [u]) _ _ (λ _, I p []) _ (I p [])); [|done|done|done].
        apply hoare_if; [apply hoare_ret; apply Hz|].
        assert (∀ A (y : C A) (k : A → C unit), keeps p [u] y → (∀ a, hoare (I p [u]) (k a) (λ _, I p []) (I p [])) → hoare (I p [u]) (mbind k y) (λ _, I p []) (I p [])) as Hb.
        { intros A y k H1 H2. eapply hoare_bind; [|apply H2]. eapply hoare_conseq; [exact H1|done|done|apply Hz]. }
        apply Hb; [apply keep_get|intros s0]. apply Hb; [apply hoare_try|intros un]. cbv zeta. apply Hb; [kk|intros refused]. apply hoare_if; [apply hoare_ret; apply Hz|].
        apply Hb; [apply hoare_ask|intros line]. apply hoare_if; [apply hoare_ret; apply Hz|]. apply Hb; [kk|intros _].
        intros s inp s' r Hs. pose proof Hs as (Hi & Ht & Hg & HL). assert (live (s_db s) u) as Hl by (apply HL; by left).
        unfold on_db. destruct (bstep (s_db s) (BDelete (w_env w 0) u)) as [d r1] eqn:E. pose proof (bstep_inv _ (BDelete (w_env w 0) u) _ _ Hi Hl E) as [Hi' _].
        cbn [bstep] in E. rewrite E. intros [= <- <-].
        assert (I p [] (set_db d s)); [|done]. pose proof (grows_del u (w_env w 0) 0 (s_db s)) as (T & l & Hv & Hfl). rewrite E in T, Hv. cbn [fst] in T, Hv.
        apply (I_step p [] s d l); [by apply (Hz [u])|done|done|done|]. intros t Htl. rewrite Forall_forall in Hfl. rewrite (Hfl t Htl). split; [by eapply live_V|by intros ? ?%elem_of_nil].
    Qed.

    (** *** add and addsync *)
    Lemma keep_within {A} (body : C A) s inp s' r : hoare (N (S (length (vis (db_log (s_db s)))))) body (λ _, I (S (length (vis (db_log (s_db s))))) []) (λ _, True) →
      N 0 s → (∀ e rest, within body s inp = (s', UErr e rest) → unchanged s s' ∧ inv (s_db s')) → within body s inp = (s', r) →
      (∀ a rest, r = UOk a rest → I 0 [] s') ∧ (∀ e rest, r = UErr e rest → I 0 [] s').
    Proof.
      intros Hb Hs He E. pose proof Hs as [(Hi & Ht & Hg & _) Hun]. split.
      - intros a rest ->. unfold within in E. destruct (body (set_db (Begin (s_db s)) s) inp) as [s1 r1] eqn:E1.
        assert (N (S (length (vis (db_log (s_db s))))) (set_db (Begin (s_db s)) s)) as Hn.
        { split; [|exact Hun]. repeat split; cbn [s_db set_db].
          - destruct Hi as (m & Hh & Hw). exists m. split; [by apply holds_begin|done].
          - cbn [Begin db_txpoint]. lia.
          - exact Hg.
          - by intros ? ?%elem_of_nil. }
        destruct (Hb _ _ _ _ Hn E1) as [H1 _]. destruct r1 as [a1 rest1| | |]; [|destruct (Rollback (s_db s1)); done|done|done].
        destruct (H1 _ _ eq_refl) as (Bi & Bt & Bg & _). unfold Commit in E. rewrite (proj2 (Nat.eqb_neq _ _)) in E by lia. injection E as <- _ _.
        repeat split; cbn [s_db set_db db_txpoint db_log].
        + destruct Bi as (m & Hh & Hw). exists m. split; [by apply holds_point|done].
        + exact Bg.
        + by intros ? ?%elem_of_nil.
      - intros e rest ->. destruct (He e rest E) as [(V1 & T1 & _) Hi']. repeat split; [done|congruence|by rewrite V1|by intros ? ?%elem_of_nil].
    Qed.
    Lemma body_bind {A B} p (y : C A) (k : A → C B) : (∀ L, keeps p L y) → ∀ L Q, (∀ a, hoare (I p L) (k a) Q (λ _, True)) → hoare (I p L) (mbind k y) Q (λ _, True).
    Proof. intros Hy L Q Hk. eapply hoare_bind; [|apply Hk]. eapply hoare_conseq; [apply Hy|done|done|done]. Qed.
    Lemma keep_addNew n s inp s' r : N 0 s → addNew w n s inp = (s', r) → (∀ a rest, r = UOk a rest → I 0 [] s') ∧ (∀ e rest, r = UErr e rest → I 0 [] s').
    Proof.
      intros Hs. pose proof Hs as [((m & Hh & Hw) & Ht & _) _]. unfold addNew. intros E. apply (keep_within _ s inp s' r) in E; [done| |done|].
      - set (p := S (length (vis (db_log (s_db s))))).
        eapply (hoare_bind _ _ _ (λ r, match r with Some u => I p [u] | None => I p [] end)).
        + intros s1 i1 s2 r1 Hn. unfold catching. destruct (Model_Blobs.New (w_env w 0) 0 n (s_db s1)) as [d o] eqn:En.
          destruct (new_step _ _ p s1 d o eq_refl Hn En) as [[-> H]|[-> H]]; intros [= <- <-]; (split; [|done]); intros ? ? [= <- <-]; exact H.
        + intros [u|]; [|by apply hoare_ret].
          eapply hoare_conseq; [apply (keep_weaken p [] [u]); [|by intros ? ?%elem_of_nil]|done|done|done].
          assert (∀ e i k v, k ≠ "name" → keeps p [u] (on_db (raw_if e i u k v))) as Hr.
          { intros e i k v Hk. unfold raw_if. case_match; [apply (keep_read p [u]); [apply quiet_ret|apply keepinv_ret]|]. by apply keep_set; [left|]. }
          repeat (first [by apply hoare_ret | apply hoare_ask | by apply Hr | eapply hoare_bind; [|intros ?; cbv beta]]).
      - intros e rest Ee. destruct (add_err' w n s m inp s' e rest Hh (proj1 Hw) Hf Ht Ee) as [Hu' Hh']. split; [done|]. by exists m.
    Qed.
    Lemma keep_scp p u : keeps p [u] (addSCPEntry w u). Proof. unfold addSCPEntry. kk. Qed.
    Lemma keep_addSync kind s inp s' r : N 0 s → addSync w kind s inp = (s', r) → (∀ a rest, r = UOk a rest → I 0 [] s') ∧ (∀ e rest, r = UErr e rest → I 0 [] s').
    Proof.
      intros Hs. pose proof Hs as [((m & Hh & Hw) & Ht & _) Hun]. unfold addSync. destruct (negb _) eqn:Ek.
      { intros [= <- <-]. split; [|done]. intros. apply Hs. }
      intros E. apply (keep_within _ s inp s' r) in E; [done| |done|].
      - set (p := S (length (vis (db_log (s_db s))))).
        eapply (hoare_bind _ _ _ (λ s0 s, N p s ∧ s0 = s)). { intros ? ? ? ? ? [= <- <-]. split; [|done]. by intros ? ? [= <- <-]. }
        intros s0. eapply (hoare_bind _ _ _ (λ u, I p [u])).
        + intros s1 i1 s2 r1 [Hn ->] E1. unfold on_db in E1. destruct (NewSync _ _ kind (s_db s1)) as [[d o]|] eqn:En; [|injection E1 as <- <-; done].
          injection E1 as <- <-. split; [|done]. intros u rest Eo. pose proof Hn as [Hi Hun1]. destruct Hi as (Hi & _). pose proof (proj1 Hn) as HI.
          assert (inv d) as Hid. { apply (bstep_inv (s_db s1) (BNewSync (w_env w 0) kind) d (match o with Ok _ => Ok tt | Fail x => Fail x | Panic => Panic end)); [done|split; [apply Hf|done]|]. cbn [bstep]. rewrite En. by destruct o. }
          pose proof En as En'. unfold NewSync in En'. apply newsync_grows in En' as (T & l & Hv & Hl). cbn [fst] in T, Hv.
          assert (I p [] (set_db d s1)) as Hp. { apply (I_step p [] s1 d l); [done..|]. intros t Htl. rewrite Forall_forall in Hl. destruct (Hl t Htl) as [-> _]. split; [done|]. by intros ? ?%elem_of_nil. }
          destruct Hi as (m1 & Hh1 & Hw1). destruct (NewSync_spec (w_env w 0) kind (s_db s1) m1 Hh1 (proj1 Hw1) (Hf 0) Hun1) as (k & d1 & Ed & _ & _ & Hh2).
          unfold NewSync in *. apply (newsync_more _ (S (length (vis (db_log (s_db s1)))))) in Ed; [|apply le_n_S, size_le_log, Hh1]. rewrite En in Ed. injection Ed as -> ->.
          cbn [of_outcome] in Eo. injection Eo as <- _. apply I_cons; [done|]. cbn [s_db set_db]. apply (live_snap d1 _ _ Hh2). rewrite lookup_insert. eauto.
        + intros u. eapply hoare_conseq; [apply (keep_weaken p [] [u]); [|by intros ? ?%elem_of_nil]|done|done|done].
          eapply hoare_bind; [apply hoare_if; [|apply keep_scp]|intros url; cbv beta]; kk.
      - intros e rest Ee. destruct (addsync_err' w kind s m inp s' e rest Hh (proj1 Hw) Hf Ht Hun) as [Hu' Hh']; [unfold addSync; rewrite Ek; exact Ee|]. split; [done|]. by exists m.
    Qed.
    Lemma keep_interruptible {A} (a0 : A) (x : C A) s inp s' r : (∀ s1 r1, x s inp = (s1, r1) → (∀ a rest, r1 = UOk a rest → I 0 [] s1) ∧ (∀ e rest, r1 = UErr e rest → I 0 [] s1)) →
      interruptible a0 x s inp = (s', r) → (∀ a rest, r = UOk a rest → I 0 [] s') ∧ (∀ e rest, r = UErr e rest → I 0 [] s').
    Proof.
      intros Hx. unfold interruptible. destruct (x s inp) as [s1 r1] eqn:E. destruct (Hx _ _ eq_refl) as [H1 H2].
      destruct r1 as [a rest|e rest| |].
      - intros [= <- <-]. done.
      - assert (I 0 [] s1) as Hi by (by eapply H2). destruct e; intros [= <- <-]; split; intros; exact Hi.
      - by intros [= <- <-].
      - by intros [= <- <-].
    Qed.
    Lemma keep_exec ctx c : (∀ n, c = KSync n → keeps 0 [] (w_sync w n)) → hoare (N 0) (exec w ctx c) (λ _, I 0 []) (I 0 []).
    Proof.
      intros Hsync. destruct c; cbn [exec]; unfold silent, showing;
        try (eapply (hoare_bind _ _ _ (λ _, I 0 [])); [|intros ?; by apply hoare_ret]).
      2: apply keep_adduser.
      4: intros s inp s' r Hs; apply keep_interruptible; intros s1 r1; by apply keep_addNew.
      19: intros s inp s' r Hs; apply keep_interruptible; intros s1 r1; by apply keep_addSync.
      all: eapply (hoare_conseq _ (I 0 []) _ _ (λ _, I 0 []) _ (I 0 [])); [|by intros ? []|done|done].
      - apply keep_passwd.
      - apply keep_rekey.
      - apply keep_rekeyAll.
      - apply keep_mv.
      - apply keep_rm.
      - apply keep_rmk.
      - apply keep_ls.
      - apply (keep_cd 0 [] ctx query).
      - apply keep_get_cmd.
      - apply keep_login.
      - apply keep_set_cmd.
      - apply keep_edit.
      - apply keep_open.
      - apply keep_label.
      - apply keep_rmlabel.
      - apply keep_labels.
      - apply keep_show.
      - by apply Hsync.
      - apply keep_dump.
      - apply keep_dumpall.
      - by apply hoare_ret.
      - by apply hoare_ret.
    Qed.
  End world.
End commands.

(** ** One command and a whole session *)
Lemma I_sound (U : string → Prop) s : I (λ l, ∀ t, t ∈ l → U (tx_uuid t)) 0 [] s ↔ sound U s.
Proof.
  split.
  - intros ((m & Hh & Hw) & Ht & Hg & _). split; [done|]. split; [by exists m|done].
  - intros (Ht & (m & Hh & Hw) & Hg). split; [by exists m|]. split; [done|]. split; [done|]. by intros ? ?%elem_of_nil.
Qed.
Lemma sound_mono (U V : string → Prop) s : (∀ u, U u → V u) → sound U s → sound V s.
Proof. intros H (H1 & H2 & H3). split; [done|]. split; [done|]. intros t Ht. by apply H, H3. Qed.
Lemma exec_sound (U R : string → Prop) w ctx c s inp s' r : tame U w → sync_sound R w → (∀ u, R u → U u) → sound U s → exec w ctx c s inp = (s', r) →
  (∀ a rest, r = UOk a rest → sound (λ u, U u ∨ u = drawn w) s') ∧ (∀ e rest, r = UErr e rest → sound (λ u, U u ∨ u = drawn w) s').
Proof.
  intros (Hf & Ho & Hn) Hsy HR Hs. set (V := λ u, U u ∨ u = drawn w).
  assert (sound V s) as HV by (apply (sound_mono U); [by left|done]).
  assert (∀ l l' : list tx, (∀ t, t ∈ l → V (tx_uuid t)) → (∀ t, t ∈ l' → V (tx_uuid t)) → ∀ t, t ∈ l ++ l' → V (tx_uuid t)) as H1.
  { intros l l' Ha Hb t [?|?]%elem_of_app; [by apply Ha|by apply Hb]. }
  assert (∀ (l : list tx) t, (∀ t, t ∈ l → V (tx_uuid t)) → t ∈ l → V (tx_uuid t)) as H2 by (intros l t Ha; by apply Ha).
  intros E. destruct (keep_exec (λ l, ∀ t, t ∈ l → V (tx_uuid t)) V H1 H2 w Hf Ho (or_intror eq_refl) ctx c) with s inp s' r as [Ha Hb].
  - intros n _ s1 i1 s2 r2 HI E2. apply I_sound in HI. destruct (Hsy V n s1 i1 s2 r2) as [Hx Hy]; [intros u Hu; left; by apply HR|done|done|].
    split; intros; apply I_sound; eauto.
  - split; [by apply I_sound|]. intros t Ht E'. apply Hn. rewrite <-E'. by apply Hs.
  - done.
  - split; intros; apply I_sound; eauto.
Qed.
Lemma exec_grows (U : string → Prop) w ctx c s inp s' r : tame U w → sound U s → (∀ n, c ≠ KSync n) → exec w ctx c s inp = (s', r) →
  (∀ a rest, r = UOk a rest → log_grew s s') ∧ (∀ e rest, r = UErr e rest → log_grew s s').
Proof.
  intros (Hf & Ho & Hn) Hs Hns. set (V := λ u, U u ∨ u = drawn w). set (G := λ l, (∃ l', l = vis (db_log (s_db s)) ++ l') ∧ ∀ t, t ∈ l → V (tx_uuid t)).
  assert (∀ l l' : list tx, G l → (∀ t, t ∈ l' → V (tx_uuid t)) → G (l ++ l')) as H1.
  { intros l l' [[x ->] Ha] Hb. split; [exists (x ++ l'); by rewrite app_assoc|]. intros t [?|?]%elem_of_app; [by apply Ha|by apply Hb]. }
  assert (∀ (l : list tx) t, G l → t ∈ l → V (tx_uuid t)) as H2 by (intros l t [_ Ha]; by apply Ha).
  intros E. destruct (keep_exec G V H1 H2 w Hf Ho (or_intror eq_refl) ctx c) with s inp s' r as [Ha Hb].
  - intros n ->. by destruct (Hns n).
  - destruct Hs as (Ht & (m & Hh & Hw) & Hg). split.
    + split; [by exists m|]. split; [done|]. split; [|by intros ? ?%elem_of_nil]. split; [exists []; by rewrite app_nil_r|]. intros t Htl. left. by apply Hg.
    + intros t Htl E'. apply Hn. rewrite <-E'. by apply Hg.
  - done.
  - split; intros; [destruct (Ha _ _ H) as (_ & _ & [Hx _] & _)|destruct (Hb _ _ H) as (_ & _ & [Hx _] & _)]; exact Hx.
Qed.

(** the uuids of the start, of the remote stores, and those drawn in the first [n] turns *)
Lemma run_loop_sound (U R : string → Prop) w : (∀ u, R u → U u) → (∀ n, tame U (w n)) → (∀ i j, drawn (w i) = drawn (w j) → i = j) → (∀ n, sync_sound R (w n)) →
  ∀ fuel n ctx shown s inp s' o r, sound (upto U w n) s → run_loop fuel w n ctx shown s inp = (s', o, r) →
    ∃ k, (∀ rest, r = UOk tt rest → sound (upto U w k) s') ∧ (∀ e rest, r = UErr e rest → sound (upto U w k) s').
Proof.
  intros HR Ht Hd Hsy fuel. induction fuel as [|f IH]; intros n ctx shown s inp s' o r Hs; cbn [run_loop]; [intros [= <- <- <-]; by exists n|].
  destruct inp as [|[line|e] rest]; [intros [= <- <- <-]; by exists n| |destruct e; intros [= <- <- <-]; exists n; split; by intros].
  assert (tame (upto U w n) (w n)) as Htn.
  { destruct (Ht n) as (H1 & H2 & H3). split; [done|]. split; [done|]. intros [Hu|(i & Hi & E)]; [done|]. apply (Hd n i) in E. lia. }
  assert (∀ c s2 r2, exec (w n) ctx c s rest = (s2, r2) → (∀ a rest, r2 = UOk a rest → sound (upto U w (S n)) s2) ∧ (∀ e rest, r2 = UErr e rest → sound (upto U w (S n)) s2)) as Hex.
  { intros c s2 r2 E. destruct (exec_sound (upto U w n) R (w n) ctx c s rest s2 r2 Htn (Hsy n) (λ u Hu, or_introl (HR u Hu)) Hs E) as [Ha Hb].
    assert (∀ u, upto U w n u ∨ u = drawn (w n) → upto U w (S n) u) as Hm. { intros u [[Hu|(i & Hi & ->)]| ->]; [by left|right; exists i; split; [lia|done]|right; exists n; split; [lia|done]]. }
    split; intros; (eapply sound_mono; [exact Hm|]); eauto. }
  assert (run_loop f w n ctx shown s rest = (s', o, r) → ∃ k, (∀ rest, r = UOk tt rest → sound (upto U w k) s') ∧ (∀ e rest, r = UErr e rest → sound (upto U w k) s')) as Hskip by (by apply IH).
  destruct (parse_line (s_readOnly s) ctx line) as [| | | |c]; [done..|].
  assert ((match exec (w n) ctx c s rest with
              | (s', UOk (ctx', o) rest') => run_loop f w (S n) ctx' (shown ++ o) s' rest'
              | (s', UErr e rest') => (s', shown, UErr e rest')
              | (s', UPanic) => (s', shown, UPanic)
              | (s', UWait) => (s', shown, UWait)
              end) = (s', o, r) → ∃ k, (∀ rest, r = UOk tt rest → sound (upto U w k) s') ∧ (∀ e rest, r = UErr e rest → sound (upto U w k) s')) as Hrun.
  { destruct (exec (w n) ctx c s rest) as [s2 r2] eqn:E. destruct (Hex c s2 r2 E) as [Ha Hb]. destruct r2 as [[ctx' o'] rest2|e2 rest2| |].
    - apply IH. by eapply Ha.
    - intros [= <- <- <-]. exists (S n). split; [done|]. intros. by eapply Hb.
    - intros [= <- <- <-]. by exists n.
    - intros [= <- <- <-]. by exists n. }
  destruct c; try exact Hrun. intros [= <- <- <-]. exists n. split; [by intros|done].
Qed.
