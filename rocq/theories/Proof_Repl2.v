(** Proofs about command lines and about the commands that work on one entry. *)
From Verif Require Import Proof_TxLog Proof_GoStr Proof_Utf8 Proof_Dialogue Proof_Blobs Proof_Blobs2 Proof_Session2 Proof_Session3 Proof_Session5.
From Verif Require Export Proof_Trim Proof_Repl.
From Coq Require Import Lia.
From stdpp Require Import options.
Import Model_GoStr Proof_Utf8.
#[local] Open Scope nat_scope.

(** ** The line of set *)
Definition sp : string := String (Zbyte 32) "".
Lemma set_tight p t : t ≠ "" → no_trailing t → tight ("set" +:+ sp +:+ p +:+ String (Zbyte 32) t).
Proof.
  intros Hne Ht r x Hr. split.
  - intros E. destruct (space_valid r Hr) as [Hv _]. pose proof (decode_encode r x Hv) as Hd. rewrite <-E in Hd.
    cbn [String.append] in Hd. rewrite decode_ascii in Hd by done. injection Hd as <- _. done.
  - rewrite <-!sapp_assoc. by apply no_trailing_app.
Qed.
Lemma Fields_set s : ∃ r, Fields ("set" +:+ sp +:+ s) = "set" :: r.
Proof.
  unfold Fields. rewrite fields_plain by (repeat (apply plain_cons; split; [vm_compute; done|]); by intros ? ?%elem_of_nil).
  unfold sp. cbn [String.append fields_from]. rewrite decode_ascii by done. change (IsSpace (byteZ (Zbyte 32))) with true. cbn iota. eauto.
Qed.
Lemma join_split_rest t : go_join sp (split_on (Zbyte 32) t) = t. Proof. apply join_split. Qed.

Lemma set_line q k t : q ≠ "" → k ≠ "" → lacks (Zbyte 32) q → lacks (Zbyte 32) k → t ≠ "" → no_trailing t →
  parse_line false "" ("set " +:+ q +:+ " " +:+ k +:+ " " +:+ t) = Run (KSet q k t).
Proof.
  intros Hq Hk Lq Lk Ht Hn. unfold parse_line.
  assert ("set " +:+ q +:+ " " +:+ k +:+ " " +:+ t = "set" +:+ sp +:+ (q +:+ sp +:+ k) +:+ String (Zbyte 32) t) as E.
  { cbn [String.append]. rewrite !sapp_assoc. done. }
  rewrite TrimSpace_id by (rewrite E; by apply set_tight).
  destruct (Fields_set (q +:+ " " +:+ k +:+ " " +:+ t)) as (r & Hr).
  change ("set " +:+ q +:+ " " +:+ k +:+ " " +:+ t) with ("set" +:+ sp +:+ (q +:+ " " +:+ k +:+ " " +:+ t)). rewrite Hr. cbv zeta.
  change (String.eqb "set" "set") with true. cbn iota.
  assert (drop 1 (split_on (Zbyte 32) ("set" +:+ sp +:+ (q +:+ " " +:+ k +:+ " " +:+ t))) = q :: k :: split_on (Zbyte 32) t) as ->.
  { change ("set" +:+ sp +:+ (q +:+ " " +:+ k +:+ " " +:+ t)) with ("set" +:+ String (Zbyte 32) (q +:+ String (Zbyte 32) (k +:+ String (Zbyte 32) t))).
    rewrite split_on_app by (repeat split; done). rewrite split_on_app by done. rewrite split_on_app by done. done. }
  change (negb (is_cmd read_cmds "set" || is_cmd write_cmds "set")) with false. cbn [andb]. cbn iota.
  change (run_of "" "set" (q :: k :: split_on (Zbyte 32) t)) with
    (if (String.length q =? 0) || (String.length k =? 0) then Usage else Run (KSet q k (go_join sp (split_on (Zbyte 32) t)))).
  rewrite join_split_rest. destruct q; [done|]. destruct k; [done|]. done.
Qed.
Lemma set_line_ctx c k t : c ≠ "" → k ≠ "" → lacks (Zbyte 32) k → t ≠ "" → no_trailing t →
  parse_line false c ("set " +:+ k +:+ " " +:+ t) = Run (KSet c k t).
Proof.
  intros Hc Hk Lk Ht Hn. unfold parse_line.
  rewrite TrimSpace_id by (apply (set_tight k t Ht Hn)).
  destruct (Fields_set (k +:+ " " +:+ t)) as (r & Hr).
  change ("set " +:+ k +:+ " " +:+ t) with ("set" +:+ sp +:+ (k +:+ " " +:+ t)). rewrite Hr. cbv zeta.
  change (String.eqb "set" "set") with true. cbn iota.
  assert (drop 1 (split_on (Zbyte 32) ("set" +:+ sp +:+ (k +:+ " " +:+ t))) = k :: split_on (Zbyte 32) t) as ->.
  { change ("set" +:+ sp +:+ (k +:+ " " +:+ t)) with ("set" +:+ String (Zbyte 32) (k +:+ String (Zbyte 32) t)).
    rewrite split_on_app by (repeat split; done). rewrite split_on_app by done. done. }
  change (negb (is_cmd read_cmds "set" || is_cmd write_cmds "set")) with false. cbn [andb]. cbn iota.
  change (run_of c "set" (k :: split_on (Zbyte 32) t)) with
    (keyed c (k :: split_on (Zbyte 32) t) (λ name key rest, if (String.length name =? 0) || (String.length key =? 0) then Usage else Run (KSet name key (go_join sp rest)))).
  unfold keyed. destruct c; [done|]. cbn [String.length Nat.eqb orb]. rewrite join_split_rest. destruct k; [done|]. done.
Qed.

(** ** Operations that leave the transaction point alone *)
Definition steady {A} (m : M A) : Prop := ∀ d, db_txpoint (m d).1 = db_txpoint d.
Lemma quiet_steady {A} (m : M A) : quiet m → steady m. Proof. intros H d. apply H. Qed.
Lemma steady_ret {A} (a : A) : steady (mret a). Proof. done. Qed.
Lemma steady_lift {A} (o : outcome A) : steady (lift o). Proof. done. Qed.
Lemma steady_set e i u k v : steady (dbSet e i u k v). Proof. done. Qed.
Lemma steady_delk e i u k : steady (dbDeleteKey e i u k). Proof. done. Qed.
Lemma steady_del e i u : steady (dbDelete e i u). Proof. done. Qed.
Lemma steady_add g now u : steady (modify (Model_TxLog.Add g now u)). Proof. done. Qed.
Lemma steady_bind {A B} (f : A → M B) (m : M A) : steady m → (∀ a, steady (f a)) → steady (mbind f m).
Proof. intros Hm Hf d. unfold mbind, M_bind. pose proof (Hm d). destruct (m d) as [d' [a| |]]; simpl in *; try done. by rewrite Hf. Qed.
Lemma steady_if {A} (b : bool) (x y : M A) : steady x → steady y → steady (if b then x else y). Proof. by destruct b. Qed.
Lemma steady_dropping m : steady m → steady (dropping m).
Proof. intros H d. unfold dropping. pose proof (H d). destruct (m d) as [d' [a| |]]; done. Qed.
Ltac steadies := repeat (first
  [ apply steady_ret | apply steady_lift | apply steady_set | apply steady_delk | apply steady_del | apply steady_add
  | apply quiet_steady; first [apply quiet_findOne | apply quiet_MustFind | apply quiet_Find | apply quiet_Search | apply quiet_SearchLabels | apply quiet_update | apply quiet_get]
  | apply steady_if | apply steady_dropping | apply steady_bind; [|intros ?]
  | match goal with |- steady (match ?x with _ => _ end) => destruct x end ]).
Lemma steady_Set_key e i u k v : steady (Set_key e i u k v). Proof. unfold Set_key, touchUpdated. steadies. Qed.
Lemma steady_DeleteKey e u k : steady (DeleteKey_key e u k). Proof. unfold DeleteKey_key, touchUpdated. steadies. Qed.
Lemma steady_Rename e u n : steady (Rename e u n). Proof. unfold Rename, touchUpdated. steadies. Qed.
Lemma steady_New e j n : steady (Model_Blobs.New e j n). Proof. unfold Model_Blobs.New, touchUpdated. steadies. Qed.
Lemma steady_Twofactor c ok e u v : steady (SetTwofactor c ok e u v). Proof. unfold SetTwofactor, touchUpdated. cbv zeta. steadies. Qed.
Lemma steady_RemoveLabel e u i : steady (RemoveLabel e u i). Proof. unfold RemoveLabel, touchUpdated. apply steady_bind; [steadies|]. intros b. cbv zeta. steadies. Qed.

Lemma became_after s s1 s2 m' : unchanged s s1 → became s1 s2 m' → became s s2 m'.
Proof.
  intros (_ & T1 & E1) (H & T2 & E2). split; [done|]. split; [congruence|]. rewrite E2, E1. by rewrite !set_set_db.
Qed.
Lemma unchanged_db d s : vis (db_log d) = vis (db_log (s_db s)) → db_txpoint d = db_txpoint (s_db s) → unchanged s (set_db d s).
Proof. intros H1 H2. split; [done|]. split; [done|]. done. Qed.
Lemma ready_same w s s' m : ready w s m → holds (s_db s') m → ready w s' m.
Proof. intros (_ & H) Hh. by split. Qed.

(** ** Finding the entry *)
Lemma findq_ok w s m q u inp : ready w s m → picks (w_lower w) m q u →
  ∃ s', findq w q s inp = (s', UOk u inp) ∧ unchanged s s' ∧ ready w s' m ∧ u ≠ "".
Proof.
  intros Hr Hp. pose proof Hr as (Hh & [Ha Hu] & Hpl & Hne & Hf & Ho).
  destruct (findOne_spec (w_lower w) (r_ord (w_rand w)) (w_env w 0) q (s_db s) m Hh Ha Hpl (Hf 0) Ho) as (d' & u' & E & Hh' & Hv & _ & H1 & H2).
  assert (u' = u) as ->. { destruct Hp as [Hp|(n & Hc & Hm & Hq)]; [by apply H1|by eapply H2]. }
  exists (set_db d' s). split; [unfold findq, on_db; by rewrite E|]. split.
  - apply unchanged_db; [done|]. pose proof (quiet_findOne (w_lower w) (r_ord (w_rand w)) (w_env w 0) q (s_db s)) as [_ H]. by rewrite E in H.
  - split; [by eapply ready_same|]. intros ->. destruct Hp as [(b & Hb & _)|(n & (b & Hb & _) & _)]; congruence.
Qed.
Lemma picks_entry lower m q u : picks lower m q u → ∃ b n, m !! u = Some b ∧ b !! "name" = Some n.
Proof. intros [(b & H)|(n & (b & H) & _)]; eauto. Qed.
Lemma findq_none w s m q inp : ready w s m → (∀ u, ¬ picks (w_lower w) m q u) →
  ∃ s', findq w q s inp = (s', UOk "" inp) ∧ unchanged s s' ∧ ready w s' m.
Proof.
  intros Hr Hp. pose proof Hr as (Hh & [Ha Hu] & Hpl & Hne & Hf & Ho).
  destruct (findOne_spec (w_lower w) (r_ord (w_rand w)) (w_env w 0) q (s_db s) m Hh Ha Hpl (Hf 0) Ho) as (d' & u' & E & Hh' & Hv & H0 & _).
  destruct (decide (u' = "")) as [->|Hu'].
  - exists (set_db d' s). split; [unfold findq, on_db; by rewrite E|]. split; [|by eapply ready_same].
    apply unchanged_db; [done|]. pose proof (quiet_findOne (w_lower w) (r_ord (w_rand w)) (w_env w 0) q (s_db s)) as [_ H]. by rewrite E in H.
  - exfalso. destruct (H0 Hu') as (n & Hc & Hm & [->|Hq]); apply (Hp u'); [by left|right; eauto].
Qed.
Lemma mustfind_ok w s m u b inp : ready w s m → m !! u = Some b →
  ∃ s', on_db (MustFind u) s inp = (s', UOk b inp) ∧ unchanged s s' ∧ ready w s' m.
Proof.
  intros Hr Hb. destruct (MustFind_spec u (s_db s) m b (proj1 Hr) Hb) as (d' & E & Hh & Hv).
  exists (set_db d' s). split; [unfold on_db; by rewrite E|]. split; [|by eapply ready_same].
  apply unchanged_db; [done|]. pose proof (quiet_MustFind u (s_db s)) as [_ H]. by rewrite E in H.
Qed.

(** ** set *)
Lemma set_eff w i e u k v b s m inp : ready w s m → m !! u = Some b → ¬ protected_key k →
  ∃ s', on_db (dropping (Set_key e i u k v)) s inp = (s', UOk tt inp) ∧
    became s s' (<[u := <[k := v]> (stamped (e_now e i) b)]> m).
Proof.
  intros Hr Hb Hk. destruct (Set_key_spec e i u k v (s_db s) m b (proj1 Hr) Hb Hk) as (d' & E & Hh & Hv).
  exists (set_db d' s). split; [unfold on_db, dropping; by rewrite E|]. split; [done|]. split; [|done].
  pose proof (steady_Set_key e i u k v (s_db s)) as H. by rewrite E in H.
Qed.
Lemma set_refused_eff e i u k v s inp : protected_key k →
  on_db (dropping (Set_key e i u k v)) s inp = (s, UOk tt inp).
Proof. intros Hk. unfold on_db, dropping. rewrite Set_key_refused by done. by rewrite set_db_same. Qed.

Lemma nonempty_len v : v ≠ "" → (String.length v =? 0) = false. Proof. by destruct v. Qed.
Lemma totp_protected : protected_key "totp".
Proof. exists "totp". split; [left|]. vm_compute. repeat (constructor; [left; reflexivity|]). constructor. Qed.

Lemma set_stores w s m q k v u b inp : ready w s m → picks (w_lower w) m q u → m !! u = Some b → ¬ protected_key k → v ≠ "" →
  (k = "url" → w_url w v = GoodUrl) →
  ∃ s', set_cmd w q k v s inp = (s', UOk [Report k v] inp) ∧
    became s s' (<[u := <[k := v]> (stamped (e_now (w_env w 1) 0) b)]> m).
Proof.
  intros Hr Hp Hb Hk Hv Hurl. destruct (findq_ok w s m q u inp Hr Hp) as (s1 & E1 & U1 & R1 & Hu).
  destruct (set_eff w 0 (w_env w 1) u k v b s1 m inp R1 Hb Hk) as (s2 & E2 & B2). exists s2. split; [|by eapply became_after].
  unfold set_cmd. rewrite (C_ok _ _ _ _ s1 u inp) by exact E1. rewrite (proj2 (String.eqb_neq u "")) by done.
  destruct (String.eqb k KeyPass) eqn:Ek; [|destruct (String.eqb k KeyTwoFactor) eqn:Et; [|destruct (String.eqb k KeyURL) eqn:Eu]].
  - rewrite nonempty_len by done. rewrite (C_ok _ _ _ _ s1 v inp) by done. rewrite (C_ok _ _ _ _ s2 tt inp) by exact E2. done.
  - apply String.eqb_eq in Et as ->. exfalso. by apply Hk, totp_protected.
  - apply String.eqb_eq in Eu. rewrite (Hurl Eu). rewrite (C_ok _ _ _ _ s2 tt inp) by exact E2. done.
  - rewrite nonempty_len by done. rewrite (C_ok _ _ _ _ s1 v inp) by done. rewrite (C_ok _ _ _ _ s2 tt inp) by exact E2. done.
Qed.
Lemma pass_open : ¬ protected_key "pass".
Proof. rewrite <-protected_spec. vm_compute. done. Qed.
Lemma url_open : ¬ protected_key "url".
Proof. rewrite <-protected_spec. vm_compute. done. Qed.
Lemma set_protected w s m q k v u inp : ready w s m → picks (w_lower w) m q u → protected_key k → k ≠ "totp" → v ≠ "" →
  ∃ s', set_cmd w q k v s inp = (s', UOk [Report k v] inp) ∧ unchanged s s'.
Proof.
  intros Hr Hp Hk Ht Hv. destruct (findq_ok w s m q u inp Hr Hp) as (s1 & E1 & U1 & R1 & Hu).
  exists s1. split; [|done].
  unfold set_cmd. rewrite (C_ok _ _ _ _ s1 u inp) by exact E1. rewrite (proj2 (String.eqb_neq u "")) by done.
  destruct (String.eqb k KeyPass) eqn:Ek; [|destruct (String.eqb k KeyTwoFactor) eqn:Et; [|destruct (String.eqb k KeyURL) eqn:Eu]].
  - apply String.eqb_eq in Ek as ->. by destruct pass_open.
  - apply String.eqb_eq in Et as ->. done.
  - apply String.eqb_eq in Eu as ->. by destruct url_open.
  - rewrite nonempty_len by done. rewrite (C_ok _ _ _ _ s1 v inp) by done. rewrite (C_ok _ _ _ _ s1 tt inp) by (by apply set_refused_eff). done.
Qed.
(** no text on the line: it is asked for *)
Lemma set_asked w s m q k u b inp v rest : ready w s m → picks (w_lower w) m q u → m !! u = Some b → ¬ protected_key k → k ≠ "pass" → k ≠ "url" →
  promptMultiline inp = UOk v rest →
  ∃ s', set_cmd w q k "" s inp = (s', UOk [Report k v] rest) ∧
    became s s' (<[u := <[k := v]> (stamped (e_now (w_env w 1) 0) b)]> m).
Proof.
  intros Hr Hp Hb Hk Hpass Hurl Hi. destruct (findq_ok w s m q u inp Hr Hp) as (s1 & E1 & U1 & R1 & Hu).
  destruct (set_eff w 0 (w_env w 1) u k v b s1 m rest R1 Hb Hk) as (s2 & E2 & B2). exists s2. split; [|by eapply became_after].
  unfold set_cmd. rewrite (C_ok _ _ _ _ s1 u inp) by exact E1. rewrite (proj2 (String.eqb_neq u "")) by done.
  rewrite (proj2 (String.eqb_neq k KeyPass)) by done. destruct (String.eqb k KeyTwoFactor) eqn:Et.
  { apply String.eqb_eq in Et as ->. exfalso. by apply Hk, totp_protected. }
  rewrite (proj2 (String.eqb_neq k KeyURL)) by done. change (String.length "" =? 0) with true. cbn iota.
  rewrite (C_ok _ _ _ _ s1 v rest) by (unfold ask; by rewrite Hi). rewrite (C_ok _ _ _ _ s2 tt rest) by exact E2. done.
Qed.
Lemma set_pass_asked w s m q u b inp v rest : ready w s m → picks (w_lower w) m q u → m !! u = Some b →
  newPassword (w_rand w) inp = UOk v rest →
  ∃ s', set_cmd w q "pass" "" s inp = (s', UOk [Report "pass" v] rest) ∧
    became s s' (<[u := <["pass" := v]> (stamped (e_now (w_env w 1) 0) b)]> m).
Proof.
  intros Hr Hp Hb Hi. destruct (findq_ok w s m q u inp Hr Hp) as (s1 & E1 & U1 & R1 & Hu).
  destruct (set_eff w 0 (w_env w 1) u "pass" v b s1 m rest R1 Hb pass_open) as (s2 & E2 & B2). exists s2. split; [|by eapply became_after].
  unfold set_cmd. rewrite (C_ok _ _ _ _ s1 u inp) by exact E1. rewrite (proj2 (String.eqb_neq u "")) by done.
  change (String.eqb "pass" KeyPass) with true. change (String.length "" =? 0) with true. cbn iota.
  rewrite (C_ok _ _ _ _ s1 v rest) by (unfold ask; by rewrite Hi). rewrite (C_ok _ _ _ _ s2 tt rest) by exact E2. done.
Qed.
Lemma set_totp w s m q v u b inp : ready w s m → picks (w_lower w) m q u → m !! u = Some b →
  let uri := if has_prefix v "otpauth://" then v else w_coerce w u v in
  ∃ s', if w_uri_ok w uri
    then set_cmd w q "totp" v s inp = (s', UOk [Report "totp" v] inp) ∧
      became s s' (<[u := <["totp" := uri]> (stamped (e_now (w_env w 1) 0) b)]> m)
    else set_cmd w q "totp" v s inp = (s', UOk [Note] inp) ∧ unchanged s s'.
Proof.
  intros Hr Hp Hb uri. destruct (findq_ok w s m q u inp Hr Hp) as (s1 & E1 & U1 & R1 & Hu).
  assert (set_cmd w q "totp" v s inp = catching (SetTwofactor (w_coerce w) (w_uri_ok w) (w_env w 1) u v) (λ _, Some [Note]) (λ _, [Report "totp" v]) s1 inp) as ->.
  { unfold set_cmd. rewrite (C_ok _ _ _ _ s1 u inp) by exact E1. rewrite (proj2 (String.eqb_neq u "")) by done. done. }
  unfold catching, SetTwofactor. cbv zeta. fold uri. destruct (w_uri_ok w uri) eqn:Eu.
  - destruct (holds_touch_set (w_env w 1) 0 (s_db s1) u "totp" uri m b (proj1 R1) Hb) as (d' & E & Hh & _ & Ht & _).
    exists (set_db d' s1). change ((_ ← touchUpdated (w_env w 1) 0 u; dbSet (w_env w 1) 2 u KeyTwoFactor uri) (s_db s1)) with ((_ ← touchUpdated (w_env w 1) 0 u; dbSet (w_env w 1) 2 u "totp" uri) (s_db s1)).
    rewrite E. split; [done|]. eapply became_after; [done|]. split; [done|]. split; done.
  - exists s1. unfold lift. rewrite set_db_same. done.
Qed.
Lemma set_bad_url w s m q v u inp : ready w s m → picks (w_lower w) m q u → w_url w v ≠ GoodUrl →
  ∃ s', set_cmd w q "url" v s inp = (s', UOk [Note] inp) ∧ unchanged s s'.
Proof.
  intros Hr Hp Hurl. destruct (findq_ok w s m q u inp Hr Hp) as (s1 & E1 & U1 & R1 & Hu). exists s1. split; [|done].
  unfold set_cmd. rewrite (C_ok _ _ _ _ s1 u inp) by exact E1. rewrite (proj2 (String.eqb_neq u "")) by done.
  change (String.eqb "url" KeyPass) with false. change (String.eqb "url" KeyTwoFactor) with false. change (String.eqb "url" KeyURL) with true. cbn iota.
  by destruct (w_url w v).
Qed.
Lemma set_none w s m q k v inp : ready w s m → (∀ u, ¬ picks (w_lower w) m q u) →
  ∃ s', set_cmd w q k v s inp = (s', UOk [Note] inp) ∧ unchanged s s'.
Proof.
  intros Hr Hp. destruct (findq_none w s m q inp Hr Hp) as (s1 & E1 & U1 & R1). exists s1. split; [|done].
  unfold set_cmd. by rewrite (C_ok _ _ _ _ s1 "" inp) by exact E1.
Qed.

(** ** rmk *)
Lemma rmk_deletes w s m q k u b v inp : ready w s m → picks (w_lower w) m q u → m !! u = Some b → b !! k = Some v → k ≠ "name" → k ≠ "updated" →
  ∃ s', deleteKey w q k s inp = (s', UOk [Deleted k] inp) ∧
    became s s' (<[u := delete k (stamped (e_now (w_env w 1) 0) b)]> m).
Proof.
  intros Hr Hp Hb Hv H1 H2. destruct (findq_ok w s m q u inp Hr Hp) as (s1 & E1 & U1 & R1 & Hu).
  destruct (mustfind_ok w s1 m u b inp R1 Hb) as (s2 & E2 & U2 & R2).
  destruct (DeleteKey_key_spec (w_env w 1) u k (s_db s2) m b (proj1 R2) Hb H1 H2) as (d' & E & Hh & _).
  exists (set_db d' s2). split.
  - unfold deleteKey. rewrite (C_ok _ _ _ _ s1 u inp) by exact E1. rewrite (proj2 (String.eqb_neq u "")) by done.
    rewrite (C_ok _ _ _ _ s2 b inp) by exact E2. rewrite Hv. unfold catching. by rewrite E.
  - eapply became_after; [eapply unchanged_trans; done|]. split; [done|]. split; [|done].
    pose proof (steady_DeleteKey (w_env w 1) u k (s_db s2)) as H. by rewrite E in H.
Qed.
Lemma rmk_protected w s m q k u b inp : ready w s m → picks (w_lower w) m q u → m !! u = Some b → k = "name" ∨ k = "updated" →
  ∃ s', deleteKey w q k s inp = (s', UOk (if b !! k then [Note] else [Deleted k]) inp) ∧ unchanged s s'.
Proof.
  intros Hr Hp Hb Hk. destruct (findq_ok w s m q u inp Hr Hp) as (s1 & E1 & U1 & R1 & Hu).
  destruct (mustfind_ok w s1 m u b inp R1 Hb) as (s2 & E2 & U2 & R2). exists s2. split; [|by eapply unchanged_trans].
  unfold deleteKey. rewrite (C_ok _ _ _ _ s1 u inp) by exact E1. rewrite (proj2 (String.eqb_neq u "")) by done.
  rewrite (C_ok _ _ _ _ s2 b inp) by exact E2. destruct (b !! k); [|done]. unfold catching. rewrite DeleteKey_key_refused by done. by rewrite set_db_same.
Qed.
Lemma rmk_absent w s m q k u b inp : ready w s m → picks (w_lower w) m q u → m !! u = Some b → b !! k = None →
  ∃ s', deleteKey w q k s inp = (s', UOk [Deleted k] inp) ∧ unchanged s s'.
Proof.
  intros Hr Hp Hb Hk. destruct (findq_ok w s m q u inp Hr Hp) as (s1 & E1 & U1 & R1 & Hu).
  destruct (mustfind_ok w s1 m u b inp R1 Hb) as (s2 & E2 & U2 & R2). exists s2. split; [|by eapply unchanged_trans].
  unfold deleteKey. rewrite (C_ok _ _ _ _ s1 u inp) by exact E1. rewrite (proj2 (String.eqb_neq u "")) by done.
  rewrite (C_ok _ _ _ _ s2 b inp) by exact E2. by rewrite Hk.
Qed.
Lemma rmk_none w s m q k inp : ready w s m → (∀ u, ¬ picks (w_lower w) m q u) →
  ∃ s', deleteKey w q k s inp = (s', UOk [Note] inp) ∧ unchanged s s'.
Proof.
  intros Hr Hp. destruct (findq_none w s m q inp Hr Hp) as (s1 & E1 & U1 & R1). exists s1. split; [|done].
  unfold deleteKey. by rewrite (C_ok _ _ _ _ s1 "" inp) by exact E1.
Qed.

(** ** mv *)
Lemma found_ok w s m n u b inp : ready w s m → m !! u = Some b → b !! "name" = Some n →
  ∃ s', on_db (FindByName (w_env w 0) n) s inp = (s', UOk (Some (u, b)) inp) ∧ unchanged s s' ∧ ready w s' m ∧ u ≠ "".
Proof.
  intros Hr Hb Hn. pose proof Hr as (Hh & [Ha Hu] & Hpl & Hne & Hf & Ho).
  destruct (FindByName_spec (w_env w 0) n (s_db s) m Hh Ha (Hf 0)) as (d' & r & E & Hh' & Hv & Hs).
  destruct r as [[u' b']|]; [|exfalso; apply (Hs u); by exists b]. destruct Hs as [Hb' Hn'].
  assert (u' = u) as -> by (eapply Hu; [by exists b'|by exists b]). rewrite Hb in Hb'. injection Hb' as <-.
  exists (set_db d' s). split; [unfold on_db; by rewrite E|]. split; [|split; [by eapply ready_same|congruence]].
  apply unchanged_db; [done|]. by eapply FindByName_txpoint.
Qed.
Lemma mv_moves w s m src dst u b inp : ready w s m → m !! u = Some b → b !! "name" = Some src → (∀ x, ¬ called m x dst) →
  ∃ s', rename w src dst s inp = (s', UOk [Moved src dst] inp) ∧
    became s s' (<[u := <["name" := dst]> (stamped (e_now (w_env w 1) 0) b)]> m).
Proof.
  intros Hr Hb Hn Hfree. destruct (found_ok w s m src u b inp Hr Hb Hn) as (s1 & E1 & U1 & R1 & Hu).
  pose proof R1 as (Hh & [Ha _] & _ & _ & Hf & _).
  destruct (Rename_spec (w_env w 1) u dst (s_db s1) m b Hh Ha (Hf 1) Hb) as [[(x & Hx) _]|[_ (d' & E & Hh')]]; [by destruct (Hfree x)|].
  exists (set_db d' s1). split.
  - unfold rename. rewrite (C_ok _ _ _ _ s1 (Some (u, b)) inp) by exact E1. rewrite (proj2 (String.eqb_neq u "")) by done. unfold catching. by rewrite E.
  - eapply became_after; [done|]. split; [done|]. split; [|done]. pose proof (steady_Rename (w_env w 1) u dst (s_db s1)) as H. by rewrite E in H.
Qed.
Lemma mv_taken w s m src dst x inp : ready w s m → called m x dst →
  ∃ s', rename w src dst s inp = (s', UOk [Note] inp) ∧ unchanged s s'.
Proof.
  intros Hr Hx. pose proof Hr as (Hh & [Ha _] & _ & _ & Hf & _).
  destruct (FindByName_spec (w_env w 0) src (s_db s) m Hh Ha (Hf 0)) as (d' & r & E & Hh' & Hv & Hs).
  assert (unchanged s (set_db d' s)) as U1. { apply unchanged_db; [done|]. by eapply FindByName_txpoint. }
  unfold rename. rewrite (C_ok _ _ _ _ (set_db d' s) r inp) by (unfold on_db; by rewrite E).
  destruct r as [[u b]|]; [|by exists (set_db d' s)]. destruct (String.eqb u "") eqn:Eu; [by exists (set_db d' s)|]. destruct Hs as [Hb Hn].
  destruct (Rename_spec (w_env w 1) u dst d' m b Hh' Ha (Hf 1) Hb) as [[_ (d2 & E2 & Hh2 & Hv2)]|[Hfree _]]; [|by destruct (Hfree x)].
  exists (set_db d2 s). split; [unfold catching; cbn [s_db set_db]; by rewrite E2|]. apply unchanged_db; [congruence|].
  pose proof (steady_Rename (w_env w 1) u dst d') as H. rewrite E2 in H. cbn [fst] in H. rewrite H. by eapply FindByName_txpoint.
Qed.
Lemma mv_absent w s m src dst inp : ready w s m → (∀ u, ¬ called m u src) →
  ∃ s', rename w src dst s inp = (s', UOk [Note] inp) ∧ unchanged s s'.
Proof.
  intros Hr Hx. pose proof Hr as (Hh & [Ha _] & _ & _ & Hf & _).
  destruct (FindByName_spec (w_env w 0) src (s_db s) m Hh Ha (Hf 0)) as (d' & r & E & Hh' & Hv & Hs).
  exists (set_db d' s). split; [|apply unchanged_db; [done|]; by eapply FindByName_txpoint].
  unfold rename. rewrite (C_ok _ _ _ _ (set_db d' s) r inp) by (unfold on_db; by rewrite E).
  destruct r as [[u b]|]; [|done]. destruct Hs as [Hb Hn]. destruct (Hx u). by exists b.
Qed.
