(** Proofs about sessions: stores that cannot be saved, deleting, the past. *)
From Verif Require Import Proof_TxLog Proof_GoStr Proof_Utf8 Proof_Blobs Proof_Blobs2 Proof_Json Proof_Json2 Proof_Crypt3 Proof_Crypt4 Proof_Crypt5.
From Verif Require Export Proof_Session3.
From Coq Require Import Lia.
From stdpp Require Import options.
Import Model_GoStr.
#[local] Open Scope nat_scope.

(** ** A user entry without credentials *)
Lemma params_loop_inv P me key m l : ∀ index p d d' q, holds d m → (∀ u n, (u, n) ∈ l → ∃ b, m !! u = Some b) →
  params_loop P me key index l p d = (d', Ok q) →
  (∀ s, s ∈ Salts p → s ∈ Salts q) ∧
  (∀ u n b, (u, n) ∈ l → m !! u = Some b → SplitUsername n ≠ Ok "" ∧ ∃ s, hex_decode (default "" (b !! "salt")) = Some s ∧ s ∈ Salts q).
Proof.
  induction l as [|[u n] l IH]; intros index p d d' q Hh Hl H.
  - unfold params_loop, mret, M_ret in H. injection H as <- <-. split; [done|]. intros u n b Hin. by apply elem_of_nil in Hin.
  - cbn [params_loop] in H. destruct (SplitUsername_no_panic n) as [x Hx]. unfold mbind at 1, M_bind at 1, lift at 1 in H. rewrite Hx in H.
    destruct (String.eqb x "") eqn:Ex; [done|]. destruct (Hl u n) as [b Hb]; [left|].
    destruct (MustFind_spec u d m b Hh Hb) as (d1 & E1 & Hh1 & _). unfold mbind at 1, M_bind at 1 in H. rewrite E1 in H.
    unfold mbind at 1, M_bind at 1, lift at 1 in H. unfold hexed at 1 in H. destruct (hex_decode (default "" (b !! KeySalt))) as [salt|] eqn:Es; [|done].
    unfold mbind at 1, M_bind at 1, lift at 1 in H. unfold hexed at 1 in H. destruct (hex_decode (default "" (b !! KeyIV))) as [iv|]; [|done].
    unfold mbind at 1, M_bind at 1, lift at 1 in H. unfold hexed at 1 in H. destruct (hex_decode (default "" (b !! KeyMKey))) as [mk|]; [|done].
    apply IH in H as [H1 H2]; [|done|intros u' n' Hin; apply (Hl u' n'); by right]. cbn [params_snoc Salts] in H1.
    split; [intros s Hs; apply H1; apply elem_of_app; by left|].
    intros u' n' b' Hin Hb'. apply elem_of_cons in Hin as [Heq|Hin]; [|by apply (H2 u' n')]. injection Heq as -> ->. rewrite Hb in Hb'. injection Hb' as <-.
    split; [rewrite Hx; intros HH; injection HH as ->; done|].
    exists salt. split; [exact Es|]. apply H1, elem_of_app. right. by apply elem_of_list_singleton.
Qed.

Lemma no_creds_no_save P e ord riv s m u x b : holds (s_db s) m → all_named m → fair e → fair_results ord → s_readOnly s = false →
  length (s_master s) ≠ 0 → m !! u = Some b → b !! "name" = Some ("user/" +:+ x) → x = "" ∨ b !! "salt" = None →
  ∀ s' f, saveBlob P e ord riv s ≠ (s', Ok f).
Proof.
  intros Hh Ha Hf Ho Hro Hm Hb Hn Hbad s' f H. unfold saveBlob in H. rewrite Hro in H. destruct (Save (s_db s)) as [data|?|]; [|done|done].
  destruct (Users_spec e (s_db s) m Hh Ha Hf) as (d1 & r & E1 & Hh1 & Hv1 & Hex).
  unfold makeParams in H. rewrite (proj2 (Nat.eqb_neq _ 0) Hm) in H. unfold mbind at 1, M_bind at 1, must in H. rewrite E1 in H.
  unfold mbind at 1, M_bind at 1 in H.
  destruct (params_loop P (s_user s) (s_key s) 0 (ord (res_map r)) params_empty d1) as [d2 [q|?|]] eqn:E2; [|done|done].
  assert (∀ u n, (u, n) ∈ ord (res_map r) ↔ called m u n ∧ ∃ x, n = "user/" +:+ x) as Hl.
  { intros u' n'. rewrite (Ho (res_map r)), elem_of_map_to_list. by apply holds_user_called. }
  destruct (params_loop_inv P (s_user s) (s_key s) m _ _ _ _ _ _ Hh1 ltac:(intros u' n' Hin; apply Hl in Hin as [(b' & ? & _) _]; by exists b') E2) as [_ Hin].
  destruct (Hin u ("user/" +:+ x) b) as (Hsp & salt & Hdec & Hs); [apply Hl; split; [by exists b|by exists x]|done|].
  destruct Hbad as [->|Hsalt]; [by rewrite SplitUsername_user in Hsp|]. rewrite Hsalt in Hdec. injection Hdec as <-.
  unfold mret, M_ret in H. injection H as _ H. unfold Encrypt, cryptVersion in H. change (getVersion 1) with (Ok v1) in H. cbn [mbind outcome_bind] in H.
  apply bind_Ok in H as (f' & H & _). apply bind_Ok in H as ([] & Hv & _). apply validate_ok in Hv as [(_ & _ & _ & HS) _].
  cbn [params_master Salts] in HS. rewrite Forall_forall in HS. by specialize (HS _ Hs).
Qed.

Lemma no_users_no_save P e ord riv s m : holds (s_db s) m → all_named m → fair e → fair_results ord → s_readOnly s = false →
  length (s_master s) ≠ 0 → (∀ x, ¬ is_user m x) → ∀ s' f, saveBlob P e ord riv s ≠ (s', Ok f).
Proof.
  intros Hh Ha Hf Ho Hro Hm Hno s' f H. unfold saveBlob in H. rewrite Hro in H. destruct (Save (s_db s)) as [data|?|]; [|done|done].
  destruct (Users_spec e (s_db s) m Hh Ha Hf) as (d1 & r & E1 & Hh1 & Hv1 & Hex).
  unfold makeParams in H. rewrite (proj2 (Nat.eqb_neq _ 0) Hm) in H. unfold mbind at 1, M_bind at 1, must in H. rewrite E1 in H.
  unfold mbind at 1, M_bind at 1 in H.
  assert (ord (res_map r) = []) as Hnil.
  { destruct (ord (res_map r)) as [|[u n] l] eqn:El; [done|]. exfalso. assert ((u, n) ∈ ord (res_map r)) as Hin by (rewrite El; left).
    rewrite (Ho (res_map r)), elem_of_map_to_list in Hin. apply (holds_user_called m r u n Hex) in Hin as [Hc [x ->]]. apply (Hno x). by exists u. }
  rewrite Hnil in H. unfold params_loop, mret, M_ret in H. injection H as _ H. done.
Qed.

(** ** The past *)
Lemma first_after_spec t l : ∀ i, match first_after t l i with
  | Some j => ∃ n x, j = i + n ∧ l !! n = Some x ∧ (t < tx_time x)%Z ∧ Forall (λ x, (tx_time x ≤ t)%Z) (take n l)
  | None => Forall (λ x, (tx_time x ≤ t)%Z) l
  end.
Proof.
  induction l as [|x l IH]; intros i; cbn [first_after]; [constructor|]. destruct (Z.ltb_spec t (tx_time x)) as [Hlt|Hge].
  - exists 0, x. split; [lia|]. split; [done|]. split; [done|]. constructor.
  - specialize (IH (S i)). destruct (first_after t l (S i)) as [j|].
    + destruct IH as (n & y & -> & H1 & H2 & H3). exists (S n), y. split; [lia|]. split; [done|]. split; [done|]. cbn [take]. by constructor.
    + by constructor.
Qed.
Lemma rewind_ok t d m : holds d m → ∃ d' m' past, rewind t d = Ok d' ∧ history t (vis (db_log d)) past ∧ vis (db_log d') = past ∧ replays past m' ∧
  snap_of d' = m' ∧ holds d' m' ∧ db_txpoint d' = db_txpoint d.
Proof.
  intros [_ Hr]. unfold rewind. cbn [ResetSnapshot db_log db_version db_snapshot db_txpoint].
  assert (∃ l, match first_after t (vis (db_log d)) 0 with Some i => slice_upto (db_log d) i | None => Ok (db_log d) end = Ok l ∧ history t (vis (db_log d)) (vis l)) as (l & El & Hh).
  { pose proof (first_after_spec t (vis (db_log d)) 0) as Hs. destruct (first_after t (vis (db_log d)) 0) as [j|].
    - destruct Hs as (n & x & -> & H1 & H2 & H3). cbn [plus]. pose proof (lookup_lt_Some _ _ _ H1) as Hlt. unfold slice_upto.
      rewrite (proj2 (Nat.leb_le n _)) by (rewrite app_length; lia). eexists. split; [done|]. cbn [vis].
      rewrite take_app_le by lia. exists (drop n (vis (db_log d))). split; [by rewrite take_drop|]. split; [done|]. by rewrite (drop_S _ _ _ H1).
    - exists (db_log d). split; [done|]. exists []. split; [by rewrite app_nil_r|done]. }
  rewrite El. cbn [mbind outcome_bind]. destruct Hh as (rest & Hl & Hp & Hrest). pose proof Hr as Hr'. rewrite Hl in Hr'. apply replays_from_app in Hr' as (m1 & Hm1 & _).
  set (d0 := mk_db 0 None l (db_txpoint d)).
  destruct (holds_update d0 m1) as (d1 & E & Hs & Hv & Htp & Hh1).
  { split; [|exact Hm1]. split; [cbn; lia|]. cbn. constructor. }
  rewrite E. exists d1, m1, (vis l). split; [done|]. split; [by exists rest|]. split; [exact Hv|]. done.
Qed.

(** ** deleteEntry *)
Lemma size_gt_1 {A} (m : gmap string A) : 1 < size m ↔ ∃ i j, i ≠ j ∧ is_Some (m !! i) ∧ is_Some (m !! j).
Proof.
  split.
  - intros H. destruct (map_choose m) as (i & x & Hi). { intros ->. rewrite map_size_empty in H. lia. }
    destruct (map_choose (delete i m)) as (j & y & Hj).
    { intros He. apply (f_equal size) in He. rewrite map_size_empty, map_size_delete, Hi in He. cbn in He. lia. }
    apply lookup_delete_Some in Hj as [Hne Hj]. exists i, j. split; [done|]. rewrite Hi, Hj. split; by eexists.
  - intros (i & j & Hne & [x Hi] & [y Hj]). rewrite <-(insert_delete m i x), map_size_insert, lookup_delete by done. cbn.
    rewrite <-(insert_delete (delete i m) j y), map_size_insert, lookup_delete by (by rewrite lookup_delete_ne). cbn. lia.
Qed.
Lemma several_size m r : names_unique m → exactly m (λ b, ∃ x, b !! "name" = Some ("user/" +:+ x)) r → 1 < size (res_map r) ↔ several_users m.
Proof.
  intros Hu Hex. rewrite size_gt_1. split.
  - intros (i & j & Hne & [n1 H1] & [n2 H2]). apply (holds_user_called _ _ _ _ Hex) in H1 as [C1 [x ->]], H2 as [C2 [y ->]].
    exists x, y. split; [|split; eexists; done]. intros ->. apply Hne. by eapply Hu.
  - intros (x & y & Hne & (i & Hi) & (j & Hj)). exists i, j. split.
    + intros ->. destruct Hi as (b & Hb & Hn), Hj as (b' & Hb' & Hn'). rewrite Hb in Hb'. injection Hb' as <-. rewrite Hn in Hn'. injection Hn' as Hn'. by apply Hne.
    + split; eexists; apply (holds_user_called _ _ _ _ Hex); split; eauto.
Qed.

(** Whether the entry counts as the user's own: the name after "user/". *)
Definition counts_as_own (s : session) (name : string) : bool :=
  match SplitUsername name with Ok x => negb (String.eqb x "") && String.eqb x (s_user s) | _ => false end.

Definition emptied (s : session) : session := set_master [] [] s.

Lemma Users_txpoint e d d' r : Model_Blobs.Users e d = (d', r) → db_txpoint d' = db_txpoint d.
Proof.
  unfold Model_Blobs.Users, mbind, M_bind. destruct (UpdateSnapshot d) as [d1 o] eqn:E. apply UpdateSnapshot_log in E as [_ Ht].
  destruct o; unfold get_snap, lift; intros H; injection H as <- _; done.
Qed.
Lemma deleteEntry_absent e name s m inp : holds (s_db s) m → well_named m → fair e → (∀ u, ¬ called m u name) →
  ∃ s', deleteEntry e name s inp = (s', UOk tt inp) ∧ unchanged s s' ∧ holds (s_db s') m.
Proof.
  intros Hh [Ha Hu] Hf Hno. destruct (FindByName_spec e name (s_db s) m Hh Ha Hf) as (d' & r & E & Hh' & Hv & Hr).
  destruct r as [[u b]|]; [exfalso; apply (Hno u); exists b; done|].
  pose proof (FindByName_txpoint _ _ _ _ _ E) as Ht.
  exists (set_db d' s). split; [|split; [split; [done|split; [exact Ht|]]|done]]; [|by destruct s].
  unfold deleteEntry. rewrite (C_ok _ _ _ _ (set_db d' s) None inp) by (unfold on_db; by rewrite E). done.
Qed.
Lemma deleteEntry_found e name s m inp u : holds (s_db s) m → well_named m → fair e → called m u name → u ≠ "" →
  (counts_as_own s name = true ∧ several_users m →
     ∃ s', deleteEntry e name s inp = (s', UOk tt inp) ∧ unchanged s s' ∧ holds (s_db s') m) ∧
  (counts_as_own s name = false ∨ ¬ several_users m →
     ∃ s1, unchanged s s1 ∧ holds (s_db s1) m ∧
     match prompt_end inp with
     | UOk line rest =>
         deleteEntry e name s inp =
           (if decide (line = name) then set_db (Model_TxLog.Delete (e_grow e 0) (e_now e 0) (s_db s1) u) (if counts_as_own s name then emptied s1 else s1) else s1, UOk tt rest)
     | UErr x rest => deleteEntry e name s inp = (s1, UErr x rest)
     | UPanic => deleteEntry e name s inp = (s1, UPanic)
     | UWait => deleteEntry e name s inp = (s1, UWait)
     end).
Proof.
  intros Hh [Ha Hu] Hf Hc Hne. destruct (FindByName_spec e name (s_db s) m Hh Ha Hf) as (d' & r & E & Hh' & Hv & Hr).
  destruct r as [[u' b]|]; [|exfalso; by apply (Hr u)]. destruct Hr as [Hb Hn].
  assert (u' = u) as -> by (eapply Hu; [by exists b|done]).
  destruct (Users_spec e d' m Hh' Ha Hf) as (d2 & r & E2 & Hh2 & Hv2 & Hex).
  pose proof (several_size m r Hu Hex) as Hsz.
  destruct (SplitUsername_no_panic name) as [x Hx].
  pose proof (FindByName_txpoint _ _ _ _ _ E) as Ht. pose proof (Users_txpoint _ _ _ _ E2) as Ht2.
  assert (∀ d, unchanged s (set_db d s) ↔ vis (db_log d) = vis (db_log (s_db s)) ∧ db_txpoint d = db_txpoint (s_db s)) as Hunch. { intros d. unfold unchanged. destruct s; naive_solver. }
  set (s1 := if counts_as_own s name then set_db d2 s else set_db d' s).
  assert (counts_as_own s name = negb (String.eqb x "") && String.eqb x (s_user s)) as Hself by (unfold counts_as_own; by rewrite Hx).
  assert (unchanged s s1 ∧ holds (s_db s1) m) as [Hun Hh1].
  { unfold s1. destruct (counts_as_own s name); (split; [apply Hunch; split; congruence|done]). }
  assert (∀ refused : bool, refused = (counts_as_own s name && (1 <? size (res_map r)))%nat →
    deleteEntry e name s inp = (if refused then mret tt : C unit else
          line ← ask prompt_end;
          if negb (String.eqb line name) then mret tt
          else
            _ ← (if counts_as_own s name then change (set_master [] []) else mret tt);
            on_db (dbDelete e 0 u)) s1 inp) as Hrun.
  { intros refused ->. unfold deleteEntry. rewrite (C_ok _ _ _ _ (set_db d' s) (Some (u, b)) inp) by (unfold on_db; by rewrite E).
    cbv iota beta. rewrite (proj2 (String.eqb_neq _ _) Hne).
    rewrite (C_ok _ _ _ _ (set_db d' s) (set_db d' s) inp) by done. rewrite (C_ok _ _ _ _ (set_db d' s) x inp) by (unfold try; by rewrite Hx).
    cbv zeta. change (s_user (set_db d' s)) with (s_user s). rewrite <-Hself.
    rewrite (C_ok _ _ _ _ s1 (counts_as_own s name && (1 <? size (res_map r)))%nat inp).
    2:{ unfold s1. destruct (counts_as_own s name); [|done]. rewrite (C_ok _ _ _ _ (set_db d2 s) r inp) by (unfold on_db; cbn [s_db set_db]; by rewrite E2). done. }
    done. }
  split.
  - intros [Hs Hsev]. exists s1. split; [|done]. rewrite (Hrun true); [done|]. rewrite Hs. symmetry. apply Nat.ltb_lt. by apply Hsz.
  - intros Hor. exists s1. split; [done|]. split; [done|].
    rewrite (Hrun false). 2:{ destruct (counts_as_own s name); [|done]. symmetry. cbn [andb]. apply Nat.ltb_ge. destruct Hor as [?|Hor]; [done|]. apply Nat.nlt_ge. by rewrite Hsz. }
    destruct (prompt_end inp) as [line rest|x' rest| |] eqn:Ep; [|unfold mbind, C_bind, ask; by rewrite Ep..].
    rewrite (C_ok _ _ _ _ s1 line rest) by (unfold ask; by rewrite Ep).
    destruct (decide (line = name)) as [->|Hl].
    + rewrite String.eqb_refl. cbn [negb]. destruct (counts_as_own s name).
      * rewrite (C_ok _ _ _ _ (emptied s1) tt rest) by done. done.
      * rewrite (C_ok _ _ _ _ s1 tt rest) by done. done.
    + rewrite (proj2 (String.eqb_neq _ _) Hl). done.
Qed.

Lemma own_counts s name : s_user s ≠ "" → (∀ a b, name = a +:+ "user/" +:+ b → ∃ b', name = "user/" +:+ b') →
  counts_as_own s name = true ↔ own_entry s name.
Proof.
  intros Hne Hin. unfold counts_as_own, own_entry. split.
  - destruct (str_index name userPrefix) as [i|] eqn:E.
    + apply str_index_some in E as (a & b & Heq & _). destruct (Hin a b Heq) as [b' ->]. rewrite SplitUsername_user.
      intros H. apply andb_prop in H as [_ H]. apply String.eqb_eq in H as ->. done.
    + unfold SplitUsername. rewrite E. done.
  - intros [_ ->]. rewrite SplitUsername_user, String.eqb_refl, (proj2 (String.eqb_neq _ _) Hne). done.
Qed.
