From Verif Require Import Proof_GoStr Proof_Pkcs7.
From Verif Require Export Proof_Crypt2.
From Coq Require Import Lia.
From stdpp Require Import options.
#[local] Open Scope nat_scope.

(** ** The user table *)

Lemma pull_ok a h n : length a = n → pull (a ++ h) n = Ok (a, h).
Proof.
  intros <-. unfold pull. rewrite app_length.
  replace (length a <=? length a + length h) with true by (symmetry; apply Nat.leb_le; lia).
  by rewrite take_app, drop_app.
Qed.
Lemma pull_inv h n a h' : pull h n = Ok (a, h') → h = a ++ h' ∧ length a = n.
Proof.
  unfold pull. destruct (n <=? length h) eqn:E; [|done]. apply Nat.leb_le in E. intros [= <- <-].
  rewrite take_drop, take_length. split; [done|lia].
Qed.

Definition utable_ok (t : utable) (n : nat) : Prop :=
  length (t_users t) = n ∧ length (t_salts t) = n ∧ length (t_ivs t) = n ∧ length (t_mkeys t) = n ∧
  Forall (λ x, length x = 32) (t_users t) ∧ Forall (λ x, length x = 32) (t_salts t) ∧
  Forall (λ x, length x = 40) (t_ivs t) ∧ Forall (λ x, length x = 80) (t_mkeys t).

Lemma read_users_inv n h t h' : read_users v1 n h = Ok (t, h') →
  ∃ tbl, h = tbl ++ h' ∧ length tbl = 184 * n ∧ utable_ok t n.
Proof.
  revert h t. induction n as [|n IH]; intros h t; cbn [read_users].
  - intros [= <- <-]. exists []. repeat split; constructor.
  - change (c_saltSize v1) with 32. change (c_blockSize v1) with 40. change (c_keySize v1) with 80.
    intros H. apply bind_Ok in H as ([u h1] & E1 & H). apply bind_Ok in H as ([s h2] & E2 & H).
    apply bind_Ok in H as ([i h3] & E3 & H). apply bind_Ok in H as ([mk h4] & E4 & H).
    apply bind_Ok in H as ([t' h5] & E5 & H). injection H as <- <-.
    apply pull_inv in E1 as [-> L1], E2 as [-> L2], E3 as [-> L3], E4 as [-> L4].
    apply IH in E5 as (tbl & -> & Lt & (H1 & H2 & H3 & H4 & F1 & F2 & F3 & F4)).
    exists (u ++ s ++ i ++ mk ++ tbl). rewrite <-!(assoc_L (++)). split; [done|].
    split; [rewrite !app_length; lia|]. repeat split; simpl; try lia; by constructor.
Qed.

(** Rows of well-sized parameters. *)
Definition rows_ok (p : Params) (i n : nat) : Prop := ∀ j, i ≤ j < i + n →
  ∃ k u s iv mk, Keys p !! j = Some k ∧ Users p !! j = Some u ∧ Salts p !! j = Some s ∧ IVs p !! j = Some iv ∧ MKeys p !! j = Some mk ∧
    (length k = 0 ∨ length k = 80) ∧ length u = 32 ∧ length s = 32 ∧ length iv = 40 ∧ length mk = 80.

Lemma rows_ok_S p i n : rows_ok p i (S n) → rows_ok p (S i) n.
Proof. intros H j Hj. apply H. lia. Qed.

Lemma at_some l j x : l !! j = Some x → at_ l j = x.
Proof. intros H. unfold at_. by rewrite H. Qed.

Lemma row_length p i n j : rows_ok p i n → i ≤ j < i + n → length (row p j) = 184.
Proof.
  intros H Hj. destruct (H j Hj) as (k & u & s & iv & mk & _ & E2 & E3 & E4 & E5 & _ & L2 & L3 & L4 & L5).
  unfold row. rewrite (at_some _ _ _ E2), (at_some _ _ _ E3), (at_some _ _ _ E4), (at_some _ _ _ E5).
  rewrite !app_length. lia.
Qed.
Lemma table_S p i n : table p i (S n) = row p i ++ table p (S i) n.
Proof. done. Qed.
Lemma table_length p i n : rows_ok p i n → length (table p i n) = 184 * n.
Proof.
  revert i. induction n as [|n IH]; intros i H; [done|]. rewrite table_S, app_length.
  rewrite (row_length p i (S n)) by (done || lia). rewrite IH by (by apply rows_ok_S). lia.
Qed.

Lemma drop_zeroes k n : drop k (zeroes n) = zeroes (n - k).
Proof. unfold zeroes. apply drop_replicate. Qed.

Lemma put_users_ok p i n pre rest : rows_ok p i n → 184 * n ≤ length rest →
  put_users v1 p i n (pre ++ rest) (length pre) = Ok (pre ++ table p i n ++ drop (184 * n) rest, length pre + 184 * n).
Proof.
  revert i pre rest. induction n as [|n IH]; intros i pre rest H Hr.
  - cbn [put_users]. rewrite drop_0. repeat f_equal. lia.
  - destruct (H i) as (k & u & s & iv & mk & E1 & E2 & E3 & E4 & E5 & L1 & L2 & L3 & L4 & L5); [lia|].
    cbn [put_users]. unfold idx. rewrite E1, E2, E3, E4, E5. cbn [mbind outcome_bind].
    change (c_saltSize v1) with 32. change (c_blockSize v1) with 40. change (c_keySize v1) with 80.
    change (userSize v1) with 184. unfold len_is.
    assert (check ((length k =? 0) || (length k =? 80)) "key size is wrong for the cipher suite" = Ok tt) as ->.
    { by destruct L1 as [-> | ->]. }
    cbn [mbind outcome_bind]. rewrite L3, Nat.eqb_refl. cbn [check mbind outcome_bind].
    rewrite copy_at_mid by lia. rewrite L2. cbn [mbind outcome_bind]. rewrite (assoc_L (++) pre).
    replace (length pre + 32) with (length (pre ++ u)) by (rewrite app_length; lia).
    rewrite copy_at_mid by (rewrite drop_length; lia). rewrite L3, drop_drop. cbn [mbind outcome_bind].
    rewrite (assoc_L (++) (pre ++ u)).
    replace (length (pre ++ u) + 32) with (length ((pre ++ u) ++ s)) by (rewrite !app_length; lia).
    rewrite copy_at_mid by (rewrite drop_length; lia). rewrite L4, drop_drop. cbn [mbind outcome_bind].
    rewrite (assoc_L (++) ((pre ++ u) ++ s)).
    replace (length ((pre ++ u) ++ s) + 40) with (length (((pre ++ u) ++ s) ++ iv)) by (rewrite !app_length; lia).
    rewrite copy_at_mid by (rewrite drop_length; lia). rewrite L5, drop_drop. cbn [mbind outcome_bind].
    rewrite (assoc_L (++) (((pre ++ u) ++ s) ++ iv)).
    assert ((((pre ++ u) ++ s) ++ iv) ++ mk = pre ++ row p i) as Erow.
    { unfold row. rewrite (at_some _ _ _ E2), (at_some _ _ _ E3), (at_some _ _ _ E4), (at_some _ _ _ E5).
      by rewrite <-!(assoc_L (++)). }
    rewrite Erow. pose proof (row_length p i (S n) i H ltac:(lia)) as Lr.
    replace (length pre + 184) with (length (pre ++ row p i)) by (rewrite app_length; lia).
    rewrite IH; [|by apply rows_ok_S|rewrite drop_length; lia].
    rewrite table_S, drop_drop, <-!(assoc_L (++)). rewrite app_length, Lr.
    replace (32 + 32 + 40 + 80 + 184 * n) with (184 * S n) by lia.
    do 2 f_equal. lia.
Qed.

Definition tab_of (p : Params) (i n : nat) : utable := {|
  t_users := map (at_ (Users p)) (seq i n); t_salts := map (at_ (Salts p)) (seq i n);
  t_ivs := map (at_ (IVs p)) (seq i n); t_mkeys := map (at_ (MKeys p)) (seq i n) |}.

Lemma read_users_ok p i n rest : rows_ok p i n → read_users v1 n (table p i n ++ rest) = Ok (tab_of p i n, rest).
Proof.
  revert i. induction n as [|n IH]; intros i H; [done|].
  destruct (H i) as (k & u & s & iv & mk & E1 & E2 & E3 & E4 & E5 & L1 & L2 & L3 & L4 & L5); [lia|].
  cbn [read_users]. change (c_saltSize v1) with 32. change (c_blockSize v1) with 40. change (c_keySize v1) with 80.
  rewrite table_S. unfold row.
  rewrite (at_some _ _ _ E2), (at_some _ _ _ E3), (at_some _ _ _ E4), (at_some _ _ _ E5). rewrite <-!(assoc_L (++)).
  rewrite (pull_ok u) by done. cbn [mbind outcome_bind]. rewrite (pull_ok s) by done. cbn [mbind outcome_bind].
  rewrite (pull_ok iv) by done. cbn [mbind outcome_bind]. rewrite (pull_ok mk) by done. cbn [mbind outcome_bind].
  rewrite IH by (by apply rows_ok_S). cbn [mbind outcome_bind]. unfold tab_of. cbn [seq map t_users t_salts t_ivs t_mkeys].
  by rewrite (at_some _ _ _ E2), (at_some _ _ _ E3), (at_some _ _ _ E4), (at_some _ _ _ E5).
Qed.

Lemma map_at_all (l : list bytes) n : length l = n → map (at_ l) (seq 0 n) = l.
Proof.
  intros <-. apply list_eq. intros i.
  change (map (at_ l) (seq 0 (length l))) with (at_ l <$> seq 0 (length l)).
  rewrite list_lookup_fmap. destruct (decide (i < length l)) as [Hi|Hi].
  - rewrite lookup_seq_lt by done. simpl. destruct (lookup_lt_is_Some_2 l i Hi) as [x Hx].
    unfold at_. by rewrite Hx.
  - rewrite lookup_seq_ge by lia. simpl. symmetry. apply lookup_ge_None. lia.
Qed.

(** ** validate *)

Lemma check_ok b msg : check b msg = Ok tt ↔ b = true.
Proof. destruct b; done. Qed.
Lemma check_all_ok f msg l : check_all f msg l = Ok tt ↔ Forall (λ x, f x = true) l.
Proof.
  unfold check_all. destruct (forallb f l) eqn:E.
  - split; [|done]. intros _. apply Forall_forall. intros x Hx. rewrite forallb_forall in E. apply E. by apply elem_of_list_In.
  - split; [done|]. intros H. exfalso. apply not_true_iff_false in E. apply E. apply forallb_forall.
    intros x Hx. rewrite Forall_forall in H. apply H. by apply elem_of_list_In.
Qed.
Lemma check_not_panic b msg : check b msg ≠ Panic.
Proof. by destruct b. Qed.
Lemma check_all_not_panic f msg l : check_all f msg l ≠ Panic.
Proof. unfold check_all. by destruct (forallb f l). Qed.

Lemma validate_no_panic c p : validate c p ≠ Panic.
Proof.
  unfold validate. intros H.
  repeat (apply bind_Panic in H as [H|([] & _ & H)];
    [first [by apply check_not_panic in H | by apply check_all_not_panic in H]|]).
  destruct (NUsers p =? 0)%Z; [done|].
  repeat (apply bind_Panic in H as [H|([] & _ & H)];
    [first [by apply check_not_panic in H | by apply check_all_not_panic in H]|]).
  by apply check_not_panic in H.
Qed.

Lemma zlen_0 {A} (l : list A) : negb (zlen l =? 0)%Z = true ↔ l ≠ [].
Proof. destruct l; unfold zlen; simpl; split; done. Qed.
Lemma Forall_len_is n (l : list bytes) : Forall (λ x, len_is n x = true) l ↔ Forall (λ x, length x = n) l.
Proof. split; (intros H; eapply Forall_impl; [exact H|]; intros x; unfold len_is; apply Nat.eqb_eq). Qed.

Lemma validate_ok p : validate v1 p = Ok tt ↔ sizes_ok p ∧ (NUsers p = 0%Z ∨ NUsers p ≠ 0%Z ∧ multi_sizes_ok p).
Proof.
  unfold validate. change (c_saltSize v1) with 32. change (c_blockSize v1) with 40. change (c_keySize v1) with 80.
  assert (∀ l, Forall (λ x, len_is 0 x || len_is 80 x = true) l ↔ Forall (λ k : bytes, length k = 0 ∨ length k = 80) l) as HK.
  { intros l. split; (intros H; eapply Forall_impl; [exact H|]; intros x; unfold len_is; cbn beta; rewrite orb_true_iff, !Nat.eqb_eq; done). }
  assert (∀ (o : option bytes) n, match o with Some b => len_is n b | None => true end = true ↔ ∀ b, o = Some b → length b = n) as HO.
  { intros [b|] n; unfold len_is; [rewrite Nat.eqb_eq; naive_solver|naive_solver]. }
  assert (∀ (x : outcome unit) (f : unit → outcome unit), x ≫= f = Ok tt ↔ x = Ok tt ∧ f tt = Ok tt) as HB.
  { intros x f. rewrite bind_Ok. split; [intros ([] & ? & ?); done|]. intros [? ?]. by exists tt. }
  rewrite !HB, !check_ok, !check_all_ok, !zlen_0, HK, Forall_len_is.
  destruct (NUsers p =? 0)%Z eqn:E.
  - apply Z.eqb_eq in E. unfold sizes_ok. split; [intros (H1 & H2 & H3 & H4 & _); auto 10|].
    intros [(H1 & H2 & H3 & H4) _]. done.
  - apply Z.eqb_neq in E. rewrite !HB, !check_ok, !check_all_ok, !Forall_len_is, !HO, !Z.eqb_eq, andb_true_iff.
    rewrite Z.leb_le, Z.ltb_lt. unfold sizes_ok, multi_sizes_ok. split.
    + intros (H1 & H2 & H3 & H4 & H). split; [done|]. right. split; [done|]. destruct H as (A1 & A2 & A3 & A4 & A5 & A6 & A7 & A8 & A9 & A10 & A11).
      done.
    + intros [(H1 & H2 & H3 & H4) [?|[_ H]]]; [done|].
      destruct H as (A1 & A2 & A3 & A4 & A5 & A6 & A7 & A8 & A9 & A10 & A11). done.
Qed.

Lemma multi_rows p : sizes_ok p → multi_sizes_ok p → rows_ok p 0 (nusers p) ∧
  length (Users p) = nusers p ∧ length (Salts p) = nusers p ∧ length (IVs p) = nusers p ∧ length (MKeys p) = nusers p.
Proof.
  intros (_ & _ & HK & HS) (L1 & L2 & HU & L3 & F3 & L4 & F4 & L5 & F5 & _). unfold zlen, nusers in *.
  split; [|lia]. intros j Hj.
  destruct (lookup_lt_is_Some_2 (Keys p) j) as [k Ek]; [lia|]. destruct (lookup_lt_is_Some_2 (Users p) j) as [u Eu]; [lia|].
  destruct (lookup_lt_is_Some_2 (Salts p) j) as [s Es]; [lia|]. destruct (lookup_lt_is_Some_2 (IVs p) j) as [iv Ei]; [lia|].
  destruct (lookup_lt_is_Some_2 (MKeys p) j) as [mk Em]; [lia|].
  exists k, u, s, iv, mk. rewrite Forall_lookup in HK, HS, F3, F4, F5.
  repeat split; eauto.
Qed.
