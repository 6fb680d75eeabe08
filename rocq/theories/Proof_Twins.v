(** Proofs about stores in which a user has several entries. *)
From Verif Require Import Proof_TxLog Proof_GoStr Proof_Utf8 Proof_Blobs Proof_Blobs2 Proof_Json Proof_Json2 Proof_Crypt3 Proof_Crypt5 Proof_Session.
From Verif Require Export Spec_Twins.
From Coq Require Import Lia.
From stdpp Require Import options.
#[local] Open Scope nat_scope.

Lemma rows_found m l : (∀ u x, called m u ("user/" +:+ x) → x ≠ "" ∧
     ∃ salt iv mkey, has_row m x u salt iv mkey ∧ length salt = 32%nat ∧ length iv = 40%nat ∧ length mkey = 80%nat) →
  (∀ u n, (u, n) ∈ l → called m u n ∧ ∃ x, n = "user/" +:+ x) →
  ∃ rows, Forall2 (row_of m) l rows ∧
    Forall (λ w, length (w_salt w) = 32 ∧ length (w_iv w) = 40 ∧ length (w_mkey w) = 80) rows.
Proof.
  intros Ht. induction l as [|[u n] l IH]; intros Hl; [by exists []|].
  destruct IH as (rows & H1 & H2); [intros u' n' Hin; apply Hl; by right|].
  destruct (Hl u n) as [Hc [x ->]]; [left|]. destruct (Ht u x Hc) as (Hne & salt & iv & mk & Hr & L1 & L2 & L3).
  exists (mk_row x salt iv mk :: rows). split; constructor; auto. split; [done|]. split; [done|]. done.
Qed.

Lemma has_row_fun m x y u s1 i1 k1 s2 i2 k2 : has_row m x u s1 i1 k1 → has_row m y u s2 i2 k2 → x = y ∧ s1 = s2 ∧ i1 = i2 ∧ k1 = k2.
Proof.
  intros (b & Hb & Hn & H1 & H2 & H3) (b' & Hb' & Hn' & H1' & H2' & H3'). rewrite Hb in Hb'. injection Hb' as <-.
  rewrite Hn in Hn'. injection Hn' as Hn'. rewrite H1 in H1'. injection H1' as H1'. rewrite H2 in H2'. injection H2' as H2'. rewrite H3 in H3'. injection H3' as H3'.
  apply (f_equal hex_decode) in H1', H2', H3'. rewrite !hex_round in H1', H2', H3'. split; [|split; [congruence|split; congruence]].
  exact Hn'.
Qed.

Lemma makeParams_rows P e ord s m r : prims_ok P → serves_rows P s m → fair e → fair_results ord → users_of m r →
  ∃ d' p rows, makeParams P e ord s (s_db s) = (d', Ok p) ∧ holds d' m ∧ vis (db_log d') = vis (db_log (s_db s)) ∧
    multi_ok p ∧ (NUsers p ≤ 9999)%Z ∧ IVM p = Some (s_ivm s) ∧ Master p = Some (s_master s) ∧
    Salts p = w_salt <$> rows ∧ Model_Crypt.Users p = ((λ w, sha256 P (str_bytes (w_name w))) <$> rows) ∧
    IVs p = w_iv <$> rows ∧ MKeys p = w_mkey <$> rows ∧ NUsers p = Z.of_nat (length rows) ∧ Forall2 (row_of m) (ord r) rows.
Proof.
  intros HP ((Hh & _) & Ha & (Ht & Hsha & [x0 [u0 Hx0]] & H9) & Lm & Li & Lk) Hf Ho Hr.
  destruct (Users_spec e (s_db s) m Hh Ha Hf) as (d1 & r' & E1 & Hh1 & Hv1 & Hex).
  assert (res_map r' = r) as Er.
  { apply map_eq. intros u. apply option_eq. intros n. rewrite (holds_user_called m r' u n Hex). symmetry. apply Hr. }
  set (l := ord r).
  assert (∀ u n, (u, n) ∈ l ↔ called m u n ∧ ∃ x, n = "user/" +:+ x) as Hl.
  { intros u n. unfold l. rewrite (Ho r), elem_of_map_to_list. apply Hr. }
  destruct (rows_found m l Ht) as (rows & HF & HS); [intros u n; apply Hl|].
  destruct (params_loop_ok P (s_user s) (s_key s) m l rows HF 0 params_empty d1 Hh1) as (d2 & E2 & Hh2 & Hv2).
  set (q := build P (s_user s) (s_key s) 0 rows params_empty) in *.
  destruct (build_fields P (s_user s) (s_key s) rows 0 params_empty) as (B1 & B2 & B3 & B4 & B5 & B6 & B7). fold q in B1, B2, B3, B4, B5, B6, B7.
  cbn [params_empty NUsers Keys Salts Model_Crypt.Users IVs MKeys User] in B1, B2, B3, B4, B5, B6, B7. rewrite app_nil_l in B2, B3, B4, B5, B6.
  assert (1 ≤ length rows) as Hlen.
  { rewrite <-(Forall2_length _ _ _ HF). assert ((u0, "user/" +:+ x0) ∈ l) as Hin by (apply Hl; eauto). destruct l; [by apply elem_of_nil in Hin|cbn; lia]. }
  assert (Z.of_nat (length rows) ≤ 9999)%Z as Hlen'.
  { rewrite <-(Forall2_length _ _ _ HF), <-(fmap_length fst). apply H9.
    - unfold l. rewrite (Ho r). apply NoDup_fst_map_to_list.
    - intros u Hu. apply elem_of_list_fmap in Hu as ([u' n] & -> & Hu). apply Hl in Hu as (Hc & x & ->). by exists x. }
  exists d2, (params_master (s_ivm s) (s_master s) q), rows.
  assert (opt_bytes (s_ivm s) = Some (s_ivm s)) as Oi by (unfold opt_bytes; rewrite Li; done).
  assert (opt_bytes (s_master s) = Some (s_master s)) as Om by (unfold opt_bytes; rewrite Lm; done).
  split.
  { unfold makeParams. rewrite Lm. change (80 =? 0) with false. cbv iota. unfold mbind at 1, M_bind at 1, must. rewrite E1. cbv iota.
    rewrite Er. fold l. unfold mbind at 1, M_bind at 1. rewrite E2. done. }
  split; [done|]. split; [congruence|].
  cbn [params_master NUsers IVM Master Salts Model_Crypt.Users IVs MKeys]. rewrite Oi, Om.
  split.
  { split; [|cbn [params_master NUsers IVM Master]; rewrite Oi, Om; repeat split; eauto; lia].
    apply validate_ok. cbn [params_master NUsers]. split.
    - unfold sizes_ok. cbn [params_master Keys Salts]. rewrite B2, B3. split; [intros H; apply (f_equal length) in H; rewrite fmap_length in H; cbn in H; lia|]. split; [intros H; apply (f_equal length) in H; rewrite fmap_length in H; cbn in H; lia|].
      split; apply Forall_fmap; [|eapply Forall_impl; [exact HS|]; intros w (H & _); exact H].
      apply Forall_forall. intros w _. cbn. destruct (String.eqb (s_user s) (w_name w)); [|by left]. destruct Lk as [->|Lk]; [by left|by right].
    - right. split; [lia|]. unfold multi_sizes_ok, zlen. cbn [params_master NUsers Keys Salts User Model_Crypt.Users IVs MKeys IVM Master].
      rewrite Oi, Om, B1, B2, B3, B4, B5, B6, !fmap_length.
      split; [done|]. split; [done|]. split; [specialize (B7 ltac:(lia)); lia|]. split; [done|].
      split; [apply Forall_fmap, Forall_forall; intros w _; apply (sha256_len _ HP)|].
      split; [done|]. split; [apply Forall_fmap; eapply Forall_impl; [exact HS|]; intros w (_ & H & _); exact H|].
      split; [done|]. split; [apply Forall_fmap; eapply Forall_impl; [exact HS|]; intros w (_ & _ & H); exact H|].
      split; intros b [= <-]; done. }
  rewrite B1. split; [lia|]. do 6 (split; [done|]). split; [lia|]. exact HF.
Qed.

(** The file lets [x] in with the passphrase of the entry that comes first. *)
Lemma twins_open P e ord riv s m r x u pass sp rsalt rest : prims_ok P → serves_rows P s m → fair e → fair_results ord → users_of m r →
  s_readOnly s = false → (∀ b, riv = Some b → length b = 40) →
  comes_first ord r x u → unlocks_at P m (s_master s) x u pass →
  ∃ f s' s2, saveBlob P e ord riv s = (s', Ok (Some f)) ∧ vis (db_log (s_db s')) = vis (db_log (s_db s)) ∧
    loadBlob P (Found (mk_slice f sp)) None rsalt (ILine x :: ILine pass :: rest) = UOk s2 rest ∧ opened_by P m s s2 x u pass.
Proof.
  intros HP Hserve Hf Ho Hr Hro Hriv (l1 & l2 & El & Hl1) (Hp & salt & iv & mkey & Hrow & Hwrap).
  pose proof Hserve as (Hg & Ha & (Ht & Hsha & _) & Lm & Li & Lk).
  destruct (good_saves _ _ Hg) as (b & d' & Hb & Hn & Hsame).
  destruct (makeParams_rows P e ord s m r HP Hserve Hf Ho Hr)
    as (d1 & p & rows & E1 & Hh1 & Hv1 & Hok & H9 & HI & HM & HS & HU & HIV & HMK & HN & HF).
  rewrite El in HF. apply Forall2_app_inv_l in HF as (rows1 & rows2 & HF1 & HF2 & ->).
  inversion HF2 as [|? w ? rows3 Hw HF3]; subst. destruct Hw as (Hwn & Hwe & Hwr). cbn [fst snd] in Hwn, Hwr.
  injection Hwn as Hwn. destruct w as [wx ws wi wk]. cbn [w_name w_salt w_iv w_mkey] in *. subst wx.
  destruct (has_row_fun _ _ _ _ _ _ _ _ _ _ Hrow Hwr) as (_ & <- & <- & <-).
  set (w := mk_row x salt iv mkey) in *. set (i := length rows1).
  assert ((rows1 ++ w :: rows3) !! i = Some w) as Hi by (unfold i; rewrite lookup_app_r, Nat.sub_diag by lia; done).
  destruct (multi_round_trip P p riv b i (str_bytes x) (key_of P (str_bytes pass) salt) sp) as (f & salt' & E2 & Hsalt & _ & D); [done|done|done| |by apply str_bytes_nonempty|].
  { split; [rewrite HU, list_lookup_fmap, Hi; done|]. split.
    - intros j Hj. rewrite HU, list_lookup_fmap. rewrite lookup_app_l by done. destruct (rows1 !! j) as [w'|] eqn:Ew; [|done]. cbn. intros Heq. apply (inj Some) in Heq.
      destruct (Forall2_lookup_r _ _ _ _ _ HF1 Ew) as ([u' n'] & Hl' & Hn' & _ & b' & Hb' & Hb'' & _). cbn [fst snd] in *.
      assert (is_user m (w_name w')) as H1 by (by exists u', b').
      assert (is_user m x) as H2 by (destruct Hrow as (b2 & H2 & H3 & _); by exists u, b2).
      apply Hsha in Heq; [|done|done]. apply Hl1. apply elem_of_list_fmap. exists (u', n'). split; [cbn [snd]; rewrite Hn', Heq; reflexivity|]. by eapply elem_of_list_lookup_2.
    - exists (s_master s), iv, mkey. rewrite HIV, HMK, !list_lookup_fmap, Hi. done. }
  rewrite HS, list_lookup_fmap, Hi in Hsalt. cbn in Hsalt. injection Hsalt as <-.
  assert (loadBlob P (Found (mk_slice f sp)) None rsalt (ILine x :: ILine pass :: rest) =
      of_outcome (finish false None (Some d') x pass (key_of P (str_bytes pass) salt) salt (s_master s) (s_ivm s)) rest) as EL.
  { unfold loadBlob. destruct (mode_agrees P 1 p riv b f sp HP Hriv E2) as (-> & _). rewrite bool_decide_true by (rewrite HN, app_length; cbn [length]; lia).
    cbn [of_outcome ubind]. rewrite prompt_line. cbn [ubind]. rewrite prompt_line. cbn [ubind].
    rewrite (D (str_bytes pass) None []); [|by apply str_bytes_nonempty|done|by left].
    cbn [mbind outcome_bind params_for Keys Salts User Master IVM]. rewrite Nat2Z.id. unfold idx.
    rewrite list_lookup_insert by (rewrite replicate_length; unfold nusers; rewrite HN, Nat2Z.id; by eapply lookup_lt_Some).
    rewrite HS, list_lookup_fmap, Hi. cbn [fmap option_fmap option_map mbind outcome_bind]. rewrite Hn, HM, HI. done. }
  eexists f, (set_db d1 s), _. split; [unfold saveBlob; rewrite Hro, Hb, E1; unfold cryptVersion; rewrite E2; done|]. split; [exact Hv1|].
  split; [rewrite EL; reflexivity|].
  unfold opened_by. cbn. split; [exact Hsame|]. do 7 (split; [reflexivity|]). by exists iv, mkey.
Qed.

(** Any of them can come first. *)
Definition lead (u : string) (r : gmap string string) : list (string * string) :=
  match r !! u with Some n => (u, n) :: map_to_list (delete u r) | None => map_to_list r end.
Lemma lead_fair u : fair_results (lead u).
Proof.
  intros r. unfold lead. destruct (r !! u) as [n|] eqn:E; [|done]. rewrite <-(insert_delete r u n E) at 2. symmetry. apply map_to_list_insert, lookup_delete.
Qed.
Lemma lead_first m r x u : users_of m r → called m u ("user/" +:+ x) → comes_first (lead u) r x u.
Proof.
  intros Hr Hc. assert (r !! u = Some ("user/" +:+ x)) as E by (apply Hr; eauto).
  exists [], (map_to_list (delete u r)). split; [unfold lead; by rewrite E|]. apply not_elem_of_nil.
Qed.
Lemma users_of_exist d m e : holds d m → all_named m → fair e → ∃ r, users_of m r.
Proof. intros Hh Ha Hf. destruct (Users_spec e d m Hh Ha Hf) as (d1 & r & _ & _ & _ & Hex). exists (res_map r). intros u n. by apply holds_user_called. Qed.

(** With no other entry's: whoever is let in as [x] was so with the
    credentials of the entry that came first. *)
Lemma genuine_only P p riv pt i name sp pass v q pt' : prims_ok P → multi_ok p → (NUsers p ≤ 9999)%Z → name ≠ [] →
  Users p !! i = Some (sha256 P name) → (∀ j, j < i → Users p !! j ≠ Some (sha256 P name)) →
  ∃ f, Encrypt P 1 p riv pt = Ok f ∧
    (Decrypt P name pass None [] (mk_slice f sp) = Ok (v, q, pt') →
     Salts q = Salts p ∧ User q = Z.of_nat i ∧ Keys q !! i = Some (key_of P pass (at_ (Salts p) i))).
Proof.
  intros HP Hok H9 Hname Hu Hfirst.
  destruct (multi_genuine P p riv pt HP Hok) as (m & ivm & ct & HM & HI & Lm & Li & E & Hd & Hl).
  destruct (multi_ok_parts p Hok) as (Hs & Hms & Hn & _).
  destruct (multi_rows p Hs Hms) as (Hrows & Lu & Ls & Liv & Lmk).
  pose proof (lookup_lt_Some _ _ _ Hu) as Hlt.
  exists (multi_header p ivm ++ ct). split; [done|].
  destruct (multi_layout p ivm ct Hok Li H9) as (Hf & Hh & Htl & Hread & Htok).
  rewrite Hf. rewrite (Decrypt_head _ _ _ _ _ _ (NUsers p)) by done.
  unfold dispatch. rewrite (proj2 (Z.eqb_neq _ _)) by lia. rewrite (len0 name Hname). cbn [negb andb].
  pose proof Hh as (Hm16 & _).
  rewrite (multi_red P (NUsers p) name pass None [] _ _ _ ivm ct sp Hn Hm16 Li Htl Hread Htok).
  cbn [t_users t_salts t_ivs t_mkeys]. rewrite (find_user_first _ _ _ i Hu Hfirst).
  rewrite Z.add_0_l. rewrite (proj2 (Z.ltb_ge (Z.of_nat i) 0)) by lia. rewrite Nat2Z.id.
  destruct (choose_m P pass None [] (at_ (Salts p) i)) as [k| |] eqn:Ek; [|discriminate|discriminate]. cbn [mbind outcome_bind].
  assert (k = key_of P pass (at_ (Salts p) i)) as ->.
  { unfold choose_m in Ek. cbn [nil_bytes length Nat.eqb orb] in Ek. destruct (length pass =? 0); [discriminate|]. by injection Ek as <-. }
  destruct (unwrap_key _ _ _ _) as [mk| |]; [|discriminate|discriminate]. cbn [mbind outcome_bind].
  destruct (decode P mk ivm ct) as [body| |]; [|discriminate|discriminate]. cbn [mbind outcome_bind].
  destruct (open_body _ _ _) as [o| |]; [|discriminate|discriminate]. cbn [mbind outcome_bind].
  intros [= _ <- _]. unfold multi_result, tag_version. cbn. split; [done|]. split; [done|].
  apply list_lookup_insert. rewrite replicate_length. unfold nusers in Lu. lia.
Qed.

Lemma twins_only P e ord riv s m r x u sp rsalt : prims_ok P → serves_rows P s m → fair e → fair_results ord → users_of m r →
  s_readOnly s = false → (∀ b, riv = Some b → length b = 40) → comes_first ord r x u →
  ∃ f s' salt iv mkey, saveBlob P e ord riv s = (s', Ok (Some f)) ∧ has_row m x u salt iv mkey ∧
    ∀ pass rest s2 rest', loadBlob P (Found (mk_slice f sp)) None rsalt (ILine x :: ILine pass :: rest) = UOk s2 rest' →
      s_salt s2 = salt ∧ s_key s2 = key_of P (str_bytes pass) salt.
Proof.
  intros HP Hserve Hf Ho Hr Hro Hriv (l1 & l2 & El & Hl1).
  pose proof Hserve as (Hg & Ha & (Ht & Hsha & _) & Lm & Li & Lk).
  destruct (good_saves _ _ Hg) as (b & d' & Hb & Hn & Hsame).
  destruct (makeParams_rows P e ord s m r HP Hserve Hf Ho Hr)
    as (d1 & p & rows & E1 & Hh1 & Hv1 & Hok & H9 & HI & HM & HS & HU & HIV & HMK & HN & HF).
  rewrite El in HF. apply Forall2_app_inv_l in HF as (rows1 & rows2 & HF1 & HF2 & ->).
  inversion HF2 as [|? w ? rows3 Hw HF3]; subst. destruct Hw as (Hwn & Hwe & Hwr). cbn [fst snd] in Hwn, Hwr.
  injection Hwn as Hwn. destruct w as [wx salt iv mkey]. cbn [w_name w_salt w_iv w_mkey] in *. subst wx.
  set (w := mk_row x salt iv mkey) in *. set (i := length rows1).
  assert ((rows1 ++ w :: rows3) !! i = Some w) as Hi by (unfold i; rewrite lookup_app_r, Nat.sub_diag by lia; done).
  assert (Model_Crypt.Users p !! i = Some (sha256 P (str_bytes x))) as Hui by (rewrite HU, list_lookup_fmap, Hi; done).
  assert (∀ j, j < i → Model_Crypt.Users p !! j ≠ Some (sha256 P (str_bytes x))) as Hfirst.
  { intros j Hj. rewrite HU, list_lookup_fmap. rewrite lookup_app_l by done. destruct (rows1 !! j) as [w'|] eqn:Ew; [|done]. cbn. intros Heq. apply (inj Some) in Heq.
    destruct (Forall2_lookup_r _ _ _ _ _ HF1 Ew) as ([u' n'] & Hl' & Hn' & _ & b' & Hb' & Hb'' & _). cbn [fst snd] in *.
    assert (is_user m (w_name w')) as H1 by (by exists u', b').
    assert (is_user m x) as H2 by (destruct Hwr as (b2 & H2 & H3 & _); by exists u, b2).
    apply Hsha in Heq; [|done|done]. apply Hl1. apply elem_of_list_fmap. exists (u', n'). split; [cbn [snd]; rewrite Hn', Heq; reflexivity|]. by eapply elem_of_list_lookup_2. }
  assert (at_ (Salts p) i = salt) as Hsalt by (unfold at_; rewrite HS, list_lookup_fmap, Hi; done).
  assert (∃ f, Encrypt P 1 p riv b = Ok f) as [f E2].
  { destruct (genuine_only P p riv b i (str_bytes x) sp [] 1%Z p b HP Hok H9) as (f & E & _); [by apply str_bytes_nonempty|done|done|]. by exists f. }
  exists f, (set_db d1 s), salt, iv, mkey. split; [unfold saveBlob; rewrite Hro, Hb, E1; unfold cryptVersion; rewrite E2; done|]. split; [done|].
  intros pass rest s2 rest'. unfold loadBlob. destruct (mode_agrees P 1 p riv b f sp HP Hriv E2) as (-> & _). rewrite bool_decide_true by (rewrite HN, app_length; cbn [length]; lia).
  cbn [of_outcome ubind]. rewrite prompt_line. cbn [ubind]. rewrite prompt_line. cbn [ubind].
  destruct (Decrypt P (str_bytes x) (str_bytes pass) None [] (mk_slice f sp)) as [[[v q] pt']| |] eqn:ED; [|discriminate|discriminate].
  destruct (genuine_only P p riv b i (str_bytes x) sp (str_bytes pass) v q pt' HP Hok H9) as (f' & E' & HD); [by apply str_bytes_nonempty|done|done|].
  rewrite E2 in E'. injection E' as <-. destruct (HD ED) as (HqS & HqU & HqK). rewrite Hsalt in HqK. cbn [mbind outcome_bind]. rewrite HqU, Nat2Z.id. unfold idx.
  rewrite HqK. cbn [mbind outcome_bind]. rewrite HqS, HS, list_lookup_fmap, Hi. cbn [fmap option_fmap option_map mbind outcome_bind].
  destruct (Model_Json.New pt') as [od| |]; [|discriminate|discriminate]. cbn [mbind outcome_bind]. unfold finish.
  destruct od as [d2|]; cbn [mbind outcome_bind of_outcome]; intros [= <- _]; done.
Qed.
