(** Proofs about sessions: saving and loading. *)
From Verif Require Import Proof_TxLog Proof_GoStr Proof_Utf8 Proof_Blobs Proof_Blobs2 Proof_Json Proof_Json2 Proof_Crypt3 Proof_Crypt5.
From Verif Require Export Spec_Session.
From Coq Require Import Lia.
From stdpp Require Import options.
#[local] Open Scope nat_scope.

(** ** Hex *)
Lemma hexd_ok (x : byte) : unhex_digit (hexd (byteZ x / 16)) = Some (byteZ x / 16)%Z ∧ unhex_digit (hexd (byteZ x mod 16)) = Some (byteZ x mod 16)%Z ∧
  Zbyte (16 * (byteZ x / 16) + byteZ x mod 16) = x ∧ (byteZ (hexd (byteZ x / 16)) < 128)%Z ∧ (byteZ (hexd (byteZ x mod 16)) < 128)%Z.
Proof. destruct x as [[] [] [] [] [] [] [] []]; repeat split; reflexivity. Qed.
Lemma hex_round b : hex_decode (hex_encode b) = Some b.
Proof.
  induction b as [|x b IH]; [done|]. destruct (hexd_ok x) as (H1 & H2 & H3 & _). cbn [hex_encode hex_decode]. by rewrite H1, H2, IH, H3.
Qed.
Lemma hexed_round b msg : hexed (Some (hex_encode b)) msg = Ok b.
Proof. unfold hexed. cbn [default]. unfold id. by rewrite hex_round. Qed.

(** ** makeParams *)

(** One user of the list: name, salt, IV, wrapped key. *)
Record urow := mk_row { w_name : string; w_salt : bytes; w_iv : bytes; w_mkey : bytes }.

Fixpoint build (P : prims) (me : string) (key : bytes) (index : nat) (rows : list urow) (p : Model_Crypt.Params) : Model_Crypt.Params :=
  match rows with
  | [] => p
  | w :: r => build P me key (S index) r
      (params_snoc p index (String.eqb me (w_name w)) key (sha256 P (str_bytes (w_name w))) (w_salt w) (w_iv w) (w_mkey w))
  end.
Lemma build_fields P me key rows : ∀ index p,
  let q := build P me key index rows p in
  NUsers q = (NUsers p + Z.of_nat (length rows))%Z ∧
  Keys q = Keys p ++ ((λ w, if String.eqb me (w_name w) then key else []) <$> rows) ∧
  Salts q = Salts p ++ (w_salt <$> rows) ∧
  Model_Crypt.Users q = Model_Crypt.Users p ++ ((λ w, sha256 P (str_bytes (w_name w))) <$> rows) ∧
  IVs q = IVs p ++ (w_iv <$> rows) ∧ MKeys q = MKeys p ++ (w_mkey <$> rows) ∧
  ((0 ≤ User p < Z.max 1 (Z.of_nat index))%Z → (0 ≤ User q < Z.max 1 (Z.of_nat (index + length rows)))%Z).
Proof.
  induction rows as [|w rows IH]; intros index p; cbv zeta.
  - cbn [build length fmap list_fmap]. rewrite !(right_id_L [] (++)), Nat.add_0_r, Z.add_0_r. done.
  - cbn [build length fmap list_fmap].
    destruct (IH (S index) (params_snoc p index (String.eqb me (w_name w)) key (sha256 P (str_bytes (w_name w))) (w_salt w) (w_iv w) (w_mkey w))) as (H1 & H2 & H3 & H4 & H5 & H6 & H7).
    rewrite H1, H2, H3, H4, H5, H6. cbn [params_snoc NUsers Keys Salts Model_Crypt.Users IVs MKeys]. rewrite <-!(assoc_L (++)).
    do 6 (split; [first [lia|done]|]). intros Hu.
    assert (0 ≤ User (params_snoc p index (String.eqb me (w_name w)) key (sha256 P (str_bytes (w_name w))) (w_salt w) (w_iv w) (w_mkey w)) < Z.max 1 (Z.of_nat (S index)))%Z as Hu'.
    { cbn [params_snoc User]. destruct (String.eqb me (w_name w)); lia. }
    specialize (H7 Hu'). lia.
Qed.

Definition row_of (m : snapshot) (p : string * string) (w : urow) : Prop :=
  p.2 = "user/" +:+ w_name w ∧ w_name w ≠ "" ∧ has_row m (w_name w) p.1 (w_salt w) (w_iv w) (w_mkey w).

Lemma params_loop_ok P me key m l rows : Forall2 (row_of m) l rows → ∀ index p d, holds d m →
  ∃ d', params_loop P me key index l p d = (d', Ok (build P me key index rows p)) ∧ holds d' m ∧ vis (db_log d') = vis (db_log d).
Proof.
  induction 1 as [|[u n] w l rows (Hn & Hne & b & Hb & Hname & Hsalt & Hiv & Hmk) _ IH]; intros index p d Hh; [by exists d|].
  cbn [fst snd] in *. subst n.
  destruct (MustFind_spec u d m b Hh Hb) as (d1 & E1 & Hh1 & Hv1).
  destruct (IH (S index) (params_snoc p index (String.eqb me (w_name w)) key (sha256 P (str_bytes (w_name w))) (w_salt w) (w_iv w) (w_mkey w)) d1 Hh1) as (d2 & E2 & Hh2 & Hv2).
  exists d2. split; [|split; [done|congruence]].
  cbn [params_loop build]. unfold mbind, M_bind, lift. rewrite SplitUsername_user.
  rewrite (proj2 (String.eqb_neq _ _) Hne). unfold mbind, M_bind, lift. rewrite E1.
  unfold KeySalt, KeyIV, KeyMKey. rewrite Hsalt, Hiv, Hmk, !hexed_round. exact E2.
Qed.

Lemma rows_exist P m : table_ok P m → ∀ l, (∀ u n, (u, n) ∈ l → called m u n ∧ ∃ x, n = "user/" +:+ x) →
  ∃ rows, Forall2 (row_of m) l rows ∧
    Forall (λ w, length (w_salt w) = 32 ∧ length (w_iv w) = 40 ∧ length (w_mkey w) = 80) rows.
Proof.
  intros (Ht & _) l. induction l as [|[u n] l IH]; intros Hl; [by exists []|].
  destruct IH as (rows & H1 & H2); [intros u' n' Hin; apply Hl; by right|].
  destruct (Hl u n) as [Hc [x ->]]; [left|]. destruct (Ht u x Hc) as (_ & Hne & salt & iv & mk & Hr & L1 & L2 & L3).
  exists (mk_row x salt iv mk :: rows). split; constructor; auto. split; [done|]. split; [done|]. done.
Qed.

Lemma holds_user_called m r u n : exactly m (λ b, ∃ x, b !! "name" = Some ("user/" +:+ x)) r →
  res_map r !! u = Some n ↔ called m u n ∧ ∃ x, n = "user/" +:+ x.
Proof.
  intros He. rewrite (He u n). split.
  - intros (b & Hb & Hn & x & Hx). split; [by exists b|]. exists x. congruence.
  - intros ((b & Hb & Hn) & x & ->). exists b. eauto.
Qed.

Lemma makeParams_multi P e ord s d m : prims_ok P → holds d m → all_named m → fair e → fair_results ord → multi_session P s m →
  ∃ d' p rows, makeParams P e ord s d = (d', Ok p) ∧ holds d' m ∧ vis (db_log d') = vis (db_log d) ∧
    multi_ok p ∧ (NUsers p ≤ 9999)%Z ∧ IVM p = Some (s_ivm s) ∧ Master p = Some (s_master s) ∧
    Salts p = w_salt <$> rows ∧ Model_Crypt.Users p = ((λ w, sha256 P (str_bytes (w_name w))) <$> rows) ∧
    IVs p = w_iv <$> rows ∧ MKeys p = w_mkey <$> rows ∧ NUsers p = Z.of_nat (length rows) ∧
    NoDup (w_name <$> rows) ∧
    (∀ w, w ∈ rows → ∃ u, has_row m (w_name w) u (w_salt w) (w_iv w) (w_mkey w)) ∧
    (∀ x u salt iv mkey, has_row m x u salt iv mkey → mk_row x salt iv mkey ∈ rows).
Proof.
  intros HP Hh Ha Hf Ho (Lm & Li & Lk & Ht & Hu).
  destruct (Users_spec e d m Hh Ha Hf) as (d1 & r & E1 & Hh1 & Hv1 & Hex).
  set (l := ord (res_map r)).
  assert (∀ u n, (u, n) ∈ l ↔ called m u n ∧ ∃ x, n = "user/" +:+ x) as Hl.
  { intros u n. unfold l. rewrite (Ho (res_map r)), elem_of_map_to_list. by apply holds_user_called. }
  destruct (rows_exist P m Ht l) as (rows & HF & HS); [intros u n; apply Hl|].
  destruct (params_loop_ok P (s_user s) (s_key s) m l rows HF 0 params_empty d1 Hh1) as (d2 & E2 & Hh2 & Hv2).
  set (q := build P (s_user s) (s_key s) 0 rows params_empty) in *.
  destruct (build_fields P (s_user s) (s_key s) rows 0 params_empty) as (B1 & B2 & B3 & B4 & B5 & B6 & B7). fold q in B1, B2, B3, B4, B5, B6, B7.
  cbn [params_empty NUsers Keys Salts Model_Crypt.Users IVs MKeys User] in B1, B2, B3, B4, B5, B6, B7. rewrite app_nil_l in B2, B3, B4, B5, B6.
  assert (NoDup (w_name <$> rows)) as Hnd.
  { assert (NoDup l) as Hndl by (unfold l; rewrite (Ho (res_map r)); apply NoDup_map_to_list).
    clear -HF Hndl Hl Hu. assert (∀ u n, (u, n) ∈ l → called m u n) as Hc by (intros u n Hin; by apply Hl). clear Hl.
    induction HF as [|[u n] w l rows (Hn & _) HF IH]; [constructor|]. cbn [fst snd] in Hn.
    apply NoDup_cons in Hndl as [Hni Hndl]. cbn [fmap list_fmap]. apply NoDup_cons. split; [|apply IH; [done|intros; apply Hc; by right]].
    intros Hin. apply elem_of_list_fmap in Hin as (w' & Hw' & Hin). apply elem_of_list_lookup in Hin as [i Hi].
    destruct (Forall2_lookup_r _ _ _ _ _ HF Hi) as ([u' n'] & Hl' & Hn' & _). cbn [fst snd] in Hn'.
    apply elem_of_list_lookup_2 in Hl'. assert (n' = n) as -> by congruence.
    assert (u = u') as -> by (eapply Hu; apply Hc; [left|right; exact Hl']). done. }
  assert (∀ w, w ∈ rows → ∃ u, has_row m (w_name w) u (w_salt w) (w_iv w) (w_mkey w)) as Hrow.
  { intros w Hin. apply elem_of_list_lookup in Hin as [i Hi]. destruct (Forall2_lookup_r _ _ _ _ _ HF Hi) as ([u n] & _ & _ & _ & H). by exists u. }
  assert (∀ x u salt iv mkey, has_row m x u salt iv mkey → mk_row x salt iv mkey ∈ rows) as Hall.
  { intros x u salt iv mkey (b & Hb & Hn & H1 & H2 & H3).
    assert ((u, "user/" +:+ x) ∈ l) as Hin by (apply Hl; split; [by exists b|eauto]).
    apply elem_of_list_lookup in Hin as [i Hi]. destruct (Forall2_lookup_l _ _ _ _ _ HF Hi) as (w & Hw & Hwn & _ & b' & Hb' & _ & H1' & H2' & H3').
    cbn [fst snd] in *. rewrite Hb in Hb'. injection Hb' as <-. apply sapp_inj_l in Hwn.
    rewrite H1 in H1'. rewrite H2 in H2'. rewrite H3 in H3'. injection H1' as H1'. injection H2' as H2'. injection H3' as H3'.
    apply (f_equal hex_decode) in H1', H2', H3'. rewrite !hex_round in H1', H2', H3'.
    apply elem_of_list_lookup. exists i. rewrite Hw. destruct w. cbn in *. congruence. }
  assert (1 ≤ length rows) as Hlen.
  { destruct Ht as (Ht & _ & (x & u & Hx) & _). destruct (Ht u x Hx) as (_ & _ & salt & iv & mk & Hr & _). apply Hall in Hr.
    destruct rows; [by apply elem_of_nil in Hr|cbn; lia]. }
  assert (Z.of_nat (length rows) ≤ 9999)%Z as Hlen'.
  { destruct Ht as (_ & _ & _ & Ht). rewrite <-(fmap_length w_name). apply Ht; [done|]. intros x Hin.
    apply elem_of_list_fmap in Hin as (w & -> & Hin). destruct (Hrow w Hin) as (u & b & Hb & Hn & _). by exists u, b. }
  exists d2, (params_master (s_ivm s) (s_master s) q), rows.
  assert (opt_bytes (s_ivm s) = Some (s_ivm s)) as Oi by (unfold opt_bytes; rewrite Li; done).
  assert (opt_bytes (s_master s) = Some (s_master s)) as Om by (unfold opt_bytes; rewrite Lm; done).
  split.
  { unfold makeParams. rewrite Lm. change (80 =? 0) with false. cbv iota. unfold mbind at 1, M_bind at 1, must. rewrite E1. cbv iota.
    fold l. unfold mbind at 1, M_bind at 1. rewrite E2. done. }
  split; [done|]. split; [congruence|].
  cbn [params_master NUsers IVM Master Salts Model_Crypt.Users IVs MKeys]. rewrite Oi, Om.
  split.
  { split; [|cbn [params_master NUsers IVM Master]; rewrite Oi, Om; repeat split; eauto; lia].
    apply validate_ok. cbn [params_master NUsers]. split.
    - unfold sizes_ok. cbn [params_master Keys Salts]. rewrite B2, B3. split; [intros H; apply (f_equal length) in H; rewrite fmap_length in H; cbn in H; lia|]. split; [intros H; apply (f_equal length) in H; rewrite fmap_length in H; cbn in H; lia|].
      split; apply Forall_fmap; [|eapply Forall_impl; [exact HS|]; intros w (H & _); exact H].
      apply Forall_forall. intros w _. cbn. destruct (String.eqb (s_user s) (w_name w)); [|by left]. destruct Lk as [->|Lk]; [by left|by right].
    - right. split; [lia|]. unfold multi_sizes_ok, zlen. cbn [params_master NUsers Keys Salts User Model_Crypt.Users IVs MKeys IVM Master].
      rewrite Oi, Om, B1, B2, B3, B4, B5, B6, !fmap_length.
      split; [done|]. split; [done|]. split; [specialize (B7 ltac:(lia)); lia|]. split; [done|].
      split; [apply Forall_fmap, Forall_forall; intros w _; apply (sha256_len _ HP)|].
      split; [done|]. split; [apply Forall_fmap; eapply Forall_impl; [exact HS|]; intros w (_ & H & _); exact H|].
      split; [done|]. split; [apply Forall_fmap; eapply Forall_impl; [exact HS|]; intros w (_ & _ & H); exact H|].
      split; intros b [= <-]; done. }
  rewrite B1. split; [lia|]. do 6 (split; [done|]). split; [lia|]. done.
Qed.

(** ** Good stores *)
Lemma replays_from_utf8 m l m' : replays_from m l m' → Forall tx_utf8 l → snapshot_utf8 m → snapshot_utf8 m'.
Proof.
  induction 1 as [|m1 t m2 log m3 Hs _ IH]; [done|]. intros [Ht Hl]%Forall_cons Hm. apply IH; [done|]. clear IH.
  destruct Hs as [m ti u k v Hu|m ti u k v e Hu|m ti u k v e Hu|m ti u k v e Hu|m ti kd u k v]; [| | | |done];
    destruct Ht as (_ & Uu & Uk & Uv); cbn in Uu, Uk, Uv; intros u' e' H.
  - apply lookup_insert_Some in H as [[<- <-]|[_ H]]; [|by apply Hm]. split; [done|]. intros k' v' H. by rewrite lookup_empty in H.
  - apply lookup_delete_Some in H as [_ H]. by apply Hm.
  - apply lookup_insert_Some in H as [[<- <-]|[_ H]]; [|by apply Hm]. split; [done|]. destruct (Hm u e Hu) as [_ He].
    intros k' v' H. apply lookup_insert_Some in H as [[<- <-]|[_ H]]; [done|by apply He].
  - apply lookup_insert_Some in H as [[<- <-]|[_ H]]; [|by apply Hm]. split; [done|]. destruct (Hm u e Hu) as [_ He].
    intros k' v' H. apply lookup_delete_Some in H as [_ H]. by apply He.
Qed.
Lemma good_saves d m : good d m → ∃ b d', Save d = Ok b ∧ Model_Json.New b = Ok (Some d') ∧ same_store d d'.
Proof.
  intros ([[Hv Hr] Hm] & Htp & Hu & Hi & Hl).
  assert (∃ b, Save d = Ok b) as [b Hb] by (unfold Save, save_guard; rewrite Htp; eexists; done).
  assert (db_utf8 d) as Hd.
  { split; [|done]. eapply replays_from_utf8; [exact Hr|by apply Forall_take|]. intros u e H. by rewrite lookup_empty in H. }
  exists b, (loaded d). split; [done|]. split; [apply New_Save; [split; [lia|done]|done]|].
  destruct (loaded_same d Hd) as [H1 H2]. done.
Qed.
Lemma same_store_good d d' m : same_store d d' → good d m → good d' m.
Proof.
  intros (Hv & Hver & Hs & Htp) ([[Hle Hc] Hm] & _ & Hu & Hi & Hl). unfold good, holds, coherent. rewrite Hv, Hver, Hs. done.
Qed.

(** ** Saving and loading *)
Lemma str_bytes_nonempty x : x ≠ "" → str_bytes x ≠ [].
Proof. by destruct x. Qed.
Lemma prompt_line x rest : prompt (ILine x :: rest) = UOk x rest.
Proof. done. Qed.

Lemma single_save_load P s pass m e ord riv sp rsalt hist rest : prims_ok P → good (s_db s) m → s_readOnly s = false →
  single_session P s pass → length riv = 40 →
  ∃ f d', saveBlob P e ord (Some riv) s = (s, Ok (Some f)) ∧ same_store (s_db s) d' ∧
    loadBlob P (Found (mk_slice f sp)) hist rsalt (ILine pass :: rest) =
      of_outcome (finish false hist (Some d') "" pass (s_key s) (s_salt s) [] []) rest.
Proof.
  intros HP Hg Hro (Hm & Hk & Hs & Hp) Hr.
  destruct (good_saves _ _ Hg) as (b & d' & Hb & Hn & Hsame).
  assert (length (s_key s) = 80) as Lk by (rewrite Hk; apply (scrypt_len _ HP)).
  destruct (single_round_trip P (params_single (s_key s) (s_salt s)) riv b (s_key s) (s_salt s) sp) as (f & E & _ & D); try done.
  { apply validate_ok. split; [|by left]. unfold sizes_ok. cbn [params_single Keys Salts]. split; [done|]. split; [done|]. split; constructor; auto. }
  { intros H. rewrite H in Lk. done. }
  exists f, d'. split; [|split; [done|]].
  - unfold saveBlob. rewrite Hro, Hb. unfold makeParams. rewrite Hm. cbn [length Nat.eqb]. unfold mret, M_ret, cryptVersion. rewrite E. cbn [mbind outcome_bind].
    by destruct s.
  - unfold loadBlob. destruct (mode_agrees P 1 _ (Some riv) b f sp HP ltac:(by intros ? [= <-]) E) as (-> & _). cbn [params_single NUsers].
    rewrite bool_decide_false by (intros H; by apply H). cbn [of_outcome ubind]. rewrite prompt_line. cbn [ubind].
    rewrite (D (str_bytes "") (str_bytes pass) None []); [|by apply str_bytes_nonempty|done|by left].
    cbn [mbind outcome_bind single_params Keys Salts User Master IVM]. unfold idx. cbn [Z.to_nat lookup list_lookup mbind outcome_bind]. rewrite Hn. done.
Qed.

Lemma multi_save_load P s x pass m e ord riv sp rsalt hist rest : prims_ok P → good (s_db s) m → all_named m → fair e → fair_results ord →
  s_readOnly s = false → multi_session P s m → unlocks P m (s_master s) x pass →
  (∀ b, riv = Some b → length b = 40) →
  ∃ f d' s' salt, saveBlob P e ord riv s = (s', Ok (Some f)) ∧ vis (db_log (s_db s')) = vis (db_log (s_db s)) ∧ same_store (s_db s) d' ∧
    (∃ u iv mkey, has_row m x u salt iv mkey) ∧
    loadBlob P (Found (mk_slice f sp)) hist rsalt (ILine x :: ILine pass :: rest) =
      of_outcome (finish false hist (Some d') x pass (key_of P (str_bytes pass) salt) salt (s_master s) (s_ivm s)) rest.
Proof.
  intros HP Hg Ha Hf Ho Hro Hms (Hp & u & salt & iv & mkey & Hrow & Hwrap) Hriv.
  destruct (good_saves _ _ Hg) as (b & d' & Hb & Hn & Hsame). destruct Hg as (Hh & _).
  destruct (makeParams_multi P e ord s (s_db s) m HP Hh Ha Hf Ho Hms)
    as (d1 & p & rows & E1 & Hh1 & Hv1 & Hok & H9 & HI & HM & HS & HU & HIV & HMK & HN & Hnd & Hrows & Hall).
  pose proof (Hall _ _ _ _ _ Hrow) as Hin. apply elem_of_list_lookup in Hin as [i Hi].
  destruct Hms as (Lm & Li & Lk & (Ht & Hsha & _) & Hu).
  assert (x ≠ "") as Hx by (destruct Hrow as (bb & Hb' & Hn' & _); destruct (Ht u x) as (_ & ? & _); [by exists bb|done]).
  destruct (multi_round_trip P p riv b i (str_bytes x) (key_of P (str_bytes pass) salt) sp) as (f & salt' & E2 & Hsalt & _ & D); [done|done|done| |by apply str_bytes_nonempty|].
  { split; [rewrite HU, list_lookup_fmap, Hi; done|]. split.
    - intros j Hj. rewrite HU, list_lookup_fmap. destruct (rows !! j) as [w|] eqn:Ew; [|done]. cbn. intros Heq. apply (inj Some) in Heq.
      assert (is_user m (w_name w)) as H1 by (destruct (Hrows w (elem_of_list_lookup_2 _ _ _ Ew)) as (u' & b' & H1 & H2 & _); by exists u', b').
      assert (is_user m x) as H2 by (destruct Hrow as (b' & H2 & H3 & _); by exists u, b').
      apply Hsha in Heq; [|done|done].
      assert (j = i); [|lia]. eapply (NoDup_lookup (w_name <$> rows)); [done| |]; rewrite list_lookup_fmap; [rewrite Ew|rewrite Hi]; cbn; by rewrite ?Heq.
    - exists (s_master s), iv, mkey. rewrite HIV, HMK, !list_lookup_fmap, Hi. done. }
  rewrite HS, list_lookup_fmap, Hi in Hsalt. cbn in Hsalt. injection Hsalt as <-.
  exists f, d', (set_db d1 s), salt. split; [|split; [done|split; [done|split; [by exists u, iv, mkey|]]]].
  - unfold saveBlob. rewrite Hro, Hb, E1. unfold cryptVersion. rewrite E2. done.
  - unfold loadBlob. destruct (mode_agrees P 1 p riv b f sp HP Hriv E2) as (-> & _). rewrite bool_decide_true by (rewrite HN; destruct rows; [done|cbn; lia]).
    cbn [of_outcome ubind]. rewrite prompt_line. cbn [ubind]. rewrite prompt_line. cbn [ubind].
    rewrite (D (str_bytes pass) None []); [|by apply str_bytes_nonempty|done|by left].
    cbn [mbind outcome_bind params_for Keys Salts User Master IVM]. rewrite Nat2Z.id. unfold idx.
    rewrite list_lookup_insert by (rewrite replicate_length; unfold nusers; rewrite HN, Nat2Z.id; by eapply lookup_lt_Some).
    rewrite HS, list_lookup_fmap, Hi. cbn [fmap option_fmap option_map mbind outcome_bind]. rewrite Hn, HM, HI. done.
Qed.
