From Verif Require Import Proof_GoStr Proof_Utf8 Proof_Crypt2 Proof_Json.
From Verif Require Export Spec_Json.
From Coq Require Import Lia.
From stdpp Require Import options.
Import Model_GoStr.
#[local] Open Scope nat_scope.

Lemma Ok_eq {A} (x y : A) : Ok x = Ok y → x = y.
Proof. by intros [= ->]. Qed.

(** ** Transactions *)

Lemma fix_ascii_names : Forall (λ s, fix_str s = s) ["time"; "kind"; "uuid"; "key"; "value"; "version"; "snapshot"; "log"].
Proof. repeat constructor. Qed.

Definition fields_json (l : list (string * json)) : list (string * json) := map (λ p, (fix_str p.1, norm p.2)) l.
Lemma fields_json_app a b : fields_json (a ++ b) = fields_json a ++ fields_json b.
Proof. apply map_app. Qed.

Lemma dec_tx_app l1 : ∀ l2 t t', dec_tx_fields t l1 = Ok t' → dec_tx_fields t (l1 ++ l2) = dec_tx_fields t' l2.
Proof.
  induction l1 as [|[k j] l1 IH]; intros l2 t t' H; cbn [app dec_tx_fields] in *; [by injection H as ->|].
  match goal with |- context [mbind _ ?x] => destruct x as [t1| |] end; [|done|done]. cbn [mbind outcome_bind] in *. by apply IH.
Qed.

Lemma empty_len v : (String.length v =? 0) = true → v = "".
Proof. by destruct v. Qed.

Lemma str_field_step k v t t' :
  (∀ s, dec_tx_fields t [(fix_str k, JStr s)] = Ok (t' s)) → t' "" = t →
  dec_tx_fields t (fields_json (str_field k v)) = Ok (t' (fix_str v)).
Proof.
  intros H H0. unfold str_field, omit. destruct (String.length v =? 0) eqn:E.
  - apply empty_len in E as ->. change (fix_str "") with "". by rewrite H0.
  - cbn [fields_json map fst snd norm]. apply H.
Qed.

Lemma dec_tx_json t : in_int64 (tx_time t) → dec_tx (norm (tx_json t)) = Ok (fix_tx t).
Proof.
  intros Hi. unfold tx_json. cbn [norm dec_tx]. fold (fields_json). change (map (λ p : string * json, (fix_str p.1, norm p.2))) with fields_json. rewrite !fields_json_app.
  rewrite (dec_tx_app _ _ _ (mk_tx (tx_time t) "" "" "" "")).
  2:{ unfold omit. destruct (Z.eqb_spec (tx_time t) 0) as [->|Hz]; [done|]. cbn [fields_json map fst snd norm dec_tx_fields].
      change (EqualFold (fix_str "time") "time") with true. cbv iota. cbn [dec_int]. by rewrite ParseInt_FormatInt. }
  rewrite (dec_tx_app _ _ _ (mk_tx (tx_time t) (fix_str (tx_kind t)) "" "" "")).
  2:{ by apply (str_field_step _ _ _ (λ s, mk_tx (tx_time t) s "" "" "")). }
  rewrite (dec_tx_app _ _ _ (mk_tx (tx_time t) (fix_str (tx_kind t)) (fix_str (tx_uuid t)) "" "")).
  2:{ by apply (str_field_step _ _ _ (λ s, mk_tx (tx_time t) (fix_str (tx_kind t)) s "" "")). }
  rewrite (dec_tx_app _ _ _ (mk_tx (tx_time t) (fix_str (tx_kind t)) (fix_str (tx_uuid t)) (fix_str (tx_key t)) "")).
  2:{ by apply (str_field_step _ _ _ (λ s, mk_tx (tx_time t) (fix_str (tx_kind t)) (fix_str (tx_uuid t)) s "")). }
  by apply (str_field_step _ _ _ (λ s, mk_tx (tx_time t) (fix_str (tx_kind t)) (fix_str (tx_uuid t)) (fix_str (tx_key t)) s)).
Qed.
Lemma dec_txs_json l : Forall (λ t, in_int64 (tx_time t)) l → dec_txs (map norm (tx_json <$> l)) = Ok (fix_tx <$> l).
Proof.
  induction 1 as [|t l Ht _ IH]; [done|]. cbn [fmap list_fmap map dec_txs]. rewrite dec_tx_json by done. cbn [mbind outcome_bind].
  change (list_fmap tx json tx_json l) with (tx_json <$> l). rewrite IH. done.
Qed.

(** ** Snapshots *)

Definition load_entry (e : entry) : entry :=
  foldl (λ m p, <[fix_str p.1 := fix_str p.2]> m) ∅ (sorted_bindings e).
Definition load_snapshot (m : snapshot) : snapshot :=
  foldl (λ m p, <[fix_str p.1 := load_entry p.2]> m) ∅ (sorted_bindings m).

Lemma dec_entry_json e : dec_entry (norm (entry_json e)) = Ok (load_entry e).
Proof.
  unfold entry_json, load_entry. cbn [norm dec_entry]. generalize (∅ : entry). induction (sorted_bindings e) as [|[k v] l IH]; intros m; [done|].
  cbn [fmap list_fmap map fst snd norm dec_entry_fields dec_str]. cbn [mbind outcome_bind foldl fst snd]. apply IH.
Qed.
Lemma dec_snapshot_json m old : dec_snapshot (norm (snapshot_json m)) old = Ok (Some (foldl (λ m p, <[fix_str p.1 := load_entry p.2]> m) (default ∅ old) (sorted_bindings m))).
Proof.
  unfold snapshot_json. cbn [norm dec_snapshot]. generalize (default ∅ old : snapshot). induction (sorted_bindings m) as [|[k e] l IH]; intros m0; [done|].
  cbn [fmap list_fmap map fst snd dec_snapshot_fields]. rewrite dec_entry_json. cbn [mbind outcome_bind foldl fst snd]. apply IH.
Qed.

(** Reading the bindings back in any order. *)
Lemma foldl_insert {A} (l : list (string * A)) : ∀ m0 : gmap string A, NoDup l.*1 →
  foldl (λ m p, <[p.1 := p.2]> m) m0 l = list_to_map l ∪ m0.
Proof.
  induction l as [|[k v] l IH]; intros m0 Hnd; [cbn; by rewrite (left_id_L ∅ _)|].
  cbn [fmap list_fmap fst] in Hnd. apply NoDup_cons in Hnd as [Hk Hnd]. cbn [foldl fst snd]. rewrite IH by done. cbn [list_to_map foldr fst snd uncurry].
  change (foldr _ ∅ l) with (list_to_map l : gmap string A). rewrite <-insert_union_l, <-insert_union_r; [done|].
  by apply not_elem_of_list_to_map_1.
Qed.
Lemma sorted_perm {A} (m : gmap string A) : sorted_bindings m ≡ₚ map_to_list m.
Proof. apply merge_sort_Permutation. Qed.
Lemma foldl_sorted {A} (m : gmap string A) : foldl (λ m p, <[p.1 := p.2]> m) ∅ (sorted_bindings m) = m.
Proof.
  assert (NoDup (sorted_bindings m).*1) as Hnd by (rewrite sorted_perm; apply NoDup_fst_map_to_list).
  rewrite foldl_insert by done. rewrite (right_id_L ∅ (∪)). rewrite (list_to_map_proper _ (map_to_list m)); [apply list_to_map_to_list|done|apply sorted_perm].
Qed.
Lemma foldl_ext_elem {A B} (f g : A → B → A) l : (∀ a x, x ∈ l → f a x = g a x) → ∀ a, foldl f a l = foldl g a l.
Proof.
  induction l as [|x l IH]; intros H a; [done|]. cbn [foldl]. rewrite H by left. apply IH. intros b y Hy. apply H. by right.
Qed.
Lemma load_entry_id e : entry_utf8 e → load_entry e = e.
Proof.
  intros He. unfold load_entry. rewrite (foldl_ext_elem _ (λ m p, <[p.1 := p.2]> m)); [apply foldl_sorted|].
  intros m [k v] Hin. rewrite sorted_perm in Hin. apply elem_of_map_to_list in Hin. destruct (He k v Hin) as [Hk Hv]. cbn [fst snd].
  by rewrite (proj1 (fix_utf8 _) Hk), (proj1 (fix_utf8 _) Hv).
Qed.
Lemma load_snapshot_id m : snapshot_utf8 m → load_snapshot m = m.
Proof.
  intros Hm. unfold load_snapshot. rewrite (foldl_ext_elem _ (λ m p, <[p.1 := p.2]> m)); [apply foldl_sorted|].
  intros m' [k e] Hin. rewrite sorted_perm in Hin. apply elem_of_map_to_list in Hin. destruct (Hm k e Hin) as [Hk He]. cbn [fst snd].
  by rewrite (proj1 (fix_utf8 _) Hk), load_entry_id.
Qed.

(** ** The store *)

Lemma wf_tx t : Proof_Json.wf (tx_json t).
Proof.
  unfold tx_json, str_field, omit. cbn [Proof_Json.wf].
  destruct (tx_time t =? 0)%Z, (String.length (tx_kind t) =? 0), (String.length (tx_uuid t) =? 0), (String.length (tx_key t) =? 0), (String.length (tx_value t) =? 0);
    cbn [app fold_right snd Proof_Json.wf]; repeat split; apply lit_FormatInt.
Qed.
Lemma wf_entry e : Proof_Json.wf (entry_json e).
Proof. unfold entry_json. cbn [Proof_Json.wf]. induction (sorted_bindings e) as [|p l IH]; [done|]. cbn. done. Qed.
Lemma wf_snapshot m : Proof_Json.wf (snapshot_json m).
Proof. unfold snapshot_json. cbn [Proof_Json.wf]. induction (sorted_bindings m) as [|p l IH]; [done|]. cbn [fmap list_fmap fold_right snd]. split; [apply wf_entry|done]. Qed.
Lemma wf_db d : Proof_Json.wf (db_json d).
Proof.
  unfold db_json, omit. cbn [Proof_Json.wf].
  assert (Proof_Json.wf (JArr (tx_json <$> vis (db_log d)))) as Hl.
  { cbn [Proof_Json.wf]. induction (vis (db_log d)) as [|t l IH]; [done|]. cbn [fmap list_fmap fold_right]. split; [apply wf_tx|done]. }
  pose proof (wf_snapshot (snap_of d)). pose proof (lit_FormatInt (Z.of_nat (db_version d))).
  destruct (db_version d =? 0), (size (snap_of d) =? 0), (length (vis (db_log d)) =? 0); cbn [app fold_right snd]; repeat (apply conj; [assumption|]); exact I.
Qed.

Definition load_log (l : list tx) : slice tx :=
  if length l =? 0 then slice_nil else mk_slice (fix_tx <$> l) (replicate (json_cap (length l) - length l) tx_zero).
Definition loaded (d : db) : db :=
  mk_db (db_version d) (if size (snap_of d) =? 0 then None else Some (load_snapshot (snap_of d))) (load_log (vis (db_log d))) 0.

Lemma dec_db_app l1 : ∀ l2 t t', dec_db_fields t l1 = Ok t' → dec_db_fields t (l1 ++ l2) = dec_db_fields t' l2.
Proof.
  induction l1 as [|[k j] l1 IH]; intros l2 t t' H; cbn [app dec_db_fields] in *; [by injection H as ->|].
  match goal with |- context [mbind _ ?x] => destruct x as [t1| |] end; [|done|done]. cbn [mbind outcome_bind] in *. by apply IH.
Qed.
Lemma parse_digits_nat n : parse_digits 0 (FormatInt (Z.of_nat n)) = Some (Z.of_nat n).
Proof.
  destruct n as [|n]; [done|]. change (Z.of_nat (S n)) with (Z.pos (Pos.of_succ_nat n)).
  assert (FormatInt (Z.pos (Pos.of_succ_nat n)) = pretty_N_go (N.pos (Pos.of_succ_nat n)) "") as -> by done. rewrite parse_pretty_go by lia. done.
Qed.

Lemma dec_db_json d : db_fits d → dec_db_fields db_new (fields_json (match db_json d with JObj l => l | _ => [] end)) = Ok (loaded d).
Proof.
  intros [Hv Ht]. unfold db_json. rewrite !fields_json_app.
  rewrite (dec_db_app _ _ _ (mk_db (db_version d) None slice_nil 0)).
  2:{ unfold omit. destruct (Nat.eqb_spec (db_version d) 0) as [->|Hz]; [done|]. cbn [fields_json map fst snd norm dec_db_fields].
      change (EqualFold (fix_str "version") "version") with true. cbv iota. cbn [dec_uint]. rewrite parse_digits_nat. rewrite (proj2 (Z.ltb_lt _ _)) by lia.
      cbn [mbind outcome_bind]. by rewrite Nat2Z.id. }
  rewrite (dec_db_app _ _ _ (mk_db (db_version d) (db_snapshot (loaded d)) slice_nil 0)).
  2:{ unfold omit, loaded. cbn [db_snapshot]. destruct (size (snap_of d) =? 0); [done|]. cbn [fields_json map fst snd dec_db_fields].
      change (EqualFold (fix_str "snapshot") "version") with false. change (EqualFold (fix_str "snapshot") "snapshot") with true. cbv iota.
      cbn [db_snapshot]. rewrite dec_snapshot_json. done. }
  unfold omit, loaded. cbn [db_snapshot]. unfold load_log. destruct (length (vis (db_log d)) =? 0); [done|]. cbn [fields_json map fst snd dec_db_fields].
  change (EqualFold (fix_str "log") "version") with false. change (EqualFold (fix_str "log") "snapshot") with false. change (EqualFold (fix_str "log") "log") with true. cbv iota.
  cbn [norm dec_log]. rewrite dec_txs_json by done. cbn [mbind outcome_bind]. rewrite fmap_length. done.
Qed.

Lemma New_Save d b : db_fits d → Save d = Ok b → New b = Ok (Some (loaded d)).
Proof.
  intros Hf. unfold Save, save_guard. destruct (db_txpoint d =? 0) eqn:E; [|done]. cbn [mbind outcome_bind]. intros Hb. apply Ok_eq in Hb. subst.
  unfold New. rewrite bytes_string_str. rewrite parse_json_print by apply wf_db.
  pose proof (dec_db_json d Hf) as Hd. unfold db_json in *. cbn [norm]. change (map (λ p : string * json, (fix_str p.1, norm p.2))) with fields_json.
  rewrite Hd. done.
Qed.

(** ** New and NewLog *)
Lemma dec_fields_log l : ∀ d d', dec_db_fields d l = Ok d' → dec_log_fields (db_log d) l = Ok (db_log d').
Proof.
  induction l as [|[k j] l IH]; intros d d' H; cbn [dec_db_fields dec_log_fields] in *; [by injection H as ->|].
  destruct (EqualFold k "version") eqn:E1.
  - assert (EqualFold k "log" = false) as ->.
    { destruct (EqualFold k "log") eqn:E; [|done]. unfold EqualFold in *. change (runes "log") with [108; 111; 103]%Z in E. change (runes "version") with [118; 101; 114; 115; 105; 111; 110]%Z in E1.
      destruct (runes k) as [|a [|b [|c [|x r]]]]; cbn in *; try done; repeat (apply andb_true_iff in E1 as [_ E1]; try done); repeat (apply andb_true_iff in E as [_ E]; try done). }
    destruct (dec_uint j (db_version d)) as [v| |]; [|done|done]. cbn [mbind outcome_bind] in *. by apply IH in H.
  - destruct (EqualFold k "snapshot") eqn:E2.
    + assert (EqualFold k "log" = false) as ->.
      { destruct (EqualFold k "log") eqn:E; [|done]. unfold EqualFold in *. change (runes "log") with [108; 111; 103]%Z in E. change (runes "snapshot") with [115; 110; 97; 112; 115; 104; 111; 116]%Z in E2.
        destruct (runes k) as [|a [|b [|c [|x r]]]]; cbn in *; try done; repeat (apply andb_true_iff in E2 as [_ E2]; try done); repeat (apply andb_true_iff in E as [_ E]; try done). }
      destruct (dec_snapshot j (db_snapshot d)) as [v| |]; [|done|done]. cbn [mbind outcome_bind] in *. by apply IH in H.
    + destruct (EqualFold k "log"); cbn [mbind outcome_bind] in *; [|by apply IH in H].
      destruct (dec_log j (db_log d)) as [v| |]; [|done|done]. cbn [mbind outcome_bind] in *. by apply IH in H.
Qed.
Lemma New_NewLog b d : New b = Ok (Some d) → NewLog b = Ok (db_log d).
Proof.
  unfold New, NewLog. destruct (parse_json (bytes_string b)) as [[]|]; try done.
  destruct (dec_db_fields db_new l) as [d'| |] eqn:E; [|done|done]. cbn [mbind outcome_bind]. intros Hb. apply Ok_eq in Hb. subst.
  injection Hb as <-. by apply dec_fields_log in E.
Qed.

(** ** Consequences *)
Lemma utf8_dec_fix s : utf8 s ↔ fix_str s = s.
Proof. apply fix_utf8. Qed.
Lemma fix_tx_utf8 t : fix_tx t = t ↔ tx_utf8 t.
Proof.
  unfold tx_utf8. rewrite !utf8_dec_fix. destruct t as [a b c d e]. unfold fix_tx. cbn [tx_time tx_kind tx_uuid tx_key tx_value]. split.
  - intros H. injection H. intros H1 H2 H3 H4. done.
  - intros (-> & -> & -> & ->). done.
Qed.
Lemma fix_txs_utf8 l : fix_tx <$> l = l ↔ Forall tx_utf8 l.
Proof.
  induction l as [|t l IH]; [done|]. rewrite Forall_cons. rewrite <-IH, <-fix_tx_utf8. cbn [fmap list_fmap]. split.
  - intros H. injection H as H1 H2. done.
  - intros [H1 H2]. rewrite H1. f_equal. apply H2.
Qed.
Lemma vis_load_log l : vis (load_log l) = fix_tx <$> l.
Proof. unfold load_log. by destruct l. Qed.
Lemma snap_loaded d : snapshot_utf8 (snap_of d) → snap_of (loaded d) = snap_of d.
Proof.
  intros H. unfold loaded, snap_of at 1. cbn [db_snapshot]. destruct (size (snap_of d) =? 0) eqn:E.
  - apply Nat.eqb_eq in E. apply map_size_empty_inv in E. by rewrite E.
  - cbn. by apply load_snapshot_id.
Qed.
Lemma Save_same d d' : db_version d = db_version d' → snap_of d = snap_of d' → vis (db_log d) = vis (db_log d') → db_txpoint d = 0 → db_txpoint d' = 0 → Save d = Save d'.
Proof. intros H1 H2 H3 H4 H5. unfold Save, save_guard, db_json. by rewrite H1, H2, H3, H4, H5. Qed.
Lemma Save_txpoint d b : Save d = Ok b → db_txpoint d = 0.
Proof. unfold Save, save_guard. destruct (Nat.eqb_spec (db_txpoint d) 0); done. Qed.
Lemma loaded_same d : db_utf8 d → snap_of (loaded d) = snap_of d ∧ vis (db_log (loaded d)) = vis (db_log d).
Proof.
  intros [Hs Hl]. split; [by apply snap_loaded|]. cbn [loaded db_log]. rewrite vis_load_log. by apply fix_txs_utf8.
Qed.
