(** Proofs about export: the CSV written is read back exactly, and it is the
    table of the snapshot. *)
From Verif Require Import Spec_Export Proof_GoStr Proof_TxLog Proof_Blobs Proof_Repl3 Proof_Repl6.
From Coq Require Import Lia Sorting.Sorted.
From stdpp Require Import sorting options.

(** ** Writing and reading back *)

Lemma read_inside f : ∀ acc row t, csv_go Inside acc row (quoted f +:+ String quote t) = csv_go After (acc +:+ f) row t.
Proof.
  induction f as [|c f IH]; intros acc row t.
  - by rewrite sapp_nil.
  - cbn [quoted]. destruct (Ascii.eqb_spec c quote) as [->|Hc].
    + change (String quote (String quote (quoted f)) +:+ String quote t) with (String quote (String quote (quoted f +:+ String quote t))).
      cbn [csv_go]. change (Ascii.eqb quote (Zbyte 34)) with true. cbv iota. rewrite IH. by rewrite sapp_assoc.
    + change (String c (quoted f) +:+ String quote t) with (String c (quoted f +:+ String quote t)). cbn [csv_go].
      rewrite (proj2 (Ascii.eqb_neq c (Zbyte 34)) Hc). rewrite IH. by rewrite sapp_assoc.
Qed.
Lemma special_false c : special c = false → Ascii.eqb c (Zbyte 10) = false ∧ Ascii.eqb c (Zbyte 13) = false ∧ Ascii.eqb c (Zbyte 34) = false ∧ Ascii.eqb c (Zbyte 44) = false.
Proof. unfold special. intros H. apply orb_false_elim in H as [H ?]. apply orb_false_elim in H as [H ?]. apply orb_false_elim in H as [H ?]. done. Qed.
Lemma read_plain f : ∀ acc row t, existsb special (str_bytes f) = false → csv_go Plain acc row (f +:+ t) = csv_go Plain (acc +:+ f) row t.
Proof.
  induction f as [|c f IH]; intros acc row t H; [by rewrite sapp_nil|].
  unfold str_bytes in H. cbn [String.list_ascii_of_string existsb] in H. apply orb_false_elim in H as [Hc H].
  apply special_false in Hc as (H1 & H2 & H3 & H4).
  change (String c f +:+ t) with (String c (f +:+ t)). cbn [csv_go]. cbv zeta. rewrite H1, H2, H3, H4. rewrite IH by done. by rewrite sapp_assoc.
Qed.
Lemma read_field f row c t : c = comma ∨ c = lf → csv_go Start "" row (csv_field f +:+ String c t) =
  if Ascii.eqb c comma then csv_go Start "" (row ++ [f]) t
  else match csv_go Start "" [] t with Some r => Some ((row ++ [f]) :: r) | None => None end.
Proof.
  intros Hc. unfold csv_field. destruct (fieldNeedsQuotes f) eqn:Eq.
  - change (String quote (quoted f +:+ String quote "") +:+ String c t) with (String quote ((quoted f +:+ String quote "") +:+ String c t)).
    rewrite sapp_assoc. change (String quote "" +:+ String c t) with (String quote (String c t)).
    assert (∀ s, csv_go Start "" row (String quote s) = csv_go Inside "" row s) as -> by done.
    rewrite read_inside. by destruct Hc as [-> | ->].
  - destruct f as [|x f].
    + by destruct Hc as [-> | ->].
    + unfold fieldNeedsQuotes in Eq. change (String.eqb (String x f) "") with false in Eq. cbv iota in Eq.
      destruct (String.eqb (String x f) "\."); [done|]. destruct (existsb special (str_bytes (String x f))) eqn:Es; [done|]. clear Eq.
      unfold str_bytes in Es. cbn [String.list_ascii_of_string existsb] in Es. apply orb_false_elim in Es as [Hx Es].
      apply special_false in Hx as (H1 & H2 & H3 & H4).
      change (String x f +:+ String c t) with (String x (f +:+ String c t)).
      assert (csv_go Start "" row (String x (f +:+ String c t)) = csv_go Plain (String x "") row (f +:+ String c t)) as ->.
      { cbn [csv_go]. cbv zeta. rewrite H1, H2, H3, H4. done. }
      rewrite read_plain by done. change (String x "" +:+ f) with (String x f). by destruct Hc as [-> | ->].
Qed.
Lemma read_record fs : fs ≠ [] → ∀ row t, csv_go Start "" row (csv_record fs +:+ t) =
  match csv_go Start "" [] t with Some r => Some ((row ++ fs) :: r) | None => None end.
Proof.
  unfold csv_record. induction fs as [|f fs IH]; [done|]. intros _ row t. destruct fs as [|f2 fs].
  - cbn [map]. assert (go_join (String comma "") [csv_field f] = csv_field f) as -> by done.
    rewrite sapp_assoc. change (String lf "" +:+ t) with (String lf t). rewrite read_field by by right. done.
  - cbn [map]. rewrite join_cons by done. rewrite !sapp_assoc. change (String comma "" +:+ ?s) with (String comma s).
    rewrite read_field by by left. cbn [Ascii.eqb]. change (Ascii.eqb comma comma) with true. cbv iota.
    rewrite <-sapp_assoc. change (csv_field f2 :: map csv_field fs) with (map csv_field (f2 :: fs)). rewrite IH by done.
    by rewrite <-app_assoc.
Qed.
Lemma join_empty l : ∀ s, go_join "" (s :: l) = s +:+ go_join "" l.
Proof.
  destruct l as [|x l]; intros s; [by rewrite sapp_nil|]. rewrite join_cons by done. done.
Qed.
Lemma read_all rows : Forall (λ r, r ≠ []) rows → csv_read (go_join "" (map csv_record rows)) = Some rows.
Proof.
  unfold csv_read. induction 1 as [|r rows Hr _ IH]; [done|]. cbn [map]. rewrite join_empty, read_record by done. by rewrite IH.
Qed.

(** ** The table *)

Lemma keys_of_elem l k : k ∈ keys_of l ↔ ∃ p, p ∈ l ∧ is_Some (p.2 !! k).
Proof.
  induction l as [|p l IH]; cbn [keys_of foldr].
  - split; [by intros ?%elem_of_empty|]. intros (p & ?%elem_of_nil & _). done.
  - rewrite elem_of_union, elem_of_dom. fold (keys_of l). rewrite IH. split.
    + intros [H|(q & Hq & H)]; [by exists p; split; [left|]|exists q; split; [by right|done]].
    + intros (q & [->|Hq]%elem_of_cons & H); [by left|right; by exists q].
Qed.
Lemma export_table e kord d : fair e → fair_keys kord → table_of (snap_of d) (export_rows e kord d).
Proof.
  intros He Hk. unfold export_rows. cbv zeta. set (m := snap_of d).
  assert (∀ u b, (u, b) ∈ e_ord e 0 m ↔ m !! u = Some b) as Hord by (intros; by apply ord_elem).
  set (l := e_ord e 0 m) in *. set (ks := sort_strings (kord (keys_of l))). set (us := sort_strings l.*1).
  exists ks, us, (map (λ entry, map (λ key, default "" (default ∅ (m !! entry) !! key)) ks) us).
  split; [done|].
  assert (∀ u, u ∈ us ↔ is_Some (m !! u)) as Hus.
  { intros u. unfold us. rewrite (sort_strings_perm l.*1). rewrite elem_of_list_fmap. split.
    - intros ([v b] & -> & Hin). exists b. by apply Hord.
    - intros [b Hb]. exists (u, b). split; [done|]. by apply Hord. }
  split; [split|split; [split|split; [|split]]].
  - unfold ks. rewrite (sort_strings_perm _), (Hk _). apply NoDup_elements.
  - intros k. unfold ks. rewrite (sort_strings_perm _), (Hk _), elem_of_elements, keys_of_elem. split.
    + intros ([u b] & Hin & Hs). exists u, b. split; [by apply Hord|done].
    + intros (u & b & Hb & Hs). exists (u, b). split; [by apply Hord|done].
  - unfold us. rewrite (sort_strings_perm _). unfold l. rewrite (He 0%nat m). apply NoDup_fst_map_to_list.
  - exact Hus.
  - apply sort_strings_sorted.
  - apply sort_strings_sorted.
  - assert (∀ us', (∀ u, u ∈ us' → is_Some (m !! u)) → Forall2 (λ u row, row_of m ks u row) us' (map (λ entry, map (λ key, default "" (default ∅ (m !! entry) !! key)) ks) us')) as Hall.
    2:{ apply Hall. intros u Hu. by apply Hus. }
    induction us' as [|u us' IH]; intros H; [constructor|]. cbn [map]. constructor; [|apply IH; intros v Hv; apply H; by right].
    destruct (H u) as [b Hb]; [left|]. exists b. split; [done|]. rewrite Hb. cbn [default]. clear.
    induction ks as [|k ks IH]; cbn [map]; [constructor|]. by constructor.
Qed.
Lemma leb_cons a b s t : String.leb (String a s) (String b t) = true ↔
  (Ascii.N_of_ascii a < Ascii.N_of_ascii b)%N ∨ a = b ∧ String.leb s t = true.
Proof.
  unfold String.leb. cbn [String.compare]. unfold Ascii.compare. destruct (N.compare_spec (Ascii.N_of_ascii a) (Ascii.N_of_ascii b)) as [H|H|H].
  - split; [|intros [?|[_ ?]]; [lia|done]]. intros Hc. right. split; [|done].
    rewrite <-(Ascii.ascii_N_embedding a), <-(Ascii.ascii_N_embedding b). by rewrite H.
  - split; [by left|done].
  - split; [done|]. intros [?|[-> _]]; lia.
Qed.
Lemma leb_trans s : ∀ t u, String.leb s t = true → String.leb t u = true → String.leb s u = true.
Proof.
  induction s as [|a s IH]; intros [|b t] [|c u] H1 H2; try done.
  apply leb_cons in H1. apply leb_cons in H2. apply leb_cons.
  destruct H1 as [H1|[-> H1]], H2 as [H2|[-> H2]]; [left; lia|by left|by left|right; split; [done|by eapply IH]].
Qed.
Lemma sorted_unique l1 l2 : Sorted (λ a b, String.leb a b = true) l1 → Sorted (λ a b, String.leb a b = true) l2 →
  l1 ≡ₚ l2 → l1 = l2.
Proof.
  intros H1 H2. assert (AntiSymm (=) (λ a b, String.leb a b = true)) as Ha by (intros x y; apply String.leb_antisym).
  apply (StronglySorted_unique (λ a b, String.leb a b = true)).
  - apply Sorted_StronglySorted; [|done]. intros x y z. apply leb_trans.
  - apply Sorted_StronglySorted; [|done]. intros x y z. apply leb_trans.
Qed.
Lemma table_det m r1 r2 : table_of m r1 → table_of m r2 → r1 = r2.
Proof.
  intros (k1 & u1 & b1 & -> & [Nk1 K1] & [Nu1 U1] & Sk1 & Su1 & F1) (k2 & u2 & b2 & -> & [Nk2 K2] & [Nu2 U2] & Sk2 & Su2 & F2).
  assert (k1 = k2) as <-.
  { apply sorted_unique; [done|done|]. apply NoDup_Permutation; [done|done|]. intros k. by rewrite K1, K2. }
  assert (u1 = u2) as <-.
  { apply sorted_unique; [done|done|]. apply NoDup_Permutation; [done|done|]. intros u. by rewrite U1, U2. }
  f_equal. clear -F1 F2. revert b2 F2. induction F1 as [|u row us rows (b & Hb & Hr) _ IH]; intros b2 F2.
  - by inversion F2.
  - inversion F2 as [|? row2 ? rows2 (b' & Hb' & Hr') F]; subst. rewrite Hb in Hb'. injection Hb' as <-. f_equal; [|by apply IH].
    clear -Hr Hr'. revert row2 Hr'. induction Hr as [|k v ks row -> _ IH]; intros row2 H2; inversion H2; subst; [done|].
    f_equal. by apply IH.
Qed.
Lemma table_rows m rows : table_of m rows → all_named m → m ≠ ∅ → Forall (λ r, r ≠ []) rows.
Proof.
  intros (ks & us & body & -> & [_ Hk] & [_ Hu] & _ & _ & HF) Hn Hne.
  destruct (map_choose _ Hne) as (u & b & Hb). destruct (Hn _ _ Hb) as [n Hname].
  assert (ks ≠ []) as Hks. { intros ->. apply (not_elem_of_nil "name"). apply Hk. exists u, b. eauto. }
  constructor; [done|]. clear -HF Hks. induction HF as [|u row us body (b & _ & Hr) _ IH]; constructor; [|done].
  intros ->. by apply Forall2_nil_inv_r in Hr.
Qed.
Lemma table_size m ks body : table_of m (ks :: body) → length body = size m.
Proof.
  intros (k & us & b & [= <- <-] & _ & [Hn Hu] & _ & _ & HF). apply Forall2_length in HF. rewrite <-HF.
  assert (us ≡ₚ (map_to_list m).*1) as ->.
  { apply NoDup_Permutation; [done|apply NoDup_fst_map_to_list|]. intros u. rewrite Hu. split.
    - intros [x Hx]. apply elem_of_list_fmap. exists (u, x). split; [done|]. by apply elem_of_map_to_list.
    - intros ([v x] & -> & Hx%elem_of_map_to_list)%elem_of_list_fmap. by exists x. }
  by rewrite fmap_length.
Qed.

(** ** Which snapshot is exported *)

Lemma version_full d m : holds d m → db_version d = length (vis (db_log d)) → snap_of d = m.
Proof. intros [[Hv Hr] Hm] He. rewrite He, firstn_all in Hr. by eapply replays_det. Qed.
Lemma new_snap e j n d m d' u : holds d m → all_named m → fair e → unused d (e_uuid e) → Model_Blobs.New e j n d = (d', Ok u) →
  snap_of d' = m ∧ holds d' (<[u := new_entry e n]> m) ∧ m !! u = None.
Proof.
  intros Hh Ha Hf Hun HN. destruct (New_spec e j n d m Hh Ha Hf) as [(_ & d1 & H1 & _)|[_ H1]]; [congruence|].
  destruct (H1 Hun) as (d1 & H2 & H3 & _ & H4 & H5). rewrite HN in H2. injection H2 as <- ->.
  split; [|split; [done|exact (unused_lookup d m _ Hh Hun)]]. destruct H3 as [[_ Hr] _].
  rewrite H5, H4, take_app in Hr. destruct Hh as [_ Hm]. by eapply replays_det.
Qed.
