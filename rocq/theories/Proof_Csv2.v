(** What is written is read back; text stays text; importing what was read. *)
From Verif Require Import Spec_Csv Spec_Json Proof_GoStr Proof_Export Proof_Session2 Proof_Text Proof_Import Proof_Csv.
From Coq Require Import Lia.
From stdpp Require Import options.
Import Model_GoStr.
#[local] Open Scope nat_scope.

(** ** Reading what encoding/csv writes *)

Lemma crlf_cons c r : c ≠ cr → crlf (String c r) = String c (crlf r).
Proof. intros H. cbn [crlf]. by rewrite (proj2 (Ascii.eqb_neq c cr) H). Qed.
Lemma crlf_none s : clear_of cr s → crlf s = s.
Proof. induction s as [|c s IH]; [done|]. intros [H1 H]%clear_of_cons. rewrite crlf_cons by done. by rewrite IH. Qed.
Lemma unix_none s : clear_of cr s → unix s = s.
Proof. induction s as [|c s IH]; [done|]. intros [H1 H]%clear_of_cons. rewrite unix_cons by done. by rewrite IH. Qed.
Lemma unix_cr d r : unix (String cr (String d r)) = if Ascii.eqb d lf then unix (String d r) else String cr (unix (String d r)). Proof. done. Qed.
Lemma crlf_cr d r : crlf (String cr (String d r)) = if Ascii.eqb d lf then crlf (String d r) else String cr (crlf (String d r)). Proof. done. Qed.
Lemma unix_before a : ∀ c b, c ≠ lf → unix (a +:+ String c b) = crlf a +:+ unix (String c b).
Proof.
  induction a as [|x a IH]; intros c b Hc; [done|]. change (String x a +:+ String c b) with (String x (a +:+ String c b)).
  destruct (decide (x = cr)) as [->|Hx]; [|rewrite unix_cons, crlf_cons by done; by rewrite IH]. specialize (IH c b Hc). destruct a as [|y a].
  - change ("" +:+ String c b) with (String c b). rewrite unix_cr. by rewrite (proj2 (Ascii.eqb_neq c lf) Hc).
  - change (String y a +:+ String c b) with (String y (a +:+ String c b)) in *. rewrite unix_cr, crlf_cr. destruct (Ascii.eqb_spec y lf) as [->|Hy]; [done|]. by rewrite IH.
Qed.
Lemma unix_plain a b : clear_of cr a → unix (a +:+ b) = a +:+ unix b.
Proof.
  induction a as [|x a IH]; [done|]. intros [Hx Ha]%clear_of_cons. change (String x a +:+ b) with (String x (a +:+ b)). rewrite unix_cons by done. by rewrite IH.
Qed.
Lemma quoted_head y f c u : c ≠ quote → quoted (String y f) = String c u → y = c.
Proof. cbn [quoted]. destruct (Ascii.eqb_spec y quote) as [->|Hy]; intros Hc [=]; congruence. Qed.
Lemma crlf_quoted f : crlf (quoted f) = quoted (crlf f).
Proof.
  induction f as [|c f IH]; [done|]. cbn [quoted]. destruct (Ascii.eqb_spec c quote) as [->|Hq].
  - rewrite !crlf_cons by done. rewrite IH. done.
  - destruct (decide (c = cr)) as [->|Hc].
    + destruct f as [|y f]; [done|]. rewrite crlf_cr. cbn [quoted] in IH |- *. destruct (Ascii.eqb_spec y quote) as [->|Hy].
      * rewrite crlf_cr. change (Ascii.eqb quote lf) with false. cbv iota. rewrite IH. done.
      * rewrite crlf_cr. destruct (Ascii.eqb_spec y lf) as [->|Hl]; [exact IH|]. rewrite IH. done.
    + rewrite !crlf_cons by done. cbn [quoted]. rewrite (proj2 (Ascii.eqb_neq c quote) Hq). by rewrite IH.
Qed.
Lemma special_bare f : existsb special (str_bytes f) = false → bare f ∧ clear_of cr f.
Proof.
  induction f as [|c f IH]; intros H; [split; [split; [|split]|]; apply clear_of_nil|].
  unfold str_bytes in H. cbn [String.list_ascii_of_string existsb] in H. apply orb_false_elim in H as [Hc H].
  apply special_false in Hc as (H1 & H2 & H3 & H4). apply Ascii.eqb_neq in H1, H2, H3, H4. destruct (IH H) as [Hb Hr]. split; [by apply bare_cons|by apply clear_of_cons].
Qed.
Lemma field_written f u : ∃ t, field_text (crlf f) t ∧ unix (csv_field f +:+ u) = t +:+ unix u ∧ (t = "" → f = "").
Proof.
  unfold csv_field. destruct (fieldNeedsQuotes f) eqn:Eq.
  - exists (String quote (quoted (crlf f) +:+ String quote "")). split; [by right|]. split; [|done].
    change (String quote (quoted f +:+ String quote "") +:+ u) with (String quote ((quoted f +:+ String quote "") +:+ u)). rewrite sapp_assoc. rewrite unix_cons by done.
    change (String quote "" +:+ u) with (String quote u). rewrite unix_before by done. rewrite crlf_quoted, unix_cons by done.
    change (String quote (quoted (crlf f) +:+ String quote "") +:+ unix u) with (String quote ((quoted (crlf f) +:+ String quote "") +:+ unix u)). by rewrite sapp_assoc.
  - assert (bare f ∧ clear_of cr f) as [Hb Hr].
    { destruct f as [|x f]; [split; [split; [|split]|]; apply clear_of_nil|]. apply special_bare. unfold fieldNeedsQuotes in Eq. change (String.eqb (String x f) "") with false in Eq. cbv iota in Eq.
      destruct (String.eqb (String x f) "\."); [done|]. by destruct (existsb special (str_bytes (String x f))). }
    exists f. rewrite crlf_none by done. split; [left; split; [done|apply Hb]|]. split; [by apply unix_plain|done].
Qed.
Lemma record_written fs : fs ≠ [] → ∀ u, ∃ t, record_text (map crlf fs) t ∧ unix (csv_record fs +:+ u) = t +:+ String lf (unix u) ∧ (t = "" → fs = [""]).
Proof.
  unfold csv_record. induction fs as [|f fs IH]; [done|]. intros _ u. destruct fs as [|g fs].
  - cbn [map]. rewrite join_one, sapp_assoc. destruct (field_written f (String lf "" +:+ u)) as (t & Ht & E & Hn). exists t. split; [by apply record_one|]. split; [exact E|]. intros ->. by rewrite (Hn eq_refl).
  - destruct (IH ltac:(done) u) as (ts & Hts & E & Hn). cbn [map] in *. rewrite join_cons by done. rewrite sapp_assoc.
    destruct (field_written f (String comma (go_join (String comma "") (csv_field g :: map csv_field fs)) +:+ String lf "" +:+ u)) as (t & Ht & E2 & Hn2).
    exists (t +:+ String comma ts). split; [by apply record_more|]. split; [|by destruct t]. change (String comma "" +:+ ?x) with (String comma x). rewrite sapp_assoc.
    rewrite E2. change (String comma ?x +:+ ?y) with (String comma (x +:+ y)). rewrite unix_cons by done. rewrite <-(sapp_assoc _ (String lf "") u). rewrite E. rewrite sapp_assoc. done.
Qed.
Lemma written_text rows : Forall (λ r, r ≠ [] ∧ r ≠ [""]) rows → csv_text (unix (go_join "" (map csv_record rows))) (map (map crlf) rows).
Proof.
  induction 1 as [|r rows [Hr Hb] _ IH]; [constructor|]. cbn [map]. rewrite join_empty. destruct (record_written r Hr (go_join "" (map csv_record rows))) as (t & Ht & E & Hn).
  rewrite E. apply csv_line; [done| |done]. intros ->. by apply Hb, Hn.
Qed.

(** ** Text stays text *)

Lemma ascii_start c s : (byteZ c < 128)%Z → starts (String c s).
Proof. intros H. cbn. unfold cont. lia. Qed.
Lemma utf8_at c a b : (byteZ c < 128)%Z → utf8 (a +:+ String c b) → utf8 a ∧ utf8 b.
Proof. intros Hc H. apply utf8_split in H as [H1 H2]; [|by apply ascii_start]. split; [done|by eapply utf8_tail]. Qed.
Lemma chop_cases c s : chop c s = s ∨ s = chop c s +:+ String c "".
Proof.
  induction s as [|x s IH]; [by left|]. cbn [chop]. destruct s as [|y s].
  - destruct (Ascii.eqb_spec x c) as [->|_]; [by right|by left].
  - destruct IH as [->|IH]; [by left|right]. by rewrite IH at 1.
Qed.
Lemma utf8_chop c s : (byteZ c < 128)%Z → utf8 s → utf8 (chop c s).
Proof. intros Hc H. destruct (chop_cases c s) as [->|E]; [done|]. rewrite E in H. by apply utf8_at in H as [? _]. Qed.
Lemma utf8_unix n : ∀ s, String.length s < n → utf8 s → utf8 (unix s).
Proof.
  induction n as [|n IH]; intros s Hn Hs; [lia|]. destruct (around lf s) as [[a b]|] eqn:E.
  - apply around_some in E as [-> Ha]. rewrite unix_line by done. apply utf8_at in Hs as [H1 H2]; [|done]. rewrite sapp_length in Hn. cbn [String.length] in Hn.
    apply utf8_app; [by apply utf8_chop|]. apply utf8_cons; [done|]. apply IH; [lia|done].
  - apply around_none in E. rewrite unix_end by done. by apply utf8_chop.
Qed.
Lemma quoted_app a b : quoted (a +:+ b) = quoted a +:+ quoted b.
Proof.
  induction a as [|x a IH]; [done|]. change (String x a +:+ b) with (String x (a +:+ b)). cbn [quoted]. rewrite IH. by destruct (Ascii.eqb x quote).
Qed.
Lemma quoted_none a : clear_of quote a → quoted a = a.
Proof. induction a as [|x a IH]; [done|]. intros [Hx Ha]%clear_of_cons. cbn [quoted]. rewrite (proj2 (Ascii.eqb_neq x quote) Hx). by rewrite IH. Qed.
Lemma utf8_quoted n : ∀ f, String.length f < n → utf8 (quoted f) → utf8 f.
Proof.
  induction n as [|n IH]; intros f Hn Hf; [lia|]. destruct (around quote f) as [[a b]|] eqn:E.
  - apply around_some in E as [-> Ha]. rewrite quoted_app, (quoted_none a) in Hf by done. cbn [quoted] in Hf. change (Ascii.eqb quote quote) with true in Hf. cbv iota in Hf.
    apply utf8_at in Hf as [H1 H2]; [|done]. apply utf8_tail in H2; [|done]. rewrite sapp_length in Hn. cbn [String.length] in Hn.
    apply utf8_app; [done|]. apply utf8_cons; [done|]. apply IH; [lia|done].
  - apply around_none in E. by rewrite quoted_none in Hf.
Qed.
Lemma utf8_field f t : field_text f t → utf8 t → utf8 f.
Proof.
  intros [[-> _]| ->] H; [done|]. apply utf8_tail in H; [|done]. apply utf8_at in H as [H _]; [|done]. by apply (utf8_quoted (S (String.length f))); [lia|].
Qed.
Lemma utf8_record fs : ∀ t, record_text fs t → utf8 t → Forall utf8 fs.
Proof.
  induction fs as [|f fs IH]; intros t Ht Hu; [constructor|]. apply record_inv in Ht as (ft & Hf & [[-> ->]|(ts & Hts & ->)]).
  - constructor; [by eapply utf8_field|constructor].
  - apply utf8_at in Hu as [H1 H2]; [|done]. constructor; [by eapply utf8_field|by eapply IH].
Qed.
Lemma utf8_csv T rows : csv_text T rows → utf8 T → Forall (Forall utf8) rows.
Proof.
  induction 1 as [|T rows _ IH|fs t Ht Hne|fs t T rows Ht Hne _ IH]; intros H.
  - constructor.
  - apply IH. by eapply utf8_tail in H.
  - constructor; [by eapply utf8_record|constructor].
  - apply utf8_at in H as [H1 H2]; [|done]. constructor; [by eapply utf8_record|by apply IH].
Qed.

(** ** Importing what was read *)

Lemma split_app c a b : split_on c (a +:+ String c b) = split_on c a ++ split_on c b.
Proof.
  induction a as [|x a IH]; [cbn; by rewrite Ascii.eqb_refl|]. change (String x a +:+ String c b) with (String x (a +:+ String c b)). cbn [split_on].
  rewrite IH. destruct (Ascii.eqb x c); [done|]. destruct (split_on c a) as [|y l] eqn:E; [|done]. by apply split_on_ne in E.
Qed.
Lemma split_join c l : l ≠ [] → split_on c (go_join (String c "") l) = concat (map (split_on c) l).
Proof.
  induction l as [|x l IH]; [done|]. intros _. destruct l as [|y l]; [cbn; by rewrite app_nil_r|]. rewrite join_cons by done.
  change (String c "" +:+ ?s) with (String c s). rewrite split_app, IH by done. done.
Qed.
Lemma split_more c l : length (concat (map (split_on c) l)) ≤ length l → concat (map (split_on c) l) = l.
Proof.
  assert (∀ x, 1 ≤ length (split_on c x)) as H1 by (intros x; destruct (split_on c x) eqn:E; [by apply split_on_ne in E|cbn; lia]).
  assert (∀ l, length l ≤ length (concat (map (split_on c) l))) as H2.
  { intros l0. induction l0 as [|x l0 IH]; [done|]. cbn [map concat]. rewrite app_length. cbn [length]. specialize (H1 x). lia. }
  induction l as [|x l IH]; [done|]. cbn [map concat]. rewrite app_length. cbn [length]. intros H. specialize (H2 l). pose proof (H1 x) as H1x.
  rewrite IH by lia. destruct (split_on c x) as [|y [|z r]] eqn:E; cbn [length] in *; [lia| |lia]. cbn. f_equal. rewrite <-(join_split c x), E. done.
Qed.
Lemma header_fields r : go_join "," r = header → length r = 7 → r = fields_of header_row.
Proof.
  intros H Hl. assert (r ≠ []) as Hne by (by destruct r). pose proof (split_join comma r Hne) as E. change (go_join (String comma "") r) with (go_join "," r) in E. rewrite H in E.
  assert (split_on comma header = fields_of header_row) as Eh by (vm_compute; reflexivity). rewrite Eh in E. rewrite <-(split_more comma r); [done|]. rewrite <-E. by rewrite Hl.
Qed.
Lemma fields_seven r : length r = 7 → ∃ x, r = fields_of x.
Proof.
  intros H. destruct r as [|a [|b [|c [|d [|e [|f [|g [|]]]]]]]]; try done. by exists (mk_lp a b c d e f g).
Qed.

(** What was imported when reading ended *)
Lemma loop_any lower E last rows : ∀ i d m, i ≠ 0 → holds d m → all_named m → (∀ j, fair (E j)) →
  (∀ j, i ≤ j → unused d (e_uuid (E (2 * j)))) → (∀ j k, e_uuid (E (2 * j)) = e_uuid (E (2 * k)) → j = k) →
  ∃ rs m' d' r, import_loop lower E i 7 rows last d = (d', r) ∧ imports lower E i rs m m' ∧ holds d' m' ∧ db_txpoint d' = db_txpoint d ∧
    (r = Ok tt ∧ last = None ∧ rows = map fields_of rs ∨ (∃ x, r = Fail x) ∧ ∃ more, rows = map fields_of rs ++ more).
Proof.
  induction rows as [|r rows IH]; intros i d m Hi Hh Ha Hf Hu Hd.
  - exists [], m, d, (match last with None => Ok tt | Some x => Fail x end). split; [cbn [import_loop]; by destruct last|]. split; [constructor|]. split; [done|]. split; [done|].
    destruct last as [x|]; [right|by left]. split; [by eexists|by exists []].
  - cbn [import_loop]. destruct (Nat.eqb_spec (length r) 7) as [H7|H7]; cbn [negb].
    2:{ exists [], m, d, (Fail (EMsg "wrong number of fields")). split; [done|]. split; [constructor|]. split; [done|]. split; [done|]. right. split; [by eexists|by exists (r :: rows)]. }
    destruct (fields_seven r H7) as [x ->]. rewrite (proj2 (Nat.eqb_neq i 0) Hi). cbn [andb].
    destruct (record_ok lower (E (2 * i)) (E (2 * i + 1)) x d m Hh Ha (Hf _) (Hu i ltac:(lia))) as (n & d1 & E1 & Hn & Hh1 & Ht1 & l & Hl & Hab).
    destruct (IH (S i) d1 (<[e_uuid (E (2 * i)) := imported lower (E (2 * i)) n x]> m) ltac:(lia) Hh1) as (rs & m' & d' & r & E2 & Him & Hh' & Ht' & Hr).
    + intros u b Hb. apply lookup_insert_Some in Hb as [[_ <-]|[_ Hb]]; [|by eapply Ha]. exists n. apply imported_name.
    + done.
    + intros j Hj. eapply fresh_keep; [exact Hl|exact Hab|apply about_uuid|apply Hu; lia|]. intros Heq. apply Hd in Heq. lia.
    + done.
    + exists (x :: rs), m', d', r. split; [unfold mbind, M_bind; by rewrite E1|]. split; [by econstructor|]. split; [done|]. split; [congruence|].
      destruct Hr as [(-> & -> & ->)|[Hx [more ->]]]; [by left|right]. split; [done|by exists more].
Qed.
Lemma import_any lower E rows last d m : holds d m → all_named m → (∀ j, fair (E j)) → fresh_uuids d E →
  (∀ r0, head rows = Some r0 → go_join "," r0 = header → length r0 = 7) →
  ∃ rs m' d' r, import_loop lower E 0 (first_fields rows) rows last d = (d', r) ∧ imports lower E 0 rs m m' ∧ holds d' m' ∧ db_txpoint d' = db_txpoint d ∧
    (r = Ok tt ∧ last = None ∧ rows = map fields_of rs ∨ (∃ x, r = Fail x) ∧ ∃ more, rows = map fields_of rs ++ more).
Proof.
  intros Hh Ha Hf [Hu Hd] H0. destruct rows as [|r rows].
  - exists [], m, d, (match last with None => Ok tt | Some x => Fail x end). split; [cbn [import_loop]; by destruct last|]. split; [constructor|]. split; [done|]. split; [done|].
    destruct last as [x|]; [right|by left]. split; [by eexists|by exists []].
  - cbn [import_loop first_fields]. rewrite Nat.eqb_refl. cbn [negb]. change (0 =? 0) with true. cbn [andb]. destruct (String.eqb_spec (go_join "," r) header) as [Eh|Eh]; cbn [negb].
    2:{ exists [], m, d, (Fail (EMsg "lastpass csv format not recognized")). split; [done|]. split; [constructor|]. split; [done|]. split; [done|]. right. split; [by eexists|by exists (r :: rows)]. }
    pose proof (H0 r eq_refl Eh) as H7. rewrite H7. apply header_fields in Eh as ->; [|done].
    destruct (record_ok lower (E 0) (E 1) header_row d m Hh Ha (Hf _) (Hu 0)) as (n & d1 & E1 & Hn & Hh1 & Ht1 & l & Hl & Hab).
    destruct (loop_any lower E last rows 1 d1 (<[e_uuid (E 0) := imported lower (E 0) n header_row]> m) ltac:(lia) Hh1) as (rs & m' & d' & r & E2 & Him & Hh' & Ht' & Hr).
    + intros u b Hb. apply lookup_insert_Some in Hb as [[_ <-]|[_ Hb]]; [|by eapply Ha]. exists n. apply imported_name.
    + done.
    + intros j Hj. eapply fresh_keep; [exact Hl|exact Hab|apply about_uuid|apply Hu; lia|]. intros Heq. apply (Hd 0 j) in Heq. lia.
    + done.
    + exists (header_row :: rs), m', d', r. split; [unfold mbind, M_bind; change (2 * 0) with 0; change (0 + 1) with 1; by rewrite E1|]. split; [by eapply (imports_cons lower E 0)|]. split; [done|]. split; [congruence|].
      destruct Hr as [(-> & -> & ->)|[Hx [more ->]]]; [by left|right]. split; [done|by exists more].
Qed.

(** The first line *)
Lemma first_record s rest rows last : unix s = header +:+ String lf rest ∨ unix s = header → csv_records s = (rows, last) → head rows = Some (fields_of header_row).
Proof.
  intros Hs. unfold csv_records. assert (record_text (fields_of header_row) header) as Hr.
  { split; [done|]. exists (fields_of header_row). split; [|vm_compute; reflexivity].
    unfold fields_of, header_row. cbn [lp_url lp_user lp_pass lp_extra lp_name lp_group lp_fav].
    repeat (constructor; [left; split; [reflexivity|]; split; [|split]; apply around_none; vm_compute; reflexivity|]). constructor. }
  assert (∃ R, ends header (unix s) R) as [R He] by (destruct Hs as [->| ->]; [exists rest; by left|exists ""; by right]).
  destruct (first_line s (fields_of header_row) header R Hr ltac:(done) He (String.length s)) as (r2 & E & _).
  rewrite E. destruct (readRecords _ r2) as [rs l]. by intros [= <- <-].
Qed.
