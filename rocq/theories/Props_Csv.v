(** C57, C58: the text of an export and of an import, as the reader of encoding/csv reads
    it.  Continues Props_Export and Props_Import. *)
From Verif Require Import Spec_Csv Spec_Json Spec_Export Model_TxLog Proof_GoStr Proof_Export Proof_Session2 Proof_Text Proof_Import Proof_Csv Proof_Csv2 Proof_SessionEx Proof_Repl6 Props_Import.
From Coq Require Import Lia.
From stdpp Require Import options.
Import Model_GoStr.
#[local] Open Scope nat_scope.

(** ** The reader *)

(** A text is read as the records it writes and nothing else is read: RFC 4180, where
    lines may end in LF or CR LF and empty lines are no records.  CR LF is LF everywhere. *)
Theorem C58_reads : ∀ s rows, csv_records s = (rows, None) ↔ csv_text (unix s) rows.
Proof. exact csv_reads. Qed.
Print Assumptions C58_reads.
Theorem C58_one_reading : ∀ s rows rows', csv_text s rows → csv_text s rows' → clear_of cr s → rows = rows'.
Proof.
  intros s rows rows' H1 H2 Hc. rewrite <-(unix_none s Hc) in H1, H2. apply csv_reads in H1, H2. congruence.
Qed.
Print Assumptions C58_one_reading.
(** Everything else is an error, not a crash, *)
Theorem C58_refused : ∀ s, (∀ rows, ¬ csv_text (unix s) rows) → ∃ x, (csv_records s).2 = Some x.
Proof.
  intros s H. destruct (csv_records s) as [rows [x|]] eqn:E; [by exists x|]. by apply csv_reads, H in E.
Qed.
Print Assumptions C58_refused.
(** and records of different lengths are an error too. *)
Theorem C58_lengths : ∀ lower E text s inp s' rest, s_created s = true → importText lower E None text s inp = (s', UOk tt rest) →
  ∃ n, Forall (λ r, length r = n) (csv_records text).1 ∧ (csv_records text).2 = None.
Proof.
  intros lower E text s inp s' rest Hc. unfold importText. destruct (csv_records text) as [rows last]. cbn [fst snd]. intros H. exists (first_fields rows).
  unfold importLastpass, mbind, C_bind, state in H. rewrite Hc in H. unfold mret, C_ret in H. cbn [negb] in H. unfold on_db in H.
  assert (∀ n rows i d d', import_loop lower E i n rows last d = (d', Ok tt) → Forall (λ r, length r = n) rows ∧ last = None) as Hall.
  { clear. intros n rows. induction rows as [|r rows IH]; intros i d d' H; cbn [import_loop] in H; [by destruct last|].
    destruct (Nat.eqb_spec (length r) n) as [Hn|_]; cbn [negb] in H; [|done]. destruct (_ && _); [done|]. unfold mbind, M_bind in H.
    destruct (import_record _ _ _ r d) as [d1 [[]|x|]]; [|done|done]. apply IH in H as [H1 H2]. split; [by constructor|done]. }
  destruct (import_loop _ _ _ _ _ _ _) as [d1 [[]|x|]] eqn:El; [|done|done]. by eapply Hall.
Qed.
Print Assumptions C58_lengths.
(** Text is read as text. *)
Theorem C58_read_text : ∀ s rows, utf8 s → csv_records s = (rows, None) → Forall (Forall utf8) rows.
Proof. intros s rows Hu H. apply csv_reads in H. eapply utf8_csv; [exact H|]. by apply (utf8_unix (S (String.length s))); [lia|]. Qed.
Print Assumptions C58_read_text.

Definition nl : string := String lf "".
Definition dq : string := String quote "".
Definition csv_ex : string := "a," +:+ dq +:+ "b,c" +:+ dq +:+ String cr nl +:+ nl +:+ dq +:+ "say " +:+ dq +:+ dq +:+ "hi" +:+ dq +:+ dq +:+ nl +:+ "twice" +:+ dq +:+ ",".
Example C58_reads_ex : csv_records csv_ex = ([["a"; "b,c"]; ["say " +:+ dq +:+ "hi" +:+ dq +:+ nl +:+ "twice"; ""]], None) ∧
  (csv_records ("a" +:+ dq +:+ "b" +:+ nl)).2 = Some ErrBareQuote ∧ (csv_records (dq +:+ "a")).2 = Some ErrQuote.
Proof. vm_compute. done. Qed.

(** ** Reading what is written *)

(** What encoding/csv writes is read back; CR LF in a field becomes LF. *)
Theorem C57_read_back : ∀ rows, Forall (λ r, r ≠ [] ∧ r ≠ [""]) rows → csv_records (go_join "" (map csv_record rows)) = (map (map crlf) rows, None).
Proof. intros rows H. by apply csv_reads, written_text. Qed.
Print Assumptions C57_read_back.
(** Missing for exactness: fields with CR LF. *)
Theorem C57_read_back_partial : ∀ rows, Forall (λ r, r ≠ [] ∧ r ≠ [""]) rows → Forall (Forall (λ f, crlf f = f)) rows →
  csv_records (go_join "" (map csv_record rows)) = (rows, None).
Proof.
  intros rows H Hc. rewrite C57_read_back by done. f_equal. induction Hc as [|r rows Hr _ IH]; [done|]. inversion H; subst. cbn [map]. rewrite IH by done. f_equal.
  clear -Hr. induction Hr as [|f r Hf _ IH]; [done|]. cbn [map]. by rewrite Hf, IH.
Qed.
Print Assumptions C57_read_back_partial.
(** A field has no CR LF, for example, if it has no CR. *)
Theorem C57_no_cr : ∀ f, clear_of cr f → crlf f = f.
Proof. exact crlf_none. Qed.
Print Assumptions C57_no_cr.
Example C57_read_back_ex : Forall (λ r, r ≠ [] ∧ r ≠ [""]) [["name"; "pass"]; ["mail"; "a,b" +:+ dq]] ∧ Forall (Forall (λ f, crlf f = f)) [["name"; "pass"]; ["mail"; "a,b" +:+ dq]].
Proof. split; repeat (constructor; [split; discriminate|]); repeat first [constructor|reflexivity]. Qed.
(** Notes whose lines end in CR LF are not read back as they were, *)
Theorem C57_crlf_refuted : ¬ ∀ rows, Forall (λ r, r ≠ [] ∧ r ≠ [""]) rows → csv_records (go_join "" (map csv_record rows)) = (rows, None).
Proof.
  intros H. specialize (H [["two" +:+ String cr nl +:+ "lines"]]). assert (Forall (λ r, r ≠ [] ∧ r ≠ [""]) [["two" +:+ String cr nl +:+ "lines"]]) as Hr by (repeat constructor; discriminate).
  apply H in Hr. vm_compute in Hr. discriminate Hr.
Qed.
Print Assumptions C57_crlf_refuted.
(** and a record of one empty field vanishes. *)
Theorem C57_empty_record_refuted : csv_records (csv_record [""]) = ([], None).
Proof. vm_compute. reflexivity. Qed.
Print Assumptions C57_empty_record_refuted.

(** So Go's own reader reads an export as the table of the snapshot, if every entry has a
    name that is not empty.  Missing: values with CR LF, see above. *)
Theorem C57_go_reads_partial : ∀ e kord d,
  fair e → fair_keys kord → snap_of d ≠ ∅ → (∀ u b, snap_of d !! u = Some b → ∃ n, b !! "name" = Some n ∧ n ≠ "") →
  ∃ file rows, export e kord "CSV" None d = Ok file ∧ csv_records file = (map (map crlf) rows, None) ∧ table_of (snap_of d) rows ∧
    ((∀ u b k v, snap_of d !! u = Some b → b !! k = Some v → clear_of cr k ∧ clear_of cr v) → csv_records file = (rows, None)).
Proof.
  intros e kord d He Hk Hne Hn. pose proof (export_table e kord d He Hk) as Ht. eexists _, (export_rows e kord d).
  assert (all_named (snap_of d)) as Ha. { intros u b Hb. destruct (Hn u b Hb) as (n & H & _). eauto. }
  assert (Forall (λ r, r ≠ [] ∧ r ≠ [""]) (export_rows e kord d)) as Hr.
  { destruct Ht as (ks & us & body & E & [Hd Hks] & [_ Hu] & Hs & Hsu & HF). rewrite E.
    destruct (map_choose _ Hne) as (u & b & Hb). destruct (Ha _ _ Hb) as [n Hname].
    assert ("name" ∈ ks) as Hin. { apply Hks. exists u, b. eauto. }
    constructor. { split; intros ->; [by apply elem_of_nil in Hin|]. apply elem_of_list_singleton in Hin. discriminate Hin. }
    assert (∀ u, u ∈ us → is_Some (snap_of d !! u)) as Hu' by (intros; by apply Hu). clear E Hu Hsu Hb Hname.
    induction HF as [|u' row us body (b' & Hb' & Hr) _ IH]; constructor.
    - split; intros ->; [apply Forall2_nil_inv_r in Hr; subst; by apply elem_of_nil in Hin|].
      apply Forall2_cons_inv_r in Hr as (k & ks' & Hv & Hr & ->). apply Forall2_nil_inv_r in Hr as ->.
      apply elem_of_list_singleton in Hin as <-. destruct (Hn _ _ Hb') as (n' & Hn' & Hne'). rewrite Hn' in Hv. cbn in Hv. congruence.
    - apply IH. intros x Hx. apply Hu'. by right. }
  split; [reflexivity|]. split; [by apply C57_read_back|]. split; [done|]. intros Hc. apply C57_read_back_partial; [done|].
  destruct Ht as (ks & us & body & -> & [_ Hks] & _ & _ & _ & HF). constructor.
  - apply Forall_forall. intros k Hin. apply Hks in Hin as (u & b & Hb & [v Hv]). apply C57_no_cr. by apply (Hc u b k v).
  - clear Hr. induction HF as [|u row us body (b & Hb & Hr) _ IH]; constructor; [|done]. clear -Hr Hc Hb.
    induction Hr as [|k v ks row -> _ IH]; constructor; [|done]. destruct (b !! k) as [v|] eqn:E; cbn; [|done]. apply C57_no_cr. by apply (Hc u b k v).
Qed.
Print Assumptions C57_go_reads_partial.
Definition up_db : db := (UpdateSnapshot se_db).1.
Lemma up_snap : snap_of up_db = se_m.
Proof. compute_dec. Qed.
Example C57_go_reads_ex : fair se_env ∧ fair_keys elements ∧ snap_of up_db ≠ ∅ ∧ (∀ u b, snap_of up_db !! u = Some b → ∃ n, b !! "name" = Some n ∧ n ≠ "").
Proof.
  split; [intros i m; apply se_fair|]. split; [intros X; reflexivity|]. rewrite up_snap. split.
  - intros H. assert (se_m !! "u1" = None) as H1 by (by rewrite H). vm_compute in H1. discriminate H1.
  - intros u b Hb. apply one_entry in Hb as [_ ->]. exists "mail". split; [vm_compute; reflexivity|discriminate].
Qed.

(** ** Imports *)

(** The text of LastPass is imported: every record of it becomes an entry, see
    [C58_values].  Missing: that the header is none. *)
Theorem C58_text_partial : ∀ lower E text rs s m inp,
  csv_text (unix text) (map fields_of (header_row :: rs)) →
  holds (s_db s) m → all_named m → (∀ j, fair (E j)) → fresh_uuids (s_db s) E → s_created s = true →
  ∃ s' m', importText lower E None text s inp = (s', UOk tt inp) ∧ became s s' m' ∧ imports lower E 0 (header_row :: rs) m m'.
Proof.
  intros lower E text rs s m inp Ht Hh Ha Hf Hu Hc. apply csv_reads in Ht. unfold importText. rewrite Ht. cbn [fst snd]. by apply C58_imports_partial.
Qed.
Print Assumptions C58_text_partial.
(** Whatever the text is: if the first line is not quoted, nothing crashes, and what was
    imported are the first records, all of them if there was no error.  (After an error
    nothing is saved: [C58_failed].) *)
Theorem C58_any_partial : ∀ lower E text s m inp,
  (∀ r0, head (csv_records text).1 = Some r0 → go_join "," r0 = header → length r0 = 7) →
  holds (s_db s) m → all_named m → (∀ j, fair (E j)) → fresh_uuids (s_db s) E → s_created s = true →
  ∃ s' m' rs r, importText lower E None text s inp = (s', r) ∧ became s s' m' ∧ imports lower E 0 rs m m' ∧
    ((r = UOk tt inp ∧ csv_text (unix text) (map fields_of rs)) ∨
     (∃ x, r = UErr x inp) ∧ ∃ more, (csv_records text).1 = map fields_of rs ++ more).
Proof.
  intros lower E text s m inp H0 Hh Ha Hf Hu Hc. unfold importText. destruct (csv_records text) as [rows last] eqn:Er. cbn [fst snd] in *.
  destruct (import_any lower E rows last (s_db s) m Hh Ha Hf Hu H0) as (rs & m' & d' & r & E1 & Hi & Hh' & Ht & Hr).
  exists (set_db d' s), m', rs, (of_outcome r inp). split.
  - unfold importLastpass, mbind, C_bind, state. rewrite Hc. unfold mret, C_ret. cbn [negb]. unfold on_db. by rewrite E1.
  - split; [by split; [|split]|]. split; [done|]. destruct Hr as [(-> & -> & ->)|[[x ->] Hm]]; [left|right].
    + split; [done|]. by apply csv_reads.
    + split; [by exists x|done].
Qed.
Print Assumptions C58_any_partial.
(** The first line as LastPass writes it is fine. *)
Theorem C58_first_line : ∀ text rest, unix text = header +:+ String lf rest ∨ unix text = header →
  head (csv_records text).1 = Some (fields_of header_row) ∧ length (fields_of header_row) = 7.
Proof.
  intros text rest H. split; [|done]. destruct (csv_records text) as [rows last] eqn:E. by eapply first_record.
Qed.
Print Assumptions C58_first_line.
(** A quoted one crashes. *)
Theorem C58_quoted_header_refuted : ∀ lower E s inp, s_created s = true → importText lower E None (dq +:+ header +:+ dq +:+ nl) s inp = (s, UPanic).
Proof.
  intros lower E s inp Hc. unfold importText. replace (csv_records (dq +:+ header +:+ dq +:+ nl)) with ([[header]], @None error) by (vm_compute; reflexivity).
  by apply C58_fields_refuted.
Qed.
Print Assumptions C58_quoted_header_refuted.
(** The notes of a record may have lines that end in CR LF; the entry's have not. *)
Theorem C58_notes_refuted : ¬ ∀ text rows, csv_text text rows → csv_records text = (rows, None).
Proof.
  intros H. specialize (H (dq +:+ "two" +:+ String cr nl +:+ "lines" +:+ dq) [["two" +:+ String cr nl +:+ "lines"]]).
  assert (csv_records (dq +:+ "two" +:+ String cr nl +:+ "lines" +:+ dq) = ([["two" +:+ String cr nl +:+ "lines"]], None)) as E.
  { apply H. apply csv_last; [|discriminate]. apply record_one. right. vm_compute. reflexivity. }
  vm_compute in E. discriminate E.
Qed.
Print Assumptions C58_notes_refuted.

Definition lp_text : string := header +:+ String cr nl +:+ "https://a,bob,pw,," +:+ "mail,Home,1" +:+ nl.
Example C58_text_ex : csv_text (unix lp_text) (map fields_of [header_row; mk_lp "https://a" "bob" "pw" "" "mail" "Home" "1"]) ∧
  unix lp_text = header +:+ String lf ("https://a,bob,pw,," +:+ "mail,Home,1" +:+ nl) ∧
  holds (s_db se_single) se_m ∧ all_named se_m ∧ (∀ j, fair (ex_import_env j)) ∧ fresh_uuids (s_db se_single) ex_import_env.
Proof.
  split; [apply csv_reads; vm_compute; reflexivity|]. split; [vm_compute; reflexivity|]. split; [apply se_good|]. split; [apply se_named|]. split; [intros j i m; apply se_fair|apply ex_import_fresh].
Qed.
