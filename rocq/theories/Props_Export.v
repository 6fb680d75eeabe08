(** C57: what an export contains. *)
From Verif Require Import Model_Blobs Spec_Blobs Spec_Export Spec_Json Proof_Json Proof_Json2 Proof_TxLog Proof_Blobs Proof_SessionEx Proof_Export.
From Coq Require Import Sorting.Sorted.
From stdpp Require Import options.
Import Model_GoStr.

(** The file is the table of the snapshot: one row per entry in the order of the
    uuids, one column per key in the order of the keys, the value in each place.
    The file is a CSV file and is read back as that table, value by value,
    whatever the values contain.  (Snapshots with no named entry are below.)
    What is missing from a full export: the snapshot need not be the store's
    current state, see [C57_stale_refuted]. *)
Theorem C57_table_partial : ∀ e kord d,
  fair e → fair_keys kord → all_named (snap_of d) → snap_of d ≠ ∅ →
  ∃ file rows, export e kord "CSV" None d = Ok file ∧ csv_read file = Some rows ∧ table_of (snap_of d) rows ∧
    length rows = S (size (snap_of d)).
Proof.
  intros e kord d He Hk Hn Hne. pose proof (export_table e kord d He Hk) as Ht. eexists _, (export_rows e kord d).
  split; [reflexivity|]. split; [apply read_all; by eapply table_rows|]. split; [done|].
  destruct Ht as (ks & us & body & E & H). rewrite E. cbn [length]. f_equal. eapply table_size. by exists ks, us, body.
Qed.
Print Assumptions C57_table_partial.

(** The table is determined by the snapshot. *)
Theorem C57_one_table : ∀ m r1 r2, table_of m r1 → table_of m r2 → r1 = r2.
Proof. exact table_det. Qed.
Print Assumptions C57_one_table.

(** So the file does not depend on the order in which Go's maps are walked. *)
Theorem C57_same_file : ∀ e1 e2 k1 k2 d,
  fair e1 → fair e2 → fair_keys k1 → fair_keys k2 → export e1 k1 "CSV" None d = export e2 k2 "CSV" None d.
Proof.
  intros e1 e2 k1 k2 d H1 H2 H3 H4. unfold export. cbn [negb String.eqb].
  by rewrite (table_det _ _ _ (export_table e1 k1 d H1 H3) (export_table e2 k2 d H2 H4)).
Qed.
Print Assumptions C57_same_file.

(** If the snapshot is up to date, the table is that of the store. *)
Theorem C57_current : ∀ e kord d m,
  fair e → fair_keys kord → holds d m → db_version d = length (vis (db_log d)) → all_named m → m ≠ ∅ →
  ∃ file rows, export e kord "CSV" None d = Ok file ∧ csv_read file = Some rows ∧ table_of m rows.
Proof.
  intros e kord d m He Hk Hh Hv Hn Hne. pose proof (version_full d m Hh Hv) as <-.
  destruct (C57_table_partial e kord d He Hk Hn Hne) as (f & r & H1 & H2 & H3 & _). eauto.
Qed.
Print Assumptions C57_current.

(** Otherwise it is the table of an earlier state. *)
Theorem C57_earlier : ∀ e kord d,
  fair e → fair_keys kord → coherent d →
  ∃ m, replays (take (db_version d) (vis (db_log d))) m ∧ table_of m (export_rows e kord d).
Proof. intros e kord d He Hk [_ Hr]. exists (snap_of d). split; [done|]. by apply export_table. Qed.
Print Assumptions C57_earlier.

(** Writing any table and reading it back gives the table, if no row is empty. *)
Theorem C57_csv : ∀ rows, Forall (λ r, r ≠ []) rows → csv_read (go_join "" (map csv_record rows)) = Some rows.
Proof. exact read_all. Qed.
Print Assumptions C57_csv.

(** No entry: the file is one empty line. *)
Theorem C57_nothing : ∀ e kord d,
  fair e → fair_keys kord → snap_of d = ∅ → export e kord "CSV" None d = Ok (String lf "").
Proof.
  intros e kord d He Hk Hs. unfold export. cbn [negb String.eqb]. f_equal.
  assert (table_of (snap_of d) [[]]) as Ht.
  { rewrite Hs. exists [], [], []. split; [done|]. split; [|split; [|split; [constructor|split; [constructor|constructor]]]].
    - split; [constructor|]. intros k. split; [by intros ?%elem_of_nil|]. intros (u & b & H & _). by rewrite lookup_empty in H.
    - split; [constructor|]. intros u. split; [by intros ?%elem_of_nil|]. intros [b H]. by rewrite lookup_empty in H. }
  by rewrite (table_det _ _ _ (export_table e kord d He Hk) Ht).
Qed.
Print Assumptions C57_nothing.

(** Only the format "CSV" is written; the file is not created otherwise. *)
Theorem C57_format : ∀ e kord format created d, format ≠ "CSV" →
  export e kord format created d = Fail (EMsg "only supported format for export is csv").
Proof. intros e kord format created d H. unfold export. by rewrite (proj2 (String.eqb_neq _ _) H). Qed.
Print Assumptions C57_format.

(** A file that cannot be created is an error. *)
Theorem C57_no_file : ∀ e kord x d, export e kord "CSV" (Some x) d = Fail x.
Proof. done. Qed.
Print Assumptions C57_no_file.

(** Refuted: everything that was saved is exported.  An entry just added is in
    the log but not in the snapshot.  Saved, loaded and exported, the table is
    that of the store without it. *)
Theorem C57_stale_refuted : ∀ e j n d m d' u b e2 kord,
  fair e → fair e2 → fair_keys kord → holds d m → all_named m → unused d (e_uuid e) →
  Model_Blobs.New e j n d = (d', Ok u) → db_utf8 d' → db_fits d' → Save d' = Ok b →
  ∃ d2, Model_Json.New b = Ok (Some d2) ∧ vis (db_log d2) = vis (db_log d') ∧
    replays (vis (db_log d2)) (<[u := new_entry e n]> m) ∧ m !! u = None ∧
    table_of m (export_rows e2 kord d2) ∧ ¬ table_of (<[u := new_entry e n]> m) (export_rows e2 kord d2).
Proof.
  intros e j n d m d' u b e2 kord He He2 Hk Hh Ha Hun HN Hu Hf Hs.
  destruct (new_snap e j n d m d' u Hh Ha He Hun HN) as (E & [_ Hr] & Hnone).
  exists (loaded d'). destruct (loaded_same d' Hu) as [H1 H2]. split; [by apply New_Save|]. split; [done|].
  split; [by rewrite H2|]. split; [done|].
  assert (table_of m (export_rows e2 kord (loaded d'))) as Ht by (rewrite <-E, <-H1; by apply export_table).
  split; [done|]. intros Ht2. destruct (export_rows e2 kord (loaded d')) as [|ks body].
  { by destruct Ht as (? & ? & ? & ? & _). }
  pose proof (table_size _ _ _ Ht) as S1. pose proof (table_size _ _ _ Ht2) as S2.
  rewrite map_size_insert_None in S2 by done. lia.
Qed.
Print Assumptions C57_stale_refuted.

(** Refuted: two different stores have different exports.  A key with an empty
    value looks like a missing key. *)
Definition ex_blank1 : snapshot := <["u1" := {["name" := "mail"]}]> {["u2" := <["pass" := ""]> {["name" := "bank"]}]}.
Definition ex_blank2 : snapshot := <["u1" := <["pass" := ""]> {["name" := "mail"]}]> {["u2" := {["name" := "bank"]}]}.
Definition ex_rows : list (list string) := [["name"; "pass"]; ["mail"; ""]; ["bank"; ""]].
Lemma ex_blank_table m : m = ex_blank1 ∨ m = ex_blank2 → table_of m ex_rows.
Proof.
  intros Hm. exists ["name"; "pass"], ["u1"; "u2"], [["mail"; ""]; ["bank"; ""]]. split; [done|].
  split; [|split; [|split; [repeat constructor|split; [repeat constructor|]]]].
  - split; [compute_dec|]. intros k. split.
    + intros H. destruct Hm as [-> | ->]; apply elem_of_list_In in H; cbn in H; destruct H as [<-|[<-|[]]].
      * exists "u1", {["name" := "mail"]}. split; [compute_dec|by exists "mail"].
      * exists "u2", (<["pass" := ""]> {["name" := "bank"]}). split; [compute_dec|by exists ""].
      * exists "u2", {["name" := "bank"]}. split; [compute_dec|by exists "bank"].
      * exists "u1", (<["pass" := ""]> {["name" := "mail"]}). split; [compute_dec|by exists ""].
    + intros (u & b & Hb & Hs). assert (k ∈ (["name"; "pass"] : list string)); [|done].
      destruct Hm as [-> | ->]; unfold ex_blank1, ex_blank2 in Hb; apply lookup_insert_Some in Hb as [[_ <-]|[_ Hb]];
        try (apply lookup_singleton_Some in Hb as [_ <-]); destruct Hs as [v Hs];
        first [apply lookup_singleton_Some in Hs as [<- _]|
               apply lookup_insert_Some in Hs as [[<- _]|[_ Hs]]; [|apply lookup_singleton_Some in Hs as [<- _]]]; compute_dec.
  - split; [compute_dec|]. intros u. split.
    + intros H. apply elem_of_list_In in H; cbn in H. destruct Hm as [-> | ->]; destruct H as [<-|[<-|[]]]; eexists; unfold ex_blank1, ex_blank2;
        first [apply lookup_insert|rewrite lookup_insert_ne by done; apply lookup_singleton].
    + intros [b Hb]. destruct Hm as [-> | ->]; unfold ex_blank1, ex_blank2 in Hb; apply lookup_insert_Some in Hb as [[<- _]|[_ Hb]];
        try (apply lookup_singleton_Some in Hb as [<- _]); compute_dec.
  - destruct Hm as [-> | ->]; (constructor; [eexists; split; [apply lookup_insert|]|constructor; [eexists; split; [unfold ex_blank1, ex_blank2; rewrite lookup_insert_ne by done; apply lookup_singleton|]|constructor]]);
      repeat (constructor; [compute_dec|]); constructor.
Qed.
Theorem C57_blank_refuted : ∃ m1 m2 rows, m1 ≠ m2 ∧ table_of m1 rows ∧ table_of m2 rows.
Proof.
  exists ex_blank1, ex_blank2, ex_rows. split; [|split; apply ex_blank_table; [by left|by right]].
  intros H. apply (f_equal (λ m : snapshot, m !! "u1")) in H. unfold ex_blank1, ex_blank2 in H. rewrite !lookup_insert in H.
  apply (inj Some) in H. apply (f_equal (λ m : entry, m !! "pass")) in H. rewrite lookup_insert in H.
  rewrite lookup_singleton_ne in H by done. discriminate H.
Qed.
Print Assumptions C57_blank_refuted.

(** A concrete case: values with quotes, commas and line ends. *)
Example C57_csv_example : csv_read (go_join "" (map csv_record [["name"; "notes"]; ["mail"; "a,b" +:+ String (Zbyte 10) "c"]; ["say ""hi"""; ""]])) =
  Some [["name"; "notes"]; ["mail"; "a,b" +:+ String (Zbyte 10) "c"]; ["say ""hi"""; ""]].
Proof. apply C57_csv. repeat constructor; done. Qed.

(** The example store, brought up to date and exported. *)
Definition ex_up : db := mk_db 3 (Some se_m) (db_log se_db) 0.
Example C57_current_example : ∀ e kord, fair e → fair_keys kord →
  export e kord "CSV" None ex_up = Ok (go_join (String lf "") ["name,pass"; "mail,hunter2"; ""]).
Proof.
  intros e kord He Hk. unfold export. cbn [negb String.eqb]. 
  assert (table_of se_m [["name"; "pass"]; ["mail"; "hunter2"]]) as Ht.
  { exists ["name"; "pass"], ["u1"], [["mail"; "hunter2"]]. split; [done|].
    split; [|split; [|split; [repeat constructor|split; [repeat constructor|]]]].
    - split; [compute_dec|]. intros k. split.
      + intros H. exists "u1", se_mail. split; [apply lookup_singleton|]. apply elem_of_list_In in H; cbn in H; destruct H as [<-|[<-|[]]]; compute_dec.
      + intros (u & b & Hb & [v Hs]). apply one_entry in Hb as [_ ->]. unfold se_mail in Hs.
        apply lookup_insert_Some in Hs as [[<- _]|[_ Hs]]; [compute_dec|]. apply lookup_insert_Some in Hs as [[<- _]|[_ Hs]]; [compute_dec|].
        by rewrite lookup_empty in Hs.
    - split; [compute_dec|]. intros u. split.
      + intros H%elem_of_list_singleton. subst u. exists se_mail. apply lookup_singleton.
      + intros [b Hb]. apply one_entry in Hb as [-> _]. left.
    - constructor; [|constructor]. exists se_mail. split; [apply lookup_singleton|]. repeat (constructor; [compute_dec|]). constructor. }
  by rewrite (table_det _ _ _ (export_table e kord ex_up He Hk) Ht).
Qed.

(** Not brought up to date, the same store is exported as nothing. *)
Example C57_stale_example : ∀ e kord, fair e → fair_keys kord →
  holds se_db se_m ∧ export e kord "CSV" None se_db = Ok (String lf "").
Proof. intros e kord He Hk. split; [apply se_good|]. by apply C57_nothing. Qed.
