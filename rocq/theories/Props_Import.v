(** C58: importing from LastPass. *)
From Verif Require Import Spec_Import Spec_Repl Proof_TxLog Proof_Blobs Proof_SessionEx Proof_Repl6 Proof_Import.
From Coq Require Import Lia.
From stdpp Require Import options.
Import Model_GoStr.
#[local] Open Scope nat_scope.

(** Every record becomes an entry of its own, under the first free name; nothing
    else changes.  The file is either new, or the user answers y.  What is missing:
    the header is taken for a record, see [C58_header_refuted]. *)
Theorem C58_imports_partial : ∀ lower E rs s m inp,
  holds (s_db s) m → all_named m → (∀ j, fair (E j)) → fresh_uuids (s_db s) E → s_created s = true →
  ∃ s' m', importLastpass lower E None (map fields_of (header_row :: rs)) None s inp = (s', UOk tt inp) ∧
    became s s' m' ∧ imports lower E 0 (header_row :: rs) m m'.
Proof.
  intros lower E rs s m inp Hh Ha Hf Hu Hc. destruct (import_ok lower E rs (s_db s) m Hh Ha Hf Hu) as (m' & d' & E1 & Hi & Hh' & Ht).
  exists (set_db d' s), m'. split; [|split; [by split; [|split]|done]].
  unfold importLastpass, mbind, C_bind, state. rewrite Hc. unfold mret, C_ret. cbn [negb]. unfold on_db.
  change (first_fields (map fields_of (header_row :: rs))) with 7. by rewrite E1.
Qed.
Print Assumptions C58_imports_partial.

Theorem C58_imports_asked_partial : ∀ lower E rs s m a rest,
  holds (s_db s) m → all_named m → (∀ j, fair (E j)) → fresh_uuids (s_db s) E → s_created s = false → a = "y" ∨ a = "Y" →
  ∃ s' m', importLastpass lower E None (map fields_of (header_row :: rs)) None s (ILine a :: rest) = (s', UOk tt rest) ∧
    became s s' m' ∧ imports lower E 0 (header_row :: rs) m m'.
Proof.
  intros lower E rs s m a rest Hh Ha Hf Hu Hc Hy. destruct (import_ok lower E rs (s_db s) m Hh Ha Hf Hu) as (m' & d' & E1 & Hi & Hh' & Ht).
  exists (set_db d' s), m'. split; [|split; [by split; [|split]|done]].
  unfold importLastpass, mbind, C_bind, state. rewrite Hc. unfold mret, C_ret, ask, prompt.
  assert (String.eqb a "Y" || String.eqb a "y" = true) as -> by (by destruct Hy as [-> | ->]). cbn [negb]. unfold on_db.
  change (first_fields (map fields_of (header_row :: rs))) with 7. by rewrite E1.
Qed.
Print Assumptions C58_imports_asked_partial.

(** Any other answer, or none, changes nothing. *)
Theorem C58_declined : ∀ lower E lpass records last s a rest,
  s_created s = false → a ≠ "y" → a ≠ "Y" → importLastpass lower E lpass records last s (ILine a :: rest) = (s, UOk tt rest).
Proof.
  intros lower E lpass records last s a rest Hc H1 H2. unfold importLastpass, mbind, C_bind, state. rewrite Hc. unfold mret, C_ret, ask, prompt.
  rewrite (proj2 (String.eqb_neq _ _) H1), (proj2 (String.eqb_neq _ _) H2). done.
Qed.
Print Assumptions C58_declined.

(** What the relation [imports] says about the values: the entry of record k has
    each value of the record that is not empty, exactly, and the lower-case name
    with some number of "1"s. *)
Theorem C58_values : ∀ lower E rs m m',
  imports lower E 0 rs m m' → (∀ j k, e_uuid (E (2 * j)) = e_uuid (E (2 * k)) → j = k) →
  ∀ k r, rs !! k = Some r → ∃ b c, m' !! e_uuid (E (2 * k)) = Some b ∧
    b !! "name" = Some (base_name lower r +:+ ones c) ∧
    b !! "user" = (if decide (lp_user r = "") then None else Some (lp_user r)) ∧
    b !! "pass" = (if decide (lp_pass r = "") then None else Some (lp_pass r)) ∧
    b !! "url" = (if decide (lp_url r = "") then None else Some (lp_url r)) ∧
    b !! "notes" = (if decide (lp_extra r = "") then None else Some (lp_extra r)) ∧
    b !! "labels" = (if decide (has_label r) then Some (labels_of lower r) else None).
Proof.
  intros lower E rs m m' Hi Hd k r Hk. destruct (imports_each _ _ _ _ _ _ Hi Hd k r Hk) as [c Hc]. cbn [Nat.add] in Hc.
  eexists _, c. split; [exact Hc|]. split; [apply imported_name|]. unfold imported, opt_key, new_entry. cbv zeta.
  destruct (decide (has_label r)), (decide (lp_extra r = "")), (decide (lp_url r = "")), (decide (lp_pass r = "")), (decide (lp_user r = ""));
    rewrite ?lookup_insert, ?lookup_insert_ne by done; rewrite ?lookup_insert, ?lookup_insert_ne, ?lookup_empty by done; done.
Qed.
Print Assumptions C58_values.

(** The name that is wanted has no blanks: every blank has become an underscore, and
    nothing else has changed. *)
Theorem C58_underscores : ∀ s, String.length (underscores s) = String.length s ∧
  ∀ i c, String.get i s = Some c → String.get i (underscores s) = Some (if decide (c = Zbyte 32) then Zbyte 95 else c).
Proof.
  intros s. induction s as [|x s [IH1 IH2]]; [done|]. split; [cbn; by rewrite IH1|]. intros [|i] c H; cbn [String.get] in H; cbn [underscores String.get]; [|by apply IH2].
  injection H as ->. destruct (Ascii.eqb_spec c (Zbyte 32)); [by rewrite decide_True|by rewrite decide_False].
Qed.
Print Assumptions C58_underscores.
Example C58_underscores_ex : underscores "my first bank" = "my_first_bank".
Proof. done. Qed.

(** No entry there was is changed, and names stay unique. *)
Theorem C58_old : ∀ lower E rs m m',
  imports lower E 0 rs m m' → (∀ j, m !! e_uuid (E (2 * j)) = None) → ∀ u b, m !! u = Some b → m' !! u = Some b.
Proof. intros lower E rs m m' Hi Hu u b Hb. eapply imports_old; [done|done|]. intros j _ <-. by rewrite Hu in Hb. Qed.
Print Assumptions C58_old.
Theorem C58_names : ∀ lower E rs m m', imports lower E 0 rs m m' → well_named m → well_named m'.
Proof. intros lower E rs m m'. apply imports_unique. Qed.
Print Assumptions C58_names.

(** Refuted: one entry per record.  The header itself becomes an entry called
    "name" with the password "password". *)
Theorem C58_header_refuted : ∀ lower E rs m m',
  imports lower E 0 (header_row :: rs) m m' → (∀ j, m !! e_uuid (E (2 * j)) = None) →
  (∀ j k, e_uuid (E (2 * j)) = e_uuid (E (2 * k)) → j = k) →
  size m' = size m + length rs + 1 ∧
  ∃ b c, m' !! e_uuid (E 0) = Some b ∧ b !! "name" = Some (underscores (lower "name") +:+ ones c) ∧ b !! "pass" = Some "password".
Proof.
  intros lower E rs m m' Hi Hu Hd. split; [rewrite (imports_size _ _ _ _ _ _ Hi) by done; cbn [length]; lia|].
  destruct (C58_values _ _ _ _ _ Hi Hd 0 header_row eq_refl) as (b & c & H1 & H2 & _ & H3 & _). exists b, c. done.
Qed.
Print Assumptions C58_header_refuted.

(** A first record that is not the header is refused, and nothing is imported. *)
Theorem C58_format : ∀ lower E r rs last s inp, s_created s = true → go_join "," r ≠ header →
  importLastpass lower E None (r :: rs) last s inp = (s, UErr (EMsg "lastpass csv format not recognized") inp).
Proof.
  intros lower E r rs last s inp Hc Hh. unfold importLastpass, mbind, C_bind, state. rewrite Hc. unfold mret, C_ret. cbn [negb]. unfold on_db.
  cbn [import_loop first_fields]. rewrite Nat.eqb_refl. cbn [negb]. rewrite (proj2 (String.eqb_neq _ _) Hh). cbn [negb andb Nat.eqb].
  unfold lift. destruct s; reflexivity.
Qed.
Print Assumptions C58_format.

(** Refuted: it is checked that the records have seven fields.  The fields are
    joined before they are compared; a header in one pair of quotes is accepted and
    the program crashes. *)
Theorem C58_fields_refuted : ∀ lower E rs last s inp, s_created s = true →
  importLastpass lower E None ([header] :: rs) last s inp = (s, UPanic).
Proof.
  intros lower E rs last s inp Hc. unfold importLastpass, mbind, C_bind, state. rewrite Hc. unfold mret, C_ret. cbn [negb]. unfold on_db.
  cbn [import_loop first_fields]. assert (String.eqb (go_join "," [header]) header = true) as -> by (vm_compute; reflexivity).
  cbn [negb andb Nat.eqb length]. destruct s; reflexivity.
Qed.
Print Assumptions C58_fields_refuted.

(** If anything fails, nothing is saved: *)
Theorem C58_failed : ∀ P lower E lpass records last e ord riv s inp s' x rest,
  importLastpass lower E lpass records last s inp = (s', UErr x rest) →
  import_main P lower E lpass records last e ord riv s inp = (s', UErr x rest).
Proof. intros P lower E lpass records last e ord riv s inp s' x rest H. unfold import_main. by rewrite H. Qed.
Print Assumptions C58_failed.

(** the error of lpass, *)
Theorem C58_lpass_failed : ∀ lower E x records last s inp, s_created s = true →
  importLastpass lower E (Some x) records last s inp = (s, UErr x inp).
Proof. intros lower E x records last s inp Hc. unfold importLastpass, mbind, C_bind, state. rewrite Hc. done. Qed.
Print Assumptions C58_lpass_failed.

(** and an error of the reader after any number of records. *)
Lemma loop_last lower E x rs : ∀ i n d d', import_loop lower E i n rs (Some x) d ≠ (d', Ok tt).
Proof.
  induction rs as [|r rs IH]; intros i n d d'; [done|]. cbn [import_loop]. destruct (negb _); [done|]. destruct (_ && _); [done|].
  unfold mbind, M_bind. destruct (import_record _ _ _ _ _) as [d1 [[]|y|]]; [|done|done]. apply IH.
Qed.
Theorem C58_read_failed : ∀ lower E x rs s inp s' rest, s_created s = true →
  importLastpass lower E None rs (Some x) s inp ≠ (s', UOk tt rest).
Proof.
  intros lower E x rs s inp s' rest Hc. unfold importLastpass, mbind, C_bind, state. rewrite Hc. unfold mret, C_ret. cbn [negb]. unfold on_db.
  pose proof (loop_last lower E x rs 0 (first_fields rs) (s_db s)) as H.
  destruct (import_loop _ _ _ _ _ _ _) as [d1 [[]|y|]]; [by destruct (H d1)|done|done].
Qed.
Print Assumptions C58_read_failed.

(** Refuted: what is imported could have been typed.  A group with a blank becomes
    a label the label command refuses; a group with a comma becomes two labels. *)
Theorem C58_label_refuted : ∀ upper, (∀ r, upper r = false) →
  ∃ lower r1 r2 b, has_label r1 ∧ validateLabel upper [] (labels_of lower r1) = false ∧
    has_label r2 ∧ b !! "labels" = Some (labels_of lower r2) ∧ length (Labels b) = 2 ∧ lp_fav r2 = "".
Proof.
  intros upper Hu. exists (λ s, s), (mk_lp "" "" "" "" "a" "my sites" ""), (mk_lp "" "" "" "" "a" "work,home" ""), {["labels" := "work,home"]}.
  split; [by left|]. split.
  - unfold validateLabel. replace (labels_of _ _) with "my sites" by (vm_compute; reflexivity).
    replace (runes "my sites") with [109; 121; 32; 115; 105; 116; 101; 115]%Z by (vm_compute; reflexivity).
    cbn [forallb]. rewrite !Hu. done.
  - split; [by left|]. split; [compute_dec|]. split; [vm_compute; reflexivity|done].
Qed.
Print Assumptions C58_label_refuted.

(** A concrete import: the record is called like the entry there is. *)
Definition ex_import_env (i : nat) : env := mk_env (e_now se_env) (e_grow se_env) ("r" +:+ ones i) (e_ord se_env).
Definition ex_rec : lp := mk_lp "https://a.example" "bob" "hunter3" "" "mail" "" "1".
Lemma ones_len i : String.length (ones i) = i. Proof. induction i as [|i IH]; [done|]. exact (f_equal S IH). Qed.
Lemma ex_import_fresh : fresh_uuids se_db ex_import_env.
Proof.
  split.
  - intros i t Ht Heq. cbn [e_uuid ex_import_env] in Heq.
    assert (tx_uuid t = "u1") as E by (apply elem_of_list_In in Ht; cbn in Ht; by destruct Ht as [<-|[<-|[<-|[]]]]).
    rewrite E in Heq. discriminate Heq.
  - intros i j H. cbn [e_uuid ex_import_env String.append] in H. apply (f_equal String.length) in H. cbn [String.length] in H.
    rewrite !ones_len in H. lia.
Qed.
Example C58_example : holds (s_db se_single) se_m ∧ all_named se_m ∧ (∀ j, fair (ex_import_env j)) ∧ fresh_uuids (s_db se_single) ex_import_env ∧
  ∃ m', imports (λ s, s) ex_import_env 0 [header_row; ex_rec] se_m m' ∧
    m' !! "r11" = Some (imported (λ s, s) (ex_import_env 2) "mail1" ex_rec).
Proof.
  split; [apply se_good|]. split; [apply se_named|]. split; [intros j i m; apply se_fair|]. split; [apply ex_import_fresh|].
  eexists. split.
  - eapply (imports_cons _ _ 0 header_row _ _ "name").
    + exists 0. split; [vm_compute; reflexivity|]. split; [lia|]. intros u (b & Hb & Hn). apply one_entry in Hb as [_ ->]. vm_compute in Hn. discriminate Hn.
    + eapply (imports_cons _ _ 1 ex_rec _ _ "mail1"); [|constructor]. exists 1. split; [vm_compute; reflexivity|]. split.
      * intros i Hi. assert (i = 0) as -> by lia. exists "u1", se_mail. split; [|compute_dec].
        rewrite lookup_insert_ne by done. apply lookup_singleton.
      * intros u (b & Hb & Hn). apply lookup_insert_Some in Hb as [[_ <-]|[_ Hb]].
        -- rewrite imported_name in Hn. discriminate Hn.
        -- apply one_entry in Hb as [_ ->]. vm_compute in Hn. discriminate Hn.
  - apply lookup_insert.
Qed.
