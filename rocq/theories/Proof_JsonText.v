(** Whatever bytes a file has, the strings read from it are UTF-8. *)
From Verif Require Import Spec_Json Proof_GoStr Proof_Utf8 Proof_Json Proof_Text.
From Verif Require Proof_Text2.
From Coq Require Import Lia.
From stdpp Require Import options.
Import Model_GoStr Proof_Utf8 Model_Json.
#[local] Open Scope Z_scope.

Lemma utf8_any r : utf8 (encode_rune r).
Proof.
  destruct (valid_rune r) eqn:E; [by apply utf8_rune|].
  replace (encode_rune r) with (encode_rune RuneError); [by apply utf8_rune|]. unfold encode_rune. by rewrite E.
Qed.
Lemma utf8_sapp a b : utf8 a → utf8 b → utf8 (a +:+ b).
Proof. intros (l & Hl & ->) (r & Hr & ->). exists (l ++ r). split; [by apply Forall_app|]. by rewrite encode_app. Qed.
Lemma utf8_one c : byteZ c < 128 → utf8 (String c "").
Proof. intros H. apply utf8_ascii. intros x ->%elem_of_list_singleton. done. Qed.

Lemma onto_utf8 a x t r : utf8 a → (∀ t r, x = Some (t, r) → utf8 t) → onto a x = Some (t, r) → utf8 t.
Proof. intros Ha Hx. destruct x as [[t' r']|]; [|done]. intros [= <- <-]. apply utf8_sapp; [done|]. by eapply Hx. Qed.
Lemma parse_chars_utf8 f : ∀ s t r, parse_chars f s = Some (t, r) → utf8 t.
Proof.
  induction f as [|f IH]; intros s t r; [done|]. destruct s as [|c s]; [done|]. cbn [parse_chars].
  destruct (byteZ c =? 34); [intros [= <- <-]; by exists []|].
  destruct (byteZ c =? 92).
  { destruct s as [|e s]; [done|]. destruct (simple_escape (byteZ e)); [apply onto_utf8; [apply utf8_any|apply IH]|].
    destruct (byteZ e =? 117); [|done]. destruct (hex4 s) as [[u s3]|]; [|done].
    destruct (is_surrogate u); [|apply onto_utf8; [apply utf8_any|apply IH]].
    destruct (next_u s3) as [[u2 s4]|]; [destruct (surrogate_pair u u2)|]; (apply onto_utf8; [apply utf8_any|apply IH]). }
  destruct (byteZ c <? 32); [done|].
  destruct (byteZ c <? 128) eqn:E; [apply onto_utf8; [apply utf8_one; by apply Z.ltb_lt|apply IH]|].
  destruct (decode_rune (String c s)) as [[x w]|]; [|done]. destruct (str_drop w (String c s)) as [s'| |]; [|done..].
  apply onto_utf8; [apply utf8_any|apply IH].
Qed.
Lemma parse_str_utf8 s t r : parse_str s = Some (t, r) → utf8 t.
Proof. unfold parse_str. destruct s as [|c s]; [done|]. destruct (_ =? _); [|done]. apply parse_chars_utf8. Qed.

(** Trees of text *)
Inductive jtext : json → Prop :=
| jt_null : jtext JNull
| jt_bool b : jtext (JBool b)
| jt_num n : jtext (JNum n)
| jt_str s : utf8 s → jtext (JStr s)
| jt_arr l : Forall jtext l → jtext (JArr l)
| jt_obj l : Forall (λ p, utf8 p.1 ∧ jtext p.2) l → jtext (JObj l).

Section lists.
  Variable elem : string → option (json * string).
  Hypothesis elem_text : ∀ s j r, elem s = Some (j, r) → jtext j.
  Lemma elems_text f : ∀ s l r, parse_elems elem f s = Some (l, r) → Forall jtext l.
  Proof using elem_text.
    induction f as [|f IH]; intros s l r; [done|]. cbn [parse_elems]. intros H.
    apply bind_Some in H as ([j s1] & Ej & H). apply bind_Some in H as ([more s2] & _ & H). apply elem_text in Ej.
    destruct more; [|injection H as <- <-; by constructor].
    apply bind_Some in H as ([l' s3] & El & H). injection H as <- <-. constructor; [done|]. by eapply IH.
  Qed.
  Lemma members_text f : ∀ s l r, parse_members elem f s = Some (l, r) → Forall (λ p, utf8 p.1 ∧ jtext p.2) l.
  Proof using elem_text.
    induction f as [|f IH]; intros s l r; [done|]. cbn [parse_members]. intros H.
    apply bind_Some in H as ([[k j] s1] & Em & H). apply bind_Some in H as ([more s2] & _ & H).
    assert (utf8 k ∧ jtext j) as Hk.
    { unfold parse_member in Em. apply bind_Some in Em as ([k' s3] & Ek & Em). apply parse_str_utf8 in Ek.
      destruct (skip_ws s3) as [|c s4]; [done|]. destruct (_ =? _); [|done]. apply bind_Some in Em as ([j' s5] & Ej & Em).
      injection Em as <- <- <-. split; [done|]. by eapply elem_text. }
    destruct more; [|injection H as <- <-; by constructor].
    apply bind_Some in H as ([l' s3] & El & H). injection H as <- <-. constructor; [done|]. by eapply IH.
  Qed.
End lists.
Lemma word_text w j s j' r : word w j s = Some (j', r) → j' = j.
Proof. unfold word. destruct (has_prefix s w); [|done]. destruct (str_drop _ _); [|done..]. by intros [= <- _]. Qed.
Lemma parse_val_text f : ∀ s j r, parse_val f s = Some (j, r) → jtext j.
Proof.
  induction f as [|f IH]; intros s j r; [done|]. cbn [parse_val]. destruct s as [|c s]; [done|].
  destruct (byteZ c =? 123).
  { destruct (closes 125 s); [intros [= <- <-]; by constructor|]. intros H. apply bind_Some in H as ([l s1] & El & H). injection H as <- <-.
    constructor. by eapply members_text. }
  destruct (byteZ c =? 91).
  { destruct (closes 93 s); [intros [= <- <-]; by constructor|]. intros H. apply bind_Some in H as ([l s1] & El & H). injection H as <- <-.
    constructor. by eapply elems_text. }
  destruct (byteZ c =? 34).
  { intros H. apply bind_Some in H as ([t s1] & Et & H). injection H as <- <-. constructor. by eapply parse_str_utf8. }
  destruct (byteZ c =? 116); [intros ->%word_text; constructor|]. destruct (byteZ c =? 102); [intros ->%word_text; constructor|].
  destruct (byteZ c =? 110); [intros ->%word_text; constructor|].
  intros H. apply bind_Some in H as ([n s1] & En & H). injection H as <- <-. constructor.
Qed.
Lemma parse_json_text s j : parse_json s = Some j → jtext j.
Proof.
  unfold parse_json. intros H. apply bind_Some in H as ([j' r] & Ej & H). apply parse_val_text in Ej.
  destruct (skip_ws r); [|done]. by injection H as <-.
Qed.

(** ** Decoding *)

Definition tx_fine (t : tx) : Prop := tx_utf8 t ∧ in_int64 (tx_time t).
Lemma obind_ok {A B} (x : outcome A) (f : A → outcome B) b : mbind f x = Ok b → ∃ a, x = Ok a ∧ f a = Ok b.
Proof. destruct x; cbn; try done. eauto. Qed.
Lemma utf8_nil : utf8 "". Proof. by exists []. Qed.
Lemma zero_fine : tx_fine tx_zero.
Proof. split; [repeat split; apply utf8_nil|]. unfold in_int64. cbn. lia. Qed.
Lemma dec_str_utf8 j old s : jtext j → utf8 old → dec_str j old = Ok s → utf8 s.
Proof. intros Hj Ho. destruct j; cbn; try done; intros [= <-]; [done|]. by inversion Hj. Qed.
Lemma ParseInt_fits s z : ParseInt s = Ok z → in_int64 z.
Proof.
  assert (∀ (neg : bool) t, match t with EmptyString => Fail (EMsg "invalid syntax") | _ =>
    match parse_digits 0 t with None => Fail (EMsg "invalid syntax") | Some n =>
      let z := if neg then (- n)%Z else n in if bool_decide (in_int64 z) then Ok z else Fail (EMsg "value out of range") end end = Ok z → in_int64 z) as H.
  { intros neg [|c t]; [done|]. destruct (parse_digits 0 (String c t)); [|done]. cbv zeta. case_bool_decide; [|done]. by intros [= <-]. }
  unfold ParseInt. destruct s as [|c s]; [done|]. destruct (byteZ c =? 45); [apply (H true)|]. destruct (byteZ c =? 43); [apply (H false)|].
  apply (H false (String c s)).
Qed.
Lemma dec_int_fits j old z : in_int64 old → dec_int j old = Ok z → in_int64 z.
Proof.
  intros Ho. destruct j; cbn [dec_int]; try done; [by intros [= <-]|]. destruct (ParseInt lit) eqn:E; try done. intros [= <-].
  by eapply ParseInt_fits.
Qed.
Lemma dec_uint_fits j (old v : nat) : Z.of_nat old < 2 ^ 64 → dec_uint j old = Ok v → Z.of_nat v < 2 ^ 64.
Proof.
  intros Ho. destruct j; cbn [dec_uint]; try done; [by intros [= <-]|]. destruct (parse_digits 0 lit) as [z|]; [|done].
  destruct (Z.ltb_spec z (2 ^ 64)); [|done]. intros [= <-]. lia.
Qed.
Lemma dec_tx_fields_fine l : Forall (λ p, utf8 p.1 ∧ jtext p.2) l → ∀ t t', tx_fine t → dec_tx_fields t l = Ok t' → tx_fine t'.
Proof.
  induction 1 as [|[k j] l [Hk Hj] Hl IH]; intros t t' Ht; [by intros [= <-]|]. cbn [dec_tx_fields]. intros H.
  apply obind_ok in H as (t1 & E1 & H). apply (IH t1); [|done]. clear H IH. destruct Ht as [(H1 & H2 & H3 & H4) H5]. cbn [fst snd] in *.
  repeat match goal with E : (if EqualFold k ?x then _ else _) = _ |- _ => destruct (EqualFold k x);
    [apply obind_ok in E as (x1 & E2 & [= <-]); split; [repeat split|]; cbn [tx_time tx_kind tx_uuid tx_key tx_value];
      first [done|(eapply dec_str_utf8; [| |exact E2]); done|(eapply dec_int_fits; [|exact E2]); done]|] end.
  injection E1 as <-. split; [|done]. split; [done|]. split; [done|]. by split.
Qed.
Lemma dec_tx_fine j t : jtext j → dec_tx j = Ok t → tx_fine t.
Proof.
  intros Hj. destruct j; cbn [dec_tx]; try done; [intros [= <-]; apply zero_fine|]. inversion Hj; subst.
  apply dec_tx_fields_fine; [done|apply zero_fine].
Qed.
Lemma dec_txs_fine l : Forall jtext l → ∀ ts, dec_txs l = Ok ts → Forall tx_fine ts.
Proof.
  induction 1 as [|j l Hj Hl IH]; intros ts; cbn [dec_txs]; [intros [= <-]; constructor|]. intros H.
  apply obind_ok in H as (t & Et & H). apply obind_ok in H as (ts' & Ets & H). injection H as <-.
  constructor; [by eapply dec_tx_fine|by apply IH].
Qed.
Lemma dec_log_fine j old s : jtext j → dec_log j old = Ok s → Forall tx_fine (vis s).
Proof.
  intros Hj. destruct j; cbn [dec_log]; try done; [intros [= <-]; constructor|]. intros H. apply obind_ok in H as (ts & Ets & H).
  injection H as <-. inversion Hj; subst. by eapply dec_txs_fine.
Qed.
Lemma dec_log_fields_fine l : Forall (λ p, utf8 p.1 ∧ jtext p.2) l → ∀ s s', Forall tx_fine (vis s) → dec_log_fields s l = Ok s' → Forall tx_fine (vis s').
Proof.
  induction 1 as [|[k j] l [Hk Hj] Hl IH]; intros s s' Hs; cbn [dec_log_fields]; [by intros [= <-]|]. intros H.
  apply obind_ok in H as (s1 & E1 & H). apply (IH s1); [|done]. destruct (EqualFold k "log"); [by eapply dec_log_fine|]. by injection E1 as <-.
Qed.
Lemma NewLog_fine b s : NewLog b = Ok s → Forall tx_fine (vis s).
Proof.
  unfold NewLog. destruct (parse_json (bytes_string b)) as [j|] eqn:E; [|done]. apply parse_json_text in E.
  destruct j; try done. inversion E; subst. apply dec_log_fields_fine; [done|constructor].
Qed.

Lemma insert_entry_utf8 (e : entry) k v : entry_utf8 e → utf8 k → utf8 v → entry_utf8 (<[k := v]> e).
Proof. intros He Hk Hv k' v' H. apply lookup_insert_Some in H as [[<- <-]|[_ H]]; [done|by apply He]. Qed.
Lemma dec_entry_fields_utf8 l : Forall (λ p, utf8 p.1 ∧ jtext p.2) l → ∀ e e', entry_utf8 e → dec_entry_fields e l = Ok e' → entry_utf8 e'.
Proof.
  induction 1 as [|[k j] l [Hk Hj] Hl IH]; intros e e' He; cbn [dec_entry_fields]; [by intros [= <-]|]. intros H.
  apply obind_ok in H as (s & Es & H). apply (IH (<[k := s]> e)); [|done]. apply insert_entry_utf8; [done|done|].
  by eapply dec_str_utf8, Es; [|apply utf8_nil].
Qed.
Lemma dec_entry_utf8 j e : jtext j → dec_entry j = Ok e → entry_utf8 e.
Proof.
  intros Hj. assert (entry_utf8 ∅) as H0 by (intros k v H; by rewrite lookup_empty in H).
  destruct j; cbn [dec_entry]; try done; [by intros [= <-]|]. inversion Hj; subst. by apply dec_entry_fields_utf8.
Qed.
Lemma dec_snapshot_fields_utf8 l : Forall (λ p, utf8 p.1 ∧ jtext p.2) l → ∀ m m', snapshot_utf8 m → dec_snapshot_fields m l = Ok m' → snapshot_utf8 m'.
Proof.
  induction 1 as [|[k j] l [Hk Hj] Hl IH]; intros m m' Hm; cbn [dec_snapshot_fields]; [by intros [= <-]|]. intros H.
  apply obind_ok in H as (e & Ee & H). apply (IH (<[k := e]> m)); [|done]. apply dec_entry_utf8 in Ee; [|done].
  intros u e' Hu. apply lookup_insert_Some in Hu as [[<- <-]|[_ Hu]]; [done|by apply Hm].
Qed.
Lemma empty_snapshot_utf8 : snapshot_utf8 ∅.
Proof. intros u e H. by rewrite lookup_empty in H. Qed.
Lemma dec_db_fields_text l : Forall (λ p, utf8 p.1 ∧ jtext p.2) l → ∀ d d', 
  snapshot_utf8 (snap_of d) → Forall tx_fine (vis (db_log d)) → Z.of_nat (db_version d) < 2 ^ 64 → db_txpoint d = O → dec_db_fields d l = Ok d' →
  snapshot_utf8 (snap_of d') ∧ Forall tx_fine (vis (db_log d')) ∧ Z.of_nat (db_version d') < 2 ^ 64 ∧ db_txpoint d' = O.
Proof.
  induction 1 as [|[k j] l [Hk Hj] Hl IH]; intros d d' H1 H2 H3 H4; cbn [dec_db_fields]; [by intros [= <-]|]. intros H.
  apply obind_ok in H as (d1 & E1 & H). cbn [fst snd] in *.
  destruct (EqualFold k "version").
  { apply obind_ok in E1 as (v & Ev & [= <-]). apply dec_uint_fits in Ev; [|done]. by eapply IH, H. }
  destruct (EqualFold k "snapshot").
  { apply obind_ok in E1 as (m & Em & [= <-]). eapply IH, H; try done. unfold snap_of. cbn [db_snapshot].
    destruct j; cbn [dec_snapshot] in Em; try done; [injection Em as <-; apply empty_snapshot_utf8|].
    apply obind_ok in Em as (m' & Em & [= <-]). inversion Hj; subst. by eapply dec_snapshot_fields_utf8. }
  destruct (EqualFold k "log").
  { apply obind_ok in E1 as (s & Es & [= <-]). eapply IH, H; try done. cbn [db_log]. by eapply dec_log_fine. }
  injection E1 as <-. by eapply IH, H.
Qed.
Lemma New_text b d : New b = Ok (Some d) → db_utf8 d ∧ db_fits d ∧ db_txpoint d = O.
Proof.
  unfold New. destruct (parse_json (bytes_string b)) as [j|] eqn:E; [|done]. apply parse_json_text in E. destruct j; try done.
  inversion E; subst. intros H. apply obind_ok in H as (d' & Ed & [= <-]).
  apply dec_db_fields_text in Ed as (H1 & H2 & H3 & H4); [|done|apply empty_snapshot_utf8|constructor|cbn; lia|done].
  split; [|split; [|done]]; split; try done; (eapply Forall_impl; [exact H2|]; by intros t []).
Qed.
