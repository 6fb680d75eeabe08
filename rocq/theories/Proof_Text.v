(** Cutting and joining UTF-8 text gives UTF-8 text. *)
From Verif Require Import Spec_Json Spec_Repl Proof_GoStr Proof_Utf8 Proof_Trim Proof_Session2 Proof_Session3.
From Coq Require Import Lia.
From stdpp Require Import options.
Import Model_GoStr Proof_Utf8.
#[local] Open Scope nat_scope.

Definition cont (c : Ascii.ascii) : Prop := (128 ≤ byteZ c < 192)%Z.
Definition starts (s : string) : Prop := match s with EmptyString => True | String c _ => ¬ cont c end.
Fixpoint all_cont (s : string) : Prop := match s with EmptyString => True | String c r => cont c ∧ all_cont r end.

Lemma enc_shape r : valid_rune r = true → ∃ c t, encode_rune r = String c t ∧ ¬ cont c ∧ all_cont t ∧ ((byteZ c < 128)%Z → t = "" ∧ r = byteZ c).
Proof.
  intros Hv. unfold encode_rune. rewrite Hv. apply valid_rune_spec in Hv. unfold encode_valid.
  assert (∀ z, (0 ≤ z < 64)%Z → cont (Zbyte (128 + z))) as Hc by (intros z Hz; unfold cont; rewrite byteZ_Zbyte by lia; lia).
  assert (∀ z, (0 ≤ z mod 64 < 64)%Z) as Hm by (intros z; apply Z.mod_pos_bound; lia).
  destruct (r <=? 127)%Z eqn:E1; [|destruct (r <=? 2047)%Z eqn:E2; [|destruct (r <=? 65535)%Z eqn:E3]].
  - exists (Zbyte r), "". unfold cont. rewrite byteZ_Zbyte by lia. split; [done|]. split; [lia|]. split; [done|]. done.
  - assert (0 ≤ r / 64 < 32)%Z as Hb by (split; [apply Z.div_pos; lia|apply Z.div_lt_upper_bound; lia]).
    eexists _, _. split; [reflexivity|]. unfold cont at 1. rewrite byteZ_Zbyte by lia. split; [lia|]. split; [|lia]. cbn. auto.
  - assert (0 ≤ r / 4096 < 16)%Z as Hb by (split; [apply Z.div_pos; lia|apply Z.div_lt_upper_bound; lia]).
    eexists _, _. split; [reflexivity|]. unfold cont at 1. rewrite byteZ_Zbyte by lia. split; [lia|]. split; [|lia]. cbn. auto.
  - assert (0 ≤ r / 262144 < 8)%Z as Hb by (split; [apply Z.div_pos; lia|apply Z.div_lt_upper_bound; lia]).
    eexists _, _. split; [reflexivity|]. unfold cont at 1. rewrite byteZ_Zbyte by lia. split; [lia|]. split; [|lia]. cbn. auto.
Qed.
Lemma encode_cons r rs : encode (r :: rs) = encode_rune r +:+ encode rs. Proof. done. Qed.
Lemma utf8_rune r : valid_rune r = true → utf8 (encode_rune r).
Proof. intros H. exists [r]. split; [by constructor|]. cbn. by rewrite sapp_nil. Qed.
Lemma utf8_starts s : utf8 s → starts s.
Proof.
  intros (rs & Hv & ->). destruct Hv as [|r rs Hr Hv]; [done|]. rewrite encode_cons. destruct (enc_shape r Hr) as (c & t & -> & H & _). done.
Qed.
Lemma all_cont_app a b : all_cont (a +:+ b) → all_cont a ∧ all_cont b.
Proof. induction a as [|c a IH]; [done|]. cbn. intros [H1 H2]. destruct (IH H2). auto. Qed.

Lemma utf8_split a b : utf8 (a +:+ b) → starts b → utf8 a ∧ utf8 b.
Proof.
  intros (rs & Hv & E) Hb. revert a E. induction Hv as [|r rs Hr Hv IH]; intros a E.
  - destruct a; [|done]. cbn in E. subst b. split; apply utf8_empty.
  - destruct a as [|c a]. { split; [apply utf8_empty|]. exists (r :: rs). split; [by constructor|done]. }
    rewrite encode_cons in E. apply sapp_eq in E as [(l & E1 & E2)|(l & E1 & E2)].
    + destruct (IH l (eq_sym E2)) as [H1 H2]. split; [|done]. rewrite E1. apply utf8_app; [by apply utf8_rune|done].
    + destruct (enc_shape r Hr) as (d & t & E3 & _ & Ht & _). destruct l as [|x l].
      * rewrite sapp_nil in E1. rewrite <-E1. split; [by apply utf8_rune|]. exists rs. split; [done|]. by rewrite E2.
      * exfalso. rewrite E3 in E1. injection E1 as -> ->. apply all_cont_app in Ht as [_ [Ht _]]. rewrite E2 in Hb. done.
Qed.
Lemma utf8_cancel a b : utf8 a → utf8 (a +:+ b) → utf8 b.
Proof.
  intros (rs & Hv & ->). induction Hv as [|r rs Hr Hv IH]; [done|]. rewrite encode_cons, sapp_assoc. intros (rs' & Hv' & E').
  destruct Hv' as [|r' rs' Hr' Hv'].
  { destruct (enc_shape r Hr) as (c & t & E & _). rewrite E in E'. done. }
  rewrite encode_cons in E'. pose proof (decode_encode r (encode rs +:+ b) Hr) as D1. pose proof (decode_encode r' (encode rs') Hr') as D2.
  rewrite E', D2 in D1. injection D1 as ->. assert (encode rs +:+ b = encode rs') as E2.
  { clear -E'. revert E'. generalize (encode_rune r). intros x. induction x as [|c x IHx]; [done|]. cbn. intros H. injection H as H. auto. }
  apply IH. exists rs'. by split.
Qed.
Lemma utf8_tail c s : (byteZ c < 128)%Z → utf8 (String c s) → utf8 s.
Proof. intros Hc H. apply (utf8_cancel (String c "")); [by apply utf8_cons; [|apply utf8_empty]|done]. Qed.
Lemma blank_utf8 b : blank b → utf8 b.
Proof. intros (rs & Hs & ->). exists rs. split; [by apply spaces_valid|done]. Qed.
Lemma utf8_TrimSpace s : utf8 s → utf8 (TrimSpace s).
Proof.
  intros H. destruct (TrimSpace_spec s) as (a & b & Ha & Hb & E & _). rewrite E in H. apply utf8_cancel in H; [|by apply blank_utf8].
  apply utf8_split in H as [H _]; [done|]. by apply utf8_starts, blank_utf8.
Qed.

(** ** Fields *)
Lemma fields_skip t s : ∀ cur sp, fields_from cur (String.length t) sp (t +:+ s) = fields_from (if (sp : bool) then cur else cur +:+ t) 0 sp s.
Proof.
  induction t as [|c t IH]; intros cur sp; cbn [String.length String.append].
  - destruct sp; [done|]. by rewrite sapp_nil.
  - cbn [fields_from]. rewrite IH. destruct sp; [done|]. by rewrite sapp_assoc.
Qed.
Lemma flush_utf8 cur l : utf8 cur → Forall utf8 l → Forall utf8 (flush cur l).
Proof. intros H1 H2. destruct cur; [done|]. by constructor. Qed.
Lemma fields_any cur b s : fields_from cur 0 b s = fields_from cur 0 false s.
Proof. by destruct s. Qed.
Lemma utf8_fields rs : Forall (λ r, valid_rune r = true) rs → ∀ cur sp, utf8 cur → Forall utf8 (fields_from cur 0 sp (encode rs)).
Proof.
  intros Hv. induction Hv as [|r rs Hr Hv IH]; intros cur sp Hc; [by apply flush_utf8|].
  pose proof (decode_encode r (encode rs) Hr) as D. rewrite encode_cons. destruct (enc_shape r Hr) as (c & t & E & _).
  pose proof (encode_rune_length r Hr) as L. rewrite E in *. cbn [String.append String.length] in *. cbn [fields_from]. rewrite D, <-L. cbn [Nat.sub]. rewrite Nat.sub_0_r.
  rewrite !fields_skip. destruct (IsSpace r); [apply flush_utf8; [done|]; apply IH, utf8_empty|].
  apply IH. rewrite sapp_assoc. apply utf8_app; [done|]. cbn. rewrite <-E. by apply utf8_rune.
Qed.
Lemma utf8_Fields s : utf8 s → Forall utf8 (Fields s).
Proof. intros (rs & Hv & ->). apply utf8_fields; [done|apply utf8_empty]. Qed.

(** ** Splitting and joining *)
Lemma split_pre c p s : lacks c p → split_on c (p +:+ s) = match split_on c s with [] => [p] | x :: r => (p +:+ x) :: r end.
Proof.
  induction p as [|a p IH]; intros Hl.
  - cbn. pose proof (split_on_ne c s). by destruct (split_on c s).
  - destruct Hl as [H1 H2]. cbn [String.append split_on]. rewrite (proj2 (Ascii.eqb_neq a c) H1), IH by done. by destruct (split_on c s).
Qed.
Lemma cont_lacks c t : (byteZ c < 128)%Z → all_cont t → lacks c t.
Proof.
  intros Hc. induction t as [|a t IH]; intros H; [done|]. destruct H as [H1 H2]. split; [|by apply IH]. intros ->. unfold cont in H1. lia.
Qed.
Lemma utf8_split_on c s : (byteZ c < 128)%Z → utf8 s → Forall utf8 (split_on c s).
Proof.
  intros Hc (rs & Hv & ->). induction Hv as [|r rs Hr Hv IH]; [cbn; constructor; [apply utf8_empty|done]|].
  rewrite encode_cons. destruct (enc_shape r Hr) as (d & t & E & Hd & Ht & Ha). destruct (decide (d = c)) as [->|Hn].
  - destruct (Ha Hc) as [-> _]. rewrite E. cbn [String.append split_on]. rewrite Ascii.eqb_refl. constructor; [apply utf8_empty|done].
  - rewrite split_pre.
    + pose proof (split_on_ne c (encode rs)) as Hne. destruct (split_on c (encode rs)) as [|x l]; [done|].
      inversion IH; subst. constructor; [|done]. apply utf8_app; [by apply utf8_rune|done].
    + rewrite E. split; [done|]. by apply cont_lacks.
Qed.
Lemma utf8_join sep l : utf8 sep → Forall utf8 l → utf8 (go_join sep l).
Proof.
  intros Hs Hl. induction Hl as [|x l Hx Hl IH]; [apply utf8_empty|]. destruct l as [|y l]; [done|].
  rewrite join_cons by done. apply utf8_app; [done|]. by apply utf8_app.
Qed.
Lemma utf8_ascii s : (∀ c, c ∈ String.list_ascii_of_string s → (byteZ c < 128)%Z) → utf8 s.
Proof.
  induction s as [|c s IH]; intros H; [apply utf8_empty|]. apply utf8_cons; [apply H; by left|]. apply IH. intros d Hd. apply H. by right.
Qed.
