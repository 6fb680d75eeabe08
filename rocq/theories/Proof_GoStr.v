(** Facts about the library functions of Model_GoStr.v. *)
From Verif Require Import Model_GoStr.
From Coq Require Import Lia.
From stdpp Require Import options.
#[global] Arguments String.append !_ _ : simpl nomatch.

(** ** Bytes and strings *)

Lemma byteZ_range c : (0 ≤ byteZ c < 256)%Z.
Proof. unfold byteZ. pose proof (Ascii.nat_ascii_bounded c). lia. Qed.

Lemma byteZ_Zbyte z : (0 ≤ z < 256)%Z → byteZ (Zbyte z) = z.
Proof. intros. unfold byteZ, Zbyte. rewrite Ascii.nat_ascii_embedding by lia. lia. Qed.

Lemma Zbyte_byteZ c : Zbyte (byteZ c) = c.
Proof. unfold byteZ, Zbyte. rewrite Nat2Z.id. apply Ascii.ascii_nat_embedding. Qed.

Lemma sapp_assoc a b c : (a +:+ b) +:+ c = a +:+ (b +:+ c).
Proof. induction a; simpl; [done|]. by rewrite IHa. Qed.
Lemma sapp_nil a : a +:+ "" = a.
Proof. induction a; simpl; [done|]. by rewrite IHa. Qed.
Lemma sapp_length a b : String.length (a +:+ b) = (String.length a + String.length b)%nat.
Proof. induction a; simpl; [done|]. by rewrite IHa. Qed.

Lemma str_drop_app a b : str_drop (String.length a) (a +:+ b) = Ok b.
Proof. induction a; simpl; done. Qed.

Lemma str_drop_ok n s : (n ≤ String.length s)%nat → ∃ a b, s = a +:+ b ∧ String.length a = n ∧ str_drop n s = Ok b.
Proof.
  revert s. induction n as [|n IH]; intros s Hn.
  - exists "", s. by destruct s.
  - destruct s as [|c s]; simpl in *; [lia|]. destruct (IH s) as (a & b & -> & Ha & Hb); [lia|].
    exists (String c a), b. simpl. split; [done|]. split; [lia|done].
Qed.

Lemma str_drop_panic n s : (String.length s < n)%nat → str_drop n s = Panic.
Proof. revert s. induction n; intros s Hn; [lia|]. destruct s; simpl in *; [done|]. apply IHn. lia. Qed.

(** ** Split and Join *)

Lemma split_on_ne c s : split_on c s ≠ [].
Proof.
  destruct s as [|a s]; simpl; [done|]. destruct (Ascii.eqb a c); [done|].
  by destruct (split_on c s).
Qed.

Lemma join_cons sep x r : r ≠ [] → go_join sep (x :: r) = x +:+ sep +:+ go_join sep r.
Proof. by destruct r. Qed.

Lemma join_split c s : go_join (String c "") (split_on c s) = s.
Proof.
  induction s as [|a s IH]; [done|]. cbn [split_on].
  pose proof (split_on_ne c s) as Hne.
  destruct (Ascii.eqb a c) eqn:E.
  - apply Ascii.eqb_eq in E. subst. rewrite join_cons by done. simpl. by rewrite IH.
  - destruct (split_on c s) as [|x r] eqn:Es; [done|].
    destruct r as [|y r].
    + simpl in *. by rewrite IH.
    + rewrite join_cons by done. rewrite join_cons in IH by done. simpl. f_equal. exact IH.
Qed.

Lemma lacks_app c a b : lacks c (a +:+ b) ↔ lacks c a ∧ lacks c b.
Proof. induction a; simpl; [tauto|]. rewrite IHa. tauto. Qed.

Lemma split_lacks c s x : x ∈ split_on c s → lacks c x.
Proof.
  revert x. induction s as [|a s IH]; intros x Hx; simpl in Hx.
  - apply elem_of_list_singleton in Hx. by subst.
  - destruct (Ascii.eqb a c) eqn:E.
    + apply elem_of_cons in Hx as [-> |Hx]; [done|]. by apply IH.
    + apply Ascii.eqb_neq in E. destruct (split_on c s) as [|y r] eqn:Es.
      * apply elem_of_list_singleton in Hx as ->. simpl. done.
      * apply elem_of_cons in Hx as [-> |Hx].
        -- simpl. split; [done|]. apply IH. left.
        -- apply IH. by right.
Qed.

Lemma split_on_lacks c s : lacks c s → split_on c s = [s].
Proof.
  induction s as [|a s IH]; [done|]. intros [Ha Hs]. simpl. apply Ascii.eqb_neq in Ha.
  by rewrite Ha, IH.
Qed.

Lemma split_on_app c x s : lacks c x → split_on c (x +:+ String c s) = x :: split_on c s.
Proof.
  induction x as [|a x IH]; simpl.
  - intros _. by rewrite Ascii.eqb_refl.
  - intros [Ha Hx]. apply Ascii.eqb_neq in Ha. rewrite Ha, IH by done. done.
Qed.

Lemma split_join c l : l ≠ [] → (∀ x, x ∈ l → lacks c x) → split_on c (go_join (String c "") l) = l.
Proof.
  induction l as [|x r IH]; [done|]. intros _ Hl.
  destruct r as [|y r].
  - simpl. apply split_on_lacks. apply Hl. left.
  - rewrite join_cons by done. simpl (String c "" +:+ _).
    rewrite split_on_app by (apply Hl; left). f_equal. apply IH; [done|].
    intros z Hz. apply Hl. by right.
Qed.

(** Splitting a string joined from two parts. *)
Lemma split_on_snoc c s x : lacks c x →
  split_on c (s +:+ String c x) = split_on c s ++ [x].
Proof.
  intros Hx. rewrite <-(join_split c s) at 1.
  assert (∀ l, l ≠ [] → go_join (String c "") l +:+ String c x = go_join (String c "") (l ++ [x])) as E.
  { intros l. induction l as [|y r IH]; [done|]. intros _. destruct r as [|z r]; [done|].
    rewrite <-app_comm_cons, (join_cons _ y (z :: r)), (join_cons _ y ((z :: r) ++ [x])) by done.
    rewrite !sapp_assoc. f_equal. f_equal. by apply IH. }
  rewrite E by apply split_on_ne. apply split_join.
  - by destruct (split_on c s).
  - intros y Hy. apply elem_of_app in Hy as [Hy|Hy]; [by eapply split_lacks|].
    by apply elem_of_list_singleton in Hy as ->.
Qed.

(** ** HasPrefix and Index *)

Lemma has_prefix_spec s p : has_prefix s p = true ↔ ∃ r, s = p +:+ r.
Proof.
  revert s. induction p as [|a p IH]; intros s; destruct s as [|b s]; simpl.
  - split; [by exists ""|done].
  - split; [by eexists|done].
  - split; [done|]. by intros [r ?].
  - destruct (Ascii.eqb a b) eqn:E.
    + apply Ascii.eqb_eq in E as ->. rewrite IH. split; intros [r Hr]; exists r; [by rewrite Hr|].
      by inversion Hr.
    + apply Ascii.eqb_neq in E. split; [done|]. intros [r Hr]. by inversion Hr.
Qed.

Lemma str_index_some s sub i : str_index s sub = Some i →
  ∃ a b, s = a +:+ sub +:+ b ∧ String.length a = i.
Proof.
  revert i. induction s as [|c s IH]; intros i; cbn [str_index].
  - destruct (has_prefix "" sub) eqn:E; [|done]. intros [= <-].
    apply has_prefix_spec in E as [r Hr]. exists "", r. done.
  - destruct (has_prefix (String c s) sub) eqn:E.
    + intros [= <-]. apply has_prefix_spec in E as [r Hr]. by exists "", r.
    + destruct (str_index s sub) as [j|] eqn:Ej; [|done]. intros [= <-].
      destruct (IH j eq_refl) as (a & b & -> & Ha). exists (String c a), b. simpl. split; [done|lia].
Qed.

Lemma str_index_prefix s sub : has_prefix s sub = true → str_index s sub = Some O.
Proof. intros H. destruct s; cbn [str_index]; by rewrite H. Qed.

Lemma str_index_zero s sub : str_index s sub = Some O → has_prefix s sub = true.
Proof.
  destruct s as [|c s]; cbn [str_index].
  - by destruct (has_prefix "" sub).
  - destruct (has_prefix (String c s) sub); [done|]. by destruct (str_index s sub).
Qed.

Lemma str_index_none s sub : str_index s sub = None → ∀ a b, s ≠ a +:+ sub +:+ b.
Proof.
  induction s as [|c s IH]; cbn [str_index]; intros H a b Hab.
  - destruct (has_prefix "" sub) eqn:E; [done|]. apply not_true_iff_false in E. apply E.
    apply has_prefix_spec. destruct a; simpl in Hab; [by exists b|done].
  - destruct (has_prefix (String c s) sub) eqn:E; [done|].
    destruct (str_index s sub) eqn:Ej; [done|].
    destruct a as [|a0 a]; simpl in Hab.
    + apply not_true_iff_false in E. apply E. apply has_prefix_spec. by exists b.
    + injection Hab as _ Hab. by eapply IH.
Qed.

(** ** Decimal numbers *)

Lemma digit_val_pretty (d : N) : (d < 10)%N → digit_val (pretty_N_char d) = Some (Z.of_N d).
Proof.
  intros Hd. assert (d = 0 ∨ d = 1 ∨ d = 2 ∨ d = 3 ∨ d = 4 ∨ d = 5 ∨ d = 6 ∨ d = 7 ∨ d = 8 ∨ d = 9)%N as Hc by lia.
  destruct_or! Hc; subst; reflexivity.
Qed.

Lemma parse_pretty_go (x : N) s : (0 < x)%N → parse_digits 0 (pretty_N_go x s) = parse_digits (Z.of_N x) s.
Proof.
  revert s. induction x as [x IH] using (well_founded_induction N.lt_wf_0). intros s Hx.
  rewrite pretty_N_go_step by done.
  pose proof (N.mod_lt x 10). pose proof (N.div_mod x 10).
  destruct (decide (x / 10 = 0)%N) as [E|E].
  - rewrite E, pretty_N_go_0. simpl. rewrite digit_val_pretty by lia. f_equal. lia.
  - rewrite IH; [|apply N.div_lt; lia|lia]. simpl. rewrite digit_val_pretty by lia. f_equal. lia.
Qed.

Lemma pretty_go_head (x : N) s : (0 < x)%N → ∃ c r, pretty_N_go x s = String c r ∧
  (48 ≤ byteZ c ≤ 57)%Z.
Proof.
  revert s. induction x as [x IH] using (well_founded_induction N.lt_wf_0). intros s Hx.
  rewrite pretty_N_go_step by done.
  destruct (decide (x / 10 = 0)%N) as [E|E].
  - rewrite E, pretty_N_go_0. eexists _, _. split; [done|].
    pose proof (digit_val_pretty (x mod 10)) as Hd. pose proof (N.mod_lt x 10).
    unfold digit_val in Hd. assert (x mod 10 < 10)%N as Hlt by (apply N.mod_lt; lia). specialize (Hd Hlt).
    destruct ((48 <=? _)%Z) eqn:E1; [|done]. destruct ((_ <=? 57)%Z) eqn:E2; [|done]. lia.
  - apply IH; [apply N.div_lt; lia|by apply N.neq_0_lt_0].
Qed.

Lemma ParseInt_FormatInt z : in_int64 z → ParseInt (FormatInt z) = Ok z.
Proof.
  intros Hz. destruct z as [|p|p].
  - reflexivity.
  - assert (FormatInt (Zpos p) = pretty_N_go (Npos p) "") as -> by done.
    destruct (pretty_go_head (Npos p) "") as (c & r & E & Hc); [lia|].
    pose proof (parse_pretty_go (Npos p) "") as Hp. rewrite E in *.
    unfold ParseInt. replace (byteZ c =? 45)%Z with false by lia. replace (byteZ c =? 43)%Z with false by lia.
    cbv beta. rewrite Hp by lia. simpl. by rewrite bool_decide_true.
  - assert (FormatInt (Zneg p) = String (Zbyte 45) (pretty_N_go (Npos p) "")) as -> by done.
    destruct (pretty_go_head (Npos p) "") as (c & r & E & Hc); [lia|].
    pose proof (parse_pretty_go (Npos p) "") as Hp. rewrite E in *.
    unfold ParseInt. change (byteZ (Zbyte 45) =? 45)%Z with true. cbv iota.
    cbv beta. rewrite Hp by lia. simpl. by rewrite bool_decide_true.
Qed.
