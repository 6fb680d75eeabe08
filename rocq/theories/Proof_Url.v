(** Facts about net/url: what [url_string] writes is read back by [Parse]. *)
From Verif Require Import Model_Url Spec_Ssh Proof_GoStr.
From Coq Require Import Lia.
From stdpp Require Import options.
Import Model_GoStr.
#[local] Open Scope Z_scope.
#[global] Arguments String.append !_ _ : simpl nomatch.

Ltac bytes_of c := destruct c as [[] [] [] [] [] [] [] []].

(** ** Bytes *)

Lemma percent_char c : byteZ c = 37 → c = Zbyte 37.
Proof. intros H. by rewrite <-(Zbyte_byteZ c), H. Qed.

Lemma hex_back c :
  unhex (upper_hex (byteZ c / 16)) = Some (byteZ c / 16) ∧
  unhex (upper_hex (byteZ c mod 16)) = Some (byteZ c mod 16) ∧
  Zbyte (16 * (byteZ c / 16) + byteZ c mod 16) = c ∧ 16 * (byteZ c / 16) + byteZ c mod 16 = byteZ c.
Proof. bytes_of c; by vm_compute. Qed.

Lemma hex_alnum c : is_alnum (byteZ (upper_hex (byteZ c / 16))) = true ∧ is_alnum (byteZ (upper_hex (byteZ c mod 16))) = true.
Proof. bytes_of c; by vm_compute. Qed.

Lemma alnum_stays c mode : is_alnum (byteZ c) = true → shouldEscape c mode = false.
Proof. intros H. unfold shouldEscape. by rewrite H. Qed.
Lemma percent_escaped mode : shouldEscape (Zbyte 37) mode = true.
Proof. by destruct mode. Qed.

(** ** Walking through a text *)

Lemma lacks_app c a b : lacks c (a +:+ b) ↔ lacks c a ∧ lacks c b.
Proof. induction a as [|x a IH]; cbn; [tauto|]. rewrite IH. tauto. Qed.

Lemma all_app p a b : all_bytes p (a +:+ b) = all_bytes p a && all_bytes p b.
Proof. induction a as [|x a IH]; cbn; [done|]. rewrite IH. by destruct (p _). Qed.

(** Escaped texts consist of bytes that need no escaping and percent signs. *)
Lemma escape_all p mode s :
  (∀ c, shouldEscape c mode = false → p (byteZ c) = true) → p 37 = true → all_bytes p (escape mode s) = true.
Proof.
  intros Hp H37. induction s as [|c s IH]; [done|]. cbn [escape].
  destruct (shouldEscape c mode) eqn:E; unfold percent; cbn [all_bytes].
  - rewrite (byteZ_Zbyte 37) by lia. rewrite H37, IH. destruct (hex_alnum c) as [H1 H2].
    by rewrite (Hp _ (alnum_stays _ mode H1)), (Hp _ (alnum_stays _ mode H2)).
  - by rewrite (Hp _ E), IH.
Qed.

Lemma all_lacks c s : all_bytes (λ b, negb (b =? byteZ c)) s = true → lacks c s.
Proof.
  induction s as [|x s IH]; cbn; [done|]. intros [H1 H2]%andb_true_iff. split; [|auto].
  intros ->. by rewrite Z.eqb_refl in H1.
Qed.

Lemma escape_lacks mode c s : shouldEscape c mode = true → c ≠ Zbyte 37 → lacks c (escape mode s).
Proof.
  intros Hc Hp. apply all_lacks, escape_all.
  - intros x Hx. apply negb_true_iff, Z.eqb_neq. intros E.
    assert (x = c) as -> by (rewrite <-(Zbyte_byteZ x), E; apply Zbyte_byteZ). congruence.
  - apply negb_true_iff, Z.eqb_neq. intros E. apply Hp, percent_char. done.
Qed.

(** ** Reading escapes *)

Lemma unescape_percent mode c t :
  unescape mode (percent c t) =
  if bool_decide (mode = encodeHost) && (byteZ c / 16 <? 8) && negb (byteZ c =? 37) then None
  else if bool_decide (mode = encodeZone) && negb (zone_ok (byteZ c)) then None
  else String c <$> unescape mode t.
Proof.
  unfold percent. cbn [unescape]. rewrite (byteZ_Zbyte 37) by lia.
  destruct (hex_back c) as (-> & -> & H3 & H4). change (37 =? 37) with true. cbv iota zeta. by rewrite H3, H4.
Qed.

Lemma unescape_plain mode c t :
  shouldEscape c mode = false → unescape mode (String c t) = String c <$> unescape mode t.
Proof.
  intros H. cbn [unescape]. destruct (Z.eqb_spec (byteZ c) 37) as [E|_].
  - apply percent_char in E as ->. by rewrite percent_escaped in H.
  - rewrite H. by rewrite andb_false_r.
Qed.

Lemma unescape_escape mode s t :
  mode ≠ encodeHost → mode ≠ encodeZone → unescape mode (escape mode s +:+ t) = String.append s <$> unescape mode t.
Proof.
  intros Hh Hz. induction s as [|c s IH].
  - cbn. destruct (unescape mode t); done.
  - cbn [escape]. destruct (shouldEscape c mode) eqn:E.
    + change (percent c (escape mode s) +:+ t) with (percent c (escape mode s +:+ t)).
      rewrite unescape_percent, IH. rewrite (bool_decide_eq_false_2 (mode = encodeHost)), (bool_decide_eq_false_2 (mode = encodeZone)) by done.
      cbn [andb]. by destruct (unescape mode t).
    + change (String c (escape mode s) +:+ t) with (String c (escape mode s +:+ t)).
      rewrite unescape_plain by done. rewrite IH. by destruct (unescape mode t).
Qed.

Lemma unescape_user s : unescape encodeUserPassword (escape encodeUserPassword s) = Some s.
Proof. pose proof (unescape_escape encodeUserPassword s "") as H. rewrite sapp_nil in H. rewrite H by done. cbn. by rewrite sapp_nil. Qed.
Lemma unescape_path s : unescape encodePath (escape encodePath s) = Some s.
Proof. pose proof (unescape_escape encodePath s "") as H. rewrite sapp_nil in H. rewrite H by done. cbn. by rewrite sapp_nil. Qed.

(** ** Cutting *)

Lemma cut_at c a b : lacks c a → cut c (a +:+ String c b) = (a, Some b).
Proof.
  induction a as [|x a IH]; cbn.
  - intros _. by rewrite Ascii.eqb_refl.
  - intros [H1 H2]. destruct (Ascii.eqb_spec x c) as [->|_]; [done|]. by rewrite IH.
Qed.
Lemma cut_none c a : lacks c a → cut c a = (a, None).
Proof.
  induction a as [|x a IH]; cbn; [done|]. intros [H1 H2].
  destruct (Ascii.eqb_spec x c) as [->|_]; [done|]. by rewrite IH.
Qed.
Lemma cut_some c a : ¬ lacks c a → ∃ x y, cut c a = (x, Some y).
Proof.
  induction a as [|x a IH]; cbn; [tauto|]. intros H.
  destruct (Ascii.eqb_spec x c) as [->|Hn]; [eauto|].
  destruct IH as (y & z & ->); [tauto|]. eauto.
Qed.
Lemma cut_last_none c b : lacks c b → cut_last c b = None.
Proof.
  induction b as [|x b IH]; cbn; [done|]. intros [H1 H2]. rewrite (IH H2).
  by destruct (Ascii.eqb_spec x c) as [->|_].
Qed.
Lemma cut_last_at c a b : lacks c b → cut_last c (a +:+ String c b) = Some (a, b).
Proof.
  intros H. induction a as [|x a IH].
  - cbn. rewrite (cut_last_none c b H). by rewrite Ascii.eqb_refl.
  - change (String x a +:+ String c b) with (String x (a +:+ String c b)). cbn. by rewrite IH.
Qed.

Lemma lacks_dec c s : {lacks c s} + {¬ lacks c s}.
Proof.
  induction s as [|x s IH]; cbn; [by left|].
  destruct (Ascii.ascii_dec x c) as [->|]; [right; tauto|]. destruct IH; [left|right]; tauto.
Qed.

(** ** Ports and hosts *)

Lemma digits_all s : each digit s → all_bytes (inr 48 57) s = true.
Proof.
  induction s as [|c s IH]; cbn; [done|]. intros [[H1 H2] H]. rewrite IH by done. unfold inr.
  apply Z.leb_le in H1, H2. by rewrite H1, H2.
Qed.
Lemma digits_lack c s : each digit s → ¬ digit c → lacks c s.
Proof. induction s as [|x s IH]; cbn; [done|]. intros [H1 H] Hc. split; [by intros ->|auto]. Qed.

Definition host_b (c : Ascii.ascii) : bool :=
  let b := byteZ c in
  inr 48 57 b || inr 65 90 b || inr 97 122 b || bool_decide (c ∈ str_bytes ("-_.~!$&'()*+,;=:[]<>" +:+ dquote)).
Lemma host_b_ok c : ascii_host c → host_b c = true.
Proof.
  unfold ascii_host, digit, letter, host_b, inr. intros H. rewrite !orb_true_iff, !andb_true_iff, !Z.leb_le.
  rewrite bool_decide_eq_true. tauto.
Qed.
Lemma ascii_host_stays c mode : ascii_host c → mode = encodeHost ∨ mode = encodeZone → shouldEscape c mode = false.
Proof.
  intros H%host_b_ok Hm.
  enough (host_b c && (shouldEscape c encodeHost || shouldEscape c encodeZone) = false) as E.
  { rewrite H in E. cbn [andb] in E. apply orb_false_iff in E as [E1 E2]. by destruct Hm as [->| ->]. }
  clear. bytes_of c; by vm_compute.
Qed.
Lemma high_escaped c mode : 128 ≤ byteZ c → shouldEscape c mode = true.
Proof.
  intros H%Z.leb_le. enough ((128 <=? byteZ c) && negb (shouldEscape c mode) = false) as E.
  { rewrite H in E. by apply negb_false_iff in E. }
  clear. destruct mode; bytes_of c; by vm_compute.
Qed.

(** In the text of a host *)
Lemma escape_host s t :
  each (λ c, any_host c ∨ c = Zbyte 37) s →
  unescape encodeHost (escape encodeHost s +:+ t) = String.append s <$> unescape encodeHost t.
Proof.
  induction s as [|c s IH]; [cbn; destruct (unescape encodeHost t); done|]. cbn [each]. intros [Hc Hs]. cbn [escape].
  destruct (shouldEscape c encodeHost) eqn:E.
  - change (percent c (escape encodeHost s) +:+ t) with (percent c (escape encodeHost s +:+ t)).
    rewrite unescape_percent, (IH Hs). rewrite bool_decide_eq_true_2 by done. rewrite (bool_decide_eq_false_2 (encodeHost = encodeZone)) by done.
    destruct Hc as [[Hc|Hc]| ->].
    + rewrite ascii_host_stays in E by auto. done.
    + replace (byteZ c / 16 <? 8) with false by (symmetry; apply Z.ltb_ge, Z.div_le_lower_bound; lia).
      cbn [andb]. by destruct (unescape encodeHost t).
    + rewrite (byteZ_Zbyte 37) by lia. cbn [andb negb Z.eqb]. change (37 =? 37) with true. rewrite andb_false_r. by destruct (unescape encodeHost t).
  - change (String c (escape encodeHost s) +:+ t) with (String c (escape encodeHost s +:+ t)).
    rewrite unescape_plain by done. rewrite (IH Hs). by destruct (unescape encodeHost t).
Qed.
(** In a zone, which is written as a host and read in its own way *)
Lemma escape_zone s :
  each zone_byte s → unescape encodeZone (escape encodeHost s) = Some s.
Proof.
  induction s as [|c s IH]; [done|]. cbn [each]. intros [Hc Hs]. cbn [escape].
  destruct (shouldEscape c encodeHost) eqn:E.
  - rewrite unescape_percent, (IH Hs). rewrite (bool_decide_eq_false_2 (encodeZone = encodeHost)) by done. rewrite bool_decide_eq_true_2 by done.
    cbn [andb]. destruct Hc as [Hc|Hc]; [rewrite ascii_host_stays in E by auto; done|].
    unfold one_of in Hc. cbn in Hc. apply elem_of_cons in Hc as [->|Hc]; [done|].
    apply elem_of_cons in Hc as [->|Hc]; [done|]. by apply elem_of_nil in Hc.
  - destruct Hc as [Hc|Hc].
    + rewrite unescape_plain by (apply ascii_host_stays; auto). by rewrite (IH Hs).
    + unfold one_of in Hc. cbn in Hc. apply elem_of_cons in Hc as [->|Hc]; [done|].
      apply elem_of_cons in Hc as [->|Hc]; [done|]. by apply elem_of_nil in Hc.
Qed.

Lemma escape_app mode a b : escape mode (a +:+ b) = escape mode a +:+ escape mode b.
Proof.
  induction a as [|c a IH]; [done|]. change (String c a +:+ b) with (String c (a +:+ b)). cbn [escape]. rewrite IH.
  by destruct (shouldEscape c mode).
Qed.
Lemma escape_id mode s : each (λ c, shouldEscape c mode = false) s → escape mode s = s.
Proof. induction s as [|c s IH]; [done|]. cbn [each escape]. intros [-> H]. by rewrite (IH H). Qed.
Lemma each_mono (p q : Ascii.ascii → Prop) s : (∀ c, p c → q c) → each p s → each q s.
Proof. intros H. induction s as [|c s IH]; cbn; [done|]. intros [? ?]. auto. Qed.
Lemma each_app p a b : each p (a +:+ b) ↔ each p a ∧ each p b.
Proof. induction a as [|c a IH]; cbn; [tauto|]. rewrite IH. tauto. Qed.
Lemma digit_host c : digit c → ascii_host c.
Proof. by left. Qed.
Lemma escape_digits mode s : mode = encodeHost ∨ mode = encodeZone → each digit s → escape mode s = s.
Proof. intros Hm H. apply escape_id. eapply each_mono; [|exact H]. intros c Hc. apply ascii_host_stays; [by left|done]. Qed.

Lemma substring_fst x y : substring 0 (String.length x) (x +:+ y) = x.
Proof. induction x as [|c x IH]; [by destruct y|]. change (String c x +:+ y) with (String c (x +:+ y)). cbn. by rewrite IH. Qed.
Lemma substring_all y : substring 0 (String.length y) y = y.
Proof. pose proof (substring_fst y "") as H. by rewrite sapp_nil in H. Qed.
Lemma substring_snd x y : substring (String.length x) (String.length (x +:+ y) - String.length x) (x +:+ y) = y.
Proof.
  rewrite sapp_length. replace (String.length x + String.length y - String.length x)%nat with (String.length y) by lia.
  induction x as [|c x IH]; [apply substring_all|]. change (String c x +:+ y) with (String c (x +:+ y)). cbn. done.
Qed.

Lemma not_percent c s : c ≠ Zbyte 37 → has_prefix (String c s) "%25" = false.
Proof. intros H. cbn [has_prefix]. match goal with |- context [Ascii.eqb ?x c] => destruct (Ascii.eqb_spec x c) as [<-|] end; [|done]. by exfalso. Qed.
Lemma index_step c s p : has_prefix (String c s) p = false → str_index (String c s) p = S <$> str_index s p.
Proof. intros H. cbn [str_index]. rewrite H. by destruct (str_index s p). Qed.
Lemma index_skip c s : c ≠ Zbyte 37 → str_index (String c s) "%25" = S <$> str_index s "%25".
Proof. intros H. cbn [str_index]. rewrite not_percent by done. by destruct (str_index s "%25"). Qed.

Lemma index_escaped s t :
  each any_host s →
  str_index (escape encodeHost s +:+ t) "%25" = Nat.add (String.length (escape encodeHost s)) <$> str_index t "%25".
Proof.
  induction s as [|c s IH]; [intros _; cbn; by destruct (str_index t "%25")|]. cbn [each escape]. intros [Hc Hs].
  destruct (shouldEscape c encodeHost) eqn:E.
  - assert (128 ≤ byteZ c) as Hb. { destruct Hc as [Hc|Hc]; [|done]. rewrite ascii_host_stays in E by auto. done. }
    change (percent c (escape encodeHost s) +:+ t) with (percent c (escape encodeHost s +:+ t)).
    assert (∀ u, str_index (percent c u) "%25" = Nat.add 3 <$> str_index u "%25") as Hi.
    { intros u. unfold percent. rewrite index_step.
      2: { cbn [has_prefix]. match goal with |- (if ?b then _ else _) = _ => change b with true end. cbv iota.
        change (Ascii.Ascii false true false false true true false false) with (Zbyte 50).
        assert (Ascii.eqb (Zbyte 50) (upper_hex (byteZ c / 16)) = false) as ->; [|done].
        apply Z.leb_le in Hb. enough ((128 <=? byteZ c) && Ascii.eqb (Zbyte 50) (upper_hex (byteZ c / 16)) = false) as X.
        { by rewrite Hb in X. }
        clear. bytes_of c; by vm_compute. }
      destruct (hex_alnum c) as [H1 H2].
      rewrite index_skip by (intros X; rewrite X in H1; by vm_compute in H1).
      rewrite index_skip by (intros X; rewrite X in H2; by vm_compute in H2).
      by destruct (str_index u "%25"). }
    rewrite Hi, (IH Hs). by destruct (str_index t "%25").
  - change (String c (escape encodeHost s) +:+ t) with (String c (escape encodeHost s +:+ t)).
    rewrite index_skip by (intros ->; by rewrite percent_escaped in E). rewrite (IH Hs).
    by destruct (str_index t "%25").
Qed.

Lemma any_percent s : each any_host s → each (λ c, any_host c ∨ c = Zbyte 37) s.
Proof. apply each_mono. auto. Qed.

Lemma port_text port : each digit port → unescape encodeHost (String (Zbyte 58) port) = Some (String (Zbyte 58) port).
Proof.
  intros H. pose proof (escape_host (String (Zbyte 58) port) "") as E. rewrite sapp_nil in E.
  rewrite escape_id in E.
  - rewrite E; [cbn; by rewrite sapp_nil|]. split.
    + left. left. right. right. unfold one_of. apply (bool_decide_eq_true_1 _). by vm_compute.
    + eapply each_mono; [|exact H]. intros c Hc. left. left. by left.
  - split; [done|]. eapply each_mono; [|exact H]. intros c Hc. apply ascii_host_stays; [by left|auto].
Qed.
Lemma close_port port : each digit port → unescape encodeHost (String (Zbyte 93) (String (Zbyte 58) port)) = Some (String (Zbyte 93) (String (Zbyte 58) port)).
Proof. intros H. rewrite unescape_plain by done. by rewrite port_text. Qed.

Lemma valid_port port : each digit port → validOptionalPort (String (Zbyte 58) port) = true.
Proof. intros H. cbn [validOptionalPort]. rewrite (byteZ_Zbyte 58) by lia. by rewrite digits_all. Qed.

Lemma JoinHostPort_name h port : lacks (Zbyte 58) h → JoinHostPort h port = h +:+ String (Zbyte 58) port.
Proof. intros H. unfold JoinHostPort. by rewrite (cut_none _ _ H). Qed.
Lemma JoinHostPort_address h port :
  ¬ lacks (Zbyte 58) h → JoinHostPort h port = String (Zbyte 91) (h +:+ String (Zbyte 93) (String (Zbyte 58) port)).
Proof. intros H. unfold JoinHostPort. by destruct (cut_some _ _ H) as (x & y & ->). Qed.

Lemma escape_close port : each digit port → escape encodeHost (String (Zbyte 93) (String (Zbyte 58) port)) = String (Zbyte 93) (String (Zbyte 58) port).
Proof. intros H. cbn [escape]. change (shouldEscape (Zbyte 93) encodeHost) with false. change (shouldEscape (Zbyte 58) encodeHost) with false. cbv iota. by rewrite escape_digits by auto. Qed.
Lemma escape_colon port : each digit port → escape encodeHost (String (Zbyte 58) port) = String (Zbyte 58) port.
Proof. intros H. cbn [escape]. change (shouldEscape (Zbyte 58) encodeHost) with false. cbv iota. by rewrite escape_digits by auto. Qed.

Lemma digit_not z c : ¬ (48 ≤ z ≤ 57) → 0 ≤ z < 256 → c = Zbyte z → ¬ digit c.
Proof. intros H Hz ->. unfold digit. by rewrite byteZ_Zbyte. Qed.

Lemma has_prefix_nil x : has_prefix x "" = true.
Proof. by destruct x. Qed.
Lemma prefix_25 z : has_prefix (escape encodeHost (String (Zbyte 37) z)) "%25" = true.
Proof.
  change (escape encodeHost (String (Zbyte 37) z)) with ("%25" +:+ escape encodeHost z).
  generalize (escape encodeHost z). intros x. cbn. apply has_prefix_nil.
Qed.

(** ** The host is read back. *)
Lemma parseHost_back h port :
  usable_host h → each digit port →
  parseHost (escape encodeHost (JoinHostPort h port)) = Some (JoinHostPort h port).
Proof.
  intros Hh Hp. destruct Hh as [h Hne Hl Hb He|h Hl He|a z Hl Ha Hz].
  - rewrite JoinHostPort_name by done. rewrite escape_app, (escape_colon _ Hp). unfold parseHost.
    assert (first_is 91 (escape encodeHost h +:+ String (Zbyte 58) port) = false) as ->.
    { destruct h as [|c h]; [done|]. cbn [escape]. destruct (shouldEscape c encodeHost); [done|].
      change ((byteZ c =? 91) = false). apply Z.eqb_neq. intros E. apply Hb. exists h. f_equal.
      by rewrite <-(Zbyte_byteZ c), E. }
    rewrite cut_last_at by (apply digits_lack; [done|by apply (digit_not 58); [lia..|]]).
    rewrite valid_port by done. cbn [negb]. rewrite escape_host by done. by rewrite port_text.
  - rewrite JoinHostPort_address by done. cbn [escape]. change (shouldEscape (Zbyte 91) encodeHost) with false. cbv iota.
    rewrite escape_app, (escape_close _ Hp). unfold parseHost. cbn [first_is]. rewrite (byteZ_Zbyte 91) by lia. change (91 =? 91) with true. cbv iota.
    set (e := escape encodeHost h).
    change (String (Zbyte 91) (e +:+ String (Zbyte 93) (String (Zbyte 58) port)))
      with (String (Zbyte 91) e +:+ String (Zbyte 93) (String (Zbyte 58) port)).
    rewrite cut_last_at by (split; [done|apply digits_lack; [done|by apply (digit_not 93); [lia..|]]]).
    rewrite valid_port by done. cbn [negb].
    assert (str_index (String (Zbyte 91) e) "%25" = None) as ->.
    { rewrite index_skip by done. rewrite <-(sapp_nil e). unfold e. by rewrite index_escaped. }
    change (String (Zbyte 91) e +:+ String (Zbyte 93) (String (Zbyte 58) port))
      with (String (Zbyte 91) (e +:+ String (Zbyte 93) (String (Zbyte 58) port))).
    rewrite unescape_plain by done. unfold e. rewrite escape_host by (by apply any_percent). by rewrite close_port.
  - rewrite JoinHostPort_address by done. cbn [escape]. change (shouldEscape (Zbyte 91) encodeHost) with false. cbv iota.
    rewrite escape_app, (escape_close _ Hp), escape_app. unfold parseHost. cbn [first_is]. rewrite (byteZ_Zbyte 91) by lia. change (91 =? 91) with true. cbv iota.
    set (e := escape encodeHost a). set (f := escape encodeHost (String (Zbyte 37) z)).
    change (String (Zbyte 91) ((e +:+ f) +:+ String (Zbyte 93) (String (Zbyte 58) port)))
      with (String (Zbyte 91) (e +:+ f) +:+ String (Zbyte 93) (String (Zbyte 58) port)).
    rewrite cut_last_at by (split; [done|apply digits_lack; [done|by apply (digit_not 93); [lia..|]]]).
    rewrite valid_port by done. cbn [negb].
    assert (str_index (String (Zbyte 91) (e +:+ f)) "%25" = Some (String.length (String (Zbyte 91) e))) as ->.
    { rewrite index_skip by done. unfold e. rewrite index_escaped by done.
      assert (str_index f "%25" = Some 0%nat) as -> by (apply str_index_prefix; apply prefix_25). cbn. f_equal. lia. }
    change (String (Zbyte 91) (e +:+ f)) with (String (Zbyte 91) e +:+ f).
    rewrite substring_fst, substring_snd.
    rewrite (unescape_plain encodeHost (Zbyte 91) e) by done.
    assert (unescape encodeHost e = Some a) as ->.
    { rewrite <-(sapp_nil e). unfold e. rewrite escape_host by (by apply any_percent). cbn. by rewrite sapp_nil. }
    assert (unescape encodeZone f = Some (String (Zbyte 37) z)) as ->.
    { apply escape_zone. split; [|done]. right. unfold one_of. apply (bool_decide_eq_true_1 _). by vm_compute. }
    rewrite close_port by done. cbn. f_equal. f_equal. by rewrite sapp_assoc.
Qed.

Lemma strip_name h : ¬ (∃ r, h = String (Zbyte 91) r) → strip_brackets h = h.
Proof.
  intros Hb. unfold strip_brackets. destruct (first_is 91 h) eqn:E; [|done]. exfalso. apply Hb.
  destruct h as [|c r]; [done|]. cbn in E. apply Z.eqb_eq in E. exists r. f_equal. by rewrite <-(Zbyte_byteZ c), E.
Qed.
Lemma strip_address h : strip_brackets (String (Zbyte 91) (h +:+ String (Zbyte 93) "")) = h.
Proof.
  unfold strip_brackets. cbn [first_is]. rewrite (byteZ_Zbyte 91) by lia. change (91 =? 91) with true. cbv iota.
  change (String (Zbyte 91) (h +:+ String (Zbyte 93) "")) with (String (Zbyte 91) h +:+ String (Zbyte 93) "").
  by rewrite cut_last_at.
Qed.
Lemma splitHostPort_back h port : usable_host h → each digit port → splitHostPort (JoinHostPort h port) = (h, port).
Proof.
  intros Hh Hp. assert (lacks (Zbyte 58) port) as Hl58 by (apply digits_lack; [done|by apply (digit_not 58); [lia..|]]).
  assert ((lacks (Zbyte 58) h ∧ ¬ (∃ r, h = String (Zbyte 91) r)) ∨ ¬ lacks (Zbyte 58) h) as [[Hl Hb]|Hl] by (destruct Hh; auto).
  - rewrite JoinHostPort_name by done. unfold splitHostPort. rewrite cut_last_at by done. rewrite valid_port by done.
    by rewrite strip_name.
  - rewrite JoinHostPort_address by done. unfold splitHostPort.
    change (String (Zbyte 91) (h +:+ String (Zbyte 93) (String (Zbyte 58) port)))
      with (String (Zbyte 91) h +:+ String (Zbyte 93) (String (Zbyte 58) port)).
    assert (String (Zbyte 91) h +:+ String (Zbyte 93) (String (Zbyte 58) port) =
            (String (Zbyte 91) (h +:+ String (Zbyte 93) "")) +:+ String (Zbyte 58) port) as ->.
    { cbn. f_equal. rewrite sapp_assoc. done. }
    rewrite cut_last_at by done. rewrite valid_port by done. by rewrite strip_address.
Qed.

(** ** The whole url is read back. *)

Definition good_byte (b : Z) : bool := negb ((b <? 32) || (b =? 127)) && negb (b =? 35) && negb (b =? 63).
Lemma stays_good c mode : mode ≠ encodeFragment → shouldEscape c mode = false → good_byte (byteZ c) = true.
Proof.
  intros Hm H. enough (negb (shouldEscape c mode) && negb (good_byte (byteZ c)) = false) as E.
  { rewrite H in E. cbn in E. by apply negb_false_iff in E. }
  clear H. destruct mode; [..|done]; bytes_of c; by vm_compute.
Qed.
Lemma escape_good mode s : mode ≠ encodeFragment → all_bytes good_byte (escape mode s) = true.
Proof. intros Hm. apply escape_all; [intros c Hc; by eapply stays_good|done]. Qed.
Lemma all_mono (p q : Z → bool) s : (∀ b, p b = true → q b = true) → all_bytes p s = true → all_bytes q s = true.
Proof.
  intros H. induction s as [|c s IH]; cbn; [done|]. intros [H1 H2]%andb_true_iff. apply andb_true_iff. auto.
Qed.
Lemma good_ctl s : all_bytes good_byte s = true → has_ctl s = false.
Proof.
  intros H. unfold has_ctl. apply negb_false_iff. eapply all_mono; [|exact H].
  unfold good_byte. intros b Hb. by apply andb_true_iff in Hb as [[? ?]%andb_true_iff ?].
Qed.
Lemma good_lacks c s : all_bytes good_byte s = true → byteZ c = 35 ∨ byteZ c = 63 → lacks c s.
Proof.
  intros H Hc. apply all_lacks. eapply all_mono; [|exact H]. unfold good_byte. intros b Hb.
  apply andb_true_iff in Hb as [[? ?]%andb_true_iff ?]. by destruct Hc as [->| ->].
Qed.

Lemma user_good ui : all_bytes good_byte (user_string ui) = true.
Proof.
  unfold user_string. rewrite all_app, escape_good by done. destruct ui.2 as [p|]; [|done].
  change (all_bytes good_byte (String (Zbyte 58) (escape encodeUserPassword p)) = true). cbn [all_bytes]. by rewrite escape_good.
Qed.
Lemma path_good file : all_bytes good_byte (escaped_path file) = true.
Proof. unfold escaped_path. destruct (String.eqb_spec file "*") as [->|]; [done|]. by apply escape_good. Qed.

Lemma path_back file : unescape encodePath (escaped_path file) = Some file.
Proof. unfold escaped_path. destruct (String.eqb_spec file "*") as [->|]; [done|]. apply unescape_path. Qed.
Lemma path_empty file : escaped_path file = "" → file = "".
Proof. unfold escaped_path. destruct (String.eqb_spec file "*") as [->|]; [done|]. destruct file as [|c r]; [done|]. cbn. by destruct (shouldEscape c encodePath). Qed.
Lemma path_first file : first_is 47 (escaped_path file) = first_is 47 file.
Proof.
  unfold escaped_path. destruct (String.eqb_spec file "*") as [->|]; [done|]. destruct file as [|c r]; [done|]. cbn [escape].
  destruct (shouldEscape c encodePath) eqn:E; [|done]. cbn. symmetry. apply Z.eqb_neq. intros X.
  assert (c = Zbyte 47) as -> by (by rewrite <-(Zbyte_byteZ c), X). done.
Qed.

Lemma user_valid ui : validUserinfo (user_string ui) = true.
Proof.
  assert (∀ s, validUserinfo (escape encodeUserPassword s) = true) as H.
  { intros s. apply escape_all; [|done]. intros c Hc.
    enough (negb (shouldEscape c encodeUserPassword) && negb (is_alnum (byteZ c) || among (byteZ c) "-._:~!$&'()*+,;=%@") = false) as E.
    { rewrite Hc in E. cbn [negb andb] in E. by apply negb_false_iff in E. }
    clear. bytes_of c; by vm_compute. }
  unfold user_string, validUserinfo. rewrite all_app. rewrite (H _ : all_bytes _ _ = true). destruct ui.2 as [p|]; [|done].
  match goal with |- context [":" +:+ ?x] => change (":" +:+ x) with (String (Zbyte 58) x) end. cbn [all_bytes]. by rewrite (H _ : all_bytes _ _ = true).
Qed.

Lemma parseAuthority_back ui h port :
  usable_host h → each digit port →
  parseAuthority (user_string ui +:+ "@" +:+ escape encodeHost (JoinHostPort h port)) = Some (Some ui, JoinHostPort h port).
Proof.
  intros Hh Hp. unfold parseAuthority.
  change ("@" +:+ escape encodeHost (JoinHostPort h port)) with (String (Zbyte 64) (escape encodeHost (JoinHostPort h port))).
  rewrite cut_last_at by (by apply escape_lacks). rewrite parseHost_back by done. cbn [mbind option_bind].
  rewrite user_valid. cbn [negb]. destruct ui as [n [p|]]; unfold user_string; cbn [fst snd].
  - change (":" +:+ escape encodeUserPassword p) with (String (Zbyte 58) (escape encodeUserPassword p)).
    rewrite cut_at by (by apply escape_lacks). by rewrite !unescape_user.
  - rewrite sapp_nil. rewrite cut_none by (by apply escape_lacks). by rewrite unescape_user.
Qed.

Lemma user_slash ui : lacks (Zbyte 47) (user_string ui).
Proof.
  unfold user_string. apply lacks_app. split; [by apply escape_lacks|]. destruct ui.2 as [p|]; [|done].
  change (":" +:+ escape encodeUserPassword p) with (String (Zbyte 58) (escape encodeUserPassword p)). split; [done|]. by apply escape_lacks.
Qed.

(** What comes after the scheme *)
Lemma parse_after scheme raw rest auth user host path tail p :
  getscheme raw = Some (scheme, String (Zbyte 47) (String (Zbyte 47) rest)) → lower_ascii scheme = scheme → scheme ≠ "" →
  all_bytes good_byte raw = true → raw ≠ "*" → all_bytes good_byte rest = true →
  cut (Zbyte 47) rest = (auth, tail) → path = match tail with Some p => String (Zbyte 47) p | None => "" end →
  parseAuthority auth = Some (user, host) → unescape encodePath path = Some p →
  Parse raw = Some (mk_url scheme "" user host p).
Proof.
  intros Hs Hlow Hne Hg Hstar Hgr Hcut -> Ha Hp. unfold Parse.
  rewrite (cut_none (Zbyte 35) raw) by (apply good_lacks; [done|by left]).
  unfold parse. rewrite good_ctl by done. destruct (String.eqb_spec raw "*") as [|_]; [done|].
  rewrite Hs. cbn [mbind option_bind]. cbv zeta. rewrite Hlow.
  rewrite (cut_none (Zbyte 63) (String (Zbyte 47) (String (Zbyte 47) rest))).
  2: { split; [done|]. split; [done|]. apply good_lacks; [done|by right]. }
  cbn [fst first_is]. rewrite (byteZ_Zbyte 47) by lia. change (47 =? 47) with true.
  destruct (String.eqb_spec scheme "") as [|_]; [done|]. cbn [negb andb orb].
  rewrite Hcut. rewrite Ha. cbn [mbind option_bind]. rewrite Hp. done.
Qed.

Lemma JoinHostPort_ne h port : String.eqb (JoinHostPort h port) "" = false.
Proof. unfold JoinHostPort. destruct (cut (Zbyte 58) h) as [x [y|]]; [done|]. by destruct h. Qed.

Lemma scp_url_text user h port file pass :
  scp_url user h port file pass =
  "scp:" +:+ "//" +:+ (user_string (user, pass) +:+ "@" +:+ escape encodeHost (JoinHostPort h port)) +:+
  (if negb (String.eqb (escaped_path file) "") && negb (first_is 47 (escaped_path file)) then "/" else "") +:+ escaped_path file.
Proof.
  unfold scp_url, url_string. cbn [u_scheme u_opaque u_user u_host u_path]. rewrite JoinHostPort_ne.
  change (String.eqb syncSCP "") with false. change (String.eqb "" "") with true. cbn [negb andb]. cbv zeta.
  rewrite andb_true_r. rewrite !sapp_assoc. reflexivity.
Qed.

Lemma parse_scp user h port file pass :
  usable_host h → each digit port →
  Parse (scp_url user h port file pass) = Some (mk_url "scp" "" (Some (user, pass)) (JoinHostPort h port) (slashed file)).
Proof.
  intros Hh Hp. rewrite scp_url_text.
  set (auth := user_string (user, pass) +:+ "@" +:+ escape encodeHost (JoinHostPort h port)).
  set (sl := if negb (String.eqb (escaped_path file) "") && negb (first_is 47 (escaped_path file)) then "/" else "").
  assert (lacks (Zbyte 47) auth) as Hl.
  { unfold auth. rewrite !lacks_app. split; [apply user_slash|]. split; [by split|by apply escape_lacks]. }
  assert (all_bytes good_byte (auth +:+ sl +:+ escaped_path file) = true) as Hg.
  { unfold auth. rewrite !all_app, user_good, path_good, escape_good by done. unfold sl. by destruct (_ && _). }
  assert (sl +:+ escaped_path file = match slashed file with EmptyString => "" | String _ t => String (Zbyte 47) (if first_is 47 file then match escaped_path file with String _ t => t | _ => "" end else escaped_path file) end) as Hsl.
  { unfold sl. rewrite path_first. destruct file as [|c r]; [done|]. cbn [slashed first_is].
    destruct (String.eqb_spec (escaped_path (String c r)) "") as [E|_]; [by apply path_empty in E|].
    destruct (Z.eqb_spec (byteZ c) 47) as [E|_]; [|done]. cbn [negb andb].
    assert (c = Zbyte 47) as -> by (by rewrite <-(Zbyte_byteZ c), E). done. }
  refine (parse_after "scp" _ (auth +:+ sl +:+ escaped_path file) auth _ _ _ (match sl +:+ escaped_path file with EmptyString => None | String _ t => Some t end) _ _ _ _ _ _ _ _ eq_refl _ _); try done.
  - rewrite Hsl. destruct (slashed file) as [|x y].
    + rewrite sapp_nil. by apply cut_none.
    + by apply cut_at.
  - unfold auth. by apply parseAuthority_back.
  - destruct file as [|c r]; [done|].
    assert (match sl +:+ escaped_path (String c r) with EmptyString => None | String _ t => Some t end = Some (if first_is 47 (String c r) then match escaped_path (String c r) with String _ t => t | _ => "" end else escaped_path (String c r))) as ->.
    { rewrite Hsl. cbn [slashed]. by destruct (byteZ c =? 47). }
    cbn [first_is slashed]. destruct (Z.eqb_spec (byteZ c) 47) as [E|_].
    + assert (c = Zbyte 47) as -> by (by rewrite <-(Zbyte_byteZ c), E).
      rewrite <-(path_back (String (Zbyte 47) r)). done.
    + rewrite unescape_plain by done. by rewrite path_back.
Qed.
