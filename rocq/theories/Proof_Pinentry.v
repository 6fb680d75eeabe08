(** Proofs about pinentry/pinentry.go. *)
From Verif Require Import Spec_Pinentry Proof_GoStr.
From stdpp Require Import options.

Lemma ascii_neq_eqb a b : a ≠ b → Ascii.eqb a b = false.
Proof. intros H. by apply Ascii.eqb_neq. Qed.

(** ** The replacer *)

Lemma replace_raw c s : c ≠ Zbyte 37 → pinEntryReplace (String c s) = String c (pinEntryReplace s).
Proof.
  intros H. cbn [pinEntryReplace]. rewrite (ascii_neq_eqb _ _ H).
  destruct s as [|b [|d t]]; reflexivity.
Qed.
Lemma replace_escape s : pinEntryReplace (assuan_escape s) = s.
Proof.
  induction s as [|c s IH]; [reflexivity|]. cbn [assuan_escape]. unfold must_escape.
  destruct (Ascii.eqb_spec c (Zbyte 37)) as [->|H1]; [by rewrite <-IH at 2|].
  destruct (Ascii.eqb_spec c (Zbyte 13)) as [->|H2]; [by rewrite <-IH at 2|].
  destruct (Ascii.eqb_spec c (Zbyte 10)) as [->|H3]; [by rewrite <-IH at 2|].
  rewrite replace_raw by done. by rewrite IH.
Qed.
Lemma escape_inj s t : assuan_escape s = assuan_escape t → s = t.
Proof. intros H. rewrite <-(replace_escape s), H. apply replace_escape. Qed.

Lemma escape_longer s : (String.length s ≤ String.length (assuan_escape s))%nat.
Proof.
  induction s as [|c s IH]; [done|]. cbn [assuan_escape String.length].
  unfold must_escape. destruct (Ascii.eqb c (Zbyte 37)); [rewrite sapp_length; cbn [String.length]; lia|].
  destruct (Ascii.eqb c (Zbyte 13)); [rewrite sapp_length; cbn [String.length]; lia|].
  destruct (Ascii.eqb c (Zbyte 10)); [rewrite sapp_length; cbn [String.length]; lia|].
  cbn [String.length]. lia.
Qed.

(** ** Lines *)

Lemma cut_line_app l t : lacks (Zbyte 10) l → cut_line (l +:+ nl +:+ t) = (l, t).
Proof.
  induction l as [|c l IH]; intros H.
  - reflexivity.
  - cbn [lacks] in H. destruct H as [H1 H2].
    change (String c l +:+ nl +:+ t) with (String c (l +:+ nl +:+ t)). cbn [cut_line].
    rewrite (ascii_neq_eqb _ _ H1), IH by done. reflexivity.
Qed.
Lemma drop_cr_id l : lacks (Zbyte 13) l → drop_cr l = l.
Proof.
  induction l as [|c l IH]; intros H; [reflexivity|]. cbn [lacks] in H. destruct H as [H1 H2].
  cbn [drop_cr]. rewrite (ascii_neq_eqb _ _ H1). cbn [andb]. by rewrite IH.
Qed.
Lemma scan_app l t :
  lacks (Zbyte 10) l → lacks (Zbyte 13) l → (String.length l < line_limit)%nat →
  scan_line (l +:+ nl +:+ t) = Some (l, t).
Proof.
  intros H1 H2 H3. unfold scan_line. rewrite cut_line_app by done.
  replace (String.eqb (l +:+ nl +:+ t) "") with false by (destruct l; reflexivity).
  replace (line_limit <=? String.length l)%nat with false by (symmetry; apply Nat.leb_gt; lia).
  by rewrite drop_cr_id.
Qed.
Lemma scan_long l t :
  lacks (Zbyte 10) l → (line_limit ≤ String.length l)%nat → scan_line (l +:+ nl +:+ t) = None.
Proof.
  intros H1 H3. unfold scan_line. rewrite cut_line_app by done.
  replace (String.eqb (l +:+ nl +:+ t) "") with false by (destruct l; reflexivity).
  by replace (line_limit <=? String.length l)%nat with true by (symmetry; apply Nat.leb_le; lia).
Qed.
Lemma limit_big : (1000 < line_limit)%nat.
Proof. unfold line_limit. lia. Qed.

Lemma lacks_app c a b : lacks c a → lacks c b → lacks c (a +:+ b).
Proof.
  induction a as [|x a IH]; intros H1 H2; [done|]. cbn [lacks] in H1. destruct H1.
  change (String x a +:+ b) with (String x (a +:+ b)). cbn [lacks]. auto.
Qed.
Lemma escape_lacks s : lacks (Zbyte 10) (assuan_escape s) ∧ lacks (Zbyte 13) (assuan_escape s).
Proof.
  induction s as [|c s [IH1 IH2]]; [done|]. cbn [assuan_escape]. unfold must_escape.
  destruct (Ascii.eqb_spec c (Zbyte 37)) as [->|H1];
    [split; apply lacks_app; try done; cbn; repeat split; discriminate|].
  destruct (Ascii.eqb_spec c (Zbyte 13)) as [->|H2];
    [split; apply lacks_app; try done; cbn; repeat split; discriminate|].
  destruct (Ascii.eqb_spec c (Zbyte 10)) as [->|H3];
    [split; apply lacks_app; try done; cbn; repeat split; discriminate|].
  cbn [lacks]. auto.
Qed.

(** ** The dialogue *)
Lemma getLine_app l t :
  lacks (Zbyte 10) l → lacks (Zbyte 13) l → (String.length l < line_limit)%nat →
  getLine (l +:+ nl +:+ t) = Ok (l, t).
Proof. intros. unfold getLine. by rewrite scan_app. Qed.

Lemma settings_oks n t : settings n (oks n +:+ t) = Ok t.
Proof.
  induction n as [|n IH]; [reflexivity|]. cbn [oks settings].
  rewrite !sapp_assoc. rewrite getLine_app; [exact IH|cbn; repeat split; discriminate|cbn; repeat split; discriminate|].
  pose proof limit_big. change (String.length "OK") with 2%nat. lia.
Qed.

Section Greeted.
  Context (term display : bool).
  #[local] Set Default Proof Using "All".
  Lemma greeted t wait :
    converse term display (greeting term display +:+ t) wait =
    ('(resp, s) ← getLine t;
     if negb (has_prefix resp "D ") && has_prefix resp "ERR" && contains resp "Operation cancelled" then Ok ""
     else
       password ← (if has_prefix resp "D " then str_drop 2 resp else Ok "");
       '(resp, s) ← (if has_prefix resp "D " then getLine s else Ok (resp, s));
       if negb (String.eqb resp "OK") then Fail rogue
       else match wait with Some e => Fail e | None => Ok (pinEntryReplace password) end).
  Proof.
    unfold converse, greeting. rewrite !sapp_assoc.
    rewrite getLine_app; [|cbn; repeat split; discriminate|cbn; repeat split; discriminate|
      pose proof limit_big; change (String.length "OK Pleased to meet you") with 22%nat; lia].
    unfold mbind at 1, outcome_bind at 1.
    change (negb (String.eqb "OK Pleased to meet you" "OK Pleased to meet you")) with false. cbv iota.
    rewrite settings_oks. reflexivity.
  Qed.

  Lemma ok_line t : getLine ("OK" +:+ nl +:+ t) = Ok ("OK", t).
  Proof.
    apply getLine_app; [cbn; repeat split; discriminate|cbn; repeat split; discriminate|].
    pose proof limit_big; change (String.length "OK") with 2%nat; lia.
  Qed.
  Lemma data_line l t :
    lacks (Zbyte 10) l → lacks (Zbyte 13) l → (2 + String.length l < line_limit)%nat →
    getLine ("D " +:+ l +:+ nl +:+ t) = Ok ("D " +:+ l, t).
  Proof.
    intros H1 H2 H3. replace ("D " +:+ l +:+ nl +:+ t) with (("D " +:+ l) +:+ nl +:+ t) by reflexivity.
    apply getLine_app; [apply lacks_app; [cbn; repeat split; discriminate|done]..|].
    rewrite sapp_length. change (String.length "D ") with 2%nat. lia.
  Qed.

  Lemma one_line_read l wait :
    lacks (Zbyte 10) l → lacks (Zbyte 13) l → (2 + String.length l < line_limit)%nat →
    converse term display (greeting term display +:+ one_line l) wait =
    match wait with Some e => Fail e | None => Ok (pinEntryReplace l) end.
  Proof.
    intros H1 H2 H3. rewrite greeted. unfold one_line. rewrite data_line by done.
    unfold mbind at 1, outcome_bind at 1.
    replace (has_prefix ("D " +:+ l) "D ") with true by (by destruct l). cbn [negb andb].
    replace (str_drop 2 ("D " +:+ l)) with (Ok l) by reflexivity.
    unfold mbind at 1, outcome_bind at 1.
    replace ("OK" +:+ nl) with ("OK" +:+ nl +:+ "") by reflexivity. rewrite ok_line.
    reflexivity.
  Qed.

  Lemma two_lines_read t1 t2 wait :
    lacks (Zbyte 10) t1 → lacks (Zbyte 13) t1 → (2 + String.length t1 < line_limit)%nat →
    lacks (Zbyte 10) t2 → lacks (Zbyte 13) t2 → (2 + String.length t2 < line_limit)%nat →
    converse term display (greeting term display +:+ two_lines t1 t2) wait = Fail rogue.
  Proof.
    intros H1 H2 H3 H4 H5 H6. rewrite greeted. unfold two_lines. rewrite data_line by done.
    unfold mbind at 1, outcome_bind at 1.
    replace (has_prefix ("D " +:+ t1) "D ") with true by (by destruct t1). cbn [negb andb].
    replace (str_drop 2 ("D " +:+ t1)) with (Ok t1) by reflexivity.
    unfold mbind at 1, outcome_bind at 1. unfold one_line. rewrite data_line by done.
    reflexivity.
  Qed.

  Lemma long_line l t wait :
    lacks (Zbyte 10) l → (line_limit ≤ 2 + String.length l)%nat →
    converse term display (greeting term display +:+ ("D " +:+ l +:+ nl +:+ t)) wait = Fail broken.
  Proof.
    intros H1 H3. rewrite greeted.
    replace ("D " +:+ l +:+ nl +:+ t) with (("D " +:+ l) +:+ nl +:+ t) by reflexivity.
    unfold getLine. rewrite scan_long; [reflexivity|apply lacks_app; [cbn; repeat split; discriminate|done]|].
    rewrite sapp_length. change (String.length "D ") with 2%nat. lia.
  Qed.

  Lemma no_data wait :
    converse term display (greeting term display +:+ "OK" +:+ nl) wait =
    match wait with Some e => Fail e | None => Ok "" end.
  Proof.
    rewrite greeted. replace ("OK" +:+ nl) with ("OK" +:+ nl +:+ "") by reflexivity.
    rewrite ok_line. by destruct wait.
  Qed.

  Lemma cancelled l t wait :
    lacks (Zbyte 10) l → lacks (Zbyte 13) l → (3 + String.length l < line_limit)%nat →
    contains ("ERR" +:+ l) "Operation cancelled" = true →
    converse term display (greeting term display +:+ "ERR" +:+ l +:+ nl +:+ t) wait = Ok "".
  Proof.
    intros H1 H2 H3 H4. rewrite greeted.
    replace ("ERR" +:+ l +:+ nl +:+ t) with (("ERR" +:+ l) +:+ nl +:+ t) by reflexivity.
    rewrite getLine_app.
    - unfold mbind at 1, outcome_bind at 1. replace (has_prefix ("ERR" +:+ l) "ERR") with true by (by destruct l).
      replace (has_prefix ("ERR" +:+ l) "D ") with false by reflexivity. by rewrite H4.
    - apply lacks_app; [cbn; repeat split; discriminate|done].
    - apply lacks_app; [cbn; repeat split; discriminate|done].
    - rewrite sapp_length. change (String.length "ERR") with 3%nat. lia.
  Qed.
End Greeted.

Lemma getLine_panic s : getLine s ≠ Panic.
Proof. unfold getLine. by destruct (scan_line s). Qed.
Lemma settings_panic n s : settings n s ≠ Panic.
Proof.
  revert s. induction n as [|n IH]; intros s; [done|]. cbn [settings]. unfold mbind, outcome_bind.
  destruct (getLine s) as [[l t]| |] eqn:E; [|done|by apply getLine_panic in E].
  destruct (String.eqb l "OK"); [apply IH|done].
Qed.
Lemma prefix_drop2 resp : has_prefix resp "D " = true → ∃ l, resp = "D " +:+ l ∧ str_drop 2 resp = Ok l.
Proof.
  destruct resp as [|a [|b l]]; cbn [has_prefix]; [done|by destruct (Ascii.eqb _ a)|].
  destruct (Ascii.eqb_spec (Ascii.Ascii false false true false false false true false) a) as [<-|]; [|done].
  destruct (Ascii.eqb_spec (Ascii.Ascii false false false false false true false false) b) as [<-|]; [|done].
  intros _. by exists l.
Qed.
Lemma converse_panic term display out wait : converse term display out wait ≠ Panic.
Proof.
  unfold converse, mbind, outcome_bind. destruct (getLine out) as [[l s]| |] eqn:E; [|done|by apply getLine_panic in E].
  destruct (negb _); [done|]. destruct (settings _ s) as [s'| |] eqn:E2; [|done|by apply settings_panic in E2].
  destruct (getLine s') as [[resp s'']| |] eqn:E3; [|done|by apply getLine_panic in E3].
  destruct (_ && _ && _); [done|].
  destruct (has_prefix resp "D ") eqn:Ep.
  - destruct (prefix_drop2 _ Ep) as (pw & -> & ->).
    destruct (getLine s'') as [[r2 s3]| |] eqn:E4; [|done|by apply getLine_panic in E4].
    destruct (negb _); [done|by destruct wait].
  - destruct (negb _); [done|by destruct wait].
Qed.

(** ** What a successful conversation looked like *)
Lemma settings_all n : ∀ s t, settings n s = Ok t → all_ok n s t.
Proof.
  induction n as [|n IH]; intros s t; cbn [settings all_ok]; [by intros [= <-]|].
  destruct (getLine s) as [[l s']|e|] eqn:E; unfold mbind, outcome_bind; [|done..].
  destruct (String.eqb_spec l "OK") as [->|]; [|done]. intros H. exists s'. split; [done|]. by apply IH.
Qed.
Lemma converse_ok term display out wait pw : converse term display out wait = Ok pw → conversed term display out wait pw.
Proof.
  unfold converse, conversed. destruct (getLine out) as [[l s]|e|] eqn:E1; unfold mbind at 1, outcome_bind at 1; [|done..].
  destruct (String.eqb_spec l "OK Pleased to meet you") as [->|]; cbn [negb]; [|done].
  destruct (settings _ s) as [s1|e|] eqn:E2; unfold mbind at 1, outcome_bind at 1; [|done..].
  destruct (getLine s1) as [[resp s2]|e|] eqn:E3; unfold mbind at 1, outcome_bind at 1; [|done..].
  intros H. exists s, s1, resp, s2. split; [done|]. split; [by apply settings_all|]. split; [done|].
  destruct (has_prefix resp "D ") eqn:Ed; cbn [negb andb] in H.
  - right. destruct (prefix_drop2 _ Ed) as (t & -> & Et). rewrite Et in H. unfold mbind at 1, outcome_bind at 1 in H.
    destruct (getLine s2) as [[resp2 s3]|e|] eqn:E4; unfold mbind at 1, outcome_bind at 1 in H; [|done..].
    destruct (String.eqb_spec resp2 "OK") as [->|]; cbn [negb] in H; [|done]. destruct wait; [done|]. injection H as <-. split; [done|]. right. by exists t, s3.
  - destruct (has_prefix resp "ERR") eqn:Ee; cbn [andb] in H.
    + destruct (contains resp "Operation cancelled") eqn:Ec; [injection H as <-; by left|]. exfalso.
      unfold mbind, outcome_bind in H. destruct (String.eqb_spec resp "OK") as [->|]; done.
    + right. unfold mbind, outcome_bind in H. destruct (String.eqb_spec resp "OK") as [->|]; cbn [negb] in H; [|done]. destruct wait; [done|]. injection H as <-. split; [done|]. by left.
Qed.
Lemma find_split {A} (f : A → bool) l x : List.find f l = Some x ↔ f x = true ∧ ∃ a b, l = a ++ x :: b ∧ ∀ q, q ∈ a → f q = false.
Proof.
  induction l as [|y l IH]; cbn [List.find]; [split; [done|]; intros (_ & [|? ?] & b & E & _); done|]. destruct (f y) eqn:Ey.
  - split; [intros [= ->]; split; [done|]; exists [], l; split; [done|]; by intros ? ?%elem_of_nil|]. intros (Hx & [|z a] & b & [= -> ->] & Ha); [done|].
    rewrite Ha in Ey by (by left). done.
  - rewrite IH. split; intros (Hx & a & b & E & Ha); (split; [done|]).
    + exists (y :: a), b. split; [by rewrite E|]. intros q [->|Hq]%elem_of_cons; [done|by apply Ha].
    + destruct a as [|z a]; injection E as -> ->; [congruence|]. exists a, b. split; [done|]. intros q Hq. apply Ha. by right.
Qed.
Lemma program_found env cached on_path p : find_program env cached on_path = Some p ↔ program_used env cached on_path p.
Proof.
  unfold find_program, program_used. destruct (EqualFold env "none"); [split; [done|by intros [? _]]|].
  assert (∀ x, (String.length x =? 0)%nat = true ↔ x = "") as H0 by (intros [|? ?]; split; done).
  assert (∀ x, (if (String.length x =? 0)%nat then None else Some x) = Some p ↔ x = p ∧ p ≠ "") as H1.
  { intros x. destruct (_ =? _)%nat eqn:E; [apply H0 in E as ->; split; [done|]; by intros [<- ?]|].
    split; [intros [= <-]; split; [done|]; intros ->; done|by intros [-> _]]. }
  rewrite H1. destruct (String.length env =? 0)%nat eqn:E1; [apply H0 in E1 as ->|].
  2:{ assert (env ≠ "") by (intros ->; done). naive_solver. }
  destruct (String.length cached =? 0)%nat eqn:E2; [apply H0 in E2 as ->|].
  2:{ assert (cached ≠ "") by (intros ->; done). naive_solver. }
  rewrite <-find_split. destruct (List.find on_path pinEntryPrograms) as [q|]; cbn [default from_option id]; naive_solver.
Qed.
