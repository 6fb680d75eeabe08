(** Proofs about the texts url.Parse takes. *)
From Verif Require Import Spec_Links Proof_GoStr Proof_Pkcs7 Proof_Blobs Proof_Url.
From Coq Require Import Lia.
From stdpp Require Import options.
Import Model_GoStr.
#[local] Open Scope Z_scope.

(** ** Coded text *)
Lemma unhex_value c v : unhex c = Some v ↔ hex_value c v.
Proof.
  unfold unhex, hex_value, inr. cbv zeta. pose proof (byteZ_range c).
  destruct ((48 <=? byteZ c) && (byteZ c <=? 57)) eqn:E1; [apply andb_true_iff in E1 as [?%Z.leb_le ?%Z.leb_le]; split; [intros [= <-]; lia|intros ?; f_equal; lia]|].
  apply andb_false_iff in E1. rewrite !Z.leb_gt in E1.
  destruct ((97 <=? byteZ c) && (byteZ c <=? 102)) eqn:E2; [apply andb_true_iff in E2 as [?%Z.leb_le ?%Z.leb_le]; split; [intros [= <-]; lia|intros ?; f_equal; lia]|].
  apply andb_false_iff in E2. rewrite !Z.leb_gt in E2.
  destruct ((65 <=? byteZ c) && (byteZ c <=? 70)) eqn:E3; [apply andb_true_iff in E3 as [?%Z.leb_le ?%Z.leb_le]; split; [intros [= <-]; lia|intros ?; f_equal; lia]|].
  apply andb_false_iff in E3. rewrite !Z.leb_gt in E3. split; [done|lia].
Qed.
Lemma hex_value_range c v : hex_value c v → 0 ≤ v < 16.
Proof. unfold hex_value. lia. Qed.
Lemma hex_value_det c v v' : hex_value c v → hex_value c v' → v = v'.
Proof. unfold hex_value. lia. Qed.

Definition byte_test (mode : encoding) (c : Ascii.ascii) : bool :=
  bool_decide (mode = encodeHost ∨ mode = encodeZone) && (byteZ c <? 128) && shouldEscape c mode.
Definition code_test (mode : encoding) (x v : Z) : bool :=
  (bool_decide (mode = encodeHost) && (x <? 8) && negb (v =? 37)) || (bool_decide (mode = encodeZone) && negb (zone_ok v)).
Lemma unescape_coded mode (byte : Ascii.ascii → Prop) (allowed : Z → Prop) :
  (∀ c, c ≠ Zbyte 37 → byte_test mode c = false ↔ byte c) →
  (∀ x y, 0 ≤ x < 16 → 0 ≤ y < 16 → code_test mode x (16 * x + y) = false ↔ allowed (16 * x + y)) →
  ∀ s, is_Some (unescape mode s) ↔ coded byte allowed s.
Proof.
  intros H1 H2 s. remember (String.length s) as n eqn:En. revert s En. induction n as [n IH] using lt_wf_ind. intros s ->.
  destruct s as [|c r]; [split; [constructor|by eexists]|]. cbn [unescape]. destruct (Z.eqb_spec (byteZ c) 37) as [Ec|Ec].
  - apply percent_char in Ec as ->. destruct r as [|h [|l t]].
    + split; [by intros [? ?]|]. intros H. inversion H; subst. done.
    + split; [by intros [? ?]|]. intros H. inversion H; subst. done.
    + destruct (unhex h) as [x|] eqn:Eh.
      2: { split; [by intros [? ?]|]. intros H. inversion H; subst; [done|]. match goal with K : hex_value h _ |- _ => apply unhex_value in K; congruence end. }
      destruct (unhex l) as [y|] eqn:El.
      2: { split; [by intros [? ?]|]. intros H. inversion H; subst; [done|]. match goal with K : hex_value l _ |- _ => apply unhex_value in K; congruence end. }
      apply unhex_value in Eh, El. pose proof (hex_value_range _ _ Eh) as Rx. pose proof (hex_value_range _ _ El) as Ry.
      specialize (H2 x y Rx Ry). unfold code_test in H2. cbv zeta.
      destruct (bool_decide (mode = encodeHost) && (x <? 8) && negb (16 * x + y =? 37)) eqn:T1; [|destruct (bool_decide (mode = encodeZone) && negb (zone_ok (16 * x + y))) eqn:T2].
      * split; [by intros [? ?]|]. intros H. inversion H; subst; [done|]. rewrite (hex_value_det h x x0), (hex_value_det l y y0) in H2 by done. cbn in H2. exfalso. match goal with K : allowed _ |- _ => apply H2 in K; discriminate K end.
      * split; [by intros [? ?]|]. intros H. inversion H; subst; [done|]. rewrite (hex_value_det h x x0), (hex_value_det l y y0) in H2 by done. cbn in H2. exfalso. match goal with K : allowed _ |- _ => apply H2 in K; discriminate K end.
      * rewrite fmap_is_Some. rewrite (IH (String.length t)) by (cbn; lia || done). cbn in H2. split.
        -- intros H. apply (coded_percent _ _ h l x y); [done|done|by apply H2|done].
        -- intros H. inversion H; subst; [done|]. done.
  - assert (c ≠ Zbyte 37) as Hc by (intros ->; done). specialize (H1 c Hc). unfold byte_test in H1. destruct (_ && shouldEscape c mode).
    + split; [by intros [? ?]|]. intros H. inversion H; subst; [|done]. exfalso. match goal with K : byte c |- _ => apply H1 in K; discriminate K end.
    + rewrite fmap_is_Some. rewrite (IH (String.length r)) by (cbn; lia || done). split; [intros H; constructor; [done|by apply H1|done]|]. intros H. inversion H; subst; done.
Qed.
Lemma unescape_any mode s : mode ≠ encodeHost → mode ≠ encodeZone → is_Some (unescape mode s) ↔ any_coded s.
Proof.
  intros M1 M2. apply unescape_coded.
  - intros c _. unfold byte_test. rewrite bool_decide_eq_false_2 by (by intros [?|?]). done.
  - intros x y _ _. unfold code_test. rewrite !bool_decide_eq_false_2 by done. done.
Qed.
Definition any_host_b (c : Ascii.ascii) : bool :=
  let b := byteZ c in inr 48 57 b || (inr 65 90 b || inr 97 122 b) || bool_decide (c ∈ str_bytes ("-_.~!$&'()*+,;=:[]<>" +:+ dquote)) || (128 <=? b).
Lemma any_host_b_ok c : any_host_b c = true ↔ any_host c.
Proof.
  unfold any_host, ascii_host, digit, letter, one_of, any_host_b, inr. rewrite !orb_true_iff, !andb_true_iff, !Z.leb_le, bool_decide_eq_true. tauto.
Qed.
Lemma host_bytes c : byte_test encodeHost c = negb (any_host_b c) ∧ byte_test encodeZone c = negb (any_host_b c).
Proof. bytes_of c; by vm_compute. Qed.
Lemma unescape_host s : is_Some (unescape encodeHost s) ↔ host_coded s.
Proof.
  apply unescape_coded.
  - intros c _. rewrite (proj1 (host_bytes c)). rewrite negb_false_iff. apply any_host_b_ok.
  - intros x y Hx Hy. unfold code_test. rewrite bool_decide_eq_true_2, bool_decide_eq_false_2 by done. cbn [andb]. rewrite orb_false_r, andb_false_iff, negb_false_iff, Z.ltb_ge, Z.eqb_eq. lia.
Qed.
Definition ascii_host_b (c : Ascii.ascii) : bool :=
  let b := byteZ c in inr 48 57 b || (inr 65 90 b || inr 97 122 b) || bool_decide (c ∈ str_bytes ("-_.~!$&'()*+,;=:[]<>" +:+ dquote)).
Lemma ascii_host_b_ok c : ascii_host_b c = true ↔ ascii_host c.
Proof. unfold ascii_host, digit, letter, one_of, ascii_host_b, inr. rewrite !orb_true_iff, !andb_true_iff, !Z.leb_le, bool_decide_eq_true. tauto. Qed.
Lemma zone_bytes c : negb (shouldEscape c encodeHost) = ascii_host_b c.
Proof. bytes_of c; by vm_compute. Qed.
Lemma unescape_zone s : is_Some (unescape encodeZone s) ↔ zone_coded s.
Proof.
  apply unescape_coded.
  - intros c _. rewrite (proj2 (host_bytes c)). rewrite negb_false_iff. apply any_host_b_ok.
  - intros x y Hx Hy. unfold code_test. rewrite bool_decide_eq_false_2, bool_decide_eq_true_2 by done. cbn [andb orb]. rewrite negb_false_iff. unfold zone_ok.
    rewrite zone_bytes, !orb_true_iff, !Z.eqb_eq, ascii_host_b_ok. tauto.
Qed.

(** A byte that is no digit of codes divides them. *)
Lemma coded_mid byte allowed a c b : c ≠ Zbyte 37 → (∀ v, ¬ hex_value c v) → coded byte allowed (a +:+ String c b) ↔ coded byte allowed a ∧ byte c ∧ coded byte allowed b.
Proof.
  intros Hc Hx. remember (String.length a) as n eqn:En. revert a En. induction n as [n IH] using lt_wf_ind. intros a ->. destruct a as [|d a].
  - cbn [String.append]. split.
    + intros H. inversion H; subst; [|done]. split; [constructor|done].
    + intros (_ & H1 & H2). by constructor.
  - cbn [String.append]. split.
    + intros H. inversion H as [|? ? Hd Hb Hr|h l x y t Hh Hl Ha Ht Et]; subst.
      * apply (IH (String.length a)) in Hr as (H1 & H2 & H3); [|cbn; lia|done]. split; [by constructor|done].
      * destruct a as [|h' [|l' a]]; cbn [String.append] in *.
        -- match goal with E : String h _ = String c _ |- _ => injection E as -> _ end. by destruct (Hx x).
        -- match goal with E : String h _ = String h' _ |- _ => injection E as -> -> _ end. by destruct (Hx y).
        -- match goal with E : String h _ = String h' _ |- _ => injection E as -> -> -> end.
           apply (IH (String.length a)) in Ht as (H1 & H2 & H3); [|cbn; lia|done]. split; [by apply (coded_percent _ _ _ _ x y)|done].
    + intros (H1 & H2 & H3). inversion H1 as [|? ? Hd Hb Hr|h l x y t Hh Hl Ha Ht Et]; subst.
      * constructor; [done|done|]. apply (IH (String.length a)); [cbn; lia|done|done].
      * cbn [String.append]. apply (coded_percent _ _ _ _ x y); [done..|]. apply (IH (String.length t)); [cbn; lia|done|done].
Qed.

(** ** Cuts *)
Lemma cut_inv c s : match cut c s with
  | (a, Some b) => s = a +:+ String c b ∧ lacks c a
  | (a, None) => a = s ∧ lacks c s
  end.
Proof.
  induction s as [|x s IH]; [done|]. cbn [cut]. destruct (Ascii.eqb_spec x c) as [->|Hx]; [done|].
  destruct (cut c s) as [a [b|]]; destruct IH as [-> H]; done.
Qed.
Lemma cut_last_inv c s : match cut_last c s with
  | Some (a, b) => s = a +:+ String c b ∧ lacks c b
  | None => lacks c s
  end.
Proof.
  induction s as [|x s IH]; [done|]. cbn [cut_last]. destruct (cut_last c s) as [[a b]|].
  - destruct IH as [-> H]. done.
  - destruct (Ascii.eqb_spec x c) as [->|Hx]; [done|]. done.
Qed.

(** ** Schemes *)
Definition scheme_byte (d : Ascii.ascii) : Prop := letter d ∨ digit d ∨ one_of "+-." d.
Lemma letter_test d : inr 97 122 (byteZ d) || inr 65 90 (byteZ d) = true ↔ letter d.
Proof. unfold letter, inr. rewrite orb_true_iff, !andb_true_iff, !Z.leb_le. tauto. Qed.
Lemma among_one_of d s : among (byteZ d) s = true ↔ one_of s d.
Proof.
  unfold among, one_of, str_bytes. rewrite existsb_exists. split.
  - intros (c & Hc & E%Z.eqb_eq). apply elem_of_list_In. apply byteZ_inj in E as <-. done.
  - intros H. exists d. split; [by apply elem_of_list_In|]. by apply Z.eqb_eq.
Qed.
Lemma byte_char c z : byteZ c = z → c = Zbyte z.
Proof. intros <-. by rewrite Zbyte_byteZ. Qed.
Lemma colon_no_scheme : ¬ scheme_byte (Zbyte 58).
Proof.
  intros [H|[H|H]]; [unfold letter in H; rewrite byteZ_Zbyte in H by lia; lia|unfold digit in H; rewrite byteZ_Zbyte in H by lia; lia|].
  revert H. apply (bool_decide_eq_false_1 (Zbyte 58 ∈ str_bytes "+-.")). reflexivity.
Qed.
Lemma digit_test d : inr 48 57 (byteZ d) = true ↔ digit d.
Proof. unfold digit, inr. rewrite andb_true_iff, !Z.leb_le. tauto. Qed.
Lemma scheme_later s a t : getscheme_from false s = Some (Some (a, t)) ↔ s = a +:+ String (Zbyte 58) t ∧ each scheme_byte a.
Proof.
  revert a. induction s as [|c s IH]; intros a; cbn [getscheme_from].
  { split; [done|]. intros [H _]. by destruct a. }
  cbv zeta.
  assert (scheme_byte c → match getscheme_from false s with Some (Some (a, t)) => Some (Some (String c a, t)) | x => x end = Some (Some (a, t)) ↔ String c s = a +:+ String (Zbyte 58) t ∧ each scheme_byte a) as N.
  { intros Hc. split.
    - destruct (getscheme_from false s) as [[[a' t']|]|] eqn:E; try done. intros [= <- <-]. destruct (proj1 (IH a')) as [-> H]; [done|]. done.
    - intros [E H]. destruct a as [|d a]; cbn [String.append] in E; injection E as -> ->; [by apply colon_no_scheme in Hc|]. rewrite (proj2 (IH a)); [done|]. by destruct H. }
  destruct (inr 97 122 (byteZ c) || inr 65 90 (byteZ c)) eqn:E1; [apply N; left; by apply letter_test|].
  destruct (inr 48 57 (byteZ c) || among (byteZ c) "+-.") eqn:E2.
  { apply N. right. apply orb_true_iff in E2 as [E2|E2]; [left; by apply digit_test|right; by apply among_one_of]. }
  destruct (Z.eqb_spec (byteZ c) 58) as [E3|E3].
  - apply byte_char in E3 as ->. split; [intros [= <- <-]; done|]. intros [E H]. destruct a as [|d a]; cbn [String.append] in E; injection E; intros; subst; [done|]. destruct H as [H _]. by apply colon_no_scheme in H.
  - split; [done|]. intros [E H]. destruct a as [|d a]; cbn [String.append] in E; injection E; intros; subst; [by rewrite byteZ_Zbyte in E3 by lia|].
    destruct H as [[H|[H|H]] _]; [apply letter_test in H; congruence|apply digit_test in H; rewrite H in E2; done|apply among_one_of in H; rewrite H, orb_true_r in E2; done].
Qed.
Lemma scheme_first s a t : getscheme s = Some (a, t) ∧ a ≠ "" ↔ s = a +:+ String (Zbyte 58) t ∧ scheme_text a.
Proof.
  unfold getscheme. destruct s as [|c s]; cbn [getscheme_from].
  { split; [by intros [[= <- <-] ?]|]. intros [H _]. by destruct a. }
  cbv zeta. destruct (inr 97 122 (byteZ c) || inr 65 90 (byteZ c)) eqn:E1.
  - assert (letter c) as Hc by (by apply letter_test). split.
    + intros [E Ha]. destruct (getscheme_from false s) as [[[a' t']|]|] eqn:Es; [|congruence|done]. injection E as <- <-. destruct (proj1 (scheme_later s a' t') Es) as [-> H].
      split; [done|]. by exists c, a'.
    + intros [E (d & r & -> & Hd & Hr)]. cbn [String.append] in E. injection E as -> ->. rewrite (proj2 (scheme_later _ r t)); [done|]. by split.
  - assert (∀ r, a = String c r → scheme_text a → False) as NL.
    { intros r -> (d & r' & E & Hd & _). injection E as -> ->. apply letter_test in Hd. congruence. }
    assert (String c s = a +:+ String (Zbyte 58) t ∧ scheme_text a → False) as NO.
    { intros [E Ha]. destruct a as [|d a]; [by destruct Ha as (? & ? & ? & _)|]. cbn [String.append] in E. injection E as -> _. by eapply NL. }
    destruct (inr 48 57 (byteZ c) || among (byteZ c) "+-."); [|destruct (byteZ c =? 58)]; (split; [|intros H; by destruct (NO H)]); intros [E Ha]; congruence.
Qed.
Lemma lower_empty s : lower_ascii s = "" ↔ s = "".
Proof. by destruct s. Qed.

(** ** Hosts *)
Lemma port_test p : validOptionalPort p = true ↔ port_part p.
Proof.
  unfold port_part. destruct p as [|c r]; cbn [validOptionalPort]; [split; [by left|done]|]. rewrite andb_true_iff, Z.eqb_eq. split.
  - intros [->%byte_char H]. right. exists r. split; [done|]. clear -H. induction r as [|d r IH]; [done|]. cbn in *. apply andb_true_iff in H as [H1 H2]. split; [by apply digit_test|auto].
  - intros [?|(d & E & H)]; [done|]. injection E as -> ->. split; [by rewrite byteZ_Zbyte by lia|by apply digits_all].
Qed.
Lemma colon_hex : Zbyte 58 ≠ Zbyte 37 ∧ ∀ v, ¬ hex_value (Zbyte 58) v.
Proof. split; [done|]. intros v. unfold hex_value. rewrite byteZ_Zbyte by lia. lia. Qed.
Lemma close_hex : Zbyte 93 ≠ Zbyte 37 ∧ ∀ v, ¬ hex_value (Zbyte 93) v.
Proof. split; [done|]. intros v. unfold hex_value. rewrite byteZ_Zbyte by lia. lia. Qed.
Lemma digits_coded d : each digit d → host_coded d.
Proof.
  induction d as [|c d IH]; [constructor|]. intros [H1 H2]. constructor; [|by left; left|by apply IH]. intros ->. unfold digit in H1. rewrite byteZ_Zbyte in H1 by lia. lia.
Qed.
Lemma colon_host : any_host (Zbyte 58). Proof. by apply any_host_b_ok. Qed.
Lemma close_host : any_host (Zbyte 93). Proof. by apply any_host_b_ok. Qed.
Lemma port_coded a p : port_part p → host_coded (a +:+ p) ↔ host_coded a.
Proof.
  intros [->|(d & -> & Hd)]; [by rewrite sapp_nil|]. unfold host_coded. rewrite coded_mid by apply colon_hex. split; [by intros [H _]|]. intros H. split; [done|]. split; [apply colon_host|by apply digits_coded].
Qed.
Lemma close_port_coded p : port_part p → host_coded (String (Zbyte 93) p).
Proof. intros Hp. constructor; [done|apply close_host|]. destruct Hp as [->|(d & -> & Hd)]; [constructor|]. constructor; [done|apply colon_host|by apply digits_coded]. Qed.
Lemma port_lacks c p : port_part p → ¬ digit c → c ≠ Zbyte 58 → lacks c p.
Proof. intros [->|(d & -> & Hd)] H1 H2; [done|]. split; [done|by apply digits_lack]. Qed.
Lemma first_is_spec z s : 0 ≤ z < 256 → first_is z s = true ↔ ∃ r, s = String (Zbyte z) r.
Proof.
  intros Hz. destruct s as [|c r]; cbn; [split; [done|by intros [? ?]]|]. rewrite Z.eqb_eq. split; [intros <-%byte_char; by eexists|]. intros [r' [= -> _]]. by apply byteZ_Zbyte.
Qed.
Lemma index_split s p k : str_index s p = Some k → ∃ x y, s = x +:+ p +:+ y ∧ String.length x = k.
Proof.
  revert k. induction s as [|c s IH]; intros k; cbn [str_index].
  - destruct (has_prefix "" p) eqn:E; [|done]. intros [= <-]. apply has_prefix_spec in E as [y E]. by exists "", y.
  - destruct (has_prefix (String c s) p) eqn:E.
    + intros [= <-]. apply has_prefix_spec in E as [y E]. by exists "", y.
    + destruct (str_index s p) as [j|]; [|done]. intros [= <-]. destruct (IH j eq_refl) as (x & y & -> & L). exists (String c x), y. split; [done|]. cbn. by rewrite L.
Qed.
Lemma host_brackets a p : port_part p → is_Some (parseHost (String (Zbyte 91) (a +:+ String (Zbyte 93) p))) ↔
  match str_index (String (Zbyte 91) a) "%25" with
  | None => host_coded (String (Zbyte 91) a)
  | Some k => host_coded (substring 0 k (String (Zbyte 91) a)) ∧ zone_coded (substring k (S (String.length a) - k) (String (Zbyte 91) a))
  end.
Proof.
  intros Hp. set (h := String (Zbyte 91) (a +:+ String (Zbyte 93) p)). unfold parseHost.
  assert (first_is 91 h = true) as -> by done.
  assert (cut_last (Zbyte 93) h = Some (String (Zbyte 91) a, p)) as ->.
  { change h with ((String (Zbyte 91) a) +:+ String (Zbyte 93) p). apply cut_last_at. apply port_lacks; [done| |done]. unfold digit. rewrite byteZ_Zbyte; lia. }
  rewrite (proj2 (port_test p) Hp). cbn [negb]. destruct (str_index (String (Zbyte 91) a) "%25") as [k|].
  - cbn [String.length]. destruct (proj2 (unescape_host (String (Zbyte 93) p)) (close_port_coded p Hp)) as [h3 E3].
    rewrite <-unescape_host, <-unescape_zone. destruct (unescape encodeHost (substring 0 k (String (Zbyte 91) a))) as [h1|]; cbn [mbind option_bind].
    2: { split; [by intros [? ?]|]. by intros [[? ?] _]. }
    destruct (unescape encodeZone _) as [h2|]; cbn [mbind option_bind].
    2: { split; [by intros [? ?]|]. by intros [_ [? ?]]. }
    rewrite E3. cbn [mbind option_bind]. split; [|by eexists]. intros _. split; by eexists.
  - rewrite unescape_host. change h with ((String (Zbyte 91) a) +:+ String (Zbyte 93) p). unfold host_coded at 1. rewrite coded_mid by apply close_hex.
    split; [by intros (? & _)|]. intros H. split; [done|]. split; [apply close_host|]. destruct Hp as [->|(d & -> & Hd)]; [constructor|]. constructor; [done|apply colon_host|by apply digits_coded].
Qed.
Lemma parseHost_ok h : is_Some (parseHost h) ↔ host_part h.
Proof.
  destruct (first_is 91 h) eqn:F.
  - apply first_is_spec in F as [r ->]; [|lia]. split.
    + intros H. pose proof H as H0. pose proof (cut_last_inv (Zbyte 93) (String (Zbyte 91) r)) as C. unfold parseHost in H0. change (first_is 91 (String (Zbyte 91) r)) with true in H0. cbn iota in H0.
      destruct (cut_last (Zbyte 93) (String (Zbyte 91) r)) as [[a0 cp]|]; [|by destruct H0]. destruct C as [E L].
      destruct (validOptionalPort cp) eqn:V; [|by destruct H0]. clear H0. apply port_test in V. destruct a0 as [|c a]; cbn [String.append] in E; injection E as E1 E2; [done|]. subst c r.
      apply host_brackets in H; [|done]. destruct (str_index (String (Zbyte 91) a) "%25") as [k|] eqn:I.
      * pose proof I as I'. apply index_split in I as (x & y & E & Lx). destruct x as [|d x]; [discriminate E|]. cbn [String.append] in E. injection E as <- ->. cbn [String.length] in Lx. subst k.
        rewrite !sapp_assoc. apply host_scoped; [..|done].
        -- destruct H as [H _]. pose proof (substring_fst (String (Zbyte 91) x) ("%25" +:+ y)) as S1. exact (eq_ind _ host_coded H _ S1).
        -- exact I'.
        -- destruct H as [_ H]. pose proof (substring_snd (String (Zbyte 91) x) ("%25" +:+ y)) as S1.
           change (String (Zbyte 91) x +:+ ("%25" +:+ y)) with (String (Zbyte 91) (x +:+ "%25" +:+ y)) in S1. exact (eq_ind _ zone_coded H _ S1).
      * by apply host_address.
    + intros H. inversion H as [a p Ha Hl Hc Hp E|a p Hc Hi Hp E|a z p Hc Hi Hz Hp E]; subst.
      * exfalso. destruct a as [|d a]; cbn [String.append] in E; [|injection E as E1 E2; apply Ha; rewrite E1; by eexists]. destruct Hp as [->|(d & -> & _)]; [done|]. discriminate E.
      * apply host_brackets; [done|]. by rewrite Hi.
      * pose proof (host_brackets (a +:+ "%25" +:+ z) p Hp) as B. rewrite !sapp_assoc in B. apply B. rewrite Hi. split.
        -- pose proof (substring_fst (String (Zbyte 91) a) ("%25" +:+ z)) as S1. exact (eq_ind _ host_coded Hc _ (eq_sym S1)).
        -- pose proof (substring_snd (String (Zbyte 91) a) ("%25" +:+ z)) as S1.
           change (String (Zbyte 91) a +:+ ("%25" +:+ z)) with (String (Zbyte 91) (a +:+ "%25" +:+ z)) in S1. exact (eq_ind _ zone_coded Hz _ (eq_sym S1)).
  - assert (¬ ∃ r, h = String (Zbyte 91) r) as NF.
    { intros H. apply first_is_spec in H; [congruence|lia]. }
    unfold parseHost. rewrite F. pose proof (cut_last_inv (Zbyte 58) h) as C. destruct (cut_last (Zbyte 58) h) as [[a p]|].
    + destruct C as [-> L]. destruct (validOptionalPort (String (Zbyte 58) p)) eqn:V; cbn [negb].
      * apply port_test in V. rewrite unescape_host, port_coded by done. split.
        -- intros H. apply host_name; [|by right|done|done]. intros [r ->]. apply NF. by eexists.
        -- intros H. inversion H as [a' p' Ha Hl Hc Hp E|a' p' Hc Hi Hp E|a' z p' Hc Hi Hz Hp E]; [|exfalso; apply NF; rewrite <-E; by eexists|exfalso; apply NF; rewrite <-E; by eexists].
           apply (port_coded a' p') in Hc; [|done]. rewrite E in Hc. by apply port_coded in Hc.
      * split; [by intros [? ?]|]. intros H. exfalso.
        inversion H as [a' p' Ha Hl Hc Hp E|a' p' Hc Hi Hp E|a' z p' Hc Hi Hz Hp E]; [|exfalso; apply NF; rewrite <-E; by eexists|exfalso; apply NF; rewrite <-E; by eexists].
        destruct Hp as [->|(d & -> & Hd)].
        -- destruct Hl as [Hl|Hl]; [|done]. rewrite sapp_nil in E. subst a'. apply lacks_app in Hl as [_ [Hl _]]. done.
        -- pose proof (cut_last_at (Zbyte 58) a p L) as C1. rewrite <-E, cut_last_at in C1; [|apply digits_lack; [done|unfold digit; rewrite byteZ_Zbyte; lia]]. injection C1 as -> ->.
           rewrite valid_port in V by done. done.
    + rewrite unescape_host. split.
      * intros H. rewrite <-(sapp_nil h). apply host_name; [done|by left|done|by left].
      * intros H. inversion H as [a' p' Ha Hl Hc Hp E|a' p' Hc Hi Hp E|a' z p' Hc Hi Hz Hp E]; [|exfalso; apply NF; rewrite <-E; by eexists|exfalso; apply NF; rewrite <-E; by eexists].
        by apply port_coded.
Qed.

(** ** Users *)
Lemma user_test u : validUserinfo u = true ↔ each user_byte u.
Proof.
  unfold validUserinfo. induction u as [|c u IH]; [done|]. cbn [all_bytes each]. rewrite andb_true_iff, IH, orb_true_iff. rewrite among_one_of. unfold user_byte, is_alnum.
  rewrite orb_true_iff, letter_test, digit_test. tauto.
Qed.
Lemma authority_ok a : is_Some (parseAuthority a) ↔ authority_part a.
Proof.
  unfold parseAuthority, authority_part. pose proof (cut_last_inv (Zbyte 64) a) as C. destruct (cut_last (Zbyte 64) a) as [[u h]|].
  - destruct C as [-> L]. assert (∀ x, x ∨ (∃ u0 h0, u +:+ String (Zbyte 64) h = u0 +:+ String (Zbyte 64) h0 ∧ lacks (Zbyte 64) h0 ∧ each user_byte u0 ∧ any_coded u0 ∧ host_part h0) ↔ x ∨ (each user_byte u ∧ any_coded u ∧ host_part h)) as ->.
    { intros x. split; intros [H|H]; try (by left); right.
      - destruct H as (u0 & h0 & E & L0 & H). pose proof (cut_last_at (Zbyte 64) u h L) as C1. rewrite E, cut_last_at in C1 by done. injection C1 as -> ->. done.
      - by exists u, h. }
    rewrite <-!parseHost_ok, <-user_test. rewrite lacks_app. cbn [lacks].
    destruct (parseHost h) as [h'|]; cbn [mbind option_bind].
    2: { split; [by intros [? ?]|]. intros [[[_ [H _]] _]|(_ & _ & [? ?])]; done. }
    destruct (validUserinfo u); cbn [negb].
    2: { split; [by intros [? ?]|]. intros [[[_ [H _]] _]|(H & _)]; done. }
    pose proof (cut_inv (Zbyte 58) u) as C. destruct (cut (Zbyte 58) u) as [x [y|]].
    + destruct C as [-> Lx]. unfold any_coded. rewrite coded_mid by apply colon_hex. change (coded _ _ x) with (any_coded x). change (coded _ _ y) with (any_coded y). rewrite <-!(unescape_any encodeUserPassword) by done.
      destruct (unescape encodeUserPassword x) as [n|]; cbn [mbind option_bind].
      2: { split; [by intros [? ?]|]. intros [[[_ [H _]] _]|(_ & ([? ?] & _) & _)]; done. }
      destruct (unescape encodeUserPassword y) as [q|]; cbn [mbind option_bind].
      2: { split; [by intros [? ?]|]. intros [[[_ [H _]] _]|(_ & (_ & _ & [? ?]) & _)]; done. }
      split; [|by eexists]. intros _. right. split; [done|]. split; [|by eexists]. split; [by eexists|]. split; [done|by eexists].
    + destruct C as [-> Lx]. rewrite <-(unescape_any encodeUserPassword) by done. destruct (unescape encodeUserPassword u) as [n|]; cbn [mbind option_bind].
      2: { split; [by intros [? ?]|]. intros [[[_ [H _]] _]|(_ & [? ?] & _)]; done. }
      split; [|by eexists]. intros _. right. split; [done|]. split; by eexists.
  - split.
    + intros H. left. split; [done|]. apply parseHost_ok. destruct (parseHost a); [by eexists|by destruct H].
    + intros [[_ H]|(u & h & -> & _)].
      * apply parseHost_ok in H as [h ->]. by eexists.
      * apply lacks_app in C as [_ [C _]]. done.
Qed.

(** ** Links *)
Lemma ctl_test s : has_ctl s = false ↔ no_control s.
Proof.
  unfold has_ctl, no_control. rewrite negb_false_iff. induction s as [|c s IH]; [done|]. cbn [all_bytes each]. rewrite andb_true_iff, IH, negb_true_iff, orb_false_iff, Z.ltb_ge, Z.eqb_neq. tauto.
Qed.
Lemma control_app a b : no_control (a +:+ b) ↔ no_control a ∧ no_control b.
Proof. apply each_app. Qed.
Lemma scheme_good s : scheme_text s → no_control s ∧ lacks (Zbyte 35) s ∧ lacks (Zbyte 63) s ∧ s ≠ "".
Proof.
  intros (c & r & -> & Hc & Hr).
  assert (∀ d, scheme_byte d → (32 ≤ byteZ d ∧ byteZ d ≠ 127) ∧ d ≠ Zbyte 35 ∧ d ≠ Zbyte 63) as B.
  { intros d Hd. assert (negb ((inr 97 122 (byteZ d) || inr 65 90 (byteZ d)) || (inr 48 57 (byteZ d) || among (byteZ d) "+-.")) || ((32 <=? byteZ d) && negb (byteZ d =? 127) && negb (byteZ d =? 35) && negb (byteZ d =? 63)) = true) as T by (clear; bytes_of d; by vm_compute).
    assert ((inr 97 122 (byteZ d) || inr 65 90 (byteZ d)) || (inr 48 57 (byteZ d) || among (byteZ d) "+-.") = true) as T'.
    { rewrite !orb_true_iff. destruct Hd as [H|[H|H]]; [left; apply orb_true_iff; by apply letter_test|right; left; by apply digit_test|right; right; by apply among_one_of]. }
    rewrite T' in T. cbn [negb orb] in T. rewrite !andb_true_iff, !negb_true_iff, Z.leb_le, !Z.eqb_neq in T. destruct T as [[[T1 T2] T3] T4]. split; [done|].
    split; intros ->; [apply T3|apply T4]; by rewrite byteZ_Zbyte by lia. }
  assert (each scheme_byte (String c r)) as H by (split; [by left|exact Hr]). clear Hc Hr. revert H. generalize (String c r) at 1 2 3 4 as s. intros s H.
  enough (no_control s ∧ lacks (Zbyte 35) s ∧ lacks (Zbyte 63) s) by (split; [tauto|]; split; [tauto|]; split; [tauto|done]).
  induction s as [|d s IH]; [done|]. destruct H as [H1 H2]. destruct (B d H1) as (B1 & B2 & B3). destruct (IH H2) as (I1 & I2 & I3). cbn. done.
Qed.
Lemma cut_none_inv c s a : cut c s = (a, None) → a = s ∧ lacks c s.
Proof. intros E. pose proof (cut_inv c s) as C. by rewrite E in C. Qed.
Lemma cut_some_inv c s a b : cut c s = (a, Some b) → s = a +:+ String c b ∧ lacks c a.
Proof. intros E. pose proof (cut_inv c s) as C. by rewrite E in C. Qed.

(** After the scheme *)
Definition body_of (scheme rest : string) : option URL :=
  if negb (first_is 47 rest) && negb (String.eqb scheme "") then Some (mk_url scheme rest None "" "")
  else if negb (first_is 47 rest) && match cut (Zbyte 58) rest with
                                     | (a, Some _) => match cut (Zbyte 47) a with (_, None) => true | _ => false end
                                     | _ => false
                                     end then None
  else
    '(user, host, rest) ←
       (match rest with
        | String _ (String c r) =>
            if first_is 47 rest && (byteZ c =? 47) && (negb (String.eqb scheme "") || negb (first_is 47 r)) then
              let '(authority, path) := cut (Zbyte 47) r in
              '(user, host) ← parseAuthority authority;
              Some (user, host, match path with Some p => String (Zbyte 47) p | None => "" end)
            else Some (None, "", rest)
        | _ => Some (None, "", rest)
        end);
    path ← unescape encodePath rest;
    Some (mk_url scheme "" user host path).
Lemma parse_body raw : parse raw = (if has_ctl raw then None else if String.eqb raw "*" then Some (mk_url "" "" None "" "*")
  else '(scheme, rest) ← getscheme raw; body_of (lower_ascii scheme) (cut (Zbyte 63) rest).1).
Proof. reflexivity. Qed.
Definition good_url (o : option URL) : Prop := ∃ u, o = Some u ∧ u_scheme u ≠ "" ∧ u_opaque u = "".
Lemma body_ok scheme rest : scheme ≠ "" → good_url (body_of scheme rest) ↔ link_body rest.
Proof.
  intros Hs. unfold body_of. rewrite (proj2 (String.eqb_neq scheme "")) by done. cbn [negb]. rewrite andb_true_r. destruct (first_is 47 rest) eqn:F; cbn [negb andb].
  - apply first_is_spec in F as [p ->]; [|lia]. change (first_is 47 (String (Zbyte 47) p)) with true. cbn [andb].
    assert (∀ path o, (∃ x, o = Some (x : option userinfo * string) ) → good_url (('(user, host, rest) ← (('(user, host) ← o; Some (user, host, path)) : option (option userinfo * string * string)); path ← unescape encodePath rest; Some (mk_url scheme "" user host path))) ↔ any_coded path) as G.
    { intros path o [[us ho] ->]. cbn [mbind option_bind]. rewrite <-(unescape_any encodePath) by done. destruct (unescape encodePath path) as [q|]; cbn [mbind option_bind].
      - split; [by eexists|]. intros _. eexists. split; [reflexivity|]. done.
      - split; [by intros (? & ? & _)|by intros [? ?]]. }
    destruct p as [|c r].
    + specialize (G "/" (Some (None, "")) ltac:(by eexists)). change (String (Zbyte 47) "") with "/". cbn [mbind option_bind] in G |- *. rewrite G. split.
      * intros H. right. left. exists "". split; [done|]. split; [by intros [? ?]|done].
      * intros [H|[(p & E & _ & H)|(a & p & E & _)]]; [done|done|discriminate E].
    + destruct (Z.eqb_spec (byteZ c) 47) as [->%byte_char|Hc]; cbn [andb orb].
      * pose proof (cut_inv (Zbyte 47) r) as C. destruct (cut (Zbyte 47) r) as [a po]. set (path := match po with Some p => String (Zbyte 47) p | None => "" end).
        assert (r = a +:+ path ∧ lacks (Zbyte 47) a ∧ (path = "" ∨ ∃ q, path = String (Zbyte 47) q)) as (Er & La & Hp).
        { unfold path. destruct po as [q|]; destruct C as [E H]; subst; (split; [by rewrite ?sapp_nil|]); (split; [done|]); [right; by eexists|by left]. }
        clearbody path. clear C po. destruct (parseAuthority a) as [x|] eqn:Ea.
        -- rewrite (G path (Some x)) by (by eexists). split.
           ++ intros H. right. right. exists a, path. split; [by rewrite Er|]. split; [done|]. split; [done|]. split; [apply authority_ok; by eexists|done].
           ++ intros [H|[(p & E & Hn & H)|(a' & p & E & La' & Hp' & Ha & H)]]; [done|injection E as <-; destruct Hn; by eexists|].
              cbn [String.append] in E. injection E as E. enough (a' = a ∧ p = path) as [_ <-] by done. clear -E Er La Hp La' Hp'. subst r.
              assert (∀ x y, (y = "" ∨ ∃ q, y = String (Zbyte 47) q) → lacks (Zbyte 47) x → cut (Zbyte 47) (x +:+ y) = (x, match y with "" => None | String _ q => Some q end)) as K.
              { intros x y [->|[q ->]] L; [rewrite sapp_nil; by apply cut_none|by apply cut_at]. }
              pose proof (K a path Hp La) as K1. rewrite E, (K a' p Hp' La') in K1. injection K1 as <- K1. split; [done|]. symmetry. by eapply sapp_inj_l.
        -- cbn [mbind option_bind]. split; [by intros (? & ? & _)|]. intros [H|[(p & E & Hn & H)|(a' & p & E & La' & Hp' & Ha & H)]]; [done|injection E as <-; destruct Hn; by eexists|].
           exfalso. cbn [String.append] in E. injection E as E. apply authority_ok in Ha as [x Hx]. enough (a' = a) by congruence. clear -E Er La Hp La' Hp'. subst r.
           assert (∀ x y, (y = "" ∨ ∃ q, y = String (Zbyte 47) q) → lacks (Zbyte 47) x → (cut (Zbyte 47) (x +:+ y)).1 = x) as K.
           { intros x y [->|[q ->]] L; [rewrite sapp_nil; by rewrite cut_none|by rewrite cut_at]. }
           pose proof (K a path Hp La) as K1. rewrite E, (K a' p Hp' La') in K1. done.
      * specialize (G (String (Zbyte 47) (String c r)) (Some (None, "")) ltac:(by eexists)). cbn [mbind option_bind] in G |- *. rewrite G. split.
        -- intros H. right. left. exists (String c r). split; [done|]. split; [|done]. intros [q E]. injection E as -> _. by rewrite byteZ_Zbyte in Hc by lia.
        -- intros [H|[(p & E & _ & H)|(a & p & E & _)]]; [done|done|]. cbn [String.append] in E. injection E as -> _. done.
  - split.
    + intros (u & E & _ & H). injection E as <-. cbn in H. subst rest. by left.
    + intros [->|[(p & -> & _)|(a & p & -> & _)]]; [|done|done]. eexists. split; [reflexivity|]. done.
Qed.
Lemma body_scheme scheme rest u : body_of scheme rest = Some u → u_scheme u = scheme.
Proof.
  unfold body_of. destruct (_ && negb (String.eqb scheme "")); [by intros [= <-]|]. destruct (_ && _); [done|].
  match goal with |- context [mbind _ ?x] => destruct x as [[[us ho] re]|]; [|done] end. cbn [mbind option_bind]. destruct (unescape encodePath re); [|done]. by intros [= <-].
Qed.
Lemma verdict_good v : url_verdict v = GoodUrl ↔ good_url (Parse v).
Proof.
  unfold url_verdict, good_url. destruct (Parse v) as [u|]; [|split; [done|by intros (? & ? & _)]].
  destruct (String.eqb_spec (u_scheme u) "") as [E|E]; cbn [orb]; [split; [done|]; intros (? & [= <-] & ? & _); done|].
  destruct (String.eqb_spec (u_opaque u) "") as [E'|E']; cbn [negb]; (split; [|]); try done.
  - intros _. by exists u.
  - intros (? & [= <-] & _ & ?). done.
Qed.
Lemma parse_good raw : good_url (parse raw) ↔ ∃ scheme rest query, raw = scheme +:+ ":" +:+ rest +:+ query ∧ scheme_text scheme ∧ lacks (Zbyte 63) rest ∧ no_control raw ∧ link_body rest ∧
  (query = "" ∨ ∃ q, query = String (Zbyte 63) q).
Proof.
  rewrite parse_body. split.
  - intros (u & E & Hs & Ho). destruct (has_ctl raw) eqn:C; [done|]. apply ctl_test in C. destruct (String.eqb_spec raw "*") as [->|Hr]; [by injection E as <-|].
    destruct (getscheme raw) as [[scheme rest0]|] eqn:G; [|done]. cbn [mbind option_bind] in E. pose proof (body_scheme _ _ _ E) as Es.
    assert (scheme ≠ "") as Hne by (intros ->; done). destruct (proj1 (scheme_first raw scheme rest0) (conj G Hne)) as [Er Ht].
    pose proof (cut_inv (Zbyte 63) rest0) as K. destruct (cut (Zbyte 63) rest0) as [rest qo] eqn:Ek. cbn [fst] in E.
    assert (link_body rest) as B.
    { apply (body_ok (lower_ascii scheme)); [by rewrite lower_empty|]. exists u. split; [done|]. split; [congruence|done]. }
    exists scheme, rest, (match qo with Some q => String (Zbyte 63) q | None => "" end). split; [|split; [done|]; split; [|split; [done|]; split; [done|]]].
    + rewrite Er. destruct qo as [q|]; destruct K as [-> _]; [done|by rewrite sapp_nil].
    + destruct qo as [q|]; destruct K as [? ?]; [done|by subst].
    + destruct qo as [q|]; [right; by exists q|by left].
  - intros (scheme & rest & query & -> & Ht & L & C & B & Q). rewrite (proj2 (ctl_test _) C).
    destruct (scheme_good scheme Ht) as (_ & _ & _ & Hne).
    assert (scheme +:+ ":" +:+ rest +:+ query ≠ "*") as Hs.
    { destruct Ht as (c & r & -> & Hc & _). cbn [String.append]. intros [= -> H]. destruct r; discriminate H. }
    rewrite (proj2 (String.eqb_neq _ _) Hs).
    assert (getscheme (scheme +:+ ":" +:+ rest +:+ query) = Some (scheme, rest +:+ query)) as ->.
    { apply (proj2 (scheme_first _ scheme (rest +:+ query))). by split. }
    cbn [mbind option_bind].
    assert ((cut (Zbyte 63) (rest +:+ query)).1 = rest) as ->.
    { destruct Q as [->|[q ->]]; [rewrite sapp_nil; by rewrite cut_none|by rewrite cut_at]. }
    apply body_ok; [by rewrite lower_empty|done].
Qed.
Lemma link_ok v : url_verdict v = GoodUrl ↔ link v.
Proof.
  rewrite verdict_good. unfold Parse. pose proof (cut_inv (Zbyte 35) v) as K. split.
  - destruct (cut (Zbyte 35) v) as [u fo]. intros H.
    assert (good_url (parse u) ∧ any_coded (default "" fo)) as [G F].
    { destruct H as (x & E & H). destruct (parse u) as [y|]; [|done]. cbn [mbind option_bind] in E. destruct (unescape encodeFragment (default "" fo)) as [f|] eqn:Ef; [|done].
      injection E as <-. split; [by exists y|]. apply (unescape_any encodeFragment); [done|done|by eexists]. }
    apply parse_good in G as (scheme & rest & query & Eu & Ht & L & C & B & Q).
    assert (lacks (Zbyte 35) u) as Lu by (destruct fo; destruct K as [? ?]; [done|by subst]).
    rewrite Eu in Lu, C. apply lacks_app in Lu as [_ Lu]. apply control_app in C as [_ C]. change (":" +:+ rest +:+ query) with (String (Zbyte 58) (rest +:+ query)) in Lu, C.
    destruct Lu as [_ Lu], C as [_ C]. apply lacks_app in Lu as [Lr Lq]. apply control_app in C as [Cr Cq].
    exists scheme, rest, query, (match fo with Some f => String (Zbyte 35) f | None => "" end). split; [|split; [done|]; split; [done|]; split; [done|]; split; [done|]; split; [done|]; split].
    + destruct fo as [f|]; destruct K as [K _]; [rewrite K, Eu; by rewrite !sapp_assoc|by rewrite sapp_nil, <-K].
    + destruct Q as [->|[q ->]]; [by left|right]. exists q. split; [done|]. destruct Lq as [_ Lq], Cq as [_ Cq]. done.
    + destruct fo as [f|]; [right; by exists f|by left].
  - intros (scheme & rest & query & frag & Ev & Ht & L1 & L2 & C & B & Q & F).
    destruct (scheme_good scheme Ht) as (Cs & L35 & _ & Hne).
    assert (cut (Zbyte 35) v = (scheme +:+ ":" +:+ rest +:+ query, match frag with "" => None | String _ f => Some f end)) as ->.
    { assert (lacks (Zbyte 35) (scheme +:+ ":" +:+ rest +:+ query)) as L.
      { rewrite !lacks_app. split; [done|]. split; [done|]. split; [done|]. destruct Q as [->|(q & -> & Lq & _)]; done. }
      rewrite Ev. destruct F as [->|(f & -> & _)].
      - rewrite sapp_nil. by apply cut_none.
      - change (scheme +:+ ":" +:+ rest +:+ query +:+ String (Zbyte 35) f) with (scheme +:+ (":" +:+ (rest +:+ (query +:+ String (Zbyte 35) f)))). rewrite <-!sapp_assoc. rewrite !sapp_assoc. rewrite <-(cut_at (Zbyte 35) _ f L). f_equal. by rewrite !sapp_assoc. }
    assert (good_url (parse (scheme +:+ ":" +:+ rest +:+ query))) as (u & E & Hu).
    { apply parse_good. exists scheme, rest, query. split; [done|]. split; [done|]. split; [done|]. split.
      - rewrite !control_app. split; [done|]. split; [split; [split; vm_compute; discriminate|done]|]. split; [done|]. destruct Q as [->|(q & -> & _ & Cq)]; [done|]. split; [rewrite byteZ_Zbyte; lia|done].
      - split; [done|]. destruct Q as [->|(q & -> & _)]; [by left|right; by eexists]. }
    rewrite E. cbn [mbind option_bind].
    assert (is_Some (unescape encodeFragment (default "" (match frag with "" => None | String _ f => Some f end)))) as [f Ef].
    { apply unescape_any; [done|done|]. destruct F as [->|(f & -> & Hf)]; [constructor|done]. }
    rewrite Ef. cbn [mbind option_bind]. by exists u.
Qed.
