(** Proofs about the text of urls and the question for a port. *)
From Verif Require Import Spec_UrlText Proof_GoStr Proof_Url Proof_Pkcs7 Proof_Ssh.
From Coq Require Import Lia.
From stdpp Require Import options.
Import Model_GoStr Model_Ssh.
#[local] Open Scope Z_scope.

Definition kept_b (keep : string) (c : Ascii.ascii) : bool :=
  let b := byteZ c in inr 48 57 b || (inr 65 90 b || inr 97 122 b) || bool_decide (c ∈ str_bytes keep).
Lemma kept_b_ok keep c : kept_b keep c = true ↔ kept keep c.
Proof.
  unfold kept, digit, letter, one_of, kept_b, inr. rewrite !orb_true_iff, !andb_true_iff, !Z.leb_le, bool_decide_eq_true. tauto.
Qed.

Definition nibble_b (c : Ascii.ascii) : bool :=
  bool_decide (String.get (Z.to_nat (byteZ c / 16)) "0123456789ABCDEF" = Some (upper_hex (byteZ c / 16))) &&
  bool_decide (String.get (Z.to_nat (byteZ c mod 16)) "0123456789ABCDEF" = Some (upper_hex (byteZ c mod 16))).
Lemma nibble_ok c : nibble_b c = true.
Proof. bytes_of c; by vm_compute. Qed.

Lemma spelled_escape keep mode s : (∀ c, shouldEscape c mode = negb (kept_b keep c)) → spelled keep s (escape mode s).
Proof.
  intros H. induction s as [|c s IH]; [constructor|]. cbn [escape]. rewrite H. destruct (kept_b keep c) eqn:E; cbn [negb].
  - apply spelled_kept; [by apply kept_b_ok|done].
  - unfold percent. pose proof (nibble_ok c) as N. unfold nibble_b in N. apply andb_true_iff in N as [N1%bool_decide_eq_true N2%bool_decide_eq_true].
    apply (spelled_coded _ c s _ (Z.to_nat (byteZ c / 16)) (Z.to_nat (byteZ c mod 16))); try done.
    + intros K%kept_b_ok. congruence.
    + pose proof (byteZ_range c). rewrite !Z2Nat.id.
      * pose proof (Z.div_mod (byteZ c) 16). lia.
      * apply Z.mod_pos_bound. lia.
      * apply Z.div_pos; lia.
Qed.
Lemma spelled_user s : spelled in_user s (escape encodeUserPassword s).
Proof. apply spelled_escape. intros c. bytes_of c; by vm_compute. Qed.
Lemma spelled_path s : spelled in_path s (escape encodePath s).
Proof. apply spelled_escape. intros c. bytes_of c; by vm_compute. Qed.

Lemma escape_host h : each ascii_host h → escape encodeHost h = h.
Proof.
  induction h as [|c h IH]; [done|]. intros [Hc Hh]. cbn [escape]. rewrite (ascii_host_stays c encodeHost) by (done || by left). by rewrite IH.
Qed.
Lemma each_app p a b : each p (a +:+ b) ↔ each p a ∧ each p b.
Proof. induction a as [|c a IH]; cbn; [tauto|]. rewrite IH. tauto. Qed.
Lemma each_mono (p q : Ascii.ascii → Prop) s : (∀ c, p c → q c) → each p s → each q s.
Proof. intros H. induction s as [|c s IH]; [done|]. cbn. intuition. Qed.

Lemma scp_spelled user host port file pass : each ascii_host host → lacks (Zbyte 58) host → each digit port → file ≠ "" → file ≠ "*" →
  ∃ u p f, spelled in_user user u ∧ match pass with None => p = "" | Some w => ∃ q, p = ":" +:+ q ∧ spelled in_user w q end ∧ spelled in_path (slashed file) f ∧
    scp_url user host port file pass = "scp://" +:+ u +:+ p +:+ "@" +:+ host +:+ ":" +:+ port +:+ f.
Proof.
  intros Hh Hc Hp Hf Hs. exists (escape encodeUserPassword user), (match pass with Some p => ":" +:+ escape encodeUserPassword p | None => "" end), (escape encodePath (slashed file)).
  split; [apply spelled_user|]. split; [destruct pass as [w|]; [exists (escape encodeUserPassword w); split; [done|apply spelled_user]|done]|]. split; [apply spelled_path|].
  rewrite scp_url_text. unfold user_string. cbn [fst snd].
  assert (JoinHostPort host port = host +:+ ":" +:+ port) as ->.
  { unfold JoinHostPort. by rewrite (cut_none (Zbyte 58) host). }
  rewrite escape_host.
  2: { apply each_app. split; [done|]. split; [right; right; unfold one_of; apply (bool_decide_eq_true_1 _); reflexivity|]. eapply each_mono; [|exact Hp]. intros c Hd. by left. }
  assert ((if negb (String.eqb (escaped_path file) "") && negb (first_is 47 (escaped_path file)) then "/" else "") +:+ escaped_path file = escape encodePath (slashed file)) as ->.
  { rewrite path_first. unfold escaped_path. destruct (String.eqb_spec file "*") as [|_]; [done|]. destruct file as [|c r]; [done|]. cbn [first_is slashed].
    assert (String.eqb (escape encodePath (String c r)) "" = false) as ->.
    { cbn [escape]. by destruct (shouldEscape c encodePath). }
    cbn [negb andb]. destruct (byteZ c =? 47) eqn:E; cbn [negb]; [done|]. reflexivity. }
  rewrite !sapp_assoc. reflexivity.
Qed.
Lemma file_spelled path : ∃ f, spelled in_path (String (Zbyte 47) path) f ∧ file_url (String (Zbyte 47) path) = "file://" +:+ f.
Proof. exists (escape encodePath (String (Zbyte 47) path)). split; [apply spelled_path|]. reflexivity. Qed.

Lemma asked_port inp port rest : askPort inp = UOk port rest ↔
  ∃ bad line, inp = (ILine <$> bad) ++ ILine line :: rest ∧ port_line line port ∧ ∀ b, b ∈ bad → b ≠ "" ∧ ¬ ∃ n, Atoi b = Ok n.
Proof.
  split.
  - induction inp as [|[s|e] r IH]; [done| |done]. cbn [askPort]. destruct (Nat.eqb_spec (String.length s) 0) as [H0|H0].
    + intros [= <- <-]. exists [], s. split; [done|]. split; [left; split; [by destruct s|done]|]. by intros b ?%elem_of_nil.
    + assert (s ≠ "") as Hs by (intros ->; done). destruct (Atoi s) as [n|x|] eqn:E.
      * intros [= <- <-]. exists [], s. split; [done|]. split; [right; split; [done|]; split; [done|by exists n]|]. by intros b ?%elem_of_nil.
      * intros (bad & line & -> & H1 & H2)%IH. exists (s :: bad), line. split; [done|]. split; [done|]. intros b [->|Hb]%elem_of_cons; [|by apply H2]. split; [done|]. intros [n Hn]. congruence.
      * intros (bad & line & -> & H1 & H2)%IH. exists (s :: bad), line. split; [done|]. split; [done|]. intros b [->|Hb]%elem_of_cons; [|by apply H2]. split; [done|]. intros [n Hn]. congruence.
  - intros (bad & line & -> & H1 & H2). induction bad as [|b bad IH].
    + cbn. destruct H1 as [[-> ->]|(Hl & -> & n & Hn)]; [done|]. destruct (Nat.eqb_spec (String.length line) 0) as [H0|H0]; [by destruct line|]. by rewrite Hn.
    + destruct (H2 b) as [Hb1 Hb2]; [apply elem_of_list_here|]. cbn [fmap list_fmap app askPort]. destruct (Nat.eqb_spec (String.length b) 0) as [H0|H0]; [by destruct b|].
      destruct (Atoi b) as [n|x|] eqn:E; [destruct Hb2; by exists n|..]; apply IH; intros y Hy; apply H2; by apply elem_of_list_further.
Qed.

(** ** One spelling for one text *)
Lemma spelled_once keep s t t' : spelled keep s t → spelled keep s t' → t = t'.
Proof.
  intros H. revert t'. induction H as [|c s t Hc H IH|c s t i j h l Hc Hi Hh Hl H IH]; intros t' H'; inversion H'; subst; try done.
  - f_equal. by apply IH.
  - assert (i = i0 ∧ j = j0) as [-> ->].
    { assert (∀ k x, String.get k "0123456789ABCDEF" = Some x → (k < 16)%nat) as B.
      { intros k x. do 16 (destruct k as [|k]; [lia|]). by destruct k. }
      pose proof (B _ _ Hh). pose proof (B _ _ Hl). match goal with H : String.get i0 _ = Some _ |- _ => pose proof (B _ _ H) end. match goal with H : String.get j0 _ = Some _ |- _ => pose proof (B _ _ H) end. lia. }
    match goal with H1 : String.get i0 _ = Some ?a, H2 : String.get i0 _ = Some ?b |- _ => assert (a = b) as -> by congruence end.
    match goal with H1 : String.get j0 _ = Some ?a, H2 : String.get j0 _ = Some ?b |- _ => assert (a = b) as -> by congruence end.
    do 3 f_equal. by apply IH.
Qed.
Lemma spelled_inj keep s s' t : ¬ kept keep (Zbyte 37) → spelled keep s t → spelled keep s' t → s = s'.
Proof.
  intros Hp H. revert s'. induction H as [|c s t Hc H IH|c s t i j h l Hc Hi Hh Hl H IH]; intros s' H'; inversion H'; subst; try done.
  - f_equal. by apply IH.
  - assert (∀ k k' x, String.get k "0123456789ABCDEF" = Some x → String.get k' "0123456789ABCDEF" = Some x → k = k') as B.
    { intros k k' x. do 16 (destruct k as [|k]; [intros [= <-]; do 16 (destruct k' as [|k']; [done|]); destruct k'; done|]). by destruct k. }
    match goal with H1 : String.get i _ = Some ?a, H2 : String.get i0 _ = Some ?a |- _ => rewrite (B _ _ _ H1 H2) in * end.
    match goal with H1 : String.get j _ = Some ?a, H2 : String.get j0 _ = Some ?a |- _ => rewrite (B _ _ _ H1 H2) in * end.
    f_equal; [|by apply IH]. apply byteZ_inj. congruence.
Qed.
