(** Syncing over ssh: the user is asked in order, and hosts of text are
    remembered as text. *)
From Verif Require Import Proof_GoStr Proof_Utf8 Proof_Session2 Proof_Text Proof_Text2 Spec_Syncing Spec_Ssh Proof_Ssh Proof_Main Proof_Syncing Proof_Syncing2.
From Coq Require Import Lia.
From stdpp Require Import options.
Import Model_GoStr Proof_Utf8.
#[local] Open Scope nat_scope.

Lemma rd_callback known hn addr ty hash inp : in_order (host_callback known hn addr ty hash inp) inp.
Proof.
  unfold host_callback. destruct (known_scan _ _ _ _) as [[[]|e|]|]; [apply in_order_ok|cbn; reflexivity|exact Logic.I|].
  destruct inp as [|[l|e] r]; cbn [prompt]; [exact Logic.I| |cbn; by apply suffix_cons_r].
  destruct (_ || _); cbn; by apply suffix_cons_r.
Qed.
Lemma rd_dialling {A} known t d inp (failed : error → A) rest : in_order (dialling known t d inp failed rest).2 inp.
Proof.
  unfold dialling. destruct d as [e|addr ty hash chan]; [apply in_order_ok|].
  pose proof (rd_callback known (t_address t) addr ty hash inp) as H. destruct (host_callback _ _ _ _ _ _) as [nh r|e r| |]; [|exact H|exact Logic.I|exact Logic.I].
  destruct (rest chan) as [[ev a]|e|]; [exact H|exact Logic.I|exact Logic.I].
Qed.
Lemma over_ssh_in_order h y : ssh_in_order (over_ssh h y).
Proof.
  split; cbn [over_ssh y_ssh_pull y_ssh_push].
  - intros i b inp. unfold sshPull. destruct (sshConfig _ _) as [t|e|]; [apply rd_dialling|apply in_order_ok|exact Logic.I].
  - intros i b ct inp. unfold sshPush. destruct (sshConfig _ _) as [t|e|]; [|apply in_order_ok|exact Logic.I].
    pose proof (rd_dialling (key_of_entry b KeyKnownHosts) t (h_dial h true i t) inp Some
      (λ chan, Ok (Send (t_path t) 384 (bytes_string ct) (chan ("scp -qt " +:+ t_path t))))) as H.
    destruct (dialling _ _ _ _ _ _) as [ev [[nh [e|]] r|e r| |]]; exact H.
Qed.

Lemma hostLine_utf8 hn addr ty hash : utf8 hn → utf8 addr → utf8 ty → utf8 hash → utf8 (hostLine hn addr ty hash).
Proof. intros. unfold hostLine. apply utf8_app; [done|]. apply utf8_app; [utf8_lit|]. apply utf8_app; [done|]. apply utf8_app; [utf8_lit|]. apply utf8_app; [done|]. apply utf8_app; [utf8_lit|done]. Qed.
Lemma dialling_text {A} known t d inp (failed : error → A) rest :
  (∀ addr ty hash chan, d = Dialled addr ty hash chan → utf8 (t_address t) ∧ utf8 addr ∧ utf8 ty ∧ utf8 hash) → typed_text inp →
  text_ui (dialling known t d inp failed rest).2.
Proof.
  intros Hd Hi. unfold dialling. destruct d as [e|addr ty hash chan]; [split; [apply utf8_empty|done]|].
  destruct (Hd _ _ _ _ eq_refl) as (H1 & H2 & H3 & H4). pose proof (rd_callback known (t_address t) addr ty hash inp) as Ho.
  destruct (host_callback _ _ _ _ _ _) as [nh r|e r| |] eqn:E; [|split; [apply utf8_empty|by eapply typed_suffix]|exact Logic.I|exact Logic.I].
  destruct (rest chan) as [[ev a]|e|]; [|exact Logic.I|exact Logic.I]. split; [|by eapply typed_suffix].
  apply callback_trusted in E as [_ [[-> _]|[-> _]]]; cbn [default]; [apply utf8_empty|]. by apply hostLine_utf8.
Qed.
Lemma over_ssh_text h y : (∀ k, clock_ok (y_env y k)) → text_hosts h → text_sync (over_ssh h y).
Proof.
  intros Hc Hh. split; [exact Hc|]. split; cbn [over_ssh y_ssh_pull y_ssh_push].
  - intros i b inp _ Hi. unfold sshPull. destruct (sshConfig _ _) as [t|e|]; [|split; [apply utf8_empty|done]|exact Logic.I]. apply dialling_text; [|done]. apply Hh.
  - intros i b ct inp _ Hi. unfold sshPush. destruct (sshConfig _ _) as [t|e|]; [|split; [apply utf8_empty|done]|exact Logic.I].
    pose proof (dialling_text (key_of_entry b KeyKnownHosts) t (h_dial h true i t) inp Some
      (λ chan, Ok (Send (t_path t) 384 (bytes_string ct) (chan ("scp -qt " +:+ t_path t)))) (Hh true i t) Hi) as H.
    destruct (dialling _ _ _ _ _ _) as [ev [[nh [e|]] r|e r| |]]; try exact H. split; [apply utf8_empty|apply H].
Qed.
