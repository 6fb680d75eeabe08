(** Which lines are refused. *)
From Verif Require Import Spec_Lines Spec_Repl Proof_Lines.
From stdpp Require Import options.
Import Model_GoStr.

Lemma run_not_refused ctx cmd args : run_of ctx cmd args ≠ Refused.
Proof.
  unfold run_of. repeat (match goal with |- context [if String.eqb cmd ?x then _ else _] => destruct (String.eqb cmd x) end);
  unfold quickCopy, getCopy, queried, keyed; try discriminate; repeat (case_match; try discriminate).
Qed.
Lemma parse_refused ro ctx line cmd rest : Fields (TrimSpace line) = cmd :: rest →
  parse_line ro ctx line = Refused ↔ ro = true ∧ cmd ∈ write_cmds.
Proof.
  intros Hf. unfold parse_line. cbv zeta. rewrite Hf. rewrite <- is_cmd_in.
  assert (is_cmd read_cmds cmd = true → is_cmd write_cmds cmd = true → False) as Hd.
  { intros Hr%is_cmd_in Hw%is_cmd_in.
    assert (Forall (λ c, c ∉ write_cmds) read_cmds) as HF by (repeat (constructor; [compute_dec|]); constructor). rewrite Forall_forall in HF. by apply (HF cmd). }
  destruct (is_cmd read_cmds cmd) eqn:Er, (is_cmd write_cmds cmd) eqn:Ew; cbn [orb negb andb].
  - by destruct (Hd eq_refl eq_refl).
  - rewrite andb_false_r. split; [intros H; by apply run_not_refused in H|by intros [_ ?]].
  - rewrite andb_true_r. destruct ro; [done|]. split; [intros H; by apply run_not_refused in H|by intros [? _]].
  - split; [done|by intros [_ ?]].
Qed.
