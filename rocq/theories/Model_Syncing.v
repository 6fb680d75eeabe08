(** The sync command inside a session: repl.go:500-510 (the command), main.go:94
    and main.go:111 (at the start and at the end).  All three call [sync] with
    [push] set; its argument [auto] is never used. *)
From Verif Require Export Model_Sync Model_Repl.
From stdpp Require Import options.
Import Model_GoStr.

(** repl.go:508, main.go:94, main.go:111; what was pushed where is left out *)
Definition sync_cmd (P : prims) (y : sync_world) (name : string) : C unit := λ s inp,
  let '(s', _, r) := sync P y name true s inp in (s', r).

(** The world of the commands with this as its sync command *)
Definition with_sync (y : sync_world) (w : world) : world := {|
  w_P := w_P w; w_env := w_env w; w_rand := w_rand w; w_lower := w_lower w; w_upper := w_upper w; w_url := w_url w;
  w_coerce := w_coerce w; w_uri_ok := w_uri_ok w; w_totp := w_totp w; w_time := w_time w; w_keys := w_keys w;
  w_editor := w_editor w; w_abs := w_abs w; w_file_url := w_file_url w; w_scp_url := w_scp_url w; w_sshkey := w_sshkey w;
  w_sync := sync_cmd (w_P w) y |}.
