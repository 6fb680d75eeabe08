(** The links of entries: commands.go:803-812 in [set], 1194-1203 in [openurl], with url.Parse
    and the program that is started. *)
From Verif Require Export Model_Url Model_Repl Model_Editor.
From stdpp Require Import options.

(** commands.go:804-811; [openurl] only looks whether there is an error (commands.go:1194) *)
Definition url_verdict (v : string) : verdict :=
  match Parse v with
  | None => NotUrl
  | Some u => if String.eqb (u_scheme u) "" || negb (String.eqb (u_opaque u) "") then NoScheme else GoodUrl
  end.

(** A world in which it is put in *)
Definition with_links (w : world) : world := {|
  w_P := w_P w; w_env := w_env w; w_rand := w_rand w; w_lower := w_lower w; w_upper := w_upper w; w_url := url_verdict;
  w_coerce := w_coerce w; w_uri_ok := w_uri_ok w; w_totp := w_totp w; w_time := w_time w; w_keys := w_keys w;
  w_editor := w_editor w; w_abs := w_abs w; w_file_url := w_file_url w; w_scp_url := w_scp_url w; w_sshkey := w_sshkey w; w_sync := w_sync w |}.
