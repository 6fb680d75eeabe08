(** Model of pkcs7/pad.go. *)
From Verif Require Export Model_GoStr.
From stdpp Require Import options.

(** A Go [byte] and [[]byte]. *)
Notation byte := Ascii.ascii.
Notation bytes := (list Ascii.ascii).

(** [byte(z)]: the low eight bits. *)
Definition to_byte (z : Z) : byte := Zbyte (z mod 256).

(** pkcs7/pad.go:41-56, [Pad].  [append] may write into spare capacity of [b];
    the callers do not use [b] afterwards, so only the result is modelled. *)
Definition Pad (b : bytes) (k : Z) : outcome bytes :=
  if (k <? 1)%Z then Panic
  else
    let padBytes := (k - Z.of_nat (length b) mod k)%Z in
    let padBytes := if (padBytes =? 0)%Z then k else padBytes in
    Ok (b ++ replicate (Z.to_nat padBytes) (to_byte padBytes)).

(** pkcs7/pad.go:70-74: the [i] bytes before the end must equal [c]; indexing
    [b[len(b)-i]] panics if out of range. *)
Fixpoint unpad_check (b : bytes) (c : byte) (i : nat) : outcome unit :=
  match i with
  | O => Ok tt
  | S i' =>
      if (i <=? length b)%nat then
        match b !! (length b - i)%nat with
        | Some x => if Ascii.eqb x c then unpad_check b c i'
                    else Fail (EMsg "pkcs7 unpad failed one of the bytes was incorrect")
        | None => Panic
        end
      else Panic
  end.

(** pkcs7/pad.go:59-79, [Unpad] *)
Definition Unpad (b : bytes) : outcome bytes :=
  if (length b =? 0)%nat then Fail (EMsg "cannot unpad an empty slice")
  else
    match b !! (length b - 1)%nat with
    | None => Panic
    | Some padBytes =>
        let n := Z.to_nat (byteZ padBytes) in
        if (length b <? n)%nat then
          Fail (EMsg "pkcs7 unpad failed, more padding bytes than is possible was specified")
        else
          match unpad_check b padBytes n with
          | Ok _ => if (n <=? length b)%nat then Ok (take (length b - n) b) else Panic
          | Fail e => Fail e
          | Panic => Panic
          end
    end.
