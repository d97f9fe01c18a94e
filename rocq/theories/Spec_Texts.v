(** Texts: UTF-8 (RFC 3629) of code points that are not control characters. *)
From Verif Require Import Base.

Definition scalar (c : Z) : Prop := 0 <= c < 55296 \/ 57344 <= c < 1114112.
Definition utf8 (c : Z) : list Z :=
  if c <? 128 then [c]
  else if c <? 2048 then [192 + c / 64; 128 + c mod 64]
  else if c <? 65536 then [224 + c / 4096; 128 + c / 64 mod 64; 128 + c mod 64]
  else [240 + c / 262144; 128 + c / 4096 mod 64; 128 + c / 64 mod 64; 128 + c mod 64].
Definition encodes (cs : list Z) (s : list Z) : Prop := Forall scalar cs /\ s = concat (map utf8 cs).
(** text without the characters before the space *)
Definition plain_text (s : list Z) : Prop := exists cs, encodes cs s /\ Forall (fun c => 32 <= c) cs.
