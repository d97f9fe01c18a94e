(** Readers that fail: what arrived before. *)
From Verif Require Import Base Model_Font Model_Parse.

(** the reader returns only data and no error *)
Definition undisturbed (g : stream) : Prop := Forall (fun r => snd r = NoErr) g.
(** what it returned *)
Definition sent (g : stream) : list Z := concat (map fst g).
(** the messages of which two take the place of reading errors *)
Definition misreported : list string :=
  ["UTF8RuleEndOffsets declares UTF8Rules to end before allowed"; "GlyphRuleEndOffsets declares GlyphRules to end before allowed"]%string.
