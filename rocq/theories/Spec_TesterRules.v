(** The bytes of rules without sets, without tail and with one output, and what is fed. *)
From Verif Require Import Base Spec_Layout Model_Scanner Spec_Scanner Spec_Tester.

(** [t], laid out as the format says, is the rule [r]; [dec] is the meaning of a stored value. *)
Definition block_is (dec : Z -> Z) (b : list fragment) (l : list Z) : Prop := block_elements dec b = map Single l.
Definition encodes (k : kind) (w : nat) (dec : Z -> Z) (t : rewrite_rule) (r : rrule) : Prop :=
  scannable k w dec t /\ rule_condition t = r_cond r /\
  block_is dec (rule_head t) (r_head r) /\ block_is dec (rule_body t) (r_body r) /\ block_is dec (rule_tail t) [] /\
  exists y, rule_out t = [y] /\ r_out r = [dec y].
Definition glyph_rule (d : list Z) (r : rrule) : Prop := exists t, d = rule_bytes 2 t /\ encodes glyph_kind 2 (fun x => x) t r.
(** The largest number a rune can hold is left out (it is not a character). *)
Definition utf8_rule (d : list Z) (r : rrule) : Prop :=
  exists t, d = rule_bytes 4 t /\ encodes utf8_kind 4 i32 t r /\ ~ In 2147483647 (pattern r).

(** A glyph tester takes glyph indices, including the one for a missing glyph; a rune tester
    takes Unicode characters except the replacement character. Anything else is not part of the
    sequence. *)
Definition is_glyph (g : Z) : bool := g <=? 56789.
Definition is_rune (r : Z) : bool := (((0 <=? r) && (r <? 55296)) || ((57344 <=? r) && (r <? 1114112))) && negb (r =? 65533).
