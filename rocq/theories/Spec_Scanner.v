(** What scanning a rewrite rule should give. *)
From Verif Require Import Base Spec_Helpers Spec_Format Spec_Layout Model_Scanner.

(** ** Byte strings that are not rules *)
(** the position of the first fragment control byte *)
Definition first_control (w : Z) (data : list Z) : Z :=
  5 + w * nth 4 data 0 + (if nth 1 data 0 =? 0 then 1 else 0).
(** a proper prefix of the data, ending in a zero byte that is itself read to its end (or is
    too short to be looked at) *)
Definition complete_prefix (k : kind) (data : list Z) : Prop :=
  exists pre post, data = pre ++ post /\ post <> [] /\ zget pre (zlen pre - 1) = Ok 0 /\
    first_control (k_width k) data < zlen pre /\
    (zlen pre < k_min k \/ exists es, scan k pre = Ok es).

(** ** Rules laid out as the format says: the elements of a fragment are its sets and then its
    values, [dec] being the meaning of a stored value *)
Definition fragment_elements (dec : Z -> Z) (f : fragment) : list element :=
  map InSet (fst f) ++ map (fun x => Single (dec x)) (snd f).
Definition block_elements (dec : Z -> Z) (b : list fragment) : list element :=
  concat (map (fragment_elements dec) b).
Definition rule_elements (dec : Z -> Z) (r : rewrite_rule) : list element :=
  block_elements dec (rule_head r) ++ block_elements dec (rule_body r) ++ block_elements dec (rule_tail r).
(** blocks as the format wants them: at most 15 sets and 15 values per fragment, no empty
    fragment except for the one of an empty block *)
Definition block_wellformed (w : nat) (valid : Z -> bool) (dec : Z -> Z) (b : list fragment) : Prop :=
  block_shaped b /\
  Forall (fun f => zlen (fst f) <= 15 /\ zlen (snd f) <= 15 /\ Forall byte (fst f) /\
                   Forall (fun x => 0 <= x < 256 ^ Z.of_nat w /\ valid (dec x) = true) (snd f)) b.
(** the limits the scanner puts on rules *)
Record scannable (k : kind) (w : nat) (dec : Z -> Z) (r : rewrite_rule) : Prop := {
  sr_condition : byte (rule_condition r);
  sr_head : block_wellformed w (k_valid k) dec (rule_head r);
  sr_body : block_wellformed w (k_valid k) dec (rule_body r);
  sr_tail : block_wellformed w (k_valid k) dec (rule_tail r);
  sr_outputs : Forall (fun x => 0 <= x < 256 ^ Z.of_nat w) (rule_out r);
  sr_lengths : block_length (rule_head r) + block_length (rule_body r) + block_length (rule_tail r) <= 255;
  sr_out : 1 <= zlen (rule_out r) <= block_length (rule_body r);
  sr_size : k_min k <= zlen (rule_bytes w r) }.
