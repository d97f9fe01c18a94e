(** Which byte strings the scanner of rewrite rules takes for a rule. *)
From Verif Require Import Base Spec_Helpers Spec_Format Spec_Layout Model_Scanner Spec_Scanner.

(** the lengths in the first five bytes: at least one output and not more than body elements, and
    not more than 255 elements *)
Definition lengths_fit (k : kind) (data : list Z) : Prop :=
  k_min k <= zlen data /\ 1 <= nth 4 data 0 <= nth 2 data 0 /\ nth 1 data 0 + nth 2 data 0 + nth 3 data 0 <= 255.
(** fragments of sets and values *)
Definition fragment_valid (w : nat) (valid : Z -> bool) (dec : Z -> Z) (f : fragment) : Prop :=
  1 <= fragment_length f /\ zlen (fst f) <= 15 /\ zlen (snd f) <= 15 /\ Forall byte (fst f) /\
  Forall (fun x => 0 <= x < 256 ^ Z.of_nat w /\ valid (dec x) = true) (snd f).
(** the number of elements that a control byte announces *)
Definition announced (c : Z) : Z := c / 16 + c mod 16.

(** Fragments of head, body and tail, and what may follow them: nothing, or the zero of an empty
    tail, when the blocks have the lengths [h], [b] and [t]; or else a last control byte that
    announces elements that are missing. *)
Definition stops (h b t : Z) (fh fb ft : list fragment) (last : list Z) : Prop :=
  (block_length fh = h /\ block_length fb = b /\ block_length ft = t /\ (last = [] \/ t = 0 /\ last = [0])) \/
  (exists c, byte c /\ last = [c] /\ 1 <= announced c /\
    (block_length fh + announced c <= h /\ fb = [] /\ ft = [] \/
     block_length fh = h /\ block_length fb + announced c <= b /\ ft = [] \/
     block_length fh = h /\ block_length fb = b /\ block_length ft + announced c <= t)).
Definition taken_as (w : nat) (valid : Z -> bool) (dec : Z -> Z) (h b t : Z) (rest : list Z) (es : list element) : Prop :=
  exists fh fb ft last, rest = block_bytes w (fh ++ fb ++ ft) ++ last /\ Forall (fragment_valid w valid dec) (fh ++ fb ++ ft) /\
    stops h b t fh fb ft last /\ es = block_elements dec (fh ++ fb ++ ft).
(** bytes behind the zero of an empty tail *)
Definition goes_on (w : nat) (valid : Z -> bool) (dec : Z -> Z) (h b t : Z) (rest : list Z) : Prop :=
  exists fh fb post, t = 0 /\ rest = block_bytes w (fh ++ fb) ++ 0 :: post /\ post <> [] /\ Forall (fragment_valid w valid dec) (fh ++ fb) /\
    block_length fh = h /\ block_length fb = b.
