(** What the evaluator of rewrite conditions does with a sequence of conditions: its three
    peculiarities (the number of a setting for its value, a group decided by one of its terms
    swallows what follows it, offsets read at half their distance) apart, it evaluates terms from
    left to right until one decides. *)
From Verif Require Import Base Spec_Format Spec_Layout.

Section Evaluated.
  Variable settings : list Z.
  (** [evaluated l v rest]: the first condition of [l] comes out as [v], and the conditions [rest]
      are what has not been looked at.
      [decided stop n l v rest]: the same for the first [n] terms of [l] in a group that is
      decided by a term with the value [stop]. *)
  Inductive evaluated : list condition -> bool -> list condition -> Prop :=
  | Ev_settings op a b rest : evaluated (CSettings op a b :: rest) (holds op a (value_of settings b)) rest
  | Ev_const op a const rest : evaluated (CConst op a const :: rest) (holds op a const) rest
  | Ev_quick op a const rest : evaluated (CQuick op a const :: rest) (holds op (value_of settings a) const) rest
  | Ev_or terms rest v rest' : decided true (length terms) (terms ++ rest) v rest' -> evaluated (COr terms :: rest) v rest'
  | Ev_and terms rest v rest' : decided false (length terms) (terms ++ rest) v rest' -> evaluated (CAnd terms :: rest) v rest'
  with decided : bool -> nat -> list condition -> bool -> list condition -> Prop :=
  | De_end stop l : decided stop 0 l (negb stop) l
  | De_next stop n l l' v rest : evaluated l (negb stop) l' -> decided stop n l' v rest -> decided stop (S n) l v rest
  (* with the deciding term n + 1 terms were left, and that many more are skipped *)
  | De_stop stop n l skipped rest : evaluated l stop (skipped ++ rest) -> length skipped = S n ->
      decided stop (S n) l stop rest.
End Evaluated.
(** the bytes of a sequence of conditions *)
Definition all_bytes (l : list condition) : list Z := concat (map condition_bytes l).
