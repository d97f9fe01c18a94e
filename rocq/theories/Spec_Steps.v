(** How the glyphs of one case of a mapping are stored. *)
From Coq Require Import Permutation.
From Verif Require Import Base Spec_Helpers Spec_Layout Spec_Format Model_Builder Spec_Builder Spec_Choices.

(** in the order of their indices, as a range if there are two or more with consecutive indices *)
Definition stored_as (b : builder) (uids : list Z) (g : group) : Prop :=
  ordered Z.le (group_glyphs g) /\
  (exists idxs, Forall2 (fun uid i => zget (b_order b) i = Ok uid) uids idxs /\ Permutation (group_glyphs g) idxs) /\
  (1 < zlen uids -> together b uids <-> match g with GRange _ _ _ => True | GList _ _ => False end).
