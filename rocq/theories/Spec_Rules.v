(** What should survive of the rewrite rules given to a builder. *)
From Verif Require Import Base Model_Helpers Model_Font Model_Date Model_Builder Spec_Builder Spec_Survive Model_Scanner.

(** A rule as it was given: the lengths of the blocks, the input and the output. In the input
    of glyph rules the flag tells sets (true) from glyphs, as they were known at that time. *)
Record added := mkAdded { ad_head : Z; ad_body : Z; ad_tail : Z; ad_input : list (bool * Z); ad_out : list Z }.
(** the rules added by a history, in order *)
Definition glyph_rule_call (b : builder) (op : bop) : list added :=
  match op with
  | OAddGlyphRewriteRule h bo t input out =>
      if succeeds (AddGlyphRewriteRule b h bo t input out)
      then [mkAdded h bo t (map (fun uid => (negb (m_has Z.eqb (b_glyphs b) uid), uid)) input) out] else []
  | _ => []
  end.
Definition utf8_rule_call (b : builder) (op : bop) : list added :=
  match op with
  | OAddSimpleUtf8RewriteRule replacement sequence =>
      if succeeds (AddSimpleUtf8RewriteRule b replacement sequence)
      then [mkAdded 0 (zlen sequence) 0 (map (pair false) sequence) [replacement]] else []
  | _ => []
  end.
Fixpoint calls {A} (call : builder -> bop -> list A) (b : builder) (ops : list bop) : list A :=
  match ops with
  | [] => []
  | op :: ops => call b op ++ calls call (bstep b op) ops
  end.
Definition glyph_rules_added (id : Z) (date : Date) (ops : list bop) : list added := calls glyph_rule_call (New id date) ops.
Definition utf8_rules_added (id : Z) (date : Date) (ops : list bop) : list added := calls utf8_rule_call (New id date) ops.

(** an element of the input and what the scanner should report for it *)
Definition reported (b : builder) (x : bool * Z) (e : element) : Prop :=
  match e with
  | InSet s => fst x = true /\ set_indexed_as b (snd x) s
  | Single g => fst x = false /\ indexed_as b (snd x) g
  end.
