(** The text of rewrite conditions, as the grammar in font_builder_rewrite_condition.go:141-150
    says. *)
From Verif Require Import Base Spec_Helpers Spec_Layout.

Inductive operand := Setting (n : Z) | Constant (n : Z).
Inductive expr :=
| Term (a : Z) (op : operator) (b : operand)
| Or (l : list expr)
| And (l : list expr).
(** the value of an expression under given settings *)
Definition operand_value (settings : Z -> Z) (o : operand) : Z :=
  match o with Setting n => settings n | Constant n => n end.
Fixpoint value (settings : Z -> Z) (e : expr) : bool :=
  match e with
  | Term a op b => holds op (settings a) (operand_value settings b)
  | Or l => existsb (value settings) l
  | And l => forallb (value settings) l
  end.

(** ** Texts. Spaces (32) may come between the parts. *)
Definition spaces (l : list Z) : Prop := Forall (fun x => x = 32) l.
(** a number in decimal *)
Definition numeral (l : list Z) (n : Z) : Prop :=
  l <> [] /\ Forall (fun x => 48 <= x <= 57) l /\ n = decimal_value l.
Definition operator_chars (op : operator) : list Z :=
  match op with
  | Equal => [61; 61] | Different => [33; 61] | Less => [60] | Greater => [62] | AtMost => [60; 61] | AtLeast => [62; 61]
  end.
Definition operand_text (b : operand) (t : list Z) : Prop :=
  match b with
  | Setting n => exists d, t = 35 :: d /\ numeral d n
  | Constant n => numeral t n
  end.
Definition term_text (a : Z) (op : operator) (b : operand) (t : list Z) : Prop :=
  exists d s1 s2 r, numeral d a /\ spaces s1 /\ spaces s2 /\ operand_text b r /\
    t = 35 :: d ++ s1 ++ operator_chars op ++ s2 ++ r.
(** [text true] are the terms and the expressions in parentheses, [text false] all expressions;
    [chain word] are two or more of the former with a word in between *)
Inductive text : bool -> expr -> list Z -> Prop :=
| text_term inner a op b t : term_text a op b t -> text inner (Term a op b) t
| text_paren inner e t s1 s2 : text false e t -> spaces s1 -> spaces s2 -> text inner e ([40] ++ s1 ++ t ++ s2 ++ [41])
| text_or l t : (2 <= length l)%nat -> joined [79; 82] l t -> text false (Or l) t
| text_and l t : (2 <= length l)%nat -> joined [65; 78; 68] l t -> text false (And l) t
with joined : list Z -> list expr -> list Z -> Prop :=
| joined_last word e t : text true e t -> joined word [e] t
| joined_more word e t l r s1 s2 : text true e t -> joined word l r -> spaces s1 -> s1 <> [] -> spaces s2 -> s2 <> [] ->
    joined word (e :: l) (t ++ s1 ++ word ++ s2 ++ r).
(** a definition may have spaces around it *)
Definition defines (t : list Z) (e : expr) : Prop := exists s1 s2 u, spaces s1 /\ spaces s2 /\ text false e u /\ t = s1 ++ u ++ s2.

(** ** Conditions as expressions *)
Fixpoint expr_of (c : condition) : expr :=
  match c with
  | COr l => Or (map expr_of l)
  | CAnd l => And (map expr_of l)
  | CSettings op a b => Term a op (Setting b)
  | CConst op a k | CQuick op a k => Term a op (Constant k)
  end.
(** Expressions within the limits: settings below 255, constants below 256 and at most 31 terms
    in a group. *)
Fixpoint expr_ok (e : expr) : Prop :=
  match e with
  | Term a _ b => 0 <= a < 255 /\ match b with Setting n => 0 <= n < 255 | Constant n => 0 <= n < 256 end
  | Or l | And l => 2 <= zlen l <= 31 /\ fold_right (fun e P => expr_ok e /\ P) True l
  end.
