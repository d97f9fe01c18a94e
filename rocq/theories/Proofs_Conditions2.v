(** Compiling rewrite conditions. *)
From Verif Require Import Base BaseFacts Spec_Helpers Model_Helpers Proofs_Helpers Model_Words Spec_Format Spec_Layout Proofs_Format
  Proofs_Rewrites Model_Conditions Spec_Conditions Proofs_Conditions.

(** ** Spaces *)
Definition tight (l : list Z) : Prop := exists x m, l = x :: m /\ x <> 32 /\ last l 0 <> 32.
Lemma spaces_split l : exists s r, l = s ++ r /\ spaces s /\ (r = [] \/ exists x m, r = x :: m /\ x <> 32).
Proof.
  induction l as [|x l (s & r & -> & Hs & Hr)]; [exists [], []; repeat split; [constructor|left; reflexivity]|]. destruct (Z.eq_dec x 32) as [->|N].
  - exists (32 :: s), r. split; [reflexivity|]. split; [constructor; [reflexivity|exact Hs]|exact Hr].
  - exists [], (x :: s ++ r). split; [reflexivity|]. split; [constructor|right]. eauto.
Qed.
Lemma spaces_rev l : spaces l -> spaces (rev l).
Proof. intros H. apply Forall_rev. exact H. Qed.
Lemma trimmed l : spaces l \/ exists s1 c s2, l = s1 ++ c ++ s2 /\ spaces s1 /\ spaces s2 /\ tight c.
Proof.
  destruct (spaces_split l) as (s1 & r & -> & H1 & [->|(x & m & -> & Hx)]); [left; rewrite app_nil_r; exact H1|right].
  destruct (spaces_split (rev (x :: m))) as (s2 & q & E & H2 & [->|(y & q' & -> & Hy)]).
  - rewrite app_nil_r in E. exfalso. apply Hx. apply (proj1 (Forall_forall _ _) H2). rewrite <- E. apply in_rev. rewrite rev_involutive. left. reflexivity.
  - apply (f_equal (@rev Z)) in E. rewrite rev_involutive, rev_app_distr in E. cbn [rev] in E. exists s1, (rev q' ++ [y]), (rev s2). split; [rewrite E; reflexivity|]. split; [exact H1|].
    split; [apply spaces_rev; exact H2|]. destruct (rev q' ++ [y]) as [|z w] eqn:Eq; [destruct (rev q'); discriminate|]. exists z, w. split; [reflexivity|]. cbn [app] in E. injection E as -> _. split; [exact Hx|].
    rewrite <- Eq, last_last. exact Hy.
Qed.
Lemma skip_start_ok : forall s n p x r, spaces s -> (length s <= n)%nat -> x <> 32 -> skip_start n (p ++ s ++ x :: r) (zlen p) = Ok (zlen p + zlen s).
Proof.
  induction s as [|y s IH]; intros n p x r Hs Hn Hx; cbn [app].
  - rewrite zlen_nil, Z.add_0_r. destruct n; cbn [skip_start]; [reflexivity|]. rewrite zget_app_r, Z.sub_diag, zget_cons_0 by lia. cbn [bind]. replace (x =? 32) with false by lia. reflexivity.
  - inversion Hs; subst. destruct n as [|n]; [cbn in Hn; lia|]. cbn [skip_start]. rewrite zget_app_r, Z.sub_diag, zget_cons_0 by lia. cbn [bind]. change (32 =? 32) with true. cbv iota.
    specialize (IH n (p ++ [32]) x r). rewrite <- app_assoc in IH. cbn [app] in IH. rewrite zlen_app, zlen_cons, zlen_nil in IH. rewrite zlen_cons. replace (zlen p + 1) with (zlen p + (1 + 0)) by lia. rewrite IH; [f_equal; lia|assumption|cbn in Hn; lia|assumption].
Qed.
Lemma skip_end_ok : forall s n p x q, spaces s -> (length s <= n)%nat -> x <> 32 -> skip_end n (p ++ x :: s ++ q) (zlen p + zlen s) = Ok (zlen p).
Proof.
  intros s. rewrite <- (rev_involutive s). induction (rev s) as [|y r IH]; intros n p x q Hs Hn Hx; cbn [rev app].
  - rewrite zlen_nil, Z.add_0_r. destruct n; cbn [skip_end]; [reflexivity|]. rewrite zget_app_r, Z.sub_diag, zget_cons_0 by lia. cbn [bind]. replace (x =? 32) with false by lia. reflexivity.
  - cbn [rev] in *. apply Forall_app in Hs. destruct Hs as [H1 H2]. inversion H2; subst. rewrite app_length in Hn. cbn in Hn. destruct n as [|n]; [lia|]. cbn [skip_end].
    rewrite zlen_app, zlen_cons, zlen_nil. rewrite zget_app_r by (pose proof (zlen_nonneg (rev r)); lia).
    replace (zlen p + (zlen (rev r) + (1 + 0)) - zlen p) with (zlen (rev r) + 1) by lia.
    change (x :: (rev r ++ [32]) ++ q) with ([x] ++ (rev r ++ [32]) ++ q). rewrite <- app_assoc. rewrite zget_app_r by (rewrite zlen_cons, zlen_nil; pose proof (zlen_nonneg (rev r)); lia).
    rewrite zget_app_r by (rewrite zlen_cons, zlen_nil; lia). rewrite zlen_cons, zlen_nil. replace (zlen (rev r) + 1 - (1 + 0) - zlen (rev r)) with 0 by lia. cbn [app]. rewrite zget_cons_0. cbn [bind].
    change (32 =? 32) with true. cbv iota. replace (zlen p + (zlen (rev r) + (1 + 0)) - 1) with (zlen p + zlen (rev r)) by lia.
    exact (IH n p x (32 :: q) H1 ltac:(lia) Hx).
Qed.
Lemma last_split (c : list Z) : tight c -> exists m x, c = m ++ [x] /\ x <> 32.
Proof.
  intros (y & m & -> & _ & H). exists (removelast (y :: m)), (last (y :: m) 0). split; [apply app_removelast_last; discriminate|exact H].
Qed.
Lemma trim_ok p s1 c s2 q : spaces s1 -> spaces s2 -> tight c ->
  trimSpaces (p ++ s1 ++ c ++ s2 ++ q) (zlen p) (zlen p + zlen s1 + zlen c + zlen s2 - 1) = Ok (zlen p + zlen s1, zlen p + zlen s1 + zlen c - 1).
Proof.
  intros H1 H2 Hc. unfold trimSpaces. pose proof (zlen_nonneg p). pose proof (zlen_nonneg s1). pose proof (zlen_nonneg s2).
  assert (Hl : 1 <= zlen c) by (destruct Hc as (x & m & -> & _); rewrite zlen_cons; pose proof (zlen_nonneg m); lia).
  replace (zlen p <=? zlen p + zlen s1 + zlen c + zlen s2 - 1) with true by lia.
  assert (E : skip_start (Z.to_nat (zlen p + zlen s1 + zlen c + zlen s2 - 1 + 1 - zlen p)) (p ++ s1 ++ c ++ s2 ++ q) (zlen p) = Ok (zlen p + zlen s1)).
  { destruct Hc as (x & m & -> & Hx & _). cbn [app]. apply skip_start_ok; [exact H1| |exact Hx]. unfold zlen in *. lia. }
  rewrite E. cbn [bind]. destruct (last_split c Hc) as (m & x & -> & Hx).
  replace (p ++ s1 ++ (m ++ [x]) ++ s2 ++ q) with ((p ++ s1 ++ m) ++ x :: s2 ++ q) by (rewrite <- !app_assoc; reflexivity).
  rewrite zlen_app, zlen_cons, zlen_nil in *. pose proof (zlen_nonneg m).
  replace (zlen p + zlen s1 + (zlen m + (1 + 0)) + zlen s2 - 1) with (zlen (p ++ s1 ++ m) + zlen s2) by (rewrite !zlen_app; lia).
  rewrite skip_end_ok; [|exact H2| |exact Hx].
  - cbn [bind]. rewrite !zlen_app. f_equal. f_equal. lia.
  - rewrite !zlen_app. unfold zlen. lia.
Qed.
Lemma trim_spaces l : spaces l -> exists a b, trimSpaces l 0 (zlen l - 1) = Ok (a, b) /\ b < a.
Proof.
  intros H. unfold trimSpaces. destruct (Z.leb_spec 0 (zlen l - 1)) as [G|G]; [|eauto].
  assert (E1 : forall s n p, spaces s -> n = length s -> skip_start n (p ++ s) (zlen p) = Ok (zlen p + zlen s)).
  { induction s as [|y s IH]; intros n p Hs ->; cbn [length skip_start]; [rewrite zlen_nil; f_equal; lia|]. inversion Hs; subst. rewrite zget_app_r, Z.sub_diag, zget_cons_0 by lia. cbn [bind].
    change (32 =? 32) with true. cbv iota. specialize (IH (length s) (p ++ [32]) ltac:(assumption) eq_refl). rewrite <- app_assoc in IH. cbn [app] in IH. rewrite zlen_app, zlen_cons, zlen_nil in IH.
    rewrite zlen_cons. replace (zlen p + 1) with (zlen p + (1 + 0)) by lia. rewrite IH. f_equal. lia. }
  assert (E2 : forall n, (n <= length l)%nat -> skip_end n l (Z.of_nat n - 1) = Ok (-1)).
  { induction n as [|n IH]; intros Hn; cbn [skip_end]; [reflexivity|]. replace (Z.of_nat (S n) - 1) with (Z.of_nat n) by lia.
    destruct (zget_in_range l (Z.of_nat n) ltac:(unfold zlen; lia)) as (x & Gx). rewrite Gx. pose proof (proj1 (Forall_forall _ _) H x (zget_in _ _ _ Gx)) as ->. cbn [bind].
    change (32 =? 32) with true. cbv iota. apply IH. lia. }
  specialize (E1 l (Z.to_nat (zlen l - 1 + 1 - 0)) [] H ltac:(unfold zlen; lia)). cbn [app] in E1. rewrite zlen_nil in E1. rewrite E1. cbn [bind].
  specialize (E2 (Z.to_nat (zlen l - 1 + 1)) ltac:(unfold zlen; lia)). replace (Z.of_nat (Z.to_nat (zlen l - 1 + 1)) - 1) with (zlen l - 1) in E2 by lia. rewrite E2. cbn [bind].
  eexists. eexists. split; [reflexivity|]. pose proof (zlen_nonneg l). lia.
Qed.

(** ** Terms *)
Lemma take_while_ok p a b : Forall (fun x => p x = true) a -> match b with [] => True | x :: _ => p x = false end -> take_while p (a ++ b) = (a, b).
Proof.
  induction a as [|x a IH]; intros Ha Hb; cbn [app take_while].
  - destruct b as [|x b]; [reflexivity|]. cbn [take_while]. rewrite Hb. reflexivity.
  - inversion Ha; subst. rewrite H1, IH by assumption. reflexivity.
Qed.
Lemma take_while_spec p l a b : take_while p l = (a, b) -> l = a ++ b /\ Forall (fun x => p x = true) a /\ match b with [] => True | x :: _ => p x = false end.
Proof.
  revert a b. induction l as [|x l IH]; intros a b E; cbn [take_while] in E; [injection E as <- <-; repeat split; constructor|].
  destruct (p x) eqn:Hp; [|injection E as <- <-; repeat split; [constructor|exact Hp]]. destruct (take_while p l) as [a' b']. injection E as <- <-.
  destruct (IH _ _ eq_refl) as (-> & H1 & H2). repeat split; [constructor; assumption|exact H2].
Qed.
Lemma digit_true x : is_digit x = true <-> 48 <= x <= 57.
Proof. unfold is_digit. lia. Qed.
Lemma numeral_digits d n : numeral d n -> d <> [] /\ Forall (fun x => is_digit x = true) d /\ decimal_value d = n.
Proof. intros (H1 & H2 & ->). split; [exact H1|]. split; [|reflexivity]. eapply Forall_impl; [|exact H2]. intros x. apply digit_true. Qed.
Lemma spaces_true s : spaces s <-> Forall (fun x => is_space x = true) s.
Proof. split; intros H; (eapply Forall_impl; [|exact H]); unfold is_space; intros x Hx; lia. Qed.
Lemma decimal_fold l : fold_left (fun v x => 10 * v + (x - 48)) l 0 = decimal_value l.
Proof. unfold decimal_value. generalize 0. induction l as [|x l IH]; intros a; cbn [fold_left]; [reflexivity|]. rewrite IH. f_equal. lia. Qed.
Definition operator_name (op : operator) : string :=
  match op with Equal => "==" | Different => "!=" | Less => "<" | Greater => ">" | AtMost => "<=" | AtLeast => ">=" end.
Lemma operator_name_chars op : str_bytes (operator_name op) = operator_chars op.
Proof. destruct op; reflexivity. Qed.
Definition operand_parts (b : operand) : bool * Z := match b with Setting n => (true, n) | Constant n => (false, n) end.

(** what comes after the operator *)
Definition match_right (lhs : list Z) (op : string) (l : list Z) : option matches :=
  let l := snd (take_while is_space l) in
  let (hash, l) := match l with x :: l' => if x =? 35 then (true, l') else (false, l) | [] => (false, l) end in
  let (rhs, rest) := take_while is_digit l in
  match rhs with [] => None | _ => Some (mkMatches lhs op hash rhs rest) end.
Lemma match_operator_step op ops lhs l : match_operator (op :: ops) lhs l =
  match match strip (str_bytes op) l with None => None | Some l => match_right lhs op l end with Some m => Some m | None => match_operator ops lhs l end.
Proof. reflexivity. Qed.
Definition stops (rest : list Z) : Prop := match rest with [] => True | x :: _ => is_digit x = false end.
Lemma match_right_ok lhs op s b r rest : spaces s -> operand_text b r -> stops rest ->
  exists d, match_right lhs op (s ++ r ++ rest) = Some (mkMatches lhs op (fst (operand_parts b)) d rest) /\ d <> [] /\ decimal_value d = snd (operand_parts b).
Proof.
  intros Hs Hb Hr. unfold match_right.
  assert (K : forall d n, numeral d n -> exists x m, d = x :: m /\ is_space x = false /\ (x =? 35) = false).
  { intros d n (H1 & H2 & _). destruct d as [|x m]; [contradiction|]. exists x, m. split; [reflexivity|]. inversion H2; subst. unfold is_space. lia. }
  destruct b as [n|n]; cbn [operand_text operand_parts fst snd] in *.
  - destruct Hb as (d & -> & Hd). rewrite (take_while_ok _ s _ (proj1 (spaces_true s) Hs)) by reflexivity. cbn [snd app]. change (35 =? 35) with true. cbv iota.
    destruct (numeral_digits _ _ Hd) as (N1 & N2 & N3). rewrite take_while_ok by assumption. exists d. split; [destruct d; [contradiction|reflexivity]|]. split; assumption.
  - destruct (K _ _ Hb) as (x & m & E & X1 & X2). rewrite (take_while_ok _ s _ (proj1 (spaces_true s) Hs)) by (rewrite E; exact X1). cbn [snd]. rewrite E. cbn [app]. rewrite X2.
    change (x :: m ++ rest) with ((x :: m) ++ rest). rewrite <- E. destruct (numeral_digits _ _ Hb) as (N1 & N2 & N3). rewrite take_while_ok by assumption.
    exists r. split; [destruct r; [contradiction|reflexivity]|]. split; assumption.
Qed.
Lemma match_term_ok a op b t rest : term_text a op b t -> stops rest ->
  exists l r, match_term (t ++ rest) = Some (mkMatches l (operator_name op) (fst (operand_parts b)) r rest) /\ decimal_value l = a /\ r <> [] /\ decimal_value r = snd (operand_parts b).
Proof.
  intros (d & s1 & s2 & r & Hd & H1 & H2 & Hb & ->) Hr. unfold match_term. cbn [app]. change (35 =? 35) with true. cbv iota. destruct (numeral_digits _ _ Hd) as (N1 & N2 & N3).
  rewrite <- !app_assoc.
  rewrite (take_while_ok is_digit d) by (first [exact N2 | destruct s1 as [|x s1]; [destruct op; reflexivity|inversion H1; subst; reflexivity]]).
  destruct d as [|y d]; [contradiction|]. set (lhs := y :: d) in *. rewrite (take_while_ok is_space s1) by (first [apply spaces_true; exact H1 | destruct op; reflexivity]). cbn [snd].
  destruct (match_right_ok lhs (operator_name op) s2 b r rest H2 Hb Hr) as (dr & E & E2 & E3). exists lhs, dr. split; [|auto].
  assert (Z : forall o l, match_right lhs o (61 :: l) = None) by reflexivity.
  destruct op; cbn [operator_chars app operator_name] in *; rewrite ?match_operator_step;
    repeat match goal with |- context [strip ?x ?y] => let v := eval cbn in (strip x y) in change (strip x y) with v end; cbv [Z.eqb Pos.eqb]; cbv iota beta; rewrite ?Z, ?E; reflexivity.
Qed.
Lemma match_term_spec t m : match_term t = Some m -> exists a op b u, term_text a op b u /\ t = u ++ mt_rest m /\
  mt_op m = operator_name op /\ decimal_value (mt_left m) = a /\ (mt_hash m, decimal_value (mt_right m)) = operand_parts b.
Proof.
  unfold match_term. destruct t as [|x l]; [discriminate|]. destruct (Z.eqb_spec x 35) as [->|]; [|discriminate]. destruct (take_while is_digit l) as [d l1] eqn:E1.
  destruct (take_while_spec _ _ _ _ E1) as (-> & D1 & D2). destruct d as [|y d]; [discriminate|]. set (lhs := y :: d) in *. destruct (take_while is_space l1) as [s1 l2] eqn:E2.
  destruct (take_while_spec _ _ _ _ E2) as (-> & S1 & S2). cbn [snd]. intros E.
  assert (Hl : numeral lhs (decimal_value lhs)) by (split; [discriminate|]; split; [eapply Forall_impl; [|exact D1]; intros z; apply digit_true|reflexivity]).
  assert (K : forall op l3, strip (operator_chars op) l2 = Some l3 -> match_right lhs (operator_name op) l3 = Some m -> exists a op b u, term_text a op b u /\ 35 :: lhs ++ s1 ++ l2 = u ++ mt_rest m /\
    mt_op m = operator_name op /\ decimal_value (mt_left m) = a /\ (mt_hash m, decimal_value (mt_right m)) = operand_parts b).
  { intros op l3 Es Er. assert (Hs : forall p l r, strip p l = Some r -> l = p ++ r).
    { induction p as [|c p IH]; intros [|z l] r' H; cbn [strip] in H; try discriminate; try (injection H as <-; reflexivity). destruct (Z.eqb_spec z c) as [->|]; [|discriminate]. cbn [app]. f_equal. apply IH. exact H. }
    apply Hs in Es. subst l2. unfold match_right in Er. destruct (take_while is_space l3) as [s2 l4] eqn:E3. destruct (take_while_spec _ _ _ _ E3) as (-> & T1 & T2). cbn [snd] in Er.
    assert (Q : exists hash l5 pre, match l4 with [] => (false, l4) | x :: l' => if x =? 35 then (true, l') else (false, l4) end = (hash, l5) /\ l4 = pre ++ l5 /\ pre = (if (hash : bool) then [35] else [])).
    { destruct l4 as [|z l4]; [exists false, [], []; auto|]. destruct (Z.eqb_spec z 35) as [->|]; [exists true, l4, [35]; auto|exists false, (z :: l4), []; auto]. }
    destruct Q as (hash & l5 & pre & Q & -> & Hpre). rewrite Q in Er. destruct (take_while is_digit l5) as [r rest] eqn:E5. destruct (take_while_spec _ _ _ _ E5) as (-> & R1 & R2).
    destruct r as [|z r]; [discriminate|]. injection Er as <-. set (rhs := z :: r) in *. cbn [mt_rest mt_op mt_left mt_right mt_hash].
    assert (Hr : numeral rhs (decimal_value rhs)) by (split; [discriminate|]; split; [eapply Forall_impl; [|exact R1]; intros w; apply digit_true|reflexivity]).
    exists (decimal_value lhs), op, (if hash then Setting (decimal_value rhs) else Constant (decimal_value rhs)), (35 :: lhs ++ s1 ++ operator_chars op ++ s2 ++ pre ++ rhs).
    split; [|split; [cbn [app]; f_equal; rewrite <- !app_assoc; reflexivity|]; split; [reflexivity|]; split; [reflexivity|destruct hash; reflexivity]].
    exists lhs, s1, s2, (pre ++ rhs). split; [exact Hl|]. split; [apply spaces_true; exact S1|]. split; [apply spaces_true; exact T1|]. split; [|reflexivity].
    subst pre. destruct hash; cbn [operand_text]; [exists rhs; split; [reflexivity|exact Hr]|exact Hr]. }
  assert (St : forall op ops, match_operator (operator_name op :: ops) lhs l2 = Some m ->
    (exists l3, strip (operator_chars op) l2 = Some l3 /\ match_right lhs (operator_name op) l3 = Some m) \/ match_operator ops lhs l2 = Some m).
  { intros op ops H. rewrite match_operator_step, operator_name_chars in H. destruct (strip (operator_chars op) l2) as [l3|]; [|auto].
    destruct (match_right lhs (operator_name op) l3) as [m1|] eqn:R; [|auto]. injection H as ->. left. eauto. }
  change ["=="; "!="; "<"; ">"; "<="; ">="]%string with (map operator_name [Equal; Different; Less; Greater; AtMost; AtLeast]) in E. cbn [map] in E.
  do 6 (apply St in E; destruct E as [(l3 & Q1 & Q2)|E]; [exact (K _ _ Q1 Q2)|]). discriminate.
Qed.

Lemma match_rest_stops t m : match_term t = Some m -> stops (mt_rest m).
Proof.
  assert (K : forall ops lhs l, match_operator ops lhs l = Some m -> stops (mt_rest m)).
  { induction ops as [|op ops IH]; intros lhs l E; [discriminate|]. rewrite match_operator_step in E. destruct (strip (str_bytes op) l) as [l'|]; [|eapply IH; exact E].
    destruct (match_right lhs op l') as [m'|] eqn:R; [|eapply IH; exact E]. injection E as ->. unfold match_right in R.
    destruct (match snd (take_while is_space l') with [] => _ | x :: l'0 => _ end) as [hash l5]. destruct (take_while is_digit l5) as [r rest] eqn:E5.
    destruct (take_while_spec _ _ _ _ E5) as (_ & _ & R2). destruct r; [discriminate|]. injection R as <-. exact R2. }
  unfold match_term. destruct t as [|x l]; [discriminate|]. destruct (x =? 35); [|discriminate]. destruct (take_while is_digit l) as [[|y d] l1]; [discriminate|]. apply K.
Qed.

(** ** Definitions *)
Definition term_code (op : operator) (a : Z) (b : operand) : list Z :=
  match b, op with
  | Constant k, Equal => if k <? 32 then [96 + k; a] else [80; a]
  | Constant k, Different => if k <? 32 then [128 + k; a] else [81; a]
  | Constant k, Less => if k <? 32 then [160 + k; a] else [82; a]
  | Constant k, Greater => if k <? 32 then [192 + k; a] else [83; a]
  | Constant _, AtMost => [84; a]
  | Constant _, AtLeast => [85; a]
  | Setting _, _ => [64 + operator_code op; a]
  end.
Definition term_outcome (a : Z) (op : operator) (b : operand) (rest : list Z) : outcome (list Z) :=
  if a >? 9223372036854775807 then Panic
  else if a >? 254 then Err "setting out of range"
  else if snd (operand_parts b) >? 9223372036854775807 then Panic
  else if (snd (operand_parts b) >? 254) && fst (operand_parts b) then Err "setting out of range"
  else if snd (operand_parts b) >? 255 then Err "constant out of range"
  else match rest with [] => Ok (term_code op a b) | _ => Err "definition expected to end" end.
Lemma numeral_nonneg d n : numeral d n -> 0 <= n.
Proof.
  intros (_ & H & ->). unfold decimal_value. assert (K : forall a, 0 <= a -> 0 <= fold_left (fun v x => 10 * v + (x - 48)) d a).
  { induction d as [|x d IH]; intros a Ha; cbn [fold_left]; [exact Ha|]. inversion H; subst. apply IH; [assumption|lia]. }
  fold (decimal_value d). rewrite <- decimal_fold. apply (K 0). lia.
Qed.
Lemma term_nonneg a op b t : term_text a op b t -> 0 <= a /\ 0 <= snd (operand_parts b).
Proof.
  intros (d & s1 & s2 & r & Hd & _ & _ & Hb & _). split; [eapply numeral_nonneg; exact Hd|]. destruct b; cbn [operand_text operand_parts snd] in *; [destruct Hb as (x & _ & Hb)|]; eapply numeral_nonneg; exact Hb.
Qed.
Lemma slice_core s1 (c s2 : list Z) : zslice (s1 ++ c ++ s2) (zlen s1) (zlen s1 + zlen c - 1 + 1) = Ok c.
Proof. replace (zlen s1 + zlen c - 1 + 1) with (zlen s1 + zlen c) by lia. apply zslice_app; lia. Qed.

Lemma Atoi_ok d n : decimal_value d = n -> Atoi d = if n >? 9223372036854775807 then None else Some n.
Proof. intros <-. unfold Atoi. rewrite decimal_fold. reflexivity. Qed.
(** the code given to one term *)
Lemma next_term d start end_ a op b t rest core : zslice d start (end_ + 1) = Ok core -> term_text a op b t -> stops rest -> core = t ++ rest ->
  appendNextTerm d [] start end_ = do _ <- term_outcome a op b []; Ok (term_code op a b, start + zlen t, end_).
Proof.
  intros Hs Ht Hr ->. unfold appendNextTerm, term_outcome. rewrite Hs. cbn [bind]. destruct (match_term_ok _ _ _ _ rest Ht Hr) as (l & r & -> & El & _ & Er). cbn [mt_left mt_op mt_hash mt_right mt_rest].
  destruct (term_nonneg _ _ _ _ Ht) as [Na Nb].
  rewrite (Atoi_ok l a El), (Atoi_ok r _ Er). destruct (Z.gtb_spec a 9223372036854775807); [reflexivity|]. destruct (Z.gtb_spec a 254); [reflexivity|].
  destruct (Z.gtb_spec (snd (operand_parts b)) 9223372036854775807); [reflexivity|].
  destruct ((snd (operand_parts b) >? 254) && fst (operand_parts b)) eqn:G1; [reflexivity|]. destruct (Z.gtb_spec (snd (operand_parts b)) 255) as [|G2]; [reflexivity|].
  rewrite zlen_app. replace (start + (zlen t + zlen rest - zlen rest)) with (start + zlen t) by lia.
  assert (Ua : u8 a = a) by (unfold u8; apply Z.mod_small; lia).
  assert (Lo : forall hi k, 0 <= k < 32 -> hi mod 32 = 0 -> Z.lor hi k = hi + k).
  { intros hi k Hk Hh. rewrite Z.lor_comm. rewrite (Z.div_mod hi 32), Hh, Z.add_0_r by lia. rewrite (Z.mul_comm 32). change 32 with (2 ^ 5). rewrite lor_add_mul by lia. lia. }
  destruct b as [n|n]; cbn [operand_parts fst snd negb andb] in *; rewrite Ua.
  - destruct op; reflexivity.
  - assert (Un : u8 n = n) by (unfold u8; apply Z.mod_small; lia). rewrite Un. unfold term_code. destruct op; cbn [operator_name]; cbv [String.eqb Ascii.eqb Bool.eqb]; cbv iota; cbn [negb andb];
      rewrite ?andb_true_r, ?andb_false_r; try reflexivity; destruct (Z.ltb_spec n 32); cbn [quick_ctrl op_code bind]; try reflexivity;
      unfold quick_ctrl; cbv [String.eqb Ascii.eqb Bool.eqb]; cbv iota; cbn [bind app]; rewrite Lo by (first [lia|reflexivity]); reflexivity.
Qed.

(** definitions in parentheses, whatever follows *)
Lemma paren_hangs : forall fuel d start end_, 0 <= start -> end_ + 1 <= zlen d -> zget d start = Ok 40 -> start <= end_ -> (exists x, zget d end_ = Ok x /\ x <> 32) ->
  forall data, appendNextExpr fuel d data start end_ false = Hang.
Proof.
  induction fuel as [|k IH]; intros d start end_ H1 H2 H3 H4 (x & H5 & Hx) data; [reflexivity|]. cbn [appendNextExpr].
  assert (E : trimSpaces d start end_ = Ok (start, end_)).
  { unfold trimSpaces. replace (start <=? end_) with true by lia. destruct (Z.to_nat (end_ + 1 - start)) as [|n]; cbn [skip_start]; rewrite ?H3; cbn [bind]; change (40 =? 32) with false; cbv iota; cbn [bind];
    (destruct (Z.to_nat (end_ + 1)) as [|m]; cbn [skip_end]; rewrite ?H5; cbn [bind]; replace (x =? 32) with false by lia; reflexivity). }
  rewrite E. cbn [bind]. replace (end_ <? start) with false by lia. replace (end_ + 1 >? zlen d) with false by lia. rewrite H3. cbn [bind]. change (40 =? 40) with true. cbv iota.
  rewrite IH by eauto. reflexivity.
Qed.

(** ** The compiler *)
Section Compile.
Context (s1 c s2 : list Z) (H1 : spaces s1) (H2 : spaces s2) (Hc : tight c) (Hlen : zlen (s1 ++ c ++ s2) <= 1024).
Let d := s1 ++ c ++ s2.
Let start := zlen s1.
Let end_ := zlen s1 + zlen c - 1.
Lemma core_len : 1 <= zlen c.
Proof. destruct Hc as (x & m & -> & _). rewrite zlen_cons. pose proof (zlen_nonneg m). lia. Qed.
Lemma trim_outer : trimSpaces d 0 (zlen d - 1) = Ok (start, end_).
Proof.
  pose proof (trim_ok [] s1 c s2 [] H1 H2 Hc) as E. cbn [app] in E. rewrite zlen_nil, app_nil_r in E. unfold d, start, end_. rewrite !zlen_app.
  replace (zlen s1 + (zlen c + zlen s2) - 1) with (0 + zlen s1 + zlen c + zlen s2 - 1) by lia. rewrite E. reflexivity.
Qed.
Lemma trim_inner : trimSpaces d start end_ = Ok (start, end_).
Proof.
  pose proof (trim_ok s1 [] c [] s2 ltac:(constructor) ltac:(constructor) Hc) as E. cbn [app] in E. rewrite zlen_nil in E. unfold d, start, end_.
  replace (zlen s1 + 0 + zlen c + 0 - 1) with (zlen s1 + zlen c - 1) in E by lia. rewrite E, Z.add_0_r. reflexivity.
Qed.
Lemma compile_unfold fuel : compileRewriteCondition fuel d =
  do ' (data, start, end_) <- appendNextExpr fuel d [] start end_ false;
  if start <? end_ + 1 then do _ <- zslice d 0 start; Err "definition expected to end"
  else if negb (start =? end_ + 1) then Panic
  else Ok data.
Proof.
  unfold compileRewriteCondition. replace (zlen d >? 1024) with false by (unfold d; lia). rewrite trim_outer. cbn [bind]. pose proof core_len. replace (end_ <? start) with false by (unfold end_, start; lia). reflexivity.
Qed.
Lemma first_get x m : c = x :: m -> zget d start = Ok x.
Proof. intros ->. unfold d, start. rewrite zget_app_r, Z.sub_diag by lia. reflexivity. Qed.
Lemma last_get : exists x, zget d end_ = Ok x /\ x <> 32.
Proof.
  destruct (last_split c Hc) as (m & x & E & Hx). exists x. split; [|exact Hx]. unfold d, end_. rewrite E, zlen_app, zlen_cons, zlen_nil. rewrite zget_app_r by (pose proof (zlen_nonneg m); lia).
  replace (zlen s1 + (zlen m + (1 + 0)) - 1 - zlen s1) with (zlen m) by lia. rewrite <- app_assoc, zget_app_r, Z.sub_diag by lia. reflexivity.
Qed.
Lemma end_len : end_ + 1 <= zlen d.
Proof. unfold end_, d. rewrite !zlen_app. pose proof (zlen_nonneg s2). lia. Qed.
Lemma compile_paren fuel m : c = 40 :: m -> compileRewriteCondition fuel d = Hang.
Proof.
  intros E. rewrite compile_unfold, paren_hangs; [reflexivity|apply zlen_nonneg|apply end_len|eapply first_get; exact E|pose proof core_len; unfold start, end_; lia|apply last_get].
Qed.
Lemma expr_term k inner x m : c = x :: m -> x <> 40 -> inner = true \/ x = 35 -> appendNextExpr (S k) d [] start end_ inner = appendNextTerm d [] start end_.
Proof.
  intros E Hx Hi. cbn [appendNextExpr]. rewrite trim_inner. cbn [bind]. pose proof core_len. pose proof end_len. replace (end_ <? start) with false by (unfold start, end_; lia).
  replace (end_ + 1 >? zlen d) with false by lia. rewrite (first_get x m E). cbn [bind]. replace (x =? 40) with false by lia. destruct Hi as [->| ->]; [|rewrite Z.eqb_refl, orb_true_r]; reflexivity.
Qed.
Lemma slice_start n : 0 <= n <= end_ + 1 -> exists l, zslice d 0 n = Ok l.
Proof. intros Hn. pose proof end_len. rewrite zslice_ok by lia. eauto. Qed.
Lemma compile_other fuel x m : c = x :: m -> x <> 40 -> x <> 35 -> exists msg, compileRewriteCondition (S (S fuel)) d = Err msg.
Proof.
  intros E Hx Hy. rewrite compile_unfold. remember (S fuel) as k eqn:Ek. cbn [appendNextExpr]. rewrite trim_inner. cbn [bind]. pose proof core_len. pose proof end_len. replace (end_ <? start) with false by (unfold start, end_; lia).
  replace (end_ + 1 >? zlen d) with false by lia. rewrite (first_get x m E). cbn [bind]. replace (x =? 40) with false by lia. replace (x =? 35) with false by lia. cbn [orb].
  subst k. rewrite (expr_term fuel true x m E Hx) by auto. unfold appendNextTerm. unfold end_, start, d at 1. rewrite slice_core. cbn [bind]. unfold match_term. rewrite E. replace (x =? 35) with false by lia.
  fold d start end_. destruct (slice_start start) as (l & ->); [unfold start, end_; pose proof (zlen_nonneg s1); lia|]. cbn [bind]. eauto.
Qed.
Lemma compile_hash fuel a op b t rest : c = t ++ rest -> term_text a op b t -> stops rest -> compileRewriteCondition (S fuel) d = term_outcome a op b rest.
Proof.
  intros E Ht Hr. rewrite compile_unfold. pose proof Ht as Ht'.
  assert (Hx : exists m, c = 35 :: m) by (destruct Ht' as (e & f & h & r & _ & _ & _ & _ & ->); rewrite E; eexists; reflexivity). destruct Hx as (m & Ec).
  rewrite (expr_term fuel false 35 m Ec) by (auto; lia). rewrite (next_term d start end_ a op b t rest c (slice_core s1 c s2) Ht Hr E).
  assert (L : zlen c = zlen t + zlen rest) by (rewrite E, zlen_app; reflexivity). pose proof (zlen_nonneg rest). pose proof (zlen_nonneg s1). pose proof (zlen_nonneg t).
  unfold term_outcome. destruct (a >? 9223372036854775807); [reflexivity|]. destruct (a >? 254); [reflexivity|]. destruct (snd (operand_parts b) >? 9223372036854775807); [reflexivity|].
  destruct ((snd (operand_parts b) >? 254) && fst (operand_parts b)); [reflexivity|]. destruct (snd (operand_parts b) >? 255); [reflexivity|]. cbn [bind].
  destruct rest as [|y rest].
  - rewrite zlen_nil in L. replace (start + zlen t <? end_ + 1) with false by (unfold start, end_; lia). replace (start + zlen t =? end_ + 1) with true by (unfold start, end_; lia). reflexivity.
  - rewrite zlen_cons in L. pose proof (zlen_nonneg rest). replace (start + zlen t <? end_ + 1) with true by (unfold start, end_; lia).
    destruct (slice_start (start + zlen t)) as (l & ->); [unfold start, end_; lia|]. reflexivity.
Qed.
Lemma compile_nomatch fuel : match_term c = None -> (forall m, c <> 40 :: m) -> exists msg, compileRewriteCondition (S (S fuel)) d = Err msg.
Proof.
  intros E N. pose proof Hc as (x & m & Ec & _). destruct (Z.eq_dec x 40) as [->|Hx]; [destruct (N m Ec)|]. destruct (Z.eq_dec x 35) as [->|Hy]; [|eapply compile_other; eassumption].
  rewrite compile_unfold, (expr_term (S fuel) false 35 m Ec) by auto. unfold appendNextTerm. unfold end_, start, d at 1. rewrite slice_core. cbn [bind]. rewrite E.
  fold d start end_. destruct (slice_start start) as (l & ->); [unfold start, end_; pose proof core_len; pose proof (zlen_nonneg s1); lia|]. cbn [bind]. eauto.
Qed.
End Compile.

(** ** What compiles and what does not *)
Lemma last_app_ne (a b : list Z) : b <> [] -> last (a ++ b) 0 = last b 0.
Proof. induction a as [|x a IH]; intros H; [reflexivity|]. cbn [app]. destruct (a ++ b) eqn:E; [destruct a; [contradiction|discriminate]|]. rewrite <- IH by exact H. reflexivity. Qed.
Lemma last_forall (P : Z -> Prop) l : l <> [] -> Forall P l -> P (last l 0).
Proof. intros Hn H. apply (proj1 (Forall_forall _ _) H). rewrite (app_removelast_last 0 Hn) at 2. apply in_or_app. right. left. reflexivity. Qed.
Lemma numeral_last d n : numeral d n -> d <> [] /\ last d 0 <> 32.
Proof. intros (H1 & H2 & _). split; [exact H1|]. pose proof (last_forall _ d H1 H2) as K. cbv beta in K. lia. Qed.
Lemma operand_last b r : operand_text b r -> r <> [] /\ last r 0 <> 32.
Proof.
  destruct b; cbn [operand_text]; [intros (d & -> & H)|intros H]; destruct (numeral_last _ _ H) as [K1 K2]; [|auto]. split; [discriminate|]. change (35 :: d) with ([35] ++ d). rewrite last_app_ne by exact K1. exact K2.
Qed.
Lemma term_tight a op b t : term_text a op b t -> tight t.
Proof.
  intros (d & s1 & s2 & r & _ & _ & _ & Hb & ->). destruct (operand_last _ _ Hb) as [K1 K2]. eexists. eexists. split; [reflexivity|]. split; [lia|].
  replace (35 :: d ++ s1 ++ operator_chars op ++ s2 ++ r) with ((35 :: d ++ s1 ++ operator_chars op ++ s2) ++ r) by (cbn [app]; rewrite <- !app_assoc; reflexivity).
  rewrite last_app_ne by exact K1. exact K2.
Qed.
Lemma tight_app a b : tight a -> b <> [] -> last b 0 <> 32 -> tight (a ++ b).
Proof. intros (x & m & -> & Hx & _) Hb Hl. exists x, (m ++ b). split; [reflexivity|]. split; [exact Hx|]. rewrite last_app_ne by exact Hb. exact Hl. Qed.
Scheme text_ind' := Minimality for text Sort Prop with joined_ind' := Minimality for joined Sort Prop.
Lemma text_tight inner e t : text inner e t -> tight t.
Proof.
  apply (text_ind' (fun _ _ t => tight t) (fun _ _ t => tight t)).
  - intros _ a op b u H. eapply term_tight; exact H.
  - intros _ e' u s1 s2 _ _ _ _. eexists. eexists. split; [reflexivity|]. split; [lia|]. cbn [app]. change (40 :: s1 ++ u ++ s2 ++ [41]) with ([40] ++ s1 ++ u ++ s2 ++ [41]).
    rewrite !app_assoc, last_app_ne by discriminate. cbn [last]. lia.
  - intros l u _ _ H. exact H.
  - intros l u _ _ H. exact H.
  - intros _ e' u _ H. exact H.
  - intros word e' u l r s1 s2 _ Hu _ (x & m & -> & Hx & Hl) _ _ _ _. apply tight_app; [exact Hu| |].
    + intros E. apply app_eq_nil in E. destruct E as [_ E]. apply app_eq_nil in E. destruct E as [_ E]. apply app_eq_nil in E. destruct E; discriminate.
    + rewrite !app_assoc. rewrite last_app_ne by discriminate. exact Hl.
Qed.
(** texts are terms or begin with a parenthesis *)
Lemma text_start inner e t : text inner e t -> (exists m, t = 40 :: m) \/
  exists a op b u rest, term_text a op b u /\ t = u ++ rest /\ stops rest /\ (rest = [] -> e = Term a op b).
Proof.
  apply (text_ind' (fun _ e t => (exists m, t = 40 :: m) \/ exists a op b u rest, term_text a op b u /\ t = u ++ rest /\ stops rest /\ (rest = [] -> e = Term a op b))
    (fun _ l t => (exists m, t = 40 :: m) \/ exists a op b u rest, term_text a op b u /\ t = u ++ rest /\ stops rest /\ (rest = [] -> length l = 1%nat))).
  - intros _ a op b u H. right. exists a, op, b, u, []. rewrite app_nil_r. repeat split; assumption.
  - intros _ e' u s1 s2 _ _ _ _. left. eexists. reflexivity.
  - intros l u Hl _ [H|(a & op & b & v & rest & K1 & K2 & K3 & K4)]; [left; exact H|right]. exists a, op, b, v, rest. split; [exact K1|]. split; [exact K2|]. split; [exact K3|]. intros E. specialize (K4 E). lia.
  - intros l u Hl _ [H|(a & op & b & v & rest & K1 & K2 & K3 & K4)]; [left; exact H|right]. exists a, op, b, v, rest. split; [exact K1|]. split; [exact K2|]. split; [exact K3|]. intros E. specialize (K4 E). lia.
  - intros _ e' u _ [H|(a & op & b & v & rest & K1 & K2 & K3 & _)]; [left; exact H|right]. exists a, op, b, v, rest. repeat split; auto.
  - intros word e' u l r s1 s2 _ [(m & ->)|(a & op & b & v & rest & K1 & -> & K3 & _)] _ _ Hs1 Hn1 _ _; [left; eexists; reflexivity|right].
    exists a, op, b, v, (rest ++ s1 ++ word ++ s2 ++ r). split; [exact K1|]. split; [rewrite <- app_assoc; reflexivity|]. destruct s1 as [|x s1]; [contradiction|]. inversion Hs1; subst.
    split; [destruct rest; [reflexivity|exact K3]|]. intros E. destruct rest; discriminate.
Qed.

Lemma zero_fuel t data : compileRewriteCondition 0 t <> Ok data.
Proof. unfold compileRewriteCondition. destruct (_ >? _); [discriminate|]. destruct (trimSpaces t 0 (zlen t - 1)) as [[a b]|m| |]; cbn [bind]; try discriminate. destruct (b <? a); discriminate. Qed.
Lemma too_long fuel t : 1024 < zlen t -> exists msg, compileRewriteCondition fuel t = Err msg.
Proof. intros H. unfold compileRewriteCondition. replace (zlen t >? 1024) with true by lia. eauto. Qed.
(** a definition that begins with a parenthesis *)
Lemma parentheses_hang fuel s r : spaces s -> zlen (s ++ 40 :: r) <= 1024 -> compileRewriteCondition fuel (s ++ 40 :: r) = Hang.
Proof.
  intros Hs Hl. destruct (trimmed (40 :: r)) as [K|(s1 & c & s2 & E & K1 & K2 & K3)]; [inversion K; lia|].
  destruct s1 as [|x s1]; [|inversion K1; subst; injection E; intros; lia]. cbn [app] in E. pose proof K3 as (y & m & Ec & _). rewrite Ec in E. injection E as <- Er.
  replace (40 :: r) with (c ++ s2) in * by (rewrite Ec, Er; reflexivity). eapply compile_paren; eassumption.
Qed.
Lemma groups_fail fuel t e data : defines t e -> (forall a op b, e <> Term a op b) -> compileRewriteCondition fuel t <> Ok data.
Proof.
  intros (s1 & s2 & u & H1 & H2 & Hu & ->) He. destruct (Z_lt_le_dec 1024 (zlen (s1 ++ u ++ s2))) as [G|G]; [destruct (too_long fuel _ G) as (msg & ->); discriminate|].
  destruct fuel as [|fuel]; [apply zero_fuel|]. pose proof (text_tight _ _ _ Hu) as Ht.
  destruct (text_start _ _ _ Hu) as [(m & E)|(a & op & b & v & rest & K1 & K2 & K3 & K4)].
  - rewrite (compile_paren s1 u s2 H1 H2 Ht G (S fuel) m E). discriminate.
  - rewrite (compile_hash s1 u s2 H1 H2 Ht G fuel a op b v rest K2 K1 K3). unfold term_outcome. destruct rest as [|x rest]; [destruct (He _ _ _ (K4 eq_refl))|].
    destruct (_ >? _); [discriminate|]. destruct (_ >? _); [discriminate|]. destruct (_ >? _); [discriminate|]. destruct (_ && _); [discriminate|]. destruct (_ >? _); discriminate.
Qed.
Lemma term_compiles fuel s1 s2 a op b u : spaces s1 -> spaces s2 -> term_text a op b u -> zlen (s1 ++ u ++ s2) <= 1024 ->
  compileRewriteCondition (S fuel) (s1 ++ u ++ s2) = term_outcome a op b [].
Proof. intros H1 H2 Hu G. apply (compile_hash s1 u s2 H1 H2 (term_tight _ _ _ _ Hu) G fuel a op b u []); [rewrite app_nil_r; reflexivity|exact Hu|exact I]. Qed.
Lemma term_outcome_ok a op b : expr_ok (Term a op b) -> term_outcome a op b [] = Ok (term_code op a b).
Proof.
  cbn [expr_ok]. intros [Ha Hb]. unfold term_outcome. replace (a >? 9223372036854775807) with false by lia. replace (a >? 254) with false by lia.
  destruct b as [n|n]; cbn [operand_parts fst snd]; replace (n >? 9223372036854775807) with false by lia; replace (n >? 255) with false by lia; [replace (n >? 254) with false by lia|rewrite andb_false_r]; reflexivity.
Qed.
Lemma spaces_fail fuel t : spaces t -> exists msg, compileRewriteCondition fuel t = Err msg.
Proof.
  intros H. unfold compileRewriteCondition. destruct (zlen t >? 1024); [eauto|]. destruct (trim_spaces t H) as (a & b & -> & L). cbn [bind]. replace (b <? a) with true by lia. eauto.
Qed.
(** whatever is accepted is one term, and its code is returned *)
Lemma compile_sound fuel t data : compileRewriteCondition fuel t = Ok data ->
  exists s1 s2 a op b u, spaces s1 /\ spaces s2 /\ term_text a op b u /\ t = s1 ++ u ++ s2 /\ expr_ok (Term a op b) /\ data = term_code op a b.
Proof.
  intros E. destruct (Z_lt_le_dec 1024 (zlen t)) as [G|G]; [destruct (too_long fuel _ G) as (msg & E'); rewrite E' in E; discriminate|].
  destruct fuel as [|fuel]; [destruct (zero_fuel _ _ E)|].
  destruct (trimmed t) as [K|(s1 & c & s2 & -> & H1 & H2 & Hc)]; [destruct (spaces_fail (S fuel) t K) as (msg & E'); rewrite E' in E; discriminate|].
  pose proof Hc as (x & m & Ec & _). destruct (Z.eq_dec x 40) as [->|N]; [rewrite (compile_paren s1 c s2 H1 H2 Hc G (S fuel) m Ec) in E; discriminate|].
  destruct (match_term c) as [mt|] eqn:M.
  - destruct (match_term_spec _ _ M) as (a & op & b & u & K1 & K2 & K3 & K4 & K5).
    pose proof (match_rest_stops _ _ M) as St.
    rewrite (compile_hash s1 c s2 H1 H2 Hc G fuel a op b u (mt_rest mt) K2 K1 St) in E. destruct (term_nonneg _ _ _ _ K1) as [Na Nb]. unfold term_outcome in E.
    destruct (Z.gtb_spec a 9223372036854775807); [discriminate|]. destruct (Z.gtb_spec a 254); [discriminate|]. destruct (Z.gtb_spec (snd (operand_parts b)) 9223372036854775807); [discriminate|].
    destruct ((snd (operand_parts b) >? 254) && fst (operand_parts b)) eqn:G1; [discriminate|]. destruct (Z.gtb_spec (snd (operand_parts b)) 255); [discriminate|].
    destruct (mt_rest mt) as [|y rest] eqn:Er; [|discriminate]. injection E as <-. rewrite app_nil_r in K2. subst u. exists s1, s2, a, op, b, c. split; [exact H1|]. split; [exact H2|]. split; [exact K1|]. split; [reflexivity|]. split; [|reflexivity].
    cbn [expr_ok]. split; [lia|]. destruct b; cbn [operand_parts fst snd] in *; lia.
  - exfalso. destruct fuel as [|fuel].
    + destruct (Z.eq_dec x 35) as [->|N2]; [|].
      * rewrite (compile_unfold s1 c s2 H1 H2 Hc G 1) in E. rewrite (expr_term s1 c s2 Hc G 0%nat false 35 m Ec N ltac:(auto)) in E.
        unfold appendNextTerm in E. rewrite slice_core in E. cbn [bind] in E. rewrite M in E. destruct (zslice (s1 ++ c ++ s2) 0 (zlen s1)); discriminate.
      * rewrite (compile_unfold s1 c s2 H1 H2 Hc G 1) in E. cbn [appendNextExpr] in E. rewrite (trim_inner s1 c s2 Hc) in E. cbn [bind] in E.
        destruct (_ <? _); [destruct (zslice _ _ _); discriminate|]. destruct (_ >? _); [discriminate|]. rewrite (first_get s1 c s2 Hc G x m Ec) in E. cbn [bind] in E.
        replace (x =? 40) with false in E by lia. replace (x =? 35) with false in E by lia. discriminate.
    + destruct (compile_nomatch s1 c s2 H1 H2 Hc G fuel M) as (msg & E'); [intros m' E'; rewrite Ec in E'; injection E'; intros; lia|]. rewrite E' in E. discriminate.
Qed.

(** ** The codes *)
Definition quick (op : operator) (b : operand) : Prop := quick_operator op /\ exists k, b = Constant k /\ k < 32.
Lemma quick_right op a k : quick_operator op -> 0 <= k < 32 -> term_code op a (Constant k) = condition_bytes (CQuick op a k).
Proof. intros Hq Hk. unfold term_code. replace (k <? 32) with true by lia. destruct op; try contradiction; reflexivity. Qed.
Lemma code_len op a b : zlen (term_code op a b) = 2.
Proof. unfold term_code. destruct b, op; try destruct (_ <? _); reflexivity. Qed.
Lemma others_wrong op a b c : expr_ok (Term a op b) -> ~ quick op b -> condition_ok 256 c -> term_code op a b <> condition_bytes c.
Proof.
  intros [Ha Hb] Hq Hc E. assert (K : exists x, term_code op a b = [x; a] /\ 64 <= x < 86).
  { unfold term_code. destruct b as [n|n]; [exists (64 + operator_code op); split; [reflexivity|destruct op; cbn; lia]|].
    assert (N : quick_operator op -> n <? 32 = false) by (intros Q; destruct (Z.ltb_spec n 32); [destruct Hq; split; [exact Q|eauto]|reflexivity]).
    destruct op; try (rewrite N by exact I); eexists; (split; [reflexivity|lia]). }
  destruct K as (x & K & Hx). rewrite K in E. destruct c as [l|l|op' a' b'|op' a' k'|op' a' k']; cbn [condition_bytes condition_ok] in *; try discriminate.
  - injection E as E _. lia.
  - injection E as E _. lia.
  - injection E as E _. destruct Hc as (Q & _ & Hk). destruct op'; try contradiction; cbn [quick_code] in E; lia.
Qed.
Lemma digits_len n : byte n -> zlen (digits n) <= 3.
Proof. intros H. pose proof (byte_cases (fun n => zlen (digits n) <=? 3) ltac:(vm_compute; reflexivity) n H) as K. cbv beta in K. lia. Qed.
Lemma quick_round_trip fuel op a k : condition_ok 255 (CQuick op a k) ->
  (do t <- condition_String (condition_bytes (CQuick op a k)); compileRewriteCondition (S fuel) t) = Ok (condition_bytes (CQuick op a k)).
Proof.
  intros (Hq & Ha & Hk). assert (H' : condition_ok 256 (CQuick op a k)) by (cbn; auto with zarith). rewrite string_prints by exact H'. cbn [bind full_text sub_text].
  assert (Ba : byte a) by (unfold byte; lia). assert (Bk : byte k) by (unfold byte; lia). pose proof (digits_len a Ba). pose proof (digits_len k Bk).
  assert (T : term_text a op (Constant k) ([35] ++ digits a ++ [32] ++ operator_chars op ++ [32] ++ digits k)).
  { exists (digits a), [32], [32], (digits k). split; [apply digits_numeral; exact Ba|]. split; [repeat constructor|]. split; [repeat constructor|]. split; [apply digits_numeral; exact Bk|reflexivity]. }
  pose proof (term_compiles fuel [] [] a op (Constant k) _ ltac:(constructor) ltac:(constructor) T) as E. rewrite app_nil_r in E. cbn [app] in E. cbn [app]. rewrite E.
  - rewrite term_outcome_ok by (cbn; lia). rewrite quick_right by (auto; lia). reflexivity.
  - rewrite zlen_cons, zlen_app, zlen_cons, zlen_app, zlen_cons. assert (zlen (operator_chars op) <= 2) by (destruct op; vm_compute; discriminate). lia.
Qed.
