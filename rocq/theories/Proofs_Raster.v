(** Proofs about mask/rasterize.go and compute_rect.go. *)
From Verif Require Import Base BaseFacts Model_Mask Spec_Mask.
Ltac splits := repeat match goal with |- _ /\ _ => split end.


Ltac okpair := repeat first [reflexivity | lia |
  match goal with |- Ok _ = Ok _ => f_equal | |- (_, _) = (_, _) => f_equal end].

(** *** Control bytes *)

Definition ctrl_of (b0 b1 b2 b3 b4 b5 b6 b7 : bool) : Z :=
  b2z b0 + 2 * b2z b1 + 4 * b2z b2 + 8 * b2z b3 + 16 * b2z b4 + 32 * b2z b5 + 64 * b2z b6 + 128 * b2z b7.

Lemma ctrl_of_has c : byte c ->
  c = ctrl_of (has c 1) (has c 2) (has c 4) (has c 8) (has c 16) (has c 32) (has c 64) (has c 128).
Proof.
  intros H. apply Z.eqb_eq. revert c H. apply byte_forallb. vm_compute. reflexivity.
Qed.
Lemma has_ctrl_of b0 b1 b2 b3 b4 b5 b6 b7 :
  let c := ctrl_of b0 b1 b2 b3 b4 b5 b6 b7 in
  has c 1 = b0 /\ has c 2 = b1 /\ has c 4 = b2 /\ has c 8 = b3 /\
  has c 16 = b4 /\ has c 32 = b5 /\ has c 64 = b6 /\ has c 128 = b7.
Proof. destruct b0, b1, b2, b3, b4, b5, b6, b7; repeat split. Qed.

Lemma nzint8AsInt_spec b : byte b -> nzint8AsInt b = nz_signed b.
Proof.
  intros H. apply Z.eqb_eq. revert b H. apply byte_forallb. vm_compute. reflexivity.
Qed.

(** *** Decoding one operation *)

Definition dec_opt (flag : bool) (s : list Z) : option (option Z * list Z) :=
  if flag then match s with [] => None | b :: s => Some (Some b, s) end else Some (None, s).
Definition dec_v (f4 f8 : bool) (s : list Z) : option (vmove * list Z) :=
  match f4, f8 with
  | true, true => None
  | true, false => match s with [] => None | b :: s => Some (VMove b, s) end
  | false, true => Some (VRow, s)
  | false, false => Some (VNone, s)
  end.
Definition dec_draw (f16 f32 f64 f128 : bool) (s : list Z) : option (draw * list Z) :=
  if f16 then
    if f128 then None else if negb f32 then None
    else match s with [] => None | b :: s => Some (DDiag f64 b, s) end
  else
    match f32, f64 with
    | false, false => Some (if f128 then DPixel else DNone, s)
    | true, false => if f128 then None else match s with [] => None | b :: s => Some (DHorz b, s) end
    | false, true => if f128 then None else match s with [] => None | b :: s => Some (DVert b, s) end
    | true, true => if f128 then None else match s with b :: c :: s => Some (DRect b c, s) | _ => None end
    end.
Definition obind {A B} (o : option A) (f : A -> option B) : option B :=
  match o with None => None | Some a => f a end.

Definition dec (s : list Z) : option (rop * list Z) :=
  match s with
  | [] => None
  | c :: s =>
    obind (dec_opt (has c 1) s) (fun '(col, s) =>
    obind (dec_opt (has c 2) s) (fun '(h, s) =>
    obind (dec_v (has c 4) (has c 8) s) (fun '(v, s) =>
    obind (dec_draw (has c 16) (has c 32) (has c 64) (has c 128) s) (fun '(d, s) =>
    Some (mkOp col h v d, s)))))
  end.

Lemma rop_ctrl_of o : rop_ctrl o = ctrl_of
  (match ocolor o with None => false | _ => true end)
  (match ohmove o with None => false | _ => true end)
  (match ovmove o with VMove _ => true | _ => false end)
  (match ovmove o with VRow => true | _ => false end)
  (match odraw o with DDiag _ _ => true | _ => false end)
  (match odraw o with DDiag _ _ | DHorz _ | DRect _ _ => true | _ => false end)
  (match odraw o with DDiag a _ => a | DVert _ | DRect _ _ => true | _ => false end)
  (match odraw o with DPixel => true | _ => false end).
Proof. destruct o as [[c|] [h|] [| |v] [| |n|n|w h'|[|] n]]; reflexivity. Qed.

Lemma dec_enc o r : dec (enc_op o ++ r) = Some (o, r).
Proof.
  unfold enc_op. cbn [app dec]. rewrite rop_ctrl_of.
  destruct o as [c h v d]. cbn [ocolor ohmove ovmove odraw].
  match goal with |- context[has (ctrl_of ?a ?b ?c ?d ?e ?f ?g ?h) _] =>
    destruct (has_ctrl_of a b c d e f g h) as (-> & -> & -> & -> & -> & -> & -> & ->) end.
  destruct c as [c|], h as [h|], v as [| |v], d as [| |n|n|w h'|[|] n]; reflexivity.
Qed.

Lemma dec_spec s o r : bytes s -> dec s = Some (o, r) -> s = enc_op o ++ r /\ rop_wf o /\ bytes r.
Proof.
  destruct s as [|c s]; [discriminate|]. rewrite bytes_cons. intros (Hc & Hs). cbn [dec].
  pose proof (ctrl_of_has c Hc) as E. revert E.
  generalize (has c 1) (has c 2) (has c 4) (has c 8) (has c 16) (has c 32) (has c 64) (has c 128).
  intros b0 b1 b2 b3 b4 b5 b6 b7 ->. clear Hc.
  assert (D : forall f (s : list Z) o r, bytes s -> dec_opt f s = Some (o, r) ->
            s = opt_bytes o ++ r /\ opt_wf o /\ bytes r /\ f = match o with None => false | _ => true end).
  { intros f q o' r' Hq. unfold dec_opt. destruct f.
    - destruct q; [discriminate|]. intros H; inversion H; subst. apply bytes_cons in Hq. cbn. tauto.
    - intros H; inversion H; subst. cbn. auto. }
  destruct (dec_opt b0 s) as [(col & s1)|] eqn:E0; [|discriminate]. cbn [obind].
  destruct (D _ _ _ _ Hs E0) as (-> & W0 & Hs1 & F0).
  destruct (dec_opt b1 s1) as [(h & s2)|] eqn:E1; [|discriminate]. cbn [obind].
  destruct (D _ _ _ _ Hs1 E1) as (-> & W1 & Hs2 & F1).
  destruct (dec_v b2 b3 s2) as [(v & s3)|] eqn:E2; [|discriminate]. cbn [obind].
  assert (V : s2 = (match v with VMove b => [b] | _ => [] end) ++ s3 /\ vmove_wf v /\ bytes s3 /\
     b2 = (match v with VMove _ => true | _ => false end) /\ b3 = (match v with VRow => true | _ => false end)).
  { clear - E2 Hs2. unfold dec_v in E2. destruct b2, b3; try discriminate;
    try (inversion E2; subst; cbn; auto; fail).
    destruct s2; [discriminate|]. inversion E2; subst. apply bytes_cons in Hs2. cbn. tauto. }
  destruct V as (-> & W2 & Hs3 & F2 & F3).
  destruct (dec_draw b4 b5 b6 b7 s3) as [(d & s4)|] eqn:E3; [|discriminate]. cbn [obind].
  assert (DR : s3 = (match d with
     | DNone | DPixel => [] | DHorz n | DVert n | DDiag _ n => [n] | DRect w h => [w; h] end) ++ s4 /\
     draw_wf d /\ bytes s4 /\
     b4 = (match d with DDiag _ _ => true | _ => false end) /\
     b5 = (match d with DDiag _ _ | DHorz _ | DRect _ _ => true | _ => false end) /\
     b6 = (match d with DDiag a _ => a | DVert _ | DRect _ _ => true | _ => false end) /\
     b7 = (match d with DPixel => true | _ => false end)).
  { clear - E3 Hs3. unfold dec_draw in E3.
    destruct b4, b5, b6, b7; cbn [negb] in E3; try discriminate;
    try (inversion E3; subst; cbn; splits; auto; fail);
    destruct s3 as [|x s3]; try discriminate; apply bytes_cons in Hs3;
    try (inversion E3; subst; cbn; splits; tauto).
    destruct s3 as [|y s3]; try discriminate. destruct Hs3 as (Hx & Hs3). apply bytes_cons in Hs3.
    inversion E3; subst; cbn; splits; tauto. }
  destruct DR as (-> & W3 & Hs4 & F4 & F5 & F6 & F7).
  intros H. inversion H; subst o r. split.
  - unfold enc_op. cbn [ocolor ohmove ovmove odraw]. rewrite rop_ctrl_of. cbn [ocolor ohmove ovmove odraw].
    rewrite <- F0, <- F1, <- F2, <- F3, <- F4, <- F5, <- F6, <- F7. cbn [app].
    rewrite <- !app_assoc. reflexivity.
  - split; [repeat split; assumption|assumption].
Qed.

Lemma enc_op_nonempty o : exists c s, enc_op o = c :: s.
Proof. unfold enc_op. eexists; eexists; reflexivity. Qed.

(** *** Reading bytes at a position *)

Definition suffix {A} (l q : list A) : Prop := exists p, l = p ++ q.
Definition pos (l q : list Z) : Z := zlen l - zlen q - 1.

Lemma suffix_refl {A} (l : list A) : suffix l l.
Proof. exists []. reflexivity. Qed.
Lemma suffix_cons {A} (l : list A) x q : suffix l (x :: q) -> suffix l q.
Proof. intros (p & ->). exists (p ++ [x]). rewrite <- app_assoc. reflexivity. Qed.
Lemma suffix_app {A} (l a q : list A) : suffix l (a ++ q) -> suffix l q.
Proof. intros (p & ->). exists (p ++ a). rewrite <- app_assoc. reflexivity. Qed.
Lemma suffix_bytes l q : bytes l -> suffix l q -> bytes q.
Proof. intros H (p & ->). apply bytes_app in H. tauto. Qed.

Lemma next_byte_spec l q : suffix l q -> next_byte l (pos l q) =
  match q with [] => Err ErrUnexpectedRasterOptsEnd | b :: q' => Ok (pos l q', b) end.
Proof.
  intros (p & ->). unfold next_byte, pos. rewrite !zlen_app. destruct q as [|b q].
  - rewrite zlen_nil. replace (zlen p + 0 - 0 - 1 + 1 >=? zlen p + 0) with true by lia. reflexivity.
  - rewrite zlen_cons. pose proof (zlen_nonneg q).
    replace (zlen p + (1 + zlen q) - (1 + zlen q) - 1 + 1 >=? zlen p + (1 + zlen q)) with false by lia.
    rewrite zget_app_r by lia.
    replace (zlen p + (1 + zlen q) - (1 + zlen q) - 1 + 1 - zlen p) with 0 by lia.
    rewrite zget_cons_0. cbn [bind]. f_equal. f_equal. lia.
Qed.
Lemma next_ctrl_spec l c q : suffix l (c :: q) -> zget l (pos l (c :: q) + 1) = Ok c.
Proof.
  intros (p & ->). unfold pos. rewrite zlen_app, zlen_cons.
  rewrite zget_app_r by lia. replace (_ - zlen p) with 0 by lia. apply zget_cons_0.
Qed.

Definition hstep (h : option Z) : Z := match h with None => 0 | Some b => nz_signed b end.
Definition vstep (v : vmove) : Z := match v with VNone => 0 | VRow => 1 | VMove b => nz_signed b end.

Definition opt_out {A B} (o : option A) (out : outcome B) (k : A -> B) : Prop :=
  match o with None => exists e, out = Err e | Some a => out = Ok (k a) end.

Lemma read_moves_spec l c q x y : bytes l -> suffix l q ->
  opt_out (obind (dec_opt (has c 2) q) (fun '(h, q) =>
           obind (dec_v (has c 4) (has c 8) q) (fun '(v, q) => Some (h, v, q))))
    (read_moves l c (pos l q) x y) (fun '(h, v, q) => (pos l q, x + hstep h, y + vstep v)).
Proof.
  intros Hb Hq. unfold read_moves, dec_opt, dec_v, opt_out.
  destruct (has c 2).
  - rewrite next_byte_spec by assumption. destruct q as [|b q]; [eexists; reflexivity|]. cbn [bind obind].
    pose proof (suffix_cons _ _ _ Hq) as Hq'.
    assert (Bb : byte b) by (pose proof (suffix_bytes _ _ Hb Hq) as H; apply bytes_cons in H; tauto).
    rewrite nzint8AsInt_spec by assumption.
    destruct (has c 4).
    + rewrite next_byte_spec by assumption. destruct (has c 8).
      * destruct q as [|b' q]; cbn [bind obind]; eexists; reflexivity.
      * destruct q as [|b' q]; cbn [bind obind]; [eexists; reflexivity|].
        rewrite nzint8AsInt_spec; [reflexivity|].
        pose proof (suffix_bytes _ _ Hb Hq') as H; apply bytes_cons in H; tauto.
    + destruct (has c 8); cbn [bind obind hstep vstep]; rewrite ?Z.add_0_r; reflexivity.
  - cbn [bind obind]. destruct (has c 4).
    + rewrite next_byte_spec by assumption. destruct (has c 8).
      * destruct q as [|b' q]; cbn [bind obind]; eexists; reflexivity.
      * destruct q as [|b' q]; cbn [bind obind]; [eexists; reflexivity|].
        rewrite nzint8AsInt_spec; [cbn [hstep vstep]; rewrite ?Z.add_0_r; reflexivity|].
        pose proof (suffix_bytes _ _ Hb Hq) as H; apply bytes_cons in H; tauto.
    + destruct (has c 8); cbn [bind obind hstep vstep]; rewrite ?Z.add_0_r; reflexivity.
Qed.
Lemma rect_read_moves_eq l c i x y : rect_read_moves l c i x y = read_moves l c i x y.
Proof. reflexivity. Qed.
Lemma rect_read_sizes_eq l c i : rect_read_draw_sizes l c i = read_draw_sizes l c i.
Proof. reflexivity. Qed.

Definition draw_height (d : draw) : Z :=
  match d with
  | DNone => 0 | DPixel => 1 | DHorz _ => 1 | DVert n => nz_unsigned n
  | DRect _ h => nz_unsigned h | DDiag _ n => nz_unsigned n
  end.
Definition draws (d : draw) : bool := match d with DNone => false | _ => true end.

Lemma read_sizes_spec l c q : suffix l q ->
  opt_out (dec_draw false (has c 32) (has c 64) (has c 128) q)
    (read_draw_sizes l c (pos l q)) (fun '(d, q) => (pos l q, draws d, draw_width d, draw_height d)).
Proof.
  intros Hq. unfold read_draw_sizes, dec_draw, opt_out, nz_unsigned.
  destruct (has c 32).
  - rewrite next_byte_spec by assumption. destruct q as [|b q].
    + destruct (has c 64), (has c 128); eexists; reflexivity.
    + cbn [bind]. pose proof (suffix_cons _ _ _ Hq) as Hq'. destruct (has c 64).
      * rewrite next_byte_spec by assumption. destruct q as [|b' q], (has c 128); cbn [bind];
          first [eexists; reflexivity | reflexivity].
      * destruct (has c 128); cbn [bind]; first [eexists; reflexivity | reflexivity].
  - cbn [bind]. destruct (has c 64).
    + rewrite next_byte_spec by assumption. destruct q as [|b' q], (has c 128); cbn [bind];
        first [eexists; reflexivity | reflexivity].
    + destruct (has c 128); reflexivity.
Qed.

(** *** Reading one operation *)

Lemma dec_opt_suffix {l : list Z} {f q o q'} : suffix l q -> dec_opt f q = Some (o, q') -> suffix l q'.
Proof.
  unfold dec_opt. destruct f; [destruct q; [discriminate|]|]; intros H E; inversion E; subst; auto.
  eapply suffix_cons; eauto.
Qed.
Lemma dec_v_suffix {l : list Z} {f g q o q'} : suffix l q -> dec_v f g q = Some (o, q') -> suffix l q'.
Proof.
  unfold dec_v. intros H. destruct f, g; try discriminate; [destruct q; [discriminate|]| |];
  intros E; inversion E; subst; auto. eapply suffix_cons; eauto.
Qed.

Lemma end_test {B} l q' (a b : B) :
  (if pos l q' + 1 =? zlen l then a else b) = match q' with [] => a | _ => b end.
Proof.
  unfold pos. destruct q' as [|z q'].
  - rewrite zlen_nil. replace (zlen l - 0 - 1 + 1 =? zlen l) with true by lia. reflexivity.
  - rewrite zlen_cons. pose proof (zlen_nonneg q').
    replace (zlen l - (1 + zlen q') - 1 + 1 =? zlen l) with false by lia. reflexivity.
Qed.

Definition shape_rect (d : draw) (x y : Z) (r : rect) : rect :=
  if draws d then grow_rect r x y (draw_width d) (draw_height d) else r.

Lemma rect_draw_spec l c q r x y : suffix l q ->
  opt_out (dec_draw (has c 16) (has c 32) (has c 64) (has c 128) q)
    (rect_draw l c r (pos l q) x y) (fun '(d, q) => (pos l q, shape_rect d x y r, x + draw_width d)).
Proof.
  intros Hq. unfold rect_draw. destruct (has c 16).
  - unfold dec_draw, opt_out. destruct (has c 128); [eexists; reflexivity|].
    destruct (has c 32); cbn [negb]; [|eexists; reflexivity].
    rewrite next_byte_spec by assumption. destruct q as [|b q]; [eexists; reflexivity|]. reflexivity.
  - rewrite rect_read_sizes_eq. pose proof (read_sizes_spec l c q Hq) as M.
    destruct (dec_draw false (has c 32) (has c 64) (has c 128) q) as [(d & q')|]; cbn [opt_out] in *;
      [|destruct M as (e & ->); exists e; reflexivity].
    rewrite M. cbn [bind]. destruct d; cbn [draws shape_rect draw_width]; rewrite ?Z.add_0_r; reflexivity.
Qed.

(** *** The bounds pass *)

Definition op_rect (o : rop) (p : pen) (r : rect) : rect :=
  shape_rect (odraw o) (penx (pen_at o p)) (peny (pen_at o p)) r.

Lemma rect_step fuel l q r p : bytes l -> suffix l q -> q <> [] ->
  match dec q with
  | None => exists e, rect_loop (S fuel) l r (pos l q + 1) (penx p) (peny p) = Err e
  | Some (o, q') => rect_loop (S fuel) l r (pos l q + 1) (penx p) (peny p) =
      match q' with
      | [] => Ok (op_rect o p r)
      | _ => rect_loop fuel l (op_rect o p r) (pos l q' + 1) (penx (pen_after o p)) (peny (pen_after o p))
      end
  end.
Proof.
  intros Hb Hq Hne. destruct q as [|c q]; [congruence|]. cbn [rect_loop]. rewrite next_ctrl_spec by assumption.
  cbn [bind dec]. apply suffix_cons in Hq as Hq0.
  replace (pos l (c :: q) + 1) with (pos l q) by (unfold pos; rewrite zlen_cons; lia).
  assert (C : match dec_opt (has c 1) q with
     | None => exists e, (if has c 1 then do ' (index, v) <- next_byte l (pos l q); Ok index else Ok (pos l q)) = Err e
     | Some (o, q') => (if has c 1 then do ' (index, v) <- next_byte l (pos l q); Ok index else Ok (pos l q)) = Ok (pos l q')
     end).
  { unfold dec_opt. destruct (has c 1); [|reflexivity]. rewrite next_byte_spec by assumption.
    destruct q; [eexists; reflexivity|reflexivity]. }
  destruct (dec_opt (has c 1) q) as [(col & q1)|] eqn:E0; cbn [obind];
    [|destruct C as (e & ->); exists e; reflexivity].
  rewrite C. clear C. cbn [bind]. pose proof (dec_opt_suffix Hq0 E0) as Hq1.
  rewrite rect_read_moves_eq. pose proof (read_moves_spec l c q1 (penx p) (peny p) Hb Hq1) as M.
  destruct (dec_opt (has c 2) q1) as [(h & q2)|] eqn:E1; cbn [obind] in *;
    [|destruct M as (e & ->); exists e; reflexivity].
  pose proof (dec_opt_suffix Hq1 E1) as Hq2.
  destruct (dec_v (has c 4) (has c 8) q2) as [(v & q3)|] eqn:E2; cbn [obind] in *;
    [|destruct M as (e & ->); exists e; reflexivity].
  pose proof (dec_v_suffix Hq2 E2) as Hq3. cbn [opt_out] in M. rewrite M. cbn [bind]. clear M.
  pose proof (rect_draw_spec l c q3 r (penx p + hstep h) (peny p + vstep v) Hq3) as M.
  destruct (dec_draw (has c 16) (has c 32) (has c 64) (has c 128) q3) as [(d & q4)|]; cbn [obind opt_out] in *;
    [|destruct M as (e & ->); exists e; reflexivity].
  rewrite M. cbn [bind]. cbv zeta. rewrite end_test. reflexivity.
Qed.

Fixpoint ops_rect (ops : list rop) (p : pen) (r : rect) : rect :=
  match ops with [] => r | o :: rest => ops_rect rest (pen_after o p) (op_rect o p r) end.

Lemma rop_wf_bytes o : rop_wf o -> bytes (enc_op o).
Proof.
  intros (H1 & H2 & H3 & H4). unfold enc_op. rewrite bytes_cons, !bytes_app. splits.
  - destruct o as [[c|] [h|] [| |v] [| |n|n|w h'|[|] n]]; unfold rop_ctrl, byte; cbn; lia.
  - destruct (ocolor o); cbn in *; [apply bytes_cons; split; [assumption|apply bytes_nil]|apply bytes_nil].
  - destruct (ohmove o); cbn in *; [apply bytes_cons; split; [assumption|apply bytes_nil]|apply bytes_nil].
  - destruct (ovmove o); cbn in *; try apply bytes_nil. apply bytes_cons; split; [assumption|apply bytes_nil].
  - destruct (odraw o); cbn in *; try apply bytes_nil; rewrite ?bytes_cons; splits; try tauto; try apply bytes_nil.
Qed.
Lemma enc_ops_bytes ops : Forall rop_wf ops -> bytes (enc_ops ops).
Proof.
  induction 1 as [|o ops Ho _ IH]; [apply bytes_nil|].
  change (enc_ops (o :: ops)) with (enc_op o ++ enc_ops ops). apply bytes_app. split; [apply rop_wf_bytes; auto|auto].
Qed.
Lemma enc_ops_nonempty o ops : enc_ops (o :: ops) <> [].
Proof.
  change (enc_ops (o :: ops)) with (enc_op o ++ enc_ops ops).
  destruct (enc_op_nonempty o) as (c & s & ->). discriminate.
Qed.

Lemma rect_run ops : forall fuel l r p, bytes l -> ops <> [] -> suffix l (enc_ops ops) ->
  (length (enc_ops ops) <= fuel)%nat ->
  rect_loop fuel l r (pos l (enc_ops ops) + 1) (penx p) (peny p) = Ok (ops_rect ops p r).
Proof.
  induction ops as [|o ops IH]; intros fuel l r p Hb Hne Hs Hf; [congruence|].
  pose proof (enc_ops_nonempty o ops) as NE.
  change (enc_ops (o :: ops)) with (enc_op o ++ enc_ops ops) in *.
  destruct fuel as [|fuel].
  { exfalso. apply NE. apply length_zero_iff_nil. lia. }
  pose proof (rect_step fuel l _ r p Hb Hs NE) as S. rewrite dec_enc in S. rewrite S.
  destruct ops as [|o' ops]; [reflexivity|].
  pose proof (enc_ops_nonempty o' ops) as NE'. destruct (enc_ops (o' :: ops)) eqn:E; [congruence|].
  rewrite <- E in *. rewrite IH; auto; [discriminate|eapply suffix_app; eauto|].
  destruct (enc_op_nonempty o) as (c & s & Eo). rewrite Eo, app_length in Hf. cbn [length] in Hf. lia.
Qed.

(** Every byte string is a sequence of encoded operations or makes the bounds pass fail. *)
Lemma rect_parse : forall n q, (length q <= n)%nat -> bytes q ->
  (exists ops, Forall rop_wf ops /\ q = enc_ops ops) \/
  (q <> [] /\ forall fuel l r p, bytes l -> suffix l q -> (length q <= fuel)%nat ->
     exists e, rect_loop fuel l r (pos l q + 1) (penx p) (peny p) = Err e).
Proof.
  induction n as [|n IH]; intros q Hn Hb.
  - left. exists []. split; [constructor|]. destruct q; [reflexivity|cbn in Hn; lia].
  - destruct q as [|c q0]; [left; exists []; split; [constructor|reflexivity]|].
    remember (c :: q0) as q eqn:Eq. assert (Hne : q <> []) by (rewrite Eq; discriminate).
    destruct (dec q) as [(o & q')|] eqn:Ed.
    + destruct (dec_spec q o q' Hb Ed) as (Es & Wo & Hb').
      destruct (enc_op_nonempty o) as (c' & s & Eo).
      assert (Hl : (length q' <= n)%nat).
      { rewrite Es, Eo, app_length in Hn. cbn in Hn. lia. }
      destruct (IH q' Hl Hb') as [(ops & Wops & Eops)|(Hne' & HE)].
      * left. exists (o :: ops). split; [constructor; auto|]. rewrite Es, Eops. reflexivity.
      * right. split; [exact Hne|]. intros fuel l r p Hbl Hs Hf.
        destruct fuel as [|fuel]; [rewrite Es, Eo in Hf; cbn in Hf; lia|].
        pose proof (rect_step fuel l q r p Hbl Hs Hne) as S. rewrite Ed in S. rewrite S.
        destruct q' as [|z qq] eqn:Eq'; [congruence|]. rewrite <- Eq' in *.
        apply HE; auto; [rewrite Es in Hs; eapply suffix_app; eauto|].
        rewrite Es, Eo, app_length in Hf. cbn [length] in Hf. lia.
    + right. split; [exact Hne|]. intros fuel l r p Hbl Hs Hf.
      destruct fuel as [|fuel]; [rewrite Eq in Hf; cbn in Hf; lia|].
      pose proof (rect_step fuel l q r p Hbl Hs Hne) as S. rewrite Ed in S. exact S.
Qed.

Definition rect0 : rect := mkRect MaxInt MaxInt MinInt MinInt.

Lemma compute_rect_ops ops : Forall rop_wf ops ->
  computeRasterOpsRect (enc_ops ops) = Ok (ops_rect ops pen0 rect0).
Proof.
  intros W. unfold computeRasterOpsRect. destruct ops as [|o ops]; [reflexivity|].
  destruct (Z.eqb_spec (zlen (enc_ops (o :: ops))) 0) as [E|E].
  { exfalso. apply zlen_0_nil in E. apply (enc_ops_nonempty o ops E). }
  pose proof (rect_run (o :: ops) (length (enc_ops (o :: ops))) (enc_ops (o :: ops)) rect0 pen0) as R.
  unfold pos in R. replace (zlen (enc_ops (o :: ops)) - zlen (enc_ops (o :: ops)) - 1 + 1) with 0 in R by lia.
  apply R; [apply enc_ops_bytes; auto|discriminate|apply suffix_refl|lia].
Qed.

Lemma compute_rect_cases s : bytes s ->
  (exists ops, Forall rop_wf ops /\ s = enc_ops ops) \/ (exists e, computeRasterOpsRect s = Err e).
Proof.
  intros Hb. destruct (rect_parse (length s) s (le_n _) Hb) as [H|(Hne & H)]; [left; exact H|right].
  unfold computeRasterOpsRect. destruct (Z.eqb_spec (zlen s) 0) as [E|E].
  { apply zlen_0_nil in E. congruence. }
  specialize (H (length s) s rect0 pen0 Hb (suffix_refl s) (le_n _)). unfold pos in H.
  replace (zlen s - zlen s - 1 + 1) with 0 in H by lia. exact H.
Qed.

(** *** The rectangle is the smallest one *)

Lemma grow_incl r x y w h R : incl_rect (grow_rect r x y w h) R <->
  incl_rect r R /\ rx0 R <= x /\ ry0 R <= y /\ x + w <= rx1 R /\ y + h <= ry1 R.
Proof.
  unfold grow_rect, incl_rect. destruct r as [a b c d]. cbn [rx0 ry0 rx1 ry1].
  destruct (Z.ltb_spec x a); cbn [rx0 ry0 rx1 ry1];
  (destruct (Z.ltb_spec y b); cbn [rx0 ry0 rx1 ry1];
  (destruct (Z.gtb_spec (x + w) c); cbn [rx0 ry0 rx1 ry1];
  (destruct (Z.gtb_spec (y + h) d); cbn [rx0 ry0 rx1 ry1]; lia))).
Qed.

Lemma shape_inside d x y R : draw_wf d -> draws d = true ->
  ((forall px py, covers d x y px py = true -> inside R px py) <->
   rx0 R <= x /\ ry0 R <= y /\ x + draw_width d <= rx1 R /\ y + draw_height d <= ry1 R).
Proof.
  intros W D. split.
  - intros H.
    assert (C : (forall n, covers d x y (x + n) (y + n) = true -> rx0 R <= x + n < rx1 R /\ ry0 R <= y + n < ry1 R))
      by (intros n Hn; apply H in Hn; exact Hn).
    destruct d as [| |n|n|w h|[|] n]; try discriminate; cbn in W; unfold byte, nz_unsigned in *;
    cbn [draw_width draw_height]; unfold nz_unsigned.
    + assert (H1 := H x y). cbn in H1. unfold inside in H1. lia.
    + assert (H1 := H x y). assert (H2 := H (x + n) y). cbn in H1, H2. unfold inside, nz_unsigned in *. lia.
    + assert (H1 := H x y). assert (H2 := H x (y + n)). cbn in H1, H2. unfold inside, nz_unsigned in *. lia.
    + assert (H1 := H x y). assert (H2 := H (x + w) (y + h)). cbn in H1, H2. unfold inside, nz_unsigned in *. lia.
    + assert (H1 := H x (y + n)). assert (H2 := H (x + n) y). cbn in H1, H2. unfold inside, nz_unsigned in *. lia.
    + assert (H1 := H x y). assert (H2 := H (x + n) (y + n)). cbn in H1, H2. unfold inside, nz_unsigned in *. lia.
  - intros H px py Hc. destruct d as [| |n|n|w h|[|] n]; try discriminate; cbn in *; unfold inside, nz_unsigned, byte in *; lia.
Qed.

Lemma ops_rect_incl ops : forall p r R, Forall rop_wf ops ->
  (incl_rect (ops_rect ops p r) R <->
   incl_rect r R /\ forall x y, drawn ops p x y = true -> inside R x y).
Proof.
  induction ops as [|o ops IH]; intros p r R W; cbn [ops_rect drawn].
  - split; [intros H; split; [exact H|discriminate]|tauto].
  - inversion W as [|? ? Wo W']; subst. rewrite IH by assumption. unfold op_rect, shape_rect.
    destruct Wo as (_ & _ & _ & Wd).
    destruct (draws (odraw o)) eqn:D.
    + rewrite grow_incl. rewrite <- (shape_inside (odraw o) _ _ R Wd D). split.
      * intros ((H1 & H2) & H3). split; [exact H1|]. intros x y H. apply orb_true_iff in H. destruct H; auto.
      * intros (H1 & H2). split; [split|]; [exact H1| |]; intros x y H; apply H2; apply orb_true_iff; auto.
    + destruct (odraw o); try discriminate. cbn [covers orb]. tauto.
Qed.

Lemma incl_refl r : incl_rect r r.
Proof. unfold incl_rect. lia. Qed.

(** coordinates stay within 256 times the number of bytes *)
Lemma nz_signed_bound b : byte b -> -128 <= nz_signed b <= 128.
Proof. unfold byte, nz_signed. intros H. destruct (Z.ltb_spec b 128); lia. Qed.

Lemma pen_bound o p k : rop_wf o -> 0 <= k -> -k <= penx p <= k -> -k <= peny p <= k ->
  let k' := k + 256 * zlen (enc_op o) in
  -k' <= penx (pen_after o p) <= k' /\ -k' <= peny (pen_after o p) <= k' /\
  (forall px py, covers (odraw o) (penx (pen_at o p)) (peny (pen_at o p)) px py = true ->
     -k' <= px <= k' /\ -k' <= py <= k').
Proof.
  intros (_ & Wh & Wv & Wd) Hk Hx Hy k'.
  assert (Hk' : k + 256 * (1 + zlen (opt_bytes (ohmove o)) +
     zlen (match ovmove o with VMove b => [b] | _ => [] end) +
     zlen (match odraw o with DNone | DPixel => [] | DHorz n | DVert n | DDiag _ n => [n] | DRect w h => [w; h] end)) <= k').
  { unfold k', enc_op. rewrite zlen_cons, !zlen_app. pose proof (zlen_nonneg (opt_bytes (ocolor o))). lia. }
  unfold pen_after, pen_at. cbn [penx peny penc].
  assert (Bh : -128 * zlen (opt_bytes (ohmove o)) <= match ohmove o with None => 0 | Some b => nz_signed b end <= 128 * zlen (opt_bytes (ohmove o))).
  { destruct (ohmove o) as [z|]; cbn [opt_bytes]; rewrite ?zlen_cons, zlen_nil; [|lia].
    pose proof (nz_signed_bound _ Wh). lia. }
  assert (Bv : -128 * (1 + zlen (match ovmove o with VMove b => [b] | _ => [] end)) <=
     match ovmove o with VNone => 0 | VRow => 1 | VMove b => nz_signed b end <=
     128 * (1 + zlen (match ovmove o with VMove b => [b] | _ => [] end))).
  { destruct (ovmove o) as [| |b]; rewrite ?zlen_cons, zlen_nil; [lia|lia|].
    pose proof (nz_signed_bound _ Wv). lia. }
  pose proof (zlen_nonneg (opt_bytes (ohmove o))) as N1.
  pose proof (zlen_nonneg (match ovmove o with VMove b => [b] | _ => [] end)) as N2.
  revert Hk' Bh Bv N1 N2.
  generalize (zlen (opt_bytes (ohmove o))) (zlen (match ovmove o with VMove b => [b] | _ => [] end)).
  generalize (match ohmove o with None => 0 | Some b => nz_signed b end).
  generalize (match ovmove o with VNone => 0 | VRow => 1 | VMove b => nz_signed b end).
  intros dv dh lh lv Hk' Bh Bv N1 N2.
  destruct (odraw o) as [| |n|n|w h|[|] n]; cbn [draw_width draw_wf covers] in *;
    rewrite ?zlen_cons, ?zlen_nil in Hk'; unfold byte, nz_unsigned in *;
    (split; [lia|]); (split; [lia|]); intros px py Hc; try discriminate; lia.
Qed.

Lemma drawn_bound ops : forall p k, Forall rop_wf ops -> 0 <= k -> -k <= penx p <= k -> -k <= peny p <= k ->
  forall x y, drawn ops p x y = true ->
  - (k + 256 * zlen (enc_ops ops)) <= x <= k + 256 * zlen (enc_ops ops) /\
  - (k + 256 * zlen (enc_ops ops)) <= y <= k + 256 * zlen (enc_ops ops).
Proof.
  induction ops as [|o ops IH]; intros p k W Hk Hx Hy x y; cbn [drawn]; [discriminate|].
  inversion W as [|? ? Wo W']; subst. change (enc_ops (o :: ops)) with (enc_op o ++ enc_ops ops).
  rewrite zlen_app. destruct (pen_bound o p k Wo Hk Hx Hy) as (B1 & B2 & B3).
  pose proof (zlen_nonneg (enc_op o)). pose proof (zlen_nonneg (enc_ops ops)).
  intros H1. apply orb_true_iff in H1. destruct H1 as [H1|H1].
  - apply B3 in H1. lia.
  - apply (IH (pen_after o p) (k + 256 * zlen (enc_op o))) in H1; auto; lia.
Qed.

Definition int_coords (ops : list rop) : Prop :=
  forall x y, drawn ops pen0 x y = true -> MinInt <= x <= MaxInt /\ MinInt <= y <= MaxInt.

Lemma short_int_coords ops : Forall rop_wf ops -> zlen (enc_ops ops) <= 2 ^ 50 -> int_coords ops.
Proof.
  intros W Hl x y Hd. apply drawn_bound with (k := 0) in Hd; auto; try (cbn; lia).
  change (2 ^ 50) with 1125899906842624 in Hl. unfold MinInt, MaxInt. lia.
Qed.

Lemma rect_smallest ops x0 y0 : Forall rop_wf ops -> int_coords ops ->
  drawn ops pen0 x0 y0 = true ->
  smallest_rect (fun x y => drawn ops pen0 x y = true) (ops_rect ops pen0 rect0) /\
  rect_Empty (ops_rect ops pen0 rect0) = false.
Proof.
  intros W Hl Hd. destruct (proj1 (ops_rect_incl ops pen0 rect0 _ W) (incl_refl _)) as (H1 & H2).
  split; [split|].
  - exact H2.
  - intros R HR. apply ops_rect_incl; auto. split; [|exact HR].
    pose proof (HR _ _ Hd) as Hin. apply Hl in Hd.
    unfold incl_rect, inside, rect0 in *. cbn [rx0 ry0 rx1 ry1]. lia.
  - specialize (H2 _ _ Hd). unfold rect_Empty, inside in *. lia.
Qed.

Lemma rect_nothing ops : Forall rop_wf ops -> (forall x y, drawn ops pen0 x y = false) ->
  rect_Empty (ops_rect ops pen0 rect0) = true.
Proof.
  intros W Hn. assert (H : incl_rect (ops_rect ops pen0 rect0) rect0).
  { apply ops_rect_incl; auto. split; [apply incl_refl|]. intros x y H. rewrite Hn in H. discriminate. }
  unfold rect_Empty, incl_rect, rect0, MaxInt, MinInt in *. cbn [rx0 ry0 rx1 ry1] in *. lia.
Qed.

(** *** Pixels *)

Lemma insideb_spec r x y : insideb r x y = true <-> inside r x y.
Proof. unfold insideb, inside. lia. Qed.

Lemma idx_range w h a b : 0 <= a < w -> 0 <= b < h -> 0 <= b * w + a < w * h.
Proof. nia. Qed.
Lemma idx_inj w a b a' b' : 0 <= a < w -> 0 <= a' < w -> b * w + a = b' * w + a' -> a = a' /\ b = b'.
Proof.
  intros H H' E. assert (b = b'); [|split; [subst; lia|assumption]].
  rewrite (Z.div_unique (b * w + a) w b a), (Z.div_unique (b * w + a) w b' a'); [reflexivity|lia|lia|lia|lia].
Qed.

Lemma pixel_get m x y : alpha_ok m -> inside (Rect m) x y ->
  zget (Pix m) ((y - ry0 (Rect m)) * Stride m + (x - rx0 (Rect m))) = Ok (pixel m x y).
Proof.
  intros (H1 & H2 & H3 & H4 & _) (Hx & Hy). unfold pixel.
  replace (insideb (Rect m) x y) with true by (symmetry; apply insideb_spec; split; assumption).
  apply zget_nth. rewrite H4, H3. apply idx_range; lia.
Qed.
Lemma pixel_outside m x y : ~ inside (Rect m) x y -> pixel m x y = 0.
Proof. intros H. unfold pixel. destruct (insideb (Rect m) x y) eqn:E; [apply insideb_spec in E; contradiction|reflexivity]. Qed.

Definition alpha_upd (m : alpha) (x y v : Z) : alpha :=
  mkAlpha (upd (Pix m) (Z.to_nat ((y - ry0 (Rect m)) * Stride m + (x - rx0 (Rect m)))) v) (Stride m) (Rect m).

Lemma bytes_upd l n v : bytes l -> byte v -> bytes (upd l n v).
Proof.
  intros H Hv. revert n. induction H as [|x l Hx Hl IH]; intros n; destruct n; cbn [upd];
    try constructor; auto. apply IH.
Qed.

Lemma alpha_upd_ok m x y v : alpha_ok m -> inside (Rect m) x y -> byte v ->
  alpha_ok (alpha_upd m x y v) /\
  forall a b, pixel (alpha_upd m x y v) a b = if (a =? x) && (b =? y) then v else pixel m a b.
Proof.
  intros Hm Hin Hv. assert (Hm' := Hm). destruct Hm' as (H1 & H2 & H3 & H4 & H5).
  assert (OK' : alpha_ok (alpha_upd m x y v)).
  { unfold alpha_ok, alpha_upd. cbn [Rect Stride Pix]. rewrite zlen_upd. splits; auto. apply bytes_upd; auto. }
  split; [exact OK'|]. intros a b.
  destruct (insideb (Rect m) a b) eqn:E.
  - apply insideb_spec in E.
    pose proof (pixel_get (alpha_upd m x y v) a b OK' E) as G.
    pose proof (pixel_get m a b Hm E) as G0.
    unfold alpha_upd at 1 2 3 4 in G. cbn [Rect Stride Pix] in G.
    assert (R : 0 <= (y - ry0 (Rect m)) * Stride m + (x - rx0 (Rect m)) < zlen (Pix m)).
    { rewrite H4, H3. destruct Hin. apply idx_range; lia. }
    destruct ((a =? x) && (b =? y)) eqn:EE.
    + assert (a = x /\ b = y) as (-> & ->) by lia. rewrite zget_upd_same in G by exact R. congruence.
    + rewrite zget_upd_other in G; [congruence|lia|]. intros C. rewrite H3 in C.
      destruct Hin, E. apply idx_inj in C; lia.
  - assert (NI : ~ inside (Rect m) a b) by (intros C; apply insideb_spec in C; congruence).
    rewrite (pixel_outside (alpha_upd m x y v)) by exact NI. rewrite pixel_outside by exact NI.
    destruct ((a =? x) && (b =? y)) eqn:EE; [|reflexivity].
    assert (a = x /\ b = y) as (-> & ->) by lia. contradiction.
Qed.

(** m' is m with the positions in C set to v *)
Definition painted (m m' : alpha) (C : Z -> Z -> bool) (v : Z) : Prop :=
  alpha_ok m' /\ Rect m' = Rect m /\
  forall a b, pixel m' a b = if insideb (Rect m) a b && C a b then v else pixel m a b.

Lemma painted_none m C v : alpha_ok m -> (forall a b, C a b = false) -> painted m m C v.
Proof. intros H HC. unfold painted. splits; auto. intros a b. rewrite HC, andb_false_r. reflexivity. Qed.

Lemma painted_trans m m1 m2 C1 C2 C v : painted m m1 C1 v -> painted m1 m2 C2 v ->
  (forall a b, C a b = C1 a b || C2 a b) -> painted m m2 C v.
Proof.
  intros (H1 & H2 & H3) (G1 & G2 & G3) HC. unfold painted. splits; auto; [congruence|].
  intros a b. rewrite G3, H2, H3, HC. destruct (insideb (Rect m) a b), (C1 a b), (C2 a b); reflexivity.
Qed.

Lemma SetAlpha_spec m x y v : alpha_ok m -> byte v ->
  exists m', SetAlpha m x y v = Ok m' /\ painted m m' (fun a b => (a =? x) && (b =? y)) v.
Proof.
  intros Hm Hv. unfold SetAlpha. fold (insideb (Rect m) x y).
  destruct (insideb (Rect m) x y) eqn:E.
  - apply insideb_spec in E as Hin. assert (Hm' := Hm). destruct Hm' as (H1 & H2 & H3 & H4 & H5).
    rewrite zset_ok. 2:{ rewrite H4, H3. destruct Hin. apply idx_range; lia. }
    cbn [bind]. eexists. split; [reflexivity|]. destruct (alpha_upd_ok m x y v Hm Hin Hv) as (A & B).
    unfold painted. splits; [exact A|reflexivity|]. intros a b.
    change (pixel (alpha_upd m x y v) a b = if insideb (Rect m) a b && ((a =? x) && (b =? y)) then v else pixel m a b).
    rewrite B. destruct ((a =? x) && (b =? y)) eqn:EE.
    + assert (a = x /\ b = y) as (-> & ->) by lia. rewrite E. reflexivity.
    + rewrite andb_false_r. reflexivity.
  - exists m. split; [reflexivity|]. unfold painted. splits; auto. intros a b.
    destruct ((a =? x) && (b =? y)) eqn:EE.
    + assert (a = x /\ b = y) as (-> & ->) by lia. rewrite E. reflexivity.
    + rewrite andb_false_r. reflexivity.
Qed.

Lemma draw_desc_spec n : forall m x y v, alpha_ok m -> byte v ->
  exists m', draw_desc n m x y v = Ok (m', x + Z.of_nat n, y + Z.of_nat n) /\
    painted m m' (fun a b => (x <=? a) && (a <? x + Z.of_nat n) && (b =? y + (a - x))) v.
Proof.
  induction n as [|n IH]; intros m x y v Hm Hv; cbn [draw_desc].
  - exists m. split; [okpair|]. apply painted_none; auto. intros; lia.
  - destruct (SetAlpha_spec m x y v Hm Hv) as (m1 & E1 & P1). rewrite E1. cbn [bind].
    destruct (IH m1 (x + 1) (y + 1) v (proj1 P1) Hv) as (m2 & E2 & P2). exists m2. rewrite E2.
    split; [okpair|].
    eapply painted_trans; [exact P1|exact P2|]. intros a b. cbv beta. lia.
Qed.
Lemma draw_asc_spec n : forall m x y v, alpha_ok m -> byte v ->
  exists m', draw_asc n m x y v = Ok (m', x + Z.of_nat n, y - Z.of_nat n) /\
    painted m m' (fun a b => (x <=? a) && (a <? x + Z.of_nat n) && (b =? y - 1 - (a - x))) v.
Proof.
  induction n as [|n IH]; intros m x y v Hm Hv; cbn [draw_asc].
  - exists m. split; [okpair|]. apply painted_none; auto. intros; lia.
  - destruct (SetAlpha_spec m x (y - 1) v Hm Hv) as (m1 & E1 & P1). rewrite E1. cbn [bind].
    destruct (IH m1 (x + 1) (y - 1) v (proj1 P1) Hv) as (m2 & E2 & P2). exists m2. rewrite E2.
    split; [okpair|].
    eapply painted_trans; [exact P1|exact P2|]. intros a b. cbv beta. lia.
Qed.
Lemma draw_row_spec n : forall m x y v, alpha_ok m -> byte v ->
  exists m', draw_row n m x y v = Ok m' /\
    painted m m' (fun a b => (x <=? a) && (a <? x + Z.of_nat n) && (b =? y)) v.
Proof.
  induction n as [|n IH]; intros m x y v Hm Hv; cbn [draw_row].
  - exists m. split; [reflexivity|]. apply painted_none; auto. intros; lia.
  - destruct (SetAlpha_spec m x y v Hm Hv) as (m1 & E1 & P1). rewrite E1. cbn [bind].
    destruct (IH m1 (x + 1) y v (proj1 P1) Hv) as (m2 & E2 & P2). exists m2.
    split; [exact E2|]. eapply painted_trans; [exact P1|exact P2|]. intros a b. cbv beta. lia.
Qed.
Lemma draw_rows_spec n w : forall m x y v, alpha_ok m -> byte v ->
  exists m', draw_rows n w m x y v = Ok m' /\
    painted m m' (fun a b => (x <=? a) && (a <? x + Z.of_nat w) && (y <=? b) && (b <? y + Z.of_nat n)) v.
Proof.
  induction n as [|n IH]; intros m x y v Hm Hv; cbn [draw_rows].
  - exists m. split; [reflexivity|]. apply painted_none; auto. intros; lia.
  - destruct (draw_row_spec w m x y v Hm Hv) as (m1 & E1 & P1). rewrite E1. cbn [bind].
    destruct (IH m1 x (y + 1) v (proj1 P1) Hv) as (m2 & E2 & P2). exists m2.
    split; [exact E2|]. eapply painted_trans; [exact P1|exact P2|]. intros a b. cbv beta. lia.
Qed.

Lemma painted_ext m m' C C' v : painted m m' C v -> (forall a b, C a b = C' a b) -> painted m m' C' v.
Proof. intros (H1 & H2 & H3) HC. unfold painted. splits; auto. intros a b. rewrite H3, HC. reflexivity. Qed.

(** the drawing of one decoded operation *)
Lemma raster_draw_spec l c q m x y v d q' : bytes l -> suffix l q -> alpha_ok m -> byte v ->
  dec_draw (has c 16) (has c 32) (has c 64) (has c 128) q = Some (d, q') ->
  exists m', raster_draw l c m (pos l q) v x y = Ok (pos l q', m', x + draw_width d, y) /\
    painted m m' (covers d x y) v.
Proof.
  intros Hb Hq Hm Hv E. unfold raster_draw. destruct (has c 16).
  - unfold dec_draw in E. destruct (has c 128); [discriminate|]. destruct (has c 32); [|discriminate].
    cbn [negb] in *. rewrite next_byte_spec by assumption. destruct q as [|b q]; [discriminate|].
    inversion E; subst d q'. cbn [bind]. cbv zeta.
    assert (Bb : byte b) by (pose proof (suffix_bytes _ _ Hb Hq) as H; apply bytes_cons in H; tauto).
    unfold byte in Bb. destruct (has c 64).
    + destruct (draw_asc_spec (Z.to_nat (b + 1)) m x (y + (b + 1)) v Hm Hv) as (m' & E1 & P). rewrite E1.
      cbn [bind]. exists m'. split; [unfold draw_width, nz_unsigned; okpair|].
      eapply painted_ext; [exact P|]. intros a' b'. unfold covers, nz_unsigned. lia.
    + destruct (draw_desc_spec (Z.to_nat (b + 1)) m x y v Hm Hv) as (m' & E1 & P). rewrite E1.
      cbn [bind]. exists m'. split; [unfold draw_width, nz_unsigned; okpair|].
      eapply painted_ext; [exact P|]. intros a' b'. unfold covers, nz_unsigned. lia.
  - pose proof (read_sizes_spec l c q Hq) as M. rewrite E in M. cbn [opt_out] in M. rewrite M. cbn [bind].
    assert (Wd : draw_wf d).
    { pose proof (suffix_bytes _ _ Hb Hq) as B. clear - E B. unfold dec_draw in E.
      destruct (has c 32), (has c 64), (has c 128); try discriminate;
      try (inversion E; subst; exact I);
      (destruct q as [|b q]; [discriminate|]); apply bytes_cons in B; try (inversion E; subst; cbn; tauto);
      (destruct q as [|b' q]; [discriminate|]); destruct B as (B1 & B2); apply bytes_cons in B2;
      inversion E; subst; cbn; tauto. }
    destruct (draws d) eqn:D.
    + destruct (draw_rows_spec (Z.to_nat (draw_height d)) (Z.to_nat (draw_width d)) m x y v Hm Hv) as (m' & E1 & P).
      rewrite E1. cbn [bind]. exists m'. split; [reflexivity|]. eapply painted_ext; [exact P|].
      intros a b. assert (ND : forall f n, d <> DDiag f n).
      { intros f n ->. unfold dec_draw in E. destruct (has c 32), (has c 64), (has c 128); try discriminate;
        (destruct q as [|z q]; try discriminate); (destruct q as [|z' q]; try discriminate). }
      destruct d as [| |n|n|w h|f n]; try discriminate; cbn [draw_width draw_height covers draw_wf] in *;
        unfold nz_unsigned, byte in *; try lia. exfalso. eapply ND; reflexivity.
    + destruct d; try discriminate. exists m. cbn [draw_width]. rewrite Z.add_0_r. split; [reflexivity|].
      apply painted_none; auto.
Qed.

Lemma raster_step fuel l q m p o q' : bytes l -> suffix l q -> q <> [] -> alpha_ok m -> byte (penc p) ->
  dec q = Some (o, q') ->
  exists m', raster_loop (S fuel) l m (pos l q + 1) (penc p) (penx p) (peny p) =
      match q' with
      | [] => Ok m'
      | _ => raster_loop fuel l m' (pos l q' + 1) (penc (pen_after o p)) (penx (pen_after o p)) (peny (pen_after o p))
      end /\
    painted m m' (covers (odraw o) (penx (pen_at o p)) (peny (pen_at o p))) (penc (pen_at o p)).
Proof.
  intros Hb Hq Hne Hm Hc E. destruct (dec_spec q o q' (suffix_bytes _ _ Hb Hq) E) as (_ & Wo & _).
  destruct q as [|c q]; [congruence|]. cbn [raster_loop]. rewrite next_ctrl_spec by assumption.
  cbn [bind dec] in *. apply suffix_cons in Hq as Hq0.
  replace (pos l (c :: q) + 1) with (pos l q) by (unfold pos; rewrite zlen_cons; lia).
  assert (C : match dec_opt (has c 1) q with
     | None => True
     | Some (o, q') => (if has c 1 then next_byte l (pos l q) else Ok (pos l q, penc p)) =
         Ok (pos l q', match o with None => penc p | Some b => b end)
     end).
  { unfold dec_opt. destruct (has c 1); [|reflexivity]. rewrite next_byte_spec by assumption.
    destruct q; [exact I|reflexivity]. }
  destruct (dec_opt (has c 1) q) as [(col & q1)|] eqn:E0; cbn [obind] in E; [|discriminate].
  rewrite C. clear C. cbn [bind]. pose proof (dec_opt_suffix Hq0 E0) as Hq1.
  pose proof (read_moves_spec l c q1 (penx p) (peny p) Hb Hq1) as M.
  destruct (dec_opt (has c 2) q1) as [(h & q2)|] eqn:E1; cbn [obind] in *; [|discriminate].
  pose proof (dec_opt_suffix Hq1 E1) as Hq2.
  destruct (dec_v (has c 4) (has c 8) q2) as [(v & q3)|] eqn:E2; cbn [obind] in *; [|discriminate].
  pose proof (dec_v_suffix Hq2 E2) as Hq3. cbn [opt_out] in M. rewrite M. cbn [bind]. clear M.
  destruct (dec_draw (has c 16) (has c 32) (has c 64) (has c 128) q3) as [(d & q4)|] eqn:E3; cbn [obind] in E; [|discriminate].
  inversion E; subst o q4. 
  assert (Hcol : byte (match col with None => penc p | Some b => b end)).
  { destruct Wo as (Wc & _). cbn in Wc. destruct col; auto. }
  destruct (raster_draw_spec l c q3 m (penx p + hstep h) (peny p + vstep v)
     (match col with None => penc p | Some b => b end) d q' Hb Hq3 Hm Hcol E3) as (m' & Ed & P).
  exists m'. split; [|exact P]. rewrite Ed. cbn [bind]. cbv zeta. rewrite end_test. reflexivity.
Qed.

Lemma raster_run ops : forall fuel l m p, bytes l -> ops <> [] -> Forall rop_wf ops -> suffix l (enc_ops ops) ->
  alpha_ok m -> byte (penc p) -> (length (enc_ops ops) <= fuel)%nat ->
  exists m', raster_loop fuel l m (pos l (enc_ops ops) + 1) (penc p) (penx p) (peny p) = Ok m' /\
    alpha_ok m' /\ Rect m' = Rect m /\
    forall a b, pixel m' a b = if insideb (Rect m) a b then value_at ops p a b (pixel m a b) else pixel m a b.
Proof.
  induction ops as [|o ops IH]; intros fuel l m p Hb Hne W Hs Hm Hc Hf; [congruence|].
  pose proof (enc_ops_nonempty o ops) as NE.
  change (enc_ops (o :: ops)) with (enc_op o ++ enc_ops ops) in *.
  destruct fuel as [|fuel].
  { exfalso. apply NE. apply length_zero_iff_nil. lia. }
  inversion W as [|? ? Wo W']; subst.
  destruct (raster_step fuel l _ m p o (enc_ops ops) Hb Hs NE Hm Hc (dec_enc _ _)) as (m1 & E & (P1 & P2 & P3)).
  rewrite E. destruct ops as [|o' ops].
  - exists m1. splits; auto. intros a b. cbn [value_at]. rewrite P3.
    destruct (insideb (Rect m) a b), (covers (odraw o) (penx (pen_at o p)) (peny (pen_at o p)) a b); reflexivity.
  - pose proof (enc_ops_nonempty o' ops) as NE'. destruct (enc_ops (o' :: ops)) eqn:E'; [congruence|].
    rewrite <- E' in *.
    destruct (IH fuel l m1 (pen_after o p)) as (m2 & E2 & A2 & R2 & P4); auto.
    + discriminate.
    + eapply suffix_app; eauto.
    + destruct Wo as (Wc & _). unfold pen_after, pen_at. cbn [penc]. destruct (ocolor o); auto.
    + destruct (enc_op_nonempty o) as (c & s & Eo). rewrite Eo, app_length in Hf. cbn [length] in Hf. lia.
    + exists m2. splits; auto; [congruence|]. intros a b. rewrite P4, P2, P3.
      change (value_at (o :: o' :: ops) p a b (pixel m a b)) with
        (value_at (o' :: ops) (pen_after o p) a b
          (if covers (odraw o) (penx (pen_at o p)) (peny (pen_at o p)) a b then penc (pen_at o p) else pixel m a b)).
      destruct (insideb (Rect m) a b); reflexivity.
Qed.

Lemma value_undrawn ops : forall p a b v, drawn ops p a b = false -> value_at ops p a b v = v.
Proof.
  induction ops as [|o ops IH]; intros p a b v; cbn [drawn value_at]; [reflexivity|].
  intros H. apply orb_false_iff in H. destruct H as (H1 & H2). rewrite H1. apply IH. exact H2.
Qed.

Lemma nth_repeat_0 n k : nth k (repeat 0 n) 0 = 0.
Proof. revert k; induction n as [|n IH]; intros [|k]; cbn; auto. Qed.

Lemma NewAlpha_spec r : rect_Empty r = false ->
  (rx1 r - rx0 r) * (ry1 r - ry0 r) <= maxAlloc ->
  exists m, NewAlpha r = Ok m /\ alpha_ok m /\ Rect m = r /\ forall a b, pixel m a b = 0.
Proof.
  intros He Ha. unfold rect_Empty in He. unfold NewAlpha. cbv zeta.
  replace ((rx1 r - rx0 r <? 0) || (ry1 r - ry0 r <? 0) || ((rx1 r - rx0 r) * (ry1 r - ry0 r) >? maxAlloc)) with false by lia.
  eexists. split; [reflexivity|]. split; [|split; [reflexivity|]].
  - unfold alpha_ok. cbn [Rect Stride Pix]. splits; try lia.
    + rewrite zlen_repeat. nia.
    + apply Forall_forall. intros x Hx. apply repeat_spec in Hx. subst. unfold byte. lia.
  - intros a b. unfold pixel. cbn [Rect Stride Pix]. rewrite nth_repeat_0. destruct (insideb r a b); reflexivity.
Qed.

Lemma drawn_dec ops p : Forall rop_wf ops ->
  {forall x y, drawn ops p x y = false} + {exists x y, drawn ops p x y = true}.
Proof.
  revert p. induction ops as [|o ops IH]; intros p W; [left; reflexivity|].
  destruct (draws (odraw o)) eqn:D.
  - right. exists (penx (pen_at o p)). inversion W as [|? ? (_ & _ & _ & Wd) _]; subst.
    destruct (odraw o) as [| |n|n|w h|[|] n] eqn:Eo; try discriminate; cbn [drawn]; rewrite Eo;
      cbn [draw_wf] in Wd; unfold byte in Wd;
      match goal with
      | |- exists y, covers (DDiag true ?n) _ _ _ _ || _ = true => exists (peny (pen_at o p) + nz_unsigned n - 1)
      | _ => exists (peny (pen_at o p))
      end; apply orb_true_iff; left; unfold covers, nz_unsigned; lia.
  - assert (W' : Forall rop_wf ops) by (inversion W; auto).
    destruct (IH (pen_after o p) W') as [H|H].
    + left. intros x y. cbn [drawn]. rewrite H. destruct (odraw o); try discriminate. reflexivity.
    + right. destruct H as (x & y & H). exists x, y. cbn [drawn]. rewrite H. apply orb_true_r.
Qed.

Lemma rasterize_ops ops : Forall rop_wf ops -> int_coords ops ->
  ((forall x y, drawn ops pen0 x y = false) /\ Rasterize (enc_ops ops) = Ok None) \/
  ((exists x y, drawn ops pen0 x y = true) /\ exists r,
     smallest_rect (fun x y => drawn ops pen0 x y = true) r /\
     ((rect_area r > maxAlloc /\ Rasterize (enc_ops ops) = Panic) \/
      (exists m, Rasterize (enc_ops ops) = Ok (Some m) /\ alpha_ok m /\ Rect m = r /\
         forall x y, pixel m x y = value_at ops pen0 x y 0))).
Proof.
  intros W Hl. unfold Rasterize. rewrite (compute_rect_ops ops W). cbn [bind].
  destruct (drawn_dec ops pen0 W) as [N|D].
  - left. split; [exact N|]. rewrite rect_nothing by assumption. reflexivity.
  - right. split; [exact D|]. destruct D as (x & y & D).
    destruct (rect_smallest ops x y W Hl D) as (S & E). exists (ops_rect ops pen0 rect0). split; [exact S|].
    rewrite E. destruct (Z_le_gt_dec (rect_area (ops_rect ops pen0 rect0)) maxAlloc) as [A|A].
    + right. destruct (NewAlpha_spec _ E A) as (m & Em & Am & Rm & Pm). rewrite Em. cbn [bind].
      destruct (raster_run ops (length (enc_ops ops)) (enc_ops ops) m pen0) as (m' & E' & A' & R' & P'); auto.
      * apply enc_ops_bytes; auto.
      * intros ->. cbn in D. discriminate.
      * apply suffix_refl.
      * unfold byte; cbn; lia.
      * unfold pos in E'. replace (zlen (enc_ops ops) - zlen (enc_ops ops) - 1 + 1) with 0 in E' by lia.
        cbn [penx peny penc pen0] in E'. rewrite E'. cbn [bind]. exists m'. split; [reflexivity|].
        split; [exact A'|]. split; [congruence|]. intros a b. rewrite P', Pm.
        destruct (insideb (Rect m) a b) eqn:Ei; [reflexivity|]. symmetry. apply value_undrawn.
        destruct (drawn ops pen0 a b) eqn:Ed; [|reflexivity]. exfalso. apply (proj1 S) in Ed.
        rewrite Rm in Ei. apply insideb_spec in Ed. congruence.
    + left. split; [exact A|]. unfold rect_area in A. unfold NewAlpha. cbv zeta.
      replace ((rx1 (ops_rect ops pen0 rect0) - rx0 (ops_rect ops pen0 rect0)) * (ry1 (ops_rect ops pen0 rect0) - ry0 (ops_rect ops pen0 rect0)) >? maxAlloc) with true by lia.
      rewrite orb_true_r. reflexivity.
Qed.

Lemma rasterize_cases s : bytes s ->
  (exists ops, Forall rop_wf ops /\ s = enc_ops ops) \/
  ((exists e, computeRasterOpsRect s = Err e) /\ exists e, Rasterize s = Err e).
Proof.
  intros Hb. destruct (compute_rect_cases s Hb) as [H|(e & E)]; [left; exact H|].
  right. split; [exists e; exact E|]. exists e. unfold Rasterize. rewrite E. reflexivity.
Qed.

(** size of the drawn area *)
Lemma area_bound ops r : Forall rop_wf ops -> zlen (enc_ops ops) <= 30000 ->
  (exists x y, drawn ops pen0 x y = true) ->
  smallest_rect (fun x y => drawn ops pen0 x y = true) r -> rect_area r <= maxAlloc.
Proof.
  intros W Hl (x & y & D) (Hi & Hs).
  pose proof (Hs (mkRect (- (256 * 30000)) (- (256 * 30000)) (256 * 30000 + 1) (256 * 30000 + 1))) as H.
  pose proof (Hi _ _ D) as Hin.
  assert (incl_rect r (mkRect (- (256 * 30000)) (- (256 * 30000)) (256 * 30000 + 1) (256 * 30000 + 1))) as HI.
  { apply H. intros a b Hab. apply drawn_bound with (k := 0) in Hab; auto; try (cbn; lia).
    unfold inside. cbn [rx0 ry0 rx1 ry1]. lia. }
  unfold rect_area, incl_rect, inside, maxAlloc in *. cbn [rx0 ry0 rx1 ry1] in HI. nia.
Qed.
