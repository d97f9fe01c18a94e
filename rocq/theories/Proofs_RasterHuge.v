(** An input for which Rasterize asks for more memory than a slice may have. *)
From Verif Require Import Base BaseFacts Model_Mask Spec_Mask Proofs_Raster.

Definition pix_op : rop := mkOp None None VNone DPixel.
Definition move_op : rop := mkOp None (Some 127) (VMove 127) DNone.
Definition far_ops (n : nat) : list rop := pix_op :: repeat move_op n ++ [pix_op].

Lemma far_wf n : Forall rop_wf (far_ops n).
Proof.
  assert (W : rop_wf pix_op) by (unfold rop_wf; cbn; splits; exact I).
  constructor; [exact W|]. apply Forall_app. split; [|constructor; auto].
  apply Forall_forall. intros o Ho. apply repeat_spec in Ho. subst o.
  unfold rop_wf, byte; cbn [ocolor ohmove ovmove odraw move_op opt_wf vmove_wf draw_wf]; splits; try exact I; unfold byte; lia.
Qed.

Lemma far_len n : zlen (enc_ops (far_ops n)) = 3 * Z.of_nat n + 2.
Proof.
  unfold far_ops. change (enc_ops (pix_op :: repeat move_op n ++ [pix_op])) with (enc_op pix_op ++ enc_ops (repeat move_op n ++ [pix_op])).
  rewrite zlen_app. change (zlen (enc_op pix_op)) with 1.
  induction n as [|n IH].
  - reflexivity.
  - cbn [repeat app]. change (enc_ops (move_op :: repeat move_op n ++ [pix_op])) with (enc_op move_op ++ enc_ops (repeat move_op n ++ [pix_op])).
    rewrite zlen_app. change (zlen (enc_op move_op)) with 3. lia.
Qed.

Lemma far_drawn n : forall p,
  drawn (repeat move_op n ++ [pix_op]) p (penx p + 128 * Z.of_nat n) (peny p + 128 * Z.of_nat n) = true.
Proof.
  induction n as [|n IH]; intros p.
  - cbn [repeat app drawn pix_op odraw pen_at ohmove ovmove penx peny covers]. rewrite orb_false_r. lia.
  - cbn [repeat app drawn]. apply orb_true_iff. right.
    specialize (IH (pen_after move_op p)). cbn [pen_after pen_at move_op ohmove ovmove odraw draw_width penx peny] in IH.
    change (nz_signed 127) with 128 in IH.
    replace (penx p + 128 * Z.of_nat (S n)) with (penx p + 128 + 0 + 128 * Z.of_nat n) by lia.
    replace (peny p + 128 * Z.of_nat (S n)) with (peny p + 128 + 128 * Z.of_nat n) by lia. exact IH.
Qed.

Lemma rasterize_huge : exists s, bytes s /\ zlen s = 393218 /\
  (exists r, computeRasterOpsRect s = Ok r) /\ Rasterize s = Panic.
Proof.
  assert (exists n, Z.of_nat n = 131072) as (n & Hn) by (exists (Z.to_nat 131072); lia).
  exists (enc_ops (far_ops n)). pose proof (far_wf n) as W. pose proof (far_len n) as L.
  split; [apply enc_ops_bytes; exact W|]. split; [lia|].
  split; [eexists; apply compute_rect_ops; exact W|].
  assert (D0 : drawn (far_ops n) pen0 0 0 = true) by reflexivity.
  assert (D1 : drawn (far_ops n) pen0 (1 + 128 * Z.of_nat n) (128 * Z.of_nat n) = true).
  { unfold far_ops. cbn [drawn]. apply orb_true_iff. right. apply (far_drawn n (pen_after pix_op pen0)). }
  destruct (rasterize_ops (far_ops n) W) as [(N & _)|(_ & r & (S & _) & [(_ & E)|(m & E & Am & Rm & _)])].
  - apply short_int_coords; [exact W|]. change (2 ^ 50) with 1125899906842624. lia.
  - rewrite N in D0. discriminate.
  - exact E.
  - exfalso. pose proof (S _ _ D0) as I0. pose proof (S _ _ D1) as I1. unfold inside in *.
    (* the mask's size is bounded by maxAlloc *)
    unfold Rasterize in E. rewrite (compute_rect_ops _ W) in E. cbn [bind] in E.
    destruct (rect_Empty _); [discriminate|].
    assert (HR : forall r0 im, NewAlpha r0 = Ok im -> rect_area r0 <= maxAlloc /\ Rect im = r0).
    { intros r0 im. unfold NewAlpha. cbv zeta. fold (rect_area r0).
      destruct ((rx1 r0 - rx0 r0 <? 0) || (ry1 r0 - ry0 r0 <? 0) || (rect_area r0 >? maxAlloc)) eqn:Eb; [discriminate|].
      intros [= <-]. split; [lia|reflexivity]. }
    destruct (NewAlpha (ops_rect (far_ops n) pen0 rect0)) as [im| | |] eqn:En; try discriminate.
    apply HR in En. destruct En as (En & _).
    assert (R' : smallest_rect (fun x y => drawn (far_ops n) pen0 x y = true) (ops_rect (far_ops n) pen0 rect0)).
    { eapply rect_smallest; eauto. apply short_int_coords; [exact W|]. change (2 ^ 50) with 1125899906842624. lia. }
    destruct R' as (R' & _). apply R' in D0, D1. unfold inside, rect_area, maxAlloc in *. nia.
Qed.

(** *** Statements about byte strings *)

Lemma rasterize_long s : bytes s -> zlen s <= 2 ^ 50 ->
  (exists e, computeRasterOpsRect s = Err e) /\ (exists e, Rasterize s = Err e) \/
  exists r, computeRasterOpsRect s = Ok r /\
    ((exists o, Rasterize s = Ok o) \/ Rasterize s = Panic /\ rect_area r > maxAlloc).
Proof.
  intros Hb Hl. destruct (rasterize_cases s Hb) as [(ops & W & ->)|H]; [|left; exact H].
  right. pose proof (compute_rect_ops ops W) as Er. pose proof (short_int_coords ops W Hl) as IC.
  eexists. split; [exact Er|].
  destruct (rasterize_ops ops W IC) as [(N & E)|((x & y & D) & r & S & [(A & E)|(m & E & _)])]; eauto.
  right. split; [exact E|]. destruct (rect_smallest ops x y W IC D) as (S' & _).
  assert (r = ops_rect ops pen0 rect0); [|congruence].
  destruct S as (S1 & S2), S' as (S3 & S4). pose proof (S2 _ S3). pose proof (S4 _ S1).
  destruct r as [a b c d], (ops_rect ops pen0 rect0) as [a' b' c' d']. unfold incl_rect in *. cbn [rx0 ry0 rx1 ry1] in *. f_equal; lia.
Qed.

Lemma rasterize_accepts ops : Forall rop_wf ops -> zlen (enc_ops ops) <= 30000 ->
  exists o, Rasterize (enc_ops ops) = Ok o.
Proof.
  intros W Hl. assert (IC : int_coords ops).
  { apply short_int_coords; [exact W|]. change (2 ^ 50) with 1125899906842624. lia. }
  destruct (rasterize_ops ops W IC) as [(N & E)|(D & r & S & [(A & E)|(m & E & _)])]; eauto.
  pose proof (area_bound ops r W Hl D S). lia.
Qed.

Lemma rasterize_total s : bytes s -> zlen s <= 30000 ->
  (exists e, computeRasterOpsRect s = Err e) /\ (exists e, Rasterize s = Err e) \/
  (exists r, computeRasterOpsRect s = Ok r) /\ (exists o, Rasterize s = Ok o).
Proof.
  intros Hb Hl. destruct (rasterize_cases s Hb) as [(ops & W & ->)|H]; [|left; exact H].
  right. split; [eexists; apply compute_rect_ops; exact W|]. apply rasterize_accepts; assumption.
Qed.

Lemma rasterize_image s m : bytes s -> zlen s <= 2 ^ 50 -> Rasterize s = Ok (Some m) ->
  exists ops, Forall rop_wf ops /\ s = enc_ops ops /\
    smallest_rect (fun x y => drawn ops pen0 x y = true) (Rect m) /\
    (forall x y, pixel m x y = value_at ops pen0 x y 0).
Proof.
  intros Hb Hl E. destruct (rasterize_cases s Hb) as [(ops & W & ->)|(_ & e & E')]; [|congruence].
  exists ops. split; [exact W|]. split; [reflexivity|].
  destruct (rasterize_ops ops W (short_int_coords ops W Hl)) as [(N & E')|(D & r & S & [(A & E')|(m' & E' & Am & Rm & Pm)])]; try congruence.
  rewrite E' in E. injection E as ->. subst r. split; assumption.
Qed.

Lemma rasterize_nothing s : bytes s -> zlen s <= 2 ^ 50 ->
  (Rasterize s = Ok None <->
   exists ops, Forall rop_wf ops /\ s = enc_ops ops /\ forall x y, drawn ops pen0 x y = false).
Proof.
  intros Hb Hl. split.
  - intros E. destruct (rasterize_cases s Hb) as [(ops & W & ->)|(_ & e & E')]; [|congruence].
    exists ops. split; [exact W|]. split; [reflexivity|].
    destruct (rasterize_ops ops W (short_int_coords ops W Hl)) as [(N & E')|(D & r & S & [(A & E')|(m' & E' & Am & Rm & Pm)])]; try congruence.
  - intros (ops & W & -> & N).
    destruct (rasterize_ops ops W (short_int_coords ops W Hl)) as [(_ & E')|((x & y & D) & _)]; [exact E'|].
    rewrite N in D. discriminate.
Qed.
