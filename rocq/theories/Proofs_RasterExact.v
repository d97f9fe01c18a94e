(** When exactly Rasterize panics. *)
From Verif Require Import Base BaseFacts Model_Mask Spec_Mask Proofs_Raster Proofs_RasterHuge.

Lemma rasterize_panics s : bytes s -> zlen s <= 2 ^ 50 ->
  (Rasterize s = Panic <-> exists ops r, Forall rop_wf ops /\ s = enc_ops ops /\ (exists x y, drawn ops pen0 x y = true) /\
    smallest_rect (fun x y => drawn ops pen0 x y = true) r /\ rect_area r > maxAlloc).
Proof.
  intros Hb Hl. split.
  - intros E. destruct (rasterize_cases s Hb) as [(ops & W & ->)|(_ & e & E')]; [|congruence].
    destruct (rasterize_ops ops W (short_int_coords ops W Hl)) as [(N & E')|(D & r & S & [(A & E')|(m' & E' & _)])]; try congruence.
    exists ops, r. auto.
  - intros (ops & r & W & -> & (x & y & D) & R1 & A).
    destruct (rect_smallest ops x y W (short_int_coords ops W Hl) D) as (R2 & E).
    assert (r = ops_rect ops pen0 rect0).
    { destruct R1 as (S1 & S2), R2 as (S3 & S4). pose proof (S2 _ S3). pose proof (S4 _ S1).
      destruct r as [a b c d], (ops_rect ops pen0 rect0) as [a' b' c' d']. unfold incl_rect in *. cbn [rx0 ry0 rx1 ry1] in *. f_equal; lia. }
    subst r. unfold Rasterize. rewrite (compute_rect_ops ops W). cbn [bind]. rewrite E. unfold NewAlpha, rect_area in *. cbv zeta.
    destruct (Z.gtb_spec ((rx1 (ops_rect ops pen0 rect0) - rx0 (ops_rect ops pen0 rect0)) * (ry1 (ops_rect ops pen0 rect0) - ry0 (ops_rect ops pen0 rect0))) maxAlloc); [|lia].
    rewrite orb_true_r. reflexivity.
Qed.
Lemma rasterize_fails s : bytes s -> zlen s <= 2 ^ 50 ->
  ((exists e, Rasterize s = Err e) <-> ~ exists ops, Forall rop_wf ops /\ s = enc_ops ops) /\ Rasterize s <> Hang.
Proof.
  intros Hb Hl.
  assert (W : forall ops, Forall rop_wf ops -> zlen (enc_ops ops) <= 2 ^ 50 -> (forall e, Rasterize (enc_ops ops) <> Err e) /\ Rasterize (enc_ops ops) <> Hang).
  { intros ops W L. destruct (rasterize_ops ops W (short_int_coords ops W L)) as [(_ & E)|(_ & r & _ & [(_ & E)|(m & E & _)])]; rewrite E; split; intros; discriminate. }
  destruct (rasterize_cases s Hb) as [(ops & W' & ->)|(_ & e & E)].
  - destruct (W ops W' Hl) as [A B]. split; [|exact B]. split; [intros (e & E); now apply A in E|]. intros N. exfalso. apply N. eauto.
  - split; [|congruence]. split; [|eauto]. intros _ (ops & W' & ->). destruct (W ops W' Hl) as [A _]. now apply A in E.
Qed.
