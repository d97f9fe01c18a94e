(** Theorems C13 to C17 (masks). *)
From Verif Require Import Base BaseFacts Model_Mask Spec_Mask Proofs_Raster Proofs_RasterHuge Proofs_ComputeRect Proofs_Encoder3.
From Coq Require Import Permutation.

(** Full statement of C13: [forall s, bytes s -> not panicking, and an error exactly when
    computeRasterOpsRect errs]. False for huge drawn areas: 393218 bytes are enough to ask
    for a mask larger than a slice can be. *)
Theorem C13_rasterize_refuted : exists s, bytes s /\ zlen s = 393218 /\
  (exists r, computeRasterOpsRect s = Ok r) /\ Rasterize s = Panic.
Proof. exact rasterize_huge. Qed.
Print Assumptions C13_rasterize_refuted.

(** Missing: inputs above 30000 bytes. *)
Theorem C13_rasterize_partial : forall s, bytes s -> zlen s <= 30000 ->
  (exists e, computeRasterOpsRect s = Err e) /\ (exists e, Rasterize s = Err e) \/
  (exists r, computeRasterOpsRect s = Ok r) /\ (exists o, Rasterize s = Ok o).
Proof. exact rasterize_total. Qed.
Print Assumptions C13_rasterize_partial.

(** Longer inputs: the only panic left is the allocation; errors are those of the bounds
    pass. *)
Theorem C13_rasterize_long_partial : forall s, bytes s -> zlen s <= 2 ^ 50 ->
  (exists e, computeRasterOpsRect s = Err e) /\ (exists e, Rasterize s = Err e) \/
  exists r, computeRasterOpsRect s = Ok r /\
    ((exists o, Rasterize s = Ok o) \/ Rasterize s = Panic /\ rect_area r > maxAlloc).
Proof. exact rasterize_long. Qed.
Print Assumptions C13_rasterize_long_partial.

(** A mask is returned for well-formed operations only; its rectangle and pixels are what
    they draw. *)
Theorem C14_rasterize_image : forall s m, bytes s -> zlen s <= 2 ^ 50 -> Rasterize s = Ok (Some m) ->
  exists ops, Forall rop_wf ops /\ s = enc_ops ops /\
    smallest_rect (fun x y => drawn ops pen0 x y = true) (Rect m) /\
    (forall x y, pixel m x y = value_at ops pen0 x y 0).
Proof. exact rasterize_image. Qed.
Print Assumptions C14_rasterize_image.

Theorem C14_rasterize_nothing : forall s, bytes s -> zlen s <= 2 ^ 50 ->
  (Rasterize s = Ok None <->
   exists ops, Forall rop_wf ops /\ s = enc_ops ops /\ forall x y, drawn ops pen0 x y = false).
Proof. exact rasterize_nothing. Qed.
Print Assumptions C14_rasterize_nothing.

(** every sequence of well-formed operations below 30000 bytes is drawn *)
Theorem C14_rasterize_accepts : forall ops, Forall rop_wf ops -> zlen (enc_ops ops) <= 30000 ->
  exists o, Rasterize (enc_ops ops) = Ok o.
Proof. exact rasterize_accepts. Qed.
Print Assumptions C14_rasterize_accepts.

(** A diagonal, a move up and left, and a palette change. *)
Example C14_ex :
  let ops := [mkOp (Some 7) None VNone (DDiag true 2); mkOp None (Some 253) (VMove 254) (DRect 1 0);
              mkOp (Some 9) (Some 255) VRow DPixel] in
  Forall rop_wf ops /\
  exists m, Rasterize (enc_ops ops) = Ok (Some m) /\ Rect m = mkRect 0 (-2) 3 3 /\
    pixel m 0 2 = 7 /\ pixel m 2 0 = 7 /\ pixel m 0 (-2) = 7 /\ pixel m 1 (-1) = 9 /\ pixel m 1 0 = 0.
Proof.
  split.
  - repeat apply Forall_cons; try apply Forall_nil; unfold rop_wf; cbn; unfold byte; splits; lia || exact I.
  - eexists. split; [vm_compute; reflexivity|]. repeat split.
Qed.
Example C13_ex_error : exists e, Rasterize [2] = Err e.
Proof. eexists. vm_compute. reflexivity. Qed.

Theorem C17_compute_rect : forall m, alpha_readable m ->
  rx0 (Rect m) <= rx1 (Rect m) -> ry0 (Rect m) <= ry1 (Rect m) ->
  exists r, ComputeRect m = Ok r /\
    ((forall x y, pixel m x y = 0) /\ r = mkRect 0 0 0 0 \/
     (exists x y, pixel m x y <> 0) /\ smallest_rect (fun x y => pixel m x y <> 0) r).
Proof. exact compute_rect_spec. Qed.
Print Assumptions C17_compute_rect.

(** A 3x2 image at (-1, 4) inside a buffer of stride 4. *)
Example C17_ex :
  let m := mkAlpha [0; 0; 5; 0; 0; 0; 9; 77] 4 (mkRect (-1) 4 2 6) in
  alpha_readable m /\ ComputeRect m = Ok (mkRect 1 4 2 6).
Proof.
  split; [|vm_compute; reflexivity]. unfold alpha_readable. intros x y H.
  unfold inside in H. cbn [Rect Stride Pix rx0 ry0 rx1 ry1] in *.
  assert (x = -1 \/ x = 0 \/ x = 1) as [-> | [-> | ->]] by lia;
  (assert (y = 4 \/ y = 5) as [-> | ->] by lia); vm_compute; split; congruence.
Qed.

(** [sort] is whatever permutation sort.Slice leaves the fragments in. *)
Theorem C15_encode_roundtrip : forall sort data m res, (forall l, Permutation l (sort l)) ->
  alpha_readable m -> bytes (Pix m) -> int_rect (Rect m) ->
  AppendRasterOps sort data m = Ok res ->
  exists ops, res = data ++ ops /\
    ((Rasterize ops = Ok None /\ forall x y, pixel m x y = 0) \/
     exists m', Rasterize ops = Ok (Some m') /\ forall x y, pixel m' x y = pixel m x y).
Proof. exact encode_roundtrip. Qed.
Print Assumptions C15_encode_roundtrip.

Theorem C16_encode_total : forall sort data m, (forall l, Permutation l (sort l)) ->
  alpha_readable m -> bytes (Pix m) -> Stride m = rx1 (Rect m) - rx0 (Rect m) ->
  -64 <= rx0 (Rect m) -> rx0 (Rect m) <= rx1 (Rect m) -> rx1 (Rect m) <= 64 ->
  -64 <= ry0 (Rect m) -> ry0 (Rect m) <= ry1 (Rect m) -> ry1 (Rect m) <= 64 ->
  exists ops, AppendRasterOps sort data m = Ok (data ++ ops).
Proof. exact encode_total. Qed.
Print Assumptions C16_encode_total.

(** A 4x3 image at (-2, -1) with a line, a diagonal, a block and a second value; [rev] is one
    possible order. *)
Definition ex_mask : alpha :=
  mkAlpha [9; 0; 5; 5;  0; 9; 5; 5;  0; 7; 0; 0] 4 (mkRect (-2) (-1) 2 2).
Lemma ex_mask_readable : alpha_readable ex_mask.
Proof.
  intros x y H. unfold inside, ex_mask in *. cbn [Rect Stride Pix rx0 ry0 rx1 ry1] in *.
  change (zlen [9; 0; 5; 5; 0; 9; 5; 5; 0; 7; 0; 0]) with 12. lia.
Qed.
Example C15_ex :
  int_rect (Rect ex_mask) /\ bytes (Pix ex_mask) /\ (forall l : list fragment, Permutation l (rev l)) /\
  exists ops m', AppendRasterOps (@rev fragment) [1; 2; 3] ex_mask = Ok ([1; 2; 3] ++ ops) /\
    Rasterize ops = Ok (Some m') /\ m' = ex_mask.
Proof.
  split; [unfold int_rect, ex_mask, MinInt, MaxInt; cbn; lia|].
  split; [repeat constructor; unfold byte; lia|].
  split; [intros l; apply Permutation_rev|].
  exists [101; 5; 255; 1; 1; 135; 7; 253; 1; 55; 9; 254; 254; 1], ex_mask.
  split; [vm_compute; reflexivity|]. split; [vm_compute; reflexivity|reflexivity].
Qed.
