(** C13 and C14, continued: when exactly Rasterize panics, fails and draws. *)
From Verif Require Import Base BaseFacts Model_Mask Spec_Mask Proofs_Raster Proofs_RasterHuge Proofs_RasterExact.

(** It panics exactly when well-formed operations draw something that needs a mask beyond the
    largest allocation, fails exactly on what is no sequence of well-formed operations, and
    always ends. Missing from the full statement of C13: that there is no panic at all. *)
Theorem C13_panics_exactly_partial : forall s, bytes s -> zlen s <= 2 ^ 50 ->
  (Rasterize s = Panic <-> exists ops r, Forall rop_wf ops /\ s = enc_ops ops /\ (exists x y, drawn ops pen0 x y = true) /\
    smallest_rect (fun x y => drawn ops pen0 x y = true) r /\ rect_area r > maxAlloc) /\
  ((exists e, Rasterize s = Err e) <-> ~ exists ops, Forall rop_wf ops /\ s = enc_ops ops) /\ Rasterize s <> Hang.
Proof. intros s H1 H2. split; [exact (rasterize_panics s H1 H2)|exact (rasterize_fails s H1 H2)]. Qed.
Print Assumptions C13_panics_exactly_partial.

(** A palette byte announced and missing, and a row advance together with a move. *)
Example C13_fails_example : (exists e, Rasterize [1] = Err e) /\ (exists e, Rasterize [12; 3] = Err e) /\ exists m, Rasterize [128] = Ok (Some m).
Proof. split; [|split]; eexists; vm_compute; reflexivity. Qed.
