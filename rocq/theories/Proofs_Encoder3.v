(** Emission of the fragments and the round trip of mask/encoder.go. *)
From Verif Require Import Base BaseFacts Model_Mask Spec_Mask Proofs_Raster Proofs_Encoder Proofs_Encoder2.
From Coq Require Import Permutation.

Lemma move_byte_spec d : -128 <= d <= 128 -> d <> 0 -> byte (move_byte d) /\ nz_signed (move_byte d) = d.
Proof.
  intros H N.
  assert (A : forallb (fun k => let d := k - 128 in let b := move_byte d in
      (d =? 0) || ((0 <=? b) && (b <? 256) && (nz_signed b =? d))) (zseq 257) = true) by (vm_compute; reflexivity).
  rewrite forallb_forall in A. specialize (A (d + 128) ltac:(apply in_zseq; lia)). cbv zeta in A.
  replace (d + 128 - 128) with d in A by lia. unfold byte. lia.
Qed.

Definition emit_draw (f : fragment) : draw :=
  let w := fx1 f + 1 - fx0 f in let h := fy1 f + 1 - fy0 f in
  if (w =? 1) && (h =? 1) then DPixel
  else match fdiag f with
  | diagNone => if w =? 1 then DVert (h - 1) else if h =? 1 then DHorz (w - 1) else DRect (w - 1) (h - 1)
  | diagAsc => DDiag true (w - 1)
  | diagDesc => DDiag false (w - 1)
  end.
Definition emit_op (f : fragment) (x y v : Z) : rop :=
  mkOp (if fvalue f =? v then None else Some (fvalue f))
       (if fx0 f - x =? 0 then None else Some (move_byte (fx0 f - x)))
       (if fy0 f - y =? 0 then VNone else if fy0 f - y =? 1 then VRow else VMove (move_byte (fy0 f - y)))
       (emit_draw f).
Definition reach (f : fragment) (x y : Z) : Prop :=
  -128 <= fx0 f - x <= 128 /\ -128 <= fy0 f - y <= 128 /\ fx1 f + 1 - fx0 f <= 256 /\ fy1 f + 1 - fy0 f <= 256.

Lemma emit_fragment_spec f x y v : shape_ok f -> fvalue f <> 0 ->
  (reach f x y /\ emit_fragment f x y v = Ok (enc_op (emit_op f x y v), fx1 f + 1, fy0 f, fvalue f)) \/
  (~ reach f x y /\ emit_fragment f x y v = Panic).
Proof.
  intros (S1 & S2 & S3) Hv. unfold emit_fragment.
  assert (EC : (if negb (fvalue f =? v) then if fvalue f =? 0 then Panic else Ok (1, [fvalue f], fvalue f) else Ok (0, [], v)) =
    Ok ((if fvalue f =? v then 0 else 1), opt_bytes (ocolor (emit_op f x y v)), fvalue f)).
  { unfold emit_op. cbn [ocolor]. destruct (Z.eqb_spec (fvalue f) v) as [E|E]; cbn [negb opt_bytes]; [congruence|].
    destruct (Z.eqb_spec (fvalue f) 0); [contradiction|reflexivity]. }
  rewrite EC. cbn [bind]. cbv zeta. clear EC.
  set (c1 := if fvalue f =? v then 0 else 1). set (b1 := opt_bytes (ocolor (emit_op f x y v))).
  set (c2 := if fx0 f - x =? 0 then c1 else Z.lor c1 2).
  set (b2 := b1 ++ opt_bytes (ohmove (emit_op f x y v))).
  set (c3 := if fy0 f - y =? 0 then c2 else if fy0 f - y =? 1 then Z.lor c2 8 else Z.lor c2 4).
  set (b3 := b2 ++ match ovmove (emit_op f x y v) with VMove b => [b] | _ => [] end).
  assert (EH : (if negb (fx0 f - x =? 0) then if (fx0 f - x <? -128) || (fx0 f - x >? 128) then Panic
       else Ok (Z.lor c1 2, b1 ++ [move_byte (fx0 f - x)]) else Ok (c1, b1)) =
       if (-128 <=? fx0 f - x) && (fx0 f - x <=? 128) then Ok (c2, b2) else Panic).
  { unfold c2, b2, emit_op. cbn [ohmove]. destruct (Z.eqb_spec (fx0 f - x) 0) as [E|E]; cbn [negb opt_bytes].
    - rewrite E. cbn. rewrite app_nil_r. reflexivity.
    - destruct ((fx0 f - x <? -128) || (fx0 f - x >? 128)) eqn:B;
      [replace ((-128 <=? fx0 f - x) && (fx0 f - x <=? 128)) with false by lia|replace ((-128 <=? fx0 f - x) && (fx0 f - x <=? 128)) with true by lia]; reflexivity. }
  rewrite EH. clear EH.
  destruct ((-128 <=? fx0 f - x) && (fx0 f - x <=? 128)) eqn:RX; cbn [bind]; [|right; unfold reach; split; [lia|reflexivity]].
  assert (EV : (if negb (fy0 f - y =? 0) then if fy0 f - y =? 1 then Ok (Z.lor c2 8, b2)
       else if (fy0 f - y <? -128) || (fy0 f - y >? 128) then Panic
       else Ok (Z.lor c2 4, b2 ++ [move_byte (fy0 f - y)]) else Ok (c2, b2)) =
       if (-128 <=? fy0 f - y) && (fy0 f - y <=? 128) then Ok (c3, b3) else Panic).
  { unfold c3, b3, emit_op. cbn [ovmove]. destruct (Z.eqb_spec (fy0 f - y) 0) as [E|E]; cbn [negb].
    - rewrite E. cbn. rewrite app_nil_r. reflexivity.
    - destruct (Z.eqb_spec (fy0 f - y) 1) as [E1|E1].
      + rewrite E1. cbn. rewrite app_nil_r. reflexivity.
      + destruct ((fy0 f - y <? -128) || (fy0 f - y >? 128)) eqn:B;
        [replace ((-128 <=? fy0 f - y) && (fy0 f - y <=? 128)) with false by lia|replace ((-128 <=? fy0 f - y) && (fy0 f - y <=? 128)) with true by lia]; reflexivity. }
  rewrite EV. clear EV.
  destruct ((-128 <=? fy0 f - y) && (fy0 f - y <=? 128)) eqn:RY; cbn [bind]; [|right; unfold reach; split; [lia|reflexivity]].
  match goal with |- context [bind ?e _] => assert (ED : e =
      if (fx1 f + 1 - fx0 f <=? 256) && (fy1 f + 1 - fy0 f <=? 256) then
        Ok (Z.lor c3 (match emit_draw f with DNone => 0 | DPixel => 128 | DHorz _ => 32 | DVert _ => 64 | DRect _ _ => 96
                      | DDiag false _ => 48 | DDiag true _ => 112 end),
            b3 ++ match emit_draw f with DNone | DPixel => [] | DHorz n | DVert n | DDiag _ n => [n] | DRect w h => [w; h] end)
      else Panic) end.
  { assert (U : forall n, 1 <= n <= 256 -> u8 (n - 1) = n - 1) by (intros n Hn; unfold u8; apply Z.mod_small; lia).
    unfold emit_draw. cbv zeta. destruct ((fx1 f + 1 - fx0 f =? 1) && (fy1 f + 1 - fy0 f =? 1)) eqn:W1.
    - replace ((fx1 f + 1 - fx0 f <=? 256) && (fy1 f + 1 - fy0 f <=? 256)) with true by lia. rewrite app_nil_r. reflexivity.
    - destruct (fdiag f) eqn:FD.
      + replace ((fx1 f + 1 - fx0 f >? 0) && ((fx1 f + 1 - fx0 f >? 1) || (fy1 f + 1 - fy0 f <=? 1))) with (negb (fx1 f + 1 - fx0 f =? 1)) by lia.
        destruct (fx1 f + 1 - fx0 f =? 1) eqn:WX; cbn [negb bind].
        * replace (fy1 f + 1 - fy0 f >? 0) with true by lia.
          destruct (fy1 f + 1 - fy0 f >? 256) eqn:WY.
          -- replace ((fx1 f + 1 - fx0 f <=? 256) && (fy1 f + 1 - fy0 f <=? 256)) with false by lia. reflexivity.
          -- replace ((fx1 f + 1 - fx0 f <=? 256) && (fy1 f + 1 - fy0 f <=? 256)) with true by lia. rewrite U by lia. reflexivity.
        * destruct (fx1 f + 1 - fx0 f >? 256) eqn:WX2; cbn [bind].
          -- replace ((fx1 f + 1 - fx0 f <=? 256) && (fy1 f + 1 - fy0 f <=? 256)) with false by lia. reflexivity.
          -- rewrite U by lia. destruct (fy1 f + 1 - fy0 f =? 1) eqn:WY.
             ++ change (0 >? 0) with false. cbv iota. replace ((fx1 f + 1 - fx0 f <=? 256) && (fy1 f + 1 - fy0 f <=? 256)) with true by lia. reflexivity.
             ++ replace (fy1 f + 1 - fy0 f >? 0) with true by lia.
                destruct (fy1 f + 1 - fy0 f >? 256) eqn:WY2.
                ** replace ((fx1 f + 1 - fx0 f <=? 256) && (fy1 f + 1 - fy0 f <=? 256)) with false by lia. reflexivity.
                ** replace ((fx1 f + 1 - fx0 f <=? 256) && (fy1 f + 1 - fy0 f <=? 256)) with true by lia.
                   rewrite U by lia. rewrite <- Z.lor_assoc, <- app_assoc. reflexivity.
      + specialize (S3 ltac:(congruence)). replace (fx1 f + 1 - fx0 f >? 0) with true by lia.
        destruct (fx1 f + 1 - fx0 f >? 256) eqn:WX2; cbn [bind].
        * replace ((fx1 f + 1 - fx0 f <=? 256) && (fy1 f + 1 - fy0 f <=? 256)) with false by lia. reflexivity.
        * replace ((fx1 f + 1 - fx0 f <=? 256) && (fy1 f + 1 - fy0 f <=? 256)) with true by lia.
          rewrite U by lia. rewrite <- !Z.lor_assoc. reflexivity.
      + specialize (S3 ltac:(congruence)). replace (fx1 f + 1 - fx0 f >? 0) with true by lia.
        destruct (fx1 f + 1 - fx0 f >? 256) eqn:WX2; cbn [bind].
        * replace ((fx1 f + 1 - fx0 f <=? 256) && (fy1 f + 1 - fy0 f <=? 256)) with false by lia. reflexivity.
        * replace ((fx1 f + 1 - fx0 f <=? 256) && (fy1 f + 1 - fy0 f <=? 256)) with true by lia.
          rewrite U by lia. rewrite <- !Z.lor_assoc. reflexivity. }
  rewrite ED. clear ED.
  destruct ((fx1 f + 1 - fx0 f <=? 256) && (fy1 f + 1 - fy0 f <=? 256)) eqn:RW; cbn [bind]; [|right; unfold reach; split; [lia|reflexivity]].
  left. split; [unfold reach; lia|].
  match goal with |- (if zlen (?c :: ?l) >? 8 then _ else _) = _ =>
    assert (EE : c :: l = enc_op (emit_op f x y v)) end.
  { unfold enc_op. f_equal.
    - unfold rop_ctrl, c3, c2, c1, emit_op. cbn [ocolor ohmove ovmove odraw]. generalize (emit_draw f). intros d.
      destruct (fvalue f =? v), (fx0 f - x =? 0), (fy0 f - y =? 0); try destruct (fy0 f - y =? 1);
      destruct d as [| | | | |[]]; reflexivity.
    - unfold b3, b2, b1. rewrite <- !app_assoc. reflexivity. }
  rewrite EE.
  assert (L : zlen (enc_op (emit_op f x y v)) <= 6).
  { unfold enc_op. destruct (emit_op f x y v) as [[] [] [] []]; cbn [ocolor ohmove ovmove odraw opt_bytes app]; unfold zlen; cbn [length]; lia. }
  replace (zlen (enc_op (emit_op f x y v)) >? 8) with false by lia.
  okpair.
Qed.

Lemma emit_op_facts f x y v : shape_ok f -> byte (fvalue f) -> reach f x y ->
  rop_wf (emit_op f x y v) /\
  pen_at (emit_op f x y v) (mkPen x y v) = mkPen (fx0 f) (fy0 f) (fvalue f) /\
  pen_after (emit_op f x y v) (mkPen x y v) = mkPen (fx1 f + 1) (fy0 f) (fvalue f) /\
  forall a b, covers (odraw (emit_op f x y v)) (fx0 f) (fy0 f) a b = cells f a b.
Proof.
  intros (S1 & S2 & S3) Hb (R1 & R2 & R3 & R4).
  assert (PA : pen_at (emit_op f x y v) (mkPen x y v) = mkPen (fx0 f) (fy0 f) (fvalue f)).
  { unfold pen_at, emit_op. cbn [ocolor ohmove ovmove odraw penx peny penc]. f_equal.
    - destruct (Z.eqb_spec (fx0 f - x) 0) as [E|E]; [lia|]. destruct (move_byte_spec (fx0 f - x)) as (_ & ->); lia.
    - destruct (Z.eqb_spec (fy0 f - y) 0) as [E|E]; [lia|]. destruct (Z.eqb_spec (fy0 f - y) 1); [lia|].
      destruct (move_byte_spec (fy0 f - y)) as (_ & ->); lia.
    - destruct (Z.eqb_spec (fvalue f) v) as [E|E]; congruence. }
  assert (ED : draw_wf (emit_draw f) /\ draw_width (emit_draw f) = fx1 f + 1 - fx0 f /\
    forall a b, covers (emit_draw f) (fx0 f) (fy0 f) a b = cells f a b).
  { unfold emit_draw, cells. cbv zeta. destruct ((fx1 f + 1 - fx0 f =? 1) && (fy1 f + 1 - fy0 f =? 1)) eqn:W1.
    - splits; [exact I|cbn; lia|]. intros a b. cbn [covers]. apply Bool.eq_true_iff_eq. destruct (fdiag f); lia.
    - destruct (fdiag f) eqn:FD; [destruct (fx1 f + 1 - fx0 f =? 1) eqn:WX; [|destruct (fy1 f + 1 - fy0 f =? 1) eqn:WY]|specialize (S3 ltac:(congruence))|specialize (S3 ltac:(congruence))];
      cbn [draw_wf draw_width covers]; unfold nz_unsigned, byte; splits; try lia; intros a b; apply Bool.eq_true_iff_eq; lia. }
  destruct ED as (D1 & D2 & D3). splits.
  - unfold rop_wf, emit_op. cbn [ocolor ohmove ovmove odraw]. splits; auto.
    + destruct (fvalue f =? v); [exact I|exact Hb].
    + destruct (Z.eqb_spec (fx0 f - x) 0); [exact I|]. apply move_byte_spec; lia.
    + destruct (Z.eqb_spec (fy0 f - y) 0); [exact I|]. destruct (fy0 f - y =? 1); [exact I|]. apply move_byte_spec; lia.
  - exact PA.
  - unfold pen_after. rewrite PA. cbn [penx peny penc]. unfold emit_op. cbn [odraw]. rewrite D2. f_equal. lia.
  - exact D3.
Qed.

Lemma emit_fragments_spec o fs : Forall (frag_fits o) fs -> forall data x y v res,
  emit_fragments fs data x y v = Ok res ->
  exists ops, Forall rop_wf ops /\ res = data ++ enc_ops ops /\
    (forall a b, drawn ops (mkPen x y v) a b = true <-> covered fs a b) /\
    (forall a b w, value_at ops (mkPen x y v) a b w = if drawn ops (mkPen x y v) a b then pixel o a b else w).
Proof.
  induction 1 as [|f fs (F1 & F2 & F3 & F4 & F5) F IH]; intros data x y v res; cbn [emit_fragments].
  - intros [= <-]. exists []. rewrite app_nil_r. splits; auto. intros a b. cbn. split; [discriminate|]. intros (f & [] & _).
  - destruct (emit_fragment_spec f x y v F1 F3) as [(R & E)|(R & E)]; rewrite E; cbn [bind]; [|discriminate].
    intros H. apply IH in H as (ops & W & -> & D & V).
    destruct (emit_op_facts f x y v F1 F4 R) as (G1 & G2 & G3 & G4).
    exists (emit_op f x y v :: ops). splits.
    + constructor; auto.
    + change (enc_ops (emit_op f x y v :: ops)) with (enc_op (emit_op f x y v) ++ enc_ops ops). rewrite app_assoc. reflexivity.
    + intros a b. cbn [drawn]. rewrite G2, G3. cbn [penx peny]. rewrite G4, orb_true_iff, D. unfold covered.
      split.
      * intros [H|(f' & H1 & H2)]; [exists f|exists f']; split; auto; [left; reflexivity|right; auto].
      * intros (f' & [<-|H1] & H2); [left; exact H2|right; eauto].
    + intros a b w. cbn [value_at drawn]. rewrite G2, G3. cbn [penx peny penc]. rewrite G4, V.
      destruct (cells f a b) eqn:C; cbn [orb]; [|reflexivity]. rewrite (proj2 (F5 a b C)). destruct (drawn ops _ a b); reflexivity.
Qed.

(** positions reached from fragments in a window *)
Lemma emit_fragments_total o fs : -64 <= rx0 (Rect o) -> rx1 (Rect o) <= 64 -> -64 <= ry0 (Rect o) -> ry1 (Rect o) <= 64 ->
  Forall (frag_fits o) fs -> forall data x y v, -64 <= x <= 64 -> -64 <= y <= 64 ->
  exists res, emit_fragments fs data x y v = Ok res.
Proof.
  intros Q1 Q2 Q3 Q4. induction 1 as [|f fs (F1 & F2 & F3 & F4 & F5) F IH]; intros data x y v Hx Hy; cbn [emit_fragments]; [eauto|].
  assert (C : (rx0 (Rect o) <= fx0 f /\ fx1 f < rx1 (Rect o)) /\ ry0 (Rect o) <= fy0 f /\ fy1 f < ry1 (Rect o)).
  { destruct F1 as (S1 & S2 & S3). unfold cells in F5. destruct (fdiag f) eqn:D.
    - pose proof (F5 (fx0 f) (fy0 f) ltac:(lia)) as (A & _). pose proof (F5 (fx1 f) (fy1 f) ltac:(lia)) as (B & _). unfold inside in *. lia.
    - specialize (S3 ltac:(congruence)). pose proof (F5 (fx0 f) (fy1 f) ltac:(lia)) as (A & _). pose proof (F5 (fx1 f) (fy0 f) ltac:(lia)) as (B & _). unfold inside in *. lia.
    - specialize (S3 ltac:(congruence)). pose proof (F5 (fx0 f) (fy0 f) ltac:(lia)) as (A & _). pose proof (F5 (fx1 f) (fy1 f) ltac:(lia)) as (B & _). unfold inside in *. lia. }
  assert (F1' := F1). destruct F1' as (S1 & S2 & _).
  destruct (emit_fragment_spec f x y v F1 F3) as [(R & E)|(R & E)].
  - rewrite E. cbn [bind]. apply IH; lia.
  - exfalso. apply R. unfold reach. lia.
Qed.

(** *** The round trip *)

(** only the first width * height bytes count *)
Definition trim (m : alpha) : alpha :=
  mkAlpha (firstn (Z.to_nat ((rx1 (Rect m) - rx0 (Rect m)) * (ry1 (Rect m) - ry0 (Rect m)))) (Pix m)) (Stride m) (Rect m).

Lemma trim_ok m : alpha_readable m -> bytes (Pix m) -> rx0 (Rect m) <= rx1 (Rect m) -> ry0 (Rect m) <= ry1 (Rect m) ->
  Stride m = rx1 (Rect m) - rx0 (Rect m) ->
  alpha_ok (trim m) /\ (forall a b, pixel (trim m) a b = pixel m a b) /\
  computeMaskFragments (trim m) = computeMaskFragments m.
Proof.
  intros R B H1 H2 H3.
  assert (L : (rx1 (Rect m) - rx0 (Rect m)) * (ry1 (Rect m) - ry0 (Rect m)) <= zlen (Pix m)).
  { destruct (Z.eq_dec (rx0 (Rect m)) (rx1 (Rect m))); [pose proof (zlen_nonneg (Pix m)); nia|].
    destruct (Z.eq_dec (ry0 (Rect m)) (ry1 (Rect m))); [pose proof (zlen_nonneg (Pix m)); nia|].
    specialize (R (rx1 (Rect m) - 1) (ry1 (Rect m) - 1) ltac:(unfold inside; lia)). rewrite H3 in R. nia. }
  set (n := (rx1 (Rect m) - rx0 (Rect m)) * (ry1 (Rect m) - ry0 (Rect m))) in *.
  assert (N0 : 0 <= n) by (unfold n; nia).
  assert (LL : length (firstn (Z.to_nat n) (Pix m)) = Z.to_nat n) by (rewrite firstn_length; unfold zlen in L; lia).
  splits.
  - unfold alpha_ok, trim. cbn [Pix Stride Rect]. fold n. splits; auto.
    + unfold zlen. rewrite LL. lia.
    + unfold bytes in *. rewrite Forall_forall in *. intros x Hx. apply B. rewrite <- (firstn_skipn (Z.to_nat n) (Pix m)). apply in_or_app. left. exact Hx.
  - intros a b. unfold pixel, trim. cbn [Pix Stride Rect]. fold n.
    destruct (insideb (Rect m) a b) eqn:E; [|reflexivity]. apply insideb_spec in E. unfold inside in E.
    rewrite <- (firstn_skipn (Z.to_nat n) (Pix m)) at 2. rewrite app_nth1; [reflexivity|]. rewrite LL, H3.
    apply Z2Nat.inj_lt; try lia. + nia. + unfold n. apply idx_range; lia.
  - unfold computeMaskFragments. cbn [trim Rect Pix Stride]. fold n.
    destruct (NewAlpha (Rect m)) as [c| | |] eqn:E; try reflexivity. cbn [bind].
    apply NewAlpha_inv in E as (-> & _). cbn [Pix Stride Rect]. fold n.
    rewrite repeat_length. rewrite firstn_firstn, Nat.min_id, LL.
    assert (S0 : skipn (Z.to_nat n) (repeat 0 (Z.to_nat n)) = []) by (apply skipn_all2; rewrite repeat_length; lia).
    assert (S1 : skipn (length (Pix m)) (repeat 0 (Z.to_nat n)) = []) by (apply skipn_all2; rewrite repeat_length; unfold zlen in L; lia).
    rewrite S0, S1. reflexivity.
Qed.

Lemma append_nil_or sort data (fs : list fragment) :
  Permutation fs (sort fs) ->
  match fs with [] => Ok data | _ => emit_fragments (sort fs) data 0 0 255 end = emit_fragments (sort fs) data 0 0 255.
Proof. destruct fs as [|f fs]; [|reflexivity]. intros P. apply Permutation_nil in P. rewrite P. reflexivity. Qed.

Lemma encode_roundtrip_wf sort data m res : (forall l, Permutation l (sort l)) ->
  alpha_readable m -> bytes (Pix m) -> int_rect (Rect m) ->
  AppendRasterOps sort data m = Ok res ->
  exists ops, Forall rop_wf ops /\ res = data ++ enc_ops ops /\
    ((Rasterize (enc_ops ops) = Ok None /\ forall x y, pixel m x y = 0) \/
     exists m', Rasterize (enc_ops ops) = Ok (Some m') /\ forall x y, pixel m' x y = pixel m x y).
Proof.
  intros HS HR HB HI. unfold AppendRasterOps.
  destruct (computeMaskFragments m) as [fs| | |] eqn:EF; try discriminate. cbn [bind].
  rewrite append_nil_or by auto. intros EE.
  assert (ACC : rx0 (Rect m) <= rx1 (Rect m) /\ ry0 (Rect m) <= ry1 (Rect m) /\ rect_area (Rect m) <= maxAlloc /\
                Stride m = rx1 (Rect m) - rx0 (Rect m)).
  { unfold computeMaskFragments in EF. destruct (NewAlpha (Rect m)) as [c| | |] eqn:EN; try discriminate. cbn [bind] in EF.
    apply NewAlpha_inv in EN as (-> & N1 & N2 & N3). cbn [Stride Pix Rect] in EF.
    destruct (Z.eqb_spec (Stride m) (rx1 (Rect m) - rx0 (Rect m))) as [E|E]; cbn [negb] in EF; [auto|discriminate]. }
  destruct ACC as (N1 & N2 & N3 & N4).
  destruct (trim_ok m HR HB N1 N2 N4) as (T1 & T2 & T3).
  destruct (fragments_spec (trim m) T1 N3) as (fs' & EF' & FF & FC). rewrite T3, EF in EF'. injection EF' as <-.
  assert (FF' : Forall (frag_fits (trim m)) (sort fs)).
  { rewrite Forall_forall in *. intros f Hf. apply FF. eapply Permutation_in; [apply Permutation_sym, HS|exact Hf]. }
  destruct (emit_fragments_spec (trim m) (sort fs) FF' _ _ _ _ _ EE) as (ops & W & -> & D & V).
  change (mkPen 0 0 255) with pen0 in *.
  assert (D' : forall a b, drawn ops pen0 a b = true <-> pixel m a b <> 0).
  { intros a b. rewrite D. split.
    - intros (f & Hf & Hc). rewrite Forall_forall in FF'. destruct (FF' f Hf) as (_ & _ & Hv & _ & HA).
      rewrite <- T2, (proj2 (HA a b Hc)). exact Hv.
    - intros Hp. rewrite <- T2 in Hp. destruct (FC a b Hp) as (f & Hf & Hc). exists f. split; [|exact Hc]. eapply Permutation_in; [apply HS|exact Hf]. }
  assert (DI : forall a b, drawn ops pen0 a b = true -> inside (Rect m) a b).
  { intros a b Hd. apply D' in Hd. destruct (insideb (Rect m) a b) eqn:E; [apply insideb_spec; exact E|].
    exfalso. apply Hd. apply pixel_outside. intros C. apply insideb_spec in C. congruence. }
  assert (IC : int_coords ops).
  { intros a b Hd. apply DI in Hd. unfold inside, int_rect in *. lia. }
  assert (NE : forall a b, value_at ops pen0 a b 0 = pixel m a b).
  { intros a b. rewrite V, T2. destruct (drawn ops pen0 a b) eqn:Ed; [reflexivity|].
    destruct (Z.eq_dec (pixel m a b) 0) as [->|Hn]; [reflexivity|]. apply D' in Hn. congruence. }
  exists ops. split; [exact W|]. split; [reflexivity|].
  destruct (rasterize_ops ops W IC) as [(N & E)|((x & y & Dx) & r & (S1 & S2) & [(A & E)|(m' & E & Am & Rm & Pm)])].
  - left. split; [exact E|]. intros a b. destruct (Z.eq_dec (pixel m a b) 0) as [->|Hn]; [reflexivity|]. apply D' in Hn. rewrite N in Hn. discriminate.
  - exfalso. pose proof (S2 _ DI) as HIr. pose proof (S1 _ _ Dx) as Hin. unfold incl_rect, inside, rect_area in *. nia.
  - right. exists m'. split; [exact E|]. intros a b. rewrite Pm. apply NE.
Qed.

Lemma encode_roundtrip sort data m res : (forall l, Permutation l (sort l)) ->
  alpha_readable m -> bytes (Pix m) -> int_rect (Rect m) ->
  AppendRasterOps sort data m = Ok res ->
  exists ops, res = data ++ ops /\
    ((Rasterize ops = Ok None /\ forall x y, pixel m x y = 0) \/
     exists m', Rasterize ops = Ok (Some m') /\ forall x y, pixel m' x y = pixel m x y).
Proof.
  intros HS HR HB HI E. destruct (encode_roundtrip_wf sort data m res HS HR HB HI E) as (ops & _ & H). eauto.
Qed.

Lemma encode_total sort data m : (forall l, Permutation l (sort l)) ->
  alpha_readable m -> bytes (Pix m) -> Stride m = rx1 (Rect m) - rx0 (Rect m) ->
  -64 <= rx0 (Rect m) -> rx0 (Rect m) <= rx1 (Rect m) -> rx1 (Rect m) <= 64 ->
  -64 <= ry0 (Rect m) -> ry0 (Rect m) <= ry1 (Rect m) -> ry1 (Rect m) <= 64 ->
  exists ops, AppendRasterOps sort data m = Ok (data ++ ops).
Proof.
  intros HS HR HB H0 H1 H2 H3 H4 H5 H6.
  destruct (trim_ok m HR HB H2 H5 H0) as (T1 & T2 & T3).
  destruct (fragments_spec (trim m) T1) as (fs & EF & FF & FC).
  { unfold rect_area, maxAlloc. cbn [trim Rect]. nia. }
  rewrite T3 in EF. unfold AppendRasterOps. rewrite EF. cbn [bind].
  rewrite append_nil_or by auto.
  assert (FF' : Forall (frag_fits (trim m)) (sort fs)).
  { rewrite Forall_forall in *. intros f Hf. apply FF. eapply Permutation_in; [apply Permutation_sym, HS|exact Hf]. }
  destruct (emit_fragments_total (trim m) (sort fs) H1 H3 H4 H6 FF' data 0 0 255 ltac:(lia) ltac:(lia)) as (res & E).
  destruct (emit_fragments_spec (trim m) (sort fs) FF' _ _ _ _ _ E) as (ops & W & -> & _).
  exists (enc_ops ops). exact E.
Qed.
