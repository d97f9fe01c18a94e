(** Enumerating the colors of a builder. *)
From Verif Require Import Base BaseFacts Spec_Helpers Model_Helpers Model_Date Spec_Names Spec_Mask Model_Mask Model_Font Model_Words Model_Parse Model_Builder Spec_Builder Proofs_Builder.

(** the values with numbers counting down from [c] *)
Fixpoint down {A} (c : Z) (l : list A) : list (A * Z) :=
  match l with [] => [] | x :: r => (x, c) :: down (c - 1) r end.
Lemma down_values {A} (l : list A) : forall c, map fst (down c l) = l.
Proof. induction l as [|x l IH]; intros c; cbn; [reflexivity|rewrite IH; reflexivity]. Qed.
Lemma down_numbers {A} (l : list A) : forall c i x, zget l i = Ok x -> zget (down c l) i = Ok (x, c - i).
Proof.
  induction l as [|y l IH]; intros c i x E; pose proof (zget_ok_range _ _ _ E) as R; [rewrite zlen_nil in R; lia|]. rewrite zlen_cons in R.
  destruct (Z.eq_dec i 0) as [->|N]; [rewrite zget_cons_0 in E; injection E as ->; cbn [down]; rewrite zget_cons_0, Z.sub_0_r; reflexivity|].
  rewrite zget_cons_S in E by lia. cbn [down]. rewrite zget_cons_S by lia. rewrite (IH (c - 1) _ _ E). do 2 f_equal. lia.
Qed.
Lemma calls_ok {A} (c : Z) (l : list A) : forall calls i, 0 <= i -> c <= 255 -> zlen l + i <= c ->
  fst (fold_left (fun '(calls, i) x => (calls ++ [(x, u8 (c - i))], i + 1)) l (calls, i)) = calls ++ down (c - i) l.
Proof.
  induction l as [|x l IH]; intros calls i Hi Hc Hl; cbn [fold_left down]; [rewrite app_nil_r; reflexivity|]. rewrite zlen_cons in Hl. pose proof (zlen_nonneg l).
  rewrite IH by lia. rewrite <- app_assoc. cbn [app]. unfold u8. rewrite Z.mod_small by lia. do 3 f_equal. lia.
Qed.
Lemma concat_len {A B} (x : A * list B) l : zlen (concat (map snd (x :: l))) = zlen (snd x) + zlen (concat (map snd l)).
Proof. cbn [map concat]. apply zlen_app. Qed.
Lemma dyes_none name l : ~ In name (map fst l) -> forall c calls, zlen (concat (map snd l)) <= c -> EachDyeAlpha_loop name l c calls = (calls, Err "dye section not found").
Proof.
  induction l as [|d l IH]; intros Hn c calls Hc; [reflexivity|]. rewrite concat_len in Hc. pose proof (zlen_nonneg (concat (map snd l))). pose proof (zlen_nonneg (snd d)). cbn [EachDyeAlpha_loop].
  replace (zlen (snd d) >? c) with false by lia. destruct (list_eqb (fst d) name) eqn:E; [apply list_eqb_true in E; destruct Hn; left; exact E|].
  apply IH; [intros H'; apply Hn; right; exact H'|lia].
Qed.
Lemma dyes_found name al post : forall pre, NoDup (map fst (pre ++ (name, al) :: post)) -> forall c calls, zlen (concat (map snd (pre ++ (name, al) :: post))) <= c <= 255 ->
  EachDyeAlpha_loop name (pre ++ (name, al) :: post) c calls = (calls ++ down (c - zlen (concat (map snd pre))) al, Err "dye section not found").
Proof.
  induction pre as [|d pre IH]; intros Hn c calls Hc; cbn [app] in *; rewrite concat_len in Hc; cbn [map] in Hn; inversion Hn as [|? ? N1 N2]; subst; cbn [fst snd] in *.
  - pose proof (zlen_nonneg (concat (map snd post))). pose proof (zlen_nonneg al). cbn [EachDyeAlpha_loop fst snd map concat]. rewrite zlen_nil. replace (zlen al >? c) with false by lia. rewrite list_eqb_refl.
    rewrite calls_ok by lia. apply dyes_none; [exact N1|lia].
  - pose proof (zlen_nonneg (concat (map snd (pre ++ (name, al) :: post)))). pose proof (zlen_nonneg (snd d)). cbn [EachDyeAlpha_loop]. replace (zlen (snd d) >? c) with false by lia.
    destruct (list_eqb (fst d) name) eqn:E; [apply list_eqb_true in E; destruct N1; rewrite E, map_app; apply in_or_app; right; left; reflexivity|].
    rewrite IH by (first [exact N2|lia]). rewrite concat_len. do 3 f_equal. lia.
Qed.
Lemma dyes_fail name l : forall c calls, snd (EachDyeAlpha_loop name l c calls) <> Ok tt.
Proof. induction l as [|d l IH]; intros c calls; cbn [EachDyeAlpha_loop]; [discriminate|]. destruct (_ >? _); [discriminate|]. destruct (list_eqb _ _); apply IH. Qed.
Lemma palettes_fail name dyes l : forall i c calls, snd (EachPaletteColor_loop name dyes i l c calls) <> Ok tt.
Proof.
  induction l as [|d l IH]; intros i c calls; cbn [EachPaletteColor_loop]; [discriminate|]. destruct (_ >? _); [discriminate|]. destruct (list_eqb _ _); [apply IH|]. destruct (zget dyes i); [apply IH|discriminate..].
Qed.
Lemma palettes_none name dyes l : ~ In name (map fst l) -> forall i c calls, fst (EachPaletteColor_loop name dyes i l c calls) = calls.
Proof.
  induction l as [|d l IH]; intros Hn i c calls; cbn [EachPaletteColor_loop]; [reflexivity|]. destruct (_ >? _); [reflexivity|]. destruct (list_eqb (fst d) name) eqn:E; [apply list_eqb_true in E; destruct Hn; left; exact E|].
  destruct (zget dyes i); [apply IH; intros H; apply Hn; right; exact H|reflexivity..].
Qed.
Lemma after_dyes (l : list (list Z * list Z)) : forall c, fold_left (fun c d => c - zlen (snd d)) l c = c - zlen (concat (map snd l)).
Proof. induction l as [|d l IH]; intros c; cbn [fold_left]; [cbn; rewrite zlen_nil; lia|]. rewrite IH, concat_len. lia. Qed.

Section Enumerate.
Context (b : builder) (CO : colors_ok b).
Lemma dye_calls pre name al post : b_dyes b = pre ++ (name, al) :: post ->
  fst (EachDyeAlpha b name) = down (255 - zlen (concat (map snd pre))) al.
Proof.
  intros E. destruct CO as [N C]. unfold EachDyeAlpha. unfold color_names, color_count in *. rewrite E in *. pose proof (zlen_nonneg (concat (map snd (b_palettes b)))).
  rewrite dyes_found; [reflexivity| |lia]. clear - N. revert N. generalize (map fst (b_palettes b)). induction (map fst (pre ++ (name, al) :: post)) as [|x l IH]; intros q N; [constructor|].
  cbn [app] in N. inversion N; subst. constructor; [intros H; apply H1; apply in_or_app; left; exact H|eapply IH; eassumption].
Qed.
Lemma dye_unknown name : ~ In name (map fst (b_dyes b)) -> exists m, EachDyeAlpha b name = ([], Err m).
Proof.
  intros H. eexists. unfold EachDyeAlpha. apply dyes_none; [exact H|]. destruct CO as [_ C]. unfold color_count in C. pose proof (zlen_nonneg (concat (map snd (b_palettes b)))). lia.
Qed.
Lemma palette_calls name cs post : b_palettes b = (name, cs) :: post ->
  fst (EachPaletteColor b name) = down (255 - zlen (concat (map snd (b_dyes b)))) cs.
Proof.
  intros E. destruct CO as [N C]. unfold EachPaletteColor. rewrite after_dyes. unfold color_names, color_count in *. rewrite E in *. rewrite concat_len in C. cbn [snd] in C.
  pose proof (zlen_nonneg (concat (map snd post))). pose proof (zlen_nonneg cs). pose proof (zlen_nonneg (concat (map snd (b_dyes b)))). replace (_ <? 0) with false by lia.
  cbn [EachPaletteColor_loop fst snd]. replace (zlen cs >? _) with false by lia. rewrite list_eqb_refl, calls_ok by lia. rewrite Z.sub_0_r. apply palettes_none.
  cbn [map fst] in N. apply NoDup_remove_2 in N. intros H'. apply N. apply in_or_app. right. exact H'.
Qed.
Lemma palette_unknown name : ~ In name (map fst (b_palettes b)) -> fst (EachPaletteColor b name) = [].
Proof. intros H. unfold EachPaletteColor. destruct (_ <? 0); [reflexivity|]. apply palettes_none. exact H. Qed.
End Enumerate.
