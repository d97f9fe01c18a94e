(** What each part of Build appends. *)
From Coq Require Import Permutation.
From Verif Require Import Base BaseFacts Spec_Helpers Model_Helpers Proofs_Helpers Spec_Names Model_Names Proofs_Names Model_Date
  Model_Mask Spec_Mask Proofs_Encoder3 Model_Font Model_Words Model_Parse Spec_Format Proofs_Format Spec_Layout Spec_LayoutFont
  Model_Builder Spec_Builder Proofs_Builder.

(** ** Digits and arrays of offsets *)
Lemma le_digits_mod n v : le_digits n (v mod 256 ^ Z.of_nat n) = le_digits n v.
Proof.
  revert v. induction n as [|n IH]; intros v; [reflexivity|]. cbn [le_digits].
  assert (E : 256 ^ Z.of_nat (S n) = 256 * 256 ^ Z.of_nat n).
  { rewrite Nat2Z.inj_succ, Z.pow_succ_r; lia. }
  rewrite E. set (k := 256 ^ Z.of_nat n) in *. assert (0 < k) by (unfold k; apply Z.pow_pos_nonneg; lia).
  rewrite Z.rem_mul_r by lia. f_equal.
  - rewrite Z.add_mod, Z.mul_comm, Z.mod_mul, Z.add_0_r, !Z.mod_mod by lia. reflexivity.
  - rewrite <- IH. rewrite <- (IH (v / 256)). f_equal.
    replace (v mod 256 + 256 * ((v / 256) mod k)) with ((v / 256) mod k * 256 + v mod 256) by lia.
    rewrite Z.div_add_l, (Z.div_small (v mod 256)), Z.add_0_r, Z.mod_mod; lia.
Qed.
Lemma digits2_u16 v : le_digits 2 (u16 v) = le_digits 2 v.
Proof. exact (le_digits_mod 2 v). Qed.
Lemma digits3_u32 v : le_digits 3 (u32 v) = le_digits 3 v.
Proof.
  rewrite <- (le_digits_mod 3 (u32 v)), <- (le_digits_mod 3 v). f_equal. unfold u32. change (256 ^ Z.of_nat 3) with 16777216. lia.
Qed.
Lemma digits4_u32 v : le_digits 4 (u32 v) = le_digits 4 v.
Proof. exact (le_digits_mod 4 v). Qed.
Lemma digits1 v : le_digits 1 v = [u8 v].
Proof. reflexivity. Qed.

Definition ends_bytes {A} (w : nat) (acc : Z) (l : list (list A)) : list Z := concat (map (le_digits w) (end_offsets acc l)).
Lemma ends16_spec {A B} (f : A -> list B) l : forall acc data,
  ends16 (map (fun x => zlen (f x)) l) (u16 acc) data = data ++ ends_bytes 2 acc (map f l).
Proof.
  induction l as [|x r IH]; intros acc data; cbn [ends16 map]; [unfold ends_bytes; cbn; rewrite app_nil_r; reflexivity|].
  assert (E : u16 (u16 acc + u16 (zlen (f x))) = u16 (acc + zlen (f x))) by (unfold u16; rewrite <- Z.add_mod by lia; reflexivity).
  rewrite E, IH, append16_spec, digits2_u16, <- app_assoc. reflexivity.
Qed.
Lemma ends16_0 {A B} (f : A -> list B) l data :
  ends16 (map (fun x => zlen (f x)) l) 0 data = data ++ offsets 2 (map f l).
Proof. exact (ends16_spec f l 0 data). Qed.
Lemma ends24_spec {A B} (f : A -> list B) l : forall acc data,
  ends24 (map (fun x => zlen (f x)) l) (u32 acc) data = data ++ ends_bytes 3 acc (map f l).
Proof.
  induction l as [|x r IH]; intros acc data; cbn [ends24 map]; [unfold ends_bytes; cbn; rewrite app_nil_r; reflexivity|].
  assert (E : u32 (u32 acc + u32 (zlen (f x))) = u32 (acc + zlen (f x))) by (unfold u32; rewrite <- Z.add_mod by lia; reflexivity).
  rewrite E, IH, append24_spec, digits3_u32, <- app_assoc. reflexivity.
Qed.
Lemma ends24_0 {A B} (f : A -> list B) l data :
  ends24 (map (fun x => zlen (f x)) l) 0 data = data ++ offsets 3 (map f l).
Proof. exact (ends24_spec f l 0 data). Qed.
Lemma append_all_spec blocks : forall data, append_all blocks data = data ++ concat blocks.
Proof.
  unfold append_all. induction blocks as [|x r IH]; intros data; cbn; [rewrite app_nil_r; reflexivity|].
  rewrite IH, <- app_assoc. reflexivity.
Qed.
Lemma end_indices_spec {A B} (f : A -> list B) l : forall acc data data',
  end_indices (map (fun x => zlen (f x)) l) acc data = Ok data' -> data' = data ++ ends_bytes 1 acc (map f l).
Proof.
  induction l as [|x r IH]; intros acc data data'; cbn [end_indices map].
  - intros H. inversion H. unfold ends_bytes. cbn. rewrite app_nil_r. reflexivity.
  - destruct (_ >? 255); [discriminate|]. intros H. apply IH in H. rewrite H, <- app_assoc. reflexivity.
Qed.
Lemma end_offsets_snoc {A} (l : list (list A)) b : forall acc,
  end_offsets acc (l ++ [b]) = end_offsets acc l ++ [acc + zlen (concat (l ++ [b]))].
Proof.
  induction l as [|x r IH]; intros acc; cbn; [rewrite app_nil_r; reflexivity|]. rewrite IH. f_equal. f_equal.
  rewrite zlen_app. f_equal. lia.
Qed.
Lemma offsets_snoc {A} w (l : list (list A)) b : offsets w (l ++ [b]) = offsets w l ++ le_digits w (zlen (concat (l ++ [b]))).
Proof. unfold offsets. rewrite end_offsets_snoc, map_app, concat_app. cbn. rewrite app_nil_r. reflexivity. Qed.

Lemma Forall2_len {A B} (R : A -> B -> Prop) l l' : Forall2 R l l' -> length l = length l'.
Proof. induction 1; cbn; congruence. Qed.

(** ** Reserving space for the offsets and filling it in *)
Definition reserved (pre : list Z) (done : list (list Z)) (n : nat) : list Z :=
  pre ++ offsets 3 done ++ repeat 0 (3 * n) ++ concat done.
Lemma patch_next pre done n b v : le_digits 3 v = le_digits 3 (zlen (concat (done ++ [b]))) ->
  patch24 (reserved pre done (S n) ++ b) (zlen pre + 3 * zlen done) v = Ok (reserved pre (done ++ [b]) n).
Proof.
  intros E. unfold reserved, patch24.
  replace ((pre ++ offsets 3 done ++ repeat 0 (3 * S n) ++ concat done) ++ b)
    with ((pre ++ offsets 3 done) ++ [0; 0; 0] ++ (repeat 0 (3 * n) ++ concat done ++ b)).
  2:{ replace (3 * S n)%nat with (3 + 3 * n)%nat by lia. rewrite repeat_app, <- !app_assoc. reflexivity. }
  assert (L : zlen (pre ++ offsets 3 done) = zlen pre + 3 * zlen done) by (rewrite zlen_app, zlen_offsets; reflexivity).
  rewrite zslice_app with (m := [0; 0; 0]); [|lia|rewrite L; reflexivity].
  cbn [bind]. rewrite encode24_spec. cbn [zlen length Z.of_nat]. change (zlen [0; 0; 0] <? 3) with false. cbn [bind skipn]. f_equal.
  rewrite app_nil_r. set (q := pre ++ offsets 3 done) in *. set (rest := repeat 0 (3 * n) ++ concat done ++ b).
  rewrite <- L. rewrite firstn_length_app by (unfold zlen; lia).
  rewrite (app_assoc q [0; 0; 0] rest), skipn_length_app by (rewrite app_length; unfold zlen; cbn [length]; lia).
  unfold q, rest. rewrite E, offsets_snoc, concat_app. cbn [concat]. rewrite app_nil_r, <- !app_assoc. reflexivity.
Qed.

(** ** Header, metrics and colors *)
Lemma short_ok buf s r : AppendShortString buf s = Ok r -> r = buf ++ short_string s /\ zlen s <= 255.
Proof.
  unfold AppendShortString. destruct (zlen s >? 255) eqn:E; [discriminate|]. intros H. inversion H.
  pose proof (zlen_nonneg s). rewrite u8_id by (unfold byte; lia). rewrite <- app_assoc. split; [reflexivity|lia].
Qed.
Lemma long_ok buf s r : AppendString buf s = Ok r -> r = buf ++ long_string s /\ zlen s <= 65535.
Proof.
  unfold AppendString. destruct (zlen s >? 65535) eqn:E; [discriminate|]. intros H. inversion H.
  rewrite append16_spec, digits2_u16, <- app_assoc. split; [reflexivity|lia].
Qed.
Lemma build_header_ok b data : build_header b = Ok data ->
  exists h, header_described b h /\ data = header_bytes h /\
    zlen (bh_name (b_header b)) <= 255 /\ zlen (bh_family (b_header b)) <= 255 /\
    zlen (bh_author (b_header b)) <= 255 /\ zlen (bh_about (b_header b)) <= 65535.
Proof.
  unfold build_header. cbv zeta. intros H.
  apply bind_ok_inv in H. destruct H as (d1 & E1 & H). apply bind_ok_inv in H. destruct H as (d2 & E2 & H).
  apply bind_ok_inv in H. destruct H as (d3 & E3 & H).
  apply short_ok in E1. apply short_ok in E2. apply short_ok in E3. apply long_ok in H.
  destruct E1 as [E1 L1], E2 as [E2 L2], E3 as [E3 L3], H as [H L4]. eexists. split; [reflexivity|]. split; [|auto].
  rewrite H, E3, E2, E1. unfold date_appendTo. rewrite !append16_spec, append32_spec, append64_spec.
  unfold header_bytes, ymd, date_bytes. cbn [h_format h_id h_major h_minor h_first_date h_major_date h_minor_date h_name h_family h_author h_about].
  rewrite <- !app_assoc. reflexivity.
Qed.
Lemma build_metrics_ok b data : zlen (b_glyphs b) = zlen (b_order b) ->
  exists m, metrics_described b m /\ build_metrics b data = data ++ metrics_bytes m.
Proof.
  intros E. eexists. split; [reflexivity|]. unfold build_metrics. rewrite append16_spec, digits2_u16, E, <- app_assoc. reflexivity.
Qed.
Lemma build_dyes_ok b data data' : zlen (b_dyes b) <= 255 -> build_dyes b data = Ok data' -> data' = data ++ dyes_bytes (b_dyes b).
Proof.
  intros L H. unfold build_dyes in H. apply bind_ok_inv in H. destruct H as (d1 & E & H). inversion H. clear H.
  rewrite (end_indices_spec (fun d => snd d)) with (1 := E). rewrite !append_all_spec.
  rewrite (ends16_0 (fun d : list Z * list Z => fst d)). pose proof (zlen_nonneg (b_dyes b)).
  rewrite u8_id by (unfold byte; lia). unfold dyes_bytes, indexed. rewrite <- !app_assoc. reflexivity.
Qed.
Lemma build_palettes_ok b data data' : zlen (b_palettes b) <= 255 -> build_palettes b data = Ok data' ->
  data' = data ++ palettes_bytes (b_palettes b).
Proof.
  intros L H. unfold build_palettes in H. apply bind_ok_inv in H. destruct H as (d1 & E & H). inversion H. clear H.
  rewrite (end_indices_spec (fun d => snd d)) with (1 := E). rewrite !append_all_spec.
  rewrite (ends16_0 (fun d : list Z * list rgba => fst d)). pose proof (zlen_nonneg (b_palettes b)).
  rewrite u8_id by (unfold byte; lia). unfold palettes_bytes, indexed.
  assert (C : forall l : list (list Z * list rgba), concat (map (fun p => concat (map color_bytes (snd p))) l) =
    concat (map color_bytes (concat (map snd l)))).
  { intros l. induction l as [|x r IH]; [reflexivity|]. cbn [map concat]. rewrite IH, map_app, concat_app. reflexivity. }
  rewrite <- C, <- !app_assoc. reflexivity.
Qed.

(** ** Indices of glyphs and sets *)
Lemma index_lookup_get w uids : forall i m uid, NoDup uids -> 0 <= i -> i + zlen uids <= w ->
  (forall k, In k uids -> m_get Z.eqb m k = None) ->
  let look := (fix go i l m := match l with [] => m | uid :: r => go (i + 1) r (m_set Z.eqb m uid (i mod w)) end) in
  m_get Z.eqb (look i uids m) uid =
  match m_get Z.eqb m uid with Some x => Some x | None =>
    match index_of (Z.eqb uid) i uids with Some x => Some x | None => None end end.
Proof.
  induction uids as [|u r IH]; intros i m uid ND Hi Hw Hn; cbv zeta in *.
  { cbn. destruct (m_get Z.eqb m uid); reflexivity. }
  rewrite zlen_cons in Hw. pose proof (zlen_nonneg r). apply NoDup_cons_iff in ND. destruct ND as [N1 N2].
  rewrite IH; [|exact N2|lia|lia|].
  - rewrite (m_get_set _ Z.eqb_eq). cbn [index_of]. destruct (Z.eqb_spec uid u) as [->|N].
    + rewrite (Hn u) by (left; reflexivity). rewrite Z.mod_small by lia. reflexivity.
    + reflexivity.
  - intros k Hk. rewrite (m_get_set _ Z.eqb_eq). destruct (Z.eqb_spec k u) as [->|]; [contradiction|]. apply Hn. right. exact Hk.
Qed.
Lemma index_of_get uid uids : forall i x, NoDup uids -> index_of (Z.eqb uid) i uids = Some x <-> zget uids (x - i) = Ok uid /\ i <= x.
Proof.
  induction uids as [|u r IH]; intros i x ND; cbn [index_of].
  { split; [discriminate|]. intros [H _]. apply zget_ok_range in H. unfold zlen in H. cbn in H. lia. }
  apply NoDup_cons_iff in ND. destruct ND as [N1 N2]. destruct (Z.eqb_spec uid u) as [->|N].
  - split.
    + intros H. inversion H. rewrite Z.sub_diag. split; [reflexivity|lia].
    + intros [H L]. destruct (Z.eq_dec x i) as [->|N]; [reflexivity|]. rewrite zget_cons_S in H by lia.
      apply zget_in in H. contradiction.
  - rewrite IH by exact N2. split; intros [H L].
    + split; [|lia]. rewrite zget_cons_S by lia. replace (x - i - 1) with (x - (i + 1)) by lia. exact H.
    + destruct (Z.eq_dec x i) as [->|N']; [rewrite Z.sub_diag in H; cbn in H; inversion H; congruence|].
      rewrite zget_cons_S in H by lia. split; [|lia]. replace (x - (i + 1)) with (x - i - 1) by lia. exact H.
Qed.
Lemma lookup_index b uid i : NoDup (b_order b) -> zlen (b_order b) <= 65536 ->
  m_get Z.eqb (index_lookup 0 (b_order b) []) uid = Some i <-> indexed_as b uid i.
Proof.
  intros ND L. pose proof (index_lookup_get 65536 (b_order b) 0 [] uid ND ltac:(lia) ltac:(lia) ltac:(reflexivity)) as E.
  cbv zeta in E. unfold indexed_as. pose proof (index_of_get uid (b_order b) 0 i ND) as P. rewrite Z.sub_0_r in P.
  change (m_get Z.eqb (index_lookup 0 (b_order b) []) uid =
    match index_of (Z.eqb uid) 0 (b_order b) with Some x => Some x | None => None end) in E.
  rewrite E. destruct (index_of (Z.eqb uid) 0 (b_order b)) as [x|] eqn:I.
  - split.
    + intros H. apply P in H. tauto.
    + intros H. apply P. split; [exact H|]. apply zget_ok_range in H. lia.
  - split; [discriminate|]. intros H. exfalso. assert (X : Some i = None); [|discriminate]. symmetry. apply P. split; [exact H|].
    apply zget_ok_range in H. lia.
Qed.
Lemma lookup_set_index b uid i : NoDup (b_setsOrder b) -> zlen (b_setsOrder b) <= 256 ->
  m_get Z.eqb (sets_lookup 0 (b_setsOrder b) []) uid = Some i <-> set_indexed_as b uid i.
Proof.
  intros ND L. pose proof (index_lookup_get 256 (b_setsOrder b) 0 [] uid ND ltac:(lia) ltac:(lia) ltac:(reflexivity)) as E.
  cbv zeta in E. unfold set_indexed_as. pose proof (index_of_get uid (b_setsOrder b) 0 i ND) as P. rewrite Z.sub_0_r in P.
  change (m_get Z.eqb (sets_lookup 0 (b_setsOrder b) []) uid =
    match index_of (Z.eqb uid) 0 (b_setsOrder b) with Some x => Some x | None => None end) in E.
  rewrite E. destruct (index_of (Z.eqb uid) 0 (b_setsOrder b)) as [x|] eqn:I.
  - split.
    + intros H. apply P in H. tauto.
    + intros H. apply P. split; [exact H|]. apply zget_ok_range in H. lia.
  - split; [discriminate|]. intros H. exfalso. assert (X : Some i = None); [|discriminate]. symmetry. apply P. split; [exact H|].
    apply zget_ok_range in H. lia.
Qed.

(** ** Sorting *)
Section SortFacts.
  Context {A : Type} (leb : A -> A -> bool).
  Lemma sort_insert_perm x l : Permutation (sort_insert leb x l) (x :: l).
  Proof.
    induction l as [|y r IH]; cbn; [reflexivity|]. destruct (leb x y); [reflexivity|].
    rewrite IH. apply perm_swap.
  Qed.
  Lemma go_sort_perm l : Permutation (go_sort leb l) l.
  Proof. unfold go_sort. induction l as [|x r IH]; cbn; [constructor|]. rewrite sort_insert_perm, IH. reflexivity. Qed.
  Context (le : A -> A -> Prop).
  Hypothesis le_trans : forall a b c, le a b -> le b c -> le a c.
  Hypothesis leb_le : forall a b, leb a b = true -> le a b.
  Hypothesis leb_total : forall a b, leb a b = false -> le b a.
  Lemma sort_insert_ordered x l : ordered le l -> ordered le (sort_insert leb x l).
  Proof.
    induction l as [|y r IH]; intros H; cbn; [split; [easy|exact I]|]. destruct H as [H1 H2].
    destruct (leb x y) eqn:E; cbn.
    - apply leb_le in E. split; [|split; assumption]. intros z [<-|Hz]; [exact E|]. eapply le_trans; [exact E|auto].
    - apply leb_total in E. split; [|apply IH; exact H2]. intros z Hz.
      apply (Permutation_in _ (sort_insert_perm x r)) in Hz. destruct Hz as [<-|Hz]; [exact E|auto].
  Qed.
  Lemma go_sort_ordered l : ordered le (go_sort leb l).
  Proof. unfold go_sort. induction l as [|x r IH]; cbn; [exact I|]. apply sort_insert_ordered. exact IH. Qed.
End SortFacts.
Lemma ordered_map {A B} (f : A -> B) (le : B -> B -> Prop) l : ordered (fun x y => le (f x) (f y)) l -> ordered le (map f l).
Proof.
  induction l as [|x r IH]; cbn; [auto|]. intros [H1 H2]. split; [|auto]. intros y Hy. apply in_map_iff in Hy.
  destruct Hy as (z & <- & Hz). auto.
Qed.
Lemma ordered_strict {A} (le lt : A -> A -> Prop) l : (forall a b, le a b -> a <> b -> lt a b) -> NoDup l -> ordered le l -> ordered lt l.
Proof.
  intros HL. induction l as [|x r IH]; cbn; [auto|]. intros ND [H1 H2]. apply NoDup_cons_iff in ND. destruct ND as [N1 N2].
  split; [|auto]. intros y Hy. apply HL; [auto|]. intros ->. contradiction.
Qed.
