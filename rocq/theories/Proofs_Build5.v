(** What each part of Build appends: conditions, sets and rules. *)
From Coq Require Import Permutation.
From Verif Require Import Base BaseFacts Spec_Helpers Model_Helpers Proofs_Helpers Spec_Names Model_Names Proofs_Names Model_Date
  Model_Mask Spec_Mask Model_Font Model_Words Model_Parse Spec_Format Proofs_Format Spec_Layout Spec_LayoutFont
  Model_Builder Spec_Builder Proofs_Builder Proofs_Build Proofs_Build2 Proofs_Build3 Proofs_Build4.

Lemma build_conditions_ok b data data' : b_conditions b = [] -> build_conditions b data = Ok data' -> data' = data ++ conditions_bytes [].
Proof. intros E. unfold build_conditions. rewrite E. intros H. inversion H. reflexivity. Qed.
Lemma build_utf8_sets_ok b data data' : build_utf8_sets b data = Ok data' -> data' = data ++ sets_bytes 4 [].
Proof. unfold build_utf8_sets. destruct (_ >? 0); [discriminate|]. intros H. inversion H. reflexivity. Qed.

(** ** Glyph sets *)
Section Sets.
  Variable b : builder.
  Let lookup := index_lookup 0 (b_order b) [].
  Hypothesis ND : NoDup (b_order b).
  Hypothesis HL : zlen (b_order b) <= 65535.
  Lemma look_err_ok msg uid i : look_err lookup msg uid = Ok i <-> indexed_as b uid i.
  Proof.
    unfold look_err, lookup. rewrite <- lookup_index by (assumption || lia).
    destruct (m_get Z.eqb _ uid); split; intros H; inversion H; reflexivity.
  Qed.
  Lemma append_range_ok data r data' : append_range lookup data r = Ok data' ->
    exists x, (indexed_as b (fst r) (fst x) /\ indexed_as b (snd r) (fst x + snd x) /\ byte (snd x)) /\
      data' = data ++ le_digits 2 (fst x) ++ [snd x].
  Proof.
    unfold append_range. intros H. apply bind_ok_inv in H. destruct H as (i & Ei & H). apply look_err_ok in Ei.
    destruct (Z.eqb_spec (fst r) (snd r)) as [E|N].
    - inversion H. exists (i, 0). cbn [fst snd]. rewrite Z.add_0_r, <- E, append16_spec, <- app_assoc. repeat split; auto; unfold byte; lia.
    - apply bind_ok_inv in H. destruct H as (j & Ej & H). apply look_err_ok in Ej. cbv zeta in H.
      destruct (Z.ltb_spec j i); [discriminate|]. apply indexed_range in Ei as Ri. apply indexed_range in Ej as Rj.
      assert (U : u16 (j - i) = j - i) by (unfold u16; lia). rewrite U in H.
      destruct (Z.gtb_spec (j - i) 255); [discriminate|]. inversion H. exists (i, j - i). cbn [fst snd].
      replace (i + (j - i)) with j by lia. rewrite append16_spec, u8_id, <- app_assoc by (unfold byte; lia). repeat split; auto; lia.
  Qed.
  Lemma append_ranges_ok rs : forall data data', ofold (append_range lookup) rs data = Ok data' ->
    exists xs, Forall2 (fun r x => indexed_as b (fst r) (fst x) /\ indexed_as b (snd r) (fst x + snd x) /\ byte (snd x)) rs xs /\
      data' = data ++ concat (map (fun r => le_digits 2 (fst r) ++ [snd r]) xs).
  Proof.
    induction rs as [|r t IH]; intros data data'; cbn [ofold]; [intros H; inversion H; exists []; rewrite app_nil_r; split; [constructor|reflexivity]|].
    intros H. apply bind_ok_inv in H. destruct H as (d & E & H). apply append_range_ok in E. destruct E as (x & X & ->).
    apply IH in H. destruct H as (xs & XS & ->). exists (x :: xs). split; [constructor; assumption|]. cbn. rewrite <- !app_assoc. reflexivity.
  Qed.
  Lemma append_elems_ok (msg : string) us : forall data data',
    ofold (fun data uid => do i <- look_err lookup msg uid; Ok (AppendUint16LE data i)) us data = Ok data' ->
    exists xs, Forall2 (indexed_as b) us xs /\ data' = data ++ concat (map (le_digits 2) xs).
  Proof.
    induction us as [|u t IH]; intros data data'; cbn [ofold]; [intros H; inversion H; exists []; rewrite app_nil_r; split; [constructor|reflexivity]|].
    intros H. apply bind_ok_inv in H. destruct H as (d & E & H). apply bind_ok_inv in E. destruct E as (i & Ei & E). inversion E. subst d.
    apply look_err_ok in Ei. apply IH in H. destruct H as (xs & XS & ->). exists (i :: xs). split; [constructor; assumption|].
    rewrite append16_spec. cbn. rewrite <- app_assoc. reflexivity.
  Qed.
  Lemma set_AppendTo_ok s data data' : set_AppendTo lookup s data = Ok data' ->
    exists t, set_described b s t /\ zlen (set_ranges t) < 255 /\ zlen (set_elements t) < 255 /\ zlen (set_bytes 2 t) = set_GetSize s /\ data' = data ++ set_bytes 2 t.
  Proof.
    unfold set_AppendTo. pose proof (zlen_nonneg (bs_ranges s)). pose proof (zlen_nonneg (bs_list s)).
    destruct (Z.geb_spec (zlen (bs_ranges s)) 255); [discriminate|]. destruct (Z.geb_spec (zlen (bs_list s)) 255); [discriminate|].
    intros H'. apply bind_ok_inv in H'. destruct H' as (d & E & H'). apply append_ranges_ok in E. destruct E as (xs & X & ->).
    apply append_elems_ok in H'. destruct H' as (ys & Y & ->). exists (mkSet xs ys).
    assert (LX : zlen (bs_ranges s) = zlen xs) by (unfold zlen; rewrite (Forall2_len _ _ _ X); reflexivity).
    assert (LY : zlen (bs_list s) = zlen ys) by (unfold zlen; rewrite (Forall2_len _ _ _ Y); reflexivity).
    split; [split; assumption|]. cbn [set_ranges set_elements]. split; [lia|]. split; [lia|]. split.
    - unfold set_bytes, set_GetSize. cbn [set_ranges set_elements]. rewrite zlen_cons, zlen_app, zlen_cons.
      assert (C1 : zlen (concat (map (fun r : Z * Z => le_digits 2 (fst r) ++ [snd r]) xs)) = 3 * zlen xs).
      { clear. induction xs as [|x r IH]; [reflexivity|]. cbn [map concat]. rewrite !zlen_app, IH, !zlen_cons, zlen_le_digits, zlen_nil. lia. }
      assert (C2 : zlen (concat (map (le_digits 2) ys)) = 2 * zlen ys).
      { clear. induction ys as [|x r IH]; [reflexivity|]. cbn [map concat]. rewrite !zlen_app, IH, !zlen_cons, zlen_le_digits. lia. }
      rewrite C1, C2, !Z.shiftl_mul_pow2 by lia. unfold u32. rewrite Z.mod_small by lia. lia.
    - unfold set_bytes. cbn [set_ranges set_elements]. rewrite !u8_id by (unfold byte; lia). rewrite LX, LY. rewrite <- !app_assoc. reflexivity.
  Qed.
  Hypothesis NS : NoDup (map fst (b_glyphSets b)).
  Lemma set_ends_ok uids : forall acc data data', 0 <= acc <= 65535 -> set_ends b uids acc data = Ok data' ->
    exists ss, Forall2 (fun uid s => In (uid, s) (b_glyphSets b)) uids ss /\
      forall bs : list (list Z), map zlen bs = map set_GetSize ss -> Forall (fun x => zlen x <= 1000000) bs ->
        data' = data ++ ends_bytes 2 acc bs /\ acc + zlen (concat bs) <= 65535.
  Proof.
    induction uids as [|uid r IH]; intros acc data data' HA; cbn [set_ends].
    { intros H. inversion H. exists []. split; [constructor|]. intros [|x y] E _; [|discriminate]. unfold ends_bytes. cbn [end_offsets map concat]. rewrite app_nil_r, zlen_nil. split; [reflexivity|lia]. }
    destruct (m_get Z.eqb (b_glyphSets b) uid) as [s|] eqn:G; [|discriminate]. cbv zeta. apply (m_get_in _ Z.eqb_eq) in G.
    destruct (Z.gtb_spec (u32 (acc + set_GetSize s)) 65535) as [|L]; [discriminate|]. intros H.
    apply IH in H; [|unfold u32 in *; lia]. destruct H as (ss & F & E). exists (s :: ss). split; [constructor; assumption|].
    intros [|x bs] EB FB; [discriminate|]. cbn [map] in EB. inversion EB as [[E1 E2]].
    pose proof (Forall_inv FB) as L1. cbn beta in L1. apply Forall_inv_tail in FB. pose proof (zlen_nonneg x).
    assert (U : u32 (acc + set_GetSize s) = acc + zlen x) by (unfold u32; rewrite <- E1, Z.mod_small; lia).
    rewrite U in *. destruct (E bs E2 FB) as [-> E3]. rewrite append16_spec, digits2_u16.
    cbn [concat]. rewrite zlen_app. split; [|lia].
    unfold ends_bytes. cbn [end_offsets map concat]. rewrite <- app_assoc. reflexivity.
  Qed.
  Lemma append_sets_ok uids : forall data data',
    ofold (fun data uid => match m_get Z.eqb (b_glyphSets b) uid with
                 | Some s => set_AppendTo lookup s data
                 | None => set_AppendTo lookup (mkBSet [] []) data end) uids data = Ok data' ->
    forall ss, Forall2 (fun uid s => In (uid, s) (b_glyphSets b)) uids ss ->
    exists ts, Forall2 (set_described b) ss ts /\ Forall (fun t => zlen (set_ranges t) < 255 /\ zlen (set_elements t) < 255) ts /\
      map zlen (map (set_bytes 2) ts) = map set_GetSize ss /\
      Forall (fun x => zlen x <= 1000000) (map (set_bytes 2) ts) /\ data' = data ++ concat (map (set_bytes 2) ts).
  Proof.
    induction uids as [|uid r IH]; intros data data' H ss F; inversion F as [|? s ? sr H1 H2]; subst; cbn [ofold] in H.
    { inversion H. exists []. cbn. rewrite app_nil_r. repeat split; constructor. }
    apply bind_ok_inv in H. destruct H as (d & E & H). rewrite (m_get_unique _ Z.eqb_eq _ _ _ NS H1) in E.
    apply set_AppendTo_ok in E. destruct E as (t & T1 & T2 & T3 & T4 & ->). apply (IH _ _ H) in H2. destruct H2 as (ts & S1 & S2 & S3 & S4 & ->).
    exists (t :: ts). split; [constructor; assumption|]. split; [constructor; auto|]. cbn [map]. rewrite S3, T4. split; [reflexivity|].
    split.
    - constructor; [|exact S4]. rewrite T4. unfold set_GetSize. destruct T1 as [U1 U2]. apply Forall2_len in U1. apply Forall2_len in U2.
      unfold zlen in *. rewrite U1, U2, !Z.shiftl_mul_pow2 by lia. unfold u32. rewrite Z.mod_small; lia.
    - cbn [concat]. rewrite <- app_assoc. reflexivity.
  Qed.
  Lemma build_glyph_sets_ok data gl data' : incl (map fst (b_glyphSets b)) (b_setsOrder b) -> build_glyph_sets b lookup data = Ok (gl, data') ->
    exists ts, glyph_sets_described b ts /\ data' = data ++ sets_bytes 2 ts /\ zlen ts <= 255 /\ NoDup (b_setsOrder b) /\
      Forall (fun t => zlen (set_ranges t) < 255 /\ zlen (set_elements t) < 255) ts /\
      zlen (concat (map (set_bytes 2) ts)) <= 65535 /\
      forall msg uid i, look_err gl msg uid = Ok i <-> set_indexed_as b uid i.
  Proof.
    intros HI. unfold build_glyph_sets. cbv zeta. pose proof (zlen_nonneg (b_glyphSets b)) as NN.
    destruct (Z.gtb_spec (zlen (b_glyphSets b)) 255); [discriminate|].
    destruct (Z.eqb_spec (zlen (b_glyphSets b)) (zlen (b_setsOrder b))) as [LE|]; [|discriminate]. cbn [negb].
    assert (NO : NoDup (b_setsOrder b)).
    { apply (NoDup_incl_NoDup NS); [|exact HI]. rewrite map_length. unfold zlen in LE. lia. }
    destruct (Z.gtb_spec (zlen (b_glyphSets b)) 0) as [P|Z0].
    - intros H'. apply bind_ok_inv in H'. destruct H' as (d & E & H'). apply bind_ok_inv in H'. destruct H' as (d' & E' & H'). inversion H'. subst gl d'. clear H'.
      apply set_ends_ok in E; [|lia]. destruct E as (ss & F & E). apply (append_sets_ok _ _ _ E' ss) in F as G. destruct G as (ts & T1 & T2 & T3 & T4 & ->).
      destruct (E _ T3 T4) as [-> L]. exists ts.
      assert (LT : zlen ts = zlen (b_glyphSets b)).
      { rewrite LE. unfold zlen. rewrite (Forall2_len _ _ _ F), (Forall2_len _ _ _ T1). reflexivity. }
      split.
      { unfold glyph_sets_described. clear - F T1. revert ts T1. induction F as [|u s us ss H _ IH]; intros ts T1; inversion T1; subst; constructor; eauto. }
      rewrite u8_id by (unfold byte; lia). rewrite <- LT. unfold sets_bytes, indexed. rewrite <- !app_assoc. split; [reflexivity|].
      split; [lia|]. split; [exact NO|]. split; [exact T2|]. split; [lia|]. intros msg uid i. rewrite <- lookup_set_index by (assumption || lia).
      unfold look_err. destruct (m_get Z.eqb (sets_lookup 0 (b_setsOrder b) []) uid); split; intros H'; inversion H'; reflexivity.
    - intros H'. inversion H'. subst gl. assert (S0 : b_glyphSets b = []) by (apply zlen_0_nil; lia). assert (S1 : b_setsOrder b = []) by (apply zlen_0_nil; lia).
      exists []. rewrite S0. unfold glyph_sets_described. rewrite S1. split; [constructor|]. split; [reflexivity|]. split; [rewrite zlen_nil; lia|]. split; [constructor|].
      split; [constructor|]. split; [cbn [map concat]; rewrite zlen_nil; lia|]. intros msg uid i. unfold set_indexed_as. rewrite S1. split; [discriminate|]. intros X. apply zget_ok_range in X. rewrite zlen_nil in X. lia.
  Qed.
End Sets.

(** ** Rules *)
Lemma zslice_mid {A} (p m s : list A) a c : a = zlen p -> c = zlen p + zlen m -> zslice (p ++ m ++ s) a c = Ok m.
Proof. intros -> ->. apply zslice_app; reflexivity. Qed.
Section Rules.
  Variable w : nat.
  Variable elem : list Z -> Z -> outcome (list Z).
  Variable gl : list (Z * Z).
  Variable elemR setR : Z -> Z -> Prop.
  Hypothesis elem_ok : forall data x d, elem data x = Ok d -> exists i, elemR x i /\ d = data ++ le_digits w i.
  Hypothesis gl_ok : forall msg uid i, look_err gl msg uid = Ok i -> setR uid i.
  Definition inputR (x y : bool * Z) : Prop := fst x = fst y /\ if fst x then setR (snd x) (snd y) else elemR (snd x) (snd y).
  Definition small_fragment (f : list Z * list Z) : Prop := zlen (fst f) <= 15 /\ zlen (snd f) <= 15.

  Lemma elems_ok xs : forall data d, ofold elem xs data = Ok d -> exists is, Forall2 elemR xs is /\ d = data ++ concat (map (le_digits w) is).
  Proof.
    induction xs as [|x r IH]; intros data d; cbn [ofold]; [intros H; inversion H; exists []; rewrite app_nil_r; split; [constructor|reflexivity]|].
    intros H. apply bind_ok_inv in H. destruct H as (d1 & E & H). apply elem_ok in E. destruct E as (i & R1 & ->). apply IH in H. destruct H as (is & R2 & ->).
    exists (i :: is). split; [constructor; assumption|]. cbn. rewrite <- app_assoc. reflexivity.
  Qed.
  Lemma groups_ok msg xs : forall data d, ofold (fun data uid => do g <- look_err gl msg uid; Ok (data ++ [g])) xs data = Ok d ->
    exists is, Forall2 setR xs is /\ d = data ++ is.
  Proof.
    induction xs as [|x r IH]; intros data d; cbn [ofold]; [intros H; inversion H; exists []; rewrite app_nil_r; split; [constructor|reflexivity]|].
    intros H. apply bind_ok_inv in H. destruct H as (d1 & E & H). apply bind_ok_inv in E. destruct E as (i & E & E'). inversion E'. subst d1.
    apply gl_ok in E. apply IH in H. destruct H as (is & R2 & ->).
    exists (i :: is). split; [constructor; assumption|]. rewrite <- app_assoc. reflexivity.
  Qed.
  Lemma Forall2_pair (k : bool) xs is : Forall2 (if k then setR else elemR) xs is -> Forall2 inputR (map (pair k) xs) (map (pair k) is).
  Proof. induction 1; cbn; constructor; [|assumption]. split; [reflexivity|]. cbn. destruct k; assumption. Qed.
  Lemma accumulated_ok gs es data d : zlen gs <= 15 -> zlen es <= 15 -> appendAccumulatedInBlock elem gl gs es data = Ok d ->
    exists f, Forall2 inputR (map (pair true) gs ++ map (pair false) es) (flat [f]) /\ small_fragment f /\
      fragment_length f = zlen gs + zlen es /\ d = data ++ fragment_bytes w f.
  Proof.
    intros LG LE. unfold appendAccumulatedInBlock. cbv zeta. intros H. apply bind_ok_inv in H. destruct H as (d1 & E & H).
    apply groups_ok in E. destruct E as (gi & G & ->). apply elems_ok in H. destruct H as (ei & E & ->). exists (gi, ei).
    assert (L1 : zlen gs = zlen gi) by (unfold zlen; rewrite (Forall2_len _ _ _ G); reflexivity).
    assert (L2 : zlen es = zlen ei) by (unfold zlen; rewrite (Forall2_len _ _ _ E); reflexivity).
    pose proof (zlen_nonneg gi). pose proof (zlen_nonneg ei). rewrite L1, L2 in *.
    split; [|split; [split; cbn; lia|split; [reflexivity|]]].
    - unfold flat. cbn [map concat fst snd]. rewrite app_nil_r. apply Forall2_app; apply Forall2_pair; assumption.
    - unfold fragment_bytes. cbn [fst snd].
      assert (Eb : Z.lor (u8 (Z.shiftl (u8 (zlen gi)) 4)) (u8 (zlen ei)) = 16 * zlen gi + zlen ei).
      { rewrite !(u8_id (zlen _)) by (unfold byte; lia). rewrite Z.shiftl_mul_pow2 by lia. change (2 ^ 4) with 16.
        rewrite u8_id by (unfold byte; lia). rewrite Z.lor_comm. change 16 with (2 ^ 4) at 1. rewrite lor_add_mul; [change (2 ^ 4) with 16; lia|lia|]. change (2 ^ 4) with 16. lia. }
      rewrite Eb, <- !app_assoc. reflexivity.
  Qed.

  Variable r : brule.
  Variable input : list (bool * Z).
  Hypothesis RI : rule_input r input.
  Definition elements (l : list (bool * Z)) : list Z := map snd (filter (fun x => negb (fst x)) l).
  Definition sets_of (l : list (bool * Z)) : list Z := map snd (filter fst l).
  (* the state after the part [dn] of the input has been written, with [gs] and [es] pending *)
  Record pending (s : rstate) (dn : list (bool * Z)) (gs es : list Z) : Prop := {
    pn_in : rs_in s = zlen dn + zlen gs + zlen es;
    pn_groups : rs_groups s = zlen (sets_of dn); pn_list : rs_list s = zlen (elements dn);
    pn_accG : rs_accGroups s = zlen gs; pn_accE : rs_accElems s = zlen es }.
  Definition pend (gs es : list Z) : list (bool * Z) := map (pair true) gs ++ map (pair false) es.
  Lemma sets_of_app a b : sets_of (a ++ b) = sets_of a ++ sets_of b.
  Proof. unfold sets_of. rewrite filter_app, map_app. reflexivity. Qed.
  Lemma elements_app a b : elements (a ++ b) = elements a ++ elements b.
  Proof. unfold elements. rewrite filter_app, map_app. reflexivity. Qed.
  Lemma sets_of_pair k l : sets_of (map (pair k) l) = if k then l else [].
  Proof. unfold sets_of. induction l as [|x t IH]; cbn; [destruct k; reflexivity|]. destruct k; cbn; [rewrite IH; reflexivity|exact IH]. Qed.
  Lemma elements_pair k l : elements (map (pair k) l) = if k then [] else l.
  Proof. unfold elements. induction l as [|x t IH]; cbn; [destruct k; reflexivity|]. destruct k; cbn; [exact IH|rewrite IH; reflexivity]. Qed.
  Lemma zlen_pend gs es : zlen (pend gs es) = zlen gs + zlen es.
  Proof. unfold pend. rewrite zlen_app, !zlen_map. reflexivity. Qed.

  Lemma flush_ok s dn gs es rest s' : pending s dn gs es -> input = dn ++ pend gs es ++ rest -> zlen gs <= 15 -> zlen es <= 15 ->
    flush elem gl r s = Ok s' ->
    exists f, Forall2 inputR (pend gs es) (flat [f]) /\ small_fragment f /\ fragment_length f = zlen gs + zlen es /\
      rs_data s' = rs_data s ++ fragment_bytes w f /\ pending s' (dn ++ pend gs es) [] [].
  Proof.
    intros P EI LG LE H. destruct RI as (RG & RE & _). unfold flush in H. rewrite (pn_accG _ _ _ _ P), (pn_accE _ _ _ _ P), (pn_groups _ _ _ _ P), (pn_list _ _ _ _ P), (pn_in _ _ _ _ P) in H.
    change (map snd (filter fst input)) with (sets_of input) in RG. change (map snd (filter (fun x => negb (fst x)) input)) with (elements input) in RE.
    assert (SG : sets_of (pend gs es) = gs) by (unfold pend; rewrite sets_of_app, !sets_of_pair, app_nil_r; reflexivity).
    assert (SE : elements (pend gs es) = es) by (unfold pend; rewrite elements_app, !elements_pair; reflexivity).
    rewrite RG, RE, EI, !sets_of_app, !elements_app, SG, SE in H.
    rewrite !zslice_mid in H by reflexivity. cbn [bind] in H.
    apply bind_ok_inv in H. destruct H as (d & E & H). apply accumulated_ok in E; try assumption. destruct E as (f & F1 & F2 & F3 & ->).
    inversion H. exists f. split; [exact F1|]. split; [exact F2|]. split; [exact F3|]. split; [reflexivity|].
    constructor; cbn [rs_in rs_groups rs_list rs_accGroups rs_accElems]; rewrite ?zlen_nil, ?zlen_app, ?zlen_pend, ?sets_of_app, ?elements_app, ?zlen_app, ?SG, ?SE; lia.
  Qed.

  Lemma block_elems_ok : forall part s has dn gs es rest s' has', pending s dn gs es -> input = dn ++ pend gs es ++ part ++ rest ->
    zlen gs <= 15 -> zlen es <= 15 -> block_elems (length part) elem gl r s has = Ok (s', has') ->
    exists frs moved gs' es', rs_data s' = rs_data s ++ block_bytes w frs /\ pend gs es ++ part = moved ++ pend gs' es' /\
      Forall2 inputR moved (flat frs) /\ Forall small_fragment frs /\ block_length frs = zlen moved /\ Forall (fun f => 0 < fragment_length f) frs /\
      has' = (has || negb (match frs with [] => true | _ => false end)) /\ pending s' (dn ++ moved) gs' es' /\ zlen gs' <= 15 /\ zlen es' <= 15.
  Proof.
    destruct RI as (_ & _ & RF).
    induction part as [|[k x] part IH]; intros s has dn gs es rest s' has' P EI LG LE; cbn [block_elems length].
    { intros H. inversion H. exists [], [], gs, es. subst s' has'. rewrite !app_nil_r, orb_false_r. split; [reflexivity|]. split; [reflexivity|]. split; [exact (Forall2_nil _)|]. split; [constructor|]. split; [reflexivity|]. split; [constructor|]. repeat split; auto; destruct P; assumption. }
    assert (ZI : zget input (rs_in s) = Ok (k, x)).
    { rewrite (pn_in _ _ _ _ P), EI, app_assoc. rewrite zget_app_r by (rewrite zlen_app, zlen_pend; lia).
      rewrite zlen_app, zlen_pend. replace (_ - _) with 0 by lia. reflexivity. }
    rewrite (RF _ _ _ ZI). cbn [bind]. destruct k.
    - destruct (negb (rs_accElems s =? 0) || (rs_accGroups s =? 15)) eqn:G.
      + intros H. apply bind_ok_inv in H. destruct H as ([s1 h1] & E & H). apply bind_ok_inv in E. destruct E as (s2 & E & E'). inversion E'. subst s2 h1. clear E'.
        apply (flush_ok _ dn gs es ((true, x) :: part ++ rest)) in E; try assumption. destruct E as (f & F1 & F2 & F3 & F4 & P').
        apply (IH _ _ (dn ++ pend gs es) [x] [] rest) in H.
        * destruct H as (frs & moved & gs' & es' & D & M & R & SM & BL & NE & -> & P2 & B1 & B2).
          exists (f :: frs), (pend gs es ++ moved), gs', es'.
          split; [rewrite D; cbn [rs_data]; rewrite F4; unfold block_bytes; cbn [map concat]; rewrite <- app_assoc; reflexivity|].
          split; [rewrite <- app_assoc, <- M; reflexivity|].
          split. { change (flat (f :: frs)) with (flat ([f] ++ frs)). unfold flat. rewrite map_app, concat_app. apply Forall2_app; assumption. }
          split; [constructor; assumption|]. split; [unfold block_length in *; cbn [map fold_right]; rewrite BL, F3, zlen_app, zlen_pend; reflexivity|].
          split; [constructor; [rewrite F3, <- (pn_accG _ _ _ _ P), <- (pn_accE _ _ _ _ P); pose proof (zlen_nonneg gs); pose proof (zlen_nonneg es); rewrite (pn_accG _ _ _ _ P), (pn_accE _ _ _ _ P) in *; lia|exact NE]|].
          split; [rewrite orb_true_r; reflexivity|]. split; [rewrite app_assoc; exact P2|]. auto.
        * destruct P' as [Q1 Q2 Q3 Q4 Q5]. rewrite zlen_nil in *. constructor; cbn [rs_in rs_groups rs_list rs_accGroups rs_accElems]; rewrite ?zlen_cons, ?zlen_nil; lia.
        * rewrite EI, <- !app_assoc. reflexivity.
        * rewrite zlen_cons, zlen_nil. lia.
        * rewrite zlen_nil. lia.
      + apply orb_false_iff in G. destruct G as [G1 G2]. rewrite (pn_accE _ _ _ _ P) in G1. rewrite (pn_accG _ _ _ _ P) in G2.
        assert (E0 : es = []) by (apply zlen_0_nil; lia). subst es. cbn [bind]. intros H.
        apply (IH _ _ dn (gs ++ [x]) [] rest) in H.
        * destruct H as (frs & moved & gs' & es' & D & M & H). exists frs, moved, gs', es'. split; [exact D|]. split; [|exact H].
          rewrite <- M. unfold pend. rewrite map_app, <- !app_assoc. reflexivity.
        * destruct P as [Q1 Q2 Q3 Q4 Q5]. rewrite zlen_nil in *. constructor; cbn [rs_in rs_groups rs_list rs_accGroups rs_accElems]; rewrite ?zlen_app, ?zlen_cons, ?zlen_nil; lia.
        * rewrite EI. unfold pend. rewrite map_app, <- !app_assoc. reflexivity.
        * rewrite zlen_app, zlen_cons, zlen_nil. lia.
        * rewrite zlen_nil. lia.
    - destruct (rs_accElems s =? 15) eqn:G.
      + intros H. apply bind_ok_inv in H. destruct H as ([s1 h1] & E & H). apply bind_ok_inv in E. destruct E as (s2 & E & E'). inversion E'. subst s2 h1. clear E'.
        apply (flush_ok _ dn gs es ((false, x) :: part ++ rest)) in E; try assumption. destruct E as (f & F1 & F2 & F3 & F4 & P').
        apply (IH _ _ (dn ++ pend gs es) [] [x] rest) in H.
        * destruct H as (frs & moved & gs' & es' & D & M & R & SM & BL & NE & -> & P2 & B1 & B2).
          exists (f :: frs), (pend gs es ++ moved), gs', es'.
          split; [rewrite D; cbn [rs_data]; rewrite F4; unfold block_bytes; cbn [map concat]; rewrite <- app_assoc; reflexivity|].
          split; [rewrite <- app_assoc, <- M; reflexivity|].
          split. { change (flat (f :: frs)) with (flat ([f] ++ frs)). unfold flat. rewrite map_app, concat_app. apply Forall2_app; assumption. }
          split; [constructor; assumption|]. split; [unfold block_length in *; cbn [map fold_right]; rewrite BL, F3, zlen_app, zlen_pend; reflexivity|].
          split; [constructor; [rewrite F3, <- (pn_accG _ _ _ _ P), <- (pn_accE _ _ _ _ P); pose proof (zlen_nonneg gs); pose proof (zlen_nonneg es); rewrite (pn_accG _ _ _ _ P), (pn_accE _ _ _ _ P) in *; lia|exact NE]|].
          split; [rewrite orb_true_r; reflexivity|]. split; [rewrite app_assoc; exact P2|]. auto.
        * destruct P' as [Q1 Q2 Q3 Q4 Q5]. rewrite zlen_nil in *. constructor; cbn [rs_in rs_groups rs_list rs_accGroups rs_accElems]; rewrite ?zlen_cons, ?zlen_nil; lia.
        * rewrite EI, <- !app_assoc. reflexivity.
        * rewrite zlen_nil. lia.
        * rewrite zlen_cons, zlen_nil. lia.
      + rewrite (pn_accE _ _ _ _ P) in G. cbn [bind]. intros H.
        apply (IH _ _ dn gs (es ++ [x]) rest) in H.
        * destruct H as (frs & moved & gs' & es' & D & M & H). exists frs, moved, gs', es'. split; [exact D|]. split; [|exact H].
          rewrite <- M. unfold pend. rewrite map_app, <- !app_assoc. reflexivity.
        * destruct P as [Q1 Q2 Q3 Q4 Q5]. constructor; cbn [rs_in rs_groups rs_list rs_accGroups rs_accElems]; rewrite ?zlen_app, ?zlen_cons, ?zlen_nil; lia.
        * rewrite EI. unfold pend. rewrite map_app, <- !app_assoc. reflexivity.
        * lia.
        * rewrite zlen_app, zlen_cons, zlen_nil. lia.
  Qed.
  Lemma append_block_ok s dn part rest s' : pending s dn [] [] -> input = dn ++ part ++ rest ->
    append_block elem gl r s (zlen part) = Ok s' ->
    exists frs, rs_data s' = rs_data s ++ block_bytes w frs /\ Forall2 inputR part (flat frs) /\ Forall small_fragment frs /\
      block_length frs = zlen part /\ block_shaped frs /\ pending s' (dn ++ part) [] [].
  Proof.
    intros P EI. unfold append_block. intros H. apply bind_ok_inv in H. destruct H as ([s1 h1] & E & H).
    replace (Z.to_nat (zlen part)) with (length part) in E by (unfold zlen; lia).
    apply (block_elems_ok part s false dn [] [] rest) in E; try assumption; try (rewrite zlen_nil; lia).
    destruct E as (frs & moved & gs & es & D & M & R & SM & BL & NE & -> & P2 & B1 & B2). cbn [pend map app] in M.
    assert (EI' : input = (dn ++ moved) ++ pend gs es ++ rest) by (rewrite EI, M, <- !app_assoc; reflexivity).
    pose proof (zlen_nonneg gs). pose proof (zlen_nonneg es).
    destruct ((rs_accGroups s1 >? 0) || (rs_accElems s1 >? 0)) eqn:G.
    - apply (flush_ok _ _ _ _ _ _ P2 EI' B1 B2) in H. destruct H as (f & F1 & F2 & F3 & F4 & P').
      exists (frs ++ [f]). split; [rewrite F4, D; unfold block_bytes; rewrite map_app, concat_app; cbn [map concat]; rewrite app_nil_r, app_assoc; reflexivity|].
      split. { rewrite M. unfold flat. rewrite map_app, concat_app. apply Forall2_app; [exact R|exact F1]. }
      split; [apply Forall_app; split; [exact SM|constructor; [exact F2|constructor]]|].
      split. { rewrite M, zlen_app, zlen_pend. unfold block_length in *. rewrite map_app, fold_right_app. cbn [map fold_right]. rewrite Z.add_0_r, F3.
        rewrite <- BL. clear. induction (map fragment_length frs); cbn [fold_right]; lia. }
      split. { right. split; [destruct frs; discriminate|]. apply Forall_app. split; [exact NE|]. constructor; [|constructor]. rewrite F3. rewrite (pn_accG _ _ _ _ P2), (pn_accE _ _ _ _ P2) in G. lia. }
      rewrite M, app_assoc. exact P'.
    - rewrite (pn_accG _ _ _ _ P2), (pn_accE _ _ _ _ P2) in G. apply orb_false_iff in G. destruct G as [G1 G2].
      assert (E1 : gs = []) by (apply zlen_0_nil; lia). assert (E2 : es = []) by (apply zlen_0_nil; lia). subst gs es.
      cbn [pend map app] in M. rewrite app_nil_r in M. subst moved. cbn [orb] in H. destruct frs as [|f frs]; cbn [negb] in H.
      + inversion H. exists [([], [])]. cbn [rs_data]. split; [rewrite D; unfold block_bytes; cbn; rewrite app_nil_r; reflexivity|].
        split; [exact R|]. split; [constructor; [split; cbn; lia|constructor]|]. split; [exact BL|]. split; [left; reflexivity|].
        destruct P2; constructor; assumption.
      + inversion H. subst s1. exists (f :: frs). split; [exact D|]. split; [exact R|]. split; [exact SM|]. split; [exact BL|]. split; [right; split; [discriminate|exact NE]|]. destruct P2; constructor; assumption.
  Qed.
  Hypothesis RB : 0 <= br_headLen r /\ 0 <= br_bodyLen r /\ 0 <= br_tailLen r.
  Lemma rule_AppendTo_ok data d : rule_AppendTo elem gl r data = Ok d ->
    exists t, d = data ++ rule_bytes w t /\
      rule_condition t = br_condition r /\
      block_length (rule_head t) = br_headLen r /\ block_length (rule_body t) = br_bodyLen r /\ br_bodyLen r <> 0 /\
      block_length (rule_tail t) = br_tailLen r /\
      Forall2 elemR (br_output r) (rule_out t) /\ zlen (rule_out t) <= 255 /\
      Forall2 inputR input (flat (rule_head t) ++ flat (rule_body t) ++ flat (rule_tail t)) /\
      Forall small_fragment (rule_head t ++ rule_body t ++ rule_tail t) /\
      block_shaped (rule_head t) /\ block_shaped (rule_body t) /\ block_shaped (rule_tail t).
  Proof.
    unfold rule_AppendTo. cbv zeta. destruct (Z.gtb_spec (zlen (br_output r)) 255); [discriminate|].
    destruct (Z.eqb_spec (br_bodyLen r) 0); [discriminate|].
    destruct (Z.eqb_spec (zlen (br_elems r) + zlen (br_groups r)) (br_headLen r + br_bodyLen r + br_tailLen r)) as [T|]; [|discriminate]. cbn [negb].
    assert (TI : zlen input = br_headLen r + br_bodyLen r + br_tailLen r).
    { destruct RI as (RG & RE & _). rewrite <- T, RG, RE, !zlen_map. clear. induction input as [|[[|] x] t IH]; [reflexivity| |]; cbn [filter fst negb]; rewrite !zlen_cons; lia. }
    intros H'. apply bind_ok_inv in H'. destruct H' as (d1 & E & H'). apply elems_ok in E. destruct E as (out & O & ->).
    cbn [ofold] in H'. apply bind_ok_inv in H'. destruct H' as (s3 & E & H'). inversion H'. subst d. clear H'.
    apply bind_ok_inv in E. destruct E as (s1 & E1 & E). apply bind_ok_inv in E. destruct E as (s2 & E2 & E). apply bind_ok_inv in E. destruct E as (s3' & E3 & E). inversion E. subst s3'. clear E.
    set (h := Z.to_nat (br_headLen r)) in *. set (bo := Z.to_nat (br_bodyLen r)) in *.
    set (p1 := firstn h input). set (p2 := firstn bo (skipn h input)). set (p3 := skipn bo (skipn h input)).
    assert (EI : input = p1 ++ p2 ++ p3) by (unfold p1, p2, p3; rewrite !firstn_skipn; reflexivity).
    assert (L1 : zlen p1 = br_headLen r) by (unfold p1, zlen in *; rewrite firstn_length; lia).
    assert (L2 : zlen p2 = br_bodyLen r) by (unfold p2, zlen in *; rewrite firstn_length, skipn_length; lia).
    assert (L3 : zlen p3 = br_tailLen r) by (unfold p3, zlen in *; rewrite !skipn_length; lia).
    rewrite <- L1 in E1 at 2. rewrite <- L2 in E2. rewrite <- L3 in E3.
    apply (append_block_ok _ [] p1 (p2 ++ p3)) in E1; [|constructor; reflexivity|exact EI].
    destruct E1 as (f1 & D1 & R1 & S1 & B1 & H1 & P1). cbn [app] in P1.
    apply (append_block_ok _ p1 p2 p3) in E2; [|exact P1|exact EI]. destruct E2 as (f2 & D2 & R2 & S2 & B2 & H2 & P2).
    apply (append_block_ok _ (p1 ++ p2) p3 []) in E3; [|exact P2|rewrite app_nil_r, <- app_assoc; exact EI]. destruct E3 as (f3 & D3 & R3 & S3 & B3 & H3 & P3).
    assert (LO : zlen (br_output r) = zlen out) by (unfold zlen; rewrite (Forall2_len _ _ _ O); reflexivity).
    exists (mkRule (br_condition r) f1 f2 f3 out). cbn [rule_condition rule_head rule_body rule_tail rule_out].
    split. { rewrite D3, D2, D1. cbn [rs_data]. unfold rule_bytes. cbn [rule_condition rule_head rule_body rule_tail rule_out].
      rewrite B1, B2, B3, L1, L2, L3, LO, u8_id by (unfold byte; pose proof (zlen_nonneg out); lia). rewrite <- !app_assoc. reflexivity. }
    split; [reflexivity|]. split; [lia|]. split; [lia|]. split; [assumption|]. split; [lia|]. split; [exact O|]. split; [lia|].
    split; [rewrite EI at 1; repeat (apply Forall2_app; [assumption|]); assumption|].
    split; [apply Forall_app; split; [exact S1|]; apply Forall_app; auto|]. auto.
  Qed.
End Rules.
