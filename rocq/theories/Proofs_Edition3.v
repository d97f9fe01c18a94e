(** Edition data: the pairs that were read, and what failures leave. *)
From Verif Require Import Base BaseFacts Spec_Helpers Model_Helpers Proofs_Helpers Spec_Names Model_Names Proofs_Names Spec_Format Proofs_Format Model_Font
  Model_Parse Spec_Parse Proofs_Parse Proofs_Parse3 Proofs_Parse7 Model_Builder Proofs_Builder Model_Edition Spec_Edition Spec_EditionBuilder Proofs_Edition Proofs_Edition2.
From Coq Require Import Lia.

(** ** The pairs *)
Lemma get_set_class m key c k : m_get pair_eqb (set_class m key c) k = if pair_eqb k key then Some (mkKPair c (value_of (m_get pair_eqb m key))) else m_get pair_eqb m k.
Proof.
  unfold set_class. destruct (m_get pair_eqb m key) as [v|]; rewrite (m_get_set pair_eqb pair_eqb_true); reflexivity.
Qed.
Lemma pair_eqb_false a b : a <> b -> pair_eqb a b = false.
Proof. apply (eqb_false pair_eqb pair_eqb_true). Qed.
Lemma pair_eqb_same a : pair_eqb a a = true.
Proof. now apply pair_eqb_true. Qed.

Lemma put_other order : forall l m k, Forall (fun p => key_of order p <> k) l -> m_get pair_eqb (put order m l) k = m_get pair_eqb m k.
Proof.
  induction l as [|p l IH]; intros m k H; [reflexivity|]. inversion H; subst. unfold put. cbn [fold_left].
  change (m_get pair_eqb (put order (set_class m (key_of order p) (snd p)) l) k = m_get pair_eqb m k).
  rewrite IH by assumption. rewrite get_set_class, pair_eqb_false by congruence. reflexivity.
Qed.
Lemma put_value order : forall l m k, value_of (m_get pair_eqb (put order m l) k) = value_of (m_get pair_eqb m k).
Proof.
  induction l as [|p l IH]; intros m k; [reflexivity|]. unfold put. cbn [fold_left].
  change (value_of (m_get pair_eqb (put order (set_class m (key_of order p) (snd p)) l) k) = value_of (m_get pair_eqb m k)).
  rewrite IH, get_set_class. destruct (pair_eqb k (key_of order p)) eqn:E; [|reflexivity]. apply pair_eqb_true in E. now rewrite E.
Qed.
Lemma key_here order p u v : 0 <= fst (fst p) < zlen order -> 0 <= snd (fst p) < zlen order ->
  (key_of order p = (u, v) <-> zget order (fst (fst p)) = Ok u /\ zget order (snd (fst p)) = Ok v).
Proof.
  intros H1 H2. rewrite !zget_nth by assumption. unfold key_of. split.
  - intros H. injection H as -> ->. auto.
  - intros [A B]. injection A as ->. injection B as ->. reflexivity.
Qed.
Lemma put_listed order m l u v class : Forall (fun p => 0 <= fst (fst p) < zlen order /\ 0 <= snd (fst p) < zlen order) l -> listed order l u v class ->
  m_get pair_eqb (put order m l) (u, v) = match class with Some c => Some (mkKPair c (value_of (m_get pair_eqb m (u, v)))) | None => m_get pair_eqb m (u, v) end.
Proof.
  intros HR HL. unfold listed in HL. destruct class as [c|].
  - destruct HL as (l1 & p & l2 & -> & Hp & <- & HF). apply Forall_app in HR. destruct HR as [_ HR]. inversion HR as [|? ? [R1 R2] HR2]; subst.
    apply key_here in Hp; [|assumption..].
    change (p :: l2) with ([p] ++ l2). rewrite app_assoc. unfold put. rewrite fold_left_app. fold (put order m (l1 ++ [p])).
    change (m_get pair_eqb (put order (put order m (l1 ++ [p])) l2) (u, v) = Some (mkKPair (snd p) (value_of (m_get pair_eqb m (u, v))))).
    rewrite put_other.
    + rewrite put_app, get_set_class, Hp, pair_eqb_same, put_value. reflexivity.
    + rewrite Forall_forall in HF, HR2 |- *. intros q Hq E. apply (HF q Hq). destruct (HR2 q Hq). now apply key_here.
  - apply put_other. rewrite Forall_forall in HL, HR |- *. intros q Hq E. apply (HL q Hq). destruct (HR q Hq). now apply key_here.
Qed.
Lemma get_unclassed m k : m_get pair_eqb (map unclassed m) k = option_map (fun k => mkKPair 0 (kp_Value k)) (m_get pair_eqb m k).
Proof.
  induction m as [|[key v] m IH]; [reflexivity|]. cbn. destruct (pair_eqb k key); [reflexivity|apply IH].
Qed.
Lemma value_unclassed m k : value_of (m_get pair_eqb (map unclassed m) k) = value_of (m_get pair_eqb m k).
Proof. rewrite get_unclassed. now destruct (m_get pair_eqb m k). Qed.

(** ** Success *)
Lemma put_paired order l before : Forall (fun p => 0 <= fst (fst p) < 65536 /\ 0 <= snd (fst p) < 65536 /\ 0 <= snd p < 65536) l -> pairs_taken (zlen order) l ->
  paired order l before (put order (map unclassed before) l).
Proof.
  intros HT HP u v class HL. rewrite (put_listed order _ l u v class); [|clear -HT HP|exact HL].
  - destruct class; [now rewrite value_unclassed|apply get_unclassed].
  - unfold pairs_taken in HP. rewrite Forall_forall in *. intros p Hp. specialize (HT p Hp). specialize (HP p Hp). cbn in *. lia.
Qed.

Lemma zlen_cleared w : zlen (wk_conditionNames (ClearEditionData w)) = zlen (wk_conditionNames w).
Proof. cbn. apply zlen_map. Qed.
Lemma result_loaded w e : edition_typed e -> edition_taken (bh_ID (b_header (wk_b w))) (zlen (b_order (wk_b w))) (zlen (wk_conditionNames w)) e ->
  edition_loaded w e (edition_result (ClearEditionData w) e).
Proof.
  intros (T1 & T2 & T3 & T4 & T5 & T6 & T7 & T8 & T9 & T10) (V1 & V2 & V3 & V4 & V5 & V6 & V7). apply Forall_app in T6. destruct T6 as [T6 T6'].
  unfold edition_loaded. splits; try reflexivity. eexists _, _. splits; [reflexivity| |].
  - now apply put_paired.
  - now apply put_paired.
Qed.

Lemma parse_accepts w i e : delivers i (edition_bytes 4 e) -> edition_typed e -> zlen (edition_bytes 4 e) <= MaxFontDataSize ->
  edition_taken (bh_ID (b_header (wk_b w))) (zlen (b_order (wk_b w))) (zlen (wk_conditionNames w)) e ->
  exists w', ParseEditionData w (edition_signature, NoErr) None i = (w', Ok tt) /\ edition_loaded w e w'.
Proof.
  intros HD HT HM HV. exists (edition_result (ClearEditionData w) e). split; [|now apply result_loaded].
  assert (HB : bytes (edition_bytes 4 e)).
  { destruct HT as (T1 & T2 & T3 & T4 & T5 & T6 & T7 & T8 & T9 & T10). unfold edition_bytes.
    assert (CB : forall X (f : X -> list Z) l, (forall x, In x l -> bytes (f x)) -> bytes (concat (map f l))).
    { intros X f l H. induction l; cbn; [constructor|]. apply bytes_app. split; [apply H; now left|]. apply IHl. intros. apply H. now right. }
    assert (SB : forall s, bytes s -> zlen s < 256 -> bytes (short_string s)).
    { intros s B L. apply bytes_cons. split; [|assumption]. pose proof (zlen_nonneg s). unfold byte. lia. }
    rewrite Forall_forall in T3, T5, T10. pose proof (zlen_nonneg (e_categories e)). pose proof (zlen_nonneg (e_conditions e)).
    repeat (apply bytes_app; split); try apply le_digits_bytes; try (apply CB; intros x Hx).
    - constructor; [unfold byte; lia|constructor].
    - apply SB; now apply T3.
    - apply le_digits_bytes.
    - apply SB; now apply T5.
    - apply Forall_forall. intros x Hx. apply in_map_iff in Hx. destruct Hx as (c & <- & _). unfold byte. pose proof (Z.mod_pos_bound (snd c) 256). lia.
    - unfold pair_bytes. repeat (apply bytes_app; split); apply le_digits_bytes.
    - unfold pair_bytes. repeat (apply bytes_app; split); apply le_digits_bytes.
    - constructor; [unfold byte; lia|constructor].
    - apply SB; now apply T10. }
  unfold ParseEditionData. cbn [negb orb]. change (zlen edition_signature =? 6) with true. cbn [negb]. change (list_eqb edition_signature edition_signature) with true. cbn [negb].
  rewrite <- zlen_cleared in HV.
  destruct (edition_read (edition_bytes 4 e) (ClearEditionData w) e eq_refl HT HV eq_refl eq_refl eq_refl (initial i) (rel_initial i _ HD HB HM)) as (s' & -> & _).
  reflexivity.
Qed.
Lemma parse_only w i P w' : delivers i P -> bytes P -> zlen P <= MaxFontDataSize ->
  ParseEditionData w (edition_signature, NoErr) None i = (w', Ok tt) ->
  exists e trailing, P = edition_bytes 4 e ++ trailing /\ edition_typed e /\
    edition_taken (bh_ID (b_header (wk_b w))) (zlen (b_order (wk_b w))) (zlen (wk_conditionNames w)) e /\ edition_loaded w e w'.
Proof.
  intros HD HB HM E. unfold ParseEditionData in E. cbn [negb orb] in E. change (zlen edition_signature =? 6) with true in E. cbn [negb] in E.
  change (list_eqb edition_signature edition_signature) with true in E. cbn [negb] in E.
  destruct (read_edition (ClearEditionData w) (initial i)) as [w2 [[] s2| | |]] eqn:ER; try discriminate. injection E as <-.
  destruct (edition_sound P (ClearEditionData w) eq_refl eq_refl eq_refl HM (initial i) tt w2 s2 (rel_initial i P HD HB HM) ER) as (b & S & R & e & -> & -> & HT & HV).
  rewrite zlen_cleared in HV. destruct S as (pre & post & EP & Z0). exists e, post. splits; auto.
  - destruct pre; [exact EP|]. rewrite zlen_cons in Z0. pose proof (zlen_nonneg pre). lia.
  - now apply result_loaded.
Qed.

(** ** Failure *)
Definition kept (order : list Z) (before after : list (Z * Z * kpair)) : Prop := forall u v,
  match m_get pair_eqb before (u, v) with
  | Some k => exists k', m_get pair_eqb after (u, v) = Some k' /\ kp_Value k' = kp_Value k
  | None => m_get pair_eqb after (u, v) = None \/ exists k', m_get pair_eqb after (u, v) = Some k' /\ kp_Value k' = 0 /\ In u order /\ In v order
  end.
Definition follows (w w' : wk) : Prop := length (wk_conditionNames w') = length (wk_conditionNames w) /\
  exists horz vert cs, wk_b w' = with_classes (with_kerning (wk_b w) horz vert) cs /\
    kept (b_order (wk_b w)) (b_horz (wk_b w)) horz /\ kept (b_order (wk_b w)) (b_vert (wk_b w)) vert.
Lemma kept_refl order m : kept order m m.
Proof. intros u v. destruct (m_get pair_eqb m (u, v)); eauto. Qed.
Lemma kept_trans order a b c : kept order a b -> kept order b c -> kept order a c.
Proof.
  intros H1 H2 u v. specialize (H1 u v). specialize (H2 u v). destruct (m_get pair_eqb a (u, v)) as [k|].
  - destruct H1 as (k' & E & V). rewrite E in H2. destruct H2 as (k2 & E2 & V2). exists k2. split; [assumption|congruence].
  - destruct H1 as [E|(k' & E & V & I)]; rewrite E in H2; [exact H2|]. destruct H2 as (k2 & E2 & V2). right. exists k2. splits; try tauto. congruence.
Qed.
Lemma kept_set_class order m u v c : In u order -> In v order -> kept order m (set_class m (u, v) c).
Proof.
  intros Hu Hv x y. rewrite get_set_class. destruct (pair_eqb (x, y) (u, v)) eqn:E.
  - apply pair_eqb_true in E. injection E as -> ->. destruct (m_get pair_eqb m (u, v)) as [k|].
    + eexists. split; reflexivity.
    + right. eexists. splits; try reflexivity; assumption.
  - destruct (m_get pair_eqb m (x, y)); eauto.
Qed.
Lemma follows_refl w : follows w w.
Proof.
  split; [reflexivity|]. exists (b_horz (wk_b w)), (b_vert (wk_b w)), (b_classes (wk_b w)). splits; try apply kept_refl. destruct w as [[] ? ? ?]. reflexivity.
Qed.
Lemma follows_trans a b c : follows a b -> follows b c -> follows a c.
Proof.
  intros (L1 & h1 & v1 & c1 & E1 & H1 & V1) (L2 & h2 & v2 & c2 & E2 & H2 & V2). split; [congruence|].
  rewrite E1 in E2, H2, V2. cbn in H2, V2. exists h2, v2, c2. splits; [exact E2| |].
  - eapply kept_trans; eassumption.
  - eapply kept_trans; eassumption.
Qed.
Definition tame {A} (m : eaction A) : Prop := forall w s, follows w (fst (m w s)).
Lemma tame_lift {A} (m : action A) : tame (lift m).
Proof. intros w s. apply follows_refl. Qed.
Lemma tame_bind {A B} (m : eaction A) (k : A -> eaction B) : tame m -> (forall a, tame (k a)) -> tame (ebind m k).
Proof.
  intros H1 H2 w s. unfold ebind. specialize (H1 w s). destruct (m w s) as [w1 [a s1| | |]]; auto. cbn in H1.
  eapply follows_trans; [exact H1|]. apply H2.
Qed.
Lemma tame_modify f : (forall w, follows w (f w)) -> tame (modify f).
Proof. intros H w s. apply H. Qed.
Lemma tame_attempt f : (forall w w', f w = Ok w' -> follows w w') -> tame (attempt f).
Proof. intros H w s. unfold attempt. destruct (f w) eqn:E; try apply follows_refl. now apply H. Qed.
Lemma tame_repeat m : (forall i, tame (m i)) -> forall n i, tame (repeatedly n i m).
Proof. intros H. induction n; intros i; cbn; [apply tame_lift|]. apply tame_bind; auto. Qed.
Lemma follows_same w w' : wk_b w' = wk_b w -> length (wk_conditionNames w') = length (wk_conditionNames w) -> follows w w'.
Proof.
  intros E L. split; [assumption|]. exists (b_horz (wk_b w)), (b_vert (wk_b w)), (b_classes (wk_b w)). splits; try apply kept_refl. rewrite E. now destruct (wk_b w).
Qed.
Lemma follows_classes w w' cs : wk_b w' = with_classes (wk_b w) cs -> length (wk_conditionNames w') = length (wk_conditionNames w) -> follows w w'.
Proof.
  intros E L. split; [assumption|]. exists (b_horz (wk_b w)), (b_vert (wk_b w)), cs. splits; try apply kept_refl. rewrite E. reflexivity.
Qed.
Lemma zset_length {A} (l l' : list A) i x : zset l i x = Ok l' -> length l' = length l.
Proof.
  intros H. unfold zset in H. destruct (_ && _); [|discriminate]. injection H as <-. generalize (Z.to_nat i). clear. induction l; destruct n; cbn; auto.
Qed.
Lemma zget_in {A} (l : list A) i x : zget l i = Ok x -> In x l.
Proof.
  unfold zget. destruct (i <? 0); [discriminate|]. destruct (nth_error l (Z.to_nat i)) eqn:E; [|discriminate]. intros H. injection H as <-. now apply nth_error_In in E.
Qed.
Lemma tame_pairs set : (forall b u v c, In u (b_order b) -> In v (b_order b) -> exists horz vert, set b (u, v) c = with_kerning b horz vert /\
  kept (b_order b) (b_horz b) horz /\ kept (b_order b) (b_vert b) vert) -> tame (read_pairs set).
Proof.
  intros H. unfold read_pairs. repeat (apply tame_bind; [apply tame_lift|intros]). apply tame_repeat. intros.
  repeat (apply tame_bind; [apply tame_lift|intros]). apply tame_attempt. intros w w' E.
  apply bind_ok_inv in E as (x & E1 & E). apply bind_ok_inv in E as (y & E2 & E). injection E as <-.
  destruct (H (wk_b w) x y a2 (zget_in _ _ _ E1) (zget_in _ _ _ E2)) as (h & v & EE & K1 & K2).
  split; [reflexivity|]. exists h, v, (b_classes (wk_b w)). splits; auto.
Qed.
Lemma tame_edition : tame read_edition.
Proof.
  unfold read_edition. apply tame_bind; [apply tame_lift|intros id].
  apply tame_bind; [apply tame_attempt; intros w w' E; destruct (_ =? _); [injection E as <-; apply follows_refl|discriminate]|intros _].
  apply tame_bind; [|intros _; apply tame_bind; [|intros _; apply tame_bind; [|intros _; apply tame_bind; [|intros _; apply tame_bind; [|intros _; apply tame_lift]]]]].
  - unfold read_categories. apply tame_bind; [apply tame_lift|intros n]. apply tame_bind; [|intros _].
    + apply tame_repeat. intros _. apply tame_bind; [apply tame_lift|intros]. apply tame_modify. intros w. now apply follows_same.
    + apply tame_repeat. intros. apply tame_bind; [apply tame_lift|intros]. apply tame_attempt. intros w w' E.
      apply bind_ok_inv in E as (x & E1 & E). apply bind_ok_inv in E as (y & E2 & E). injection E as <-. now apply follows_same.
  - unfold read_classes. apply tame_bind; [apply tame_lift|intros n]. apply tame_bind; [|intros _].
    + apply tame_repeat. intros _. apply tame_bind; [apply tame_lift|intros]. apply tame_modify. intros w. eapply follows_classes; reflexivity.
    + apply tame_repeat. intros. apply tame_bind; [apply tame_lift|intros]. apply tame_attempt. intros w w' E.
      apply bind_ok_inv in E as (x & E1 & E). injection E as <-. eapply follows_classes; reflexivity.
  - apply tame_pairs. intros b u v c Hu Hv. unfold set_horz. exists (set_class (b_horz b) (u, v) c), (b_vert b). splits; [reflexivity| |apply kept_refl]. now apply kept_set_class.
  - apply tame_pairs. intros b u v c Hu Hv. unfold set_vert. exists (b_horz b), (set_class (b_vert b) (u, v) c). splits; [reflexivity|apply kept_refl|]. now apply kept_set_class.
  - unfold read_conditions. apply tame_bind; [apply tame_lift|intros n]. apply tame_bind; [apply tame_lift|intros _]. apply tame_bind; [|intros _].
    + apply tame_attempt. intros w w' E. destruct (negb _); [destruct (_ >? _); discriminate|]. injection E as <-. apply follows_refl.
    + apply tame_repeat. intros. apply tame_bind; [apply tame_lift|intros]. apply tame_attempt. intros w w' E.
      apply bind_ok_inv in E as (x & E1 & E). injection E as <-. apply follows_same; [reflexivity|]. now apply zset_length in E1.
Qed.

Lemma kept_left order a b : kept order (map unclassed a) b -> left_over order a (map unclassed b).
Proof.
  intros H u v. specialize (H u v). rewrite get_unclassed in H. rewrite get_unclassed. destruct (m_get pair_eqb a (u, v)) as [k|]; cbn in H.
  - destruct H as (k' & -> & V). cbn. now rewrite V.
  - destruct H as [->|(k' & -> & V & I)]; [now left|]. right. cbn. rewrite V. auto.
Qed.
Lemma map_const {A B C} (c : C) : forall (l : list A) (l' : list B), length l = length l' -> map (fun _ => c) l = map (fun _ => c) l'.
Proof. induction l; destruct l'; cbn; intros; try discriminate; auto. f_equal. apply IHl. congruence. Qed.
Lemma follows_cleared w w' : follows (ClearEditionData w) w' -> edition_cleared w (ClearEditionData w').
Proof.
  intros (L & h & v & c & E & H & V). unfold edition_cleared. splits; try reflexivity.
  - cbn. apply map_const. rewrite L. cbn. now rewrite map_length.
  - exists (map unclassed h), (map unclassed v). cbn in H, V. apply kept_left in H. apply kept_left in V. splits; auto.
    cbn. rewrite E. reflexivity.
Qed.
Lemma failure_cleared w first g i w' r : ParseEditionData w first g i = (w', r) -> r <> Ok tt -> edition_cleared w w'.
Proof.
  intros E N. unfold ParseEditionData in E. destruct first as [sig err].
  destruct (_ || _); [injection E as <- <-; apply follows_cleared, follows_refl|].
  destruct (negb _); [injection E as <- <-; apply follows_cleared, follows_refl|].
  destruct g; [injection E as <- <-; apply follows_cleared, follows_refl|].
  pose proof (tame_edition (ClearEditionData w) (initial i)) as T. destruct (read_edition (ClearEditionData w) (initial i)) as [w2 [[] s2| | |]]; cbn in T.
  - injection E as <- <-. congruence.
  - injection E as <- <-. now apply follows_cleared.
  - injection E as <- <-. now apply follows_cleared.
  - injection E as <- <-. now apply follows_cleared.
Qed.

(** ** No endless loops *)
Definition ends {A} (m : action A) : Prop := forall s, inv s -> match m s with POk _ s' => inv s' | PHang => False | _ => True end.
Definition eends {A} (m : eaction A) : Prop := forall w s, inv s -> match snd (m w s) with POk _ s' => inv s' | PHang => False | _ => True end.
Lemma ends_with {A} n (decode : list Z -> outcome A) : 0 < n -> (forall b, bytes b -> n <= zlen b -> exists v, decode b = Ok v) -> ends (read_with n decode).
Proof.
  intros Hn D s I. pose proof (read_with_inv n decode s I Hn D) as H. destruct (read_with n decode s); auto. destruct H as (E & _). apply E.
Qed.
Lemma decoded {A} n (decode : list Z -> outcome A) f : (forall b, bytes b -> decode b = if zlen b <? n then Panic else Ok (f b)) ->
  forall b, bytes b -> n <= zlen b -> exists v, decode b = Ok v.
Proof. intros H b B L. rewrite H by assumption. destruct (Z.ltb_spec (zlen b) n); [lia|eauto]. Qed.
Lemma ends_u8 : ends ReadUint8.
Proof. apply ends_with; [lia|]. intros b _ L. apply zget_in_range. lia. Qed.
Lemma ends_i8 : ends ReadInt8.
Proof. apply ends_with; [lia|]. intros b _ L. destruct (zget_in_range b 0) as [v ->]; [lia|]. cbn. eauto. Qed.
Lemma ends_u16 : ends ReadUint16.
Proof. apply ends_with; [lia|]. eapply decoded. apply decode16_spec. Qed.
Lemma ends_u32 : ends ReadUint32.
Proof. apply ends_with; [lia|]. eapply decoded. apply decode32_spec. Qed.
Lemma ends_u64 : ends ReadUint64.
Proof. apply ends_with; [lia|]. eapply decoded. apply decode64_spec. Qed.
Lemma ends_name : ends read_name.
Proof.
  intros s I. unfold read_name, pbind. assert (W : wp ReadShortStr (fun _ s' => inv s') s).
  { apply wp_short_str; [assumption|]. intros v s' n E _ _ _. apply E. }
  unfold wp in W. destruct (ReadShortStr s) as [v s1| | |]; try exact I; try contradiction; auto. unfold on_bytes.
  destruct (proj2 (spaced_spec v)) as [->|(m & ->)]; cbn; auto.
Qed.
Lemma ends_eof : ends EnsureEOF.
Proof.
  intros s I. unfold EnsureEOF. destruct (eof s); [assumption|]. unfold readMore. pose proof (readMore_inv 3 s I) as H.
  destruct (readMore_loop 3 s); try contradiction; auto. destruct H as (E & _). destruct (_ >? _); auto. destruct (negb _); auto. apply E.
Qed.
Lemma eends_lift {A} (m : action A) : ends m -> eends (lift m).
Proof. intros H w s I. apply (H s I). Qed.
Lemma eends_bind {A B} (m : eaction A) (k : A -> eaction B) : eends m -> (forall a, eends (k a)) -> eends (ebind m k).
Proof. intros H1 H2 w s I. specialize (H1 w s I). unfold ebind. destruct (m w s) as [w1 [a s1| | |]]; cbn in *; auto. now apply H2. Qed.
Lemma eends_modify f : eends (modify f).
Proof. intros w s I. exact I. Qed.
Lemma eends_attempt f : (forall w, f w <> Hang) -> eends (attempt f).
Proof. intros H w s I. unfold attempt. specialize (H w). destruct (f w); cbn; auto. Qed.
Lemma eends_repeat m : (forall i, eends (m i)) -> forall n i, eends (repeatedly n i m).
Proof. intros H. induction n; intros i; cbn; [apply eends_lift; intros s I; exact I|]. apply eends_bind; auto. Qed.
Lemma eends_when c e : eends (lift (when c e)).
Proof. apply eends_lift. intros s I. destruct c; cbn; auto. Qed.
Lemma zget_hang {A} (l : list A) i : zget l i <> Hang.
Proof. unfold zget. destruct (i <? 0); [discriminate|]. now destruct (nth_error l _). Qed.
Lemma zset_hang {A} (l : list A) i x : zset l i x <> Hang.
Proof. unfold zset. now destruct (_ && _). Qed.
Lemma bind_hang {A B} (o : outcome A) (f : A -> outcome B) : o <> Hang -> (forall a, f a <> Hang) -> bind o f <> Hang.
Proof. destruct o; cbn; auto; discriminate. Qed.
Ltac calm := first [apply bind_hang; [calm|intros; calm] | apply zget_hang | apply zset_hang | discriminate].
Lemma eends_pairs set : eends (read_pairs set).
Proof.
  unfold read_pairs. apply eends_bind; [apply eends_lift, ends_u32|intros]. apply eends_repeat. intros.
  do 3 (apply eends_bind; [apply eends_lift, ends_u16|intros]). apply eends_bind; [apply eends_when|intros]. apply eends_attempt. intros. calm.
Qed.
Lemma eends_edition : eends read_edition.
Proof.
  unfold read_edition. apply eends_bind; [apply eends_lift, ends_u64|intros].
  apply eends_bind; [apply eends_attempt; intros; destruct (_ =? _); discriminate|intros].
  apply eends_bind; [|intros; apply eends_bind; [|intros; apply eends_bind; [apply eends_pairs|intros; apply eends_bind; [apply eends_pairs|intros; apply eends_bind; [|intros; apply eends_lift, ends_eof]]]]].
  - unfold read_categories. apply eends_bind; [apply eends_lift, ends_u8|intros]. apply eends_bind; [|intros].
    + apply eends_repeat. intros. apply eends_bind; [apply eends_lift, ends_name|intros]. apply eends_modify.
    + apply eends_repeat. intros. apply eends_bind; [apply eends_lift, ends_u16|intros]. apply eends_attempt. intros. calm.
  - unfold read_classes. apply eends_bind; [apply eends_lift, ends_u16|intros]. apply eends_bind; [|intros].
    + apply eends_repeat. intros. apply eends_bind; [apply eends_lift, ends_name|intros]. apply eends_modify.
    + apply eends_repeat. intros. apply eends_bind; [apply eends_lift, ends_i8|intros]. apply eends_attempt. intros. calm.
  - unfold read_conditions. apply eends_bind; [apply eends_lift, ends_u8|intros]. apply eends_bind; [apply eends_when|intros]. apply eends_bind; [|intros].
    + apply eends_attempt. intros. destruct (negb _); [destruct (_ >? _)|]; discriminate.
    + apply eends_repeat. intros. apply eends_bind; [apply eends_lift, ends_name|intros]. apply eends_attempt. intros. calm.
Qed.
Lemma edition_ends w first g i : stream_bytes i -> snd (ParseEditionData w first g i) <> Hang.
Proof.
  intros HI. unfold ParseEditionData. destruct first as [sig err]. destruct (_ || _); [discriminate|]. destruct (negb _); [discriminate|]. destruct g; [discriminate|].
  assert (I0 : inv (initial i)) by (unfold inv, initial; cbn; change (zlen []) with 0; splits; try lia; [constructor|assumption]).
  pose proof (eends_edition (ClearEditionData w) (initial i) I0) as H. destruct (read_edition (ClearEditionData w) (initial i)) as [w2 [[] s2| | |]]; cbn in *; try discriminate. contradiction.
Qed.
