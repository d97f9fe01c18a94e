(** Proofs for C60 and C61: exactly when ParseEditionData panics. *)
From Verif Require Import Base BaseFacts Spec_Helpers Model_Helpers Proofs_Helpers Spec_Names Model_Names Proofs_Names Spec_Format Proofs_Format Proofs_Accept Model_Font
  Model_Parse Spec_Parse Proofs_Parse Proofs_Parse2 Proofs_Parse6 Proofs_Parse7 Proofs_Parse8 Model_Builder Proofs_Builder Model_Edition Spec_Edition Spec_EditionBuilder
  Proofs_Edition Proofs_Edition2 Proofs_Edition3.
From Verif Require Import Spec_Reader Proofs_Reader Spec_Broken.
From Coq Require Import Lia.
Ltac splits := repeat match goal with |- _ /\ _ => split end.

(** ** what was read when a step panics *)
Definition nopanic {A} (P : list Z) (m : action A) (i : Z) : Prop := forall s, rel P i s -> m s <> PPanic.
Definition panics {A} (P : list Z) (m : eaction A) (i : Z) (w : wk) (Q : list Z -> Prop) : Prop := forall s w', rel P i s -> m w s = (w', PPanic) ->
  exists b, stored P i b /\ Q b.
Definition never : list Z -> Prop := fun _ => False.

Lemma nopanic_with {A} P i n (decode : list Z -> outcome A) f : 0 < n ->
  (forall b post, bytes b -> zlen b = n -> decode (b ++ post) = Ok (f b)) -> nopanic P (read_with n decode) i.
Proof.
  intros Hn D s R. pose proof (rel_range _ _ _ R) as RR. destruct (Z_le_gt_dec (i + n) (zlen P)).
  - destruct (stored_part P i n) as (b & S & L); [lia..|]. assert (B : bytes b) by (eapply stored_bytes; [exact S|apply R]).
    destruct (reads_with P i n decode b (f b) S L Hn (fun post => D b post B L) s R) as (s2 & E2 & _). rewrite E2. discriminate.
  - unfold read_with, pbind, get_index. replace (Index s) with i by (symmetry; apply R).
    assert (i < i + n) as Hi by lia. pose proof (sim_readUpTo P i (i + n) Hi s R) as S. rewrite readUpTo_full in S by lia.
    destruct (Z.leb_spec (i + n) (zlen P)); [lia|]. destruct S as (j & s2 & _ & E2 & _). rewrite E2. discriminate.
Qed.
Lemma nopanic_u8 P i : nopanic P ReadUint8 i.
Proof. apply (nopanic_with P i 1 _ (fun b => nth 0 b 0)); [lia|]. intros b post B L. destruct b as [|x b]; [discriminate|]. reflexivity. Qed.
Lemma nopanic_i8 P i : nopanic P ReadInt8 i.
Proof. apply (nopanic_with P i 1 _ (fun b => i8 (nth 0 b 0))); [lia|]. intros b post B L. destruct b as [|x b]; [discriminate|]. reflexivity. Qed.
Lemma nopanic_le P i n decode : (0 < n)%nat -> (forall v post, decode (le_digits n v ++ post) = Ok (v mod 256 ^ Z.of_nat n)) ->
  nopanic P (read_with (Z.of_nat n) decode) i.
Proof.
  intros Hn D. apply (nopanic_with P i (Z.of_nat n) _ (fun b => le_value b mod 256 ^ Z.of_nat n)); [lia|]. intros b post B L.
  rewrite <- (le_digits_value b B) at 1. replace (length b) with n by (unfold zlen in L; lia). apply D.
Qed.
Lemma nopanic_u16 P i : nopanic P ReadUint16 i.
Proof. apply (nopanic_le P i 2); [lia|]. intros. apply decode16_digits. Qed.
Lemma nopanic_u32 P i : nopanic P ReadUint32 i.
Proof. apply (nopanic_le P i 4); [lia|]. intros. apply decode32_digits. Qed.
Lemma nopanic_u64 P i : nopanic P ReadUint64 i.
Proof. apply (nopanic_le P i 8); [lia|]. intros. rewrite decode64_more. apply decode64_digits. Qed.
Lemma nopanic_name P i : nopanic P read_name i.
Proof.
  intros s R E. unfold read_name, ReadShortStr, pbind in E. destruct (ReadUint8 s) as [n s1| | |] eqn:E1; try discriminate; [|exact (nopanic_u8 P i s R E1)].
  destruct (sound_u8 P i s n s1 R E1) as (b & _ & R1 & _ & Hn).
  pose proof (rel_range _ _ _ R1) as RR. pose proof (sim_read_str P _ n (proj1 Hn) s1 R1) as S. rewrite read_str_full in S by lia.
  destruct (_ <=? _).
  - destruct S as (j & s2 & _ & E2 & _). rewrite E2 in E. unfold on_bytes in E. destruct (proj2 (spaced_spec (firstn (Z.to_nat n) (skipn (Z.to_nat (i + zlen b)) P)))) as [EV|(m & EV)]; rewrite EV in E; discriminate.
  - destruct S as (j & s2 & _ & E2 & _). rewrite E2 in E. discriminate.
Qed.

Lemma panics_imp {A} P (m : eaction A) i w (Q Q' : list Z -> Prop) : panics P m i w Q -> (forall b, Q b -> Q' b) -> panics P m i w Q'.
Proof. intros H HQ s w' R E. destruct (H s w' R E) as (b & S & ?). eauto. Qed.
Lemma panics_lift {A} P (m : action A) i w Q : nopanic P m i -> panics P (lift m) i w Q.
Proof. intros H s w' R E. unfold lift in E. injection E as _ E. destruct (H s R E). Qed.
Lemma panics_when P c e i w Q : panics P (lift (when c e)) i w Q.
Proof. apply panics_lift. intros s _. destruct c; discriminate. Qed.
Lemma panics_modify P f i w Q : panics P (modify f) i w Q.
Proof. intros s w' R E. discriminate. Qed.
Lemma panics_attempt P f i w (Q : list Z -> Prop) : (f w = Panic -> Q []) -> panics P (attempt f) i w Q.
Proof.
  intros H s w' R E. exists []. unfold attempt in E. destruct (f w); try discriminate. split; [eapply stored_empty, rel_range; eassumption|auto].
Qed.
Lemma panics_bind {A B} P (m : eaction A) (k : A -> eaction B) i w R1 Q :
  esound P m i w R1 -> panics P m i w Q -> (forall a w1 b1, R1 a w1 b1 -> stored P i b1 -> panics P (k a) (i + zlen b1) w1 (fun b2 => Q (b1 ++ b2))) ->
  panics P (ebind m k) i w Q.
Proof.
  intros H1 H2 H3 s w' R E. unfold ebind in E. destruct (m w s) as [w1 [a s1| | |]] eqn:E1; try discriminate.
  - destruct (H1 s a w1 s1 R E1) as (b1 & S1 & Rs1 & HR1). destruct (H3 a w1 b1 HR1 S1 s1 w' Rs1 E) as (b2 & S2 & HQ).
    exists (b1 ++ b2). split; [now apply stored_join|exact HQ].
  - injection E as <-. eapply H2; eassumption.
Qed.
Lemma panics_repeat {X} P (m : Z -> eaction unit) (enc : X -> list Z) (Q Bad : X -> Prop) (St : list X -> wk) : forall n l1 i,
  (forall l i, zlen l1 <= zlen l < zlen l1 + Z.of_nat n -> esound P (m (zlen l)) i (St l) (fun _ w' b => exists x, w' = St (l ++ [x]) /\ b = enc x /\ Q x)) ->
  (forall l i, zlen l1 <= zlen l < zlen l1 + Z.of_nat n -> panics P (m (zlen l)) i (St l) (fun b => exists x, b = enc x /\ Bad x)) ->
  panics P (repeatedly n (zlen l1) m) i (St l1) (fun b => exists l2 x, (length l2 < n)%nat /\ b = concat (map enc l2) ++ enc x /\ Forall Q l2 /\ Bad x).
Proof.
  induction n as [|n IH]; intros l1 i HS HP; cbn [repeatedly].
  - apply panics_lift. intros s _. discriminate.
  - eapply panics_bind; [apply HS; lia| |].
    + eapply panics_imp; [apply HP; lia|]. intros b (x & -> & Hx). exists [], x. split; [cbn [length]; lia|]. split; [reflexivity|]. split; [constructor|exact Hx].
    + cbn. intros _ w1 b1 (x & -> & -> & Hx) _. specialize (IH (l1 ++ [x])). rewrite zlen_app, zlen_cons, zlen_nil in IH.
      replace (zlen l1 + (1 + 0)) with (zlen l1 + 1) in IH by lia. eapply panics_imp; [apply IH|].
      * intros l k Hl. apply HS. lia.
      * intros l k Hl. apply HP. lia.
      * cbn. intros b (l2 & y & L & -> & HQ & HB). exists (x :: l2), y. cbn [map concat length]. rewrite <- app_assoc. split; [lia|]. split; [reflexivity|]. split; [constructor; assumption|exact HB].
Qed.
Lemma panics_all {X} P (m : Z -> eaction unit) (enc : X -> list Z) (Q Bad : X -> Prop) (St : list X -> wk) n i w :
  (forall l i, zlen l < Z.of_nat n -> esound P (m (zlen l)) i (St l) (fun _ w' b => exists x, w' = St (l ++ [x]) /\ b = enc x /\ Q x)) ->
  (forall l i, zlen l < Z.of_nat n -> panics P (m (zlen l)) i (St l) (fun b => exists x, b = enc x /\ Bad x)) -> w = St [] ->
  panics P (repeatedly n 0 m) i w (fun b => exists l2 x, (length l2 < n)%nat /\ b = concat (map enc l2) ++ enc x /\ Forall Q l2 /\ Bad x).
Proof.
  intros HS HP ->. apply (panics_repeat P m enc Q Bad St n [] i); intros l k Hl; [apply HS|apply HP]; rewrite zlen_nil in Hl; lia.
Qed.
(** names that are read and kept *)
Lemma no_bad {X} (enc : X -> list Z) : forall b, (exists x : X, b = enc x /\ False) -> never b.
Proof. intros b (x & _ & []). Qed.
Lemma never_all {X} (enc : X -> list Z) (Q : X -> Prop) n b :
  (exists l2 x, (length l2 < n)%nat /\ b = concat (map enc l2) ++ enc x /\ Forall Q l2 /\ False) -> never b.
Proof. intros (l & x & _ & _ & _ & []). Qed.

Lemma categories_calm P i w : wk_categories w = [] -> panics P read_categories i w never.
Proof.
  intros HE. unfold read_categories. eapply panics_bind; [apply esound_lift, sound_u8|apply panics_lift, nopanic_u8|]. cbn. intros n w1 b1 (-> & -> & Hn) _.
  assert (ES : forall (l : list (list Z)) k, zlen l < Z.of_nat (Z.to_nat n) -> esound P (edo name <- lift read_name; modify (fun w => mkWk (wk_b w) (wk_categories w ++ [(name, 0)]) (wk_classNames w) (wk_conditionNames w)))
     k (set_categories w (map (fun v => (v, 0)) l)) (fun _ w' b => exists x, w' = set_categories w (map (fun v => (v, 0)) (l ++ [x])) /\ b = short_string x /\ (spaced_name x /\ bytes x /\ zlen x < 256))).
  { intros l k Hl. eapply esound_bind; [apply esound_lift, sound_name|]. cbn. intros v w1 b1 (-> & -> & HQ) _.
    eapply esound_imp; [apply esound_modify|]. cbn. intros _ w' b (-> & ->). exists v. rewrite map_app, app_nil_r. auto. }
  assert (E0 : w = set_categories w (map (fun v : list Z => (v, 0)) [])) by (destruct w; cbn in *; now rewrite HE).
  eapply panics_bind.
  - exact (esound_all P _ short_string (fun v => spaced_name v /\ bytes v /\ zlen v < 256) (fun l => set_categories w (map (fun v => (v, 0)) l)) _ _ w ES E0).
  - eapply panics_imp; [apply (panics_all P _ short_string (fun v => spaced_name v /\ bytes v /\ zlen v < 256) (fun _ => False) (fun l => set_categories w (map (fun v => (v, 0)) l)) _ _ w ES); [|exact E0]|intros b H; exact (never_all _ _ _ _ H)].
    intros l k Hl. eapply panics_bind; [apply esound_lift, sound_name|apply panics_lift, nopanic_name|]. intros. apply panics_modify.
  - cbn. intros _ w1 b2 (ns & L & -> & -> & HQ) _. eapply panics_imp.
    + apply (panics_all P _ (fun v => le_digits 2 v) (fun v => 0 <= v < 65536) (fun _ => False) (fun l => set_categories w (partly (fun p => p) (fun v => (v, 0)) ns l))).
      * intros l k Hl. destruct (partly_next (fun p : list Z * Z => p) (fun v : list Z => (v, 0)) ns l) as (x & l1 & l2 & E1 & E2 & E3 & E4); [unfold zlen in Hl; lia|].
        eapply esound_bind; [apply esound_lift, sound_u16|]. cbn. intros v w1 b1 (-> & -> & Hv) _.
        eapply esound_imp; [apply esound_attempt|]. cbn. intros _ w' b (Hf & ->). exists v. splits; auto; try lia.
        rewrite E3, zget_mid in Hf by (now rewrite zlen_combine). cbn [bind] in Hf. rewrite zset_mid in Hf by (now rewrite zlen_combine). cbn [bind] in Hf.
        injection Hf as <-. unfold set_categories. cbn. f_equal. rewrite E4. reflexivity.
      * intros l k Hl. destruct (partly_next (fun p : list Z * Z => p) (fun v : list Z => (v, 0)) ns l) as (x & l1 & l2 & E1 & E2 & E3 & E4); [unfold zlen in Hl; lia|].
        eapply panics_bind; [apply esound_lift, sound_u16|apply panics_lift, nopanic_u16|]. cbn. intros v w1 b1 (-> & -> & Hv) _.
        apply panics_attempt. cbn. rewrite E3, zget_mid by (now rewrite zlen_combine). cbn [bind]. rewrite zset_mid by (now rewrite zlen_combine). discriminate.
      * now rewrite partly_none.
    + cbn. intros b (l2 & x & _ & _ & _ & []).
Qed.
Lemma classes_calm P i w : b_classes (wk_b w) = [] -> wk_classNames w = [] -> panics P read_classes i w never.
Proof.
  intros HE HE2. unfold read_classes. eapply panics_bind; [apply esound_lift, sound_u16|apply panics_lift, nopanic_u16|]. cbn. intros n w1 b1 (-> & -> & Hn) _.
  assert (ES : forall (l : list (list Z)) k, zlen l < Z.of_nat (Z.to_nat n) -> esound P (edo name <- lift read_name;
     modify (fun w => mkWk (with_classes (wk_b w) (b_classes (wk_b w) ++ [0])) (wk_categories w) (wk_classNames w ++ [name]) (wk_conditionNames w)))
     k (set_classes w (map (fun v => 0) l) l) (fun _ w' b => exists x, w' = set_classes w (map (fun v => 0) (l ++ [x])) (l ++ [x]) /\ b = short_string x /\ (spaced_name x /\ bytes x /\ zlen x < 256))).
  { intros l k Hl. eapply esound_bind; [apply esound_lift, sound_name|]. cbn. intros v w1 b1 (-> & -> & HQ) _.
    eapply esound_imp; [apply esound_modify|]. cbn. intros _ w' b (-> & ->). exists v. unfold set_classes, with_classes. cbn. rewrite map_app, app_nil_r. auto. }
  assert (E0 : w = set_classes w (map (fun v : list Z => 0) []) []) by (destruct w as [[] ? ? ?]; cbn in *; unfold set_classes, with_classes; cbn; now rewrite HE, HE2).
  eapply panics_bind.
  - exact (esound_all P _ short_string (fun v => spaced_name v /\ bytes v /\ zlen v < 256) (fun l => set_classes w (map (fun v => 0) l) l) _ _ w ES E0).
  - eapply panics_imp; [apply (panics_all P _ short_string (fun v => spaced_name v /\ bytes v /\ zlen v < 256) (fun _ => False) (fun l => set_classes w (map (fun v => 0) l) l) _ _ w ES); [|exact E0]|intros b H; exact (never_all _ _ _ _ H)].
    intros l k Hl. eapply panics_bind; [apply esound_lift, sound_name|apply panics_lift, nopanic_name|]. intros. apply panics_modify.
  - cbn. intros _ w1 b2 (ns & L & -> & -> & HQ) _. eapply panics_imp.
    + apply (panics_all P _ (fun v => [v mod 256]) (fun v => -128 <= v < 128) (fun _ => False) (fun l => set_classes w (partly snd (fun _ => 0) ns l) ns)).
      * intros l k Hl. destruct (partly_next (fun p : list Z * Z => snd p) (fun _ : list Z => 0) ns l) as (x & l1 & l2 & E1 & E2 & E3 & E4); [unfold zlen in Hl; lia|].
        eapply esound_bind; [apply esound_lift, sound_i8|]. cbn. intros v w1 b1 (-> & -> & Hv) _.
        eapply esound_imp; [apply esound_attempt|]. cbn. intros _ w' b (Hf & ->). exists v. splits; auto; try lia.
        change (fun p : list Z * Z => snd p) with (@snd (list Z) Z) in *. rewrite E3, zset_mid in Hf by (now rewrite zlen_combine). cbn [bind] in Hf.
        injection Hf as <-. unfold set_classes, with_classes. cbn. rewrite E4. reflexivity.
      * intros l k Hl. destruct (partly_next (fun p : list Z * Z => snd p) (fun _ : list Z => 0) ns l) as (x & l1 & l2 & E1 & E2 & E3 & E4); [unfold zlen in Hl; lia|].
        eapply panics_bind; [apply esound_lift, sound_i8|apply panics_lift, nopanic_i8|]. cbn. intros v w1 b1 (-> & -> & Hv) _.
        apply panics_attempt. cbn. change (fun p : list Z * Z => snd p) with (@snd (list Z) Z) in *. rewrite E3, zset_mid by (now rewrite zlen_combine). discriminate.
      * now rewrite partly_none.
    + cbn. intros b (l2 & x & _ & _ & _ & []).
Qed.
Lemma zget_panic {A} (l : list A) i : 0 <= i -> zget l i = Panic -> zlen l <= i.
Proof. intros H E. destruct (Z_lt_le_dec i (zlen l)); [|assumption]. destruct (zget_in_range l i ltac:(lia)) as [x X]. congruence. Qed.
Lemma pairs_panic P i w set (get : list (Z * Z * Z) -> builder) :
  get [] = wk_b w -> (forall l, b_order (get l) = b_order (wk_b w)) ->
  (forall l1 p, set (get l1) (key_of (b_order (wk_b w)) p) (snd p) = get (l1 ++ [p])) ->
  panics P (read_pairs set) i w (list_broken (zlen (b_order (wk_b w)))).
Proof.
  intros G0 GO GS. unfold read_pairs. eapply panics_bind; [apply esound_lift, sound_u32|apply panics_lift, nopanic_u32|]. cbn. intros n w1 b1 (-> & -> & Hn) _.
  eapply panics_imp.
  - apply (panics_all P _ pair_bytes (fun p => (0 <= fst (fst p) < 65536 /\ 0 <= snd (fst p) < 65536 /\ 0 <= snd p < 65536) /\
      fst (fst p) < zlen (b_order (wk_b w)) /\ snd (fst p) < zlen (b_order (wk_b w)) /\ 1 <= snd p)
      (fun p => (0 <= fst (fst p) < 65536 /\ 0 <= snd (fst p) < 65536 /\ 0 <= snd p < 65536) /\ 1 <= snd p /\
        (zlen (b_order (wk_b w)) <= fst (fst p) \/ zlen (b_order (wk_b w)) <= snd (fst p))) (fun l => set_b w (get l))).
    + intros l k Hl. eapply esound_bind; [apply esound_lift, sound_u16|]. cbn. intros u w1 b1 (-> & -> & Hu) _.
      eapply esound_bind; [apply esound_lift, sound_u16|]. cbn [fst snd]. intros v w1 b1 (-> & -> & Hv) _.
      eapply esound_bind; [apply esound_lift, sound_u16|]. cbn [fst snd]. intros c w1 b1 (-> & -> & Hc) _.
      eapply esound_bind; [apply esound_when|]. cbn [fst snd]. intros ? w1 b1 (-> & Hz & ->) _. apply Z.eqb_neq in Hz.
      eapply esound_imp; [apply esound_attempt|]. cbn [wk_b set_b]. intros _ w' b (Hf & ->). exists (u, v, c).
      rewrite !GO in Hf. apply bind_ok_inv in Hf as (x & E1 & Hf). apply bind_ok_inv in Hf as (y & E2 & Hf). injection Hf as <-.
      pose proof (zget_ok_range _ _ _ E1). pose proof (zget_ok_range _ _ _ E2). rewrite zget_nth in E1, E2 by lia.
      injection E1 as E1. injection E2 as E2. unfold pair_bytes. cbn [fst snd]. rewrite !app_nil_r. splits; try lia; [|reflexivity].
      unfold set_b. cbn. f_equal. rewrite <- (GS l (u, v, c)). unfold key_of. cbn [fst snd]. now rewrite E1, E2.
    + intros l k Hl. eapply panics_bind; [apply esound_lift, sound_u16|apply panics_lift, nopanic_u16|]. cbn. intros u w1 b1 (-> & -> & Hu) _.
      eapply panics_bind; [apply esound_lift, sound_u16|apply panics_lift, nopanic_u16|]. cbn [fst snd]. intros v w1 b1 (-> & -> & Hv) _.
      eapply panics_bind; [apply esound_lift, sound_u16|apply panics_lift, nopanic_u16|]. cbn [fst snd]. intros c w1 b1 (-> & -> & Hc) _.
      eapply panics_bind; [apply esound_when|apply panics_when|]. cbn [fst snd]. intros ? w1 b1 (-> & Hz & ->) _. apply Z.eqb_neq in Hz.
      apply panics_attempt. cbn [wk_b set_b]. rewrite !GO. intros Hf. exists (u, v, c). unfold pair_bytes. cbn [fst snd]. rewrite !app_nil_r.
      splits; try lia; [reflexivity|].
      destruct (zget (b_order (wk_b w)) u) as [x| | |] eqn:E1; cbn [bind] in Hf; try discriminate; [|left; apply zget_panic; [lia|exact E1]].
      destruct (zget (b_order (wk_b w)) v) as [y| | |] eqn:E2; cbn [bind] in Hf; try discriminate. right; apply zget_panic; [lia|exact E2].
    + rewrite G0. now destruct w.
  - cbn. intros b (l & p & L & -> & HQ & HT & H1 & H2). exists n, l, p. change (2 ^ 32) with 4294967296. splits; auto; try (unfold zlen; lia).
    + apply Forall_app. split; [eapply Forall_impl; [|exact HQ]; cbn; tauto|]. constructor; [exact HT|constructor].
    + eapply Forall_impl; [|exact HQ]. cbn. tauto.
Qed.
Lemma conditions_calm P i w : zlen (wk_conditionNames w) <= 254 -> panics P read_conditions i w never.
Proof.
  intros HC. unfold read_conditions. eapply panics_bind; [apply esound_lift, sound_u8|apply panics_lift, nopanic_u8|]. cbn. intros n w1 b1 (-> & -> & Hn) _.
  eapply panics_bind; [apply esound_when|apply panics_when|]. cbn [fst snd]. intros ? w1 b1 (-> & Hz & ->) _. apply Z.eqb_neq in Hz.
  eapply panics_bind; [apply esound_attempt| |].
  { apply panics_attempt. destruct (negb _); [|discriminate]. destruct (Z.gtb_spec (zlen (wk_conditionNames w)) 254); [lia|discriminate]. }
  cbn [fst snd]. intros ? w1 b1 (Hf & ->) _. destruct (Z.eqb_spec n (zlen (wk_conditionNames w))); cbn [negb] in Hf; [|destruct (_ >? _); discriminate]. injection Hf as <-.
  assert (SK : forall l : list (list Z), zlen l < Z.of_nat (Z.to_nat n) -> exists y r, skipn (length l) (wk_conditionNames w) = y :: r).
  { intros l Hl. destruct (skipn (length l) (wk_conditionNames w)) as [|y r] eqn:E; [|eauto]. exfalso. apply (f_equal (@length _)) in E. rewrite skipn_length in E. cbn in E. unfold zlen in *. lia. }
  eapply panics_imp.
  - apply (panics_all P _ short_string (fun v => spaced_name v /\ bytes v /\ zlen v < 256) (fun _ => False) (fun l => set_names w (l ++ skipn (length l) (wk_conditionNames w)))).
    + intros l k Hl. eapply esound_bind; [apply esound_lift, sound_name|]. cbn. intros v w1 b1 (-> & -> & HQ) _.
      eapply esound_imp; [apply esound_attempt|]. cbn. intros _ w' b (Hf & ->). exists v. rewrite app_nil_r. splits; auto; try apply HQ.
      destruct (SK l Hl) as (y & r & E). rewrite E in Hf. rewrite zset_mid in Hf by reflexivity. cbn [bind] in Hf. injection Hf as <-. unfold set_names. cbn. f_equal. rewrite <- app_assoc. cbn [app].
      f_equal. f_equal. rewrite app_length, Nat.add_comm. cbn [length]. rewrite skipn_more, E. reflexivity.
    + intros l k Hl. eapply panics_bind; [apply esound_lift, sound_name|apply panics_lift, nopanic_name|]. cbn. intros v w1 b1 (-> & -> & HQ) _.
      apply panics_attempt. cbn. destruct (SK l Hl) as (y & r & E). rewrite E. rewrite zset_mid by reflexivity. discriminate.
    + cbn. now destruct w.
  - cbn. intros b (l2 & x & _ & _ & _ & []).
Qed.

(** ** all but the final check *)
Definition read_body : eaction unit :=
  edo id <- lift ReadUint64;
  edo _ <- attempt (fun w => if id =? bh_ID (b_header (wk_b w)) then Ok w else Err "edition data doesn't match current font ID");
  edo _ <- read_categories;
  edo _ <- read_classes;
  edo _ <- read_pairs set_horz;
  edo _ <- read_pairs set_vert;
  read_conditions.
Lemma ebind_assoc {A B C} (m : eaction A) (k : A -> eaction B) (l : B -> eaction C) w s :
  ebind (ebind m k) l w s = ebind m (fun a => ebind (k a) l) w s.
Proof. unfold ebind. destruct (m w s) as [w1 [a s1| | |]]; reflexivity. Qed.
Lemma ebind_ext {A B} (m : eaction A) (k k' : A -> eaction B) : (forall a w s, k a w s = k' a w s) -> forall w s, ebind m k w s = ebind m k' w s.
Proof. intros H w s. unfold ebind. destruct (m w s) as [w1 [a s1| | |]]; auto. Qed.
Lemma read_split w s : read_edition w s = ebind read_body (fun _ => lift EnsureEOF) w s.
Proof.
  unfold read_edition, read_body. rewrite ebind_assoc. apply ebind_ext. clear. intros id w s.
  repeat (rewrite ebind_assoc; apply ebind_ext; clear; intros ? w s). reflexivity.
Qed.
Lemma front_split e : front_bytes e = le_digits 8 (e_id e) ++ cats_bytes (e_categories e) ++ classes_bytes (e_classes e).
Proof. unfold front_bytes, cats_bytes, classes_bytes. rewrite <- !app_assoc. reflexivity. Qed.
Lemma edition_split e : edition_bytes 4 e = front_bytes e ++ list_bytes (e_horz e) ++ list_bytes (e_vert e) ++ conditions_bytes' (e_conditions e).
Proof. unfold edition_bytes, front_bytes, list_bytes, conditions_bytes'. rewrite <- !app_assoc. reflexivity. Qed.

Definition horz_get (w : wk) vs l1 := with_kerning (with_classes (wk_b w) vs) (put (b_order (wk_b w)) (b_horz (wk_b w)) l1) (b_vert (wk_b w)).
Definition vert_get (w : wk) vs hs l1 := with_kerning (with_classes (wk_b w) vs) (put (b_order (wk_b w)) (b_horz (wk_b w)) hs) (put (b_order (wk_b w)) (b_vert (wk_b w)) l1).

Lemma body_sound P w : wk_categories w = [] -> wk_classNames w = [] -> b_classes (wk_b w) = [] -> zlen P <= MaxFontDataSize ->
  esound P read_body 0 w (fun _ w' b => exists e, b = edition_bytes 4 e /\ edition_typed e /\
    edition_taken (bh_ID (b_header (wk_b w))) (zlen (b_order (wk_b w))) (zlen (wk_conditionNames w)) e).
Proof.
  intros C1 C2 C3 HM.
  assert (H : esound P read_body 0 w (fun _ w' b => exists e, b = edition_bytes 4 e /\ (stored P 0 b -> edition_typed e) /\
    edition_taken (bh_ID (b_header (wk_b w))) (zlen (b_order (wk_b w))) (zlen (wk_conditionNames w)) e)).
  { unfold read_body. eapply esound_bind; [apply esound_lift, sound_u64|]. cbn [fst snd]. intros id ? ? (-> & -> & Hid) _.
    eapply esound_bind; [apply esound_attempt|]. cbn [fst snd]. intros ? ? ? (Hf & ->) _.
    destruct (Z.eqb_spec id (bh_ID (b_header (wk_b w)))) as [EI|]; [|discriminate]. injection Hf as <-.
    eapply esound_bind; [apply categories_sound; assumption|]. cbn [fst snd]. intros ? ? ? (cats & -> & -> & A1 & A2 & A3) _.
    eapply esound_bind; [apply classes_sound; assumption|]. cbn [fst snd]. intros ? ? ? (cls & -> & -> & B1 & B2 & B3) _.
    eapply esound_bind.
    { apply (pairs_sound P _ _ set_horz (horz_get w (map snd cls))); [reflexivity|reflexivity|]. intros l1 p. unfold horz_get, set_horz. rewrite put_app. reflexivity. }
    cbn [fst snd]. intros ? ? ? (hs & -> & -> & D1 & D2) _.
    eapply esound_bind.
    { apply (pairs_sound P _ _ set_vert (vert_get w (map snd cls) hs)); [reflexivity|reflexivity|]. intros l1 p. unfold vert_get, set_vert. rewrite put_app. reflexivity. }
    cbn [fst snd]. intros ? ? ? (vs & -> & -> & F1 & F2) _.
    eapply esound_imp; [apply conditions_sound|]. cbn [fst snd]. intros ? ? ? (con & -> & -> & G1 & G2 & G3 & G4).
    exists (mkEdition id cats cls hs vs con). rewrite edition_split, front_split. cbn [e_id e_categories e_classes e_horz e_vert e_conditions].
    splits.
    - cbn [app]. rewrite <- !app_assoc. reflexivity.
    - intros S. apply stored_range in S. rewrite !zlen_app, !zlen_pairs in S. unfold MaxFontDataSize in HM.
      pose proof (zlen_nonneg (le_digits 8 id)). pose proof (zlen_nonneg (cats_bytes cats)). pose proof (zlen_nonneg (classes_bytes cls)).
      pose proof (zlen_nonneg (conditions_bytes' con)). pose proof (zlen_nonneg hs). pose proof (zlen_nonneg vs). rewrite zlen_nil in S.
      unfold edition_typed. cbn [e_id e_categories e_classes e_horz e_vert e_conditions]. change (2 ^ 24) with 16777216.
      splits; auto; try lia. apply Forall_app. auto.
    - unfold edition_taken. cbn [e_id e_categories e_classes e_horz e_vert e_conditions]. cbn in G4. splits; auto. }
  intros s a w' s' R E. destruct (H s a w' s' R E) as (b & S & R2 & e & E1 & E2 & E3). exists b. splits; auto. exists e. splits; auto.
Qed.
Lemma body_panics P w : wk_categories w = [] -> wk_classNames w = [] -> b_classes (wk_b w) = [] -> zlen (wk_conditionNames w) <= 254 ->
  panics P read_body 0 w (fun b => exists e c, front_taken (bh_ID (b_header (wk_b w))) e /\ list_broken (zlen (b_order (wk_b w))) c /\
    (b = front_bytes e ++ c \/ b = front_bytes e ++ list_bytes (e_horz e) ++ c /\ pairs_typed (e_horz e) /\ pairs_taken (zlen (b_order (wk_b w))) (e_horz e))).
Proof.
  intros C1 C2 C3 HC. unfold read_body. eapply panics_bind; [apply esound_lift, sound_u64|apply panics_lift, nopanic_u64|]. cbn [fst snd]. intros id ? ? (-> & -> & Hid) _.
  eapply panics_bind; [apply esound_attempt|apply panics_attempt; destruct (_ =? _); discriminate|]. cbn [fst snd]. intros ? ? ? (Hf & ->) _.
  destruct (Z.eqb_spec id (bh_ID (b_header (wk_b w)))) as [EI|]; [|discriminate]. injection Hf as <-.
  eapply panics_bind; [apply categories_sound; assumption|eapply panics_imp; [apply categories_calm; assumption|intros ? []]|].
  cbn [fst snd]. intros ? ? ? (cats & -> & -> & A1 & A2 & A3) _.
  eapply panics_bind; [apply classes_sound; assumption|eapply panics_imp; [apply classes_calm; assumption|intros ? []]|].
  cbn [fst snd]. intros ? ? ? (cls & -> & -> & B1 & B2 & B3) _.
  assert (FT : forall hs, front_taken (bh_ID (b_header (wk_b w))) (mkEdition id cats cls hs [] [])).
  { intros hs. unfold front_taken. cbn [e_id e_categories e_classes]. subst id. splits; auto; lia. }
  eapply panics_bind.
  { apply (pairs_sound P _ _ set_horz (horz_get w (map snd cls))); [reflexivity|reflexivity|]. intros l1 p. unfold horz_get, set_horz. rewrite put_app. reflexivity. }
  { eapply panics_imp; [apply (pairs_panic P _ _ set_horz (horz_get w (map snd cls))); [reflexivity|reflexivity|]; intros l1 p; unfold horz_get, set_horz; rewrite put_app; reflexivity|].
    cbn [wk_b set_classes set_categories with_classes b_order]. intros c Hc. exists (mkEdition id cats cls [] [] []), c. split; [apply FT|]. split; [exact Hc|]. left.
    rewrite front_split. cbn [e_id e_categories e_classes app]. rewrite <- !app_assoc. reflexivity. }
  cbn [fst snd]. intros ? ? ? (hs & -> & -> & D1 & D2) _.
  eapply panics_bind.
  { apply (pairs_sound P _ _ set_vert (vert_get w (map snd cls) hs)); [reflexivity|reflexivity|]. intros l1 p. unfold vert_get, set_vert. rewrite put_app. reflexivity. }
  { eapply panics_imp; [apply (pairs_panic P _ _ set_vert (vert_get w (map snd cls) hs)); [reflexivity|reflexivity|]; intros l1 p; unfold vert_get, set_vert; rewrite put_app; reflexivity|].
    intros c Hc. exists (mkEdition id cats cls hs [] []), c. split; [apply FT|]. split; [exact Hc|]. right.
    rewrite front_split. cbn [e_id e_categories e_classes e_horz app]. split; [rewrite <- !app_assoc; reflexivity|]. split; [exact D1|exact D2]. }
  cbn [fst snd]. intros ? ? ? (vs & -> & -> & F1 & F2) _. eapply panics_imp; [apply conditions_calm; exact HC|intros ? []].
Qed.

(** ** forwards *)
Definition epanic {A} (P : list Z) (m : eaction A) (i : Z) (w : wk) : Prop := forall s, rel P i s -> exists w', m w s = (w', PPanic).
Lemma epanic_here {A B} P (m : eaction A) (k : A -> eaction B) i w : epanic P m i w -> epanic P (ebind m k) i w.
Proof. intros H s R. destruct (H s R) as (w' & E). exists w'. unfold ebind. now rewrite E. Qed.
Lemma epanic_then {A B} P (m : eaction A) (k : A -> eaction B) i w a w1 j : ereads P m i w a w1 j -> epanic P (k a) j w1 -> epanic P (ebind m k) i w.
Proof. intros H1 H2 s R. destruct (H1 s R) as (s1 & E1 & R1). destruct (H2 s1 R1) as (w' & E2). exists w'. unfold ebind. now rewrite E1. Qed.
Lemma epanic_repeat {X} P (m : Z -> eaction unit) (enc : X -> list Z) (St : list X -> wk) x : forall l2 l1 n i, (length l2 < n)%nat ->
  (forall l1' y l2' i, l1 ++ l2 = l1' ++ y :: l2' -> stored P i (enc y) -> ereads P (m (zlen l1')) i (St l1') tt (St (l1' ++ [y])) (i + zlen (enc y))) ->
  (forall i, stored P i (enc x) -> epanic P (m (zlen (l1 ++ l2))) i (St (l1 ++ l2))) ->
  stored P i (concat (map enc l2) ++ enc x) -> epanic P (repeatedly n (zlen l1) m) i (St l1).
Proof.
  induction l2 as [|y l2 IH]; intros l1 n i Hn HR HP S; (destruct n as [|n]; [cbn in Hn; lia|]); cbn [repeatedly].
  - rewrite app_nil_r in HP. apply epanic_here. apply HP. exact S.
  - cbn [map concat] in S. rewrite <- app_assoc in S. apply stored_app in S. destruct S as [S1 S2].
    eapply epanic_then; [exact (HR l1 y l2 i eq_refl S1)|]. specialize (IH (l1 ++ [y]) n (i + zlen (enc y))). rewrite <- app_assoc in IH. cbn [app] in IH.
    replace (zlen (l1 ++ [y])) with (zlen l1 + 1) in IH by (rewrite zlen_app, zlen_cons, zlen_nil; lia).
    apply IH; [cbn in Hn; lia|exact HR|exact HP|exact S2].
Qed.
Lemma pairs_epanic P i w set (get : list (Z * Z * Z) -> builder) c :
  get [] = wk_b w -> (forall l, b_order (get l) = b_order (wk_b w)) ->
  (forall l1 p, set (get l1) (key_of (b_order (wk_b w)) p) (snd p) = get (l1 ++ [p])) ->
  list_broken (zlen (b_order (wk_b w))) c -> stored P i c -> epanic P (read_pairs set) i w.
Proof.
  intros G0 GO GS (n & l & [[u v] c0] & -> & Hn & HT & HK & Hc & Hbad) S. apply stored_app in S. destruct S as [S1 S2]. rewrite zlen_le_digits in S2.
  change (2 ^ 32) with 4294967296 in Hn. pose proof (zlen_nonneg l). apply Forall_app in HT. destruct HT as [HT HT2]. inversion HT2 as [|? ? (U1 & U2 & U3) _]; subst.
  cbn [fst snd] in *. unfold read_pairs. eapply epanic_then; [apply ereads_lift, reads_u32; [exact S1|lia]|].
  assert (E0 : w = set_b w (get [])) by (rewrite G0; now destruct w). rewrite E0 at 1.
  apply (epanic_repeat P _ pair_bytes (fun l1 => set_b w (get l1)) (u, v, c0) l [] (Z.to_nat n) _); [unfold zlen in *; lia| | |exact S2].
  - cbn [app]. intros l1 [[u' v'] c'] l2 k El Sx. pose proof (forall_mid _ _ _ _ _ HT El) as (R1 & R2 & R3).
    pose proof (forall_mid _ _ _ _ _ HK El) as (T1 & T2 & T3). unfold pair_bytes in *. cbn [fst snd] in *.
    apply stored_app in Sx. destruct Sx as [Sa Sx]. apply stored_app in Sx. destruct Sx as [Sb Sc]. rewrite !zlen_app, !zlen_le_digits in *.
    eapply ereads_at; [|reflexivity|shelve].
    eapply ereads_bind; [apply ereads_lift, reads_u16; eassumption|]. eapply ereads_bind; [apply ereads_lift, reads_u16; eassumption|].
    eapply ereads_bind; [apply ereads_lift, reads_u16; eassumption|]. eapply ereads_bind; [apply ereads_when; lia|].
    apply ereads_attempt. cbn [wk_b set_b]. rewrite !GO. rewrite !zget_nth by lia. cbn [bind].
    unfold set_b. cbn. do 2 f_equal. apply (GS l1 (u', v', c')).
    Unshelve. lia.
  - cbn [app]. intros k Sx. unfold pair_bytes in Sx. cbn [fst snd] in Sx. apply stored_app in Sx. destruct Sx as [Sa Sx]. apply stored_app in Sx. destruct Sx as [Sb Sc]. rewrite !zlen_le_digits in *.
    eapply epanic_then; [apply ereads_lift, reads_u16; eassumption|]. eapply epanic_then; [apply ereads_lift, reads_u16; eassumption|].
    eapply epanic_then; [apply ereads_lift, reads_u16; eassumption|]. eapply epanic_then; [apply ereads_when; lia|].
    intros s R. unfold attempt. cbn [wk_b set_b]. rewrite !GO.
    assert (HZ : forall x, 0 <= x -> zlen (b_order (wk_b w)) <= x -> zget (b_order (wk_b w)) x = Panic).
    { intros x H1 H2. unfold zget. destruct (Z.ltb_spec x 0); [lia|]. rewrite (proj2 (nth_error_None _ _)); [reflexivity|]. unfold zlen in H2. lia. }
    destruct Hbad as [Hb|Hb].
    + rewrite (HZ u) by lia. cbn [bind]. eauto.
    + destruct (Z_lt_le_dec u (zlen (b_order (wk_b w)))); [rewrite (zget_nth _ u) by lia|rewrite (HZ u) by lia]; cbn [bind]; [rewrite (HZ v) by lia; cbn [bind]|]; eauto.
Qed.

Lemma front_read P w e : front_taken (bh_ID (b_header (wk_b w))) e -> stored P 0 (front_bytes e) ->
  wk_categories w = [] -> wk_classNames w = [] -> b_classes (wk_b w) = [] ->
  ereads P (edo id <- lift ReadUint64; edo _ <- attempt (fun w => if id =? bh_ID (b_header (wk_b w)) then Ok w else Err "edition data doesn't match current font ID");
    edo _ <- read_categories; read_classes) 0 w tt (set_classes (set_categories w (e_categories e)) (map snd (e_classes e)) (map fst (e_classes e))) (zlen (front_bytes e)).
Proof.
  intros (V1 & V0 & T2 & T3 & T4 & T5 & V2 & V3) S C1 C2 C3. rewrite front_split in *. apply stored_app in S. destruct S as [S1 S]. apply stored_app in S. destruct S as [S2 S3].
  rewrite zlen_le_digits in *. rewrite !zlen_app, zlen_le_digits. change (2 ^ 64) with 18446744073709551616 in V0.
  eapply ereads_bind; [apply ereads_lift, reads_u64; [exact S1|change (2 ^ 64) with 18446744073709551616; lia]|].
  eapply ereads_bind; [apply ereads_attempt; rewrite V1, Z.eqb_refl; reflexivity|].
  eapply ereads_bind; [apply categories_read; eassumption|].
  eapply ereads_at; [apply classes_read; eassumption|reflexivity|]. unfold cats_bytes, classes_bytes. lia.
Qed.

Definition read_front : eaction unit :=
  edo id <- lift ReadUint64; edo _ <- attempt (fun w => if id =? bh_ID (b_header (wk_b w)) then Ok w else Err "edition data doesn't match current font ID");
  edo _ <- read_categories; read_classes.
Lemma body_split w s : read_body w s = ebind read_front (fun _ => edo _ <- read_pairs set_horz; edo _ <- read_pairs set_vert; read_conditions) w s.
Proof.
  unfold read_front, read_body. rewrite ebind_assoc. apply ebind_ext. clear. intros id w s.
  repeat (rewrite ebind_assoc; apply ebind_ext; clear; intros ? w s). reflexivity.
Qed.
Lemma horz_read P i w e l : front_taken (bh_ID (b_header (wk_b w))) e -> zlen l < 2 ^ 24 -> pairs_typed l -> pairs_taken (zlen (b_order (wk_b w))) l ->
  stored P i (list_bytes l) ->
  ereads P (read_pairs set_horz) i (set_classes (set_categories w (e_categories e)) (map snd (e_classes e)) (map fst (e_classes e))) tt
    (set_b (set_classes (set_categories w (e_categories e)) (map snd (e_classes e)) (map fst (e_classes e))) (horz_get w (map snd (e_classes e)) l)) (i + zlen (list_bytes l)).
Proof.
  intros _ HL HT HK S. apply pairs_read; try assumption; try reflexivity. intros l1 p. unfold horz_get, set_horz. rewrite put_app. reflexivity.
Qed.
Lemma ereads_ext {A} P (m m' : eaction A) j w a w' k : (forall w s, m w s = m' w s) -> ereads P m' j w a w' k -> ereads P m j w a w' k.
Proof. intros H H2 s R. rewrite H. exact (H2 s R). Qed.
Lemma stored_head P b : (exists post, P = b ++ post) -> stored P 0 b.
Proof. intros (post & ->). exists [], post. split; reflexivity. Qed.
Lemma body_read P w e trailing : P = edition_bytes 4 e ++ trailing -> edition_typed e ->
  edition_taken (bh_ID (b_header (wk_b w))) (zlen (b_order (wk_b w))) (zlen (wk_conditionNames w)) e ->
  wk_categories w = [] -> wk_classNames w = [] -> b_classes (wk_b w) = [] ->
  exists w', ereads P read_body 0 w tt w' (zlen (edition_bytes 4 e)).
Proof.
  intros EP (T1 & T2 & T3 & T4 & T5 & T6 & T7 & T8 & T9 & T10) (V1 & V2 & V3 & V4 & V5 & V6 & V7) C1 C2 C3.
  apply Forall_app in T6. destruct T6 as [T6 T6'].
  assert (S : stored P 0 (edition_bytes 4 e)) by (apply stored_head; eauto).
  rewrite edition_split in *. apply stored_app in S. destruct S as [S1 S]. apply stored_app in S. destruct S as [S2 S]. apply stored_app in S. destruct S as [S3 S4].
  assert (F : front_taken (bh_ID (b_header (wk_b w))) e) by (unfold front_taken; subst; rewrite <- V1; splits; auto; try apply T1).
  eexists. eapply ereads_ext; [exact body_split|].
  eapply ereads_bind; [apply (front_read P w e F S1); assumption|].
  eapply ereads_bind; [eapply (horz_read P _ w e); [exact F|exact T7|exact T6|exact V4|exact S2]|].
  eapply ereads_bind.
  { eapply (pairs_read P _ _ set_vert (vert_get w (map snd (e_classes e)) (e_horz e))); [exact T8|exact T6'|exact V5|reflexivity|reflexivity| |exact S3].
    intros l1 p. unfold vert_get, set_vert. rewrite put_app. reflexivity. }
  eapply ereads_at; [apply conditions_read; [exact T9|exact T10|exact V7|symmetry; exact V6|exact S4]|reflexivity|].
  unfold list_bytes, conditions_bytes'. cbv zeta. rewrite ?zlen_app. lia.
Qed.
Lemma body_epanic P w : within_bounds P -> broken (bh_ID (b_header (wk_b w))) (zlen (b_order (wk_b w))) P ->
  wk_categories w = [] -> wk_classNames w = [] -> b_classes (wk_b w) = [] -> epanic P read_body 0 w.
Proof.
  intros [_ HM] (e & b & post & F & HB & HP) C1 C2 C3 s R. rewrite body_split. revert s R.
  match goal with |- forall s, rel P 0 s -> exists w', ?m w s = _ => change (epanic P m 0 w) end.
  destruct HP as [HP|(HP & HT & HK)].
  - assert (S : stored P 0 (front_bytes e ++ b)) by (apply stored_head; exists post; rewrite <- app_assoc; exact HP). apply stored_app in S. destruct S as [S1 S2].
    eapply epanic_then; [apply (front_read P w e F S1); assumption|]. apply epanic_here.
    eapply (pairs_epanic P _ _ set_horz (horz_get w (map snd (e_classes e)))); [reflexivity|reflexivity| |exact HB|exact S2].
    intros l1 p. unfold horz_get, set_horz. rewrite put_app. reflexivity.
  - assert (S : stored P 0 (front_bytes e ++ list_bytes (e_horz e) ++ b)) by (apply stored_head; exists post; rewrite <- !app_assoc; exact HP).
    apply stored_app in S. destruct S as [S1 S]. apply stored_app in S. destruct S as [S2 S3].
    eapply epanic_then; [apply (front_read P w e F S1); assumption|].
    eapply epanic_then.
    { eapply (horz_read P _ w e); [exact F| |exact HT|exact HK|exact S2].
      pose proof (stored_range _ _ _ S2) as [_ X]. change (list_bytes (e_horz e)) with (pairs_bytes (e_horz e)) in X. rewrite zlen_pairs in X. unfold MaxFontDataSize in HM. change (2 ^ 24) with 16777216.
      pose proof (zlen_nonneg (e_horz e)). pose proof (zlen_nonneg (front_bytes e)). lia. }
    apply epanic_here. eapply (pairs_epanic P _ _ set_vert (vert_get w (map snd (e_classes e)) (e_horz e))); [reflexivity|reflexivity| |exact HB|exact S3].
    intros l1 p. unfold vert_get, set_vert. rewrite put_app. reflexivity.
Qed.

(** ** what was taken from the reader *)
Section Kept.
  Variable i : stream.
  Definition ekeeps {A} (m : eaction A) : Prop := forall w s a w' s', strong i s -> m w s = (w', POk a s') -> strong i s'.
  Lemma ekeeps_lift {A} (m : action A) : keeps i m -> ekeeps (lift m).
  Proof. intros H w s a w' s' Hs E. unfold lift in E. injection E as _ E. eapply H; eassumption. Qed.
  Lemma ekeeps_bind {A B} (m : eaction A) (k : A -> eaction B) : ekeeps m -> (forall a, ekeeps (k a)) -> ekeeps (ebind m k).
  Proof.
    intros H1 H2 w s b w' s' Hs E. unfold ebind in E. destruct (m w s) as [w1 [a s1| | |]] eqn:Em; try discriminate.
    eapply H2; [eapply H1; eassumption|exact E].
  Qed.
  Lemma ekeeps_modify f : ekeeps (modify f).
  Proof. intros w s a w' s' Hs E. unfold modify in E. injection E as _ _ <-. exact Hs. Qed.
  Lemma ekeeps_attempt f : ekeeps (attempt f).
  Proof. intros w s a w' s' Hs E. unfold attempt in E. destruct (f w); try discriminate. injection E as _ _ <-. exact Hs. Qed.
  Lemma ekeeps_repeat m : (forall k, ekeeps (m k)) -> forall n k, ekeeps (repeatedly n k m).
  Proof.
    intros H. induction n as [|n IH]; intros k; cbn [repeatedly]; [apply ekeeps_lift, keeps_ret|]. apply ekeeps_bind; [apply H|]. intros _. apply IH.
  Qed.
  Lemma ekeeps_name : ekeeps (lift read_name).
  Proof.
    apply ekeeps_lift. unfold read_name, ReadShortStr. apply keeps_bind.
    - apply keeps_bind; [apply keeps_read|]. intros n. apply keeps_str.
    - intros n. apply keeps_bind; [apply keeps_on|]. intros _. apply keeps_ret.
  Qed.
  Lemma ekeeps_body : ekeeps read_body.
  Proof.
    unfold read_body, read_categories, read_classes, read_pairs, read_conditions.
    repeat first [apply ekeeps_bind | apply ekeeps_name | apply ekeeps_modify | apply ekeeps_attempt | apply ekeeps_repeat
      | (apply ekeeps_lift; apply keeps_when) | (apply ekeeps_lift; apply keeps_read) | match goal with |- forall _, _ => intro end].
  Qed.
End Kept.
Lemma eof_strong P j i s : rel P j s -> strong i s -> (exists s', EnsureEOF s = if ends_after j i then POk tt s' else PPanic).
Proof.
  intros R S. destruct (ensure_eof_rel P j s R) as (s' & H1 & H2 & _). exists s'. unfold ends_after. unfold strong in S.
  replace (Index s) with j in S by (symmetry; apply R). rewrite S. destruct (eof s) eqn:E.
  - destruct (H1 eq_refl) as [-> ->]. reflexivity.
  - destruct (H2 eq_refl) as (E2 & _ & ->). cbn [orb]. unfold readMore in E2. now rewrite (closes_more _ _ _ E E2).
Qed.

Lemma edition_exact w i P : within_bounds P -> delivers i P -> stream_bytes i -> zlen (wk_conditionNames w) <= 254 ->
  let id := bh_ID (b_header (wk_b w)) in let glyphs := zlen (b_order (wk_b w)) in let conditions := zlen (wk_conditionNames w) in
  let r := snd (ParseEditionData w (edition_signature, NoErr) None i) in
  (forall e trailing, P = edition_bytes 4 e ++ trailing -> edition_typed e -> edition_taken id glyphs conditions e ->
    r = if ends_after (zlen (edition_bytes 4 e)) i then Ok tt else Panic) /\
  (broken id glyphs P -> r = Panic) /\
  (~ broken id glyphs P -> ~ (exists e trailing, P = edition_bytes 4 e ++ trailing /\ edition_typed e /\ edition_taken id glyphs conditions e) -> exists m, r = Err m).
Proof.
  intros HB Hd HI HC id glyphs conditions r. pose proof HB as [HP HM]. pose proof (rel_initial i P Hd HP HM) as R0.
  assert (S0 : strong i (initial i)) by (unfold strong; cbn [Index Bytes eof input initial]; apply received_stop; change (zlen []) with 0; lia).
  assert (ER : r = match snd (read_edition (ClearEditionData w) (initial i)) with POk _ _ => Ok tt | PErr m _ => Err m | PPanic => Panic | PHang => Hang end).
  { subst r. unfold ParseEditionData. cbn [negb orb]. change (zlen edition_signature =? 6) with true. cbn [negb]. change (list_eqb edition_signature edition_signature) with true. cbn [negb].
    destruct (read_edition (ClearEditionData w) (initial i)) as [w' [| | |]]; reflexivity. }
  assert (HH : r <> Hang) by (apply edition_ends; exact HI).
  set (c := ClearEditionData w) in *.
  assert (EI : bh_ID (b_header (wk_b c)) = id) by reflexivity. assert (EG : zlen (b_order (wk_b c)) = glyphs) by reflexivity.
  assert (EC : zlen (wk_conditionNames c) = conditions) by (unfold c, ClearEditionData; cbn; apply zlen_map).
  assert (C1 : wk_categories c = []) by reflexivity. assert (C2 : wk_classNames c = []) by reflexivity. assert (C3 : b_classes (wk_b c) = []) by reflexivity.
  splits.
  - intros e trailing EP HT HK. rewrite <- EI, <- EG, <- EC in HK. destruct (body_read P c e trailing EP HT HK C1 C2 C3) as (w' & H).
    destruct (H _ R0) as (s' & E & R'). pose proof (ekeeps_body i _ _ _ _ _ S0 E) as S'. rewrite ER, read_split. unfold ebind. rewrite E. unfold lift.
    destruct (eof_strong P _ i s' R' S') as (s2 & ->). destruct (ends_after _ i); reflexivity.
  - intros Hb. rewrite <- EI, <- EG in Hb. destruct (body_epanic P c HB Hb C1 C2 C3 _ R0) as (w' & E). rewrite ER, read_split. unfold ebind. rewrite E. reflexivity.
  - intros N1 N2. rewrite ER in *. clear ER. rewrite read_split in *. unfold ebind in *. destruct (read_body c (initial i)) as [w' [a s'|m s'| |]] eqn:E; cbn [snd] in *.
    + exfalso. apply N2. destruct (body_sound P c C1 C2 C3 HM _ _ _ _ R0 E) as (b & S & _ & e & -> & HT & HK). rewrite EI, EG, EC in HK.
      destruct S as (pre & post & EP & L). destruct pre; [|rewrite zlen_cons in L; pose proof (zlen_nonneg pre); lia]. exists e, post. auto.
    + eauto.
    + exfalso. apply N1. destruct (body_panics P c C1 C2 C3 ltac:(rewrite EC; exact HC) _ _ R0 E) as (b & S & e & d & F & HB2 & HQ). rewrite EI, EG in *.
      destruct S as (pre & post & EP & L). destruct pre; [|rewrite zlen_cons in L; pose proof (zlen_nonneg pre); lia]. cbn [app] in EP.
      exists e, d, post. split; [exact F|]. split; [exact HB2|]. destruct HQ as [->|(-> & HQ)]; [left|right; split; [|exact HQ]]; rewrite EP, <- !app_assoc; reflexivity.
    + congruence.
Qed.

Lemma signature_error w first g i : first <> (edition_signature, NoErr) \/ g <> None -> exists m, snd (ParseEditionData w first g i) = Err m.
Proof.
  intros H. unfold ParseEditionData. destruct first as [sig err]. destruct (_ || _) eqn:E1; [cbn; eauto|]. destruct (negb (list_eqb sig edition_signature)) eqn:E2; [cbn; eauto|].
  destruct g as [m|]; [cbn; eauto|]. exfalso. destruct H as [H|H]; [|congruence]. apply H.
  apply orb_false_iff in E1. destruct E1 as [E1 _]. apply negb_false_iff in E1, E2. apply list_eqb_true in E2. subst sig. now destruct err.
Qed.
