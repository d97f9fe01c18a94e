(** Reading edition data: nothing else is accepted. *)
From Verif Require Import Base BaseFacts Spec_Helpers Model_Helpers Proofs_Helpers Spec_Names Model_Names Proofs_Names Spec_Format Proofs_Format Proofs_Accept Model_Font
  Model_Parse Spec_Parse Proofs_Parse Proofs_Parse2 Proofs_Parse6 Proofs_Parse7 Proofs_Parse8 Model_Builder Proofs_Builder Model_Edition Spec_Edition Proofs_Edition.
From Coq Require Import Lia.

Ltac splits := repeat match goal with |- _ /\ _ => split end.
Definition sound {A} (P : list Z) (m : action A) (i : Z) (R : A -> list Z -> Prop) : Prop := forall s a s', rel P i s -> m s = POk a s' ->
  exists b, stored P i b /\ rel P (i + zlen b) s' /\ R a b.
Definition esound {A} (P : list Z) (m : eaction A) (i : Z) (w : wk) (R : A -> wk -> list Z -> Prop) : Prop := forall s a w' s', rel P i s -> m w s = (w', POk a s') ->
  exists b, stored P i b /\ rel P (i + zlen b) s' /\ R a w' b.

Lemma rel_range P i s : rel P i s -> 0 <= i <= zlen P.
Proof. intros (_ & H & <- & _). rewrite zlen_app. pose proof (zlen_nonneg (rest s)). lia. Qed.
Lemma stored_empty (P : list Z) i : 0 <= i <= zlen P -> stored P i [].
Proof.
  intros H. exists (firstn (Z.to_nat i) P), (skipn (Z.to_nat i) P). cbn [app]. rewrite firstn_skipn. split; [reflexivity|].
  unfold zlen in *. rewrite firstn_length. lia.
Qed.
Lemma stored_part (P : list Z) i n : 0 <= i -> 0 <= n -> i + n <= zlen P -> exists b, stored P i b /\ zlen b = n.
Proof.
  intros H1 H2 H3. exists (firstn (Z.to_nat n) (skipn (Z.to_nat i) P)). split.
  - exists (firstn (Z.to_nat i) P), (skipn (Z.to_nat n) (skipn (Z.to_nat i) P)). rewrite !firstn_skipn. split; [reflexivity|].
    unfold zlen in *. rewrite firstn_length. lia.
  - unfold zlen in *. rewrite firstn_length, skipn_length. lia.
Qed.
Lemma stored_bytes P i b : stored P i b -> bytes P -> bytes b.
Proof. intros (pre & post & -> & _) H. apply bytes_app in H. destruct H as [_ H]. apply bytes_app in H. tauto. Qed.

Lemma sound_with {A} P i n (decode : list Z -> outcome A) f : 0 < n ->
  (forall b post, bytes b -> zlen b = n -> decode (b ++ post) = Ok (f b)) ->
  sound P (read_with n decode) i (fun v b => bytes b /\ zlen b = n /\ v = f b).
Proof.
  intros Hn D s v s' R E. pose proof (rel_range _ _ _ R) as RR. destruct (Z_le_gt_dec (i + n) (zlen P)).
  - destruct (stored_part P i n) as (b & S & L); [lia..|].
    assert (B : bytes b) by (eapply stored_bytes; [exact S|apply R]).
    destruct (reads_with P i n decode b (f b) S L Hn (fun post => D b post B L) s R) as (s2 & E2 & R2).
    rewrite E in E2. injection E2 as -> ->. exists b. rewrite L. auto.
  - exfalso. unfold read_with, pbind, get_index in E. replace (Index s) with i in E by (symmetry; apply R).
    assert (i < i + n) as Hi by lia. pose proof (sim_readUpTo P i (i + n) Hi s R) as S. rewrite readUpTo_full in S by lia.
    destruct (Z.leb_spec (i + n) (zlen P)); [lia|]. destruct S as (j & s2 & _ & E2 & _). rewrite E2 in E. discriminate.
Qed.
Lemma sound_imp {A} P (m : action A) i (R R' : A -> list Z -> Prop) : sound P m i R -> (forall a b, R a b -> R' a b) -> sound P m i R'.
Proof. intros H HR s a s' Rs E. destruct (H s a s' Rs E) as (b & ? & ? & ?). eauto. Qed.
Lemma le_value_range b : bytes b -> 0 <= le_value b < 256 ^ zlen b.
Proof.
  intros B. pose proof (le_value_digits (length b) (le_value b)) as E. rewrite (le_digits_value b B) in E. rewrite E.
  apply Z.mod_pos_bound. apply Z.pow_pos_nonneg; [reflexivity|apply zlen_nonneg].
Qed.

Lemma sound_u8 P i : sound P ReadUint8 i (fun v b => b = [v] /\ 0 <= v < 256).
Proof.
  eapply sound_imp; [apply (sound_with P i 1 _ (fun b => nth 0 b 0)); [lia|]|].
  - intros b post B L. destruct b as [|x b]; [discriminate|]. reflexivity.
  - cbn. intros v b (B & L & ->). destruct b as [|x [|y b]]; [discriminate| |rewrite !zlen_cons in L; pose proof (zlen_nonneg b); lia].
    split; [reflexivity|]. apply bytes_cons in B. apply B.
Qed.
Lemma sound_i8 P i : sound P ReadInt8 i (fun v b => b = [v mod 256] /\ -128 <= v < 128).
Proof.
  eapply sound_imp; [apply (sound_with P i 1 _ (fun b => i8 (nth 0 b 0))); [lia|]|].
  - intros b post B L. destruct b as [|x b]; [discriminate|]. reflexivity.
  - cbn. intros v b (B & L & ->). destruct b as [|x [|y b]]; [discriminate| |rewrite !zlen_cons in L; pose proof (zlen_nonneg b); lia].
    cbn [nth]. apply bytes_cons in B. destruct B as [B _]. unfold byte in B. unfold i8, u8. rewrite (Z.mod_small x) by lia.
    destruct (Z.ltb_spec x 128).
    + rewrite Z.mod_small by lia. split; [reflexivity|lia].
    + split; [|lia]. f_equal. Z.div_mod_to_equations; lia.
Qed.
Lemma sound_le P i n decode : (0 < n)%nat -> (forall v post, decode (le_digits n v ++ post) = Ok (v mod 256 ^ Z.of_nat n)) ->
  sound P (read_with (Z.of_nat n) decode) i (fun v b => b = le_digits n v /\ 0 <= v < 256 ^ Z.of_nat n).
Proof.
  intros Hn D. eapply sound_imp; [apply (sound_with P i _ _ le_value); [lia|]|].
  - intros b post B L. rewrite <- (le_digits_value b B) at 1. replace (length b) with n by (unfold zlen in L; lia).
    rewrite D. f_equal. apply Z.mod_small. rewrite <- L. now apply le_value_range.
  - cbn. intros v b (B & L & ->). split; [|rewrite <- L; now apply le_value_range].
    rewrite <- (le_digits_value b B) at 1. f_equal. unfold zlen in L. lia.
Qed.
Lemma sound_u16 P i : sound P ReadUint16 i (fun v b => b = le_digits 2 v /\ 0 <= v < 65536).
Proof. apply (sound_le P i 2); [lia|]. intros. apply decode16_digits. Qed.
Lemma sound_u32 P i : sound P ReadUint32 i (fun v b => b = le_digits 4 v /\ 0 <= v < 4294967296).
Proof. apply (sound_le P i 4); [lia|]. intros. apply decode32_digits. Qed.
Lemma sound_u64 P i : sound P ReadUint64 i (fun v b => b = le_digits 8 v /\ 0 <= v < 2 ^ 64).
Proof. apply (sound_le P i 8); [lia|]. intros. rewrite decode64_more. apply decode64_digits. Qed.

Lemma sound_bind {A B} P (m : action A) (k : A -> action B) i R1 R :
  sound P m i R1 -> (forall a b1, R1 a b1 -> stored P i b1 -> sound P (k a) (i + zlen b1) (fun c b2 => R c (b1 ++ b2))) -> sound P (pbind m k) i R.
Proof.
  intros H1 H2 s c s' Rs E. unfold pbind in E. destruct (m s) as [a s1| | |] eqn:E1; try discriminate.
  destruct (H1 s a s1 Rs E1) as (b1 & S1 & Rs1 & HR1). destruct (H2 a b1 HR1 S1 s1 c s' Rs1 E) as (b2 & S2 & Rs2 & HR2).
  exists (b1 ++ b2). rewrite zlen_app, Z.add_assoc. split; [now apply stored_join|]. auto.
Qed.
Lemma sound_ret {A} P i (a : A) : sound P (pret a) i (fun v b => v = a /\ b = []).
Proof.
  intros s v s' R E. injection E as <- <-. exists []. rewrite zlen_nil, Z.add_0_r. split; [|auto]. apply stored_empty. eapply rel_range; eassumption.
Qed.
Lemma sound_str P i n : 0 <= n -> sound P (read_str n) i (fun v b => b = v /\ zlen v = n).
Proof.
  intros Hn s v s' R E. pose proof (rel_range _ _ _ R) as RR. pose proof (sim_read_str P i n Hn s R) as S. rewrite read_str_full in S by lia.
  destruct (Z.leb_spec (i + n) (zlen P)).
  - destruct S as (j & s2 & F & E2 & R2). injection F as <-. rewrite E in E2. injection E2 as -> ->.
    destruct (stored_part P i n) as (b & S & L); [lia..|]. pose proof S as S'. apply stored_slice in S'. rewrite L in S'. rewrite zslice_zfrom in S' by lia.
    injection S' as S'. rewrite S'. exists b. rewrite L. auto.
  - destruct S as (j & s2 & F & E2 & R2). congruence.
Qed.
Lemma sound_name P i : sound P read_name i (fun v b => b = short_string v /\ spaced_name v /\ bytes v /\ zlen v < 256).
Proof.
  intros s a s' R E. assert (BP : bytes P) by apply R.
  assert (H : sound P read_name i (fun v b => b = short_string v /\ spaced_name v /\ zlen v < 256)).
  { clear. unfold read_name. eapply sound_bind.
    - instantiate (1 := fun v b => b = short_string v /\ zlen v < 256). unfold ReadShortStr. eapply sound_bind; [apply sound_u8|].
      cbn. intros n b1 (-> & Hn) _. eapply sound_imp; [apply sound_str; lia|]. cbn. intros v b (-> & L). subst n. split; [reflexivity|lia].
    - cbn. intros v b1 (-> & L) _. eapply sound_bind.
      + instantiate (1 := fun _ b => spaced_name v /\ b = []). intros s a s' R E. unfold on_bytes in E.
        destruct (validateBasicSpacedName v) as [[]| | |] eqn:EV; try discriminate. injection E as <- <-. exists []. rewrite zlen_nil, Z.add_0_r.
        splits; auto; [eapply stored_empty, rel_range; eassumption|]. now apply (proj1 (spaced_spec v)).
      + cbn. intros _ b2 (N & ->) _. eapply sound_imp; [apply sound_ret|]. cbn. intros ? ? (-> & ->). rewrite !app_nil_r. auto. }
  destruct (H s a s' R E) as (b & S & R' & E2 & N & L). exists b. splits; auto. apply (stored_bytes _ _ _ S) in BP. rewrite E2 in BP.
  apply bytes_cons in BP. apply BP.
Qed.

(** ** Steps that change the builder *)
Lemma esound_imp {A} P (m : eaction A) i w (R R' : A -> wk -> list Z -> Prop) : esound P m i w R -> (forall a w' b, R a w' b -> R' a w' b) -> esound P m i w R'.
Proof. intros H HR s a w' s' Rs E. destruct (H s a w' s' Rs E) as (b & ? & ? & ?). eauto. Qed.
Lemma esound_lift {A} P (m : action A) i w R : sound P m i R -> esound P (lift m) i w (fun a w' b => w' = w /\ R a b).
Proof. intros H s a w' s' Rs E. unfold lift in E. injection E as -> E. destruct (H s a s' Rs E) as (b & ? & ? & ?). exists b. auto. Qed.
Lemma esound_bind {A B} P (m : eaction A) (k : A -> eaction B) i w R1 R :
  esound P m i w R1 -> (forall a w1 b1, R1 a w1 b1 -> stored P i b1 -> esound P (k a) (i + zlen b1) w1 (fun c w2 b2 => R c w2 (b1 ++ b2))) -> esound P (ebind m k) i w R.
Proof.
  intros H1 H2 s c w' s' Rs E. unfold ebind in E. destruct (m w s) as [w1 [a s1| | |]] eqn:E1; try discriminate.
  destruct (H1 s a w1 s1 Rs E1) as (b1 & S1 & Rs1 & HR1). destruct (H2 a w1 b1 HR1 S1 s1 c w' s' Rs1 E) as (b2 & S2 & Rs2 & HR2).
  exists (b1 ++ b2). rewrite zlen_app, Z.add_assoc. split; [now apply stored_join|]. auto.
Qed.
Lemma esound_modify P f i w : esound P (modify f) i w (fun _ w' b => w' = f w /\ b = []).
Proof.
  intros s a w' s' R E. injection E as <- <- <-. exists []. rewrite zlen_nil, Z.add_0_r. split; [|auto]. eapply stored_empty, rel_range; eassumption.
Qed.
Lemma esound_attempt P f i w : esound P (attempt f) i w (fun _ w' b => f w = Ok w' /\ b = []).
Proof.
  intros s a w' s' R E. unfold attempt in E. destruct (f w) eqn:F; try discriminate. injection E as <- <- <-.
  exists []. rewrite zlen_nil, Z.add_0_r. split; [|auto]. eapply stored_empty, rel_range; eassumption.
Qed.
Lemma esound_when P c e i w : esound P (lift (when c e)) i w (fun _ w' b => w' = w /\ c = false /\ b = []).
Proof.
  intros s a w' s' R E. unfold lift, when in E. destruct c; [discriminate|]. injection E as <- <- <-.
  exists []. rewrite zlen_nil, Z.add_0_r. split; [|auto]. eapply stored_empty, rel_range; eassumption.
Qed.
Lemma esound_repeat {X} P (m : Z -> eaction unit) (enc : X -> list Z) (Q : X -> Prop) (St : list X -> wk) : forall n l1 i,
  (forall l i, zlen l1 <= zlen l < zlen l1 + Z.of_nat n -> esound P (m (zlen l)) i (St l) (fun _ w' b => exists x, w' = St (l ++ [x]) /\ b = enc x /\ Q x)) ->
  esound P (repeatedly n (zlen l1) m) i (St l1) (fun _ w' b => exists l2, length l2 = n /\ w' = St (l1 ++ l2) /\ b = concat (map enc l2) /\ Forall Q l2).
Proof.
  induction n as [|n IH]; intros l1 i H; cbn [repeatedly].
  - intros s a w' s' R E. injection E as <- <- <-. exists []. rewrite zlen_nil, Z.add_0_r. splits; auto; [eapply stored_empty, rel_range; eassumption|].
    exists []. rewrite app_nil_r. auto.
  - eapply esound_bind; [apply H; lia|]. cbn. intros _ w1 b1 (x & -> & -> & Hx) _. specialize (IH (l1 ++ [x])).
    rewrite zlen_app, zlen_cons, zlen_nil in IH. replace (zlen l1 + (1 + 0)) with (zlen l1 + 1) in IH by lia.
    eapply esound_imp; [apply IH|].
    + intros l k Hl. apply H. lia.
    + cbn. intros _ w' b (l2 & L & -> & -> & HQ). exists (x :: l2). rewrite <- app_assoc. cbn. auto.
Qed.
Lemma esound_all {X} P (m : Z -> eaction unit) (enc : X -> list Z) (Q : X -> Prop) (St : list X -> wk) n i w :
  (forall l i, zlen l < Z.of_nat n -> esound P (m (zlen l)) i (St l) (fun _ w' b => exists x, w' = St (l ++ [x]) /\ b = enc x /\ Q x)) -> w = St [] ->
  esound P (repeatedly n 0 m) i w (fun _ w' b => exists l2, length l2 = n /\ w' = St l2 /\ b = concat (map enc l2) /\ Forall Q l2).
Proof. intros H ->. apply (esound_repeat P m enc Q St n [] i). intros l k Hl. apply H. rewrite zlen_nil in Hl. lia. Qed.

(** ** The sections *)
Lemma combine_map {A B} (l1 : list A) (l2 : list B) : length l1 = length l2 ->
  map fst (combine l1 l2) = l1 /\ map snd (combine l1 l2) = l2.
Proof.
  revert l2. induction l1 as [|x l1 IH]; destruct l2 as [|y l2]; cbn; intros H; try discriminate; auto.
  destruct (IH l2) as [-> ->]; [congruence|]. auto.
Qed.
(** [f] of the first elements, [z] of the others *)
Definition partly {A B C} (f : A * B -> C) (z : A -> C) (names : list A) (vs : list B) : list C :=
  map f (combine names vs) ++ map z (skipn (length vs) names).
Lemma partly_none {A B C} (f : A * B -> C) z names : partly f z names [] = map z names.
Proof. unfold partly. cbn. now rewrite combine_nil. Qed.
Lemma partly_next {A B C} (f : A * B -> C) z names vs : (length vs < length names)%nat ->
  exists x l1 l2, names = l1 ++ x :: l2 /\ length l1 = length vs /\ partly f z names vs = map f (combine l1 vs) ++ z x :: map z l2 /\
    forall v, partly f z names (vs ++ [v]) = map f (combine l1 vs) ++ f (x, v) :: map z l2.
Proof.
  intros H. assert (HN : names = firstn (length vs) names ++ skipn (length vs) names) by (symmetry; apply firstn_skipn).
  assert (HL : length (firstn (length vs) names) = length vs) by (rewrite firstn_length; lia).
  set (l1 := firstn (length vs) names) in *. destruct (skipn (length vs) names) as [|x l2] eqn:E.
  { exfalso. apply (f_equal (@length _)) in E. rewrite skipn_length in E. cbn in E. lia. }
  exists x, l1, l2. splits; auto.
  - unfold partly. rewrite E. f_equal. f_equal. rewrite HN. clear -HL. clearbody l1. revert vs HL.
    induction l1 as [|y l1 IH]; destruct vs; cbn; intros; try discriminate; [reflexivity|]. f_equal. apply IH. congruence.
  - intros v. unfold partly. rewrite app_length, Nat.add_comm. cbn [length]. rewrite skipn_more, E. cbn [skipn].
    change (f (x, v) :: map z l2) with ([f (x, v)] ++ map z l2). rewrite app_assoc. f_equal. rewrite HN. clear -HL. clearbody l1. revert vs HL.
    induction l1 as [|y l1 IH]; destruct vs; cbn; intros; try discriminate.
    + now destruct l2.
    + f_equal. apply IH. congruence.
Qed.
Lemma partly_all {A B C} (f : A * B -> C) z names vs : length vs = length names -> partly f z names vs = map f (combine names vs).
Proof. intros H. unfold partly. rewrite skipn_all2 by lia. now rewrite app_nil_r. Qed.
Lemma zlen_combine {A B C} (f : A * B -> C) l1 l2 : length l1 = length l2 -> zlen (map f (combine l1 l2)) = zlen l2.
Proof. intros H. rewrite zlen_map. unfold zlen. rewrite combine_length. lia. Qed.

Definition cats_bytes (l : list (list Z * Z)) := [zlen l] ++ concat (map (fun c => short_string (fst c)) l) ++ concat (map (fun c => le_digits 2 (snd c)) l).
Lemma categories_sound P i w : wk_categories w = [] -> esound P read_categories i w (fun _ w' b => exists l, w' = set_categories w l /\ b = cats_bytes l /\
  zlen l < 256 /\ Forall (fun c => bytes (fst c) /\ zlen (fst c) < 256 /\ 0 <= snd c < 65536) l /\ Forall (fun c => spaced_name (fst c)) l).
Proof.
  intros HE. unfold read_categories. eapply esound_bind; [apply esound_lift, sound_u8|]. cbn. intros n w1 b1 (-> & -> & Hn) _.
  eapply esound_bind.
  - apply (esound_all P _ short_string (fun v => spaced_name v /\ bytes v /\ zlen v < 256) (fun l => set_categories w (map (fun v => (v, 0)) l))).
    + intros l k Hl. eapply esound_bind; [apply esound_lift, sound_name|]. cbn. intros v w1 b1 (-> & -> & HQ) _.
      eapply esound_imp; [apply esound_modify|]. cbn. intros _ w' b (-> & ->). exists v. rewrite map_app, app_nil_r. auto.
    + destruct w; cbn in *. now rewrite HE.
  - cbn. intros _ w1 b2 (ns & L & -> & -> & HQ) _.
    eapply esound_imp.
    + apply (esound_all P _ (fun v => le_digits 2 v) (fun v => 0 <= v < 65536) (fun l => set_categories w (partly (fun p => p) (fun v => (v, 0)) ns l))).
      * intros l k Hl. destruct (partly_next (fun p : list Z * Z => p) (fun v : list Z => (v, 0)) ns l) as (x & l1 & l2 & E1 & E2 & E3 & E4); [unfold zlen in Hl; lia|].
        eapply esound_bind; [apply esound_lift, sound_u16|]. cbn. intros v w1 b1 (-> & -> & Hv) _.
        eapply esound_imp; [apply esound_attempt|]. cbn. intros _ w' b (Hf & ->). exists v. splits; auto; try lia.
        rewrite E3, zget_mid in Hf by (now rewrite zlen_combine). cbn [bind] in Hf. rewrite zset_mid in Hf by (now rewrite zlen_combine). cbn [bind] in Hf.
        injection Hf as <-. unfold set_categories. cbn. f_equal.
        rewrite E4. reflexivity.
      * now rewrite partly_none.
    + cbn. intros _ w' b (vs & L2 & -> & -> & HQ2). exists (combine ns vs).
      destruct (combine_map ns vs) as [M1 M2]; [congruence|].
      assert (ZL : zlen (combine ns vs) = n) by (unfold zlen; rewrite combine_length; lia).
      splits; auto; try lia.
      * rewrite partly_all by congruence. now rewrite map_id.
      * unfold cats_bytes. rewrite ZL. cbn [app]. f_equal. f_equal; f_equal.
        -- rewrite <- M1 at 1. rewrite map_map. reflexivity.
        -- rewrite <- M2 at 1. rewrite map_map. reflexivity.
      * apply Forall_forall. intros [a v] H. pose proof (in_combine_l _ _ _ _ H) as Ha. pose proof (in_combine_r _ _ _ _ H) as Hv.
        rewrite Forall_forall in HQ, HQ2. destruct (HQ a Ha) as (? & ? & ?). specialize (HQ2 v Hv). cbn. auto.
      * apply Forall_forall. intros [a v] H. pose proof (in_combine_l _ _ _ _ H) as Ha. rewrite Forall_forall in HQ. cbn. now apply HQ.
Qed.

Definition classes_bytes (l : list (list Z * Z)) := le_digits 2 (zlen l) ++ concat (map (fun c => short_string (fst c)) l) ++ map (fun c => snd c mod 256) l.
Lemma classes_sound P i w : b_classes (wk_b w) = [] -> wk_classNames w = [] -> esound P read_classes i w (fun _ w' b => exists l,
  w' = set_classes w (map snd l) (map fst l) /\ b = classes_bytes l /\
  zlen l < 65536 /\ Forall (fun c => bytes (fst c) /\ zlen (fst c) < 256 /\ -128 <= snd c < 128) l /\ Forall (fun c => spaced_name (fst c)) l).
Proof.
  intros HE HE2. unfold read_classes. eapply esound_bind; [apply esound_lift, sound_u16|]. cbn. intros n w1 b1 (-> & -> & Hn) _.
  eapply esound_bind.
  - apply (esound_all P _ short_string (fun v => spaced_name v /\ bytes v /\ zlen v < 256) (fun l => set_classes w (map (fun v => 0) l) l)).
    + intros l k Hl. eapply esound_bind; [apply esound_lift, sound_name|]. cbn. intros v w1 b1 (-> & -> & HQ) _.
      eapply esound_imp; [apply esound_modify|]. cbn. intros _ w' b (-> & ->). exists v. unfold set_classes, with_classes. cbn. rewrite map_app, app_nil_r. auto.
    + destruct w as [[] ? ? ?]; cbn in *. unfold set_classes, with_classes. cbn. now rewrite HE, HE2.
  - cbn. intros _ w1 b2 (ns & L & -> & -> & HQ) _.
    eapply esound_imp.
    + apply (esound_all P _ (fun v => [v mod 256]) (fun v => -128 <= v < 128) (fun l => set_classes w (partly snd (fun _ => 0) ns l) ns)).
      * intros l k Hl. destruct (partly_next (fun p : list Z * Z => snd p) (fun _ : list Z => 0) ns l) as (x & l1 & l2 & E1 & E2 & E3 & E4); [unfold zlen in Hl; lia|].
        eapply esound_bind; [apply esound_lift, sound_i8|]. cbn. intros v w1 b1 (-> & -> & Hv) _.
        eapply esound_imp; [apply esound_attempt|]. cbn. intros _ w' b (Hf & ->). exists v. splits; auto; try lia.
        change (fun p : list Z * Z => snd p) with (@snd (list Z) Z) in *.
        rewrite E3, zset_mid in Hf by (now rewrite zlen_combine). cbn [bind] in Hf.
        injection Hf as <-. unfold set_classes, with_classes. cbn. rewrite E4. reflexivity.
      * now rewrite partly_none.
    + cbn. intros _ w' b (vs & L2 & -> & -> & HQ2). exists (combine ns vs).
      destruct (combine_map ns vs) as [M1 M2]; [congruence|].
      assert (ZL : zlen (combine ns vs) = n) by (unfold zlen; rewrite combine_length; lia).
      splits; auto; try lia.
      * rewrite partly_all by congruence. now rewrite M1.
      * unfold classes_bytes. rewrite ZL. cbn [app]. f_equal. f_equal. f_equal.
        -- f_equal. rewrite <- M1 at 1. rewrite map_map. reflexivity.
        -- rewrite <- M2 at 1. rewrite map_map. generalize (combine ns vs). clear. induction l as [|[x y] l IH]; cbn; [reflexivity|]. now f_equal.
      * apply Forall_forall. intros [a v] H. pose proof (in_combine_l _ _ _ _ H) as Ha. pose proof (in_combine_r _ _ _ _ H) as Hv.
        rewrite Forall_forall in HQ, HQ2. destruct (HQ a Ha) as (? & ? & ?). specialize (HQ2 v Hv). cbn. auto.
      * apply Forall_forall. intros [a v] H. pose proof (in_combine_l _ _ _ _ H) as Ha. rewrite Forall_forall in HQ. cbn. now apply HQ.
Qed.

Definition pairs_bytes (l : list (Z * Z * Z)) := le_digits 4 (zlen l) ++ concat (map pair_bytes l).
Lemma pairs_sound P i w set (get : list (Z * Z * Z) -> builder) :
  get [] = wk_b w -> (forall l, b_order (get l) = b_order (wk_b w)) ->
  (forall l1 p, set (get l1) (key_of (b_order (wk_b w)) p) (snd p) = get (l1 ++ [p])) ->
  esound P (read_pairs set) i w (fun _ w' b => exists l, w' = set_b w (get l) /\ b = pairs_bytes l /\
    Forall (fun p => 0 <= fst (fst p) < 65536 /\ 0 <= snd (fst p) < 65536 /\ 0 <= snd p < 65536) l /\ pairs_taken (zlen (b_order (wk_b w))) l).
Proof.
  intros G0 GO GS. unfold read_pairs. eapply esound_bind; [apply esound_lift, sound_u32|]. cbn. intros n w1 b1 (-> & -> & Hn) _.
  eapply esound_imp.
  - apply (esound_all P _ pair_bytes (fun p => (0 <= fst (fst p) < 65536 /\ 0 <= snd (fst p) < 65536 /\ 0 <= snd p < 65536) /\
      fst (fst p) < zlen (b_order (wk_b w)) /\ snd (fst p) < zlen (b_order (wk_b w)) /\ 1 <= snd p) (fun l => set_b w (get l))).
    + intros l k Hl. eapply esound_bind; [apply esound_lift, sound_u16|]. cbn. intros u w1 b1 (-> & -> & Hu) _.
      eapply esound_bind; [apply esound_lift, sound_u16|]. cbn [fst snd]. intros v w1 b1 (-> & -> & Hv) _.
      eapply esound_bind; [apply esound_lift, sound_u16|]. cbn [fst snd]. intros c w1 b1 (-> & -> & Hc) _.
      eapply esound_bind; [apply esound_when|]. cbn [fst snd]. intros ? w1 b1 (-> & Hz & ->) _. apply Z.eqb_neq in Hz.
      eapply esound_imp; [apply esound_attempt|]. cbn [wk_b set_b]. intros _ w' b (Hf & ->). exists (u, v, c).
      rewrite !GO in Hf. apply bind_ok_inv in Hf as (x & E1 & Hf). apply bind_ok_inv in Hf as (y & E2 & Hf). injection Hf as <-.
      pose proof (zget_ok_range _ _ _ E1). pose proof (zget_ok_range _ _ _ E2). rewrite zget_nth in E1, E2 by lia.
      injection E1 as E1. injection E2 as E2.
      unfold pair_bytes. cbn [fst snd]. rewrite !app_nil_r. splits; try lia; [|reflexivity].
      unfold set_b. cbn. f_equal. rewrite <- (GS l (u, v, c)). unfold key_of. cbn [fst snd]. now rewrite E1, E2.
    + rewrite G0. now destruct w.
  - cbn. intros _ w' b (l & L & -> & -> & HQ). exists l. assert (zlen l = n) by (unfold zlen; lia). splits; auto.
    + unfold pairs_bytes. now rewrite H.
    + eapply Forall_impl; [|exact HQ]. cbn. tauto.
    + eapply Forall_impl; [|exact HQ]. cbn. tauto.
Qed.

Definition conditions_bytes' (l : list (list Z)) := [zlen l] ++ concat (map short_string l).
Lemma conditions_sound P i w : esound P read_conditions i w (fun _ w' b => exists l, w' = set_names w l /\ b = conditions_bytes' l /\ zlen l < 255 /\
  Forall (fun n => bytes n /\ zlen n < 256) l /\ Forall spaced_name l /\ zlen l = zlen (wk_conditionNames w)).
Proof.
  unfold read_conditions. eapply esound_bind; [apply esound_lift, sound_u8|]. cbn. intros n w1 b1 (-> & -> & Hn) _.
  eapply esound_bind; [apply esound_when|]. cbn [fst snd]. intros ? w1 b1 (-> & Hz & ->) _. apply Z.eqb_neq in Hz.
  eapply esound_bind; [apply esound_attempt|]. cbn [fst snd]. intros ? w1 b1 (Hf & ->) _.
  destruct (Z.eqb_spec n (zlen (wk_conditionNames w))); cbn [negb] in Hf; [|destruct (_ >? _); discriminate]. injection Hf as <-.
  eapply esound_imp.
  - apply (esound_all P _ short_string (fun v => spaced_name v /\ bytes v /\ zlen v < 256) (fun l => set_names w (l ++ skipn (length l) (wk_conditionNames w)))).
    + intros l k Hl. eapply esound_bind; [apply esound_lift, sound_name|]. cbn. intros v w1 b1 (-> & -> & HQ) _.
      eapply esound_imp; [apply esound_attempt|]. cbn. intros _ w' b (Hf & ->). exists v. rewrite app_nil_r. splits; auto; try apply HQ.
      destruct (skipn (length l) (wk_conditionNames w)) as [|y r] eqn:E.
      { exfalso. apply (f_equal (@length _)) in E. rewrite skipn_length in E. cbn in E. unfold zlen in *. lia. }
      rewrite zset_mid in Hf by reflexivity. cbn [bind] in Hf. injection Hf as <-. unfold set_names. cbn. f_equal. rewrite <- app_assoc. cbn [app].
      f_equal. f_equal. rewrite app_length, Nat.add_comm. cbn [length]. rewrite skipn_more, E. reflexivity.
    + cbn. now destruct w.
  - cbn. intros _ w' b (l & L & -> & -> & HQ). exists l. assert (ZL : zlen l = n) by (unfold zlen; lia). splits; auto; try lia.
    + rewrite skipn_all2 by (unfold zlen in *; lia). now rewrite app_nil_r.
    + unfold conditions_bytes'. rewrite ZL. reflexivity.
    + eapply Forall_impl; [|exact HQ]. cbn. tauto.
    + eapply Forall_impl; [|exact HQ]. cbn. tauto.
Qed.

Lemma sound_eof P i : sound P EnsureEOF i (fun _ b => b = []).
Proof.
  intros s a s' R E. exists []. rewrite zlen_nil, Z.add_0_r. splits; auto; [eapply stored_empty, rel_range; eassumption|].
  destruct (ensure_eof_rel P i s R) as (s2 & H1 & H2 & _). destruct (eof s) eqn:Es.
  - destruct (H1 eq_refl) as [_ E2]. rewrite E2 in E. injection E as _ <-. exact R.
  - destruct (H2 eq_refl) as (_ & R2 & E2). rewrite E2 in E. destruct (eof s2); [|discriminate]. injection E as _ <-. exact R2.
Qed.

Lemma concat_same_len {X} (f : X -> list Z) n l : (forall x, zlen (f x) = n) -> zlen (concat (map f l)) = n * zlen l.
Proof.
  intros H. induction l as [|x l IH]; cbn [map concat]; [rewrite !zlen_nil; lia|]. rewrite zlen_app, zlen_cons, H, IH. lia.
Qed.
Lemma zlen_pairs l : zlen (pairs_bytes l) = 4 + 6 * zlen l.
Proof.
  unfold pairs_bytes. rewrite zlen_app, zlen_le_digits, (concat_same_len _ 6); [lia|]. intros x. unfold pair_bytes. rewrite !zlen_app, !zlen_le_digits. lia.
Qed.

Lemma edition_sound P w : wk_categories w = [] -> wk_classNames w = [] -> b_classes (wk_b w) = [] -> zlen P <= MaxFontDataSize ->
  esound P read_edition 0 w (fun _ w' b => exists e, b = edition_bytes 4 e /\ w' = edition_result w e /\ edition_typed e /\
    edition_taken (bh_ID (b_header (wk_b w))) (zlen (b_order (wk_b w))) (zlen (wk_conditionNames w)) e).
Proof.
  intros C1 C2 C3 HM.
  assert (H : esound P read_edition 0 w (fun _ w' b => exists e, b = edition_bytes 4 e /\ w' = edition_result w e /\ (stored P 0 b -> edition_typed e) /\
    edition_taken (bh_ID (b_header (wk_b w))) (zlen (b_order (wk_b w))) (zlen (wk_conditionNames w)) e)).
  { unfold read_edition. eapply esound_bind; [apply esound_lift, sound_u64|]. cbn [fst snd]. intros id ? ? (-> & -> & Hid) _.
    eapply esound_bind; [apply esound_attempt|]. cbn [fst snd]. intros ? ? ? (Hf & ->) _.
    destruct (Z.eqb_spec id (bh_ID (b_header (wk_b w)))) as [EI|]; [|discriminate]. injection Hf as <-.
    eapply esound_bind; [apply categories_sound; assumption|]. cbn [fst snd]. intros ? ? ? (cats & -> & -> & A1 & A2 & A3) _.
    eapply esound_bind; [apply classes_sound; assumption|]. cbn [fst snd]. intros ? ? ? (cls & -> & -> & B1 & B2 & B3) _.
    eapply esound_bind.
    { apply (pairs_sound P _ _ set_horz (fun l1 => with_kerning (with_classes (wk_b w) (map snd cls)) (put (b_order (wk_b w)) (b_horz (wk_b w)) l1) (b_vert (wk_b w))));
        [reflexivity|reflexivity|]. intros l1 p. unfold set_horz. rewrite put_app. reflexivity. }
    cbn [fst snd]. intros ? ? ? (hs & -> & -> & D1 & D2) _.
    eapply esound_bind.
    { apply (pairs_sound P _ _ set_vert (fun l1 => with_kerning (with_classes (wk_b w) (map snd cls)) (put (b_order (wk_b w)) (b_horz (wk_b w)) hs) (put (b_order (wk_b w)) (b_vert (wk_b w)) l1)));
        [reflexivity|reflexivity|]. intros l1 p. unfold set_vert. rewrite put_app. reflexivity. }
    cbn [fst snd]. intros ? ? ? (vs & -> & -> & F1 & F2) _.
    eapply esound_bind; [apply conditions_sound|]. cbn [fst snd]. intros ? ? ? (con & -> & -> & G1 & G2 & G3 & G4) _.
    eapply esound_imp; [apply esound_lift, sound_eof|]. cbn [fst snd]. intros ? ? ? (-> & ->).
    exists (mkEdition id cats cls hs vs con). cbn [e_id e_categories e_classes e_horz e_vert e_conditions].
    assert (EB : le_digits 8 id ++ [] ++ cats_bytes cats ++ classes_bytes cls ++ pairs_bytes hs ++ pairs_bytes vs ++ conditions_bytes' con ++ [] =
      edition_bytes 4 (mkEdition id cats cls hs vs con)).
    { unfold edition_bytes, cats_bytes, classes_bytes, pairs_bytes, conditions_bytes'. cbn [e_id e_categories e_classes e_horz e_vert e_conditions].
      rewrite app_nil_r. cbn [app]. rewrite <- !app_assoc. reflexivity. }
    splits; auto.
    - intros S. apply stored_range in S. rewrite !zlen_app, !zlen_pairs in S. unfold MaxFontDataSize in HM.
      pose proof (zlen_nonneg (le_digits 8 id)). pose proof (zlen_nonneg (cats_bytes cats)). pose proof (zlen_nonneg (classes_bytes cls)).
      pose proof (zlen_nonneg (conditions_bytes' con)). pose proof (zlen_nonneg hs). pose proof (zlen_nonneg vs). rewrite zlen_nil in S.
      unfold edition_typed. cbn [e_id e_categories e_classes e_horz e_vert e_conditions]. change (2 ^ 24) with 16777216.
      splits; auto; try lia. apply Forall_app. auto.
    - unfold edition_taken. cbn [e_id e_categories e_classes e_horz e_vert e_conditions]. cbn in G4. splits; auto. }
  intros s a w' s' R E. destruct (H s a w' s' R E) as (b & S & R2 & e & E1 & E2 & E3 & E4). exists b. splits; auto. exists e. splits; auto.
Qed.
