(** Reading edition data: laid out data is read, failures clear. *)
From Verif Require Import Base BaseFacts Spec_Helpers Model_Helpers Proofs_Helpers Spec_Names Model_Names Proofs_Names Spec_Format Proofs_Format Model_Font
  Model_Parse Spec_Parse Proofs_Parse Proofs_Parse2 Proofs_Parse6 Proofs_Parse7 Proofs_Parse8 Model_Builder Proofs_Builder Model_Edition Spec_Edition.
From Coq Require Import Lia.

(** ** Reading from a stream whose contents are known *)
Definition reads {A} (P : list Z) (m : action A) (i : Z) (a : A) (j : Z) : Prop :=
  forall s, rel P i s -> exists s', m s = POk a s' /\ rel P j s'.
Definition ereads {A} (P : list Z) (m : eaction A) (i : Z) (w : wk) (a : A) (w' : wk) (j : Z) : Prop :=
  forall s, rel P i s -> exists s', m w s = (w', POk a s') /\ rel P j s'.

Lemma reads_sim {A} P (m : action A) i a j : sim_at P i m -> m (full P i) = POk a (full P j) -> reads P m i a j.
Proof.
  intros S E s R. specialize (S s R). rewrite E in S. destruct S as (j' & s2 & F & E2 & R2).
  injection F as <-. eauto.
Qed.
Lemma reads_bind {A B} P (m : action A) (k : A -> action B) i a j b j' :
  reads P m i a j -> reads P (k a) j b j' -> reads P (pbind m k) i b j'.
Proof.
  intros H1 H2 s R. destruct (H1 s R) as (s1 & E1 & R1). destruct (H2 s1 R1) as (s2 & E2 & R2).
  exists s2. split; [|assumption]. unfold pbind. rewrite E1. exact E2.
Qed.
Lemma reads_at {A} P (m : action A) i a j j' : reads P m i a j -> j = j' -> reads P m i a j'.
Proof. now intros H <-. Qed.
Lemma reads_with {A} P i n (decode : list Z -> outcome A) b v : stored P i b -> zlen b = n -> 0 < n ->
  (forall post, decode (b ++ post) = Ok v) -> reads P (read_with n decode) i v (i + n).
Proof.
  intros S L Hn D. pose proof (stored_range _ _ _ S) as [R1 R2]. apply reads_sim.
  - apply sim_read_with; [assumption|]. intros _ _ B t E HB. destruct (stored_from _ _ _ S) as (post & F). rewrite F. cbn [bind].
    assert (SB : stored B i b).
    { destruct S as (pre & post' & EP & <-). exists pre. rewrite EP in E. clear - E HB L.
      assert (HL : (length (pre ++ b) <= length B)%nat) by (rewrite app_length; unfold zlen in *; lia).
      exists (skipn (length (pre ++ b)) B). split; [|reflexivity]. rewrite app_assoc in E |- *.
      rewrite <- (firstn_skipn (length (pre ++ b)) B) at 1. f_equal.
      apply (f_equal (firstn (length (pre ++ b)))) in E. rewrite (firstn_app _ (pre ++ b) post'), (firstn_app _ B t) in E.
      replace (length (pre ++ b) - length (pre ++ b))%nat with 0%nat in E by lia.
      replace (length (pre ++ b) - length B)%nat with 0%nat in E by lia.
      rewrite (firstn_O post'), (firstn_O t), (firstn_all (pre ++ b)), !app_nil_r in E. symmetry. exact E. }
    destruct (stored_from _ _ _ SB) as (post2 & F2). rewrite F2. cbn [bind]. now rewrite !D.
  - rewrite (read_with_full P i n decode v) by (try lia; intros _;
      destruct (stored_from _ _ _ S) as (post & E); rewrite zfrom_ok in E by lia; replace (skipn (Z.to_nat i) P) with (b ++ post) by congruence; apply D).
    destruct (Z.leb_spec (i + n) (zlen P)); [reflexivity|lia].
Qed.
Lemma reads_u8 P i v : stored P i [v] -> reads P ReadUint8 i v (i + 1).
Proof. intros S. apply (reads_with _ _ _ _ _ _ S); [reflexivity|lia|]. intros. reflexivity. Qed.
Lemma i8_mod v : -128 <= v < 128 -> i8 (v mod 256) = v.
Proof.
  intros H. unfold i8, u8. rewrite ?Z.mod_mod by lia.
  destruct (Z.ltb_spec (v mod 256) 128); Z.div_mod_to_equations; lia.
Qed.
Lemma reads_i8 P i v : stored P i [v mod 256] -> -128 <= v < 128 -> reads P ReadInt8 i v (i + 1).
Proof. intros S R. apply (reads_with _ _ _ _ _ _ S); [reflexivity|lia|]. intros. cbn [app]. rewrite zget_cons_0. cbn [bind]. now rewrite i8_mod. Qed.
Lemma reads_u16 P i v : stored P i (le_digits 2 v) -> 0 <= v < 65536 -> reads P ReadUint16 i v (i + 2).
Proof. intros S R. apply (reads_with _ _ _ _ _ _ S); [reflexivity|lia|]. intros. rewrite decode16_digits, Z.mod_small by lia. reflexivity. Qed.
Lemma reads_u32 P i v : stored P i (le_digits 4 v) -> 0 <= v < 4294967296 -> reads P ReadUint32 i v (i + 4).
Proof. intros S R. apply (reads_with _ _ _ _ _ _ S); [reflexivity|lia|]. intros. rewrite decode32_digits, Z.mod_small by lia. reflexivity. Qed.
Lemma decode64_more v post : DecodeUint64LE (le_digits 8 v ++ post) = DecodeUint64LE (le_digits 8 v).
Proof.
  unfold DecodeUint64LE. rewrite zlen_app, zlen_le_digits. pose proof (zlen_nonneg post).
  destruct (Z.ltb_spec (Z.of_nat 8 + zlen post) 8); [lia|]. change (Z.of_nat 8 <? 8) with false. cbv iota.
  rewrite !zget_app_l by (rewrite zlen_le_digits; lia). reflexivity.
Qed.
Lemma reads_u64 P i v : stored P i (le_digits 8 v) -> 0 <= v < 2 ^ 64 -> reads P ReadUint64 i v (i + 8).
Proof.
  intros S R. change (2 ^ 64) with 18446744073709551616 in R. apply (reads_with _ _ _ _ _ _ S); [reflexivity|lia|].
  intros. rewrite decode64_more, decode64_digits, Z.mod_small by lia. reflexivity.
Qed.
Lemma reads_name P i s : stored P i (short_string s) -> zlen s < 256 -> spaced_name s -> reads P read_name i s (i + zlen (short_string s)).
Proof.
  intros S L N. pose proof (stored_range _ _ _ S) as [R1 R2]. pose proof (zlen_nonneg s). unfold short_string in *. rewrite zlen_cons in *.
  pose proof S as S0. apply stored_cons in S0. destruct S0 as [G S0].
  apply (reads_bind P _ _ i s (i + (1 + zlen s))).
  - unfold ReadShortStr. apply (reads_bind P _ _ i (zlen s) (i + 1)).
    + apply reads_u8. change (zlen s :: s) with ([zlen s] ++ s) in S. apply stored_app in S. apply S.
    + apply reads_sim; [now apply sim_read_str|]. rewrite read_str_full by lia. destruct (Z.leb_spec (i + 1 + zlen s) (zlen P)); [|lia].
      destruct (stored_from _ _ _ S0) as (post & E). rewrite zfrom_ok in E by lia. injection E as E. rewrite E. f_equal.
      * rewrite firstn_app. replace (Z.to_nat (zlen s)) with (length s) by (unfold zlen; lia).
        rewrite firstn_all, Nat.sub_diag, firstn_O. apply app_nil_r.
      * f_equal. lia.
  - apply (reads_bind P _ _ _ tt (i + (1 + zlen s))).
    + intros s1 Rs. exists s1. split; [|assumption]. unfold on_bytes. replace (validateBasicSpacedName s) with (Ok tt); [reflexivity|].
      symmetry. now apply (proj1 (spaced_spec s)).
    + intros s1 Rs. exists s1. split; [reflexivity|assumption].
Qed.

(** ** Steps that change the builder *)
Lemma ereads_lift {A} P (m : action A) i w a j : reads P m i a j -> ereads P (lift m) i w a w j.
Proof. intros H s R. destruct (H s R) as (s' & E & R'). exists s'. split; [|assumption]. unfold lift. now rewrite E. Qed.
Lemma ereads_bind {A B} P (m : eaction A) (k : A -> eaction B) i w a w1 j b w2 j' :
  ereads P m i w a w1 j -> ereads P (k a) j w1 b w2 j' -> ereads P (ebind m k) i w b w2 j'.
Proof.
  intros H1 H2 s R. destruct (H1 s R) as (s1 & E1 & R1). destruct (H2 s1 R1) as (s2 & E2 & R2).
  exists s2. split; [|assumption]. unfold ebind. rewrite E1. exact E2.
Qed.
Lemma ereads_modify P f i w w' : f w = w' -> ereads P (modify f) i w tt w' i.
Proof. intros <- s R. exists s. now split. Qed.
Lemma ereads_attempt P f i w w' : f w = Ok w' -> ereads P (attempt f) i w tt w' i.
Proof. intros H s R. exists s. split; [|assumption]. unfold attempt. now rewrite H. Qed.
Lemma ereads_when P b e i w : b = false -> ereads P (lift (when b e)) i w tt w i.
Proof. intros -> s R. exists s. now split. Qed.
Lemma ereads_at {A} P (m : eaction A) i w a w' j w2 j2 : ereads P m i w a w' j -> w' = w2 -> j = j2 -> ereads P m i w a w2 j2.
Proof. now intros H <- <-. Qed.

Lemma ereads_repeat {X} P (m : Z -> eaction unit) (enc : X -> list Z) (St : list X -> wk) : forall l2 l1 i,
  (forall l1' x l2' i, l1 ++ l2 = l1' ++ x :: l2' -> stored P i (enc x) ->
    ereads P (m (zlen l1')) i (St l1') tt (St (l1' ++ [x])) (i + zlen (enc x))) ->
  stored P i (concat (map enc l2)) ->
  ereads P (repeatedly (length l2) (zlen l1) m) i (St l1) tt (St (l1 ++ l2)) (i + zlen (concat (map enc l2))).
Proof.
  induction l2 as [|x l2 IH]; intros l1 i H S; cbn [repeatedly length].
  - rewrite app_nil_r. eapply ereads_at; [apply ereads_lift|reflexivity|].
    + intros s R. exists s. split; [reflexivity|exact R].
    + cbn. rewrite zlen_nil. lia.
  - cbn [map concat] in S |- *. apply stored_app in S. destruct S as [S1 S2].
    eapply ereads_bind; [exact (H l1 x l2 i eq_refl S1)|].
    specialize (IH (l1 ++ [x]) (i + zlen (enc x))). rewrite <- app_assoc in IH. cbn [app] in IH. specialize (IH H S2).
    rewrite zlen_app, zlen_cons, zlen_nil in IH. replace (zlen l1 + (1 + 0)) with (zlen l1 + 1) in IH by lia.
    eapply ereads_at; [exact IH|reflexivity|]. rewrite zlen_app. lia.
Qed.
Lemma ereads_all {X} P (m : Z -> eaction unit) (enc : X -> list Z) (St : list X -> wk) l n i w w' j :
  (forall l1 x l2 i, l = l1 ++ x :: l2 -> stored P i (enc x) -> ereads P (m (zlen l1)) i (St l1) tt (St (l1 ++ [x])) (i + zlen (enc x))) ->
  stored P i (concat (map enc l)) -> n = length l -> w = St [] -> w' = St l -> j = i + zlen (concat (map enc l)) ->
  ereads P (repeatedly n 0 m) i w tt w' j.
Proof. intros H S -> -> -> ->. exact (ereads_repeat P m enc St l [] i H S). Qed.

Lemma to_nat_zlen {A} (l : list A) : Z.to_nat (zlen l) = length l.
Proof. unfold zlen. lia. Qed.
Lemma skipn_here {A} (l1 l2 : list A) : skipn (length l1) (l1 ++ l2) = l2.
Proof. rewrite skipn_app, skipn_all, Nat.sub_diag. reflexivity. Qed.
Lemma skipn_next {A} (l1 : list A) x l2 : skipn (length (l1 ++ [x])) (l1 ++ x :: l2) = l2.
Proof. change (x :: l2) with ([x] ++ l2). rewrite app_assoc. apply skipn_here. Qed.
Lemma skipn_more {A} : forall n (l : list A), skipn (1 + n) l = skipn 1 (skipn n l).
Proof. induction n; intros l; [reflexivity|]. destruct l; [reflexivity|]. apply (IHn l). Qed.
Lemma zset_mid {A} (l1 : list A) x l2 y i : i = zlen l1 -> zset (l1 ++ x :: l2) i y = Ok (l1 ++ y :: l2).
Proof.
  intros ->. rewrite zset_ok by (rewrite zlen_app, zlen_cons; pose proof (zlen_nonneg l1); pose proof (zlen_nonneg l2); lia).
  f_equal. rewrite to_nat_zlen. induction l1; cbn; [reflexivity|]. now f_equal.
Qed.
Lemma zget_mid {A} (l1 : list A) x l2 i : i = zlen l1 -> zget (l1 ++ x :: l2) i = Ok x.
Proof. intros ->. rewrite zget_app_r by lia. rewrite Z.sub_diag. reflexivity. Qed.

(** ** The sections *)
Definition set_names w n := mkWk (wk_b w) (wk_categories w) (wk_classNames w) n.
Definition set_categories w c := mkWk (wk_b w) c (wk_classNames w) (wk_conditionNames w).
Definition set_classes w vs ns := mkWk (with_classes (wk_b w) vs) (wk_categories w) ns (wk_conditionNames w).
Definition set_b w b := mkWk b (wk_categories w) (wk_classNames w) (wk_conditionNames w).

Lemma app_inj_len {A} : forall (a b c d : list A), length a = length c -> a ++ b = c ++ d -> a = c /\ b = d.
Proof.
  induction a as [|x a IH]; destruct c; cbn; intros d L E; try discriminate; auto. injection E as <- E.
  destruct (IH b c d) as [-> ->]; auto.
Qed.
Lemma forall_mid {A} (Q : A -> Prop) l l1 x l2 : Forall Q l -> l = l1 ++ x :: l2 -> Q x.
Proof. intros H ->. apply Forall_app in H. destruct H as [_ H]. now inversion H. Qed.

Lemma categories_read P i w (l : list (list Z * Z)) : zlen l < 256 ->
  Forall (fun c => bytes (fst c) /\ zlen (fst c) < 256 /\ 0 <= snd c < 65536) l -> Forall (fun c => spaced_name (fst c)) l ->
  wk_categories w = [] ->
  let b := [zlen l] ++ concat (map (fun c => short_string (fst c)) l) ++ concat (map (fun c => le_digits 2 (snd c)) l) in
  stored P i b -> ereads P read_categories i w tt (set_categories w l) (i + zlen b).
Proof.
  intros HL HT HN HE b S. pose proof S as S0. subst b. apply stored_app in S. destruct S as [S1 S]. apply stored_app in S. destruct S as [S2 S3].
  change (zlen [zlen l]) with 1 in *. unfold read_categories.
  eapply ereads_bind; [apply ereads_lift, reads_u8, S1|].
  eapply ereads_bind.
  - eapply (ereads_all P _ (fun c => short_string (fst c)) (fun l1 => set_categories w (map (fun c => (fst c, 0)) l1)) l);
      [|exact S2|apply to_nat_zlen| |reflexivity|reflexivity].
    + intros l1 x l2 k El Sx. pose proof (forall_mid _ _ _ _ _ HT El) as (B & L & _). pose proof (forall_mid _ _ _ _ _ HN El).
      eapply ereads_bind; [apply ereads_lift, reads_name; eassumption|]. apply ereads_modify. unfold set_categories. cbn. now rewrite map_app.
    + destruct w; cbn in *. unfold set_categories. cbn. now rewrite HE.
  - eapply (ereads_all P _ (fun c => le_digits 2 (snd c)) (fun l1 => set_categories w (l1 ++ map (fun c => (fst c, 0)) (skipn (length l1) l))) l);
      [|exact S3|apply to_nat_zlen|reflexivity| |rewrite !zlen_app; change (zlen [zlen l]) with 1; lia].
    + intros l1 x l2 k El Sx. pose proof (forall_mid _ _ _ _ _ HT El) as (_ & _ & R).
      eapply ereads_at; [|reflexivity|rewrite zlen_le_digits; reflexivity].
      eapply ereads_bind; [apply ereads_lift, reads_u16; eassumption|]. apply ereads_attempt. cbn [wk_categories set_categories].
      rewrite El, skipn_here, skipn_next. cbn [map]. rewrite zget_mid by reflexivity. cbn [bind]. rewrite zset_mid by reflexivity. cbn [bind].
      unfold set_categories. cbn. rewrite <- app_assoc. cbn [app]. destruct x; reflexivity.
    + unfold set_categories. f_equal. rewrite skipn_all, app_nil_r. reflexivity.
Qed.

Lemma classes_read P i w (l : list (list Z * Z)) : zlen l < 65536 ->
  Forall (fun c => bytes (fst c) /\ zlen (fst c) < 256 /\ -128 <= snd c < 128) l -> Forall (fun c => spaced_name (fst c)) l ->
  b_classes (wk_b w) = [] -> wk_classNames w = [] ->
  let b := le_digits 2 (zlen l) ++ concat (map (fun c => short_string (fst c)) l) ++ map (fun c => snd c mod 256) l in
  stored P i b -> ereads P read_classes i w tt (set_classes w (map snd l) (map fst l)) (i + zlen b).
Proof.
  intros HL HT HN HE HE2 b S. pose proof S as S0. subst b. apply stored_app in S. destruct S as [S1 S]. apply stored_app in S. destruct S as [S2 S3].
  rewrite zlen_le_digits in *. unfold read_classes. pose proof (zlen_nonneg l).
  assert (EM : map (fun c : list Z * Z => snd c mod 256) l = concat (map (fun c => [snd c mod 256]) l)).
  { clear. induction l; cbn; [reflexivity|]. now f_equal. }
  rewrite EM in S3 |- *.
  eapply ereads_bind; [apply ereads_lift, reads_u16; [exact S1|lia]|].
  eapply ereads_bind.
  - eapply (ereads_all P _ (fun c => short_string (fst c)) (fun l1 => set_classes w (map (fun c => 0) l1) (map fst l1)) l);
      [|exact S2|apply to_nat_zlen| |reflexivity|reflexivity].
    + intros l1 x l2 k El Sx. pose proof (forall_mid _ _ _ _ _ HT El) as (B & L & _). pose proof (forall_mid _ _ _ _ _ HN El).
      eapply ereads_bind; [apply ereads_lift, reads_name; eassumption|]. apply ereads_modify. unfold set_classes, with_classes. cbn. now rewrite !map_app.
    + destruct w as [[] ? ? ?]; cbn in *. unfold set_classes, with_classes. cbn. now rewrite HE, HE2.
  - eapply (ereads_all P _ (fun c => [snd c mod 256]) (fun l1 => set_classes w (map snd l1 ++ map (fun c => 0) (skipn (length l1) l)) (map fst l)) l);
      [|exact S3|apply to_nat_zlen|reflexivity| |rewrite !zlen_app, zlen_le_digits; lia].
    + intros l1 x l2 k El Sx. pose proof (forall_mid _ _ _ _ _ HT El) as (_ & _ & R).
      eapply ereads_bind; [apply ereads_lift, reads_i8; eassumption|]. apply ereads_attempt. cbn [wk_b set_classes with_classes b_classes].
      rewrite El, skipn_here, skipn_next. cbn [map]. rewrite zset_mid by (now rewrite zlen_map). cbn [bind].
      unfold set_classes, with_classes. cbn. rewrite (map_app snd l1 [x]), <- app_assoc. reflexivity.
    + unfold set_classes. f_equal. rewrite skipn_all, app_nil_r. reflexivity.
Qed.

(** the pairs after some were read *)
Definition key_of (order : list Z) (p : Z * Z * Z) : Z * Z := (nth (Z.to_nat (fst (fst p))) order 0, nth (Z.to_nat (snd (fst p))) order 0).
Definition put (order : list Z) (pairs : list (Z * Z * kpair)) (l : list (Z * Z * Z)) : list (Z * Z * kpair) :=
  fold_left (fun m p => set_class m (key_of order p) (snd p)) l pairs.
Lemma zget_nth (l : list Z) i : 0 <= i < zlen l -> zget l i = Ok (nth (Z.to_nat i) l 0).
Proof.
  intros H. unfold zget. destruct (Z.ltb_spec i 0); [lia|]. rewrite (nth_error_nth' l 0); [reflexivity|]. unfold zlen in H. lia.
Qed.

Lemma pairs_read P i w set (get : list (Z * Z * Z) -> builder) (l : list (Z * Z * Z)) : zlen l < 2 ^ 24 ->
  Forall (fun p => 0 <= fst (fst p) < 65536 /\ 0 <= snd (fst p) < 65536 /\ 0 <= snd p < 65536) l ->
  pairs_taken (zlen (b_order (wk_b w))) l ->
  get [] = wk_b w -> (forall l, b_order (get l) = b_order (wk_b w)) ->
  (forall l1 p, set (get l1) (key_of (b_order (wk_b w)) p) (snd p) = get (l1 ++ [p])) ->
  let b := le_digits 4 (zlen l) ++ concat (map pair_bytes l) in
  stored P i b -> ereads P (read_pairs set) i w tt (set_b w (get l)) (i + zlen b).
Proof.
  intros HL HT HN G0 GO GS b S. subst b. apply stored_app in S. destruct S as [S1 S2]. change (2 ^ 24) with 16777216 in HL. pose proof (zlen_nonneg l).
  unfold read_pairs. rewrite zlen_app, zlen_le_digits in *.
  eapply ereads_bind; [apply ereads_lift, reads_u32; [exact S1|lia]|].
  eapply (ereads_all P _ pair_bytes (fun l1 => set_b w (get l1)) l); [|exact S2|apply to_nat_zlen| |reflexivity|lia].
  - intros l1 [[u v] c] l2 k El Sx. pose proof (forall_mid _ _ _ _ _ HT El) as (R1 & R2 & R3).
    pose proof (forall_mid _ _ _ _ _ HN El) as (T1 & T2 & T3). unfold pair_bytes in *. cbn [fst snd] in *.
    apply stored_app in Sx. destruct Sx as [Sa Sx]. apply stored_app in Sx. destruct Sx as [Sb Sc]. rewrite !zlen_app, !zlen_le_digits in *.
    eapply ereads_at; [|reflexivity|shelve].
    eapply ereads_bind; [apply ereads_lift, reads_u16; eassumption|]. eapply ereads_bind; [apply ereads_lift, reads_u16; eassumption|].
    eapply ereads_bind; [apply ereads_lift, reads_u16; eassumption|]. eapply ereads_bind; [apply ereads_when; lia|].
    apply ereads_attempt. cbn [wk_b set_b]. rewrite !GO. rewrite !zget_nth by lia. cbn [bind].
    unfold set_b. cbn. do 2 f_equal. apply (GS l1 (u, v, c)).
    Unshelve. lia.
  - rewrite G0. now destruct w.
Qed.

Lemma conditions_read P i w (l : list (list Z)) : zlen l < 255 ->
  Forall (fun n => bytes n /\ zlen n < 256) l -> Forall spaced_name l -> zlen (wk_conditionNames w) = zlen l ->
  let b := [zlen l] ++ concat (map short_string l) in
  stored P i b -> ereads P read_conditions i w tt (set_names w l) (i + zlen b).
Proof.
  intros HL HT HN HE b S. subst b. apply stored_app in S. destruct S as [S1 S2]. rewrite zlen_app. change (zlen [zlen l]) with 1 in *.
  unfold read_conditions. eapply ereads_bind; [apply ereads_lift, reads_u8, S1|].
  eapply ereads_bind; [apply ereads_when; lia|]. eapply ereads_bind; [apply ereads_attempt; rewrite HE, Z.eqb_refl; reflexivity|].
  eapply (ereads_all P _ short_string (fun l1 => set_names w (l1 ++ skipn (length l1) (wk_conditionNames w))) l);
    [|exact S2|apply to_nat_zlen| | |lia].
  - intros l1 x l2 k El Sx. pose proof (forall_mid _ _ _ _ _ HT El) as (B & L). pose proof (forall_mid _ _ _ _ _ HN El).
    eapply ereads_bind; [apply ereads_lift, reads_name; eassumption|]. apply ereads_attempt. cbn [wk_conditionNames set_names].
    assert (exists y r, skipn (length l1) (wk_conditionNames w) = y :: r /\ skipn (length (l1 ++ [x])) (wk_conditionNames w) = r) as (y & r & E1 & E2).
    { assert (HH : (length l1 < length (wk_conditionNames w))%nat).
      { apply (f_equal (@length _)) in El. rewrite app_length in El. cbn in El. unfold zlen in HE. lia. }
      destruct (skipn (length l1) (wk_conditionNames w)) as [|y r] eqn:E.
      - apply (f_equal (@length _)) in E. rewrite skipn_length in E. cbn in E. lia.
      - exists y, r. split; [reflexivity|]. rewrite app_length. cbn [length]. rewrite Nat.add_comm.
        change r with (skipn 1 (y :: r)). rewrite <- E. apply skipn_more. }
    rewrite E1, E2. rewrite zset_mid by reflexivity. cbn [bind]. unfold set_names. cbn. rewrite <- app_assoc. reflexivity.
  - cbn. now destruct w.
  - unfold set_names. f_equal. rewrite skipn_all2, app_nil_r; [reflexivity|]. unfold zlen in HE. lia.
Qed.

Lemma eof_read P : reads P EnsureEOF (zlen P) tt (zlen P).
Proof.
  intros s R. destruct (ensure_eof_rel P (zlen P) s R) as (s' & H1 & H2 & H3).
  pose proof R as (I1 & I2 & I3 & _). assert (zlen (Bytes s) = zlen P).
  { rewrite <- I3, zlen_app in *. pose proof (zlen_nonneg (rest s)). lia. }
  exists s'. split; [auto|]. destruct (eof s) eqn:E.
  - destruct (H1 eq_refl) as [-> _]. exact R.
  - apply (H2 eq_refl).
Qed.

Definition edition_result (w : wk) (e : edition) : wk :=
  let b := wk_b w in
  mkWk (with_classes (with_kerning b (put (b_order b) (b_horz b) (e_horz e)) (put (b_order b) (b_vert b) (e_vert e))) (map snd (e_classes e)))
    (e_categories e) (map fst (e_classes e)) (e_conditions e).

Lemma put_app order m l p : put order m (l ++ [p]) = set_class (put order m l) (key_of order p) (snd p).
Proof. unfold put. now rewrite fold_left_app. Qed.

Lemma edition_read P w e : P = edition_bytes 4 e -> edition_typed e ->
  edition_taken (bh_ID (b_header (wk_b w))) (zlen (b_order (wk_b w))) (zlen (wk_conditionNames w)) e ->
  wk_categories w = [] -> wk_classNames w = [] -> b_classes (wk_b w) = [] ->
  ereads P read_edition 0 w tt (edition_result w e) (zlen P).
Proof.
  intros EP (T1 & T2 & T3 & T4 & T5 & T6 & T7 & T8 & T9 & T10) (V1 & V2 & V3 & V4 & V5 & V6 & V7) C1 C2 C3.
  apply Forall_app in T6. destruct T6 as [T6 T6'].
  assert (S : stored P 0 P) by (exists [], []; now rewrite app_nil_r). rewrite EP in S at 2. unfold edition_bytes in S.
  apply stored_app in S. destruct S as [S1 S].
  rewrite !app_assoc in S. rewrite <- !app_assoc in S.
  set (cats := [zlen (e_categories e)] ++ concat (map (fun c => short_string (fst c)) (e_categories e)) ++ concat (map (fun c => le_digits 2 (snd c)) (e_categories e))) in *.
  set (clas := le_digits 2 (zlen (e_classes e)) ++ concat (map (fun c => short_string (fst c)) (e_classes e)) ++ map (fun c => snd c mod 256) (e_classes e)) in *.
  set (hor := le_digits 4 (zlen (e_horz e)) ++ concat (map pair_bytes (e_horz e))) in *.
  set (ver := le_digits 4 (zlen (e_vert e)) ++ concat (map pair_bytes (e_vert e))) in *.
  set (con := [zlen (e_conditions e)] ++ concat (map short_string (e_conditions e))) in *.
  assert (EQ : edition_bytes 4 e = le_digits 8 (e_id e) ++ cats ++ clas ++ hor ++ ver ++ con).
  { unfold edition_bytes, cats, clas, hor, ver, con. rewrite <- !app_assoc. reflexivity. }
  assert (S' : stored P (0 + 8) (cats ++ clas ++ hor ++ ver ++ con)).
  { rewrite zlen_le_digits in S. unfold cats, clas, hor, ver, con. rewrite <- !app_assoc. exact S. }
  clear S. apply stored_app in S'. destruct S' as [S2 S]. apply stored_app in S. destruct S as [S3 S]. apply stored_app in S. destruct S as [S4 S].
  apply stored_app in S. destruct S as [S5 S6].
  assert (EL : 0 + 8 + zlen cats + zlen clas + zlen hor + zlen ver + zlen con = zlen P).
  { rewrite EP, EQ, !zlen_app, zlen_le_digits. lia. }
  unfold read_edition.
  eapply ereads_bind; [apply ereads_lift, reads_u64; [exact S1|exact T1]|].
  eapply ereads_bind; [apply ereads_attempt; rewrite V1, Z.eqb_refl; reflexivity|].
  eapply ereads_bind; [apply categories_read; eassumption|].
  eapply ereads_bind; [apply classes_read; eassumption|].
  eapply ereads_bind.
  { eapply (pairs_read P _ _ set_horz (fun l1 => with_kerning (with_classes (wk_b w) (map snd (e_classes e))) (put (b_order (wk_b w)) (b_horz (wk_b w)) l1) (b_vert (wk_b w))));
      [exact T7|exact T6|exact V4| | | |exact S4]; try reflexivity.
    intros l1 p. unfold set_horz. rewrite put_app. reflexivity. }
  eapply ereads_bind.
  { eapply (pairs_read P _ _ set_vert (fun l1 => with_kerning (with_classes (wk_b w) (map snd (e_classes e))) (put (b_order (wk_b w)) (b_horz (wk_b w)) (e_horz e)) (put (b_order (wk_b w)) (b_vert (wk_b w)) l1)));
      [exact T8|exact T6'|exact V5| | | |exact S5]; try reflexivity.
    intros l1 p. unfold set_vert. rewrite put_app. reflexivity. }
  eapply ereads_bind; [apply conditions_read; [exact T9|exact T10|exact V7|symmetry; exact V6|exact S6]|].
  eapply ereads_at; [apply ereads_lift|reflexivity|].
  - match goal with |- reads _ _ ?i _ _ => replace i with (zlen P) by (rewrite <- EL; reflexivity) end. apply eof_read.
  - reflexivity.
Qed.
