From Verif Require Import Base BaseFacts Spec_Helpers Model_Helpers Proofs_Helpers Model_Words Model_Font Model_Rewrites Model_Parse Spec_Parse Spec_Parsed.
From Verif Require Import Proofs_Parse Proofs_Parse2 Proofs_Flat Proofs_Parsed Proofs_Parsed2 Proofs_Parsed3.

Lemma nth_part {A} (z : A) : forall (l : list A) a n i, (i < n)%nat -> nth i (firstn n (skipn a l)) z = nth (a + i) l z.
Proof.
  intros l a. revert l. induction a as [|a IH]; intros l n i H; cbn [skipn plus].
  - revert l i H. induction n as [|n IHn]; intros l i H; [lia|]. destruct l, i; cbn; auto. apply IHn. lia.
  - destruct l; [rewrite firstn_nil; destruct i; reflexivity|]. cbn [nth]. now apply IH.
Qed.

Section Font.
  Variable f : Font.
  Hypothesis HF : parsed f.
  Let d := Data f.
  Let HD : bytes d := proj1 (parsed_frames f HF).
  Let FR : frames d f := proj2 (parsed_frames f HF).

  Lemma any_options k : 0 <= k -> (k < setting_count f -> 0 < end_of 2 d (setting_table f) k - start_of 2 d (setting_table f) k <= 255) ->
    exists n, settings_GetNumOptions f k = Ok n.
  Proof.
    intros H0 H. destruct (Z_lt_ge_dec k (setting_count f)) as [L|G].
    - rewrite (options f HF) by lia. specialize (H L). cbv zeta. fold d.
      destruct (Z.ltb_spec 0 (end_of 2 d (setting_table f) k - start_of 2 d (setting_table f) k)); [|lia].
      destruct (Z.leb_spec (end_of 2 d (setting_table f) k - start_of 2 d (setting_table f) k) 255); [|lia]. cbn. eauto.
    - destruct (numbers f HF) as (_ & _ & _ & _ & _ & _ & _ & _ & N & _). unfold settings_GetNumOptions. rewrite N. cbn [bind].
      destruct (Z.geb_spec k (setting_count f)); [eauto|lia].
  Qed.
  Lemma switch_loop_ok s base : forall n e c r, 0 <= r < 256 -> 0 <= base + e - Z.of_nat n -> base + e < zlen d ->
    (forall x, base + e - Z.of_nat n <= x <= base + e -> 0 <= num 1 d x < zlen s /\
      (num 1 d x < setting_count f -> 0 < end_of 2 d (setting_table f) (num 1 d x) - start_of 2 d (setting_table f) (num 1 d x) <= 255)) ->
    exists v, switch_loop n f s base e c r = Ok v /\ 0 <= v < 256.
  Proof.
    induction n as [|n IH]; intros e c r Hr H0 HL HX; cbn [switch_loop]; fold d; rewrite get_num by lia; cbn [bind];
      destruct (HX (base + e) ltac:(lia)) as [X1 X2]; rewrite (zget_nth s _ 0) by lia; cbn [bind].
    - eexists. split; [reflexivity|]. unfold u8. apply Z.mod_pos_bound. lia.
    - destruct (any_options (num 1 d (base + e)) ltac:(lia) X2) as (o & ->). cbn [bind]. apply IH; try lia.
      + unfold u8 at 1. apply Z.mod_pos_bound. lia.
      + intros x Hx. apply HX. lia.
  Qed.
  Lemma switch k s : let t := OffsetToMappingSwitches f + 1 in let n := num 1 d (OffsetToMappingSwitches f) in in_order 2 d t n k ->
    (forall x, In x (block 2 d t n k) -> x < zlen s /\ (x < setting_count f -> 0 < end_of 2 d (setting_table f) x - start_of 2 d (setting_table f) x <= 255)) ->
    exists v, mapping_EvaluateSwitch f k s = Ok v /\ 0 <= v < 256.
  Proof.
    intros t n (Hk & S1 & S2) HX. pose proof (fr_switches _ _ FR) as (A0 & A1 & A2). rewrite byte_num in A2. fold t n in A2.
    pose proof (framed_end _ _ _ _ _ A2 ltac:(lia)) as [E1 E2]. pose proof A2 as (T0 & _ & T1 & _). change (Z.of_nat 2) with 2 in *.
    pose proof (start_nonneg 2 d t k HD) as S0.
    destruct (numbers f HF) as (_ & _ & _ & _ & _ & _ & _ & _ & _ & N & _). unfold mapping_EvaluateSwitch. rewrite N. cbn [bind]. fold d. fold n.
    destruct (Z.geb_spec k n); [lia|]. cbv zeta. rewrite !shl1. fold t.
    destruct (two_ends d t k) as [Q1 Q2]; auto; try lia. bind_from Q1. rewrite Q2. cbn [bind].
    destruct (Z.leb_spec (end_of 2 d t k) (start_of 2 d t k)); [lia|].
    apply switch_loop_ok; try lia.
    intros x Hx. assert (IN : In (num 1 d x) (block 2 d t n k)).
    { unfold block, part. change (Z.of_nat 2) with 2. rewrite <- byte_num. unfold byte_at.
      set (lo := t + 2 * n + start_of 2 d t k) in *. set (hi := t + 2 * n + end_of 2 d t k) in *.
      assert (LE : zlen (firstn (Z.to_nat (hi - lo)) (skipn (Z.to_nat lo) d)) = hi - lo) by (rewrite zlen_firstn, zlen_skipn; unfold lo, hi; lia).
      assert (EQ : nth (Z.to_nat x) d 0 = nth (Z.to_nat (x - lo)) (firstn (Z.to_nat (hi - lo)) (skipn (Z.to_nat lo) d)) 0).
      { rewrite nth_part by (unfold lo, hi; lia). f_equal. unfold lo. lia. }
      rewrite EQ. apply nth_In. unfold zlen in LE. unfold lo, hi in *. lia. }
    destruct (HX _ IN) as [B1 B2]. pose proof (num_range 1 d x HD) as R. split; [lia|exact B2].
  Qed.

  (** *** mapped code points *)
  Lemma entry k : let t := OffsetToMapping f + 2 + 4 * entry_count f in in_order 3 d t (entry_count f) k ->
    mapping_entry f (entry_count f) k = Ok (t + 3 * entry_count f, start_of 3 d t k + 1, end_of 3 d t k, num 1 d (t + 3 * entry_count f + start_of 3 d t k)).
  Proof.
    intros t (Hk & S1 & S2). pose proof (fr_mapping _ _ FR) as (A0 & A1 & A2). change (le_at 2 d (OffsetToMapping f)) with (entry_count f) in *. fold t in A2.
    pose proof (framed_end _ _ _ _ _ A2 ltac:(lia)) as [E1 E2]. pose proof A2 as (T0 & _ & T1 & _). change (Z.of_nat 3) with 3 in *.
    pose proof (start_nonneg 3 d t k HD) as S0. unfold mapping_entry. cbv zeta. rewrite !shl1, !shl2. fold t d.
    replace (t + k + 2 * k) with (t + 3 * k) by lia. bind_from (from3 d HD (t + 3 * k) ltac:(lia) ltac:(lia)). change (num 3 d (t + 3 * k)) with (end_of 3 d t k).
    assert (A : (if k >? 0 then do b <- zfrom d (t + 3 * k - 3); DecodeUint24LE b else Ok 0) = Ok (start_of 3 d t k)).
    { unfold start_of. destruct (Z.gtb_spec k 0), (Z.eqb_spec k 0); try lia; [|reflexivity]. rewrite from3 by (auto; lia). unfold end_of. change (Z.of_nat 3) with 3. do 2 f_equal. lia. }
    rewrite A. cbn [bind]. destruct (Z.leb_spec (end_of 3 d t k) (start_of 3 d t k)); [lia|].
    replace (t + entry_count f + 2 * entry_count f) with (t + 3 * entry_count f) by lia. rewrite get_num by lia. reflexivity.
  Qed.
  Lemma plain_mapping cp s : let t := OffsetToMapping f + 2 + 4 * entry_count f in
    (forall k, 0 <= k < entry_count f -> in_order 3 d t (entry_count f) k /\ 254 <= num 1 d (t + 3 * entry_count f + start_of 3 d t k)) ->
    mapping_Utf8 f cp s = Ok None \/ exists k, 0 <= k < entry_count f /\ num 4 d (OffsetToMapping f + 2 + 4 * k) = u32 cp /\
      mapping_Utf8 f cp s = Ok (Some (mkGroup (t + 3 * entry_count f + start_of 3 d t k + 1) (num 1 d (t + 3 * entry_count f + start_of 3 d t k)) 0
        (num 1 d (t + 3 * entry_count f + start_of 3 d t k) =? 255))).
  Proof.
    intros t HA. destruct (numbers f HF) as (_ & _ & _ & _ & _ & _ & _ & _ & _ & _ & N & _). unfold mapping_Utf8. rewrite N. cbn [bind].
    pose proof (fr_mapping _ _ FR) as (A0 & A1 & A2). change (le_at 2 d (OffsetToMapping f)) with (entry_count f) in *. pose proof A2 as (T0 & T & T1 & _). change (Z.of_nat 3) with 3 in T1.
    pose proof (num_range 2 d (OffsetToMapping f) HD) as R. change (num 2 d (OffsetToMapping f)) with (entry_count f) in R. change (256 ^ Z.of_nat 2) with 65536 in R.
    assert (HT : t = OffsetToMapping f + 2 + 4 * entry_count f) by reflexivity. fold t in T1. unfold mapping_search. cbv zeta. fold d. destruct (Z.eq_dec (entry_count f) 0) as [EZ|NZ].
    - left. rewrite EZ. change (0 - 1) with (-1). match goal with |- context [lower_bound_loop 64 ?l 0 (-1)] => change (lower_bound_loop 64 l 0 (-1)) with (Ok 0 : outcome Z) end. reflexivity.
    - destruct (search_four f HF (OffsetToMapping f + 2) (entry_count f) (u32 cp)) as (m & E & Hm); [lia|lia|fold d; lia|]. fold d in E. rewrite E. cbn [bind].
      destruct (Z.geb_spec m (entry_count f)); [lia|]. rewrite shl2. bind_from (from4 d HD (OffsetToMapping f + 2 + 4 * m) ltac:(lia) ltac:(lia)).
      destruct (Z.eqb_spec (num 4 d (OffsetToMapping f + 2 + 4 * m)) (u32 cp)) as [EQ|NE]; cbn [negb bind]; [|now left].
      right. exists m. split; [lia|]. split; [exact EQ|]. destruct (HA m ltac:(lia)) as [I1 I2]. rewrite entry by exact I1. cbn [bind]. fold t.
      pose proof (num_range 1 d (t + 3 * entry_count f + start_of 3 d t m) HD) as R1. change (256 ^ Z.of_nat 1) with 256 in R1.
      destruct (Z.eqb_spec (num 1 d (t + 3 * entry_count f + start_of 3 d t m)) 255); [do 3 f_equal; lia|].
      destruct (Z.eqb_spec (num 1 d (t + 3 * entry_count f + start_of 3 d t m)) 254); [|lia]. cbn [negb bind]. change (Z.to_nat 0) with 0%nat. cbn [skip_groups bind].
      do 3 f_equal; lia.
  Qed.

  (** *** what a mapping that answers has found *)
  Lemma skip_groups_in : forall n base a e r, skip_groups n f base a e = Ok r -> a <= e -> a <= r <= e.
  Proof.
    induction n as [|n IH]; intros base a e r H L; cbn [skip_groups] in H; [injection H as <-; lia|].
    destruct (zget (Data f) (base + a)) as [info| | |]; cbn [bind] in H; try discriminate.
    match type of H with (if ?x >=? e then _ else _) = _ => set (y := x) in H; assert (LE : a <= y) end.
    { subst y. assert (0 <= Z.land info 127) by (apply Z.land_nonneg; right; lia). rewrite Z.shiftl_mul_pow2 by lia. change (2 ^ 1) with 2.
      destruct (Z.land info 127 + 1 >? 1), (negb (Z.land (Z.land info 127 + 1) 128 =? 0)); lia. }
    destruct (Z.geb_spec y e); [discriminate|]. apply IH in H; lia.
  Qed.
  Lemma switch_loop_byte s base : forall n e c r v, switch_loop n f s base e c r = Ok v -> 0 <= v < 256.
  Proof.
    induction n as [|n IH]; intros e c r v H; cbn [switch_loop] in H;
      destruct (zget (Data f) (base + e)); cbn [bind] in H; try discriminate; destruct (zget s a); cbn [bind] in H; try discriminate.
    - injection H as <-. unfold u8. apply Z.mod_pos_bound. lia.
    - destruct (settings_GetNumOptions f a); cbn [bind] in H; try discriminate. now apply IH in H.
  Qed.
  Lemma switch_byte k s v : mapping_EvaluateSwitch f k s = Ok v -> 0 <= v < 256.
  Proof.
    unfold mapping_EvaluateSwitch. cbv zeta. intros H.
    repeat match type of H with
    | bind ?o _ = _ => destruct o; cbn [bind] in H; try discriminate
    | (if ?c then Panic else _) = _ => destruct c; try discriminate
    end. now apply switch_loop_byte in H.
  Qed.
  Lemma search_result cp : mapping_search f (u32 cp) (entry_count f) = Ok None \/
    exists k, mapping_search f (u32 cp) (entry_count f) = Ok (Some k) /\ 0 <= k < entry_count f /\ num 4 d (OffsetToMapping f + 2 + 4 * k) = u32 cp.
  Proof.
    pose proof (fr_mapping _ _ FR) as (A0 & A1 & A2). change (le_at 2 d (OffsetToMapping f)) with (entry_count f) in *. pose proof A2 as (T0 & T & T1 & _). change (Z.of_nat 3) with 3 in T1.
    pose proof (num_range 2 d (OffsetToMapping f) HD) as R. change (num 2 d (OffsetToMapping f)) with (entry_count f) in R. change (256 ^ Z.of_nat 2) with 65536 in R.
    unfold mapping_search. cbv zeta. fold d. destruct (Z.eq_dec (entry_count f) 0) as [EZ|NZ].
    - left. rewrite EZ. change (0 - 1) with (-1).
      match goal with |- context [lower_bound_loop 64 ?l 0 (-1)] => change (lower_bound_loop 64 l 0 (-1)) with (Ok 0 : outcome Z) end. reflexivity.
    - destruct (search_four f HF (OffsetToMapping f + 2) (entry_count f) (u32 cp)) as (m & E & Hm); [lia|lia|fold d; lia|]. fold d in E. rewrite E. cbn [bind].
      destruct (Z.geb_spec m (entry_count f)); [lia|]. rewrite shl2. bind_from (from4 d HD (OffsetToMapping f + 2 + 4 * m) ltac:(lia) ltac:(lia)).
      destruct (Z.eqb_spec (num 4 d (OffsetToMapping f + 2 + 4 * m)) (u32 cp)) as [EQ|NE]; cbn [negb]; [|now left].
      right. exists m. auto.
  Qed.
  Lemma search_found cp k : mapping_search f (u32 cp) (entry_count f) = Ok (Some k) ->
    0 <= k < entry_count f /\ num 4 d (OffsetToMapping f + 2 + 4 * k) = u32 cp.
  Proof. intros ES. destruct (search_result cp) as [E|(m & E & H)]; rewrite E in ES; [discriminate|]. injection ES as <-. exact H. Qed.
  Lemma entry_found k w : let t := OffsetToMapping f + 2 + 4 * entry_count f in let b := t + 3 * entry_count f in
    0 <= k < entry_count f -> mapping_entry f (entry_count f) k = Ok w ->
    start_of 3 d t k < end_of 3 d t k /\ w = (b, start_of 3 d t k + 1, end_of 3 d t k, num 1 d (b + start_of 3 d t k)).
  Proof.
    intros t b K1 EM. pose proof (fr_mapping _ _ FR) as (A0 & A1 & A2). change (le_at 2 d (OffsetToMapping f)) with (entry_count f) in *. pose proof A2 as (T0 & T & T1 & _). change (Z.of_nat 3) with 3 in T1.
    fold t in T1, T0. assert (HT : t = OffsetToMapping f + 2 + 4 * entry_count f) by reflexivity. assert (HB : b = t + 3 * entry_count f) by reflexivity.
      unfold mapping_entry in EM. cbv zeta in EM. rewrite !shl1, !shl2 in EM. fold t d in EM.
      replace (t + k + 2 * k) with (t + 3 * k) in EM by lia. pose proof (from3 d HD (t + 3 * k) ltac:(lia) ltac:(lia)) as Q.
      destruct (zfrom d (t + 3 * k)); cbn [bind] in *; try discriminate. rewrite Q in EM. cbn [bind] in EM. change (num 3 d (t + 3 * k)) with (end_of 3 d t k) in EM.
      assert (A : (if k >? 0 then do x <- zfrom d (t + 3 * k - 3); DecodeUint24LE x else Ok 0) = Ok (start_of 3 d t k)).
      { unfold start_of. destruct (Z.gtb_spec k 0), (Z.eqb_spec k 0); try lia; [|reflexivity]. rewrite from3 by (auto; lia). unfold end_of. change (Z.of_nat 3) with 3. do 2 f_equal. lia. }
      rewrite A in EM. cbn [bind] in EM. destruct (Z.leb_spec (end_of 3 d t k) (start_of 3 d t k)); [discriminate|]. split; [lia|].
      replace (t + entry_count f + 2 * entry_count f) with b in EM by lia. pose proof (start_nonneg 3 d t k HD) as S0.
      destruct (zget d (b + start_of 3 d t k)) eqn:EG; cbn [bind] in EM; try discriminate. injection EM as <-. pose proof (zget_ok_range _ _ _ EG) as EB.
      rewrite get_num in EG by lia. injection EG as <-. reflexivity.
  Qed.
  Lemma utf8_steps cp s : mapping_Utf8 f cp s =
    do found <- mapping_search f (u32 cp) (entry_count f);
    match found with
    | None => Ok None
    | Some k => do ' (base, a, e, ty) <- mapping_entry f (entry_count f) k;
      if ty =? 255 then Ok (Some (mkGroup (base + a) ty 0 true)) else
      do v <- (if negb (ty =? 254) then mapping_EvaluateSwitch f ty s else Ok 0);
      do o <- skip_groups (Z.to_nat v) f base a e; Ok (Some (mkGroup (base + o) ty v false))
    end.
  Proof. destruct (numbers f HF) as (_ & _ & _ & _ & _ & _ & _ & _ & _ & _ & N & _). unfold mapping_Utf8. rewrite N. reflexivity. Qed.
  Lemma branch ty base a e s g : a <= e ->
    (if ty =? 255 then Ok (Some (mkGroup (base + a) ty 0 true)) else
      do v <- (if negb (ty =? 254) then mapping_EvaluateSwitch f ty s else Ok 0);
      do o <- skip_groups (Z.to_nat v) f base a e; Ok (Some (mkGroup (base + o) ty v false))) = Ok (Some g) ->
    base + a <= gg_offset g <= base + e /\ gg_switchType g = ty /\ gg_directMapping g = (ty =? 255) /\ 0 <= gg_caseBranch g < 256.
  Proof.
    intros L H. destruct (Z.eqb_spec ty 255) as [E|NE].
    - injection H as <-. cbn [gg_offset gg_switchType gg_directMapping gg_caseBranch]. split; [lia|]. split; [reflexivity|]. split; [reflexivity|lia].
    - match type of H with bind ?x _ = _ => destruct x as [v| | |] eqn:EV end; cbn [bind] in H; try discriminate.
      destruct (skip_groups (Z.to_nat v) f base a e) as [o| | |] eqn:EO; cbn [bind] in H; try discriminate.
      apply skip_groups_in in EO; [|lia]. injection H as <-. cbn [gg_offset gg_switchType gg_directMapping gg_caseBranch].
      assert (0 <= v < 256). { destruct (negb (ty =? 254)); [now apply switch_byte in EV|injection EV as <-; lia]. }
      split; [lia|]. split; [reflexivity|]. split; [reflexivity|lia].
  Qed.
  Lemma found cp s g : let t := OffsetToMapping f + 2 + 4 * entry_count f in let b := t + 3 * entry_count f in
    mapping_Utf8 f cp s = Ok (Some g) -> exists k, 0 <= k < entry_count f /\ num 4 d (OffsetToMapping f + 2 + 4 * k) = u32 cp /\
      start_of 3 d t k < end_of 3 d t k /\ b + start_of 3 d t k < gg_offset g <= b + end_of 3 d t k /\
      gg_switchType g = num 1 d (b + start_of 3 d t k) /\ gg_directMapping g = (gg_switchType g =? 255) /\
      0 <= gg_caseBranch g < 256.
  Proof.
    intros t b H. rewrite utf8_steps in H. destruct (search_result cp) as [E|(k & E & K1 & K2)]; rewrite E in H; cbn [bind] in H; [discriminate|].
    exists k. split; [exact K1|]. split; [exact K2|].
    destruct (mapping_entry f (entry_count f) k) as [w| | |] eqn:EM; cbn [bind] in H; try discriminate.
    destruct (entry_found k w K1 EM) as [LT ->]. split; [exact LT|]. apply branch in H as (B1 & B2 & B3 & B4); [|lia].
    rewrite B2, B3. fold t b in B1. split; [lia|]. split; [reflexivity|]. split; [reflexivity|exact B4].
  Qed.

  Lemma direct g : gg_directMapping g = true -> 0 <= gg_offset g -> gg_offset g + 2 <= zlen d ->
    group_Size f g = Ok 1 /\ group_Select f g 0 = Ok (num 2 d (gg_offset g)).
  Proof. intros D H0 HL. unfold group_Size, group_Select. rewrite D. split; [reflexivity|]. cbn [Z.eqb negb]. fold d. apply from2; auto; lia. Qed.
End Font.
