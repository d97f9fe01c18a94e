(** C37: what EachOut of a code point rule passes on; C29: what is found behind a case that is skipped wrongly. *)
From Coq Require Import Lia.
From Verif Require Import Base BaseFacts Model_Helpers Spec_Helpers Proofs_Helpers Model_Font Model_Rewrites Spec_Format Spec_Layout Proofs_Format
  Proofs_Font Proofs_Font2 Proofs_Font3 Proofs_Font4 Proofs_Rewrites Spec_Outputs.

Lemma halves v : 0 <= v < 4294967296 -> le_digits 4 v = le_digits 2 (v mod 65536) ++ le_digits 2 (v / 65536).
Proof.
  intros V. cbn [le_digits app].
  assert (A : v mod 65536 mod 256 = v mod 256) by (Z.div_mod_to_equations; lia).
  assert (B : v mod 65536 / 256 mod 256 = v / 256 mod 256) by (Z.div_mod_to_equations; lia).
  assert (C : v / 65536 = v / 256 / 256) by (Z.div_mod_to_equations; lia).
  rewrite A, B, C. reflexivity.
Qed.
Lemma joined p q : 0 <= p < 65536 -> 0 <= q < 65536 -> le_digits 2 p ++ le_digits 2 q = le_digits 4 (p + 65536 * q).
Proof.
  intros P Q. rewrite halves by lia. rewrite (Z.mul_comm 65536), Z_mod_plus_full, Z.mod_small by lia. now rewrite Z_div_plus_full, Z.div_small by lia.
Qed.
Lemma woven_read d : forall l off i v, Forall (fun g => 0 <= g < 2147483648) l -> stored d off (concat (map (le_digits 4) l)) -> zget (woven l) i = Ok v ->
  (do b <- zfrom d (off + 2 * i); do x <- DecodeUint32LE b; Ok (i32 x)) = Ok v.
Proof.
  assert (R : forall off x, 0 <= x < 4294967296 -> stored d off (le_digits 4 x) -> (do b <- zfrom d off; do x <- DecodeUint32LE b; Ok (i32 x)) = Ok (i32 x)).
  { intros off x X S. rewrite <- (bind_assoc (zfrom _ _) (fun b => DecodeUint32LE b)). rewrite (from32 _ _ x); [reflexivity|exact S|exact X]. }
  induction l as [|x l IH]; intros off i v F S E.
  { pose proof (zget_ok_range _ _ _ E) as RR. change (zlen (woven [])) with 0 in RR. lia. }
  inversion F as [|? ? FX FL]; subst. pose proof S as S2. cbn [map concat] in S2. apply stored_app in S2. destruct S2 as [S1 S2]. rewrite zlen_le_digits in S2.
  pose proof (zget_ok_range _ _ _ E) as RR.
  destruct (Z.eq_dec i 0) as [->|I0].
  { assert (v = x) as -> by (destruct l; change (Ok x = Ok v) in E; congruence). rewrite Z.mul_0_r, Z.add_0_r, (R _ x); [now rewrite i32_id by lia|lia|exact S1]. }
  destruct l as [|y l].
  { change (zlen (woven [x])) with 1 in RR. lia. }
  inversion FL as [|? ? FY FL']; subst. destruct (Z.eq_dec i 1) as [->|I1].
  - assert (v = between x y) as -> by (change (Ok (between x y) = Ok v) in E; congruence). unfold between. apply R; [Z.div_mod_to_equations; lia|].
    rewrite <- joined by (Z.div_mod_to_equations; lia). clear - S FX FY. cbn [map concat] in S. rewrite (halves x), (halves y) in S by lia.
    rewrite <- !app_assoc in S. apply stored_app in S. destruct S as [_ S]. rewrite app_assoc in S. apply stored_app in S. destruct S as [S _]. rewrite zlen_le_digits in S. exact S.
  - replace (off + 2 * i) with (off + 4 + 2 * (i - 2)) by lia. apply (IH (off + 4)); [exact FL|exact S2|].
    change (zget ([x; between x y] ++ woven (y :: l)) i = Ok v) in E. rewrite zget_app_r in E by (rewrite !zlen_cons, zlen_nil; lia).
    exact E.
Qed.
Lemma woven_length l : zlen (woven l) = Z.max 0 (2 * zlen l - 1).
Proof.
  induction l as [|x l IH]; [reflexivity|]. destruct l as [|y l]; [reflexivity|]. cbn [woven] in *. rewrite !zlen_cons, IH. rewrite !zlen_cons. pose proof (zlen_nonneg l). lia.
Qed.
Lemma utf8_outs r : Forall (fun g => 0 <= g < 2147483648) (rule_out r) ->
  utf8_rule_EachOut (rule_bytes 4 r) = Ok (firstn (Z.to_nat ((zlen (rule_out r) + 1) / 2)) (woven (rule_out r))).
Proof.
  intros HR. unfold utf8_rule_EachOut. replace (zget (rule_bytes 4 r) 4) with (Ok (zlen (rule_out r))) by reflexivity. cbn [bind].
  pose proof (zlen_nonneg (rule_out r)) as Hn. pose proof (woven_length (rule_out r)) as WL.
  assert (Hq : 0 <= (zlen (rule_out r) + 1) / 2 <= zlen (woven (rule_out r))) by (rewrite WL; Z.div_mod_to_equations; lia).
  apply omap_range; [unfold zlen in *; rewrite firstn_length; lia|].
  intros i g E. assert (Ri := zget_ok_range _ _ _ E). assert (E' : zget (woven (rule_out r)) i = Ok g).
  { rewrite <- (firstn_skipn (Z.to_nat ((zlen (rule_out r) + 1) / 2)) (woven (rule_out r))). rewrite zget_app_l by lia. exact E. }
  pose proof (rule_outs_at 4 r []) as S. rewrite app_nil_r in S. exact (woven_read _ _ _ _ _ HR S E').
Qed.

(** ** skipping groups *)
Lemma skip_more f base endOffset : forall n m start, skip_groups (n + m) f base start endOffset =
  do start' <- skip_groups n f base start endOffset; skip_groups m f base start' endOffset.
Proof.
  induction n as [|n IH]; intros m start; [reflexivity|]. cbn [Nat.add skip_groups]. destruct (zget _ _); cbn [bind]; try reflexivity. cbv zeta.
  match goal with |- (if ?c then _ else _) = _ => destruct c; [reflexivity|] end. apply IH.
Qed.
Lemma skip_misjudged f base endOffset g start : misjudged g -> group_in_range g -> stored (Data f) (base + start) (group_bytes g) ->
  skip_groups 1 f base start endOffset = if start + stride g >=? endOffset then Panic else Ok (start + stride g).
Proof.
  intros M R S. cbn [skip_groups]. rewrite group_shape in S. apply stored_cons in S. destruct S as [-> _]. cbn [bind]. cbv zeta.
  destruct (group_info g (proj1 R)) as [E _]. rewrite E. replace (zlen (group_glyphs g) - 1 + 1) with (zlen (group_glyphs g)) by lia.
  rewrite (land_size _ (proj1 R)). rewrite negb_involutive. rewrite shiftl_mul by lia. change (2 ^ 1) with 2.
  destruct g as [fl gl|fl first size]; cbn [misjudged stride] in *.
  - cbn [group_glyphs] in *. rewrite M. change (128 =? 128) with true. change (128 >? 1) with true. cbv iota. replace (start + 3 + 1) with (start + 4) by lia. reflexivity.
  - rewrite !(range_size fl first size) by (apply (proj1 (proj1 R))). destruct (Z.eqb_spec size 128); [lia|]. destruct (size >? 1) eqn:G; [|lia].
    replace (start + 1 + size * 2 + 1) with (start + (2 * size + 2)) by lia. reflexivity.
Qed.
Lemma stored_skip d off b n : stored d off b -> 0 <= n <= zlen b -> stored d (off + n) (skipn (Z.to_nat n) b).
Proof.
  intros S N. rewrite <- (firstn_skipn (Z.to_nat n) b) in S. apply stored_app in S. destruct S as [_ S]. eapply stored_at; [exact S|].
  unfold zlen. rewrite firstn_length. unfold zlen in N. lia.
Qed.
Section Behind.
  Variables (f : Font) (l : list (Z * entry)).
  Hypothesis HS : stored (Data f) (OffsetToMapping f) (mapping_bytes l).
  Hypothesis HO : ordered Z.lt (map fst l).
  Hypothesis HK : Forall (fun x => 0 <= fst x < 2147483648) l.
  Hypothesis HC : zlen l < 65536.
  Hypothesis HL : zlen (concat (map (fun x => entry_bytes (snd x)) l)) < 16777216.
  Lemma lookup_behind cp k before g rest settings : In (cp, ESwitch k (before ++ g :: rest)) l -> 0 <= k < 254 -> rest <> [] ->
    mapping_EvaluateSwitch f k settings = Ok (zlen before + 1) -> Forall group_in_range (before ++ g :: rest) -> Forall skippable before -> misjudged g ->
    let here := concat (map group_bytes (g :: rest)) in
    if stride g <? zlen here then
      exists gg, mapping_Utf8 f cp settings = Ok (Some gg) /\ gg_directMapping gg = false /\ gg_switchType gg = k /\ gg_caseBranch gg = zlen before + 1 /\
        stored (Data f) (gg_offset gg) (skipn (Z.to_nat (stride g)) here)
    else mapping_Utf8 f cp settings = Panic.
  Proof.
    intros Hin Hk Hne Hev HR Hsk M here. destruct (lookup_entry f l HS HO HK HC HL _ _ Hin) as (base & start & j & k' & E1 & E2 & S & Hk').
    unfold mapping_Utf8. rewrite (proj1 (map_parts f l HS HC)). cbn [bind]. rewrite E1. cbn [bind]. rewrite E2. cbn [bind].
    cbn [entry_bytes hd] in Hk'. subst k'. destruct (Z.eqb_spec k 255); [lia|]. destruct (Z.eqb_spec k 254); [lia|]. cbn [negb].
    rewrite Hev. cbn [bind]. cbn [entry_bytes] in S |- *. apply stored_cons in S. destruct S as [_ S]. rewrite zlen_cons.
    pose proof (zlen_nonneg before) as ZB. replace (Z.to_nat (zlen before + 1)) with (length before + 1)%nat by (unfold zlen; lia). rewrite skip_more.
    apply Forall_app in HR. destruct HR as [HRb HRg]. inversion HRg as [|? ? Rg Rr]; subst.
    assert (S' : stored (Data f) (base + (start + 1)) (concat (map group_bytes (before ++ g :: rest)))) by (eapply stored_at; [exact S|lia]).
    rewrite (skip_groups_spec f base _ (g :: rest) before (start + 1)); [|exact S'|discriminate|lia|exact HRb|exact Hsk]. cbn [bind].
    rewrite map_app, concat_app in S'. apply stored_app in S'. destruct S' as [_ S']. fold here in S'.
    assert (ZH : zlen (concat (map group_bytes (before ++ g :: rest))) = zlen (concat (map group_bytes before)) + zlen here).
    { rewrite map_app, concat_app, zlen_app. reflexivity. }
    rewrite (skip_misjudged f base _ g); [|exact M|exact Rg|].
    2:{ unfold here in S'. cbn [map concat] in S'. apply stored_app in S'. destruct S' as [S' _]. eapply stored_at; [exact S'|lia]. }
    assert (SP : 0 <= stride g) by (destruct g; cbn [stride misjudged] in *; lia).
    destruct (Z.ltb_spec (stride g) (zlen here)) as [B|B].
    - match goal with |- context [if ?c then Panic else _] => destruct c eqn:C end; [lia|]. cbn [bind]. eexists. split; [reflexivity|].
      cbn [gg_offset gg_switchType gg_caseBranch gg_directMapping]. repeat (split; [reflexivity|]).
      apply (stored_at _ (base + (start + 1) + zlen (concat (map group_bytes before)) + stride g)); [|lia]. apply stored_skip; [exact S'|lia].
    - match goal with |- context [if ?c then Panic else _] => destruct c eqn:C end; [reflexivity|lia].
  Qed.
End Behind.
