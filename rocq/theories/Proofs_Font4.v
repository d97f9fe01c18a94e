(** Mapping, mapping groups and kerning accessors. *)
From Verif Require Import Base BaseFacts Spec_Helpers Model_Helpers Proofs_Helpers Model_Font
  Spec_Format Proofs_Format Proofs_Font Proofs_Font2 Proofs_Font3.

(** ** binary search in a sorted array of 32-bit numbers *)
Lemma ordered_get {A} (lt : A -> A -> Prop) l : ordered lt l -> forall i j a b, i < j ->
  zget l i = Ok a -> zget l j = Ok b -> lt a b.
Proof.
  induction l as [|x l IH]; intros Ho i j a b Hij Ea Eb; [apply zget_ok_range in Ea; rewrite zlen_nil in Ea; lia|].
  destruct Ho as [Hx Ho]. pose proof (zget_ok_range _ _ _ Ea). pose proof (zget_ok_range _ _ _ Eb).
  rewrite (zget_cons_S x l j) in Eb by lia. destruct (Z.eq_dec i 0) as [->|Hi].
  - rewrite zget_cons_0 in Ea. assert (x = a) by congruence. subst. apply Hx. now apply zget_in in Eb.
  - rewrite zget_cons_S in Ea by lia. exact (IH Ho (i - 1) (j - 1) a b ltac:(lia) Ea Eb).
Qed.
Lemma in_zget {A} (l : list A) a : In a l -> exists i, zget l i = Ok a.
Proof.
  intros H. apply In_nth_error in H. destruct H as [n H]. exists (Z.of_nat n). apply zget_some.
  split; [lia|]. now rewrite Nat2Z.id.
Qed.

Section Search.
  Variables (d : list Z) (off : Z) (ks : list Z) (target : Z).
  Hypothesis HS : stored d off (concat (map (le_digits 4) ks)).
  Hypothesis HR : Forall (fun k => 0 <= k < 4294967296) ks.
  Hypothesis HO : ordered Z.lt ks.
  Hypothesis HL : zlen ks < 16777216.
  Lemma key_at i k : zget ks i = Ok k -> bind (zfrom d (off + Z.shiftl i 2)) DecodeUint32LE = Ok k.
  Proof.
    intros E. rewrite shiftl_mul by lia. change (2 ^ 2) with 4.
    pose proof (stored_array (le_digits 4) 4 ks _ _ _ _ (zlen_le_digits 4) HS E) as S.
    apply from32; [eapply stored_at; [exact S|lia]|]. exact (forall_get _ _ _ _ HR E).
  Qed.
  Lemma search32 : exists r,
    lower_bound_loop 64 (fun mid => do b <- zfrom d (off + Z.shiftl mid 2); do value <- DecodeUint32LE b; Ok (value <? target)) 0 (zlen ks - 1) = Ok r /\
    0 <= r /\ (zget ks r = Ok target \/
      ~ In target ks /\ (zlen ks <= r \/ exists k, r < zlen ks /\ zget ks r = Ok k /\ k <> target)).
  Proof.
    pose proof (zlen_nonneg ks) as Hn. destruct (Z.eq_dec (zlen ks) 0) as [E|Hne].
    - rewrite E. exists 0. split; [reflexivity|]. split; [lia|]. right. apply zlen_0_nil in E. rewrite E. split; [tauto|left; reflexivity].
    - destruct (lower_bound_loop_spec 64
        (fun mid => do b <- zfrom d (off + Z.shiftl mid 2); do value <- DecodeUint32LE b; Ok (value <? target))
        (fun i => nth (Z.to_nat i) ks 0 <? target) 0 (zlen ks - 1)) as (r & Er & Hr & P1 & P2).
      + lia.
      + eapply Z.lt_trans with 16777216; [lia|reflexivity].
      + intros i Hi. pose proof (zget_nth ks i 0 ltac:(lia)) as E. rewrite <- (bind_assoc (zfrom _ _) DecodeUint32LE).
        rewrite (key_at _ _ E). reflexivity.
      + intros i j Hi Hij Hj H1. pose proof (zget_nth ks i 0 ltac:(lia)) as Ei. pose proof (zget_nth ks j 0 ltac:(lia)) as Ej.
        destruct (Z.eq_dec i j) as [->|]; [exact H1|]. pose proof (ordered_get _ _ HO i j _ _ ltac:(lia) Ei Ej). lia.
      + exists r. split; [exact Er|]. split; [lia|].
        pose proof (zget_nth ks r 0 ltac:(lia)) as E. destruct (Z.eq_dec (nth (Z.to_nat r) ks 0) target) as [<-|Hd]; [now left|].
        right. split.
        * intros Hin. apply in_zget in Hin. destruct Hin as [j Ej]. pose proof (zget_ok_range _ _ _ Ej) as Rj.
          pose proof (zget_nth ks j 0 Rj) as Ej'. assert (Ht : nth (Z.to_nat j) ks 0 = target) by congruence.
          destruct (Z_lt_dec j r) as [L|]; [specialize (P1 j ltac:(lia)); cbv beta in P1; lia|].
          destruct (Z.eq_dec j r) as [->|]; [congruence|].
          pose proof (ordered_get _ _ HO r j _ _ ltac:(lia) E Ej) as Hlt.
          destruct (Z_lt_dec r (zlen ks - 1)) as [Lr|]; [|lia].
          specialize (P2 r ltac:(lia)). cbv beta in P2. lia.
        * right. exists (nth (Z.to_nat r) ks 0). split; [lia|]. split; [exact E|exact Hd].
  Qed.
End Search.

(** ** kerning *)
Lemma lor_key prev curr : 0 <= prev < 65536 -> 0 <= curr < 65536 ->
  Z.lor (u32 (Z.shiftl prev 16)) curr = prev * 65536 + curr.
Proof.
  intros Hp Hc. rewrite shiftl_mul by lia. change (2 ^ 16) with 65536.
  unfold u32. rewrite Z.mod_small by lia. rewrite Z.lor_comm. change 65536 with (2 ^ 16).
  rewrite lor_add_mul; [lia|lia|]. change (2 ^ 16) with 65536. lia.
Qed.
Lemma i8_wrap v : -128 <= v < 128 -> i8 (v mod 256) = v.
Proof. intros H. unfold i8, u8. rewrite Z.mod_mod by lia. destruct (Z.ltb_spec (v mod 256) 128); lia. Qed.

Lemma kerning_found d off l prev curr : stored d off (kernings_bytes l) ->
  ordered (fun p q => pair_key p < pair_key q) l -> Forall pair_in_range l -> zlen l < 16777216 ->
  0 <= prev < 65536 -> 0 <= curr < 65536 ->
  (forall v, In (prev, curr, v) l -> kerning_lookup d off prev curr = Ok v) /\
  ((forall v, ~ In (prev, curr, v) l) -> kerning_lookup d off prev curr = Ok 0).
Proof.
  intros HS HO HR HL Hp Hc. unfold kernings_bytes in HS. apply stored_app in HS. destruct HS as [H0 HS]. rewrite zlen_le_digits in HS.
  change (Z.of_nat 3) with 3 in HS. apply stored_app in HS. destruct HS as [H1 H2].
  rewrite (zlen_concat_fixed (fun p => le_digits 4 (pair_key p)) 4) in H2 by (intros; apply zlen_le_digits).
  pose proof (zlen_nonneg l) as Hn.
  assert (En : kerning_pairs d off = Ok (zlen l)) by (apply from24; [exact H0|lia]).
  assert (Hk : forall p, In p l -> 0 <= pair_key p < 4294967296).
  { intros [[a b] v] Hin. rewrite Forall_forall in HR. specialize (HR _ Hin). cbn [pair_in_range pair_key] in *. lia. }
  rewrite <- (map_map pair_key (le_digits 4)) in H1.
  assert (O' : ordered Z.lt (map pair_key l)).
  { clear - HO. induction l as [|x l IH]; [exact I|]. destruct HO as [Hx HO]. split; [|now apply IH].
    intros y Hy. apply in_map_iff in Hy. destruct Hy as (p & <- & Hp). now apply Hx. }
  destruct (search32 d (off + 3) (map pair_key l) (prev * 65536 + curr) H1) as (r & Er & Hr & Hcase).
  { apply Forall_map. rewrite Forall_forall. exact Hk. }
  { exact O'. }
  { now rewrite zlen_map. }
  rewrite zlen_map in *.
  assert (U : forall a b v, In (a, b, v) l -> pair_key (a, b, v) = prev * 65536 + curr -> a = prev /\ b = curr).
  { intros a b v Hin E. rewrite Forall_forall in HR. specialize (HR _ Hin). cbn [pair_in_range pair_key] in *. lia. }
  unfold kerning_lookup. rewrite (lor_key _ _ Hp Hc), En. cbn [bind]. cbv zeta. rewrite Er. cbn [bind].
  destruct Hcase as [Hf|[Hnot Hcase]].
  - pose proof (zget_ok_range _ _ _ Hf) as Rr. rewrite zlen_map in Rr.
    destruct (Z.geb_spec r (zlen l)); [lia|]. rewrite <- (bind_assoc (zfrom _ _) DecodeUint32LE).
    rewrite (key_at _ _ _ H1) with (k := prev * 65536 + curr); [|apply Forall_map; rewrite Forall_forall; exact Hk|exact Hf].
    cbn [bind]. rewrite Z.eqb_refl. cbn [negb].
    destruct (zget_in_range l r Rr) as [[[a b] v] E]. assert (Hin := zget_in _ _ _ E).
    assert (Ek : pair_key (a, b, v) = prev * 65536 + curr) by (rewrite zget_map, E in Hf; cbn [bind] in Hf; congruence).
    destruct (U a b v Hin Ek) as [-> ->].
    pose proof (stored_array (fun p => le_digits 1 (pair_value p)) 1 l _ _ _ _ (fun p => zlen_le_digits 1 (pair_value p)) H2 E) as S.
    cbn [pair_value le_digits] in S. apply stored_cons in S. destruct S as [G _].
    rewrite shiftl_mul by lia. change (2 ^ 2) with 4.
    replace (off + 3 + zlen l * 4 + r) with (off + 3 + 4 * zlen l + 1 * r) by lia. rewrite G. cbn [bind].
    assert (Hv : -128 <= v < 128) by (rewrite Forall_forall in HR; specialize (HR _ Hin); cbn [pair_in_range] in HR; lia).
    rewrite i8_wrap by exact Hv. split.
    + intros v' Hin'. apply in_zget in Hin'. destruct Hin' as [j Ej]. f_equal.
      assert (j = r).
      { destruct (Z_lt_dec j r) as [L|]; [pose proof (ordered_get _ _ HO j r _ _ L Ej E) as X; cbn [pair_key] in X; lia|].
        destruct (Z_lt_dec r j) as [L|]; [pose proof (ordered_get _ _ HO r j _ _ L E Ej) as X; cbn [pair_key] in X; lia|lia]. }
      subst. congruence.
    + intros Hno. exfalso. exact (Hno v Hin).
  - assert (Hno : forall v, ~ In (prev, curr, v) l).
    { intros v Hin. apply Hnot. apply in_map_iff. exists (prev, curr, v). split; [reflexivity|exact Hin]. }
    assert (R0 : (if r >=? zlen l then Ok 0 else do b <- zfrom d (off + 3 + Z.shiftl r 2); do value <- DecodeUint32LE b;
       if negb (value =? prev * 65536 + curr) then Ok 0 else do k <- zget d (off + 3 + Z.shiftl (zlen l) 2 + r); Ok (i8 k)) = Ok 0).
    { destruct (Z.geb_spec r (zlen l)); [reflexivity|]. destruct Hcase as [|(k & Rr & Ek & Hd)]; [lia|].
      rewrite <- (bind_assoc (zfrom _ _) DecodeUint32LE).
      rewrite (key_at _ _ _ H1) with (k := k); [|apply Forall_map; rewrite Forall_forall; exact Hk|exact Ek].
      cbn [bind]. destruct (Z.eqb_spec k (prev * 65536 + curr)); [contradiction|reflexivity]. }
    split; [intros v Hin; exfalso; exact (Hno v Hin)|intros _; exact R0].
Qed.
Lemma kerning_count d off l : stored d off (kernings_bytes l) -> zlen l < 16777216 -> kerning_pairs d off = Ok (zlen l).
Proof.
  intros HS HL. unfold kernings_bytes in HS. apply stored_app in HS. destruct HS as [H0 _]. pose proof (zlen_nonneg l).
  apply from24; [exact H0|lia].
Qed.

(** ** switches *)
Lemma product_app a b : product (a ++ b) = product a * product b.
Proof. induction a as [|x a IH]; cbn [app product fold_right]; [unfold product; lia|]. fold (product (a ++ b)). fold (product a). rewrite IH. lia. Qed.
Lemma position_snoc vs os v o : length vs = length os -> position (vs ++ [v]) (os ++ [o]) = position vs os * o + v.
Proof.
  revert os. induction vs as [|x vs IH]; intros [|y os] H; try discriminate.
  - cbn [app position]. change (product []) with 1. lia.
  - cbn [app position]. rewrite IH by (cbn in H; lia). rewrite product_app. change (product [o]) with (o * 1). lia.
Qed.
Lemma position_range vs os : combination vs os -> 0 <= position vs os < product os.
Proof.
  induction 1 as [|v o vs os Hv _ IH]; cbn [position].
  - change (product []) with 1. lia.
  - change (product (o :: os)) with (o * product os). nia.
Qed.
Lemma position_injective vs : forall ws os, combination vs os -> combination ws os -> position vs os = position ws os -> vs = ws.
Proof.
  induction vs as [|v vs IH]; intros ws os C1 C2 E.
  - inversion C1; subst. inversion C2; subst. reflexivity.
  - inversion C1 as [|? o ? os' Hv Cv]; subst. inversion C2 as [|w ? ws' ? Hw Cw]; subst.
    cbn [position] in E. pose proof (position_range _ _ Cv) as R1. pose proof (position_range _ _ Cw) as R2.
    assert (v = w) by nia. subst. f_equal. apply IH with os'; auto. lia.
Qed.
Lemma forall2_len {A B} (R : A -> B -> Prop) l l' : Forall2 R l l' -> length l = length l'.
Proof. induction 1; cbn; congruence. Qed.
Lemma combination_length vs os : combination vs os -> length vs = length os.
Proof. apply forall2_len. Qed.

Section Switch.
  Variables (f : Font) (settings : list Z).
  (** the last setting of a switch is read first; the option count of the first one is not needed *)
  Lemma switch_loop_spec base start : forall ks vs os,
    stored (Data f) (base + start) ks -> ks <> [] ->
    Forall2 (fun k v => zget settings k = Ok v) ks vs -> Forall2 (fun k o => settings_GetNumOptions f k = Ok o) ks os ->
    forall C R, switch_loop (length ks - 1) f settings base (start + zlen ks - 1) C R = Ok (u8 (R + C * position vs os)).
  Proof.
    induction ks as [|k ks IH] using rev_ind; intros vs os HS Hne HV HO C R; [congruence|].
    apply Forall2_app_inv_l in HV. destruct HV as (vs' & v1 & HV & Hv & ->).
    apply Forall2_app_inv_l in HO. destruct HO as (os' & o1 & HO & Ho & ->).
    inversion Hv as [|? v ? ? Ev Hv0]; subst. inversion Hv0; subst. inversion Ho as [|? o ? ? Eo Ho0]; subst. inversion Ho0; subst.
    pose proof (forall2_len _ _ _ HV) as L1. pose proof (forall2_len _ _ _ HO) as L2.
    rewrite position_snoc by lia. rewrite app_length. cbn [length]. replace (length ks + 1 - 1)%nat with (length ks) by lia.
    apply stored_app in HS. destruct HS as [HS1 HS2]. apply stored_cons in HS2. destruct HS2 as [G _].
    rewrite zlen_app, zlen_cons, zlen_nil.
    assert (Hhead : zget (Data f) (base + (start + (zlen ks + (1 + 0)) - 1)) = Ok k) by (rewrite <- G; f_equal; lia).
    destruct ks as [|k0 ks].
    - cbn [length switch_loop]. rewrite Hhead. cbn [bind]. rewrite Ev. cbn [bind]. f_equal.
      inversion HV; subst. cbn [position]. unfold u8. rewrite Zplus_mod_idemp_r. f_equal. lia.
    - cbn [length switch_loop]. rewrite Hhead. cbn [bind]. rewrite Ev. cbn [bind]. rewrite Eo. cbn [bind].
      specialize (IH vs' os' HS1 ltac:(discriminate) HV HO (u8 (C * o)) (u8 (R + u8 (v * C)))).
      cbn [length] in IH. replace (S (length ks) - 1)%nat with (length ks) in IH by lia.
      replace (start + (zlen (k0 :: ks) + (1 + 0)) - 1 - 1) with (start + zlen (k0 :: ks) - 1) by lia. rewrite IH. f_equal.
      unfold u8. rewrite Zplus_mod_idemp_l. rewrite <- Zplus_mod_idemp_r, Zmult_mod_idemp_l, Zplus_mod_idemp_r.
      rewrite <- Z.add_assoc, (Z.add_comm ((v * C) mod 256)), Z.add_assoc, Zplus_mod_idemp_r. f_equal. lia.
  Qed.

  Lemma evaluate_switch sws key ks vs os :
    stored (Data f) (OffsetToMappingSwitches f) (switches_bytes sws) -> zlen (concat sws) < 65536 ->
    zget sws key = Ok ks -> ks <> [] ->
    Forall2 (fun k v => zget settings k = Ok v) ks vs -> Forall2 (fun k o => settings_GetNumOptions f k = Ok o) ks os ->
    mapping_EvaluateSwitch f key settings = Ok (position vs os mod 256).
  Proof.
    intros HS HL E Hne HV HO. pose proof (zget_ok_range _ _ _ E). unfold mapping_EvaluateSwitch, mapping_NumSwitchTypes.
    unfold switches_bytes in HS. apply stored_cons in HS. destruct HS as [-> HS]. cbn [bind].
    destruct (Z.geb_spec key (zlen sws)); [lia|]. apply stored_indexed in HS. destruct HS as [H1 H2]. cbv zeta.
    rewrite !shiftl_mul by lia. change (2 ^ 1) with 2.
    rewrite <- (bind_assoc (zfrom _ _) DecodeUint16LE). rewrite (end16 _ _ _ _ _ _ H1 E) by lia. cbn [bind].
    rewrite (start16 _ _ _ _ _ _ _ H1 E) by lia. cbn [bind]. pose proof (nonempty_len _ Hne).
    destruct (Z.leb_spec (start_of sws key + zlen ks) (start_of sws key)); [lia|].
    pose proof (stored_blob _ _ _ _ _ H2 E) as S.
    pose proof (switch_loop_spec (OffsetToMappingSwitches f + 1 + zlen sws * 2) (start_of sws key) ks vs os) as R.
    replace (Z.to_nat (start_of sws key + zlen ks - 1 - start_of sws key)) with (length ks - 1)%nat by (unfold zlen; lia).
    rewrite R; auto; [|eapply stored_at; [exact S|lia]]. f_equal. unfold u8. f_equal. lia.
  Qed.
End Switch.

(** ** groups *)
Lemma land_127 x : 0 <= x < 128 -> Z.land x 127 = x /\ Z.land (128 + x) 127 = x /\ Z.land x 128 = 0 /\ Z.land (128 + x) 128 = 128.
Proof.
  intros H. assert (F : forallb (fun x => (Z.land x 127 =? x) && (Z.land (128 + x) 127 =? x) && (Z.land x 128 =? 0) && (Z.land (128 + x) 128 =? 128)) (zseq 128) = true) by (vm_compute; reflexivity).
  rewrite forallb_forall in F. specialize (F x ltac:(apply in_zseq; lia)). lia.
Qed.
Lemma land_size x : 1 <= x <= 128 -> (Z.land x 128 =? 0) = negb (x =? 128).
Proof.
  intros H. assert (F : forallb (fun x => Bool.eqb (Z.land (x + 1) 128 =? 0) (negb (x + 1 =? 128))) (zseq 128) = true) by (vm_compute; reflexivity).
  rewrite forallb_forall in F. specialize (F (x - 1) ltac:(apply in_zseq; lia)). replace (x - 1 + 1) with x in F by lia. now apply eqb_prop.
Qed.
Definition group_top (g : group) : Z := match g with GList _ _ => 0 | GRange _ _ _ => 128 end.
Definition group_body (g : group) : list Z :=
  match g with GList _ l => concat (map (le_digits 2) l) | GRange _ first _ => le_digits 2 first end.
Lemma group_shape g : group_bytes g = (group_top g + (zlen (group_glyphs g) - 1)) ::
  (if zlen (group_glyphs g) =? 1 then [] else [group_flags g]) ++ group_body g.
Proof. destruct g; reflexivity. Qed.
Lemma group_info g : 1 <= zlen (group_glyphs g) <= 128 ->
  Z.land (group_top g + (zlen (group_glyphs g) - 1)) 127 = zlen (group_glyphs g) - 1 /\
  (Z.land (group_top g + (zlen (group_glyphs g) - 1)) 128 =? 0) = match g with GList _ _ => true | GRange _ _ _ => false end.
Proof.
  intros H. destruct (land_127 (zlen (group_glyphs g) - 1) ltac:(lia)) as (A & B & C & D).
  destruct g; cbn [group_top]; [rewrite Z.add_0_l; split; [exact A|rewrite C; reflexivity]|split; [exact B|rewrite D; reflexivity]].
Qed.
Lemma zlen_range_glyphs fl first size : 0 <= size -> zlen (group_glyphs (GRange fl first size)) = size.
Proof. intros. cbn [group_glyphs]. rewrite zlen_map. now apply zlen_zseq. Qed.
Lemma range_size fl first size : 1 <= zlen (group_glyphs (GRange fl first size)) -> zlen (group_glyphs (GRange fl first size)) = size.
Proof.
  intros H. destruct (Z_le_dec 0 size); [now apply zlen_range_glyphs|]. cbn [group_glyphs] in H. rewrite zlen_map in H.
  unfold zseq in H. replace (Z.to_nat size) with O in H by lia. cbn in H. unfold zlen in H. cbn in H. lia.
Qed.
Lemma zget_zseq n i : 0 <= i < n -> zget (zseq n) i = Ok i.
Proof. intros H. apply zget_some. split; [lia|]. rewrite nth_zseq by lia. f_equal. lia. Qed.
Lemma range_get fl first size i : 0 <= i < size -> zget (group_glyphs (GRange fl first size)) i = Ok (first + i).
Proof. intros H. cbn [group_glyphs]. rewrite zget_map, zget_zseq by lia. reflexivity. Qed.

(** where the model finds a group *)
Definition group_found (f : Font) (gg : GlyphMappingGroup) (g : group) : Prop :=
  gg_directMapping gg = false /\ stored (Data f) (gg_offset gg) (group_bytes g).

Section Group.
  Variables (f : Font) (gg : GlyphMappingGroup) (g : group).
  Hypothesis HF : group_found f gg g.
  Hypothesis HR : group_in_range g.
  Local Notation N := (zlen (group_glyphs g)).
  Lemma info_byte : zget (Data f) (gg_offset gg) = Ok (group_top g + (N - 1)).
  Proof. destruct HF as [_ H]. rewrite group_shape in H. now apply stored_cons in H. Qed.
  Lemma group_size : group_Size f gg = Ok N.
  Proof.
    unfold group_Size. rewrite (proj1 HF), info_byte. cbn [bind]. destruct (group_info g (proj1 HR)) as [E _].
    rewrite E. f_equal. lia.
  Qed.
  Lemma group_flags_single : N = 1 -> group_AnimationFlags f gg = Ok (group_flags g).
  Proof.
    intros H1. unfold group_AnimationFlags. rewrite (proj1 HF), info_byte. cbn [bind]. destruct (group_info g (proj1 HR)) as [E _].
    rewrite E, H1. cbn. unfold group_flags. rewrite H1. reflexivity.
  Qed.
  Lemma body_at : stored (Data f) (gg_offset gg + 1 + (if N =? 1 then 0 else 1)) (group_body g).
  Proof.
    destruct HF as [_ H]. rewrite group_shape in H. apply stored_cons in H. destruct H as [_ H]. 
    destruct (N =? 1); apply stored_app in H; destruct H as [_ H]; [rewrite zlen_nil in H|rewrite zlen_cons, zlen_nil in H];
      (eapply stored_at; [exact H|lia]).
  Qed.
  (** the byte read for the flags of a larger group is the low byte of its first glyph *)
  Lemma group_flags_low : 1 < N -> exists i, zget (group_glyphs g) 0 = Ok i /\ group_AnimationFlags f gg = Ok (i mod 256).
  Proof.
    intros H1. unfold group_AnimationFlags. rewrite (proj1 HF), info_byte. cbn [bind]. destruct (group_info g (proj1 HR)) as [E _].
    rewrite E. destruct (Z.eqb_spec (N - 1) 0); [lia|].
    pose proof body_at as B. destruct (Z.eqb_spec N 1); [lia|]. 
    replace (gg_offset gg + 1 + 1) with (gg_offset gg + 2) in B by lia.
    destruct g as [fl l|fl first size] eqn:Eg; cbn [group_body group_glyphs] in *.
    - destruct l as [|i l]; [rewrite zlen_nil in H1; lia|]. exists i. split; [reflexivity|].
      cbn [map concat le_digits] in B. apply stored_cons in B. apply B.
    - exists first. rewrite zlen_map in H1.
      assert (1 < size). { unfold zseq in H1. rewrite zlen_map in H1. unfold zlen in H1. rewrite seq_length in H1. lia. }
      split; [rewrite zget_map, zget_zseq by lia; cbn [bind]; f_equal; lia|]. cbn [le_digits] in B. apply stored_cons in B. apply B.
  Qed.
  Lemma select_out choice : N <= choice -> group_Select f gg choice = Panic.
  Proof.
    intros H1. unfold group_Select. rewrite (proj1 HF), info_byte. cbn [bind]. cbv zeta. destruct (group_info g (proj1 HR)) as [E _].
    rewrite E. destruct (Z.geb_spec choice (N - 1 + 1)); [reflexivity|lia].
  Qed.
  (** what Select really returns: the glyph itself for single glyphs and ranges, the glyph
      two positions further per choice for lists *)
  Lemma select_in choice i :
    (match g with GList _ _ => zget (group_glyphs g) (2 * choice) = Ok i | GRange _ _ _ => zget (group_glyphs g) choice = Ok i end) ->
    0 <= choice -> group_Select f gg choice = Ok i.
  Proof.
    intros Hi Hc. unfold group_Select. rewrite (proj1 HF), info_byte. cbn [bind]. cbv zeta. destruct (group_info g (proj1 HR)) as [E1 E2].
    rewrite E1, E2. 
    assert (Hr : choice < N) by (destruct g; apply zget_ok_range in Hi; lia).
    destruct (Z.geb_spec choice (N - 1 + 1)); [lia|].
    pose proof body_at as B. destruct HR as (HN & _ & HF2). 
    assert (Ri : 0 <= i < 65536) by (destruct g; exact (forall_get _ _ _ _ HF2 Hi)).
    destruct (Z.eqb_spec (N - 1 + 1) 1) as [H1|H1].
    - replace (N =? 1) with true in B by lia. replace (gg_offset gg + 1 + 0) with (gg_offset gg + 1) in B by lia.
      assert (choice = 0) by lia. subst choice.
      destruct g as [fl l|fl first size] eqn:Eg; cbn [group_body] in B.
      + apply from16; [|exact Ri]. pose proof (stored_array (le_digits 2) 2 l _ _ 0 i (zlen_le_digits 2) B Hi) as S.
        eapply stored_at; [exact S|lia].
      + assert (i = first). { pose proof (range_size fl first size ltac:(lia)).
          rewrite range_get in Hi by lia. assert (first + 0 = i) by congruence. lia. }
        subst. now apply from16.
    - replace (N =? 1) with false in B by lia. replace (gg_offset gg + 1 + 1) with (gg_offset gg + 2) in B by lia.
      destruct g as [fl l|fl first size] eqn:Eg; cbn [group_body] in B; cbn [negb].
      + rewrite shiftl_mul by lia. change (2 ^ 2) with 4. apply from16; [|exact Ri].
        pose proof (stored_array (le_digits 2) 2 l _ _ _ i (zlen_le_digits 2) B Hi) as S. eapply stored_at; [exact S|lia].
      + pose proof (range_size fl first size ltac:(lia)) as Hs.
        rewrite range_get in Hi by (lia). assert (first + choice = i) by congruence. subst i.
        assert (R0 : 0 <= first < 65536).
        { refine (forall_get _ _ 0 first HF2 _). rewrite range_get by lia. f_equal. lia. }
        rewrite <- (bind_assoc (zfrom _ _) (fun b => DecodeUint16LE b)). rewrite (from16 _ _ _ B R0). cbn [bind]. f_equal. unfold u16. now apply Z.mod_small.
  Qed.
End Group.

(** ** skipping groups and looking code points up *)
Definition skippable (g : group) : Prop :=
  match g with GList _ l => zlen l < 128 | GRange _ _ size => size = 1 \/ size = 128 end.
Lemma zlen_body g : zlen (group_body g) = match g with GList _ l => 2 * zlen l | GRange _ _ _ => 2 end.
Proof. destruct g; cbn [group_body]; [now rewrite (zlen_concat_fixed (le_digits 2) 2) by apply (zlen_le_digits 2)|apply zlen_le_digits]. Qed.

Lemma skip_groups_spec f base endOffset rest : forall skipped start,
  stored (Data f) (base + start) (concat (map group_bytes (skipped ++ rest))) -> rest <> [] ->
  start + zlen (concat (map group_bytes (skipped ++ rest))) <= endOffset ->
  Forall group_in_range skipped -> Forall skippable skipped ->
  skip_groups (length skipped) f base start endOffset = Ok (start + zlen (concat (map group_bytes skipped))).
Proof.
  induction skipped as [|g l IH]; intros start HS Hne He HR Hk.
  - cbn. rewrite zlen_nil. f_equal. lia.
  - cbn [length skip_groups]. cbn [app map concat] in HS, He. apply stored_app in HS. destruct HS as [H1 H2].
    inversion HR as [|? ? HRg HRl]; subst. inversion Hk as [|? ? Hkg Hkl]; subst.
    rewrite group_shape in H1. apply stored_cons in H1. destruct H1 as [-> _]. cbn [bind]. cbv zeta.
    destruct (group_info g (proj1 HRg)) as [E _]. rewrite E.
    replace (zlen (group_glyphs g) - 1 + 1) with (zlen (group_glyphs g)) by lia.
    rewrite (land_size _ (proj1 HRg)). rewrite negb_involutive.
    assert (Hsize : (if zlen (group_glyphs g) >? 1 then
        (if zlen (group_glyphs g) =? 128 then start + 3 else start + 1 + Z.shiftl (zlen (group_glyphs g)) 1) + 1
        else (if zlen (group_glyphs g) =? 128 then start + 3 else start + 1 + Z.shiftl (zlen (group_glyphs g)) 1)) = start + zlen (group_bytes g)).
    { rewrite shiftl_mul by lia. change (2 ^ 1) with 2. rewrite group_shape, zlen_cons, zlen_app, zlen_body.
      destruct HRg as [HN _]. destruct g as [fl gl|fl first size].
      - cbn [group_glyphs skippable] in *. destruct (Z.eqb_spec (zlen gl) 128); [lia|].
        destruct (Z.eqb_spec (zlen gl) 1) as [->|]; [rewrite zlen_nil; destruct (Z.gtb_spec 1 1); lia|].
        rewrite zlen_cons, zlen_nil. destruct (Z.gtb_spec (zlen gl) 1); lia.
      - rewrite !(range_size fl first size) by lia. cbn [skippable] in Hkg. destruct Hkg as [->| ->].
        + change (1 >? 1) with false. change (1 =? 128) with false. change (1 =? 1) with true. cbv iota. rewrite zlen_nil. lia.
        + change (128 >? 1) with true. change (128 =? 128) with true. change (128 =? 1) with false. cbv iota. rewrite zlen_cons, zlen_nil. lia. }
    rewrite Hsize. rewrite zlen_app in He.
    assert (Hrest : 0 < zlen (concat (map group_bytes (l ++ rest)))).
    { rewrite map_app, concat_app, zlen_app. destruct rest as [|r rest]; [congruence|]. cbn [map concat]. rewrite group_shape, zlen_app, zlen_cons.
      pose proof (zlen_nonneg (concat (map group_bytes l))). pose proof (zlen_nonneg (concat (map group_bytes rest))).
      match goal with |- context [1 + zlen ?x] => pose proof (zlen_nonneg x) end. lia. }
    destruct (Z.geb_spec (start + zlen (group_bytes g)) endOffset); [lia|].
    rewrite IH; auto; [cbn [map concat]; rewrite zlen_app; f_equal; lia|eapply stored_at; [exact H2|lia]|lia].
Qed.

Section Lookup.
  Variables (f : Font) (l : list (Z * entry)).
  Hypothesis HS : stored (Data f) (OffsetToMapping f) (mapping_bytes l).
  Hypothesis HO : ordered Z.lt (map fst l).
  Hypothesis HK : Forall (fun x => 0 <= fst x < 2147483648) l.
  Hypothesis HC : zlen l < 65536.
  Hypothesis HL : zlen (concat (map (fun x => entry_bytes (snd x)) l)) < 16777216.
  Let L := map (fun x => entry_bytes (snd x)) l.

  Lemma map_parts :
    mapping_NumEntries f = Ok (zlen l) /\
    stored (Data f) (OffsetToMapping f + 2) (concat (map (le_digits 4) (map fst l))) /\
    stored (Data f) (OffsetToMapping f + 2 + 4 * zlen l) (offsets 3 L) /\
    stored (Data f) (OffsetToMapping f + 2 + 4 * zlen l + 3 * zlen l) (concat L).
  Proof.
    unfold mapping_bytes in HS. apply stored_app in HS. destruct HS as [H0 H]. rewrite zlen_le_digits in H.
    change (Z.of_nat 2) with 2 in H. apply stored_app in H. destruct H as [H1 H].
    rewrite (zlen_concat_fixed (fun x => le_digits 4 (fst x)) 4) in H by (intros; apply zlen_le_digits).
    apply stored_indexed in H. destruct H as [H2 H3]. rewrite zlen_map in H3. pose proof (zlen_nonneg l).
    split; [apply from16; [exact H0|lia]|]. split; [rewrite map_map; exact H1|]. auto.
  Qed.

  Lemma search_code cp : -2147483648 <= cp < 2147483648 ->
    exists r, mapping_search f (u32 cp) (zlen l) = Ok r /\
      match r with Some i => exists e, zget l i = Ok (cp, e) | None => forall e, ~ In (cp, e) l end.
  Proof.
    intros Hcp. destruct map_parts as (_ & H1 & _).
    assert (Hk4 : Forall (fun k => 0 <= k < 4294967296) (map fst l)) by (apply Forall_map; eapply Forall_impl; [|exact HK]; cbv beta; lia).
    destruct (search32 (Data f) (OffsetToMapping f + 2) (map fst l) (u32 cp) H1 Hk4 HO) as (r & Er & Hr & Hcase); [rewrite zlen_map; lia|].
    rewrite zlen_map in *. unfold mapping_search. cbv zeta. rewrite Er. cbn [bind].
    assert (Hu : u32 cp < 2147483648 -> u32 cp = cp).
    { unfold u32. intros Hlt. destruct (Z_lt_dec cp 0) as [Hneg|]; [|now apply Z.mod_small; lia].
      assert (cp mod 4294967296 = cp + 4294967296) by (symmetry; apply Z.mod_unique with (-1); lia). lia. }
    destruct Hcase as [Hf|[Hnot Hcase]].
    - pose proof (zget_ok_range _ _ _ Hf) as Rr. rewrite zlen_map in Rr. destruct (Z.geb_spec r (zlen l)); [lia|].
      rewrite <- (bind_assoc (zfrom _ _) DecodeUint32LE). rewrite (key_at _ _ _ H1 Hk4 _ _ Hf). cbn [bind].
      rewrite Z.eqb_refl. cbn [negb]. exists (Some r). split; [reflexivity|].
      destruct (zget_in_range l r Rr) as [[c e] E]. exists e. rewrite zget_map, E in Hf. cbn [bind fst] in Hf.
      assert (Hc : c = u32 cp) by congruence. pose proof (forall_get _ _ _ _ HK E) as Hb. cbn [fst] in Hb. rewrite Hu in Hc by lia. now rewrite <- Hc.
    - assert (Hno : forall e, ~ In (cp, e) l).
      { intros e Hin. apply Hnot. rewrite Forall_forall in HK. specialize (HK _ Hin). cbn [fst] in HK.
        apply in_map_iff. exists (cp, e). split; [|exact Hin]. cbn [fst]. unfold u32. symmetry. apply Z.mod_small. lia. }
      exists None. split; [|exact Hno].
      destruct (Z.geb_spec r (zlen l)); [reflexivity|]. destruct Hcase as [|(k & Rr & Ek & Hd)]; [lia|].
      rewrite <- (bind_assoc (zfrom _ _) DecodeUint32LE). rewrite (key_at _ _ _ H1 Hk4 _ _ Ek). cbn [bind].
      destruct (Z.eqb_spec k (u32 cp)); [contradiction|reflexivity].
  Qed.

  Lemma entry_at i cp e : zget l i = Ok (cp, e) -> exists base start k,
    mapping_entry f (zlen l) i = Ok (base, start + 1, start + zlen (entry_bytes e), k) /\
    stored (Data f) (base + start) (entry_bytes e) /\ hd 0 (entry_bytes e) = k.
  Proof.
    intros E. destruct map_parts as (_ & _ & H2 & H3). pose proof (zget_lt _ _ _ E).
    assert (E' : zget L i = Ok (entry_bytes e)) by (unfold L; rewrite zget_map, E; reflexivity).
    unfold mapping_entry. cbv zeta. rewrite !shiftl_mul by lia. change (2 ^ 2) with 4. change (2 ^ 1) with 2.
    destruct (end24 _ _ _ _ _ H2 E' HL) as [S R].
    rewrite <- (bind_assoc (zfrom _ _) DecodeUint24LE). rewrite (from24 _ _ (start_of L i + zlen (entry_bytes e))); [|eapply stored_at; [exact S|lia]|exact R].
    cbn [bind].
    assert (Hs : (if i >? 0 then do b <- zfrom (Data f) (OffsetToMapping f + 2 + zlen l * 4 + i + i * 2 - 3); DecodeUint24LE b else Ok 0) = Ok (start_of L i)).
    { destruct (Z.gtb_spec i 0).
      - destruct (start24 _ _ _ _ _ H2 E' HL ltac:(lia)) as [S2 R2]. apply from24; [eapply stored_at; [exact S2|lia]|exact R2].
      - replace i with 0 by lia. now rewrite start_0. }
    rewrite Hs. cbn [bind].
    assert (Hne : exists t, entry_bytes e = hd 0 (entry_bytes e) :: t) by (destruct e; cbn [entry_bytes hd]; eauto).
    destruct Hne as [t Ht]. pose proof (zlen_nonneg t).
    destruct (Z.leb_spec (start_of L i + zlen (entry_bytes e)) (start_of L i)); [rewrite Ht, zlen_cons in *; lia|].
    pose proof (stored_blob _ _ _ _ _ H3 E') as SB. pose proof SB as G. rewrite Ht in G. apply stored_cons in G. destruct G as [G _].
    exists (OffsetToMapping f + 2 + zlen l * 4 + zlen l + zlen l * 2), (start_of L i), (hd 0 (entry_bytes e)).
    replace (OffsetToMapping f + 2 + 4 * zlen l + 3 * zlen l + start_of L i) with (OffsetToMapping f + 2 + zlen l * 4 + zlen l + zlen l * 2 + start_of L i) in * by lia.
    rewrite G. cbn [bind]. auto.
  Qed.

  Lemma lookup_missing cp settings : -2147483648 <= cp < 2147483648 -> (forall e, ~ In (cp, e) l) ->
    mapping_Utf8 f cp settings = Ok None.
  Proof.
    intros Hcp Hno. unfold mapping_Utf8. rewrite (proj1 map_parts). cbn [bind].
    destruct (search_code cp Hcp) as ([i|] & -> & Hr); [|reflexivity]. destruct Hr as [e E]. apply zget_in in E. now destruct (Hno e).
  Qed.
  Lemma unique_entry cp e e' i : In (cp, e) l -> zget l i = Ok (cp, e') -> e = e'.
  Proof.
    intros Hin Ei. apply in_zget in Hin. destruct Hin as [j Ej].
    assert (Fi : zget (map fst l) i = Ok cp) by (rewrite zget_map, Ei; reflexivity).
    assert (Fj : zget (map fst l) j = Ok cp) by (rewrite zget_map, Ej; reflexivity).
    destruct (Z_lt_dec i j) as [L1|]; [pose proof (ordered_get _ _ HO i j _ _ L1 Fi Fj); lia|].
    destruct (Z_lt_dec j i) as [L1|]; [pose proof (ordered_get _ _ HO j i _ _ L1 Fj Fi); lia|].
    assert (i = j) by lia. subst. congruence.
  Qed.
  Lemma lookup_entry cp e : In (cp, e) l -> exists base start i k, mapping_search f (u32 cp) (zlen l) = Ok (Some i) /\
    mapping_entry f (zlen l) i = Ok (base, start + 1, start + zlen (entry_bytes e), k) /\
    stored (Data f) (base + start) (entry_bytes e) /\ hd 0 (entry_bytes e) = k.
  Proof.
    intros Hin. assert (Hb : 0 <= cp < 2147483648) by (rewrite Forall_forall in HK; exact (HK _ Hin)).
    destruct (search_code cp ltac:(lia)) as ([i|] & E & Hr); [|now destruct (Hr e)]. destruct Hr as [e' Ei].
    assert (e = e') by exact (unique_entry _ _ _ _ Hin Ei). subst e'.
    destruct (entry_at _ _ _ Ei) as (base & start & k & H). exists base, start, i, k. auto.
  Qed.

  Lemma lookup_glyph cp i settings : In (cp, EGlyph i) l -> exists gg, mapping_Utf8 f cp settings = Ok (Some gg) /\
    gg_directMapping gg = true /\ stored (Data f) (gg_offset gg) (le_digits 2 i) /\ gg_switchType gg = 255 /\ gg_caseBranch gg = 0.
  Proof.
    intros Hin. destruct (lookup_entry _ _ Hin) as (base & start & j & k & E1 & E2 & S & Hk).
    unfold mapping_Utf8. rewrite (proj1 map_parts). cbn [bind]. rewrite E1. cbn [bind]. rewrite E2. cbn [bind].
    cbn [entry_bytes hd] in Hk. subst k. change (255 =? 255) with true. cbv iota. eexists. split; [reflexivity|].
    cbn [gg_directMapping gg_offset gg_switchType gg_caseBranch]. cbn [entry_bytes] in S. apply stored_cons in S.
    split; [reflexivity|]. split; [eapply stored_at; [apply S|lia]|auto].
  Qed.
  Lemma lookup_group cp g settings : In (cp, EGroup g) l -> exists gg, mapping_Utf8 f cp settings = Ok (Some gg) /\
    group_found f gg g /\ gg_switchType gg = 254 /\ gg_caseBranch gg = 0.
  Proof.
    intros Hin. destruct (lookup_entry _ _ Hin) as (base & start & j & k & E1 & E2 & S & Hk).
    unfold mapping_Utf8. rewrite (proj1 map_parts). cbn [bind]. rewrite E1. cbn [bind]. rewrite E2. cbn [bind].
    cbn [entry_bytes hd] in Hk. subst k. change (254 =? 255) with false. change (254 =? 254) with true. cbn [negb bind].
    change (Z.to_nat 0) with O. cbn [skip_groups bind]. eexists. split; [reflexivity|].
    unfold group_found. cbn [gg_directMapping gg_offset gg_switchType gg_caseBranch]. cbn [entry_bytes] in S. apply stored_cons in S.
    split; [split; [reflexivity|]; eapply stored_at; [apply S|lia]|auto].
  Qed.
  Lemma lookup_switch cp k cases settings case g : In (cp, ESwitch k cases) l -> 0 <= k < 254 ->
    mapping_EvaluateSwitch f k settings = Ok case -> zget cases case = Ok g ->
    Forall group_in_range cases -> Forall skippable (firstn (Z.to_nat case) cases) ->
    exists gg, mapping_Utf8 f cp settings = Ok (Some gg) /\ group_found f gg g /\ gg_switchType gg = k /\ gg_caseBranch gg = case.
  Proof.
    intros Hin Hk Hev Hg HR Hsk. destruct (lookup_entry _ _ Hin) as (base & start & j & k' & E1 & E2 & S & Hk').
    unfold mapping_Utf8. rewrite (proj1 map_parts). cbn [bind]. rewrite E1. cbn [bind]. rewrite E2. cbn [bind].
    cbn [entry_bytes hd] in Hk'. subst k'. destruct (Z.eqb_spec k 255); [lia|]. destruct (Z.eqb_spec k 254); [lia|]. cbn [negb].
    rewrite Hev. cbn [bind]. pose proof (zget_ok_range _ _ _ Hg) as Rc.
    cbn [entry_bytes] in S. apply stored_cons in S. destruct S as [_ S].
    assert (Hsplit : cases = firstn (Z.to_nat case) cases ++ g :: skipn (Datatypes.S (Z.to_nat case)) cases).
    { apply zget_some in Hg. destruct Hg as [_ Hg]. rewrite <- (firstn_skipn (Z.to_nat case) cases) at 1. f_equal.
      clear - Hg. revert Hg. generalize (Z.to_nat case). induction cases as [|x r IH]; intros [|n] Hg; try discriminate.
      - cbn in Hg. injection Hg as ->. reflexivity.
      - cbn [nth_error skipn] in *. now apply IH. }
    set (sk := firstn (Z.to_nat case) cases) in *. set (rest := skipn (Datatypes.S (Z.to_nat case)) cases) in *.
    assert (Hn : Z.to_nat case = length sk) by (unfold sk; rewrite firstn_length; unfold zlen in Rc; lia). rewrite Hn.
    rewrite Hsplit in S. cbn [entry_bytes]. rewrite zlen_cons.
    rewrite (skip_groups_spec f base _ (g :: rest) sk (start + 1)); [| |discriminate| |apply Forall_forall; intros x Hx; rewrite Forall_forall in HR; apply HR; rewrite Hsplit; apply in_or_app; now left|exact Hsk].
    - cbn [bind]. eexists. split; [reflexivity|]. unfold group_found. cbn [gg_directMapping gg_offset gg_switchType gg_caseBranch].
      split; [split; [reflexivity|]|auto]. rewrite map_app, concat_app in S. apply stored_app in S. destruct S as [_ S].
      cbn [map concat] in S. apply stored_app in S. destruct S as [S _]. eapply stored_at; [exact S|lia].
    - eapply stored_at; [exact S|lia].
    - rewrite <- Hsplit. lia.
  Qed.
End Lookup.

Lemma direct_size f gg : gg_directMapping gg = true -> group_Size f gg = Ok 1 /\ group_AnimationFlags f gg = Ok 0.
Proof. intros H. unfold group_Size, group_AnimationFlags. now rewrite H. Qed.
Lemma direct_select f gg i choice : gg_directMapping gg = true -> stored (Data f) (gg_offset gg) (le_digits 2 i) -> 0 <= i < 65536 ->
  group_Select f gg choice = if choice =? 0 then Ok i else Panic.
Proof.
  intros H S Hi. unfold group_Select. rewrite H. destruct (choice =? 0); cbn [negb]; [|reflexivity]. now apply from16.
Qed.
