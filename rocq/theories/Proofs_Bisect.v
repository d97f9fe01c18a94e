(** Proofs for C25: exactly which names are found. *)
From Verif Require Import Base BaseFacts Spec_Helpers Model_Helpers Model_Font Spec_Format Proofs_Format Proofs_Font Proofs_Font2 Proofs_Font3 Spec_Bisect.

Lemma bisect less p k : forall fuel lo hi, lo <= k <= hi -> hi - lo < 2 ^ Z.of_nat fuel ->
  (forall i, lo <= i < hi -> less i = Ok (p i)) ->
  exists r, lower_bound_loop fuel less lo hi = Ok r /\ lo <= r <= hi /\
    (r = k <-> forall m, probed k lo hi m -> (p m = true <-> m < k)).
Proof.
  induction fuel as [|fuel IH]; intros lo hi Hk Hf Hl; cbn [lower_bound_loop].
  - change (2 ^ Z.of_nat 0) with 1 in Hf. destruct (Z.ltb_spec lo hi); [lia|]. exists lo. split; [reflexivity|]. split; [lia|].
    split; [|lia]. intros _ m HP. inversion HP; lia.
  - destruct (Z.ltb_spec lo hi).
    + cbv zeta. rewrite Z.shiftr_div_pow2 by lia. change (2 ^ 1) with 2. remember ((lo + hi) / 2) as mid eqn:HM.
      assert (Hm : lo <= mid < hi) by lia. rewrite (Hl mid Hm). cbn [bind].
      assert (HF : hi - lo < 2 * 2 ^ Z.of_nat fuel) by (rewrite <- Z.pow_succ_r by lia; rewrite <- Nat2Z.inj_succ; exact Hf).
      destruct (p mid) eqn:Ep.
      * destruct (Z_lt_dec mid k) as [Hlt|Hge].
        -- destruct (IH (mid + 1) hi ltac:(lia) ltac:(lia) ltac:(intros; apply Hl; lia)) as (r & -> & Hr & Hiff).
           exists r. split; [reflexivity|]. split; [lia|]. rewrite Hiff. split; intros H1 m Hp.
           ++ inversion Hp as [? ? Q1|? ? ? Q1 Q2 Q3|? ? ? Q1 Q2 Q3]; rewrite <- HM in *; [tauto|lia|auto].
           ++ apply H1. apply Pr_upper; rewrite <- ?HM; auto.
        -- destruct (lower_bound_loop_total fuel less (mid + 1) hi ltac:(lia) ltac:(lia)) as (r & -> & Hr); [intros i Hi; eexists; apply Hl; lia|].
           exists r. split; [reflexivity|]. split; [lia|]. split; [lia|]. intros H1. exfalso. pose proof (Pr_middle k lo hi ltac:(lia)) as Q; rewrite <- HM in Q; specialize (H1 mid Q). apply Hge, H1, Ep.
      * destruct (Z_lt_dec mid k) as [Hlt|Hge].
        -- destruct (lower_bound_loop_total fuel less lo mid ltac:(lia) ltac:(lia)) as (r & -> & Hr); [intros i Hi; eexists; apply Hl; lia|].
           exists r. split; [reflexivity|]. split; [lia|]. split; [lia|]. intros H1. exfalso. pose proof (Pr_middle k lo hi ltac:(lia)) as Q; rewrite <- HM in Q; specialize (H1 mid Q).
           rewrite Ep in H1. assert (false = true) by tauto. discriminate.
        -- destruct (IH lo mid ltac:(lia) ltac:(lia) ltac:(intros; apply Hl; lia)) as (r & -> & Hr & Hiff).
           exists r. split; [reflexivity|]. split; [lia|]. rewrite Hiff. split; intros H1 m Hp.
           ++ inversion Hp as [? ? Q1|? ? ? Q1 Q2 Q3|? ? ? Q1 Q2 Q3]; rewrite <- HM in *; [rewrite Ep; split; [discriminate|lia]|auto|lia].
           ++ apply H1. apply Pr_lower; rewrite <- ?HM; auto; lia.
    + exists lo. split; [reflexivity|]. split; [lia|]. split; [|lia]. intros _ m HP. inversion HP; lia.
Qed.

Lemma find_exact f l q k i : stored (Data f) (OffsetToGlyphNames f) (glyph_names_bytes l) ->
  zlen (concat (map fst l)) < 16777216 -> zlen l < 65536 -> Forall (fun x => 0 <= snd x < 65536) l -> NoDup (map fst l) ->
  zget l k = Ok (q, i) ->
  ((forall m n, probed k 0 (zlen l - 1) m -> zget (map fst l) m = Ok n -> (passes n q <-> m < k)) -> glyphs_FindIndexByName f q = Ok i) /\
  ((exists m n, probed k 0 (zlen l - 1) m /\ zget (map fst l) m = Ok n /\ ~ (passes n q <-> m < k)) -> glyphs_FindIndexByName f q = Ok GlyphMissing).
Proof.
  intros HS HL Hn HI HD Ek. pose proof (zget_lt _ _ _ Ek) as Hk. unfold glyphs_FindIndexByName. rewrite (named_count f l HS Hn). cbn [bind].
  destruct (Z.eqb_spec (zlen l) 0) as [E|_]; [lia|].
  set (p := fun j => match zget (map fst l) j with Ok n => bytesSmallerThanStr n q | _ => false end).
  assert (HP : forall j n, zget (map fst l) j = Ok n -> (p j = true <-> passes n q)).
  { intros j n E. unfold p. rewrite E. apply smaller_spec. }
  destruct (bisect (fun mid => do value <- getNthGlyphName f mid (zlen l); Ok (bytesSmallerThanStr value q)) p k 64 0 (zlen l - 1))
    as (r & Er & Hr & Hiff); [lia|eapply Z.lt_trans with 65536; [lia|reflexivity]| |].
  { intros j Hj. destruct (name_less f l HS HL j ltac:(lia)) as (n & En & H1). rewrite H1. unfold p. now rewrite En. }
  rewrite Er. cbn [bind]. destruct (Z.geb_spec r (zlen l)); [lia|].
  destruct (zget_in_range l r ltac:(lia)) as [x Ex].
  rewrite (nth_name f l HS HL r (fst x)) by (rewrite zget_map, Ex; reflexivity). cbn [bind].
  assert (HPr : forall m, probed k 0 (zlen l - 1) m -> exists n, zget (map fst l) m = Ok n).
  { intros m Hm. assert (G : forall lo hi m, probed k lo hi m -> lo <= m < hi) by (clear; intros lo hi m Hm; induction Hm; lia).
    specialize (G _ _ _ Hm). apply zget_in_range. rewrite zlen_map. lia. }
  split.
  - intros HA. assert (r = k). { apply Hiff. intros m Hm. destruct (HPr m Hm) as [n E]. rewrite (HP m n E). now apply HA. }
    subst r. rewrite Ek in Ex. injection Ex as <-. cbn [fst]. rewrite (proj2 (eq_str q q) eq_refl). cbn [negb]. exact (name_index f l HS HI k (q, i) Ek).
  - intros (m & n & Hm & En & Hno). assert (r <> k).
    { intros ->. apply Hno. rewrite <- (HP m n En). apply (proj1 Hiff eq_refl m Hm). }
    destruct (bytesEqStr (fst x) q) eqn:Eq; [|reflexivity]. exfalso. apply eq_str in Eq.
    assert (E1 : zget (map fst l) r = Ok q) by (rewrite zget_map, Ex; cbn; now rewrite Eq).
    assert (E2 : zget (map fst l) k = Ok q) by (rewrite zget_map, Ek; reflexivity).
    assert (G : forall (L : list (list Z)) a, zget L a = Ok q -> 0 <= a /\ nth_error L (Z.to_nat a) = Some q).
    { intros L a. unfold zget. destruct (Z.ltb_spec a 0); [discriminate|]. destruct (nth_error L (Z.to_nat a)); [|discriminate]. intros Y. injection Y as ->. auto. }
    apply G in E1. apply G in E2. destruct E1 as [R1 E1], E2 as [R2 E2].
    rewrite NoDup_nth_error in HD. assert (Z.to_nat r = Z.to_nat k); [|lia]. apply HD; [apply nth_error_Some; congruence|congruence].
Qed.
(** names of one length: only the first is found *)
Lemma only_first f l : stored (Data f) (OffsetToGlyphNames f) (glyph_names_bytes l) ->
  zlen (concat (map fst l)) < 16777216 -> zlen l < 65536 -> Forall (fun x => 0 <= snd x < 65536) l -> NoDup (map fst l) ->
  forall len, Forall (fun x => zlen (fst x) = len) l -> forall k q i, zget l k = Ok (q, i) ->
  glyphs_FindIndexByName f q = Ok (if k =? 0 then i else GlyphMissing).
Proof.
  intros HS HL Hn HI HD len HF k q i Ek. pose proof (zget_lt _ _ _ Ek) as Hk.
  destruct (find_exact f l q k i HS HL Hn HI HD Ek) as [H1 H2].
  assert (HN : forall m n, zget (map fst l) m = Ok n -> ~ passes n q).
  { intros m n E [Hd _]. apply Hd. apply zget_in in E. apply in_map_iff in E. destruct E as (x & <- & Hx).
    apply zget_in in Ek. rewrite Forall_forall in HF. pose proof (HF x Hx) as A. pose proof (HF _ Ek) as B. cbn [fst] in B. unfold zlen in *. lia. }
  destruct (Z.eqb_spec k 0) as [-> |Hz].
  - apply H1. intros m n Hm E. split; [intros X; exfalso; eapply HN; eassumption|].
    assert (G : forall lo hi m, probed 0 lo hi m -> lo <= m < hi) by (clear; intros lo hi m Hm; induction Hm; lia). apply G in Hm. lia.
  - apply H2. assert (G : forall w lo hi, hi - lo <= Z.of_nat w -> lo < k <= hi -> exists m, probed k lo hi m /\ lo <= m < k).
    { clear. induction w as [|w IH]; intros lo hi Hw Hk; [lia|]. destruct (Z_lt_dec ((lo + hi) / 2) k) as [L|L].
      - exists ((lo + hi) / 2). split; [constructor; lia|lia].
      - destruct (IH lo ((lo + hi) / 2)) as (m & Hm & Hr); [lia|lia|]. exists m. split; [apply Pr_lower; auto; lia|exact Hr]. }
    destruct (G (Z.to_nat (zlen l)) 0 (zlen l - 1)) as (m & Hm & Hr); [lia|lia|].
    destruct (zget_in_range (map fst l) m) as [n E]; [rewrite zlen_map; lia|]. exists m, n. split; [exact Hm|]. split; [exact E|].
    intros X. apply (HN m n E). apply X. lia.
Qed.
