(** Walking over the cases of a switch. *)
From Verif Require Import Base BaseFacts Spec_Helpers Model_Helpers Model_Font Model_Rewrites Spec_Format Spec_Layout Spec_LayoutFont
  Proofs_Edition2   Proofs_Layout Proofs_Format Proofs_Font4 Proofs_Rewrites Spec_Outputs Proofs_Outputs Spec_Walk.

Lemma pace_code info : byte info ->
  let size := Z.land info 127 + 1 in
  (if size >? 1 then (if negb (Z.land size 128 =? 0) then 3 else 1 + Z.shiftl size 1) + 1 else (if negb (Z.land size 128 =? 0) then 3 else 1 + Z.shiftl size 1)) = pace info.
Proof.
  intros B. assert (C : forallb (fun info => let size := Z.land info 127 + 1 in
    (if size >? 1 then (if negb (Z.land size 128 =? 0) then 3 else 1 + Z.shiftl size 1) + 1 else (if negb (Z.land size 128 =? 0) then 3 else 1 + Z.shiftl size 1)) =? pace info) (zseq 256) = true)
    by (vm_compute; reflexivity).
  rewrite forallb_forall in C. apply Z.eqb_eq. apply C. apply in_zseq. unfold byte in B. lia.
Qed.
Lemma pace_pos info : 3 <= pace info.
Proof.
  unfold pace. pose proof (Z.mod_pos_bound info 128 ltac:(lia)). destruct (Z.eqb_spec (info mod 128 + 1) 128); [lia|].
  destruct (Z.eqb_spec (info mod 128 + 1) 1); lia.
Qed.
Lemma skip_walk f base endOffset : forall n l start, bytes l -> l <> [] -> stored (Data f) (base + start) l -> endOffset = start + zlen l ->
  match walk n l with
  | Some r => r <> [] /\ skip_groups n f base start endOffset = Ok (endOffset - zlen r) /\ stored (Data f) (base + (endOffset - zlen r)) r
  | None => skip_groups n f base start endOffset = Panic
  end.
Proof.
  induction n as [|n IH]; intros l start B NE S0 E; cbn [walk skip_groups].
  { split; [exact NE|]. replace (endOffset - zlen l) with start by lia. split; [reflexivity|exact S0]. }
  destruct l as [|i l']; [destruct (NE eq_refl)|]. pose proof (Forall_inv B) as BI.
  assert (G : zget (Data f) (base + start) = Ok i) by (apply stored_cons in S0; exact (proj1 S0)).
  rewrite G. cbn [bind]. cbv zeta. pose proof (pace_code i BI) as PC. cbv zeta in PC. pose proof (pace_pos i) as PP.
  assert (X : (if Z.land i 127 + 1 >? 1 then (if negb (Z.land (Z.land i 127 + 1) 128 =? 0) then start + 3 else start + 1 + Z.shiftl (Z.land i 127 + 1) 1) + 1
      else (if negb (Z.land (Z.land i 127 + 1) 128 =? 0) then start + 3 else start + 1 + Z.shiftl (Z.land i 127 + 1) 1)) = start + pace i).
  { rewrite <- PC. destruct (Z.land i 127 + 1 >? 1); destruct (negb (Z.land (Z.land i 127 + 1) 128 =? 0)); lia. }
  rewrite X. destruct (Z.ltb_spec (pace i) (zlen (i :: l'))) as [L|L].
  - destruct (start + pace i >=? endOffset) eqn:C; [lia|]. apply IH.
    + unfold bytes in *. rewrite <- (firstn_skipn (Z.to_nat (pace i)) (i :: l')) in B. apply Forall_app in B. exact (proj2 B).
    + intros Z0. apply (f_equal zlen) in Z0. rewrite zlen_skipn, zlen_nil in Z0. lia.
    + eapply stored_at; [apply (stored_skip _ _ _ (pace i) S0); lia|lia].
    + rewrite zlen_skipn. lia.
  - destruct (start + pace i >=? endOffset) eqn:C; [reflexivity|lia].
Qed.

Section Walk.
  Variables (f : Font) (l : list (Z * entry)).
  Hypothesis HS : stored (Data f) (OffsetToMapping f) (mapping_bytes l).
  Hypothesis HO : ordered Z.lt (map fst l).
  Hypothesis HK : Forall (fun x => 0 <= fst x < 2147483648) l.
  Hypothesis HC : zlen l < 65536.
  Hypothesis HL : zlen (concat (map (fun x => entry_bytes (snd x)) l)) < 16777216.
  Lemma lookup_walk cp k cases settings case : In (cp, ESwitch k cases) l -> 0 <= k < 254 -> cases <> [] ->
    bytes (concat (map group_bytes cases)) -> mapping_EvaluateSwitch f k settings = Ok case ->
    match walk (Z.to_nat case) (concat (map group_bytes cases)) with
    | Some r => exists gg, mapping_Utf8 f cp settings = Ok (Some gg) /\ gg_directMapping gg = false /\ gg_switchType gg = k /\ gg_caseBranch gg = case /\
        r <> [] /\ stored (Data f) (gg_offset gg) r
    | None => mapping_Utf8 f cp settings = Panic
    end.
  Proof.
    intros Hin Hk Hne HB Hev. destruct (lookup_entry f l HS HO HK HC HL _ _ Hin) as (base & start & j & k' & E1 & E2 & S0 & Hk').
    unfold mapping_Utf8. rewrite (proj1 (map_parts f l HS HC)). cbn [bind]. rewrite E1. cbn [bind]. rewrite E2. cbn [bind].
    cbn [entry_bytes hd] in Hk'. subst k'. destruct (Z.eqb_spec k 255); [lia|]. destruct (Z.eqb_spec k 254); [lia|]. cbn [negb].
    rewrite Hev. cbn [bind]. cbn [entry_bytes] in S0 |- *. apply stored_cons in S0. destruct S0 as [_ S0]. rewrite zlen_cons.
    assert (NE : concat (map group_bytes cases) <> []).
    { destruct cases as [|g r]; [destruct (Hne eq_refl)|]. cbn [map concat]. rewrite group_shape. discriminate. }
    pose proof (skip_walk f base (start + (1 + zlen (concat (map group_bytes cases)))) (Z.to_nat case) (concat (map group_bytes cases)) (start + 1)) as W.
    specialize (W HB NE). specialize (W ltac:(eapply stored_at; [exact S0|lia]) ltac:(lia)).
    destruct (walk (Z.to_nat case) (concat (map group_bytes cases))) as [r|].
    - destruct W as (W0 & W1 & W2). rewrite W1. cbn [bind]. eexists. split; [reflexivity|]. cbn [gg_offset gg_switchType gg_caseBranch gg_directMapping].
      repeat (split; [reflexivity|]). split; [exact W0|exact W2].
    - rewrite W. reflexivity.
  Qed.
End Walk.
