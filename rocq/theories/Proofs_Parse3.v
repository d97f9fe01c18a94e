(** Parse on arbitrary readers, including failing ones: no panic inside the sections, sections in order. *)
From Verif Require Import Base BaseFacts Model_Helpers Spec_Helpers Proofs_Helpers Model_Font Model_Parse Spec_Parse Proofs_Parse.
From Coq Require Import Lia.

Definition inv (s : pst) : Prop :=
  0 <= Index s <= zlen (Bytes s) /\ bytes (Bytes s) /\ stream_bytes (input s).
Definition ext (s s' : pst) : Prop :=
  (exists t u, Bytes s' = Bytes s ++ t /\ input s = u ++ input s') /\ Index s <= Index s' /\ inv s'.

Lemma ext_refl s : inv s -> ext s s.
Proof. intros H. split; [exists [], []; now rewrite app_nil_r|]. split; [lia|assumption]. Qed.
Lemma ext_trans a b c : ext a b -> ext b c -> ext a c.
Proof.
  intros [(t & t' & E1 & F1) [H1 I1]] [(u & u' & E2 & F2) [H2 I2]]. split; [|split; [lia|assumption]].
  exists (t ++ u), (t' ++ u'). now rewrite E2, E1, F1, F2, !app_assoc.
Qed.

(** [wp m Q s]: started in [s], [m] neither panics nor hangs; when it succeeds [Q] holds *)
Definition wp {A} (m : action A) (Q : A -> pst -> Prop) (s : pst) : Prop :=
  match m s with POk a s' => Q a s' | PErr _ s' => ext s s' | _ => False end.

Lemma wp_bind {A B} (m : action A) (k : A -> action B) Q s :
  wp m (fun a s' => ext s s' /\ wp (k a) Q s') s -> wp (pbind m k) Q s.
Proof.
  unfold wp, pbind. destruct (m s) as [a s'|e s'| |]; auto. intros [H1 H2].
  destruct (k a s') as [b s2|e s2| |]; auto. eapply ext_trans; eauto.
Qed.
Lemma wp_mono {A} (m : action A) (Q Q' : A -> pst -> Prop) s : wp m Q s -> (forall a s', Q a s' -> Q' a s') -> wp m Q' s.
Proof. unfold wp. destruct (m s); auto. Qed.
Lemma wp_ret {A} (a : A) (Q : A -> pst -> Prop) s : Q a s -> wp (pret a) Q s.
Proof. auto. Qed.
Lemma wp_when b e (Q : unit -> pst -> Prop) s : inv s -> (b = false -> Q tt s) -> wp (when b e) Q s.
Proof. intros Hi H. destruct b; cbn; auto. now apply ext_refl. Qed.
Lemma wp_index (Q : Z -> pst -> Prop) s : Q (Index s) s -> wp get_index Q s.
Proof. auto. Qed.

Lemma stream_bytes_next i : stream_bytes i -> bytes (fst (fst (next_read i))) /\ stream_bytes (snd (next_read i)).
Proof.
  intros H. destruct i as [|r i]; cbn; [split; [apply bytes_nil|assumption]|].
  inversion H; auto.
Qed.

Lemma readMore_inv n : forall s, inv s ->
  match readMore_loop n s with
  | POk _ s' => ext s s' /\ Index s' = Index s /\ (eof s' = true \/ (length (input s') < length (input s))%nat)
  | PErr _ s' => ext s s' /\ Index s' = Index s
  | _ => False
  end.
Proof.
  induction n; intros s Hs; cbn [readMore_loop].
  - split; [now apply ext_refl|reflexivity].
  - destruct Hs as (H1 & H2 & H3). pose proof (stream_bytes_next _ H3) as [H4 H5].
    destruct (next_read (input s)) as [[chunk err] r] eqn:En. cbn [fst snd] in *.
    assert (Hin : exists u, input s = u ++ r).
    { destruct (input s) as [|x inp]; cbn in En; [injection En as _ _ <-; now exists []|injection En as -> <-; now exists [(chunk, err)]]. }
    destruct Hin as [w Hin].
    assert (Hnext : forall e, ext s (mkP (Bytes s ++ chunk) (Index s) e r)).
    { intros e. split; [now exists chunk, w|]. cbn. split; [lia|]. unfold inv; cbn. rewrite zlen_app.
      pose proof (zlen_nonneg chunk). split; [lia|]. split; [apply bytes_app; auto|assumption]. }
    destruct ((0 <? zlen chunk) && (MaxFontDataSize <? zlen (Bytes s) + zlen chunk)).
    + split; [|reflexivity]. split; [now exists (repeat 0 (length chunk)), w|]. cbn. split; [lia|]. unfold inv; cbn.
      rewrite zlen_app, zlen_repeat. split; [lia|]. split; [|assumption]. apply bytes_app. split; [assumption|].
      apply Forall_forall. intros x Hx. apply repeat_spec in Hx. subst. unfold byte; lia.
    + destruct err.
      * assert (Hl : (length r < length (input s))%nat).
        { destruct (input s) as [|x inp]; cbn in En; [discriminate En|]. injection En as _ <-. cbn; lia. }
        destruct (0 <? zlen chunk).
        -- split; [apply Hnext|]. split; [reflexivity|]. right. exact Hl.
        -- specialize (IHn (mkP (Bytes s ++ chunk) (Index s) (eof s) r)).
           destruct (readMore_loop n _) as [u s'|e s'| |]; [| |destruct (IHn (proj2 (proj2 (Hnext (eof s)))))|destruct (IHn (proj2 (proj2 (Hnext (eof s)))))].
           ++ destruct (IHn (proj2 (proj2 (Hnext (eof s))))) as (I1 & I2 & I3).
              split; [eapply ext_trans; [apply Hnext|exact I1]|]. split; [exact I2|].
              destruct I3; [now left|right; cbn in *; lia].
           ++ destruct (IHn (proj2 (proj2 (Hnext (eof s))))) as (I1 & I2).
              split; [eapply ext_trans; [apply Hnext|exact I1]|exact I2].
      * split; [apply Hnext|]. split; [reflexivity|]. now left.
      * split; [apply Hnext|reflexivity].
Qed.

Lemma readUpTo_loop_inv n : forall fuel s, inv s -> Index s < n ->
  (eof s = true \/ (length (input s) < fuel)%nat) ->
  match readUpTo_loop (S fuel) n s with
  | POk _ s' => ext s s' /\ Index s' = n
  | PErr _ s' => ext s s' /\ Index s' = Index s
  | _ => False
  end.
Proof.
  assert (Hdone : forall s, inv s -> Index s < n -> n <= zlen (Bytes s) -> ext s (mkP (Bytes s) n (eof s) (input s))).
  { intros s (H1 & H2 & H3) Hn Hl. split; [exists [], []; now rewrite app_nil_r|]. cbn. split; [lia|].
    unfold inv; cbn. auto with zarith. }
  induction fuel; intros s Hs Hn Hf; cbn [readUpTo_loop]; destruct (Z.ltb_spec (zlen (Bytes s)) n);
    try (split; [now apply Hdone|reflexivity]).
  - destruct Hf as [->|]; [|lia]. split; [now apply ext_refl|reflexivity].
  - destruct (eof s) eqn:He; [split; [now apply ext_refl|reflexivity]|].
    unfold pbind, readMore. pose proof (readMore_inv 3 s Hs) as Hm.
    destruct (readMore_loop 3 s) as [u s1|e s1| |]; auto. destruct Hm as (E1 & E2 & E3).
    change (match readUpTo_loop (S fuel) n s1 with | POk _ s' => ext s s' /\ Index s' = n | PErr _ s' => ext s s' /\ Index s' = Index s | _ => False end).
    pose proof (IHfuel s1 (proj2 (proj2 E1))) as IH. destruct (readUpTo_loop (S fuel) n s1).
    + destruct IH; [lia|destruct E3; [now left|right; destruct Hf; [congruence|lia]]|].
      split; [eapply ext_trans; eauto|assumption].
    + destruct IH; [lia|destruct E3; [now left|right; destruct Hf; [congruence|lia]]|].
      split; [eapply ext_trans; eauto|congruence].
    + apply IH; [lia|destruct E3; [now left|right; destruct Hf; [congruence|lia]]].
    + apply IH; [lia|destruct E3; [now left|right; destruct Hf; [congruence|lia]]].
Qed.

Lemma readUpTo_inv n s : inv s -> Index s < n ->
  match readUpTo n s with
  | POk _ s' => ext s s' /\ Index s' = n
  | PErr _ s' => ext s s' /\ Index s' = Index s
  | _ => False
  end.
Proof.
  intros Hs Hn. unfold readUpTo. destruct (Z.leb_spec n (Index s)); [lia|].
  apply (readUpTo_loop_inv n (S (length (input s)))); auto.
Qed.

Lemma wp_advance n (Q : unit -> pst -> Prop) s : inv s -> 0 <= n ->
  (forall s', ext s s' -> Index s' = Index s + n -> Q tt s') -> wp (AdvanceBytes n) Q s.
Proof.
  intros Hs Hn H. unfold AdvanceBytes. destruct (Z.eqb_spec n 0).
  - apply wp_ret, H; [now apply ext_refl|lia].
  - destruct (Z.ltb_spec n 0); [lia|]. unfold wp. pose proof (readUpTo_inv (Index s + n) s Hs) as R.
    destruct (readUpTo (Index s + n) s) as [[] s'|e s'| |]; try (apply R; lia).
    destruct R; [lia|]. auto.
Qed.

Lemma wp_on_bytes {A} (f : list Z -> outcome A) (Q : A -> pst -> Prop) s : inv s ->
  (forall a, f (Bytes s) = Ok a -> Q a s) -> f (Bytes s) <> Panic -> f (Bytes s) <> Hang -> wp (on_bytes f) Q s.
Proof.
  intros Hs H1 H2 H3. unfold wp, on_bytes. destruct (f (Bytes s)); auto. now apply ext_refl.
Qed.

Lemma read_with_inv {A} n (decode : list Z -> outcome A) s : inv s -> 0 < n ->
  (forall b, bytes b -> n <= zlen b -> exists v, decode b = Ok v) ->
  match read_with n decode s with
  | POk v s' => ext s s' /\ Index s' = Index s + n /\ decode (skipn (Z.to_nat (Index s)) (Bytes s')) = Ok v
  | PErr _ s' => ext s s' /\ Index s' = Index s
  | _ => False
  end.
Proof.
  intros Hs Hn Hd. unfold read_with, pbind, get_index.
  pose proof (readUpTo_inv (Index s + n) s Hs) as R.
  destruct (readUpTo (Index s + n) s) as [[] s'|e s'| |]; try (apply R; lia).
  destruct R as [R1 R2]; [lia|]. pose proof R1 as (_ & _ & (J1 & J2 & J3)). destruct Hs as (I1 & I2 & I3).
  unfold on_bytes. rewrite zfrom_ok by lia. cbn [bind].
  destruct (Hd (skipn (Z.to_nat (Index s)) (Bytes s'))) as [v Ev].
  - now apply bytes_skipn.
  - rewrite zlen_skipn. lia.
  - rewrite Ev. auto.
Qed.

Lemma wp_u8 (Q : Z -> pst -> Prop) s : inv s ->
  (forall v s', ext s s' -> Index s' = Index s + 1 -> zget (Bytes s') (Index s) = Ok v -> byte v -> Q v s') -> wp ReadUint8 Q s.
Proof.
  intros Hs H. unfold wp. pose proof (read_with_inv 1 (fun t => zget t 0) s Hs) as R. fold ReadUint8 in R.
  assert (Hd : forall b, bytes b -> 1 <= zlen b -> exists v, zget b 0 = Ok v) by (intros; apply zget_in_range; lia).
  destruct (ReadUint8 s) as [v s'|e s'| |]; try (apply R; [lia|assumption]).
  destruct R as (R1 & R2 & R3); [lia|assumption|].
  assert (E : zget (Bytes s') (Index s) = Ok v).
  { apply zget_some. apply zget_some in R3 as [_ R3]. rewrite nth_error_skipn in R3. destruct Hs. split; [lia|].
    now replace (Z.to_nat (Index s) + Z.to_nat 0)%nat with (Z.to_nat (Index s)) in R3 by lia. }
  apply H; auto. destruct R1 as (_ & _ & _ & J & _). now apply (bytes_get _ _ _ J E).
Qed.
Lemma wp_u16 (Q : Z -> pst -> Prop) s : inv s ->
  (forall v s', ext s s' -> Index s' = Index s + 2 -> 0 <= v < 65536 -> v = le_at 2 (Bytes s') (Index s) -> Q v s') -> wp ReadUint16 Q s.
Proof.
  intros Hs H. unfold wp. pose proof (read_with_inv 2 DecodeUint16LE s Hs) as R. fold ReadUint16 in R.
  assert (Hd : forall b, bytes b -> 2 <= zlen b -> exists v, DecodeUint16LE b = Ok v).
  { intros b Hb Hl. rewrite decode16_spec by assumption. destruct (Z.ltb_spec (zlen b) 2); [lia|eauto]. }
  destruct (ReadUint16 s) as [v s'|e s'| |]; try (apply R; [lia|assumption]).
  destruct R as (R1 & R2 & R3); [lia|assumption|]. pose proof R1 as (_ & _ & J0 & J & _).
  rewrite decode16_spec in R3 by now apply bytes_skipn.
  destruct (zlen (skipn (Z.to_nat (Index s)) (Bytes s')) <? 2); [discriminate|]. injection R3 as E.
  apply H; auto. rewrite <- E. exact (le_at_range 2 (Bytes s') (Index s) J).
Qed.
Lemma u24_any s : inv s ->
  match ReadUint24 s with
  | POk v s' => ext s s' /\ Index s' = Index s + 3 /\ 0 <= v < 16777216 /\ v = le_at 3 (Bytes s') (Index s)
  | PErr _ s' => ext s s' /\ Index s' = Index s
  | _ => False
  end.
Proof.
  intros Hs. pose proof (read_with_inv 3 DecodeUint24LE s Hs) as R. fold ReadUint24 in R.
  assert (Hd : forall b, bytes b -> 3 <= zlen b -> exists v, DecodeUint24LE b = Ok v).
  { intros b Hb Hl. rewrite decode24_spec by assumption. destruct (Z.ltb_spec (zlen b) 3); [lia|eauto]. }
  destruct (ReadUint24 s) as [v s'|e s'| |]; try (apply R; [lia|assumption]).
  destruct R as (R1 & R2 & R3); [lia|assumption|]. pose proof R1 as (_ & _ & J0 & J & _).
  rewrite decode24_spec in R3 by now apply bytes_skipn.
  destruct (zlen (skipn (Z.to_nat (Index s)) (Bytes s')) <? 3); [discriminate|]. injection R3 as E.
  split; [assumption|]. split; [assumption|]. rewrite <- E.
  split; [exact (le_at_range 3 (Bytes s') (Index s) J)|reflexivity].
Qed.
Lemma wp_u24 (Q : Z -> pst -> Prop) s : inv s ->
  (forall v s', ext s s' -> Index s' = Index s + 3 -> 0 <= v < 16777216 -> Q v s') -> wp ReadUint24 Q s.
Proof. intros Hs H. unfold wp. pose proof (u24_any s Hs). destruct (ReadUint24 s); try tauto. apply H; tauto. Qed.
Lemma wp_ign24 (Q : Z -> pst -> Prop) s : inv s ->
  (forall v s', ext s s' -> (Index s' = Index s + 3 \/ v = 0 /\ Index s' = Index s) -> 0 <= v < 16777216 -> Q v s') ->
  wp (ignore_err ReadUint24) Q s.
Proof.
  intros Hs H. unfold wp, ignore_err. pose proof (u24_any s Hs). destruct (ReadUint24 s); try tauto.
  - apply H; tauto.
  - apply H; try tauto. lia.
Qed.
Lemma wp_read_str n (Q : list Z -> pst -> Prop) s : inv s -> 0 <= n ->
  (forall v s', ext s s' -> Index s' = Index s + n -> Q v s') -> wp (read_str n) Q s.
Proof.
  intros Hs Hn H. unfold read_str. destruct (Z.eqb_spec n 0).
  - apply wp_ret, H; [now apply ext_refl|lia].
  - apply wp_bind, wp_index. split; [now apply ext_refl|]. apply wp_bind.
    unfold wp at 1. pose proof (readUpTo_inv (Index s + n) s Hs) as R.
    destruct (readUpTo (Index s + n) s) as [[] s'|e s'| |]; try (apply R; lia).
    destruct R as [R1 R2]; [lia|]. split; [assumption|]. pose proof R1 as (_ & _ & (J1 & J2 & J3)).
    pose proof Hs as (I1 & _). destruct (zget_in_range (Bytes s') (Index s)) as [x Ex]; [lia|].
    apply wp_on_bytes; [now destruct R1 as (_ & _ & ?)|auto| |].
    + unfold unsafe_string. rewrite Ex. cbn [bind]. rewrite zslice_ok by lia. discriminate.
    + unfold unsafe_string. rewrite Ex. cbn [bind]. rewrite zslice_ok by lia. discriminate.
Qed.
Lemma wp_short_str (Q : list Z -> pst -> Prop) s : inv s ->
  (forall v s' n, ext s s' -> zget (Bytes s') (Index s) = Ok n -> 0 <= n -> Index s' = Index s + 1 + n -> Q v s') -> wp ReadShortStr Q s.
Proof.
  intros Hs H. apply wp_bind, wp_u8; [assumption|]. intros n s1 E1 I1 G1 B1. split; [assumption|].
  unfold byte in B1. apply wp_read_str; [apply E1|lia|]. intros v s2 E2 I2.
  apply (H v s2 n); [eapply ext_trans; eauto| |lia|lia].
  destruct E2 as ((t & u & -> & _) & _). rewrite zget_app_l; [assumption|]. apply zget_ok_range in G1. lia.
Qed.
Lemma wp_string (Q : list Z -> pst -> Prop) s : inv s ->
  (forall v s', ext s s' -> Index s + 2 <= Index s' -> Q v s') -> wp ReadString Q s.
Proof.
  intros Hs H. apply wp_bind, wp_u16; [assumption|]. intros n s1 E1 I1 B1 V1. split; [assumption|].
  apply wp_read_str; [apply E1|lia|]. intros v s2 E2 I2. apply H; [eapply ext_trans; eauto|lia].
Qed.
