(** Proofs about the parsing buffer: behaviour on fully loaded buffers and on arbitrary readers. *)
From Verif Require Import Base BaseFacts Model_Helpers Spec_Helpers Proofs_Helpers Model_Font Model_Parse Spec_Parse.
From Coq Require Import Lia.

(** ** Fully loaded buffer *)
Definition full (P : list Z) (i : Z) : pst := mkP P i true [].
Definition premature : string := "premature end of file (or font offsets are wrong)"%string.

Lemma readUpTo_full P i n : i < n -> readUpTo n (full P i) =
  if n <=? zlen P then POk tt (full P n) else PErr premature (full P i).
Proof.
  intros H. unfold readUpTo, full. cbn [Index input length].
  destruct (Z.leb_spec n i); [lia|]. cbn [readUpTo_loop Bytes eof input].
  destruct (Z.ltb_spec (zlen P) n), (Z.leb_spec n (zlen P)); try lia; reflexivity.
Qed.

Lemma advance_full P i n : 0 <= n -> i <= zlen P -> AdvanceBytes n (full P i) =
  if i + n <=? zlen P then POk tt (full P (i + n)) else PErr premature (full P i).
Proof.
  intros H Hi. unfold AdvanceBytes. destruct (Z.eqb_spec n 0).
  - subst. rewrite Z.add_0_r. destruct (Z.leb_spec i (zlen P)); [|lia]. reflexivity.
  - destruct (Z.ltb_spec n 0); [lia|]. cbn [Index full].
    change (Index (full P i)) with i. apply readUpTo_full. lia.
Qed.

Definition le_at (k : nat) (P : list Z) (i : Z) : Z := le_value (firstn k (skipn (Z.to_nat i) P)).
Definition byte_at (P : list Z) (i : Z) : Z := nth (Z.to_nat i) P 0.

Lemma read_with_full {A} P i n (decode : list Z -> outcome A) v : 0 <= i <= zlen P -> 0 < n ->
  (i + n <= zlen P -> decode (skipn (Z.to_nat i) P) = Ok v) ->
  read_with n decode (full P i) =
  if i + n <=? zlen P then POk v (full P (i + n)) else PErr premature (full P i).
Proof.
  intros Hi Hn Hd. unfold read_with, pbind, get_index. cbn [Index]. change (Index (full P i)) with i.
  rewrite readUpTo_full by lia. destruct (Z.leb_spec (i + n) (zlen P)); [|reflexivity].
  unfold on_bytes. change (Bytes (full P (i + n))) with P. rewrite zfrom_ok by lia. cbn [bind].
  rewrite Hd by lia. reflexivity.
Qed.

Lemma u8_full P i : 0 <= i <= zlen P ->
  ReadUint8 (full P i) = if i + 1 <=? zlen P then POk (byte_at P i) (full P (i + 1)) else PErr premature (full P i).
Proof.
  intros Hi. apply read_with_full; [lia|lia|]. intros Hl. unfold zget, byte_at.
  change (0 <? 0) with false. change (Z.to_nat 0) with 0%nat. cbv iota.
  rewrite nth_error_skipn. replace (Z.to_nat i + 0)%nat with (Z.to_nat i) by lia.
  rewrite (nth_error_nth' P 0); [reflexivity|]. unfold zlen in *. lia.
Qed.
Lemma u16_full P i : bytes P -> 0 <= i <= zlen P ->
  ReadUint16 (full P i) = if i + 2 <=? zlen P then POk (le_at 2 P i) (full P (i + 2)) else PErr premature (full P i).
Proof.
  intros HP Hi. apply read_with_full; [lia|lia|]. intros Hl.
  rewrite decode16_spec by now apply bytes_skipn. rewrite zlen_skipn.
  destruct (Z.ltb_spec (Z.max 0 (zlen P - Z.of_nat (Z.to_nat i))) 2); [lia|]. reflexivity.
Qed.
Lemma u24_full P i : bytes P -> 0 <= i <= zlen P ->
  ReadUint24 (full P i) = if i + 3 <=? zlen P then POk (le_at 3 P i) (full P (i + 3)) else PErr premature (full P i).
Proof.
  intros HP Hi. apply read_with_full; [lia|lia|]. intros Hl.
  rewrite decode24_spec by now apply bytes_skipn. rewrite zlen_skipn.
  destruct (Z.ltb_spec (Z.max 0 (zlen P - Z.of_nat (Z.to_nat i))) 3); [lia|]. reflexivity.
Qed.

Lemma byte_at_range P i : bytes P -> byte (byte_at P i).
Proof.
  intros H. unfold byte_at. destruct (nth_in_or_default (Z.to_nat i) P 0) as [Hi|E].
  - unfold bytes in H. rewrite Forall_forall in H. auto.
  - rewrite E. unfold byte. lia.
Qed.
Lemma le_at_range k P i : bytes P -> 0 <= le_at k P i < 256 ^ Z.of_nat k.
Proof.
  intros H. unfold le_at.
  assert (Hb : bytes (firstn k (skipn (Z.to_nat i) P))) by now apply bytes_firstn, bytes_skipn.
  pose proof (le_value_range _ Hb) as R. rewrite zlen_firstn in R. split; [lia|].
  eapply Z.lt_le_trans; [apply R|]. apply Z.pow_le_mono_r; lia.
Qed.

(** ** Arbitrary readers: the relation between a buffer and the payload it is delivering *)
Definition rest (s : pst) : list Z := if eof s then [] else payload (input s).
Definition rel (P : list Z) (i : Z) (s : pst) : Prop :=
  Index s = i /\ 0 <= i <= zlen (Bytes s) /\ Bytes s ++ rest s = P /\
  (eof s = false -> well_behaved 2 (input s)) /\ zlen P <= MaxFontDataSize /\ bytes P.

Lemma rel_full P i : 0 <= i <= zlen P -> zlen P <= MaxFontDataSize -> bytes P -> rel P i (full P i).
Proof.
  intros. unfold rel, full, rest; cbn. rewrite app_nil_r. repeat apply conj; try assumption; try lia; try reflexivity; try discriminate.
Qed.

Lemma readMore_good idle : forall s, eof s = false -> well_behaved idle (input s) ->
  zlen (Bytes s ++ payload (input s)) <= MaxFontDataSize ->
  exists s', readMore_loop (S idle) s = POk tt s' /\ Index s' = Index s /\
    (exists t, Bytes s' = Bytes s ++ t) /\
    Bytes s' ++ rest s' = Bytes s ++ payload (input s) /\
    (eof s' = false -> well_behaved 2 (input s')) /\
    (eof s' = true \/ (length (input s') < length (input s))%nat /\ zlen (Bytes s) < zlen (Bytes s')).
Proof.
  induction idle; intros [B i e inp]; cbn [eof input Bytes Index]; intros He Hw Hm; subst e.
  - destruct inp as [|[chunk err] r]; cbn [readMore_loop next_read input Bytes Index eof].
    + cbn [well_behaved payload zlen] in *. rewrite app_nil_r in *. change (0 <? zlen []) with false.
      cbn [andb]. eexists; split; [reflexivity|]. cbn. unfold rest; cbn. rewrite !app_nil_r.
      repeat apply conj; auto; try discriminate. now exists []; rewrite app_nil_r.
    + destruct err; [| |now destruct chunk]; cbn [payload well_behaved] in *; try contradiction.
      * destruct chunk as [|c chunk]; [contradiction|].
        destruct (Z.ltb_spec 0 (zlen (c :: chunk))) as [_|H]; [|rewrite zlen_cons in H; pose proof (zlen_nonneg chunk); lia].
        rewrite !zlen_app in Hm. pose proof (zlen_nonneg (payload r)).
        destruct (Z.ltb_spec MaxFontDataSize (zlen B + zlen (c :: chunk))); [lia|]. cbn [andb].
        eexists; split; [reflexivity|]. cbn [Index Bytes eof input]. unfold rest; cbn [eof input].
        repeat apply conj; auto; try (now exists (c :: chunk)); try (now rewrite <- app_assoc); right; cbn [input length Bytes]; split; [lia|]; rewrite ?zlen_app, ?zlen_cons; pose proof (zlen_nonneg chunk); lia.
      * rewrite zlen_app in Hm. replace ((0 <? zlen chunk) && (MaxFontDataSize <? zlen B + zlen chunk)) with false.
        2:{ destruct (Z.ltb_spec MaxFontDataSize (zlen B + zlen chunk)); [lia|]. now rewrite andb_false_r. }
        eexists; split; [reflexivity|]. cbn. unfold rest; cbn. rewrite app_nil_r.
        repeat apply conj; auto; try discriminate. now exists chunk.
  - destruct inp as [|[chunk err] r].
    + cbn [readMore_loop next_read input Bytes Index eof well_behaved payload] in *. rewrite app_nil_r in *. change (0 <? zlen []) with false.
      cbn [andb]. eexists; split; [reflexivity|]. cbn. unfold rest; cbn. rewrite !app_nil_r.
      repeat apply conj; auto; try discriminate. now exists []; rewrite app_nil_r.
    + destruct err; [| |now destruct chunk]; cbn [payload well_behaved] in *; try contradiction.
      * destruct chunk as [|c chunk].
        -- specialize (IHidle (mkP (B ++ []) i false r)). cbn [eof input Bytes Index] in IHidle.
           rewrite app_nil_r in IHidle. destruct (IHidle eq_refl Hw Hm) as (s' & E1 & E2 & E3 & E4 & E5 & E6).
           exists s'. split.
           { change (readMore_loop (S idle) (mkP (B ++ []) i false r) = POk tt s'). now rewrite app_nil_r. }
           repeat apply conj; auto. destruct E6 as [|[]]; [now left|right; cbn [input length]; split; [lia|assumption]].
        -- cbn [readMore_loop next_read input Bytes Index eof].
           destruct (Z.ltb_spec 0 (zlen (c :: chunk))) as [_|H]; [|rewrite zlen_cons in H; pose proof (zlen_nonneg chunk); lia].
           rewrite !zlen_app in Hm. pose proof (zlen_nonneg (payload r)).
           destruct (Z.ltb_spec MaxFontDataSize (zlen B + zlen (c :: chunk))); [lia|]. cbn [andb].
           eexists; split; [reflexivity|]. cbn [Index Bytes eof input]. unfold rest; cbn [eof input].
           repeat apply conj; auto; try (now exists (c :: chunk)); try (now rewrite <- app_assoc); right; cbn [input length Bytes]; split; [lia|]; rewrite ?zlen_app, ?zlen_cons; pose proof (zlen_nonneg chunk); lia.
      * cbn [readMore_loop next_read input Bytes Index eof].
        rewrite zlen_app in Hm. replace ((0 <? zlen chunk) && (MaxFontDataSize <? zlen B + zlen chunk)) with false.
        2:{ destruct (Z.ltb_spec MaxFontDataSize (zlen B + zlen chunk)); [lia|]. now rewrite andb_false_r. }
        eexists; split; [reflexivity|]. cbn. unfold rest; cbn. rewrite app_nil_r.
        repeat apply conj; auto; try discriminate. now exists chunk.
Qed.

Lemma readMore_rel P i s : rel P i s -> eof s = false ->
  exists s', readMore s = POk tt s' /\ rel P i s' /\
    (eof s' = true \/ (length (input s') < length (input s))%nat /\ zlen (Bytes s) < zlen (Bytes s')).
Proof.
  intros (H1 & H2 & H3 & H4 & H5 & H6) He. unfold rest in H3. rewrite He in H3.
  destruct (readMore_good 2 s He (H4 He)) as (s' & E1 & E2 & (t & E3) & E4 & E5 & E6).
  { rewrite H3. assumption. }
  exists s'. split; [exact E1|]. split; [|exact E6]. unfold rel.
  rewrite E2, E4, H3. repeat apply conj; auto; try lia. rewrite E3, zlen_app. pose proof (zlen_nonneg t). lia.
Qed.

Lemma readUpTo_loop_rel P i n : i < n -> forall fuel s, rel P i s ->
  (eof s = true \/ (length (input s) < fuel)%nat) -> 
  exists s', (if n <=? zlen P then rel P n s' else rel P i s' /\ eof s' = true) /\
    readUpTo_loop (S fuel) n s = if n <=? zlen P then POk tt s' else PErr premature s'.
Proof.
  intros Hn. induction fuel; intros s Hr Hf; pose proof Hr as (H1 & H2 & H3 & H4 & H5 & H6).
  - destruct Hf as [He|]; [|lia]. unfold rest in H3. rewrite He, app_nil_r in H3.
    cbn [readUpTo_loop]. rewrite H3, He.
    destruct (Z.ltb_spec (zlen P) n), (Z.leb_spec n (zlen P)); try lia; eexists; (split; [|reflexivity]); [now split|].
    unfold rel, rest; cbn. rewrite app_nil_r. repeat apply conj; auto; try lia; try discriminate.
  - cbn [readUpTo_loop]. destruct (Z.ltb_spec (zlen (Bytes s)) n).
    + destruct (eof s) eqn:He.
      * unfold rest in H3. rewrite He, app_nil_r in H3. subst P.
        destruct (Z.leb_spec n (zlen (Bytes s))); [lia|]. exists s. now split.
      * destruct (readMore_rel P i s Hr He) as (s1 & E1 & Hr1 & Hp).
        unfold pbind. rewrite E1. apply IHfuel; [assumption|]. destruct Hp as [|[Hp _]]; [now left|].
        right. destruct Hf; [congruence|lia].
    + assert (zlen (Bytes s) <= zlen P) by (rewrite <- H3, zlen_app; pose proof (zlen_nonneg (rest s)); lia).
      destruct (Z.leb_spec n (zlen P)); [|lia]. eexists; split; [|reflexivity].
      unfold rel, rest in *; cbn [Index Bytes eof input]. repeat apply conj; auto; lia.
Qed.

Lemma readUpTo_rel P i n s : rel P i s -> i < n ->
  exists s', (if n <=? zlen P then rel P n s' else rel P i s' /\ eof s' = true) /\
    readUpTo n s = if n <=? zlen P then POk tt s' else PErr premature s'.
Proof.
  intros Hr Hn. pose proof Hr as (H1 & _). unfold readUpTo. rewrite H1.
  destruct (Z.leb_spec n i); [lia|]. apply (readUpTo_loop_rel P i n Hn (S (length (input s)))); auto.
Qed.

(** ** Simulation: running on any related buffer gives the result of the loaded buffer *)
Definition sim_at {A} (P : list Z) (i : Z) (m : action A) : Prop := forall s, rel P i s ->
  match m (full P i) with
  | POk a s1 => exists j s2, s1 = full P j /\ m s = POk a s2 /\ rel P j s2
  | PErr e s1 => exists j s2, s1 = full P j /\ m s = PErr e s2 /\ rel P j s2
  | PPanic => m s = PPanic
  | PHang => m s = PHang
  end.

Lemma sim_bind {A B} P i (m : action A) (k : A -> action B) : sim_at P i m ->
  (forall a j, m (full P i) = POk a (full P j) -> 0 <= j <= zlen P -> sim_at P j (k a)) -> sim_at P i (pbind m k).
Proof.
  intros Hm Hk s Hr. specialize (Hm s Hr). unfold pbind. destruct (m (full P i)) as [a s1|e s1| |] eqn:E.
  - destruct Hm as (j & s2 & -> & E2 & Hr2). rewrite E2. apply (Hk a j eq_refl); [|assumption].
    destruct Hr2 as (? & ? & <- & _). rewrite zlen_app. pose proof (zlen_nonneg (rest s2)). lia.
  - destruct Hm as (j & s2 & -> & E2 & Hr2). rewrite E2. eauto.
  - now rewrite Hm.
  - now rewrite Hm.
Qed.
Lemma sim_ret {A} P i (a : A) : sim_at P i (pret a).
Proof. intros s Hr. cbn. eauto. Qed.
Lemma sim_err {A} P i e : sim_at P i (perr e : action A).
Proof. intros s Hr. cbn. eauto. Qed.
Lemma sim_when P i b e : sim_at P i (when b e).
Proof. destruct b; [apply sim_err|apply sim_ret]. Qed.
Lemma sim_index P i : sim_at P i get_index.
Proof. intros s Hr. pose proof Hr as (E & _). unfold get_index. rewrite E. cbn. eauto. Qed.
Lemma sim_readUpTo P i n : i < n -> sim_at P i (readUpTo n).
Proof.
  intros Hn s Hr. rewrite readUpTo_full by assumption. destruct (readUpTo_rel P i n s Hr Hn) as (s' & H & E).
  rewrite E. destruct (n <=? zlen P); [|destruct H]; eauto.
Qed.
Lemma sim_advance P i n : 0 <= n -> sim_at P i (AdvanceBytes n).
Proof.
  intros Hn. unfold AdvanceBytes. destruct (Z.eqb_spec n 0); [apply sim_ret|].
  destruct (Z.ltb_spec n 0); [lia|]. intros s Hr. pose proof Hr as (Ei & _). rewrite Ei.
  change (Index (full P i)) with i. apply sim_readUpTo; [lia|assumption].
Qed.

(** a computation on the buffer contents that looks only at the bytes before [i] *)
Definition local_at {A} (P : list Z) (i : Z) (f : list Z -> outcome A) : Prop :=
  forall B t, P = B ++ t -> i <= zlen B -> f B = f P.
Lemma sim_on_bytes {A} P i (f : list Z -> outcome A) : local_at P i f -> sim_at P i (on_bytes f).
Proof.
  intros Hl s Hr. pose proof Hr as (H1 & H2 & H3 & _). unfold on_bytes. change (Bytes (full P i)) with P.
  rewrite (Hl (Bytes s) (rest s) (eq_sym H3)) by lia. destruct (f P); eauto.
Qed.
Lemma sim_ignore P i m : sim_at P i m -> sim_at P i (ignore_err m).
Proof.
  intros Hm s Hr. specialize (Hm s Hr). unfold ignore_err. destruct (m (full P i)); auto.
  - destruct Hm as (j & s2 & -> & -> & Hr2). eauto.
  - destruct Hm as (j & s2 & -> & -> & Hr2). eauto.
  - now rewrite Hm.
  - now rewrite Hm.
Qed.

Lemma local_get P i n : n < i -> local_at P i (fun b => zget b n).
Proof. intros H B t -> Hi. rewrite zget_app_l by lia. reflexivity. Qed.
Lemma local_slice P i a b : b <= i -> local_at P i (fun l => zslice l a b).
Proof.
  intros H B t -> Hi. unfold zslice. rewrite zlen_app. pose proof (zlen_nonneg t).
  destruct ((0 <=? a) && (a <=? b)) eqn:E; cbn [andb]; [|reflexivity]. apply andb_true_iff in E as [E1 E2].
  destruct (Z.leb_spec b (zlen B)), (Z.leb_spec b (zlen B + zlen t)); try lia. f_equal.
  rewrite skipn_app, firstn_app. replace (Z.to_nat (b - a) - length (skipn (Z.to_nat a) B))%nat with 0%nat.
  - now rewrite firstn_O, app_nil_r.
  - rewrite skipn_length. unfold zlen in *. lia.
Qed.
Lemma local_const {A} P i (o : outcome A) : local_at P i (fun _ => o).
Proof. intros B t _ _. reflexivity. Qed.
Lemma local_bind {A C} P i (f : list Z -> outcome A) (g : A -> list Z -> outcome C) :
  local_at P i f -> (forall a, f P = Ok a -> local_at P i (g a)) -> local_at P i (fun b => bind (f b) (fun a => g a b)).
Proof.
  intros Hf Hg B t E Hi. rewrite (Hf B t E Hi). destruct (f P) as [a| | |] eqn:Ef; cbn; auto. apply (Hg a eq_refl B t E Hi).
Qed.
Lemma local_if {A} P i (c : bool) (f g : list Z -> outcome A) :
  local_at P i f -> local_at P i g -> local_at P i (fun b => if c then f b else g b).
Proof. destruct c; auto. Qed.

Lemma zslice_zfrom (b : list Z) i n : 0 <= i -> 0 <= n -> i + n <= zlen b ->
  zslice b i (i + n) = Ok (firstn (Z.to_nat n) (skipn (Z.to_nat i) b)).
Proof. intros. rewrite zslice_ok by lia. now replace (i + n - i) with n by lia. Qed.

Lemma local_from16 P i n : bytes P -> 0 <= n -> n + 2 <= i -> local_at P i (fun b => do t <- zfrom b n; DecodeUint16LE t).
Proof.
  intros HP Hn Hi B t E Hl. assert (HB : bytes B) by (rewrite E in HP; apply bytes_app in HP; tauto).
  assert (zlen B <= zlen P) by (rewrite E, zlen_app; pose proof (zlen_nonneg t); lia).
  rewrite !zfrom_ok by lia. cbn [bind]. rewrite !decode16_spec by now apply bytes_skipn.
  rewrite !zlen_skipn. do 2 (destruct (Z.ltb_spec (Z.max 0 (zlen B - Z.of_nat (Z.to_nat n))) 2);
  destruct (Z.ltb_spec (Z.max 0 (zlen P - Z.of_nat (Z.to_nat n))) 2); try lia). f_equal. f_equal. rewrite E.
  rewrite skipn_app, firstn_app. replace (2 - length (skipn (Z.to_nat n) B))%nat with 0%nat by (rewrite skipn_length; unfold zlen in *; lia).
  now rewrite firstn_O, app_nil_r.
Qed.
Lemma local_from24 P i n : bytes P -> 0 <= n -> n + 3 <= i -> local_at P i (fun b => do t <- zfrom b n; DecodeUint24LE t).
Proof.
  intros HP Hn Hi B t E Hl. assert (HB : bytes B) by (rewrite E in HP; apply bytes_app in HP; tauto).
  assert (zlen B <= zlen P) by (rewrite E, zlen_app; pose proof (zlen_nonneg t); lia).
  rewrite !zfrom_ok by lia. cbn [bind]. rewrite !decode24_spec by now apply bytes_skipn.
  rewrite !zlen_skipn. do 2 (destruct (Z.ltb_spec (Z.max 0 (zlen B - Z.of_nat (Z.to_nat n))) 3);
  destruct (Z.ltb_spec (Z.max 0 (zlen P - Z.of_nat (Z.to_nat n))) 3); try lia). f_equal. f_equal. rewrite E.
  rewrite skipn_app, firstn_app. replace (3 - length (skipn (Z.to_nat n) B))%nat with 0%nat by (rewrite skipn_length; unfold zlen in *; lia).
  now rewrite firstn_O, app_nil_r.
Qed.
Lemma local_from8 P i n : 0 <= n -> n + 1 <= i -> local_at P i (fun b => do t <- zfrom b n; zget t 0).
Proof.
  intros Hn Hi B t E Hl. assert (zlen B <= zlen P) by (rewrite E, zlen_app; pose proof (zlen_nonneg t); lia).
  rewrite !zfrom_ok by lia. cbn [bind]. rewrite E, skipn_app, zget_app_l; [reflexivity|].
  rewrite zlen_skipn. lia.
Qed.

(** [sim_with]: simulation needs only that the index is a valid position *)
Lemma sim_valid {A} P i (m : action A) : (0 <= i <= zlen P -> bytes P -> sim_at P i m) -> sim_at P i m.
Proof.
  intros H s Hr. apply H; [|apply Hr|exact Hr]. destruct Hr as (? & ? & <- & _). rewrite zlen_app.
  pose proof (zlen_nonneg (rest s)). lia.
Qed.
Lemma sim_read_with {A} P i n (decode : list Z -> outcome A) : 0 < n ->
  (0 <= i -> bytes P -> local_at P (i + n) (fun b => do t <- zfrom b i; decode t)) -> sim_at P i (read_with n decode).
Proof.
  intros Hn Hl. apply sim_valid. intros Hi HP. unfold read_with. apply sim_bind; [apply sim_index|].
  intros a j E _. injection E as E1 E2. change (Index (full P i)) with i in *. subst a j.
  apply sim_bind; [apply sim_readUpTo; lia|]. intros [] j E _. rewrite readUpTo_full in E by lia.
  destruct (i + n <=? zlen P); [|discriminate]. injection E as <-. apply sim_on_bytes. apply Hl; [lia|assumption].
Qed.
Lemma sim_u8 P i : sim_at P i ReadUint8.
Proof. apply sim_read_with; [lia|]. intros. apply local_from8; lia. Qed.
Lemma sim_u16 P i : sim_at P i ReadUint16.
Proof. apply sim_read_with; [lia|]. intros. apply local_from16; auto; lia. Qed.
Lemma sim_u24 P i : sim_at P i ReadUint24.
Proof. apply sim_read_with; [lia|]. intros. apply local_from24; auto; lia. Qed.

Lemma local_unsafe_string P i a n : a < i -> a + n <= i -> local_at P i (fun b => unsafe_string b a n).
Proof.
  intros H1 H2. unfold unsafe_string. apply (local_bind P i (fun b => zget b a) (fun _ b => zslice b a (a + n))).
  - now apply local_get.
  - intros _ _. now apply local_slice.
Qed.
Lemma sim_read_str P i n : 0 <= n -> sim_at P i (read_str n).
Proof.
  intros Hn. apply sim_valid. intros Hi HP. unfold read_str. destruct (Z.eqb_spec n 0); [apply sim_ret|].
  apply sim_bind; [apply sim_index|]. intros a j E _. injection E as E1 E2.
  change (Index (full P i)) with i in *. subst a j.
  apply sim_bind; [apply sim_readUpTo; lia|]. intros [] j E _. rewrite readUpTo_full in E by lia.
  destruct (i + n <=? zlen P); [|discriminate]. injection E as <-. apply sim_on_bytes, local_unsafe_string; lia.
Qed.

Lemma read_str_full P i n : 0 <= i <= zlen P -> 0 <= n -> read_str n (full P i) =
  if i + n <=? zlen P then POk (firstn (Z.to_nat n) (skipn (Z.to_nat i) P)) (full P (i + n)) else PErr premature (full P i).
Proof.
  intros Hi Hn. unfold read_str. destruct (Z.eqb_spec n 0).
  - subst. rewrite Z.add_0_r. destruct (Z.leb_spec i (zlen P)); [|lia]. reflexivity.
  - unfold pbind, get_index. change (Index (full P i)) with i. rewrite readUpTo_full by lia.
    destruct (Z.leb_spec (i + n) (zlen P)); [|reflexivity]. unfold on_bytes. change (Bytes (full P (i + n))) with P.
    unfold unsafe_string. destruct (zget_in_range P i) as [x Hx]; [lia|]. rewrite Hx. cbn [bind].
    rewrite zslice_zfrom by lia. reflexivity.
Qed.
Lemma sim_short_str P i : sim_at P i ReadShortStr.
Proof.
  apply sim_valid. intros Hi HP. apply sim_bind; [apply sim_u8|]. intros a j E _. rewrite u8_full in E by lia.
  destruct (i + 1 <=? zlen P); [|discriminate]. injection E as <- _. apply sim_read_str.
  pose proof (byte_at_range P i HP). unfold byte in *. lia.
Qed.
Lemma sim_string P i : sim_at P i ReadString.
Proof.
  apply sim_valid. intros Hi HP. apply sim_bind; [apply sim_u16|]. intros a j E _. rewrite u16_full in E by (auto; lia).
  destruct (i + 2 <=? zlen P); [|discriminate]. injection E as <- _. apply sim_read_str.
  pose proof (le_at_range 2 P i HP). lia.
Qed.
