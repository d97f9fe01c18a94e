(** Proofs for C18-C20: the parser takes from the reader no more than it needs, and then looks
    at one more result. *)
From Verif Require Import Base BaseFacts Model_Helpers Spec_Helpers Proofs_Helpers Model_Font Model_Parse Spec_Parse
  Proofs_Parse Proofs_Parse2 Proofs_Parse3 Proofs_Parse4 Proofs_Parse5 Proofs_Parse6 Proofs_Parse7 Proofs_Parse8.
From Verif Require Import Spec_Reader.
From Coq Require Import Lia.

(** ** the function [received] *)
Lemma received_more i : forall n n' got, n <= n' ->
  received n' got i = (let '(b, e, r) := received n got i in if e then (b, e, r) else received n' b r).
Proof.
  induction i as [|[chunk err] i IH]; intros n n' got Hn.
  - cbn [received]. destruct (Z.leb_spec n (zlen got)); cbn [received]; destruct (Z.leb_spec n' (zlen got)); try lia; reflexivity.
  - cbn [received]. destruct (Z.leb_spec n (zlen got)) as [|Hg]; [reflexivity|]. destruct (Z.leb_spec n' (zlen got)); [lia|].
    destruct err; [apply IH; lia|reflexivity|apply IH; lia].
Qed.
Lemma received_stop n got i : n <= zlen got -> received n got i = (got, false, i).
Proof. intros H. destruct i as [|[? ?] ?]; cbn [received]; destruct (Z.leb_spec n (zlen got)); try lia; reflexivity. Qed.

Section Strong.
  Variable i : stream.
  Definition strong (s : pst) : Prop := received (Index s) [] i = (Bytes s, eof s, input s).
  Definition keeps {A} (m : action A) : Prop := forall s a s', strong s -> m s = POk a s' -> strong s'.

  (** one round of reading *)
  Lemma readMore_received n : forall k s s', eof s = false -> readMore_loop k s = POk tt s' -> zlen (Bytes s) < n ->
    Index s' = Index s /\
    received n (Bytes s) (input s) = if eof s' then (Bytes s', true, input s') else received n (Bytes s') (input s').
  Proof.
    induction k as [|k IH]; intros s s' He H Hn; cbn [readMore_loop] in H; [discriminate|].
    destruct (input s) as [|[chunk err] r] eqn:Ei; cbn [next_read] in H.
    - change (0 <? zlen []) with false in H. cbn [andb] in H. injection H as <-. cbn [Index Bytes eof input]. split; [reflexivity|].
      cbn [received]. destruct (Z.leb_spec n (zlen (Bytes s))); [lia|]. now rewrite app_nil_r.
    - destruct (_ && _); [discriminate|]. cbn [received]. destruct (Z.leb_spec n (zlen (Bytes s))); [lia|]. destruct err.
      + destruct (0 <? zlen chunk) eqn:Ec.
        * injection H as <-. cbn [Index Bytes eof input]. rewrite He. auto.
        * assert (chunk = []) by (destruct chunk; [reflexivity|exfalso; rewrite zlen_cons in Ec; pose proof (zlen_nonneg chunk); destruct (Z.ltb_spec 0 (1 + zlen chunk)); [discriminate|lia]]).
          subst chunk. rewrite app_nil_r in *. apply IH in H; [|exact He|exact Hn]. exact H.
      + injection H as <-. cbn [Index Bytes eof input]. auto.
      + discriminate.
  Qed.
  Lemma loop_received n : forall k s s', readUpTo_loop k n s = POk tt s' ->
    Index s' = n /\ n <= zlen (Bytes s') /\
    (if eof s then (Bytes s, true, input s) else received n (Bytes s) (input s)) = (Bytes s', eof s', input s').
  Proof.
    induction k as [|k IH]; intros s s' H; cbn [readUpTo_loop] in H.
    - destruct (Z.ltb_spec (zlen (Bytes s)) n); [destruct (eof s); discriminate|]. injection H as <-. cbn [Index Bytes eof input].
      split; [reflexivity|]. split; [lia|]. destruct (eof s); [reflexivity|]. apply received_stop. lia.
    - destruct (Z.ltb_spec (zlen (Bytes s)) n).
      + destruct (eof s) eqn:He; [discriminate|]. unfold pbind in H. destruct (readMore s) as [[] s1| | |] eqn:Em; try discriminate.
        unfold readMore in Em. destruct (readMore_received n 3 s s1 He Em ltac:(lia)) as [_ E2]. apply IH in H. rewrite E2. exact H.
      + injection H as <-. cbn [Index Bytes eof input]. split; [reflexivity|]. split; [lia|]. destruct (eof s); [reflexivity|]. apply received_stop. lia.
  Qed.
  Lemma keeps_readUpTo n : keeps (readUpTo n).
  Proof.
    intros s [] s' Hs H. unfold readUpTo in H. destruct (Z.leb_spec n (Index s)); [discriminate|].
    apply loop_received in H. destruct H as (E1 & _ & E2). unfold strong. rewrite E1.
    rewrite (received_more i (Index s) n []) by lia. unfold strong in Hs. rewrite Hs. destruct (eof s); exact E2.
  Qed.
  Lemma keeps_bind {A B} (m : action A) (k : A -> action B) : keeps m -> (forall a, keeps (k a)) -> keeps (pbind m k).
  Proof. intros H1 H2 s b s' Hs H. unfold pbind in H. destruct (m s) as [a s1| | |] eqn:E; try discriminate. eapply H2; [eapply H1; eassumption|exact H]. Qed.
  Lemma keeps_ret {A} (a : A) : keeps (pret a).
  Proof. intros s b s' Hs H. injection H as <- <-. exact Hs. Qed.
  Lemma keeps_err {A} e : keeps (perr e : action A).
  Proof. intros s b s' Hs H. discriminate. Qed.
  Lemma keeps_when b e : keeps (when b e).
  Proof. unfold when. destruct b; [apply keeps_err|apply keeps_ret]. Qed.
  Lemma keeps_index : keeps get_index.
  Proof. intros s b s' Hs H. injection H as <- <-. exact Hs. Qed.
  Lemma keeps_on {A} (f : list Z -> outcome A) : keeps (on_bytes f).
  Proof. intros s b s' Hs H. unfold on_bytes in H. destruct (f (Bytes s)); try discriminate. injection H as <- <-. exact Hs. Qed.
  Lemma keeps_if {A} (b : bool) (m1 m2 : action A) : keeps m1 -> keeps m2 -> keeps (if b then m1 else m2).
  Proof. destruct b; auto. Qed.
  Lemma keeps_pair {A B C} (p : A * B) (k : A -> B -> action C) : (forall a b, keeps (k a b)) -> keeps (let '(a, b) := p in k a b).
  Proof. destruct p; auto. Qed.
  Lemma keeps_advance n : keeps (AdvanceBytes n).
  Proof.
    unfold AdvanceBytes. destruct (n =? 0); [apply keeps_ret|]. destruct (n <? 0); [intros s b s' Hs H; discriminate|].
    intros s b s' Hs H. eapply keeps_readUpTo; eassumption.
  Qed.
  Lemma keeps_read {A} n (d : list Z -> outcome A) : keeps (read_with n d).
  Proof. unfold read_with. apply keeps_bind; [apply keeps_index|]. intros. apply keeps_bind; [apply keeps_readUpTo|]. intros. apply keeps_on. Qed.
  Lemma keeps_str n : keeps (read_str n).
  Proof. unfold read_str. apply keeps_if; [apply keeps_ret|]. apply keeps_bind; [apply keeps_index|]. intros. apply keeps_bind; [apply keeps_readUpTo|]. intros. apply keeps_on. Qed.

  (** ignoring the error of the length of the rules is harmless: the parser refuses them *)
  Lemma keeps_rules m a b : keeps (parse_rules m a b).
  Proof.
    unfold parse_rules. apply keeps_bind; [apply keeps_index|]. intros o. apply keeps_bind; [apply keeps_read|]. intros num.
    destruct (Z.gtb_spec num 0) as [Hn|]; [|apply keeps_ret]. apply keeps_bind; [apply keeps_advance|]. intros _ s x s' Hs H.
    unfold pbind in H at 1. unfold ignore_err in H. destruct (ReadUint24 s) as [len s1|e s1| |] eqn:E; try discriminate.
    - assert (S1 : strong s1) by (eapply keeps_read; eassumption). revert S1 H. clear. intros S1 H.
      eapply keeps_bind in H; [exact H|apply keeps_when| |exact S1]. intros _. apply keeps_bind; [apply keeps_when|]. intros _.
      apply keeps_bind; [apply keeps_advance|]. intros _. apply keeps_ret.
    - unfold pbind, when in H. destruct (Z.ltb_spec 0 (num * 8)); [discriminate|lia].
  Qed.
  Ltac keeps := repeat first
    [ apply keeps_rules | apply keeps_bind | match goal with |- forall _, _ => intro end | apply keeps_ret | apply keeps_err | apply keeps_when | apply keeps_index | apply keeps_on
    | apply keeps_readUpTo | apply keeps_advance | apply keeps_read | apply keeps_str | apply keeps_if
    | match goal with a : (_ * _)%type |- _ => destruct a end ].
  Lemma keeps_prefix : keeps parse_prefix.
  Proof.
    unfold parse_prefix, parse_header, parse_metrics, parse_dyes, parse_palettes, parse_glyph_names, parse_glyph_masks, parse_words, parse_settings,
      parse_switches, parse_mapping, parse_conditions, parse_utf8_sets, parse_glyph_sets, parse_u16_blocks, parse_utf8_rules, parse_glyph_rules,
      ReadShortStr, ReadString. keeps.
  Qed.
  Lemma keeps_kernings P j n m s o s' : strong s -> rel P j s -> j + 3 <= zlen P -> parse_kernings n m s = POk o s' -> strong s'.
  Proof.
    intros Hs HR Hj H. unfold parse_kernings in H. unfold pbind in H at 1. cbn [get_index] in H. unfold pbind in H at 1. unfold ignore_err in H.
    destruct (u24_rel P j s HR) as (s2 & E & _). destruct (Z.leb_spec (j + 3) (zlen P)); [|lia]. rewrite E in H.
    assert (S2 : strong s2) by (eapply keeps_read; eassumption). cbv beta in H. match type of H with ?m s2 = _ => assert (K : keeps m) by keeps; exact (K _ _ _ S2 H) end.
  Qed.
End Strong.

Lemma section_offsets s mk n s0 f s1 : parse_prefix s = POk (mk, n) s0 -> parse_sections s = POk f s1 ->
  exists h sh v, parse_kernings n horz_msg s0 = POk h sh /\ parse_kernings n vert_msg sh = POk v s1 /\ f = mk h v.
Proof.
  intros E H. rewrite sections_split in H. unfold pbind in H at 1. rewrite E in H. unfold pbind in H at 1.
  destruct (parse_kernings n horz_msg s0) as [h sh| | |] eqn:Eh; try discriminate. unfold pbind in H.
  destruct (parse_kernings n vert_msg sh) as [v s2| | |] eqn:Ev; try discriminate. injection H as <- <-. eauto 8.
Qed.

Lemma sections_strong i P f j s2 : delivers i P -> bytes P -> zlen P <= MaxFontDataSize ->
  parse_sections (full P 0) = POk f (full P j) -> parse_sections (initial i) = POk f s2 ->
  ends P f j s2 -> OffsetToVertKernings f + 3 <= zlen P -> strong i s2.
Proof.
  intros Hd HP HM E E2 (H0 & _ & _ & C1 & _) Hv. pose proof (rel_initial i P Hd HP HM) as Hr.
  assert (HH : OffsetToHorzKernings f + 3 <= zlen P) by (destruct C1 as [?|?]; lia). clear C1.
  pose proof (sim_prefix P HP _ Hr) as Hs. pose proof (prefix_result P HP) as Hp.
  assert (S0 : strong i (initial i)) by (unfold strong; cbn [Index Bytes eof input initial]; apply received_stop; change (zlen []) with 0; lia).
  destruct (parse_prefix (full P 0)) as [[mk ng] s1|e s1| |] eqn:Ep; try contradiction;
    [|rewrite sections_split in E; unfold pbind in E; rewrite Ep in E; discriminate].
  destruct Hs as (k & s0 & -> & Es & R0). destruct Hp as (k' & Ek & Hk & Hq). injection Ek as <-.
  pose proof (keeps_prefix i _ _ _ S0 Es) as S1.
  destruct (section_offsets _ _ _ _ _ _ Es E2) as (h & sh & v & Eh & Ev & ->).
  pose proof (kernings_rel P k ng horz_msg s0 R0) as KH. 
  destruct (Z.leb_spec (k + 3) (zlen P)) as [L1|L1].
  - cbv zeta in KH. destruct (_ >? _); [destruct KH as (x & KH); congruence|]. destruct (_ <=? _); [|destruct KH as (x & KH); congruence].
    destruct KH as (x & KH & RH). rewrite KH in Eh. injection Eh as <- <-. pose proof (keeps_kernings i P k ng horz_msg s0 _ _ S1 R0 L1 KH) as S2.
    pose proof (kernings_rel P _ ng vert_msg x RH) as KV. destruct (Z.leb_spec (k + 3 + 5 * le_at 3 P k + 3) (zlen P)) as [L2|L2].
    + exact (keeps_kernings i P _ ng vert_msg x _ _ S2 RH L2 Ev).
    + exfalso. destruct KV as (y & KV & _). rewrite KV in Ev. injection Ev as <- <-. pose proof (le_at_range 3 P k HP).
      destruct (Hq k (k + 3 + 5 * le_at 3 P k) (k + 3 + 5 * le_at 3 P k) ltac:(cbn; lia) ltac:(lia) ltac:(lia)) as (_ & _ & Q & _). cbn [fst] in Q. lia.
  - exfalso. destruct KH as (x & KH & _). rewrite KH in Eh. injection Eh as <- <-.
    destruct (Hq k (Z.max k v) (Z.max k v) ltac:(cbn; lia) ltac:(lia) ltac:(lia)) as (_ & Q & _). cbn [fst] in Q.
    assert (Hh : OffsetToHorzKernings (mk k v) = k).
    { destruct (Z_le_gt_dec k v). { rewrite Z.max_r in Q by lia. exact Q. }
      destruct H0 as [_ H0]. pose proof (kernings_rel P k ng vert_msg x) as _. exfalso.
      clear - Ev g KH R0 L1. pose proof (kernings_rel P k ng horz_msg s0 R0) as KH2. destruct (Z.leb_spec (k + 3) (zlen P)); [lia|].
      destruct KH2 as (y & E & RY & _). rewrite E in KH. injection KH as ->. pose proof (kernings_rel P k ng vert_msg x RY) as KV.
      destruct (Z.leb_spec (k + 3) (zlen P)); [lia|]. destruct KV as (z & E2 & _). rewrite E2 in Ev. injection Ev as <- _. lia. }
    lia.
Qed.

(** ** the final check *)
Lemma closes_more : forall k s s', eof s = false -> readMore_loop k s = POk tt s' -> eof s' = closes (input s).
Proof.
  induction k as [|k IH]; intros s s' He H; cbn [readMore_loop] in H; [discriminate|].
  destruct (input s) as [|[chunk err] r] eqn:Ei; cbn [next_read] in H.
  - change (0 <? zlen []) with false in H. cbn [andb] in H. injection H as <-. reflexivity.
  - destruct (_ && _); [discriminate|]. destruct err.
    + destruct chunk as [|c chunk].
      * change (0 <? zlen []) with false in H. cbv iota in H. apply IH in H; [|exact He]. exact H.
      * destruct (Z.ltb_spec 0 (zlen (c :: chunk))) as [_|X]; [|rewrite zlen_cons in X; pose proof (zlen_nonneg chunk); lia].
        injection H as <-. cbn [eof closes]. exact He.
    + injection H as <-. cbn [eof closes]. destruct chunk; reflexivity.
    + discriminate.
Qed.
(** asking for more than there is *)
Lemma received_all : forall i idle n got, well_behaved idle i -> zlen (got ++ payload i) < n ->
  exists r, received n got i = (got ++ payload i, true, r).
Proof.
  induction i as [|[chunk err] i IH]; intros idle n got Hw Hn; cbn [received payload] in *.
  - rewrite app_nil_r in *. destruct (Z.leb_spec n (zlen got)); [lia|]. eauto.
  - assert (zlen got < n).
    { destruct err; rewrite ?zlen_app in Hn; pose proof (zlen_nonneg (payload i)); pose proof (zlen_nonneg chunk); lia. }
    destruct (Z.leb_spec n (zlen got)); [lia|]. destruct err.
    + rewrite app_assoc in *. cbn [well_behaved] in Hw. destruct chunk as [|c chunk]; [destruct idle as [|idle]; [contradiction|]|]; eapply IH; eassumption.
    + eauto.
    + cbn [well_behaved] in Hw. destruct chunk; contradiction.
Qed.

Lemma reader_exact i P : within_bounds P -> delivers i P ->
  match parse_payload [(P, EOF)] with
  | Ok g => let '(b, ended, r) := received (content_end g P) [] i in
      parse_payload i = if ended || closes r then Ok (over b g) else Panic
  | Err e => parse_payload i = Err e
  | _ => False
  end.
Proof.
  intros HB Hd. pose proof HB as [HP HM].
  assert (D1 : delivers [(P, EOF)] P) by (split; [destruct P; exact I|reflexivity]).
  pose proof (payload_result [(P, EOF)] P D1 HP HM) as R1. pose proof (payload_result i P Hd HP HM) as R2.
  destruct (parse_sections (full P 0)) as [f s1|e s1| |] eqn:Es; try contradiction; [|rewrite R1; exact R2].
  destruct R1 as (j & t & -> & Hj & Et & Rt & Ent & Ct & _).
  assert (E1 : parse_payload [(P, EOF)] = Ok (set_Data f P)).
  { clear R2. pose proof (rel_len _ _ _ Rt) as Lt.
    assert (Wt : eof t = true \/ Bytes t = [] /\ input t = [(P, EOF)] /\ eof t = false).
    { destruct (Z_lt_le_dec (zlen P) (OffsetToVertKernings f + 3)) as [Hl|Hl].
      - destruct Ent as (_ & _ & _ & _ & [X|(_ & _ & X)]); [lia|now left].
      - pose proof (sections_strong _ P f j t D1 HP HM Es Et Ent Hl) as St. unfold strong in St. cbn [received] in St.
        destruct (Index t <=? zlen []); injection St as <- <- <-; auto. }
    rewrite parse_payload_body. unfold parse_body. rewrite (bind_ok _ _ _ _ _ Et). unfold pbind, on_bytes.
    destruct Wt as [Wt|(W1 & W2 & W3)].
    - unfold EnsureEOF. rewrite Wt. cbn [pret body_result]. now rewrite (rel_eof P j t Rt Wt).
    - exfalso. rewrite W1 in Lt. change (zlen []) with 0 in Lt. destruct Ent as (H0 & H1 & _ & _ & _). unfold offsets_in_order in H1. lia. }
  destruct R2 as (j' & s2 & Ej & _ & E2 & Rs & Ens & Cs & _). injection Ej as <-. rewrite E1.
  assert (Hc : content_end (set_Data f P) P = OffsetToVertKernings f + 3 + 5 * le_at 3 P (OffsetToVertKernings f)) by reflexivity.
  pose proof (le_at_range 3 P (OffsetToVertKernings f) HP) as Hr3.
  rewrite parse_payload_body. unfold parse_body. rewrite (bind_ok _ _ _ _ _ E2). unfold pbind, on_bytes.
  assert (Hover : forall d, over d (set_Data f P) = set_Data f d) by reflexivity.
  destruct (Z_lt_le_dec (zlen P) (OffsetToVertKernings f + 3)) as [Hl|Hl].
  - destruct Hd as [Hw Hpay]. destruct (received_all i 2 (content_end (set_Data f P) P) [] Hw) as (r & ->); [cbn [app]; rewrite Hpay; lia|].
    cbn [app orb]. rewrite Hover, Hpay. destruct Ens as (_ & _ & _ & _ & [X|(_ & _ & X)]); [lia|].
    unfold EnsureEOF. rewrite X. cbn [pret body_result]. now rewrite (rel_eof P j s2 Rs X).
  - pose proof (sections_strong i P f j s2 Hd HP HM Es E2 Ens Hl) as St. unfold strong in St.
    assert (Hidx : Index s2 = content_end (set_Data f P) P).
    { destruct Rs as (-> & _). rewrite Hc. destruct Ens as (_ & _ & _ & _ & [X|X]); lia. }
    rewrite Hidx in St. rewrite St. rewrite Hover. unfold EnsureEOF. destruct (eof s2) eqn:He; [reflexivity|]. cbn [orb].
    destruct (readMore_rel P j s2 Rs He) as (s3 & E3 & (I3 & _) & _). rewrite E3. unfold readMore in E3.
    pose proof (closes_more _ _ _ He E3) as Hcl. destruct Rs as (I2 & _). rewrite I2, I3, Z.gtb_ltb, Z.ltb_irrefl. rewrite Hcl.
    destruct (closes (input s2)); reflexivity.
Qed.

(** ** more bytes behind a complete font change nothing before the final check *)
Definition reopen (r : stream) (s : pst) : pst := mkP (Bytes s) (Index s) false r.
Definition locked {A} (m : action A) : Prop := forall s a s', eof s = true -> m s = POk a s' ->
  eof s' = true /\ forall r, m (reopen r s) = POk a (reopen r s').
Lemma locked_bind {A B} (m : action A) (k : A -> action B) : locked m -> (forall a, locked (k a)) -> locked (pbind m k).
Proof.
  intros H1 H2 s b s' Hs H. unfold pbind in *. destruct (m s) as [a s1| | |] eqn:E; try discriminate.
  destruct (H1 s a s1 Hs E) as [E1 L1]. destruct (H2 a s1 b s' E1 H) as [E2 L2]. split; [exact E2|]. intros r. now rewrite L1, L2.
Qed.
Lemma locked_ret {A} (a : A) : locked (pret a).
Proof. intros s b s' Hs H. injection H as <- <-. split; [exact Hs|reflexivity]. Qed.
Lemma locked_err {A} e : locked (perr e : action A).
Proof. intros s b s' Hs H. discriminate. Qed.
Lemma locked_when b e : locked (when b e).
Proof. unfold when. destruct b; [apply locked_err|apply locked_ret]. Qed.
Lemma locked_index : locked get_index.
Proof. intros s b s' Hs H. injection H as <- <-. split; [exact Hs|reflexivity]. Qed.
Lemma locked_on {A} (f : list Z -> outcome A) : locked (on_bytes f).
Proof. intros s b s' Hs H. unfold on_bytes in *. cbn [reopen Bytes]. destruct (f (Bytes s)); try discriminate. injection H as <- <-. split; [exact Hs|reflexivity]. Qed.
Lemma locked_if {A} (b : bool) (m1 m2 : action A) : locked m1 -> locked m2 -> locked (if b then m1 else m2).
Proof. destruct b; auto. Qed.
Lemma locked_readUpTo n : locked (readUpTo n).
Proof.
  intros s [] s' Hs H. unfold readUpTo in *. cbn [reopen Index]. destruct (n <=? Index s); [discriminate|].
  cbn [readUpTo_loop Bytes] in *. destruct (zlen (Bytes s) <? n) eqn:En; [rewrite Hs in H; discriminate|]. injection H as <-. cbn [eof]. split; [exact Hs|].
  intros r. cbn [readUpTo_loop length input]. unfold reopen. cbn [Bytes Index eof input]. rewrite En. reflexivity.
Qed.
Lemma locked_advance n : locked (AdvanceBytes n).
Proof.
  unfold AdvanceBytes. destruct (n =? 0); [apply locked_ret|]. destruct (n <? 0); [intros s b s' Hs H; discriminate|].
  intros s b s' Hs H. apply (locked_readUpTo _ s b s' Hs H).
Qed.
Lemma locked_read {A} n (d : list Z -> outcome A) : locked (read_with n d).
Proof. unfold read_with. apply locked_bind; [apply locked_index|]. intros. apply locked_bind; [apply locked_readUpTo|]. intros. apply locked_on. Qed.
Lemma locked_str n : locked (read_str n).
Proof. unfold read_str. apply locked_if; [apply locked_ret|]. apply locked_bind; [apply locked_index|]. intros. apply locked_bind; [apply locked_readUpTo|]. intros. apply locked_on. Qed.
Lemma locked_rules m a b : locked (parse_rules m a b).
Proof.
  unfold parse_rules. apply locked_bind; [apply locked_index|]. intros o. apply locked_bind; [apply locked_read|]. intros num.
  destruct (Z.gtb_spec num 0) as [Hn|]; [|apply locked_ret]. apply locked_bind; [apply locked_advance|]. intros _ s x s' Hs H.
  unfold pbind in H at 1. unfold ignore_err in H. destruct (ReadUint24 s) as [len s1|e s1| |] eqn:E; try discriminate.
  - destruct (locked_read _ _ s len s1 Hs E) as [E1 L1].
    assert (K : locked (run _ <- when (len <? num * 8) a; run _ <- when (len >? num * m) b; run _ <- AdvanceBytes len; pret o)).
    { apply locked_bind; [apply locked_when|]. intros _. apply locked_bind; [apply locked_when|]. intros _. apply locked_bind; [apply locked_advance|]. intros _. apply locked_ret. }
    destruct (K s1 x s' E1 H) as [E2 L2]. split; [exact E2|]. intros r. unfold pbind at 1. unfold ignore_err. unfold ReadUint24 in *. rewrite L1. apply L2.
  - unfold pbind, when in H. destruct (Z.ltb_spec 0 (num * 8)); [discriminate|lia].
Qed.
Ltac locked := repeat first
  [ apply locked_rules | apply locked_bind | match goal with |- forall _, _ => intro end | apply locked_ret | apply locked_err | apply locked_when
  | apply locked_index | apply locked_on | apply locked_readUpTo | apply locked_advance | apply locked_read | apply locked_str | apply locked_if
  | match goal with a : (_ * _)%type |- _ => destruct a end ].
Lemma locked_prefix : locked parse_prefix.
Proof.
  unfold parse_prefix, parse_header, parse_metrics, parse_dyes, parse_palettes, parse_glyph_names, parse_glyph_masks, parse_words, parse_settings,
    parse_switches, parse_mapping, parse_conditions, parse_utf8_sets, parse_glyph_sets, parse_u16_blocks, parse_utf8_rules, parse_glyph_rules,
    ReadShortStr, ReadString. locked.
Qed.
Lemma locked_kernings P j n m s o s' r : rel P j s -> eof s = true -> j + 3 <= zlen P -> parse_kernings n m s = POk o s' ->
  eof s' = true /\ parse_kernings n m (reopen r s) = POk o (reopen r s').
Proof.
  intros HR Hs Hj H. unfold parse_kernings in *. unfold pbind in H at 1. cbn [get_index] in H. unfold pbind in H at 1. unfold ignore_err in H.
  destruct (u24_rel P j s HR) as (s2 & E & _). destruct (Z.leb_spec (j + 3) (zlen P)); [|lia]. rewrite E in H.
  destruct (locked_read _ _ s _ s2 Hs E) as [E1 L1]. cbv beta in H.
  match type of H with ?m s2 = _ => assert (K : locked m) by locked; destruct (K _ _ _ E1 H) as [E2 L2] end.
  split; [exact E2|]. unfold pbind at 1. cbn [get_index]. unfold pbind at 1. unfold ignore_err. unfold ReadUint24 in *. rewrite L1. cbv beta. apply L2.
Qed.

Lemma padded P q f j : bytes (P ++ q) -> zlen (P ++ q) <= MaxFontDataSize -> parse_sections (full P 0) = POk f (full P j) ->
  OffsetToVertKernings f + 3 <= zlen P -> parse_sections (full (P ++ q) 0) = POk f (full (P ++ q) j).
Proof.
  intros HPq HM E Hv. assert (HP : bytes P) by (apply Forall_app in HPq; tauto).
  assert (HM1 : zlen P <= MaxFontDataSize) by (rewrite zlen_app in HM; pose proof (zlen_nonneg q); lia).
  pose proof (zlen_nonneg P) as HZ. pose proof (rel_full P 0 ltac:(lia) HM1 HP) as R0.
  pose proof (prefix_result P HP) as Hp. destruct (parse_prefix (full P 0)) as [[mk ng] s1|e s1| |] eqn:Ep; try contradiction;
    [|rewrite sections_split in E; unfold pbind in E; rewrite Ep in E; discriminate].
  destruct Hp as (k & -> & Hk & Hq). destruct (locked_prefix (full P 0) _ _ eq_refl Ep) as [_ LP].
  destruct (section_offsets _ _ _ _ _ _ Ep E) as (h & sh & v & Eh & Ev & ->).
  pose proof (rel_full P k ltac:(lia) HM1 HP) as Rk. pose proof (kernings_rel P k ng horz_msg _ Rk) as KH.
  assert (Hh : k + 3 <= zlen P /\ rel P (k + 3 + 5 * le_at 3 P k) sh /\ v = k + 3 + 5 * le_at 3 P k /\ OffsetToVertKernings (mk h v) = v).
  { pose proof (le_at_range 3 P k HP). destruct (Z.leb_spec (k + 3) (zlen P)) as [L1|L1].
    - cbv zeta in KH. destruct (_ >? _); [destruct KH as (x & KH); congruence|]. destruct (_ <=? _); [|destruct KH as (x & KH); congruence].
      destruct KH as (x & KH & RH). rewrite KH in Eh. injection Eh as <- <-. pose proof (kernings_rel P _ ng vert_msg x RH) as KV.
      assert (v = k + 3 + 5 * le_at 3 P k).
      { destruct (_ <=? _); [|destruct KV as (y & KV & _); rewrite KV in Ev; injection Ev as <- _; reflexivity].
        cbv zeta in KV. destruct (_ >? _); [destruct KV as (y & KV); congruence|]. destruct (_ <=? _); [|destruct KV as (y & KV); congruence].
        destruct KV as (y & KV & _). rewrite KV in Ev. injection Ev as <- _. reflexivity. }
      splits; auto. subst v. destruct (Hq k (k + 3 + 5 * le_at 3 P k) (k + 3 + 5 * le_at 3 P k) ltac:(change (Index (full P k)) with k; lia) ltac:(lia) ltac:(lia)) as (_ & _ & Q & _). exact Q.
    - exfalso. destruct KH as (x & KH & RX & _). rewrite KH in Eh. injection Eh as <- <-. pose proof (kernings_rel P k ng vert_msg x RX) as KV.
      destruct (Z.leb_spec (k + 3) (zlen P)); [lia|]. destruct KV as (y & KV & _). rewrite KV in Ev. injection Ev as <- _.
      destruct (Hq k k k ltac:(cbn; lia) ltac:(lia) ltac:(lia)) as (_ & _ & Q & _). cbn [fst] in Q. lia. }
  destruct Hh as (L1 & RH & Hvv & Ho).
  destruct (locked_kernings P k ng horz_msg (full P k) h sh [(q, EOF)] Rk eq_refl L1 Eh) as [E1 K1].
  destruct (locked_kernings P _ ng vert_msg sh v (full P j) [(q, EOF)] RH E1 ltac:(lia) Ev) as [_ K2].
  specialize (LP [(q, EOF)]).
  assert (ES : parse_sections (reopen [(q, EOF)] (full P 0)) = POk (mk h v) (reopen [(q, EOF)] (full P j))).
  { rewrite sections_split. unfold pbind at 1. rewrite LP. unfold pbind at 1. rewrite K1. unfold pbind. rewrite K2. reflexivity. }
  assert (RR : rel (P ++ q) 0 (reopen [(q, EOF)] (full P 0))).
  { unfold rel, reopen, full, rest. cbn [Index Bytes eof input payload well_behaved]. splits; auto; try lia. intros _. destruct q; exact I. }
  pose proof (sections_result (P ++ q) _ RR) as HS. destruct (parse_sections (full (P ++ q) 0)) as [g s2|e s2| |]; try contradiction.
  - destruct HS as (j2 & s3 & -> & _ & E3 & (I3 & _) & _). rewrite ES in E3. injection E3 as <- <-. cbn in I3. now subst.
  - destruct HS as (s3 & E3). congruence.
Qed.
Lemma padding_exact p q g : within_bounds (p ++ q) -> parse_payload [(p, EOF)] = Ok g -> content_end g p <= zlen p ->
  parse_payload [(p ++ q, EOF)] = Ok (over (p ++ q) g).
Proof.
  intros [HPq HM] E Hc. assert (HP : bytes p) by (apply Forall_app in HPq; tauto).
  assert (HM1 : zlen p <= MaxFontDataSize) by (rewrite zlen_app in HM; pose proof (zlen_nonneg q); unfold MaxFontDataSize; lia).
  assert (D1 : delivers [(p, EOF)] p) by (split; [destruct p; exact I|reflexivity]).
  assert (D2 : delivers [(p ++ q, EOF)] (p ++ q)) by (split; [destruct (p ++ q); exact I|reflexivity]).
  pose proof (payload_result _ p D1 HP HM1) as R1. pose proof (payload_result _ _ D2 HPq HM) as R2.
  destruct (parse_sections (full p 0)) as [f s1|e s1| |] eqn:Es; try contradiction; [|congruence].
  destruct R1 as (j & t & -> & Hj & Et & Rt & Ent & Ct & _).
  assert (Eg : g = set_Data f (Bytes t)) by (destruct Ct as [X|[X _]]; congruence). subst g.
  pose proof (le_at_range 3 p (OffsetToVertKernings f) HP) as Hr3.
  assert (Hv : OffsetToVertKernings f + 3 <= zlen p). { rewrite content_end_le in Hc. change (OffsetToVertKernings (set_Data f (Bytes t))) with (OffsetToVertKernings f) in Hc. lia. }
  rewrite (padded p q f j HPq HM Es Hv) in R2. destruct R2 as (j2 & s2 & _ & _ & E2 & R2 & En2 & C2 & _).
  pose proof (reader_exact _ _ (conj HPq HM) D2) as RX. destruct (parse_payload [(p ++ q, EOF)]) as [g| | |] eqn:Ex; try contradiction.
  - destruct C2 as [C2|[C2 _]]; [|discriminate]. injection C2 as ->. f_equal.
    assert (HB : Bytes s2 = p ++ q); [|rewrite HB; reflexivity].
    cbn [received] in RX. destruct (_ <=? zlen []) eqn:El.
    + exfalso. rewrite content_end_le in El. change (OffsetToVertKernings (set_Data f (Bytes s2))) with (OffsetToVertKernings f) in El. change (zlen []) with 0 in El.
      pose proof (le_at_range 3 (p ++ q) (OffsetToVertKernings f) HPq). destruct Ent as (H0 & _). destruct (Z.leb_spec (OffsetToVertKernings f + 3 + 5 * le_at 3 (p ++ q) (OffsetToVertKernings f)) 0); [lia|discriminate].
    + cbn [orb app] in RX. injection RX as RX. exact RX.
  - destruct C2 as [C2|[C2 _]]; discriminate.
Qed.
