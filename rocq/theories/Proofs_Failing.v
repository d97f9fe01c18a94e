(** The parser does not look ahead, and reports the errors of the reader but for three places. *)
From Verif Require Import Base BaseFacts Model_Helpers Spec_Helpers Proofs_Helpers Model_Font Model_Parse Spec_Parse
  Proofs_Parse Proofs_Parse2 Proofs_Parse3 Proofs_Parse4 Proofs_Parse5 Proofs_Parse6 Proofs_Parse7 Proofs_Parse8.
From Verif Require Import Spec_Reader Proofs_Reader Proofs_Parse9 Spec_Failing.
From Coq Require Import Lia.

Definition at_ (b : list Z) (j : Z) (i : stream) : pst := mkP b j false i.
Definition goes_on {A} (a : action A) (b : list Z) (j : Z) (g : stream) : Prop :=
  exists v b' j' g', undisturbed g' /\ b' ++ sent g' = b ++ sent g /\ j' <= zlen b' /\
    forall r, a (at_ b j (g ++ r)) = POk v (at_ b' j' (g' ++ r)).
Definition decided {A} (a : action A) (b : list Z) (j : Z) (g : stream) : Prop :=
  (exists e, forall r, exists s', a (at_ b j (g ++ r)) = PErr e s') \/ (forall r, a (at_ b j (g ++ r)) = PPanic) \/ (forall r, a (at_ b j (g ++ r)) = PHang).
Definition reports {A} (a : action A) (b : list Z) (j : Z) (g : stream) : Prop :=
  forall c m rest, zlen (b ++ sent g ++ c) <= MaxFontDataSize ->
    exists e s', a (at_ b j (g ++ (c, Fail m) :: rest)) = PErr e s' /\ (e = m \/ In e misreported).
Definition prompt {A} (a : action A) : Prop := forall b j g, undisturbed g -> j <= zlen b -> goes_on a b j g \/ decided a b j g \/ reports a b j g.

Lemma prompt_bind {A B} (a : action A) (k : A -> action B) : prompt a -> (forall v, prompt (k v)) -> prompt (pbind a k).
Proof.
  intros H1 H2 b j g U J. destruct (H1 b j g U J) as [(v & b' & j' & g' & U' & E & J' & R)|[[(e & R)|[R|R]]|R]].
  - destruct (H2 v b' j' g' U' J') as [(w & b2 & j2 & g2 & U2 & E2 & J2 & R2)|[[(e & R2)|[R2|R2]]|R2]].
    + left. exists w, b2, j2, g2. split; [exact U2|]. split; [congruence|]. split; [exact J2|]. intros r. unfold pbind. rewrite R. apply R2.
    + right. left. left. exists e. intros r. unfold pbind. rewrite R. apply R2.
    + right. left. right. left. intros r. unfold pbind. rewrite R. apply R2.
    + right. left. right. right. intros r. unfold pbind. rewrite R. apply R2.
    + right. right. intros c m rest L. unfold pbind. rewrite R. apply R2. rewrite app_assoc in *. rewrite E. exact L.
  - right. left. left. exists e. intros r. unfold pbind. destruct (R r) as [s' ->]. eauto.
  - right. left. right. left. intros r. unfold pbind. now rewrite R.
  - right. left. right. right. intros r. unfold pbind. now rewrite R.
  - right. right. intros c m rest L. unfold pbind. destruct (R c m rest L) as (e & s' & -> & M). eauto.
Qed.
Lemma prompt_ret {A} (v : A) : prompt (pret v).
Proof. intros b j g U J. left. exists v, b, j, g. auto. Qed.
Lemma prompt_err {A} e : prompt (perr e : action A).
Proof. intros b j g U J. right. left. left. exists e. intros r. exists (at_ b j (g ++ r)). reflexivity. Qed.
Lemma prompt_when b e : prompt (when b e).
Proof. unfold when. destruct b; [apply prompt_err|apply prompt_ret]. Qed.
Lemma prompt_index : prompt get_index.
Proof. intros b j g U J. left. exists j, b, j, g. auto. Qed.
Lemma prompt_on {A} (f : list Z -> outcome A) : prompt (on_bytes f).
Proof.
  intros b j g U J. unfold goes_on, decided, on_bytes. cbn [at_ Bytes]. destruct (f b) as [v|e| |].
  - left. exists v, b, j, g. auto.
  - right. left. left. exists e. intros r. eauto.
  - right. left. right. left. reflexivity.
  - right. left. right. right. reflexivity.
Qed.
Lemma prompt_if {A} (b : bool) (m1 m2 : action A) : prompt m1 -> prompt m2 -> prompt (if b then m1 else m2).
Proof. destruct b; auto. Qed.

Lemma prompt_more : forall k b j g, undisturbed g ->
  (exists b' g', undisturbed g' /\ b' ++ sent g' = b ++ sent g /\ zlen b <= zlen b' /\ (length g' < length g)%nat /\
     forall r, readMore_loop k (at_ b j (g ++ r)) = POk tt (at_ b' j (g' ++ r))) \/
  (exists e, forall r, exists s', readMore_loop k (at_ b j (g ++ r)) = PErr e s') \/
  (forall c m rest, zlen (b ++ sent g ++ c) <= MaxFontDataSize -> exists s', readMore_loop k (at_ b j (g ++ (c, Fail m) :: rest)) = PErr m s').
Proof.
  induction k as [|k IH]; intros b j g U; [right; left; eexists; intros r; eexists; reflexivity|].
  destruct g as [|[chunk err] g].
  - right. right. intros c m rest L. cbn [sent map concat app] in L. rewrite zlen_app in L. eexists. cbn [app readMore_loop at_ input next_read Bytes].
    destruct (Z.ltb_spec MaxFontDataSize (zlen b + zlen c)); [lia|]. rewrite andb_false_r. reflexivity.
  - pose proof (Forall_inv U) as U1. cbn [snd] in U1. subst err. apply Forall_inv_tail in U. change (sent ((chunk, NoErr) :: g)) with (chunk ++ sent g).
    cbn [app readMore_loop at_ input next_read Bytes Index eof].
    destruct ((0 <? zlen chunk) && (MaxFontDataSize <? zlen b + zlen chunk)) eqn:E1; [right; left; eexists; intros r; eexists; reflexivity|].
    destruct (0 <? zlen chunk) eqn:E2.
    + left. exists (b ++ chunk), g. split; [exact U|]. split; [now rewrite app_assoc|]. split; [rewrite zlen_app; pose proof (zlen_nonneg chunk); lia|].
      split; [cbn [length]; lia|]. reflexivity.
    + assert (chunk = []) by (destruct chunk; [reflexivity|rewrite zlen_cons in E2; pose proof (zlen_nonneg chunk); apply Z.ltb_ge in E2; lia]). subst chunk.
      rewrite app_nil_r. destruct (IH b j g U) as [(b' & g' & H1 & H2 & H3 & H4 & H5)|[(e & R)|R]].
      * left. exists b', g'. split; [exact H1|]. split; [exact H2|]. split; [exact H3|]. split; [cbn [length]; lia|exact H5].
      * right. left. exists e. exact R.
      * right. right. exact R.
Qed.
Lemma prompt_upto n : forall l b j g, (length g <= l)%nat -> undisturbed g ->
  (exists b' g', undisturbed g' /\ b' ++ sent g' = b ++ sent g /\ n <= zlen b' /\
     forall r fuel, (length g < fuel)%nat -> readUpTo_loop fuel n (at_ b j (g ++ r)) = POk tt (at_ b' n (g' ++ r))) \/
  (exists e, forall r fuel, (length g < fuel)%nat -> exists s', readUpTo_loop fuel n (at_ b j (g ++ r)) = PErr e s') \/
  (forall c m rest fuel, zlen (b ++ sent g ++ c) <= MaxFontDataSize -> (length g < fuel)%nat -> exists s', readUpTo_loop fuel n (at_ b j (g ++ (c, Fail m) :: rest)) = PErr m s').
Proof.
  induction l as [|l IH]; intros b j g L U; (destruct (Z.ltb_spec (zlen b) n) as [Hn|Hn];
    [|left; exists b, g; split; [exact U|]; split; [reflexivity|]; split; [exact Hn|]; intros r fuel _; destruct fuel; cbn [readUpTo_loop at_ Bytes];
      (destruct (Z.ltb_spec (zlen b) n); [lia|reflexivity])]).
  - assert (g = []) by (destruct g; [reflexivity|cbn in L; lia]). subst g.
    right. right. intros c m rest fuel LS LF. destruct fuel as [|fuel]; [cbn in LF; lia|].
    destruct (prompt_more 3 b j [] U) as [(b' & g' & _ & _ & _ & X & _)|[(e & R)|R]]; [cbn in X; lia| |].
    + destruct (R []) as [s' R']. discriminate R'.
    + destruct (R c m rest LS) as [s' R']. exists s'.
      transitivity (pbind (readMore_loop 3) (fun _ => readUpTo_loop fuel n) (at_ b j ([] ++ (c, Fail m) :: rest))).
      * cbn [readUpTo_loop at_ Bytes eof app]. destruct (Z.ltb_spec (zlen b) n); [reflexivity|lia].
      * unfold pbind. rewrite R'. reflexivity.
  - assert (ST : forall r fuel, readUpTo_loop (S fuel) n (at_ b j (g ++ r)) = pbind (readMore_loop 3) (fun _ => readUpTo_loop fuel n) (at_ b j (g ++ r))).
    { intros r fuel. cbn [readUpTo_loop at_ Bytes eof]. destruct (Z.ltb_spec (zlen b) n); [reflexivity|lia]. }
    destruct (prompt_more 3 b j g U) as [(b' & g' & U' & E & LB & X & R)|[(e & R)|R]].
    + destruct (IH b' j g' ltac:(lia) U') as [(b2 & g2 & U2 & E2 & N2 & R2)|[(e & R2)|R2]].
      * left. exists b2, g2. split; [exact U2|]. split; [congruence|]. split; [exact N2|]. intros r fuel LF. destruct fuel as [|fuel]; [lia|].
        rewrite ST. unfold pbind. rewrite R. apply R2. lia.
      * right. left. exists e. intros r fuel LF. destruct fuel as [|fuel]; [lia|]. rewrite ST. unfold pbind. rewrite R. apply R2. lia.
      * right. right. intros c m rest fuel LS LF. destruct fuel as [|fuel]; [lia|]. rewrite ST. unfold pbind. rewrite R. apply R2; [|lia].
        rewrite app_assoc in *. rewrite E. exact LS.
    + right. left. exists e. intros r fuel LF. destruct fuel as [|fuel]; [lia|]. rewrite ST. unfold pbind. destruct (R r) as [s' ->]. eauto.
    + right. right. intros c m rest fuel LS LF. destruct fuel as [|fuel]; [lia|]. rewrite ST. unfold pbind. destruct (R c m rest LS) as [s' ->]. eauto.
Qed.
Lemma prompt_readUpTo n : prompt (readUpTo n).
Proof.
  intros b j g U J. unfold goes_on, decided, reports, readUpTo. cbn [at_ Index input]. destruct (n <=? j); [right; left; right; left; reflexivity|].
  assert (LF : forall r : stream, (length g < S (S (length (g ++ r))))%nat) by (intros r; rewrite app_length; lia).
  destruct (prompt_upto n (length g) b j g (le_n _) U) as [(b' & g' & U' & E & N & R)|[(e & R)|R]].
  - left. exists tt, b', n, g'. split; [exact U'|]. split; [exact E|]. split; [exact N|]. intros r. apply (R r _ (LF r)).
  - right. left. left. exists e. intros r. apply (R r _ (LF r)).
  - right. right. intros c m rest L. destruct (R c m rest _ L (LF ((c, Fail m) :: rest))) as [s' E]. exists m, s'. split; [exact E|]. left. reflexivity.
Qed.
Lemma prompt_advance n : prompt (AdvanceBytes n).
Proof.
  unfold AdvanceBytes. destruct (n =? 0); [apply prompt_ret|]. destruct (n <? 0); [intros b j g U J; right; left; right; left; reflexivity|].
  intros b j g U J. exact (prompt_readUpTo (j + n) b j g U J).
Qed.
Lemma prompt_read {A} n (d : list Z -> outcome A) : prompt (read_with n d).
Proof. unfold read_with. apply prompt_bind; [apply prompt_index|]. intros. apply prompt_bind; [apply prompt_readUpTo|]. intros. apply prompt_on. Qed.
Lemma prompt_str n : prompt (read_str n).
Proof. unfold read_str. apply prompt_if; [apply prompt_ret|]. apply prompt_bind; [apply prompt_index|]. intros. apply prompt_bind; [apply prompt_readUpTo|]. intros. apply prompt_on. Qed.
Lemma prompt_rules m a b : In a misreported -> prompt (parse_rules m a b).
Proof.
  intros HA. unfold parse_rules. apply prompt_bind; [apply prompt_index|]. intros o. apply prompt_bind; [apply prompt_read|]. intros num.
  destruct (Z.gtb_spec num 0) as [Hn|]; [|apply prompt_ret]. apply prompt_bind; [apply prompt_advance|]. intros _.
  assert (K : forall len, prompt (run _ <- when (len <? num * 8) a; run _ <- when (len >? num * m) b; run _ <- AdvanceBytes len; pret o)).
  { intros len. apply prompt_bind; [apply prompt_when|]. intros _. apply prompt_bind; [apply prompt_when|]. intros _. apply prompt_bind; [apply prompt_advance|]. intros _. apply prompt_ret. }
  assert (Z0 : forall s, (run _ <- when (0 <? num * 8) a; run _ <- when (0 >? num * m) b; run _ <- AdvanceBytes 0; pret o) s = PErr a s).
  { intros s. unfold pbind, when. destruct (Z.ltb_spec 0 (num * 8)); [reflexivity|lia]. }
  intros bs j g U J. destruct (prompt_read 3 DecodeUint24LE bs j g U J) as [(v & b' & j' & g' & U' & E & J' & R)|[[(e & R)|[R|R]]|R]].
  - destruct (K v b' j' g' U' J') as [(w & b2 & j2 & g2 & U2 & E2 & J2 & R2)|[[(e & R2)|[R2|R2]]|R2]].
    + left. exists w, b2, j2, g2. split; [exact U2|]. split; [congruence|]. split; [exact J2|]. intros r. unfold pbind at 1, ignore_err, ReadUint24. rewrite R. apply R2.
    + right. left. left. exists e. intros r. unfold pbind at 1, ignore_err, ReadUint24. rewrite R. apply R2.
    + right. left. right. left. intros r. unfold pbind at 1, ignore_err, ReadUint24. rewrite R. apply R2.
    + right. left. right. right. intros r. unfold pbind at 1, ignore_err, ReadUint24. rewrite R. apply R2.
    + right. right. intros c mm rest L. unfold pbind at 1, ignore_err, ReadUint24. rewrite R. apply R2. rewrite app_assoc in *. rewrite E. exact L.
  - right. left. left. exists a. intros r. unfold pbind at 1, ignore_err, ReadUint24. destruct (R r) as [s' ->]. rewrite Z0. eauto.
  - right. left. right. left. intros r. unfold pbind at 1, ignore_err, ReadUint24. now rewrite R.
  - right. left. right. right. intros r. unfold pbind at 1, ignore_err, ReadUint24. now rewrite R.
  - right. right. intros c mm rest L. unfold pbind at 1, ignore_err, ReadUint24. destruct (R c mm rest L) as (e & s' & -> & _). rewrite Z0. eauto.
Qed.
Ltac prompt := repeat first
  [ apply prompt_rules; cbn [misreported In]; auto; fail | apply prompt_bind | match goal with |- forall _, _ => intro end | apply prompt_ret | apply prompt_err | apply prompt_when
  | apply prompt_index | apply prompt_on | apply prompt_readUpTo | apply prompt_advance | apply prompt_read | apply prompt_str | apply prompt_if
  | match goal with a : (_ * _)%type |- _ => destruct a end ].
Lemma prompt_prefix : prompt parse_prefix.
Proof.
  unfold parse_prefix, parse_header, parse_metrics, parse_dyes, parse_palettes, parse_glyph_names, parse_glyph_masks, parse_words, parse_settings,
    parse_switches, parse_mapping, parse_conditions, parse_utf8_sets, parse_glyph_sets, parse_u16_blocks, parse_utf8_rules, parse_glyph_rules,
    ReadShortStr, ReadString. prompt.
Qed.

Definition yields {A} (a : action A) (P : A -> Prop) : Prop := forall s v s', a s = POk v s' -> P v.
Lemma yields_bind {A B} (a : action A) (k : A -> action B) P : (forall v, yields (k v) P) -> yields (pbind a k) P.
Proof. intros H s v s' E. unfold pbind in E. destruct (a s) as [x s1| | |]; try discriminate. exact (H x s1 v s' E). Qed.
Lemma yields_ret {A} (x : A) (P : A -> Prop) : P x -> yields (pret x) P.
Proof. intros H s v s' E. injection E as <- _. exact H. Qed.
Lemma prefix_yields : yields parse_prefix (fun x => forall h v, OffsetToHorzKernings (fst x h v) = h).
Proof.
  unfold parse_prefix. repeat (apply yields_bind; intro; repeat match goal with a : (_ * _)%type |- _ => destruct a end).
  apply yields_ret. reflexivity.
Qed.
Lemma kernings_at n m s o s' : parse_kernings n m s = POk o s' -> o = Index s.
Proof.
  unfold parse_kernings. unfold pbind at 1. cbn [get_index]. apply (yields_bind _ _ (fun o => o = Index s)). intros num.
  destruct (num >? 0); [|now apply yields_ret]. repeat (apply yields_bind; intros _). now apply yields_ret.
Qed.

Lemma payload_ok i f : parse_payload i = Ok f -> exists f0 s, parse_sections (initial i) = POk f0 s /\ OffsetToHorzKernings f = OffsetToHorzKernings f0.
Proof.
  rewrite parse_payload_body. unfold parse_body, pbind at 1. destruct (parse_sections (initial i)) as [f0 s| | |]; try discriminate.
  intros H. exists f0, s. split; [reflexivity|]. unfold pbind, on_bytes in H. destruct (EnsureEOF s) as [u s'| | |]; try discriminate. injection H as <-. reflexivity.
Qed.
Lemma failing_reader g c m rest : stream_bytes g -> undisturbed g -> zlen (sent g ++ c) <= MaxFontDataSize ->
  (exists e, parse_payload (g ++ (c, Fail m) :: rest) = Err e /\ (e = m \/ In e misreported)) \/
  (exists e, forall r, parse_payload (g ++ r) = Err e) \/
  (exists k, k <= zlen (sent g) /\ forall r f, parse_payload (g ++ r) = Ok f -> OffsetToHorzKernings f = k).
Proof.
  intros HB U L.
  assert (PF : forall i e s, parse_prefix (initial i) = PErr e s -> parse_payload i = Err e).
  { intros i e s E. rewrite parse_payload_body. unfold parse_body. unfold pbind at 1. rewrite sections_split. unfold pbind at 1. rewrite E. reflexivity. }
  destruct (prompt_prefix [] 0 g U ltac:(change (zlen []) with 0; lia)) as [([mk n] & b' & j' & g' & U' & E & J' & R)|[[(e & R)|[R|R]]|R]].
  - right. right. exists j'. split; [cbn [app] in E; rewrite <- E, zlen_app; pose proof (zlen_nonneg (sent g')); lia|].
    intros r f H. destruct (payload_ok _ _ H) as (f0 & s & H1 & ->). specialize (R r). change (at_ [] 0 (g ++ r)) with (initial (g ++ r)) in R.
    destruct (section_offsets _ _ _ _ _ _ R H1) as (h & sh & v & Eh & _ & ->). apply kernings_at in Eh.
    pose proof (prefix_yields _ _ _ R h v) as Y. cbn [fst] in Y. rewrite Y, Eh. reflexivity.
  - right. left. exists e. intros r. destruct (R r) as [s' Er]. exact (PF _ _ _ Er).
  - exfalso. destruct (sections_no_panic (g ++ [])) as [N _]; [rewrite app_nil_r; exact HB|]. apply N. rewrite sections_split. unfold pbind at 1.
    change (initial (g ++ [])) with (at_ [] 0 (g ++ [])). rewrite R. reflexivity.
  - exfalso. destruct (sections_no_panic (g ++ [])) as [_ N]; [rewrite app_nil_r; exact HB|]. apply N. rewrite sections_split. unfold pbind at 1.
    change (initial (g ++ [])) with (at_ [] 0 (g ++ [])). rewrite R. reflexivity.
  - left. destruct (R c m rest L) as (e & s' & E & M). exists e. split; [exact (PF _ _ _ E)|exact M].
Qed.

Lemma payload_sent g q : undisturbed g -> payload (g ++ [(q, EOF)]) = sent g ++ q.
Proof.
  induction g as [|[chunk err] g IH]; intros U; [reflexivity|]. pose proof (Forall_inv U) as U1. cbn [snd] in U1. subst err. apply Forall_inv_tail in U.
  change (sent ((chunk, NoErr) :: g)) with (chunk ++ sent g). cbn [app payload]. rewrite (IH U). now rewrite app_assoc.
Qed.
Lemma received_until n q : forall g got, undisturbed g -> zlen (got ++ sent g) < n -> received n got (g ++ [(q, EOF)]) = (got ++ sent g ++ q, true, []).
Proof.
  induction g as [|[chunk err] g IH]; intros got U L; cbn [app received].
  - change (sent []) with (@nil Z) in *. rewrite app_nil_r in L. destruct (Z.leb_spec n (zlen got)); [lia|]. reflexivity.
  - pose proof (Forall_inv U) as U1. cbn [snd] in U1. subst err. apply Forall_inv_tail in U. change (sent ((chunk, NoErr) :: g)) with (chunk ++ sent g) in *.
    rewrite app_assoc in L. pose proof L as L2. rewrite !zlen_app in L2. pose proof (zlen_nonneg chunk). pose proof (zlen_nonneg (sent g)).
    destruct (Z.leb_spec n (zlen got)); [lia|]. rewrite (IH _ U L). now rewrite !app_assoc.
Qed.
Lemma failure_reported g q p c m rest f : undisturbed g -> within_bounds p -> delivers (g ++ [(q, EOF)]) p -> parse_payload [(p, EOF)] = Ok f ->
  zlen (sent g) < OffsetToHorzKernings f -> zlen (sent g ++ c) <= MaxFontDataSize ->
  exists e, parse_payload (g ++ (c, Fail m) :: rest) = Err e /\ (e = m \/ In e misreported).
Proof.
  intros U HB HD HP L LM.
  assert (LC : OffsetToHorzKernings f <= content_end f p).
  { destruct (offsets_for_all _ _ _ _ (Forall_cons (p, EOF) (proj1 HB : bytes (fst (p, EOF))) (Forall_nil _)) HP) as [O _].
    unfold offsets_in_order in O. unfold content_end. pose proof (le_at_range 3 p (OffsetToVertKernings f) (proj1 HB)) as R. unfold le_at in R. lia. }
  pose proof (proj2 HD) as EP. rewrite (payload_sent _ _ U) in EP.
  assert (SB : stream_bytes g).
  { destruct HB as [HB _]. rewrite <- EP in HB. apply Forall_app in HB. destruct HB as [HB _]. clear - HB. induction g as [|r g IH]; [constructor|].
    cbn [sent map concat] in HB. apply Forall_app in HB. constructor; [apply HB|apply IH, HB]. }
  pose proof (reader_exact _ p HB HD) as X. rewrite HP in X. rewrite (received_until _ _ g []) in X; [|exact U|cbn [app]; lia]. cbn [orb] in X.
  destruct (failing_reader g c m rest SB U LM) as [H|[(e & H)|(k & K & H)]]; [exact H| |].
  - rewrite H in X. discriminate.
  - apply H in X. cbn [over OffsetToHorzKernings] in X. lia.
Qed.
