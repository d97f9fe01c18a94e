(** For every reader: what the sections were parsed from, and what makes the end-of-file check panic. *)
From Verif Require Import Base BaseFacts Model_Helpers Spec_Helpers Proofs_Helpers Model_Font Model_Parse Spec_Parse
  Proofs_Parse Proofs_Parse2 Proofs_Parse3 Proofs_Parse4 Proofs_Parse5 Proofs_Parse6 Proofs_Parse7 Proofs_Parse8 Proofs_Parse9.
From Verif Require Import Spec_Reader Proofs_Reader.
From Coq Require Import Lia.

Definition from_ (s : pst) (i : stream) : pst := mkP (Bytes s) (Index s) false i.
Definition state_of {A} (p : pres A) : option pst := match p with POk _ s => Some s | PErr _ s => Some s | _ => None end.
Definition put {A} (p : pres A) (s : pst) : pres A := match p with POk v _ => POk v s | PErr e _ => PErr e s | r => r end.
(** what was taken from the reader decides the result *)
Definition tight {A} (a : action A) : Prop := forall s s', state_of (a s) = Some s' ->
  (eof s' = false -> eof s = false) /\
  (eof s' = false -> exists u, input s = u ++ input s' /\ forall r, a (from_ s (u ++ r)) = put (a s) (from_ s' r)).

Lemma from_same s : eof s = false -> from_ s (input s) = s.
Proof. destruct s; cbn. intros ->. reflexivity. Qed.
Lemma tight_bind {A B} (a : action A) (k : A -> action B) : tight a -> (forall v, tight (k v)) -> tight (pbind a k).
Proof.
  intros H1 H2 s s' E. unfold pbind in *. specialize (H1 s). destruct (a s) as [v s1|e s1| |] eqn:Ea; cbn [state_of put] in *; try discriminate.
  - destruct (H1 s1 eq_refl) as [F1 L1]. destruct (H2 v s1 s' E) as [F2 L2]. split; [auto|]. intros F.
    destruct (L1 (F2 F)) as (u1 & U1 & R1). destruct (L2 F) as (u2 & U2 & R2). exists (u1 ++ u2). split; [rewrite U1, U2, app_assoc; reflexivity|].
    intros r. rewrite <- app_assoc, R1. apply R2.
  - injection E as <-. destruct (H1 s1 eq_refl) as [F1 L1]. split; [exact F1|]. intros F. destruct (L1 F) as (u & U & R). exists u. split; [exact U|]. intros r. rewrite R. reflexivity.
Qed.
Lemma tight_here {A} (a : action A) : (forall s, state_of (a s) = Some s \/ state_of (a s) = None) -> (forall s i, a (from_ s i) = put (a s) (from_ s i)) -> tight a.
Proof.
  intros H1 H2 s s' E. destruct (H1 s) as [X|X]; rewrite X in E; [injection E as <-|discriminate]. split; [auto|]. intros F. exists []. split; [reflexivity|]. intros r. apply H2.
Qed.
Lemma tight_ret {A} (v : A) : tight (pret v).
Proof. apply tight_here; [left; reflexivity|reflexivity]. Qed.
Lemma tight_err {A} e : tight (perr e : action A).
Proof. apply tight_here; [left; reflexivity|reflexivity]. Qed.
Lemma tight_when b e : tight (when b e).
Proof. unfold when. destruct b; [apply tight_err|apply tight_ret]. Qed.
Lemma tight_index : tight get_index.
Proof. apply tight_here; [left; reflexivity|reflexivity]. Qed.
Lemma tight_on {A} (f : list Z -> outcome A) : tight (on_bytes f).
Proof. apply tight_here; [intros s|intros s i]; unfold on_bytes; cbn [from_ Bytes]; destruct (f (Bytes s)); cbn [state_of put]; auto. Qed.
Lemma tight_if {A} (b : bool) (m1 m2 : action A) : tight m1 -> tight m2 -> tight (if b then m1 else m2).
Proof. destruct b; auto. Qed.
Lemma tight_ignore m : tight m -> tight (ignore_err m).
Proof.
  intros H s s' E. unfold ignore_err in *. specialize (H s). destruct (m s) as [v s1|e s1| |] eqn:Em; cbn [state_of put] in *; try discriminate; injection E as <-;
    destruct (H s1 eq_refl) as [F L]; (split; [exact F|]); intros X; destruct (L X) as (u & U & R); exists u; (split; [exact U|]); intros r; rewrite R; reflexivity.
Qed.
Lemma tight_more : forall k, tight (readMore_loop k).
Proof.
  induction k as [|k IH]; [apply tight_here; [left; reflexivity|reflexivity]|]. intros s s' E. cbn [readMore_loop] in *.
  destruct (input s) as [|[chunk err] rest] eqn:EI; cbn [next_read] in *.
  - change (0 <? zlen []) with false in E. cbn [andb state_of] in E. injection E as <-. cbn [eof]. split; discriminate.
  - destruct ((0 <? zlen chunk) && (MaxFontDataSize <? zlen (Bytes s) + zlen chunk)) eqn:E1; cbn [state_of] in E.
    + injection E as <-. cbn [eof input Bytes Index]. split; [auto|]. intros F. exists [(chunk, err)]. split; [reflexivity|]. intros r.
      cbn [app from_ input next_read Bytes Index eof]. rewrite E1. cbn [put]. unfold from_. cbn [Bytes Index]. reflexivity.
    + destruct err.
      * destruct (0 <? zlen chunk) eqn:E2; cbn [state_of] in E.
        -- injection E as <-. cbn [eof input Bytes Index]. split; [auto|]. intros F. exists [(chunk, NoErr)]. split; [reflexivity|]. intros r.
           cbn [app from_ input next_read Bytes Index eof]. rewrite E2 in *. rewrite E1. reflexivity.
        -- destruct (IH _ _ E) as [F L]. cbn [eof input] in F, L. split; [exact F|]. intros X. destruct (L X) as (u & U & R).
           exists ((chunk, NoErr) :: u). split; [rewrite U; reflexivity|]. intros r. cbn [app from_ input next_read Bytes Index eof]. rewrite E2 in *. rewrite E1.
           specialize (R r). unfold from_ in R at 1. cbn [Bytes Index] in R. exact R.
      * injection E as <-. cbn [eof]. split; discriminate.
      * injection E as <-. cbn [eof input Bytes Index]. split; [auto|]. intros F. exists [(chunk, Fail m)]. split; [reflexivity|]. intros r.
        cbn [app from_ input next_read Bytes Index eof]. rewrite E1. reflexivity.
Qed.
Lemma more_takes : forall k s s', state_of (readMore_loop (S k) s) = Some s' -> eof s' = false -> (length (input s') < length (input s))%nat.
Proof.
  induction k as [|k IH]; intros s s' E F; cbn [readMore_loop] in E; (destruct (input s) as [|[chunk err] rest] eqn:EI; cbn [next_read] in E;
    [change (0 <? zlen []) with false in E; cbn [andb state_of] in E; injection E as <-; cbn [eof] in F; discriminate|]);
    (destruct ((0 <? zlen chunk) && (MaxFontDataSize <? zlen (Bytes s) + zlen chunk)) eqn:E1; cbn [state_of] in E; [injection E as <-; cbn [input length]; lia|]);
    destruct err; try (injection E as <-; cbn [eof input length] in *; discriminate || lia);
    (destruct (0 <? zlen chunk); [injection E as <-; cbn [input length]; lia|]).
  - injection E as <-. cbn [input length]. lia.
  - change (state_of (readMore_loop (S k) (mkP (Bytes s ++ chunk) (Index s) (eof s) rest)) = Some s') in E. apply IH in E; [|exact F]. cbn [input length] in *. lia.
Qed.
Lemma tight_loop n : forall fuel s s', state_of (readUpTo_loop fuel n s) = Some s' ->
  (eof s' = false -> eof s = false) /\
  (eof s' = false -> exists u, input s = u ++ input s' /\
     forall r fuel', (length u < fuel')%nat -> readUpTo_loop fuel' n (from_ s (u ++ r)) = put (readUpTo_loop fuel n s) (from_ s' r)).
Proof.
  induction fuel as [|fuel IH]; intros s s' E.
  - cbn [readUpTo_loop] in *. destruct (zlen (Bytes s) <? n) eqn:EB; [destruct (eof s) eqn:ES; [injection E as <-; rewrite ES; split; discriminate|discriminate]|].
    injection E as <-. cbn [eof input Bytes Index]. split; [auto|]. intros F. exists []. split; [reflexivity|]. intros r fuel' _.
    destruct fuel'; cbn [readUpTo_loop from_ Bytes app Index eof input]; rewrite EB; reflexivity.
  - cbn [readUpTo_loop] in *. destruct (zlen (Bytes s) <? n) eqn:EB.
    + destruct (eof s) eqn:ES; [injection E as <-; rewrite ES; split; discriminate|]. split; [auto|]. intros F. unfold pbind in E |- *.
      destruct (readMore s) as [[] s1|e s1| |] eqn:EM; cbn [state_of put] in E |- *; try discriminate.
      * destruct (IH s1 s' E) as [F1 L1]. assert (ST : state_of (readMore_loop 3 s) = Some s1) by (unfold readMore in EM; rewrite EM; reflexivity).
        destruct (tight_more 3 s s1 ST) as [_ L2]. destruct (L2 (F1 F)) as (u2 & U2 & R2). destruct (L1 F) as (u1 & U1 & R1).
        pose proof (more_takes 2 s s1 ST (F1 F)) as T. exists (u2 ++ u1). split; [rewrite U2, U1, app_assoc; reflexivity|].
        intros r fuel' LF. rewrite app_length in LF. rewrite U2, app_length in T. destruct fuel' as [|fuel']; [lia|].
        cbn [readUpTo_loop from_ Bytes eof]. rewrite EB. unfold pbind, readMore. rewrite <- app_assoc. change (mkP (Bytes s) (Index s) false (u2 ++ u1 ++ r)) with (from_ s (u2 ++ u1 ++ r)).
        rewrite R2. unfold readMore in EM. rewrite EM. cbn [put]. apply R1. lia.
      * injection E as <-. assert (ST : state_of (readMore_loop 3 s) = Some s1) by (unfold readMore in EM; rewrite EM; reflexivity).
        destruct (tight_more 3 s s1 ST) as [_ L2]. destruct (L2 F) as (u2 & U2 & R2). exists u2. split; [exact U2|]. intros r fuel' LF. destruct fuel' as [|fuel']; [lia|].
        cbn [readUpTo_loop from_ Bytes eof]. rewrite EB. unfold pbind, readMore. change (mkP (Bytes s) (Index s) false (u2 ++ r)) with (from_ s (u2 ++ r)).
        rewrite R2. unfold readMore in EM. rewrite EM. reflexivity.
    + injection E as <-. cbn [eof input Bytes Index]. split; [auto|]. intros F. exists []. split; [reflexivity|]. intros r fuel' _.
      destruct fuel'; cbn [readUpTo_loop from_ Bytes app Index eof input]; rewrite EB; reflexivity.
Qed.
Lemma tight_readUpTo n : tight (readUpTo n).
Proof.
  intros s s' E. unfold readUpTo in *. destruct (n <=? Index s) eqn:EN; [discriminate|]. destruct (tight_loop n _ s s' E) as [F L]. split; [exact F|].
  intros X. destruct (L X) as (u & U & R). exists u. split; [exact U|]. intros r. cbn [from_ Index input]. rewrite EN. apply R. rewrite app_length. lia.
Qed.
Lemma tight_advance n : tight (AdvanceBytes n).
Proof.
  unfold AdvanceBytes. destruct (n =? 0); [apply tight_ret|]. destruct (n <? 0); [intros s s' E; discriminate|].
  intros s s' E. destruct (tight_readUpTo (Index s + n) s s' E) as [F L]. split; [exact F|]. exact L.
Qed.
Lemma tight_read {A} n (d : list Z -> outcome A) : tight (read_with n d).
Proof. unfold read_with. apply tight_bind; [apply tight_index|]. intros. apply tight_bind; [apply tight_readUpTo|]. intros. apply tight_on. Qed.
Lemma tight_str n : tight (read_str n).
Proof. unfold read_str. apply tight_if; [apply tight_ret|]. apply tight_bind; [apply tight_index|]. intros. apply tight_bind; [apply tight_readUpTo|]. intros. apply tight_on. Qed.
Ltac tight := repeat first
  [ apply tight_bind | match goal with |- forall _, _ => intro end | apply tight_ret | apply tight_err | apply tight_when | apply tight_ignore
  | apply tight_index | apply tight_on | apply tight_readUpTo | apply tight_advance | apply tight_read | apply tight_str | apply tight_if
  | match goal with a : (_ * _)%type |- _ => destruct a end ].
Lemma tight_sections : tight parse_sections.
Proof.
  unfold parse_sections, parse_header, parse_metrics, parse_dyes, parse_palettes, parse_glyph_names, parse_glyph_masks, parse_words, parse_settings,
    parse_switches, parse_mapping, parse_conditions, parse_utf8_sets, parse_glyph_sets, parse_u16_blocks, parse_utf8_rules, parse_glyph_rules, parse_rules, parse_kernings,
    ReadShortStr, ReadString. tight.
Qed.

(** ** the check at the end *)
Definition idle (r : list Z * read_err) : Prop := r = ([], NoErr).
Lemma more_unended : forall k s s', eof s = false -> readMore_loop k s = POk tt s' -> eof s' = false ->
  exists between chunk rest, input s = between ++ (chunk, NoErr) :: rest /\ Forall idle between /\ (length between < k)%nat /\ chunk <> [] /\
    zlen (Bytes s) + zlen chunk <= MaxFontDataSize.
Proof.
  induction k as [|k IH]; intros s s' F E F'; [discriminate|]. cbn [readMore_loop] in E. destruct (input s) as [|[chunk err] rest] eqn:EI; cbn [next_read] in E.
  - change (0 <? zlen []) with false in E. cbn [andb] in E. injection E as <-. discriminate.
  - destruct ((0 <? zlen chunk) && (MaxFontDataSize <? zlen (Bytes s) + zlen chunk)) eqn:E1; [discriminate|]. destruct err; [|injection E as <-; discriminate|discriminate].
    destruct (0 <? zlen chunk) eqn:E2.
    + exists [], chunk, rest. split; [reflexivity|]. split; [constructor|]. split; [cbn; lia|]. split; [intros ->; discriminate|]. cbn [andb] in E1. apply Z.ltb_ge in E1. exact E1.
    + assert (chunk = []) by (destruct chunk; [reflexivity|rewrite zlen_cons in E2; pose proof (zlen_nonneg chunk); apply Z.ltb_ge in E2; lia]). subst chunk.
      apply IH in E; [|exact F|exact F']. destruct E as (b & c & r & E3 & E4 & E5 & E6 & E7). cbn [input] in E3. subst rest. rewrite app_nil_r in E7.
      exists (([], NoErr) :: b), c, r. split; [reflexivity|]. split; [constructor; [reflexivity|exact E4]|]. split; [cbn; lia|]. split; [exact E6|exact E7].
Qed.
Lemma more_idle chunk rest : chunk <> [] -> forall k b B j, Forall idle b -> (length b < k)%nat -> zlen B + zlen chunk <= MaxFontDataSize ->
  readMore_loop k (mkP B j false (b ++ (chunk, NoErr) :: rest)) = POk tt (mkP (B ++ chunk) j false rest).
Proof.
  intros NE. induction k as [|k IH]; intros b B j HI L LS; [lia|]. destruct b as [|x b]; cbn [app readMore_loop input next_read Bytes Index eof].
  - destruct (Z.ltb_spec MaxFontDataSize (zlen B + zlen chunk)); [lia|]. rewrite andb_false_r.
    destruct (Z.ltb_spec 0 (zlen chunk)); [reflexivity|]. destruct chunk; [contradiction|rewrite zlen_cons in *; pose proof (zlen_nonneg chunk); lia].
  - pose proof (Forall_inv HI) as X. unfold idle in X. subst x. apply Forall_inv_tail in HI. change (0 <? zlen []) with false. cbn [andb]. rewrite app_nil_r.
    apply IH; [exact HI|cbn in L; lia|exact LS].
Qed.
Lemma panic_any i : stream_bytes i -> parse_payload i = Panic ->
  exists used between chunk rest f, i = used ++ between ++ (chunk, NoErr) :: rest /\ Forall idle between /\ (length between <= 2)%nat /\ chunk <> [] /\
    parse_payload used = Ok f /\ zlen (Data f) + zlen chunk <= MaxFontDataSize /\
    forall rest', parse_payload (used ++ between ++ (chunk, NoErr) :: rest') = Panic.
Proof.
  intros HB. rewrite parse_payload_body. unfold parse_body, pbind at 1. destruct (sections_no_panic i HB) as [N1 N2].
  destruct (parse_sections (initial i)) as [f s| | |] eqn:E; try contradiction; try discriminate. unfold pbind, on_bytes, EnsureEOF.
  destruct (eof s) eqn:ES; [discriminate|]. destruct (readMore s) as [[] s1| | |] eqn:EM; try discriminate.
  2: { intros _. exfalso. pose proof (tight_more 3 s) as _. unfold readMore in EM. revert EM. clear. generalize 3%nat. intros k. revert s. induction k as [|k IH]; intros s; cbn [readMore_loop]; [discriminate|].
       destruct (next_read (input s)) as [[chunk err] rest]. destruct (_ && _); [discriminate|]. destruct err; try discriminate. destruct (0 <? _); [discriminate|]. apply IH. }
  destruct (Index s1 >? Index s); [discriminate|]. destruct (eof s1) eqn:E1; cbn [negb]; [discriminate|]. intros _.
  destruct (more_unended 3 s s1 ES EM E1) as (b & c & r & X1 & X2 & X3 & X4 & X5).
  destruct (tight_sections (initial i) s) as [_ L]; [rewrite E; reflexivity|]. destruct (L ES) as (u & U & R). cbn [initial input] in U.
  exists u, b, c, r, (set_Data f (Bytes s)). split; [now rewrite <- X1|]. split; [exact X2|]. split; [lia|]. split; [exact X4|]. split; [|split; [exact X5|]].
  2: { intros rest'. rewrite parse_payload_body. unfold parse_body, pbind at 1. specialize (R (b ++ (c, NoErr) :: rest')).
       change (from_ (initial i) (u ++ b ++ (c, NoErr) :: rest')) with (initial (u ++ b ++ (c, NoErr) :: rest')) in R. rewrite R, E. cbn [put].
       unfold pbind, on_bytes, EnsureEOF, readMore, from_. cbn [eof]. rewrite (more_idle c rest' X4 3 b (Bytes s) (Index s) X2 ltac:(lia) X5).
       cbn [Index eof negb]. rewrite Z.gtb_ltb, Z.ltb_irrefl. reflexivity. }
  rewrite parse_payload_body. unfold parse_body, pbind at 1. specialize (R []). rewrite app_nil_r in R. change (from_ (initial i) u) with (initial u) in R.
  rewrite R, E. cbn [put]. unfold pbind, on_bytes, EnsureEOF, readMore, from_. cbn [eof readMore_loop input next_read Bytes Index].
  change (0 <? zlen []) with false. cbn [andb Index eof negb]. rewrite Z.gtb_ltb, Z.ltb_irrefl. reflexivity.
Qed.
