(** Proofs about the rule scanner: which byte strings make it panic. *)
From Coq Require Import Lia.
From Verif Require Import Base BaseFacts Model_Helpers Spec_Helpers Proofs_Helpers Model_Scanner Spec_Scanner.

(** what both kinds have in common *)
Record fair (k : kind) : Prop := {
  fair_width : 2 <= k_width k <= 4;
  fair_min : 11 <= k_min k;
  fair_decode : forall b, bytes b -> k_width k <= zlen b -> exists x, k_decode k b = Ok x;
  fair_prefix : forall b c, bytes (b ++ c) -> k_width k <= zlen b -> k_decode k (b ++ c) = k_decode k b }.
Lemma firstn_short {A} n (l r : list A) : Z.of_nat n <= zlen l -> firstn n (l ++ r) = firstn n l.
Proof. intros H. rewrite firstn_app. unfold zlen in H. replace (n - length l)%nat with O by lia. apply app_nil_r. Qed.
Lemma fair_glyph : fair glyph_kind.
Proof.
  constructor; cbn; [lia|lia| |].
  - intros b B L. rewrite (decode16_spec b B). destruct (Z.ltb_spec (zlen b) 2); [lia|eauto].
  - intros b c B L. rewrite (decode16_spec _ B), decode16_spec by (apply bytes_app in B; tauto).
    rewrite zlen_app. pose proof (zlen_nonneg c). rewrite firstn_short by lia.
    destruct (Z.ltb_spec (zlen b) 2); [lia|]. destruct (Z.ltb_spec (zlen b + zlen c) 2); [lia|reflexivity].
Qed.
Lemma fair_utf8 : fair utf8_kind.
Proof.
  constructor; cbn; [lia|lia| |].
  - intros b B L. rewrite (decode32_spec b B). destruct (Z.ltb_spec (zlen b) 4); [lia|cbn; eauto].
  - intros b c B L. rewrite (decode32_spec _ B), decode32_spec by (apply bytes_app in B; tauto).
    rewrite zlen_app. pose proof (zlen_nonneg c). rewrite firstn_short by lia.
    destruct (Z.ltb_spec (zlen b) 4); [lia|]. destruct (Z.ltb_spec (zlen b + zlen c) 4); [lia|reflexivity].
Qed.

Lemma nibbles c : byte c -> 0 <= Z.shiftr (Z.land c 240) 4 <= 15 /\ 0 <= Z.land c 15 <= 15 /\
  c = 16 * Z.shiftr (Z.land c 240) 4 + Z.land c 15.
Proof.
  intros B.
  assert (H : forall c, byte c -> (fun c => (0 <=? Z.shiftr (Z.land c 240) 4) && (Z.shiftr (Z.land c 240) 4 <=? 15) &&
     (0 <=? Z.land c 15) && (Z.land c 15 <=? 15) && (c =? 16 * Z.shiftr (Z.land c 240) 4 + Z.land c 15)) c = true)
    by (apply byte_forallb; vm_compute; reflexivity).
  specialize (H c B). cbv beta in H. repeat (apply andb_prop in H as [H ?]). lia.
Qed.

Lemma u16_small x : 0 <= x < 65536 -> u16 x = x.
Proof. apply Z.mod_small. Qed.

Section Scan.
  Variable k : kind.
  Hypothesis F : fair k.
  Variable data : list Z.
  Hypothesis B : bytes data.
  Hypothesis L : 11 <= zlen data.
  Variables h b t : Z.
  Hypothesis H1 : zget data 1 = Ok h.
  Hypothesis H2 : zget data 2 = Ok b.
  Hypothesis H3 : zget data 3 = Ok t.
  Hypothesis BP : 0 < b.

  Let Bh : byte h := bytes_get _ _ _ B H1.
  Let Bb : byte b := bytes_get _ _ _ B H2.
  Let Bt : byte t := bytes_get _ _ _ B H3.

  Definition block_len (x : Z) : Z := if x =? 0 then h else if x =? 1 then b else t.
  Definition later (x : Z) : Z := if x =? 0 then b + t else if x =? 1 then t else 0.
  Lemma get_block x : 0 <= x <= 2 -> zget data (1 + x) = Ok (block_len x).
  Proof.
    intros R. unfold block_len. destruct (Z.eqb_spec x 0); [subst; exact H1|].
    destruct (Z.eqb_spec x 1); [subst; exact H2|]. replace x with 2 by lia. exact H3.
  Qed.
  Lemma block_len_byte x : 0 <= x <= 2 -> 0 <= block_len x < 256.
  Proof. intros R. unfold byte in *. unfold block_len. destruct (x =? 0), (x =? 1); lia. Qed.

  Record good (s : scanner) : Prop := {
    g_data : sc_data s = data;
    g_block : 0 <= sc_block s <= 2;
    g_index : 5 <= sc_index s;
    g_rem : 0 <= sc_sets s /\ 0 <= sc_elems s /\ 0 <= sc_left s;
    g_acc : 0 <= sc_accSets s /\ 0 <= sc_accElems s /\
      (sc_accSets s + sc_accElems s + sc_left s = block_len (sc_block s) \/
       (block_len (sc_block s) < sc_accSets s + sc_accElems s <= 30 /\ 0 < sc_left s <= block_len (sc_block s)));
    g_pot : sc_index s + 4 * (sc_sets s + sc_elems s) + 5 * sc_left s + 5 * later (sc_block s) + (2 - sc_block s) <= 10000 }.

  Lemma good_small s : good s -> sc_index s < 60000.
  Proof.
    intros [_ K _ R _ P].
    assert (W : 0 <= later (sc_block s)) by (unfold later, byte in *; destruct (sc_block s =? 0), (sc_block s =? 1); lia).
    lia.
  Qed.

  (** the state in which the scanner expects nothing more although there is data left *)
  Definition stuck (s : scanner) : Prop := HasNext s = true /\ sc_sets s = 0 /\ sc_elems s = 0.

  Lemma parse_total s : sc_data s = data -> 0 <= sc_block s <= 2 -> 0 <= sc_index s < zlen data ->
    exists s' ok, parseFragmentControl s = Ok (s', ok).
  Proof.
    intros D K R. unfold parseFragmentControl. rewrite D.
    destruct (zget_in_range data (sc_index s) R) as (c & ->). cbn [bind]. rewrite (get_block _ K). cbn [bind].
    repeat match goal with |- context [if ?x then _ else _] => destruct x end; eauto.
  Qed.

  Lemma parse_ok s s' ok : sc_data s = data -> 0 <= sc_block s <= 2 -> 0 <= sc_index s < 60000 ->
    0 <= sc_accSets s -> 0 <= sc_accElems s -> 0 <= sc_left s ->
    (sc_accSets s + sc_accElems s + sc_left s = block_len (sc_block s) \/
     (block_len (sc_block s) < sc_accSets s + sc_accElems s <= 30 /\ 0 < sc_left s <= block_len (sc_block s))) ->
    parseFragmentControl s = Ok (s', ok) ->
    exists c, zget data (sc_index s) = Ok c /\ sc_data s' = data /\ sc_block s' = sc_block s /\
      sc_index s' = sc_index s + 1 /\ sc_sets s' = Z.shiftr (Z.land c 240) 4 /\ sc_elems s' = Z.land c 15 /\
      (ok = true -> sc_accSets s' = sc_accSets s + sc_sets s' /\ sc_accElems s' = sc_accElems s + sc_elems s' /\
         sc_left s' = sc_left s - (sc_sets s' + sc_elems s') /\ sc_sets s' + sc_elems s' <= sc_left s /\
         sc_accSets s' + sc_accElems s' + sc_left s' = block_len (sc_block s) /\
         (sc_sets s' + sc_elems s' = 0 -> sc_left s = 0)) /\
      (ok = false -> sc_accSets s = 0 -> sc_accElems s = 0 ->
         sc_accSets s' = sc_sets s' /\ sc_accElems s' = sc_elems s' /\ sc_left s' = sc_left s /\
         (sc_sets s' + sc_elems s' = 0 \/ block_len (sc_block s) < sc_sets s' + sc_elems s')).
  Proof.
    intros D K R A1 A2 A3 A E. unfold parseFragmentControl in E. rewrite D in E.
    apply bind_ok in E as (c & E1 & E). rewrite (get_block _ K) in E. cbn [bind] in E.
    exists c. split; [exact E1|].
    destruct (nibbles c (bytes_get _ _ _ B E1)) as (N1 & N2 & _).
    remember (Z.shiftr (Z.land c 240) 4) as x eqn:Ex. remember (Z.land c 15) as y eqn:Ey. clear Ex Ey.
    pose proof (block_len_byte _ K) as BL.
    assert (U16 : u16 (sc_index s + 1) = sc_index s + 1) by (unfold u16; apply Z.mod_small; lia).
    assert (U1 : u8 (x + y) = x + y) by (unfold u8; apply Z.mod_small; lia).
    rewrite U1, U16 in E. clear U1 U16.
    assert (V1 : u8 (sc_accSets s + x) = sc_accSets s + x \/ 256 <= sc_accSets s + x)
      by (destruct (Z_lt_le_dec (sc_accSets s + x) 256); [left; apply Z.mod_small; lia|right; lia]).
    assert (V2 : u8 (sc_accElems s + y) = sc_accElems s + y \/ 256 <= sc_accElems s + y)
      by (destruct (Z_lt_le_dec (sc_accElems s + y) 256); [left; apply Z.mod_small; lia|right; lia]).
    remember (u8 (sc_accSets s + x)) as aS. remember (u8 (sc_accElems s + y)) as aE.
    assert (V3 : sc_accSets s + sc_accElems s + (x + y) < 256 -> u8 (aS + aE) = aS + aE)
      by (intros; apply Z.mod_small; lia).
    remember (u8 (aS + aE)) as sum. clear Heqsum HeqaS HeqaE.
    assert (V4 : x + y <= sc_left s -> u8 (sc_left s - (x + y)) = sc_left s - (x + y))
      by (intros; apply Z.mod_small; lia).
    remember (u8 (sc_left s - (x + y))) as left. clear Heqleft.
    destruct (Z.eqb_spec (x + y) 0) as [Z0|Z0].
    - destruct (Z.eqb_spec sum (block_len (sc_block s))) as [S0|S0]; cbn [negb] in E;
        injection E as <- <-; cbn; repeat (split; [reflexivity|]).
      + split; [|discriminate]. intros _. lia.
      + split; [discriminate|]. intros _ Z1 Z2. lia.
    - destruct (Z.ltb_spec sum aS); [injection E as <- <-; cbn; repeat (split; [reflexivity|]);
        (split; [discriminate|]); intros _ Z1 Z2; lia|].
      destruct (sum >? block_len (sc_block s)) eqn:G; [injection E as <- <-; cbn; repeat (split; [reflexivity|]);
        (split; [discriminate|]); intros _ Z1 Z2; lia|].
      destruct (x + y >? sc_left s) eqn:G2; injection E as <- <-; cbn; repeat (split; [reflexivity|]).
      + split; [discriminate|]. intros _ Z1 Z2. lia.
      + split; [|discriminate]. intros _. lia.
  Qed.

  (** the four ways of going on after an element *)
  Lemma after_good s : good s -> sc_index s < 60000 ->
    (exists s', after_element s = Ok s') \/ (exists m, after_element s = Err m).
  Proof.
    intros G R. destruct G as [D K I (R1 & R2 & R3) A P]. unfold after_element. rewrite D.
    destruct (sc_index s >=? zlen data) eqn:E1.
    - unfold checkTermination, invalid_rule. rewrite D.
      destruct (_ || _); [right; cbn; eauto|].
      destruct (sc_block s =? 0) eqn:K0; [right; cbn; eauto|].
      destruct (sc_block s =? 1) eqn:K1; [rewrite H3; cbn [bind]; destruct (negb _); cbn; eauto|].
      destruct (Z.eqb_spec (sc_block s) 2) as [K2|K2]; [|lia].
      rewrite H3; cbn [bind]; destruct (negb _); cbn; eauto.
    - destruct (_ && _); [|eauto]. unfold advanceControl, enterBlock.
      assert (X : forall s1, sc_data s1 = data -> 0 <= sc_block s1 <= 2 -> 0 <= sc_index s1 < zlen data ->
        (exists s', (do ' (s, ok) <- parseFragmentControl s1; if ok : bool then Ok s else invalid_rule) = Ok s') \/
        (exists m, (do ' (s, ok) <- parseFragmentControl s1; if ok : bool then Ok s else invalid_rule) = Err m)).
      { intros s1 D1 K1 I1. destruct (parse_total s1 D1 K1 I1) as (s' & ok & ->). cbn [bind].
        unfold invalid_rule. destruct ok; eauto. }
      destruct (sc_left s =? 0); cbn [bind].
      + rewrite D, (get_block _ K). cbn [bind].
        destruct (negb _); [right; cbn; eauto|].
        destruct ((sc_block s =? 0) || (sc_block s =? 1)) eqn:KK; [|right; cbn; eauto].
        rewrite (get_block (sc_block s + 1)) by lia. cbn [bind].
        apply X; cbn; [reflexivity|lia|lia].
      + apply X; [exact D|exact K|lia].
  Qed.

  Lemma after_inv s s' : good s -> after_element s = Ok s' ->
    good s' /\ sc_index s <= sc_index s' /\
    (stuck s' -> sc_block s = 1 /\ sc_block s' = 2 /\ t = 0 /\ zget data (sc_index s) = Ok 0 /\ sc_index s' = sc_index s + 1 /\
       sc_left s = 0 /\ sc_sets s = 0 /\ sc_elems s = 0 /\
       sc_accSets s' = 0 /\ sc_accElems s' = 0 /\ sc_left s' = 0 /\ sc_sets s' = 0 /\ sc_elems s' = 0 /\
       sc_accSets s + sc_accElems s = b).
  Proof.
    intros G E. pose proof G as [D K I (R1 & R2 & R3) (A1 & A2 & A) P].
    assert (W : 0 <= later (sc_block s)) by (unfold later, byte in *; destruct (sc_block s =? 0), (sc_block s =? 1); lia).
    assert (I6 : sc_index s < 60000) by lia.
    unfold after_element in E. rewrite D in E.
    destruct (sc_index s >=? zlen data) eqn:E1.
    { apply bind_ok in E as (u & E2 & E). injection E as <-. split; [exact G|]. split; [lia|].
      intros (SH & _). unfold HasNext in SH. rewrite D in SH. lia. }
    destruct ((sc_sets s =? 0) && (sc_elems s =? 0)) eqn:E2.
    2:{ injection E as <-. split; [exact G|]. split; [lia|]. intros (_ & S1 & S2). lia. }
    unfold advanceControl, enterBlock in E. apply bind_ok in E as (s1 & E3 & E).
    apply bind_ok in E as ([s2 ok] & E4 & E). destruct ok; [|discriminate]. injection E as ->.
    destruct (Z.eqb_spec (sc_left s) 0) as [L0|L0].
    - rewrite D, (get_block _ K) in E3. cbn [bind] in E3.
      destruct (Z.eqb_spec (block_len (sc_block s)) (u8 (sc_accElems s + sc_accSets s))) as [C|C]; [|discriminate].
      cbn [negb] in E3.
      destruct ((sc_block s =? 0) || (sc_block s =? 1)) eqn:KK; [|discriminate].
      rewrite (get_block (sc_block s + 1)) in E3 by lia. cbn [bind] in E3.
      injection E3 as <-.
      pose proof (block_len_byte (sc_block s + 1) ltac:(lia)) as BL.
      apply parse_ok in E4; cbn [sc_data sc_block sc_index sc_sets sc_elems sc_left sc_accSets sc_accElems] in *; [|first [reflexivity|lia]..].
      destruct E4 as (c & C1 & D' & K' & I' & S1 & S2 & E4 & _).
      destruct (E4 eq_refl) as (Q1 & Q2 & Q3 & Q4 & Q5 & Q6).
      destruct (nibbles c (bytes_get _ _ _ B C1)) as (N1 & N2 & N3).
      rewrite K' in *.
      assert (W2 : later (sc_block s) = block_len (sc_block s + 1) + later (sc_block s + 1)).
      { unfold later, block_len. assert (X : sc_block s = 0 \/ sc_block s = 1) by lia.
        destruct X as [-> | ->]; [change (0 + 1) with 1|change (1 + 1) with 2]; cbv [Z.eqb Pos.eqb]; lia. }
      split.
      + constructor; [exact D'|lia|lia|lia| |].
        * rewrite K'. split; [lia|]. split; [lia|]. left. lia.
        * rewrite K'. lia.
      + split; [lia|]. intros (SH & T1 & T2).
        assert (X : block_len (sc_block s + 1) = 0) by lia.
        assert (Y : sc_block s = 1).
        { assert (Z1 : sc_block s = 0 \/ sc_block s = 1) by lia. destruct Z1 as [Z1|Z1]; [|exact Z1].
          rewrite Z1 in X. change (0 + 1) with 1 in X. cbv [block_len Z.eqb Pos.eqb] in X. lia. }
        rewrite Y in *. change (1 + 1) with 2 in *. cbv [block_len Z.eqb Pos.eqb] in X, A.
        assert (c = 0) by lia. subst c. repeat split; try lia; try assumption.
    - cbn [bind] in E3. injection E3 as <-.
      assert (H0 := E4). apply parse_ok in E4; [|first [exact D|exact K|lia|exact A]..].
      destruct E4 as (c & C1 & D' & K' & I' & S1 & S2 & E4 & _).
      destruct (E4 eq_refl) as (Q1 & Q2 & Q3 & Q4 & Q5 & Q6).
      destruct (nibbles c (bytes_get _ _ _ B C1)) as (N1 & N2 & N3).
      split.
      + constructor; [exact D'|rewrite K'; lia|lia|lia| |].
        * rewrite K'. split; [lia|]. split; [lia|]. left. lia.
        * rewrite K'. lia.
      + split; [lia|]. intros (SH & T1 & T2). lia.
  Qed.

  Lemma next_good s : good s -> ~ (sc_sets s = 0 /\ sc_elems s = 0) ->
    (exists m, Next k s = Err m) \/
    (exists s' e s1, Next k s = Ok (s', e) /\ good s1 /\ after_element s1 = Ok s' /\ sc_index s < sc_index s1 /\
       sc_block s1 = sc_block s).
  Proof.
    intros G NS. pose proof G as [D K I (R1 & R2 & R3) (A1 & A2 & A) P]. destruct F as [FW FM FD FP].
    assert (W : 0 <= later (sc_block s)) by (unfold later, byte in *; destruct (sc_block s =? 0), (sc_block s =? 1); lia).
    assert (X : forall s1, good s1 -> forall e : element, (exists m, (do s <- after_element s1; Ok (s, e)) = Err m) \/
       exists s', (do s <- after_element s1; Ok (s, e)) = Ok (s', e) /\ after_element s1 = Ok s').
    { intros s1 G1 e. destruct (after_good s1 G1) as [(s' & Q)|(m & Q)].
      - exact (good_small s1 G1).
      - right. rewrite Q. cbn. eauto.
      - left. rewrite Q. cbn. eauto. }
    unfold Next. rewrite D. destruct (sc_sets s >? 0) eqn:E1.
    - destruct (sc_index s >=? zlen data) eqn:E2; [left; unfold invalid_rule; eauto|].
      destruct (zget_in_range data (sc_index s) ltac:(lia)) as (c & ->). cbn [bind].
      rewrite (u16_small (sc_index s + 1)) by lia.
      set (s1 := mkScanner _ _ _ _ _ _ _ _).
      assert (G1 : good s1) by (constructor; cbn; [reflexivity|lia|lia|lia|tauto|lia]).
      destruct (X s1 G1 (InSet c)) as [(m & Q)|(s' & Q & Q2)]; [left; eauto|].
      right. exists s', (InSet c), s1. repeat (split; [assumption|]). cbn. split; [lia|reflexivity].
    - destruct (sc_elems s >? 0) eqn:E3; [|lia].
      destruct (sc_index s + (k_width k - 1) >=? zlen data) eqn:E4; [left; unfold invalid_rule; eauto|].
      rewrite (zfrom_ok data) by lia. cbn [bind].
      destruct (FD (skipn (Z.to_nat (sc_index s)) data)) as (x & ->); [apply bytes_skipn, B|rewrite zlen_skipn; lia|].
      cbn [bind]. destruct (negb (k_valid k x)); [left; unfold invalid_rule; eauto|].
      rewrite (u16_small (sc_index s + k_width k)) by lia.
      set (s1 := mkScanner _ _ _ _ _ _ _ _).
      assert (G1 : good s1) by (constructor; cbn; [reflexivity|lia|lia|lia|tauto|lia]).
      destruct (X s1 G1 (Single x)) as [(m & Q)|(s' & Q & Q2)]; [left; eauto|].
      right. exists s', (Single x), s1. repeat (split; [assumption|]). cbn. split; [lia|reflexivity].
  Qed.

  Definition over (d : list Z) (s : scanner) : scanner :=
    mkScanner d (sc_index s) (sc_block s) (sc_sets s) (sc_elems s) (sc_left s) (sc_accSets s) (sc_accElems s).

  Section Prefix.
    Variables pre post : list Z.
    Hypothesis E : data = pre ++ post.

    Lemma pre_get i : i < zlen pre -> zget data i = zget pre i.
    Proof. intros H. rewrite E. apply zget_app_l, H. Qed.

    Lemma after_pre s s' : good s -> sc_index s < zlen pre -> after_element s = Ok s' ->
      after_element (over pre s) = Ok (over pre s').
    Proof.
      intros G R Q. pose proof G as [D K I (R1 & R2 & R3) (A1 & A2 & A) P].
      pose proof (zlen_nonneg post). assert (LD : zlen data = zlen pre + zlen post) by (rewrite E; apply zlen_app).
      unfold after_element in *. rewrite D in Q. cbn [over sc_data sc_index sc_sets sc_elems].
      destruct (sc_index s >=? zlen data) eqn:E1; [lia|].
      destruct (sc_index s >=? zlen pre) eqn:E2; [lia|].
      destruct ((sc_sets s =? 0) && (sc_elems s =? 0)); [|injection Q as <-; reflexivity].
      unfold advanceControl in *. apply bind_ok in Q as (s1 & Q1 & Q). apply bind_ok in Q as ([s2 ok] & Q2 & Q).
      destruct ok; [|discriminate]. injection Q as ->.
      assert (X : enterBlock (over pre s) = Ok (over pre s1) /\ sc_data s1 = data /\ sc_index s1 = sc_index s /\ 0 <= sc_block s1 <= 2).
      { unfold enterBlock in *. cbn. rewrite D in Q1. destruct (sc_left s =? 0); cbn [bind] in *.
        - rewrite pre_get in Q1 by lia. destruct (zget pre (1 + sc_block s)) as [l| | |]; try discriminate Q1.
          cbn [bind] in *. destruct (negb _); [discriminate|].
          destruct ((sc_block s =? 0) || (sc_block s =? 1)) eqn:KK; [|discriminate].
          rewrite pre_get in Q1 by lia. destruct (zget pre (1 + (sc_block s + 1))) as [l2| | |]; try discriminate Q1.
          cbn [bind] in *. injection Q1 as <-. cbn. split; [reflexivity|]. split; [reflexivity|]. split; [reflexivity|lia].
        - injection Q1 as <-. repeat split; [assumption|lia|lia]. }
      destruct X as (-> & D1 & I1 & K1). cbn [bind].
      assert (Y : parseFragmentControl (over pre s1) = Ok (over pre s', true)).
      { unfold parseFragmentControl in Q2 |- *. rewrite D1, !pre_get in Q2 by lia. cbn.
        destruct (zget pre (sc_index s1)) as [c| | |]; try discriminate Q2. cbn [bind] in *.
        destruct (zget pre (1 + sc_block s1)) as [l| | |]; try discriminate Q2. cbn [bind] in *.
        repeat match goal with |- context [if ?x then _ else _] => destruct x end;
          first [discriminate Q2|injection Q2 as <-; reflexivity]. }
      rewrite Y. reflexivity.
    Qed.

    Lemma next_pre s s' e : good s -> Next k s = Ok (s', e) ->
      (forall s1, good s1 -> after_element s1 = Ok s' -> sc_index s < sc_index s1 -> sc_block s1 = sc_block s -> sc_index s1 < zlen pre) ->
      Next k (over pre s) = Ok (over pre s', e).
    Proof.
      intros G Q C. pose proof G as [D K I (R1 & R2 & R3) (A1 & A2 & A) P]. destruct F as [FW FM FD FP].
      assert (W : 0 <= later (sc_block s)) by (unfold later, byte in *; destruct (sc_block s =? 0), (sc_block s =? 1); lia).
      pose proof (zlen_nonneg post). assert (LD : zlen data = zlen pre + zlen post) by (rewrite E; apply zlen_app).
      unfold Next in *. rewrite D in Q. cbn [over sc_data sc_index sc_block sc_sets sc_elems sc_left sc_accSets sc_accElems].
      destruct (sc_sets s >? 0) eqn:E1.
      - destruct (sc_index s >=? zlen data) eqn:E2; [discriminate|].
        apply bind_ok in Q as (c & Q1 & Q). rewrite (u16_small (sc_index s + 1)) in * by lia.
        apply bind_ok in Q as (s2 & Q2 & Q). injection Q as -> <-.
        match type of Q2 with after_element ?x = _ => set (s1 := x) in * end.
        assert (G1 : good s1) by (constructor; cbn; [reflexivity|lia|lia|lia|tauto|lia]).
        assert (R : sc_index s1 < zlen pre) by (apply C; [exact G1|exact Q2|cbn; lia|reflexivity]).
        apply (after_pre s1 s' G1 R) in Q2. cbn in R. destruct (sc_index s >=? zlen pre) eqn:E3; [lia|].
        rewrite <- pre_get, Q1 by lia. cbn [bind].
        change (mkScanner pre _ _ _ _ _ _ _) with (over pre s1). rewrite Q2. reflexivity.
      - destruct (sc_elems s >? 0) eqn:E3; [|discriminate].
        destruct (sc_index s + (k_width k - 1) >=? zlen data) eqn:E4; [discriminate|].
        rewrite (zfrom_ok data) in Q by lia. cbn [bind] in Q.
        apply bind_ok in Q as (x & Q1 & Q). destruct (negb (k_valid k x)) eqn:V; [discriminate|].
        rewrite (u16_small (sc_index s + k_width k)) in * by lia.
        apply bind_ok in Q as (s2 & Q2 & Q). injection Q as -> <-.
        match type of Q2 with after_element ?x = _ => set (s1 := x) in * end.
        assert (G1 : good s1) by (constructor; cbn; [reflexivity|lia|lia|lia|tauto|lia]).
        assert (R : sc_index s1 < zlen pre) by (apply C; [exact G1|exact Q2|cbn; lia|reflexivity]).
        apply (after_pre s1 s' G1 R) in Q2. cbn in R. destruct (sc_index s + (k_width k - 1) >=? zlen pre) eqn:E5; [lia|].
        rewrite zfrom_ok by lia. cbn [bind].
        assert (Y : skipn (Z.to_nat (sc_index s)) data = skipn (Z.to_nat (sc_index s)) pre ++ post).
        { rewrite E, skipn_app. f_equal. unfold zlen in *. replace (Z.to_nat (sc_index s) - length pre)%nat with O by lia. reflexivity. }
        rewrite Y, FP in Q1; [|rewrite <- Y; apply bytes_skipn, B|rewrite zlen_skipn; lia].
        rewrite Q1. cbn [bind]. rewrite V.
        change (mkScanner pre _ _ _ _ _ _ _) with (over pre s1). rewrite Q2. reflexivity.
    Qed.
  End Prefix.

  Definition panic_cause (s : scanner) : Prop :=
    t = 0 /\ exists pre post es, data = pre ++ post /\ post <> [] /\ sc_index s < zlen pre /\
      zget pre (zlen pre - 1) = Ok 0 /\
      forall fuel, zlen pre - sc_index s <= Z.of_nat fuel -> scan_loop fuel k (over pre s) = Ok es.

  Lemma loop_cases : forall fuel s, good s -> zlen data - sc_index s <= Z.of_nat fuel -> ~ stuck s ->
    (exists es, scan_loop fuel k s = Ok es) \/ (exists m, scan_loop fuel k s = Err m) \/
    (scan_loop fuel k s = Panic /\ panic_cause s).
  Proof.
    induction fuel as [|fuel IH]; intros s G FU NS; pose proof G as [D K I R A P]; cbn [scan_loop];
      (destruct (HasNext s) eqn:HN; [|left; eauto]).
    { unfold HasNext in HN. rewrite D in HN. lia. }
    assert (N0 : ~ (sc_sets s = 0 /\ sc_elems s = 0)) by (intros (X & Y); apply NS; split; [exact HN|tauto]).
    destruct (next_good s G N0) as [(m & ->)|(s' & e & s1 & Q & G1 & Q1 & I1 & K1)]; [right; left; cbn; eauto|].
    destruct (after_inv s1 s' G1 Q1) as (G' & I' & ST). rewrite Q. cbn [bind].
    destruct (scan_loop fuel k s') eqn:SL.
    { cbn. left. eauto. }
    { cbn. right. left. eauto. }
    all: destruct (HasNext s') eqn:HN'.
    2:{ destruct fuel; cbn [scan_loop] in SL; rewrite HN' in SL; discriminate. }
    3:{ destruct fuel; cbn [scan_loop] in SL; rewrite HN' in SL; discriminate. }
    - assert (DEC : stuck s' \/ ~ stuck s').
      { unfold stuck. destruct (Z.eq_dec (sc_sets s') 0), (Z.eq_dec (sc_elems s') 0); tauto. }
      right; right. cbn [bind]. split; [reflexivity|].
      assert (D' := g_data s' G').
      destruct DEC as [S'|S'].
      + destruct (ST S') as (T1 & T2 & T3 & T4 & T5 & _ & _ & _ & _ & _ & _ & T12 & T13 & _).
        split; [exact T3|].
        assert (HL : sc_index s' < zlen data) by (unfold HasNext in HN'; rewrite D' in HN'; lia).
        exists (firstn (Z.to_nat (sc_index s')) data), (skipn (Z.to_nat (sc_index s')) data), [e].
        assert (LP : zlen (firstn (Z.to_nat (sc_index s')) data) = sc_index s') by (rewrite zlen_firstn; lia).
        assert (EQ : data = firstn (Z.to_nat (sc_index s')) data ++ skipn (Z.to_nat (sc_index s')) data) by (symmetry; apply firstn_skipn).
        split; [exact EQ|].
        split; [intros X; apply (f_equal zlen) in X; rewrite zlen_skipn in X; unfold zlen in X at 2; cbn in X; lia|].
        split; [lia|]. split.
        { rewrite <- (pre_get _ _ EQ) by lia. rewrite LP. replace (sc_index s' - 1) with (sc_index s1) by lia. exact T4. }
        intros fu FU'. destruct fu as [|fu]; [lia|]. cbn [scan_loop].
        assert (HN0 : HasNext (over (firstn (Z.to_nat (sc_index s')) data) s) = true) by (unfold HasNext; cbn; lia).
        rewrite HN0.
        rewrite (next_pre _ _ EQ s s' e G Q).
        2:{ intros s2 G2 Q2 _ _. destruct (after_inv s2 s' G2 Q2) as (_ & _ & ST2). destruct (ST2 S') as (_ & _ & _ & _ & X & _). lia. }
        cbn [bind].
        assert (HNE : HasNext (over (firstn (Z.to_nat (sc_index s')) data) s') = false) by (unfold HasNext; cbn; lia).
        destruct fu; cbn [scan_loop]; rewrite HNE; reflexivity.
      + destruct (IH s' G' ltac:(lia) S') as [(es & X)|[(m & X)|(X & T3 & pre & post & es & EQ & NE & IP & LZ & SP)]];
          [congruence|congruence|].
        split; [exact T3|]. exists pre, post, (e :: es). split; [exact EQ|]. split; [exact NE|]. split; [lia|]. split; [exact LZ|].
        intros fu FU'. destruct fu as [|fu]; [lia|]. cbn [scan_loop].
        assert (HN0 : HasNext (over pre s) = true) by (unfold HasNext; cbn; lia).
        rewrite HN0. rewrite (next_pre _ _ EQ s s' e G Q).
        2:{ intros s2 G2 Q2 _ _. destruct (after_inv s2 s' G2 Q2) as (_ & X2 & _). lia. }
        cbn [bind]. rewrite SP by lia. reflexivity.
    - exfalso. assert (DEC : stuck s' \/ ~ stuck s').
      { unfold stuck. destruct (Z.eq_dec (sc_sets s') 0), (Z.eq_dec (sc_elems s') 0); tauto. }
      destruct DEC as [S'|S'].
      + destruct fuel; cbn [scan_loop] in SL; rewrite HN' in SL.
        * unfold HasNext in HN'. rewrite (g_data s' G') in HN'. lia.
        * destruct S' as (_ & S1 & S2). unfold Next in SL. rewrite S1, S2 in SL. discriminate SL.
      + destruct (IH s' G' ltac:(lia) S') as [(es & X)|[(m & X)|(X & _)]]; congruence.
  Qed.
End Scan.

Lemma zget_nth0 (l : list Z) i x : zget l i = Ok x -> nth (Z.to_nat i) l 0 = x.
Proof.
  unfold zget. destruct (i <? 0); [discriminate|]. destruct (nth_error l (Z.to_nat i)) eqn:E; [|discriminate].
  intros Q. injection Q as <-. apply nth_error_nth, E.
Qed.

Lemma checks_cases k data : fair k -> bytes data ->
  (exists m, startChecks k data = Err m) \/
  exists h b t o, zget data 1 = Ok h /\ zget data 2 = Ok b /\ zget data 3 = Ok t /\ zget data 4 = Ok o /\
    k_min k <= zlen data /\ 0 < o <= b /\ h <= u8 (h + b) /\ t <= u8 (u8 (h + b) + t) /\
    first_control (k_width k) data = 5 + o * k_width k + (if h =? 0 then 1 else 0) /\
    startChecks k data = Ok (if h =? 0 then mkScanner data (first_control (k_width k) data) 1 0 0 b 0 0
                             else mkScanner data (first_control (k_width k) data) 0 0 0 h 0 0).
Proof.
  intros F B. pose proof F as [FW FM FD FP]. unfold startChecks, invalid_rule.
  destruct (Z.ltb_spec (zlen data) (k_min k)) as [L|L]; [left; eauto|].
  destruct (zget_in_range data 4 ltac:(lia)) as (o & H4).
  destruct (zget_in_range data 1 ltac:(lia)) as (h & H1).
  destruct (zget_in_range data 2 ltac:(lia)) as (b & H2).
  destruct (zget_in_range data 3 ltac:(lia)) as (t & H3).
  pose proof (bytes_get _ _ _ B H1) as Bh. pose proof (bytes_get _ _ _ B H2) as Bb.
  pose proof (bytes_get _ _ _ B H3) as Bt. pose proof (bytes_get _ _ _ B H4) as Bo. unfold byte in *.
  rewrite H4. cbn [bind]. destruct (Z.eqb_spec o 0) as [O0|O0]; [left; eauto|].
  rewrite H1, H2, H3. cbn [bind].
  destruct (h >? u8 (h + b)) eqn:C1; [left; eauto|].
  destruct (t >? u8 (u8 (h + b) + t)) eqn:C2; [left; eauto|].
  destruct (Z.ltb_spec b o) as [C3|C3]; [left; eauto|].
  assert (FC : first_control (k_width k) data = 5 + o * k_width k + (if h =? 0 then 1 else 0)).
  { unfold first_control. rewrite (zget_nth0 data 4 o H4 : nth 4 data 0 = o), (zget_nth0 data 1 h H1 : nth 1 data 0 = h). lia. }
  right. exists h, b, t, o. repeat (split; [first [assumption|reflexivity|lia]|]).
  rewrite FC, (u16_small (5 + o * k_width k)) by nia. destruct (h =? 0).
  - destruct (b =? 0) eqn:B0; [lia|]. cbn [orb]. rewrite u16_small by nia. reflexivity.
  - f_equal. f_equal. lia.
Qed.

Theorem scan_cases k data : fair k -> bytes data ->
  (exists es, scan k data = Ok es) \/ (exists m, scan k data = Err m) \/
  (scan k data = Panic /\
    (zlen data <= first_control (k_width k) data \/ zget data (first_control (k_width k) data) = Ok 0 \/
     (zget data 3 = Ok 0 /\ complete_prefix k data))).
Proof.
  intros F B. pose proof F as [FW FM FD FP]. unfold scan, Start.
  destruct (checks_cases k data F B) as [(m & ->)|(h & b & t & o & H1 & H2 & H3 & H4 & L & O & C1 & C2 & FC & ->)];
    [right; left; cbn; eauto|]. cbn [bind].
  pose proof (bytes_get _ _ _ B H1) as Bh. pose proof (bytes_get _ _ _ B H2) as Bb.
  pose proof (bytes_get _ _ _ B H3) as Bt. pose proof (bytes_get _ _ _ B H4) as Bo. unfold byte in *.
  set (fc := first_control (k_width k) data) in *.
  assert (FR : 5 <= fc <= 1026) by (destruct (h =? 0); nia).
  set (st := if h =? 0 then _ else _).
  set (BL := block_len h b t (sc_block st)).
  assert (ST : sc_data st = data /\ sc_index st = fc /\ sc_sets st = 0 /\ sc_elems st = 0 /\ sc_left st = BL /\
               sc_accSets st = 0 /\ sc_accElems st = 0 /\ 0 <= sc_block st <= 1 /\ 0 < BL).
  { subst BL st. destruct (Z.eqb_spec h 0); cbn [sc_data sc_index sc_block sc_sets sc_elems sc_left sc_accSets sc_accElems];
      cbv [block_len Z.eqb Pos.eqb]; repeat split; lia. }
  assert (PRE : forall pre post, data = pre ++ post -> k_min k <= zlen pre -> startChecks k pre = Ok (over pre st)).
  { intros pre post EQ LP. assert (PG : forall i, i < zlen pre -> zget data i = zget pre i) by (intros i Hi; rewrite EQ; apply zget_app_l, Hi).
    assert (BP : bytes pre) by (rewrite EQ in B; apply bytes_app in B; tauto).
    unfold startChecks. destruct (Z.ltb_spec (zlen pre) (k_min k)); [lia|].
    rewrite <- !PG by lia. rewrite H4, H1, H2, H3. cbn [bind].
    destruct (Z.eqb_spec o 0); [lia|]. destruct (h >? u8 (h + b)) eqn:G1; [lia|].
    destruct (t >? u8 (u8 (h + b) + t)) eqn:G2; [lia|]. destruct (Z.ltb_spec b o); [lia|].
    rewrite (u16_small (5 + o * k_width k)) by nia. subst st. rewrite FC. destruct (h =? 0).
    - destruct (b =? 0) eqn:B0; [lia|]. cbn [orb]. rewrite u16_small by nia. reflexivity.
    - unfold over. cbn. f_equal. f_equal. lia. }
  destruct ST as (S1 & S2 & S3 & S4 & S5 & S6 & S7 & S8 & S9). clearbody st.
  destruct (Z_lt_le_dec fc (zlen data)) as [R|R].
  2:{ right; right. unfold parseFragmentControl. rewrite S1, S2, (zget_panic data fc) by lia. cbn. auto. }
  destruct (parse_total data h b t H1 H2 H3 st S1 ltac:(lia) ltac:(lia)) as (s & ok & Q). rewrite Q. cbn [bind].
  assert (Q0 := Q).
  apply (parse_ok data B h b t H1 H2 H3) in Q; [|first [exact S1|lia|left; fold BL; lia]..].
  destruct Q as (c & C & D' & K' & I' & V1 & V2 & QT & QF).
  destruct (nibbles c (bytes_get _ _ _ B C)) as (N1 & N2 & N3). rewrite <- V1 in N1. rewrite <- V2 in N2. rewrite <- V1, <- V2 in N3.
  assert (LT : 0 <= later b t (sc_block st) <= 510).
  { unfold later. destruct (sc_block st =? 0), (sc_block st =? 1); lia. }
  assert (LB : BL < 256) by (subst BL; unfold block_len; destruct (sc_block st =? 0), (sc_block st =? 1); lia).
  rewrite S2 in C, I'.
  destruct (Z.eq_dec c 0) as [C0|C0].
  - assert (sc_sets s = 0 /\ sc_elems s = 0) as (Z1 & Z2) by lia.
    destruct (HasNext s) eqn:HN.
    + right; right. split; [|right; left; rewrite C, C0; reflexivity].
      destruct (length data) eqn:LN; [unfold zlen in L; lia|]. cbn [scan_loop]. rewrite HN. unfold Next. rewrite Z1, Z2. reflexivity.
    + left. exists []. destruct (length data); cbn [scan_loop]; rewrite HN; reflexivity.
  - assert (G : good data h b t s).
    { destruct ok.
      - destruct (QT eq_refl) as (Q1 & Q2 & Q3 & Q4 & Q5 & Q6). constructor; [exact D'|lia|lia|lia| |].
        + split; [lia|]. split; [lia|]. left. rewrite K'. fold BL. lia.
        + rewrite K', I'. lia.
      - destruct (QF eq_refl S6 S7) as (Q1 & Q2 & Q3 & Q4). constructor; [exact D'|lia|lia|lia| |].
        + split; [lia|]. split; [lia|]. right. rewrite K'. fold BL. fold BL in Q4. lia.
        + rewrite K', I'. lia. }
    assert (NS : ~ stuck s) by (intros (_ & X & Y); lia).
    destruct (loop_cases k F data B ltac:(lia) h b t H1 H2 H3 ltac:(lia) (length data) s G) as [X|[X|(X & T0 & pre & post & es & EQ & NE & IP & LZ & SP)]];
      [unfold zlen; lia|exact NS|auto|auto|].
    right; right. split; [exact X|]. right; right. split; [rewrite H3, T0; reflexivity|].
    exists pre, post. split; [exact EQ|]. split; [exact NE|]. split; [exact LZ|]. fold fc. split; [lia|].
    destruct (Z_lt_le_dec (zlen pre) (k_min k)) as [X1|X1]; [left; exact X1|]. right. exists es.
    unfold scan, Start. rewrite (PRE pre post EQ X1). cbn [bind].
    assert (Y : parseFragmentControl (over pre st) = Ok (over pre s, ok)).
    { unfold parseFragmentControl in Q0 |- *. rewrite S1, !(pre_get data pre post EQ) in Q0 by lia. cbn.
      destruct (zget pre (sc_index st)) as [c1| | |]; try discriminate Q0. cbn [bind] in *.
      destruct (zget pre (1 + sc_block st)) as [l| | |]; try discriminate Q0. cbn [bind] in *.
      repeat match goal with |- context [if ?x then _ else _] => destruct x end;
        injection Q0 as <- <-; reflexivity. }
    rewrite Y. cbn [bind]. apply SP. unfold zlen. lia.
Qed.
