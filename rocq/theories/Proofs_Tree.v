(** Decision trees of rules whose elements are single elements or sets that are one range:
    transitions of one state. *)
From Verif Require Import Base BaseFacts Model_Helpers Model_Scanner Model_Tree Spec_Tree Proofs_Helpers.
From Coq Require Import Sorted.

(** The ranges in use never overlap. Each is known by its first element, a [letter], that
    ends at [hi]; [name] gives the letter of the range an element is in. *)
Class alphabet := {
  hi : Z -> Z;
  letter : Z -> Prop;
  name : Z -> Z;
  letter_hi : forall a, letter a -> a <= hi a;
  name_in : forall a x, letter a -> a <= x <= hi a -> name x = a;
  name_out : forall x, letter (name x) -> name x <= x <= hi (name x) }.

Section Letters.
Context {AB : alphabet}.
Lemma letters_apart a b : letter a -> letter b -> a < b -> hi a < b.
Proof.
  intros Ha Hb H. destruct (Z_lt_ge_dec (hi a) b) as [Hl|Hl]; [exact Hl|]. exfalso. pose proof (letter_hi _ Hb).
  pose proof (name_in a b Ha ltac:(lia)). pose proof (name_in b b Hb ltac:(lia)). lia.
Qed.
Lemma name_letter a : letter a -> name a = a.
Proof. intros H. pose proof (letter_hi _ H). apply (name_in a a H). lia. Qed.

Definition single (t : transition) : Prop := t_last t = hi (t_first t) /\ letter (t_first t).
Definition ordered (ts : list transition) : Prop := StronglySorted (fun a b => t_first a < t_first b) ts /\ Forall single ts.
Definition lookup (ts : list transition) (x : Z) : option transition := find (fun t => t_first t =? x) ts.

Lemma lookup_some ts x t : lookup ts x = Some t -> In t ts /\ t_first t = x.
Proof. intros H. apply find_some in H. destruct H as [H1 H2]. split; [exact H1|]. lia. Qed.

Lemma ordered_nth ts i j a b : ordered ts -> zget ts i = Ok a -> zget ts j = Ok b -> i < j -> t_first a < t_first b.
Proof.
  intros [Hs _]. revert i j. induction Hs as [|t ts Hs IH Hf]; intros i j Ha Hb Hij.
  - apply zget_in in Ha. destruct Ha.
  - pose proof (zget_ok_range _ _ _ Ha). destruct (Z.eq_dec i 0) as [->|].
    + rewrite zget_cons_0 in Ha. injection Ha as <-. rewrite zget_cons_S in Hb by lia. apply zget_in in Hb.
      rewrite Forall_forall in Hf. apply Hf; exact Hb.
    + rewrite zget_cons_S in Ha, Hb by lia. apply (IH (i - 1) (j - 1)); auto; lia.
Qed.

Lemma in_zget {A} (l : list A) a : In a l -> exists i, zget l i = Ok a.
Proof.
  induction l as [|x l IH]; [intros []|]. intros [->|H]; [exists 0; apply zget_cons_0|].
  destruct (IH H) as (i & Hi). pose proof (zget_ok_range _ _ _ Hi). exists (i + 1).
  rewrite zget_cons_S by lia. replace (i + 1 - 1) with i by lia. exact Hi.
Qed.

Lemma lookup_zget ts i t : ordered ts -> zget ts i = Ok t -> lookup ts (t_first t) = Some t.
Proof.
  intros Ho Hi. destruct (lookup ts (t_first t)) as [t'|] eqn:E.
  - apply lookup_some in E. destruct E as [Hin E]. apply in_zget in Hin. destruct Hin as (j & Hj).
    destruct (Z.lt_trichotomy i j) as [H|[->|H]].
    + pose proof (ordered_nth _ _ _ _ _ Ho Hi Hj H). lia.
    + congruence.
    + pose proof (ordered_nth _ _ _ _ _ Ho Hj Hi H). lia.
  - exfalso. pose proof (find_none _ _ E _ (zget_in _ _ _ Hi)) as H. cbv beta in H. lia.
Qed.

Lemma ordered_single ts i t : ordered ts -> zget ts i = Ok t -> single t.
Proof. intros [_ Hf] Hi. rewrite Forall_forall in Hf. apply Hf. eapply zget_in; eauto. Qed.
Lemma ordered_apart ts i j a b : ordered ts -> zget ts i = Ok a -> zget ts j = Ok b -> i < j -> hi (t_first a) < t_first b.
Proof.
  intros Ho Ha Hb Hij. apply letters_apart; [exact (proj2 (ordered_single _ _ _ Ho Ha))|exact (proj2 (ordered_single _ _ _ Ho Hb))|].
  exact (ordered_nth _ _ _ _ _ Ho Ha Hb Hij).
Qed.

(** Searching *)
Lemma not_named t g : single t -> hi (t_first t) < g \/ g < t_first t -> t_first t <> name g.
Proof. intros [_ Hl] H E. pose proof (name_out g) as Hn. rewrite <- E in Hn. specialize (Hn Hl). lia. Qed.
Lemma find_loop_spec ts g : ordered ts -> zlen ts <= 254 -> forall fuel lo hi_,
  (Z.to_nat (hi_ - lo) <= fuel)%nat -> 0 <= lo -> hi_ < zlen ts -> lo <= Z.max hi_ 0 ->
  (forall i t, zget ts i = Ok t -> i < lo -> hi (t_first t) < g) ->
  (forall i t, zget ts i = Ok t -> lo < i -> hi_ < i -> g < t_first t) ->
  exists i found, find_loop fuel ts g lo hi_ = Ok (i, found) /\ 0 <= i <= 254 /\
    if found : bool then exists t, zget ts i = Ok t /\ t_first t = name g
    else (forall j t, zget ts j = Ok t -> t_first t <> name g) /\ i <= zlen ts /\
      (forall j t, zget ts j = Ok t -> j < i -> hi (t_first t) < g) /\
      (forall j t, zget ts j = Ok t -> i < j -> g < t_first t) /\
      (forall t, zget ts i = Ok t -> hi (t_first t) < g \/ g < t_first t).
Proof.
  intros Ho Hlen. pose proof (zlen_nonneg ts) as Hnn.
  assert (END : forall lo hi_, 0 <= lo -> hi_ < zlen ts -> lo <= Z.max hi_ 0 -> hi_ <= lo ->
    (forall i t, zget ts i = Ok t -> i < lo -> hi (t_first t) < g) ->
    (forall i t, zget ts i = Ok t -> lo < i -> hi_ < i -> g < t_first t) ->
    exists i found, (if lo <? zlen ts then
        do t <- zget ts lo;
        let found := (t_first t <=? g) && (g <=? t_last t) in
        if found && (lo >? 254) then Panic else Ok (u8 lo, found)
      else Ok (u8 lo, false)) = Ok (i, found) /\ 0 <= i <= 254 /\
    if found : bool then exists t, zget ts i = Ok t /\ t_first t = name g
    else (forall j t, zget ts j = Ok t -> t_first t <> name g) /\ i <= zlen ts /\
      (forall j t, zget ts j = Ok t -> j < i -> hi (t_first t) < g) /\
      (forall j t, zget ts j = Ok t -> i < j -> g < t_first t) /\
      (forall t, zget ts i = Ok t -> hi (t_first t) < g \/ g < t_first t)).
  { intros lo hi_ Hlo Hhi Hm Hlh Hbelow Habove. rewrite !u8_id by (unfold byte; lia). replace (lo >? 254) with false by lia. cbv zeta. destruct (lo <? zlen ts) eqn:El.
    - destruct (zget_in_range ts lo ltac:(lia)) as (t & Ht). rewrite Ht. cbn [bind].
      destruct (ordered_single _ _ _ Ho Ht) as [Hlast Hlet]. rewrite Hlast. pose proof (letter_hi _ Hlet).
      rewrite andb_false_r. destruct ((t_first t <=? g) && (g <=? hi (t_first t))) eqn:Ec.
      + exists lo, true. split; [reflexivity|]. split; [lia|]. exists t. split; [exact Ht|]. symmetry. apply name_in; [exact Hlet|lia].
      + exists lo, false. split; [reflexivity|]. split; [lia|]. split; [|split; [lia|split; [|split]]].
        * intros j t' Hj. apply not_named; [exact (ordered_single _ _ _ Ho Hj)|]. destruct (Z.lt_trichotomy j lo) as [H1|[->|H1]].
          -- left. exact (Hbelow _ _ Hj H1).
          -- rewrite Ht in Hj. injection Hj as <-. lia.
          -- right. apply (Habove _ _ Hj); lia.
        * intros j t' Hj Hlt. exact (Hbelow _ _ Hj Hlt).
        * intros j t' Hj Hlt. apply (Habove _ _ Hj); lia.
        * intros t' Hj. rewrite Ht in Hj. injection Hj as <-. lia.
    - exists lo, false. split; [reflexivity|]. split; [lia|]. split; [|split; [lia|split; [|split]]].
      + intros j t' Hj. pose proof (zget_ok_range _ _ _ Hj). apply not_named; [exact (ordered_single _ _ _ Ho Hj)|]. left. apply (Hbelow _ _ Hj). lia.
      + intros j t' Hj Hlt. exact (Hbelow _ _ Hj Hlt).
      + intros j t' Hj Hlt. pose proof (zget_ok_range _ _ _ Hj). lia.
      + intros t' Hj. pose proof (zget_ok_range _ _ _ Hj). lia. }
  induction fuel as [|n IH]; intros lo hi_ Hfu Hlo Hhi Hm Hbelow Habove; cbn [find_loop].
  - replace (lo <? hi_) with false by lia. apply (END lo hi_); auto; lia.
  - destruct (lo <? hi_) eqn:Elh; [|apply (END lo hi_); auto; lia].
    set (mid := Z.shiftr (lo + hi_) 1). assert (Hmid : lo <= mid < hi_).
    { unfold mid. rewrite shiftr_div by lia. change (2 ^ 1) with 2. lia. }
    destruct (zget_in_range ts mid ltac:(lia)) as (t & Ht). rewrite Ht. cbn [bind].
    destruct (ordered_single _ _ _ Ho Ht) as [Hlast Hlet]. rewrite Hlast. pose proof (letter_hi _ Hlet).
    destruct (g <? t_first t) eqn:E1; [|destruct (g >? hi (t_first t)) eqn:E2].
    + apply IH; try lia; [exact Hbelow|]. intros i t' Hi H1 H2.
      pose proof (ordered_nth _ _ _ _ _ Ho Ht Hi ltac:(lia)). lia.
    + apply IH; try lia.
      * intros i t' Hi H1. destruct (Z.eq_dec i mid) as [->|]; [rewrite Ht in Hi; injection Hi as <-; lia|].
        pose proof (ordered_apart _ _ _ _ _ Ho Hi Ht ltac:(lia)). lia.
      * intros i t' Hi H1 H2. apply (Habove _ _ Hi); lia.
    + exists mid, true. rewrite u8_id by (unfold byte; lia). split; [reflexivity|]. split; [lia|]. exists t. split; [exact Ht|].
      symmetry. apply name_in; [exact Hlet|lia].
Qed.

Lemma find_spec ts g : ordered ts -> zlen ts <= 254 ->
  exists i found, findGlyphTransition ts g = Ok (i, found) /\ 0 <= i <= 254 /\
    if found : bool then exists t, zget ts i = Ok t /\ t_first t = name g
    else (forall j t, zget ts j = Ok t -> t_first t <> name g) /\ i <= zlen ts /\
      (forall j t, zget ts j = Ok t -> j < i -> hi (t_first t) < g) /\
      (forall j t, zget ts j = Ok t -> i < j -> g < t_first t) /\
      (forall t, zget ts i = Ok t -> hi (t_first t) < g \/ g < t_first t).
Proof.
  intros Ho Hl. unfold findGlyphTransition. pose proof (zlen_nonneg ts).
  apply find_loop_spec; auto; try lia.
  - unfold zlen in *. lia.
  - intros i t Hi Hlt. pose proof (zget_ok_range _ _ _ Hi). lia.
  - intros i t Hi H1 H2. pose proof (zget_ok_range _ _ _ Hi). lia.
Qed.

Lemma lookup_none ts g : (forall j t, zget ts j = Ok t -> t_first t <> g) -> lookup ts g = None.
Proof.
  intros H. destruct (lookup ts g) as [t|] eqn:E; [|reflexivity]. apply lookup_some in E. destruct E as [Hin E].
  apply in_zget in Hin. destruct Hin as (j & Hj). exfalso. exact (H _ _ Hj E).
Qed.

Lemma Trigger_spec st g : ordered (s_trans st) -> zlen (s_trans st) <= 254 ->
  Trigger st g = Ok match lookup (s_trans st) (name g) with Some t => (t_next t, t_match t) | None => (255, 255) end.
Proof.
  intros Ho Hl. unfold Trigger. destruct (find_spec _ g Ho Hl) as (i & found & -> & _ & H). cbn [bind].
  destruct found; cbn [negb].
  - destruct H as (t & Ht & E). rewrite <- E, (lookup_zget _ _ _ Ho Ht), Ht. reflexivity.
  - destruct H as (H & _). rewrite lookup_none by exact H. reflexivity.
Qed.

(** Inserting *)
Lemma ordered_index_spec ts g : ordered ts -> (forall j t, zget ts j = Ok t -> t_first t <> g) ->
  forall n, (n <= length ts)%nat -> (forall j t, zget ts j = Ok t -> Z.of_nat n <= j -> g < t_first t) ->
  exists m, ordered_index ts g n = Ok m /\ (m <= n)%nat /\
    (forall j t, zget ts j = Ok t -> j < Z.of_nat m -> t_first t < g) /\
    (forall j t, zget ts j = Ok t -> Z.of_nat m <= j -> g < t_first t).
Proof.
  intros Ho Hne. induction n as [|n IH]; intros Hn Ha; cbn [ordered_index].
  - exists O. split; [reflexivity|]. split; [lia|]. split; [|exact Ha]. intros j t Hj H. pose proof (zget_ok_range _ _ _ Hj). lia.
  - destruct (zget_in_range ts (Z.of_nat n) ltac:(unfold zlen; lia)) as (t & Ht). rewrite Ht. cbn [bind].
    destruct (t_first t <? g) eqn:E.
    + exists (S n). split; [reflexivity|]. split; [lia|]. split; [|exact Ha]. intros j t' Hj H.
      destruct (Z.eq_dec j (Z.of_nat n)) as [->|]; [rewrite Ht in Hj; injection Hj as <-; lia|].
      pose proof (ordered_nth _ _ _ _ _ Ho Hj Ht ltac:(lia)). lia.
    + destruct IH as (m & Hm & Hle & Hb & Hc); [lia| |].
      * intros j t' Hj H. destruct (Z.eq_dec j (Z.of_nat n)) as [->|].
        -- rewrite Ht in Hj. injection Hj as <-. specialize (Hne _ _ Ht). lia.
        -- apply (Ha _ _ Hj). lia.
      * exists m. split; [exact Hm|]. split; [lia|]. split; assumption.
Qed.

Lemma sorted_app {A} (R : A -> A -> Prop) l r : StronglySorted R l -> StronglySorted R r ->
  (forall a b, In a l -> In b r -> R a b) -> StronglySorted R (l ++ r).
Proof.
  intros Hl Hr H. induction Hl as [|x l Hl IH Hf]; cbn [app]; [exact Hr|]. constructor.
  - apply IH. intros a b Ha Hb. apply H; [right; exact Ha|exact Hb].
  - apply Forall_app. split; [exact Hf|]. apply Forall_forall. intros b Hb. apply H; [left; reflexivity|exact Hb].
Qed.
Lemma sorted_app_inv {A} (R : A -> A -> Prop) l r : StronglySorted R (l ++ r) ->
  StronglySorted R l /\ StronglySorted R r.
Proof.
  induction l as [|x l IH]; cbn [app]; [intros H; split; [constructor|exact H]|]. intros H.
  apply StronglySorted_inv in H. destruct H as [H Hf]. destruct (IH H) as [H1 H2]. split; [|exact H2].
  constructor; [exact H1|]. apply Forall_app in Hf. apply Hf.
Qed.

Lemma insert_ordered a b t : ordered (a ++ b) -> single t -> (forall x, In x a -> t_first x < t_first t) ->
  (forall x, In x b -> t_first t < t_first x) -> ordered (a ++ t :: b).
Proof.
  intros [Hs Hf] Ht Ha Hb. apply sorted_app_inv in Hs. destruct Hs as [Hs1 Hs2]. apply Forall_app in Hf. destruct Hf as [Hf1 Hf2].
  split; [|apply Forall_app; split; [exact Hf1|constructor; assumption]]. apply sorted_app; [exact Hs1| |].
  - constructor; [exact Hs2|]. apply Forall_forall. exact Hb.
  - intros x y Hx [<-|Hy]; [apply Ha; exact Hx|]. specialize (Ha _ Hx). specialize (Hb _ Hy). lia.
Qed.

Lemma lookup_app a b x : lookup (a ++ b) x = match lookup a x with Some t => Some t | None => lookup b x end.
Proof. unfold lookup. induction a as [|y a IH]; cbn [app find]; [reflexivity|]. destruct (t_first y =? x); [reflexivity|exact IH]. Qed.

Lemma lookup_insert a b t x : lookup (a ++ b) (t_first t) = None ->
  lookup (a ++ t :: b) x = if x =? t_first t then Some t else lookup (a ++ b) x.
Proof.
  rewrite !lookup_app. intros H. destruct (Z.eqb_spec x (t_first t)) as [->|Hne].
  - destruct (lookup a (t_first t)) eqn:E; [discriminate|]. unfold lookup. cbn [find]. rewrite Z.eqb_refl. reflexivity.
  - destruct (lookup a x) eqn:E; [reflexivity|]. unfold lookup. cbn [find].
    destruct (t_first t =? x) eqn:E'; [lia|reflexivity].
Qed.

(** Replacing *)
Lemma upd_split {A} (l : list A) i x y : zget l i = Ok x ->
  exists a b, l = a ++ x :: b /\ upd l (Z.to_nat i) y = a ++ y :: b.
Proof.
  intros H. apply zget_some in H. destruct H as [Hi H]. exists (firstn (Z.to_nat i) l), (skipn (S (Z.to_nat i)) l).
  pose proof (firstn_skipn_cons l (Z.to_nat i) x H) as E. split; [exact E|].
  assert (L : length (firstn (Z.to_nat i) l) = Z.to_nat i).
  { rewrite firstn_length. assert (nth_error l (Z.to_nat i) <> None) as H0 by congruence. apply nth_error_Some in H0. lia. }
  pose proof (upd_middle (firstn (Z.to_nat i) l) (skipn (S (Z.to_nat i)) l) x y) as U. rewrite L, <- E in U. exact U.
Qed.

Lemma replace_ordered ts i t t' : ordered ts -> zget ts i = Ok t -> t_first t' = t_first t -> single t' ->
  ordered (upd ts (Z.to_nat i) t') /\
  forall x, lookup (upd ts (Z.to_nat i) t') x = if x =? t_first t then Some t' else lookup ts x.
Proof.
  intros Ho Hi Hf Hs.
  destruct (upd_split ts i t t' Hi) as (a & b & -> & ->).
  destruct Ho as [H1 H2]. pose proof (sorted_app_inv _ _ _ H1) as [Ha Hb].
  apply Forall_app in H2. destruct H2 as [F1 F2]. inversion F2 as [|? ? _ F3]; subst.
  apply StronglySorted_inv in Hb. destruct Hb as [Hb Hb2].
  assert (Hab : forall x, In x a -> t_first x < t_first t).
  { intros x Hx. clear -H1 Hx. induction a as [|y a IH]; [destruct Hx|]. cbn [app] in H1. apply StronglySorted_inv in H1. destruct H1 as [H1 Hf].
    destruct Hx as [<-|Hx]; [|apply IH; assumption]. rewrite Forall_forall in Hf. apply Hf. apply in_or_app. right. left. reflexivity. }
  split.
  - split; [|apply Forall_app; split; [exact F1|constructor; assumption]].
    apply sorted_app; [exact Ha| |].
    + constructor; [exact Hb|]. rewrite Hf. exact Hb2.
    + intros x y Hx [<-|Hy]; [rewrite Hf; apply Hab; exact Hx|]. rewrite Forall_forall in Hb2. specialize (Hb2 _ Hy). cbv beta in Hb2.
      specialize (Hab _ Hx). lia.
  - intros x. rewrite !lookup_app. unfold lookup at 2 4. cbn [find]. rewrite Hf. destruct (Z.eqb_spec x (t_first t)) as [->|Hne].
    + rewrite Z.eqb_refl. destruct (lookup a (t_first t)) eqn:E; [|reflexivity]. apply lookup_some in E. destruct E as [E1 E2].
      specialize (Hab _ E1). lia.
    + replace (t_first t =? x) with false by lia. reflexivity.
Qed.
End Letters.
