(** Invariant of the single-instance pool. *)
From Verif Require Import Base BaseFacts Model_Pool.

Definition b2n (b : bool) : nat := if b then 1 else 0.
Fixpoint countb {A} (p : A -> bool) (l : list A) : nat :=
  match l with [] => 0 | x :: r => b2n (p x) + countb p r end%nat.

Lemma countb_app {A} (p : A -> bool) l r : countb p (l ++ r) = (countb p l + countb p r)%nat.
Proof. induction l; cbn; lia. Qed.
Lemma countb_remove {A} (p : A -> bool) l k x : nth_error l k = Some x ->
  (countb p (remove_at l k) + b2n (p x) = countb p l)%nat.
Proof.
  intros H. rewrite (firstn_skipn_cons l k x H) at 2. unfold remove_at.
  rewrite !countb_app. cbn [countb]. lia.
Qed.
Lemma countb_upd {A} (p : A -> bool) l k x y : nth_error l k = Some x ->
  (countb p (upd l k y) + b2n (p x) = countb p l + b2n (p y))%nat.
Proof.
  intros H. assert (L : length (firstn k l) = k).
  { rewrite firstn_length. assert (k < length l)%nat by (apply nth_error_Some; congruence). lia. }
  pose proof (firstn_skipn_cons l k x H) as E.
  assert (U : upd l k y = firstn k l ++ y :: skipn (S k) l).
  { rewrite E at 1. rewrite <- L at 3. apply upd_middle. }
  rewrite U. rewrite E at 3. rewrite !countb_app. cbn [countb]. lia.
Qed.

Definition is_shared (i : inst) : bool := match i with Shared => true | _ => false end.
(** calls that own the shared instance *)
Definition owns_shared (c : call) : bool :=
  match c with GotShared => true | RelCAS => true | InRelease Shared => true | _ => false end.

Definition pool_inv (p : pool) : Prop :=
  (countb is_shared (held p) + countb owns_shared (calls p) = Z.to_nat (inUse p))%nat /\
  (inUse p = 0 \/ inUse p = 1) /\ panicked p = false /\ NoDup (held p) /\
  (forall n, In (Fresh n) (held p) -> (n < nextFresh p)%nat).

Lemma in_remove_at {A} (l : list A) k x : In x (remove_at l k) -> In x l.
Proof.
  unfold remove_at. rewrite in_app_iff. intros [H|H].
  - rewrite <- (firstn_skipn k l). apply in_or_app. auto.
  - rewrite <- (firstn_skipn (S k) l). apply in_or_app. auto.
Qed.
Lemma nodup_remove_at {A} (l : list A) k : NoDup l -> NoDup (remove_at l k).
Proof.
  intros H. destruct (nth_error l k) as [x|] eqn:E.
  - rewrite (firstn_skipn_cons l k x E) in H. unfold remove_at. eapply NoDup_remove_1. exact H.
  - unfold remove_at. apply nth_error_None in E. rewrite firstn_all2, skipn_all2, app_nil_r by lia. exact H.
Qed.
Lemma countb_zero {A} (p : A -> bool) l : countb p l = 0%nat -> forall x, In x l -> p x = false.
Proof.
  induction l as [|y l IH]; cbn; intros H x; [intros []|]. intros [->|Hx].
  - destruct (p x); cbn in H; [lia|reflexivity].
  - apply IH; [lia|exact Hx].
Qed.

Lemma pool_step_inv p e : pool_inv p -> pool_inv (pool_step p e).
Proof.
  intros (Hc & Hu & Hp & Hn & Hf). destruct e as [|k|k]; cbn [pool_step].
  - repeat split; auto.
  - destruct (nth_error (held p) k) as [i|] eqn:E; [|repeat split; auto].
    pose proof (countb_remove is_shared _ _ _ E) as R.
    unfold pool_inv. cbn [held calls inUse panicked nextFresh countb]. repeat split; auto.
    + destruct i; cbn [is_shared owns_shared b2n] in *; lia.
    + apply nodup_remove_at. exact Hn.
    + intros n Hin. apply Hf. eapply in_remove_at; eauto.
  - destruct (nth_error (calls p) k) as [c|] eqn:E; [|repeat split; auto].
    pose proof (countb_remove owns_shared _ _ _ E) as R.
    destruct c as [| | |i|]; cbn [step_call].
    + pose proof (countb_upd owns_shared (calls p) k InRetrieve GotShared E) as U1.
      pose proof (countb_upd owns_shared (calls p) k InRetrieve NeedAlloc E) as U2.
      cbn [owns_shared b2n] in *.
      destruct (Z.eqb_spec (inUse p) 0) as [E0|E0];
      unfold pool_inv; cbn [held calls inUse panicked nextFresh]; repeat split; auto; try lia.
    + cbn [owns_shared b2n] in R. unfold pool_inv; cbn [held calls inUse panicked nextFresh countb is_shared b2n].
      repeat split; auto; try lia.
      * constructor; auto. intros Hin.
        assert (Z.to_nat (inUse p) <= 1)%nat by lia.
        assert (C0 : countb is_shared (held p) = 0%nat) by lia.
        pose proof (countb_zero _ _ C0 _ Hin). discriminate.
      * intros n [H|H]; [discriminate|auto].
    + cbn [owns_shared b2n] in R. unfold pool_inv; cbn [held calls inUse panicked nextFresh countb is_shared b2n].
      repeat split; auto; try lia.
      * constructor; auto. intros Hin. apply Hf in Hin. lia.
      * intros n [H|H]; [inversion H; lia|]. apply Hf in H. lia.
    + pose proof (countb_upd owns_shared (calls p) k (InRelease i) RelCAS E) as U1.
      destruct i as [|m]; cbn [inst_eqb owns_shared b2n] in *;
      unfold pool_inv; cbn [held calls inUse panicked nextFresh]; repeat split; auto; lia.
    + cbn [owns_shared b2n] in R.
      destruct (Z.eqb_spec (inUse p) 1) as [E1|E1].
      * unfold pool_inv; cbn [held calls inUse panicked nextFresh]; repeat split; auto; try lia.
      * exfalso. assert (inUse p = 0) by lia. rewrite H in Hc. change (Z.to_nat 0) with 0%nat in Hc. lia.
Qed.

Lemma pool_run_inv es : pool_inv (fold_left pool_step es pool_init).
Proof.
  assert (I : pool_inv pool_init).
  { unfold pool_inv, pool_init; cbn. repeat split; auto; try constructor. intros n []. }
  revert I. generalize pool_init. induction es as [|e es IH]; intros p I; [exact I|].
  cbn [fold_left]. apply IH. apply pool_step_inv. exact I.
Qed.

Lemma countb_le_occ (l : list inst) : countb is_shared l = length (filter is_shared l).
Proof. induction l as [|[|n] l IH]; cbn; lia. Qed.

Lemma pool_safe es :
  let p := fold_left pool_step es pool_init in
  panicked p = false /\ NoDup (held p) /\
  (length (filter is_shared (held p)) + length (filter owns_shared (calls p)) <= 1)%nat.
Proof.
  intros p. destruct (pool_run_inv es) as (Hc & Hu & Hp & Hn & Hf). fold p in Hc, Hu, Hp, Hn, Hf.
  split; [exact Hp|]. split; [exact Hn|]. rewrite <- countb_le_occ.
  assert (E : forall l, countb owns_shared l = length (filter owns_shared l)).
  { induction l as [|c l IH]; cbn; [reflexivity|]. destruct (owns_shared c); cbn; lia. }
  rewrite <- E. assert (Z.to_nat (inUse p) <= 1)%nat by lia. lia.
Qed.

(** When nobody holds the shared instance and no call is in flight, the next Retrieve,
    run to completion, returns it. *)
Lemma pool_reuse es :
  let p := fold_left pool_step es pool_init in
  calls p = [] -> ~ In Shared (held p) ->
  held (fold_left pool_step [CallRetrieve; Step 0; Step 0] p) = Shared :: held p.
Proof.
  intros p Hcalls Hnot. destruct (pool_run_inv es) as (Hc & Hu & Hp & Hn & Hf). fold p in Hc, Hu, Hp, Hn, Hf.
  assert (C0 : countb is_shared (held p) = 0%nat).
  { revert Hnot. generalize (held p). induction l as [|[|n] l IH]; cbn; intros H; [reflexivity| |].
    - exfalso. apply H. left. reflexivity.
    - apply IH. intros Hin. apply H. right. exact Hin. }
  rewrite Hcalls, C0 in Hc. cbn in Hc. assert (E : inUse p = 0) by lia.
  destruct p as [u n h c pk]. cbn in *. subst. reflexivity.
Qed.
