(** Model of the id allocator behind FAR / QER / URR map indices. *)
From Verif Require Import Base.

(** objects.go:303-306 [IdTracker].  The roaring bitmap is the set of free ids;
    it is represented by the strictly increasing list of its members, which is
    also the order in which its iterator yields them. *)
Record tracker := Tracker { t_free : list N; t_max : N }.

(** objects.go:308-316 [NewIdTracker]: Flip(0,size) on the empty bitmap sets
    exactly the bits 0..size-1. *)
Definition new_tracker (size : N) : tracker := Tracker (Nseq size) size.

(** objects.go:318-328 [GetNext]: first id of the iterator (the smallest) is
    removed and returned; [None] is the error "pool is empty". *)
Definition get_next (t : tracker) : option N * tracker :=
  match t_free t with
  | i :: r => (Some i, Tracker r (t_max t))
  | [] => (None, t)
  end.

(** roaring Bitmap.Add on the increasing-list representation. *)
Fixpoint bitmap_add (i : N) (l : list N) : list N :=
  match l with
  | [] => [i]
  | x :: r => if i <? x then i :: x :: r
              else if i =? x then x :: r
              else x :: bitmap_add i r
  end.

(** objects.go:330-336 [Release]: ids >= maxSize are ignored. *)
Definition release (i : N) (t : tracker) : tracker :=
  if t_max t <=? i then t else Tracker (bitmap_add i (t_free t)) (t_max t).

(** ** Histories *)
Inductive top := Get | Rel (i : N).

(** What a client observes. *)
Inductive tobs := Granted (i : N) | Refused | Released (i : N).

Definition tstep (t : tracker) (o : top) : tracker * tobs :=
  match o with
  | Get => match get_next t with
           | (Some i, t') => (t', Granted i)
           | (None, t') => (t', Refused)
           end
  | Rel i => (release i t, Released i)
  end.

Fixpoint trun (t : tracker) (ops : list top) : tracker * list tobs :=
  match ops with
  | [] => (t, [])
  | o :: r => let '(t1, ob) := tstep t o in
              let '(t2, obs) := trun t1 r in (t2, ob :: obs)
  end.

(** ** Specification: which ids are held, computed from the observations only. *)
Definition held_step (h : gset N) (ob : tobs) : gset N :=
  match ob with
  | Granted i => {[i]} ∪ h
  | Refused => h
  | Released i => h ∖ {[i]}
  end.
Definition held (obs : list tobs) : gset N := foldl held_step ∅ obs.

(** ** Proofs *)
Definition sorted := StronglySorted N.lt.

Lemma bitmap_add_elem i l x : x ∈ bitmap_add i l <-> x = i \/ x ∈ l.
Proof.
  induction l as [|y r IH]; simpl.
  - rewrite elem_of_list_singleton. set_solver.
  - destruct (i <? y) eqn:E1; [set_solver|].
    destruct (i =? y) eqn:E2.
    + apply N.eqb_eq in E2. subst. set_solver.
    + set_solver.
Qed.

Lemma bitmap_add_sorted i l : sorted l -> sorted (bitmap_add i l).
Proof.
  unfold sorted. induction 1 as [|y r Hs IH Hf]; simpl.
  - repeat constructor.
  - destruct (i <? y) eqn:E1.
    + apply N.ltb_lt in E1. constructor; [by constructor|].
      constructor; [done|]. eapply Forall_impl; [exact Hf|]. simpl; intros; lia.
    + apply N.ltb_ge in E1. destruct (i =? y) eqn:E2; [by constructor|].
      apply N.eqb_neq in E2. constructor; [done|].
      apply Forall_forall. intros x Hx. apply bitmap_add_elem in Hx as [->|Hx]; [lia|].
      by eapply Forall_forall in Hf.
Qed.

Lemma Nseq_sorted n : sorted (Nseq n).
Proof.
  unfold sorted, Nseq. generalize 0%nat as s. induction (N.to_nat n) as [|k IH]; intros s; simpl.
  - constructor.
  - constructor; [apply IH|]. apply Forall_fmap, Forall_forall.
    intros x Hx. apply elem_of_seq in Hx. simpl. lia.
Qed.

(** Free list = ids below the size that are not held. *)
Definition tinv (size : N) (h : gset N) (t : tracker) : Prop :=
  t_max t = size /\ sorted (t_free t) /\ forall i, i ∈ t_free t <-> i < size /\ i ∉ h.

Lemma tinv_init size : tinv size ∅ (new_tracker size).
Proof.
  split; [done|]. split; [apply Nseq_sorted|]. intros i. simpl. rewrite elem_of_Nseq. set_solver.
Qed.

Lemma tinv_step size h t o t' ob :
  tinv size h t -> tstep t o = (t', ob) -> tinv size (held_step h ob) t'.
Proof.
  intros (Hm & Hs & Hf) Hst. destruct o as [|i]; simpl in Hst.
  - unfold get_next in Hst. destruct (t_free t) as [|x r] eqn:E.
    + injection Hst as <- <-. split; [done|]. rewrite E. split; [done|]. simpl. exact Hf.
    + injection Hst as <- <-. simpl. split; [done|].
      apply StronglySorted_inv in Hs as [Hs Hall]. split; [done|]. simpl. intros j.
      assert (Hx : x ∉ r). { intros Hin. eapply Forall_forall in Hall; [|exact Hin]. lia. }
      specialize (Hf j). rewrite elem_of_cons in Hf. split.
      * intros Hj. assert (j <> x) by (intros ->; done). destruct Hf as [Hf _].
        destruct Hf as [? ?]; [by right|]. set_solver.
      * intros [Hj Hn]. assert (j <> x) by set_solver. destruct Hf as [_ Hf].
        destruct Hf as [?|?]; [split; [done|set_solver]|done|done].
  - injection Hst as <- <-. unfold release. destruct (t_max t <=? i) eqn:E.
    + apply N.leb_le in E. split; [done|]. split; [done|]. intros j. simpl. rewrite Hf.
      split; [intros [??]; split; [done|set_solver]|]. intros [Hj Hn]. split; [done|].
      assert (j <> i) by lia. set_solver.
    + apply N.leb_gt in E. split; [done|]. split; [by apply bitmap_add_sorted|].
      intros j. cbn [t_free held_step]. rewrite bitmap_add_elem, Hf.
      split.
      * intros [->|[??]]; (split; [lia|set_solver]).
      * intros [Hj Hn]. destruct (decide (j = i)); [by left|right; set_solver].
Qed.

Lemma trun_split t ops t' pre ob post :
  trun t ops = (t', pre ++ ob :: post) ->
  forall size h, tinv size h t ->
  exists t1 o t2, tinv size (foldl held_step h pre) t1 /\ tstep t1 o = (t2, ob).
Proof.
  revert t pre. induction ops as [|o r IH]; intros t pre Hrun size h Hi; simpl in Hrun.
  - injection Hrun as _ Hnil. by destruct pre.
  - destruct (tstep t o) as [t1 ob1] eqn:Est. destruct (trun t1 r) as [t2 obs] eqn:Er.
    injection Hrun as <- Heq. destruct pre as [|p pre]; simpl in Heq.
    + injection Heq as -> ->. exists t, o, t1. done.
    + injection Heq as -> ->. simpl. apply (IH t1 pre Er). by eapply tinv_step.
Qed.

(** ** C01: exclusive and in range.  At every point of every history, the id
    granted is below the map size and nobody holds it. *)
Theorem id_grant_exclusive :
  forall size ops t pre i post,
    trun (new_tracker size) ops = (t, pre ++ Granted i :: post) ->
    i < size /\ i ∉ held pre.
Proof.
  intros size ops t pre i post H.
  edestruct trun_split as (t1 & o & t2 & Hi & Hst); [exact H|apply tinv_init|].
  destruct o as [|k]; simpl in Hst; [|discriminate].
  unfold get_next in Hst. destruct Hi as (_ & _ & Hf). destruct (t_free t1) as [|x r] eqn:E.
  - discriminate.
  - injection Hst as <- <-. apply Hf. left.
Qed.

(** C02: the granted id is the smallest one nobody holds; a request is refused
    only when all ids are held. *)
Theorem id_grant_smallest :
  forall size ops t pre i post,
    trun (new_tracker size) ops = (t, pre ++ Granted i :: post) ->
    forall j, j < i -> j ∈ held pre.
Proof.
  intros size ops t pre i post H j Hj.
  edestruct trun_split as (t1 & o & t2 & Hi & Hst); [exact H|apply tinv_init|].
  destruct o as [|k]; simpl in Hst; [|discriminate].
  unfold get_next in Hst. destruct Hi as (_ & Hs & Hf). destruct (t_free t1) as [|x r] eqn:E.
  - discriminate.
  - injection Hst as <- <-. unfold held. destruct (decide (j ∈ foldl held_step ∅ pre)) as [|Hn]; [done|].
    apply StronglySorted_inv in Hs as [_ Hall].
    assert (x < size) by (apply Hf; left).
    assert (Hin : j ∈ x :: r) by (apply Hf; split; [lia|done]).
    apply elem_of_cons in Hin as [->|Hin]; [lia|]. eapply Forall_forall in Hall; [|exact Hin]. lia.
Qed.

Theorem id_refused_iff_exhausted :
  forall size ops t pre post,
    trun (new_tracker size) ops = (t, pre ++ Refused :: post) ->
    forall i, i < size -> i ∈ held pre.
Proof.
  intros size ops t pre post H i Hlt.
  edestruct trun_split as (t1 & o & t2 & Hi & Hst); [exact H|apply tinv_init|].
  destruct o as [|k]; simpl in Hst; [|discriminate].
  unfold get_next in Hst. destruct Hi as (_ & _ & Hf). destruct (t_free t1) as [|x r] eqn:E.
  - unfold held. destruct (decide (i ∈ foldl held_step ∅ pre)) as [|Hn]; [done|].
    assert (Hin : i ∈ ([] : list N)) by (apply Hf; done). by apply elem_of_nil in Hin.
  - discriminate.
Qed.

(** Conversely, a request in a state where some id below the size is not held
    is granted. *)
Theorem id_granted_when_available :
  forall size ops i,
    i < size -> i ∉ held (snd (trun (new_tracker size) ops)) ->
    exists j, snd (trun (new_tracker size) (ops ++ [Get])) =
              snd (trun (new_tracker size) ops) ++ [Granted j].
Proof.
  intros size ops i Hlt Hn.
  assert (Hgen : forall t h, tinv size h t -> i ∉ foldl held_step h (snd (trun t ops)) ->
    exists j, snd (trun t (ops ++ [Get])) = snd (trun t ops) ++ [Granted j]).
  { clear Hn. induction ops as [|o r IH]; intros t h Hi Hn; simpl in *.
    - destruct Hi as (_ & _ & Hf). unfold get_next. destruct (t_free t) as [|x l] eqn:E.
      + assert (Hin : i ∈ ([] : list N)) by (apply Hf; done). by apply elem_of_nil in Hin.
      + exists x. reflexivity.
    - destruct (tstep t o) as [t1 ob] eqn:Est.
      pose proof (tinv_step _ _ _ _ _ _ Hi Est) as Hi1.
      specialize (IH t1 _ Hi1).
      destruct (trun t1 r) as [t2 obs] eqn:Er. simpl in *.
      destruct (IH Hn) as [j Hj]. exists j.
      destruct (trun t1 (r ++ [Get])) as [t3 obs3]. simpl in *. by rewrite Hj. }
  apply (Hgen _ ∅); [apply tinv_init|exact Hn].
Qed.

(** Double release and out-of-range release do nothing. *)
Theorem release_idempotent :
  forall i t, release i (release i t) = release i t.
Proof.
  intros i [f m]. unfold release. cbn. destruct (m <=? i) eqn:E; cbn; rewrite E; [done|].
  f_equal. clear E. induction f as [|x r IH]; cbn.
  - rewrite N.ltb_irrefl, N.eqb_refl. done.
  - destruct (i <? x) eqn:E1; cbn.
    + rewrite N.ltb_irrefl, N.eqb_refl. done.
    + destruct (i =? x) eqn:E2; cbn; rewrite E1, E2; [done|]. by rewrite IH.
Qed.
Theorem release_out_of_range :
  forall i t, t_max t <= i -> release i t = t.
Proof. intros i t H. unfold release. apply N.leb_le in H. by rewrite H. Qed.

(** Non-vacuity: a history with grants, refusal, release and re-grant. *)
Example id_history_example :
  snd (trun (new_tracker 2) [Get; Get; Get; Rel 0; Rel 0; Rel 7; Get; Get]) =
  [Granted 0; Granted 1; Refused; Released 0; Released 0; Released 7; Granted 0; Refused].
Proof. reflexivity. Qed.
