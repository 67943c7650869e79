(** Model of the TEID pool and UE address pool. *)
From Verif Require Import Base.

(** ** TEID pool *)

(** resource_manager.go:16-20 [FTEIDM] (the mutex only serialises calls; every
    operation below is one critical section). *)
Record fteidm := Fteidm { ft_free : list N; ft_busy : gmap N (gmap N N) }.

(** resource_manager.go:55-59: the initialisation loop
    [for teid = 1; teid <= teidRange; teid++] on uint32; [None] = still running
    after [fuel] iterations. *)
Fixpoint teid_loop (fuel : nat) (teid range : N) (acc : list N) : option (list N) :=
  match fuel with
  | O => None
  | S f => if teid <=? range then teid_loop f (u32 (teid + 1)) range (acc ++ [teid])
           else Some acc
  end.

(** resource_manager.go:51-65: the pool built for a range (see
    [teid_loop_terminates]); range 0 leaves the zero-value FTEIDM. *)
Definition new_fteidm (range : N) : fteidm := Fteidm (N.succ <$> Nseq range) ∅.

(** resource_manager.go:87-105 [AllocateTEID]. *)
Definition allocate_teid (seid pdr : N) (m : fteidm) : option N * fteidm :=
  match ft_free m with
  | t :: r =>
      (Some t, Fteidm r (<[seid := <[pdr := t]> (default ∅ (ft_busy m !! seid))]> (ft_busy m)))
  | [] => (None, m)
  end.

(** resource_manager.go:116-126 [ReleaseTEID]; the inner map is visited in an
    arbitrary order [sh]. *)
Definition release_teid (sh : shuffle) (seid : N) (m : fteidm) : fteidm :=
  match ft_busy m !! seid with
  | Some pm => Fteidm (ft_free m ++ (snd <$> entries sh seid pm)) (delete seid (ft_busy m))
  | None => m
  end.

(** ** UE address pool.  An IPv4 address is its 32-bit value. *)

(** resource_manager.go:22-26 [IPAM]. *)
Record ipam := Ipam { ip_free : list N; ip_busy : gmap N N }.

(** resource_manager.go:33-49: the addresses of the prefix [base/len] in
    increasing order (ipnetgen), first one skipped.  [base] is the network
    address returned by net.ParseCIDR. *)
Definition prefix_addrs (base len : N) : list N := (fun i => base + i) <$> Nseq (2 ^ (32 - len)).
Definition new_ipam (base len : N) : ipam := Ipam (tail (prefix_addrs base len)) ∅.

(** resource_manager.go:73-85 [AllocateIP]. *)
Definition allocate_ip (key : N) (m : ipam) : option N * ipam :=
  match ip_free m with
  | a :: r => (Some a, Ipam r (<[key := a]> (ip_busy m)))
  | [] => (None, m)
  end.

(** resource_manager.go:107-114 [ReleaseIP]. *)
Definition release_ip (key : N) (m : ipam) : ipam :=
  match ip_busy m !! key with
  | Some a => Ipam (ip_free m ++ [a]) (delete key (ip_busy m))
  | None => m
  end.

(** ** Histories *)
Inductive rop := AllocT (seid pdr : N) | FreeT (sh : shuffle) (seid : N).
Inductive robs := GotT (seid pdr teid : N) | NoT | FreedT (seid : N).

Definition rstep (m : fteidm) (o : rop) : fteidm * robs :=
  match o with
  | AllocT s p => match allocate_teid s p m with
                  | (Some t, m') => (m', GotT s p t)
                  | (None, m') => (m', NoT)
                  end
  | FreeT sh s => (release_teid sh s m, FreedT s)
  end.
Fixpoint rrun (m : fteidm) (ops : list rop) : fteidm * list robs :=
  match ops with
  | [] => (m, [])
  | o :: r => let '(m1, ob) := rstep m o in let '(m2, obs) := rrun m1 r in (m2, ob :: obs)
  end.
Definition rop_fair (o : rop) : Prop := match o with FreeT sh _ => fair sh | _ => True end.

(** Specification: allocations not yet returned, from the observations only. *)
Definition out_step (l : list (N * N * N)) (ob : robs) : list (N * N * N) :=
  match ob with
  | GotT s p t => l ++ [(s, p, t)]
  | NoT => l
  | FreedT s => filter (fun e => e.1.1 <> s) l
  end.
Definition outstanding (obs : list robs) : list (N * N * N) := foldl out_step [] obs.

Inductive iop := AllocI (key : N) | FreeI (key : N).
Inductive iobs := GotI (key addr : N) | NoI | FreedI (key : N).
Definition istep (m : ipam) (o : iop) : ipam * iobs :=
  match o with
  | AllocI k => match allocate_ip k m with
                | (Some a, m') => (m', GotI k a)
                | (None, m') => (m', NoI)
                end
  | FreeI k => (release_ip k m, FreedI k)
  end.
Fixpoint irun (m : ipam) (ops : list iop) : ipam * list iobs :=
  match ops with
  | [] => (m, [])
  | o :: r => let '(m1, ob) := istep m o in let '(m2, obs) := irun m1 r in (m2, ob :: obs)
  end.
Definition iout_step (l : list (N * N)) (ob : iobs) : list (N * N) :=
  match ob with
  | GotI k a => l ++ [(k, a)]
  | NoI => l
  | FreedI k => filter (fun e => e.1 <> k) l
  end.
Definition ioutstanding (obs : list iobs) : list (N * N) := foldl iout_step [] obs.

(** ** Proofs: TEID pool *)

Lemma teid_loop_S f teid range acc :
  teid_loop (S f) teid range acc =
  if teid <=? range then teid_loop f (u32 (teid + 1)) range (acc ++ [teid]) else Some acc.
Proof. reflexivity. Qed.

Lemma teid_loop_gen n : forall teid range acc,
  range < 4294967295 -> teid <= range + 1 -> N.to_nat (range + 1 - teid) = n ->
  teid_loop (S n) teid range acc = Some (acc ++ ((fun k => teid + N.of_nat k) <$> seq 0 n)).
Proof.
  induction n as [|n IH]; intros teid range acc Hr Ht Hn.
  - rewrite teid_loop_S. assert (teid <=? range = false) as -> by (apply N.leb_gt; lia). by rewrite app_nil_r.
  - rewrite teid_loop_S. assert (teid <=? range = true) as -> by (apply N.leb_le; lia).
    unfold u32. rewrite N.mod_small by lia.
    rewrite IH by lia. f_equal. rewrite <- app_assoc. f_equal. cbn [seq]. rewrite fmap_cons.
    change ([teid] ++ ?l) with (teid :: l). f_equal; [lia|].
    rewrite <- seq_shift, <- list_fmap_compose. apply list_fmap_ext. intros i x _. simpl. lia.
Qed.

(** The start-up loop ends with exactly the TEIDs 1..range for every
    configured range below 2^32-1 ... *)
Theorem teid_loop_terminates :
  forall range, range < 4294967295 ->
  exists fuel, teid_loop fuel 1 range [] = Some (ft_free (new_fteidm range)).
Proof.
  intros range Hr. exists (S (N.to_nat range)). rewrite (teid_loop_gen (N.to_nat range)) by lia.
  simpl. f_equal. unfold Nseq. rewrite <- list_fmap_compose. apply list_fmap_ext.
  intros i x _. simpl. lia.
Qed.

(** ... but never ends for a range of 2^32-1, a value the configuration admits. *)
Theorem teid_loop_diverges_at_max :
  forall fuel, teid_loop fuel 1 4294967295 [] = None.
Proof.
  assert (H : forall fuel t acc, t <= 4294967295 -> teid_loop fuel t 4294967295 acc = None).
  { induction fuel as [|f IH]; intros t acc Ht; [done|]. rewrite teid_loop_S.
    assert (t <=? 4294967295 = true) as -> by (by apply N.leb_le).
    apply IH. unfold u32. pose proof (N.mod_upper_bound (t + 1) 4294967296). lia. }
  intros fuel. apply H. lia.
Qed.

Definition rinv (range : N) (l : list (N * N * N)) (m : fteidm) : Prop :=
  NoDup (ft_free m) /\
  NoDup (snd <$> l) /\
  (forall t, t ∈ ft_free m -> t ∉ (snd <$> l)) /\
  (forall t, t ∈ ft_free m \/ t ∈ (snd <$> l) -> 1 <= t <= range) /\
  (forall s pm p t, ft_busy m !! s = Some pm -> pm !! p = Some t -> (s, p, t) ∈ l).

Lemma rinv_init range : rinv range [] (new_fteidm range).
Proof.
  repeat split; simpl.
  - apply NoDup_fmap_2; [intros ??; lia|apply NoDup_Nseq].
  - constructor.
  - intros t _. apply not_elem_of_nil.
  - destruct H as [H|H]; [|by apply elem_of_nil in H].
    apply elem_of_list_fmap in H as (y & -> & _). lia.
  - destruct H as [H|H]; [|by apply elem_of_nil in H].
    apply elem_of_list_fmap in H as (y & -> & Hy). apply elem_of_Nseq in Hy. lia.
  - intros s pm p t H. done.
Qed.

Lemma snd_inj_nodup (l : list (N * N * N)) e e' :
  NoDup (snd <$> l) -> e ∈ l -> e' ∈ l -> e.2 = e'.2 -> e = e'.
Proof.
  induction l as [|x r IH]; intros Hnd He He' Heq; [by apply elem_of_nil in He|].
  rewrite fmap_cons in Hnd. apply NoDup_cons in Hnd as [Hx Hnd].
  apply elem_of_cons in He as [->|He]; apply elem_of_cons in He' as [->|He']; auto.
  - exfalso. apply Hx. rewrite Heq. by apply elem_of_list_fmap_1.
  - exfalso. apply Hx. rewrite <- Heq. by apply elem_of_list_fmap_1.
Qed.

Lemma filter_fmap_nodup {A} (f : A -> N) (P : A -> Prop) `{!forall x, Decision (P x)} l :
  NoDup (f <$> l) -> NoDup (f <$> filter P l).
Proof.
  induction l as [|x r IH]; [done|]. rewrite fmap_cons, NoDup_cons. intros [Hx Hnd].
  rewrite filter_cons. destruct (decide (P x)); [|auto].
  rewrite fmap_cons, NoDup_cons. split; [|auto]. intros Hin. apply Hx.
  apply elem_of_list_fmap in Hin as (y & -> & Hy). apply elem_of_list_filter in Hy as [_ Hy].
  by apply elem_of_list_fmap_1.
Qed.

Lemma rinv_step range l m o m' ob :
  rop_fair o -> rinv range l m -> rstep m o = (m', ob) -> rinv range (out_step l ob) m'.
Proof.
  intros Hfair (Hnf & Hno & Hdis & Hrg & Hb) Hst. destruct o as [s p|sh s]; simpl in Hst.
  - unfold allocate_teid in Hst. destruct (ft_free m) as [|t r] eqn:E.
    + injection Hst as <- <-. simpl. unfold rinv. rewrite E. done.
    + injection Hst as <- <-. simpl. apply NoDup_cons in Hnf as [Htr Hnr].
      unfold rinv. simpl. split; [done|]. split; [|split; [|split]].
      * rewrite fmap_app. apply NoDup_app. split; [done|]. split; [|apply NoDup_singleton].
        simpl. intros x Hx Hx1. apply elem_of_list_singleton in Hx1 as ->.
        apply (Hdis t); [left|done].
      * intros x Hx. rewrite fmap_app, elem_of_app. simpl. rewrite elem_of_list_singleton.
        intros [Hx'| ->]; [|done]. apply (Hdis x); [by right|done].
      * intros x Hx. apply Hrg. rewrite fmap_app, elem_of_app in Hx. simpl in Hx.
        rewrite elem_of_list_singleton in Hx. rewrite elem_of_cons. tauto.
      * intros s' pm p' t' Hs' Hp'. apply elem_of_app.
        destruct (decide (s' = s)) as [->|Hne].
        -- rewrite lookup_insert in Hs'. injection Hs' as <-.
           destruct (decide (p' = p)) as [->|Hp].
           ++ rewrite lookup_insert in Hp'. injection Hp' as <-. right. by left.
           ++ rewrite lookup_insert_ne in Hp' by done.
              destruct (ft_busy m !! s) as [pm'|] eqn:Eb; simpl in Hp'; [|done].
              left. by eapply Hb.
        -- rewrite lookup_insert_ne in Hs' by done. left. by eapply Hb.
  - injection Hst as <- <-. unfold release_teid.
    destruct (ft_busy m !! s) as [pm|] eqn:Eb.
    + set (vals := snd <$> map_to_list pm). simpl in Hfair.
      assert (Hperm : snd <$> entries sh s pm ≡ₚ vals) by (unfold vals; by rewrite entries_perm).
      assert (Hvals : forall t, t ∈ vals -> exists p, (s, p, t) ∈ l).
      { intros t Ht. apply elem_of_list_fmap in Ht as ([p t'] & -> & Hpt).
        apply elem_of_map_to_list in Hpt. exists p. by eapply Hb. }
      assert (Hvnd : NoDup vals).
      { unfold vals. pose proof (NoDup_map_to_list pm) as Hm.
        assert (Hinj : forall e e', e ∈ map_to_list pm -> e' ∈ map_to_list pm -> e.2 = e'.2 -> e = e').
        { intros [p t] [p' t'] He He' Heq. simpl in Heq. subst t'.
          apply elem_of_map_to_list in He, He'.
          pose proof (snd_inj_nodup l (s, p, t) (s, p', t) Hno (Hb _ _ _ _ Eb He) (Hb _ _ _ _ Eb He') eq_refl).
          congruence. }
        clear Hperm Hvals vals. revert Hm Hinj. generalize (map_to_list pm). intros ml Hm Hinj.
        induction ml as [|e r IH]; [constructor|].
        apply NoDup_cons in Hm as [He Hm]. rewrite fmap_cons, NoDup_cons. split.
        - intros Hin. apply elem_of_list_fmap in Hin as (e' & Heq & He').
          apply He. rewrite (Hinj e e'); [done| |by right|done]. by left.
        - apply IH; [done|]. intros e1 e2 H1 H2 H3. apply Hinj; [by right|by right|done]. }
      assert (Hout : forall t, t ∈ vals -> t ∉ snd <$> filter (fun e => e.1.1 <> s) l).
      { intros t Ht Hin. apply elem_of_list_fmap in Hin as (e & -> & He).
        apply elem_of_list_filter in He as [Hes He]. destruct (Hvals _ Ht) as [p Hp].
        pose proof (snd_inj_nodup l e (s, p, e.2) Hno He Hp eq_refl) as Heq.
        rewrite Heq in Hes. done. }
      unfold rinv. cbn [out_step ft_free ft_busy]. split; [|split; [|split; [|split]]].
      * apply NoDup_app. split; [done|]. split; [|by rewrite Hperm].
        intros t Ht Ht'. rewrite Hperm in Ht'. destruct (Hvals _ Ht') as [p Hp].
        apply (Hdis t Ht). apply elem_of_list_fmap. by exists (s, p, t).
      * by apply filter_fmap_nodup.
      * intros t Ht. apply elem_of_app in Ht as [Ht|Ht].
        -- intros Hin. apply (Hdis t Ht). apply elem_of_list_fmap in Hin as (e & -> & He).
           apply elem_of_list_filter in He as [_ He]. by apply elem_of_list_fmap_1.
        -- rewrite Hperm in Ht. by apply Hout.
      * intros t [Ht|Ht]; apply Hrg.
        -- apply elem_of_app in Ht as [Ht|Ht]; [by left|right]. rewrite Hperm in Ht.
           destruct (Hvals _ Ht) as [p Hp]. apply elem_of_list_fmap. by exists (s, p, t).
        -- right. apply elem_of_list_fmap in Ht as (e & -> & He).
           apply elem_of_list_filter in He as [_ He]. by apply elem_of_list_fmap_1.
      * intros s' pm' p' t' Hs' Hp'. apply lookup_delete_Some in Hs' as [Hne Hs'].
        apply elem_of_list_filter. split; [simpl; done|by eapply Hb].
    + unfold rinv. cbn [out_step]. split; [done|]. split; [by apply filter_fmap_nodup|].
      split; [|split].
      * intros t Ht Hin. apply (Hdis t Ht). apply elem_of_list_fmap in Hin as (e & -> & He).
        apply elem_of_list_filter in He as [_ He]. by apply elem_of_list_fmap_1.
      * intros t [Ht|Ht]; apply Hrg; [by left|right]. apply elem_of_list_fmap in Ht as (e & -> & He).
        apply elem_of_list_filter in He as [_ He]. by apply elem_of_list_fmap_1.
      * intros s' pm' p' t' Hs' Hp'. apply elem_of_list_filter. split; [|by eapply Hb].
        simpl. intros ->. congruence.
Qed.

Lemma rrun_split m ops m' pre ob post :
  Forall rop_fair ops ->
  rrun m ops = (m', pre ++ ob :: post) ->
  forall range l, rinv range l m ->
  exists m1 o m2, rop_fair o /\ rinv range (foldl out_step l pre) m1 /\ rstep m1 o = (m2, ob).
Proof.
  intros Hf. revert m pre. induction Hf as [|o r Ho Hf IH]; intros m pre Hrun range l Hi; simpl in Hrun.
  - injection Hrun as _ Hnil. by destruct pre.
  - destruct (rstep m o) as [m1 ob1] eqn:Est. destruct (rrun m1 r) as [m2 obs] eqn:Er.
    injection Hrun as <- Heq. destruct pre as [|x pre]; simpl in Heq.
    + injection Heq as -> ->. exists m, o, m1. done.
    + injection Heq as -> ->. simpl. apply (IH m1 pre Er). by eapply rinv_step.
Qed.

(** C03.  Whatever happened before, an allocated TEID is in 1..range and is
    different from every TEID allocated earlier and not returned since. *)
Theorem teid_grant_exclusive :
  forall range ops m pre s p t post,
    Forall rop_fair ops ->
    rrun (new_fteidm range) ops = (m, pre ++ GotT s p t :: post) ->
    1 <= t <= range /\ t ∉ (snd <$> outstanding pre).
Proof.
  intros range ops m pre s p t post Hf H.
  edestruct rrun_split as (m1 & o & m2 & _ & Hi & Hst); [exact Hf|exact H|apply rinv_init|].
  destruct o as [s' p'|sh s']; simpl in Hst; [|discriminate].
  unfold allocate_teid in Hst. destruct Hi as (_ & _ & Hdis & Hrg & _).
  destruct (ft_free m1) as [|x r] eqn:E; [discriminate|]. injection Hst as <- <- <- <-.
  split; [apply Hrg; left; left|apply Hdis; left].
Qed.

(** All outstanding TEIDs are pairwise different. *)
Theorem teid_outstanding_distinct :
  forall range ops m obs,
    Forall rop_fair ops ->
    rrun (new_fteidm range) ops = (m, obs) -> NoDup (snd <$> outstanding obs).
Proof.
  intros range ops m obs Hf H.
  assert (Hgen : forall m0 l, rinv range l m0 -> forall m obs, rrun m0 ops = (m, obs) ->
    rinv range (foldl out_step l obs) m).
  { clear H. induction Hf as [|o r Ho Hf IH]; intros m0 l Hi m' obs' H; simpl in H.
    - injection H as <- <-. done.
    - destruct (rstep m0 o) as [m1 ob] eqn:Est. destruct (rrun m1 r) as [m2 obs2] eqn:Er.
      injection H as <- <-. simpl. eapply IH; [|exact Er]. by eapply rinv_step. }
  destruct (Hgen _ _ (rinv_init range) _ _ H) as (_ & Hno & _). exact Hno.
Qed.

(** C05.  "A request is refused only when every TEID of the pool is
    outstanding."  True for clients that never request a TEID for a (session,
    PDR) pair that already has one outstanding ... *)
Definition fresh_request (obs : list robs) (ob : robs) : Prop :=
  match ob with GotT s p _ => ~ exists t, (s, p, t) ∈ outstanding obs | _ => True end.
Definition disciplined (obs : list robs) : Prop :=
  forall pre ob post, obs = pre ++ ob :: post -> fresh_request pre ob.

Definition rinv2 (range : N) (l : list (N * N * N)) (m : fteidm) : Prop :=
  rinv range l m /\
  (forall s p t, (s, p, t) ∈ l -> exists pm, ft_busy m !! s = Some pm /\ pm !! p = Some t) /\
  (forall t, 1 <= t <= range -> t ∈ ft_free m \/ t ∈ (snd <$> l)).

Lemma rinv2_init range : rinv2 range [] (new_fteidm range).
Proof.
  split; [apply rinv_init|]. split; [intros s p t H; by apply elem_of_nil in H|].
  intros t Ht. left. simpl. apply elem_of_list_fmap. exists (N.pred t). split; [lia|].
  apply elem_of_Nseq. lia.
Qed.

Lemma rinv2_step range l m o m' ob :
  rop_fair o -> rinv2 range l m -> rstep m o = (m', ob) ->
  (match ob with GotT s p _ => ~ exists t, (s, p, t) ∈ l | _ => True end) ->
  rinv2 range (out_step l ob) m'.
Proof.
  intros Hfair (Hi & Hb & Hc) Hst Hfr. split; [by eapply rinv_step|].
  destruct o as [s p|sh s]; simpl in Hst.
  - unfold allocate_teid in Hst. destruct (ft_free m) as [|t r] eqn:E.
    + injection Hst as <- <-. simpl. rewrite E. done.
    + injection Hst as <- <-. simpl. split.
      * intros s' p' t' Hin. apply elem_of_app in Hin as [Hin|Hin].
        -- destruct (Hb _ _ _ Hin) as (pm & Hpm & Hp').
           destruct (decide (s' = s)) as [->|Hne].
           ++ exists (<[p:=t]> pm). rewrite lookup_insert, Hpm. split; [done|].
              rewrite lookup_insert_ne; [done|]. intros ->. apply Hfr. by exists t'.
           ++ exists pm. rewrite lookup_insert_ne by done. done.
        -- apply elem_of_list_singleton in Hin. injection Hin as -> -> ->.
           exists (<[p:=t]> (default ∅ (ft_busy m !! s))). rewrite !lookup_insert. done.
      * intros x Hx. rewrite fmap_app, elem_of_app. simpl. rewrite elem_of_list_singleton.
        destruct (Hc _ Hx) as [H|H]; [|tauto]. apply elem_of_cons in H as [->|H]; tauto.
  - injection Hst as <- <-. unfold release_teid. simpl.
    destruct (ft_busy m !! s) as [pm|] eqn:Eb.
    + split.
      * intros s' p' t' Hin. apply elem_of_list_filter in Hin as [Hne Hin]. simpl in Hne.
        destruct (Hb _ _ _ Hin) as (pm' & Hpm & Hp'). exists pm'. simpl.
        rewrite lookup_delete_ne by done. done.
      * intros t Ht. simpl. rewrite elem_of_app. destruct (Hc t Ht) as [H|H]; [tauto|].
        apply elem_of_list_fmap in H as ([[s' p'] t'] & -> & Hin). simpl.
        destruct (decide (s' = s)) as [->|Hne].
        -- left. right. rewrite (entries_perm sh s pm Hfair). destruct (Hb _ _ _ Hin) as (pm' & Hpm & Hp').
           rewrite Eb in Hpm. injection Hpm as <-. apply elem_of_list_fmap. exists (p', t').
           split; [done|]. by apply elem_of_map_to_list.
        -- right. apply elem_of_list_fmap. exists (s', p', t'). split; [done|].
           by apply elem_of_list_filter.
    + assert (Hno : forall s' p' t', (s', p', t') ∈ l -> s' <> s).
      { intros s' p' t' Hin ->. destruct (Hb _ _ _ Hin) as (pm' & Hpm & _). congruence. }
      split.
      * intros s' p' t' Hin. apply elem_of_list_filter in Hin as [_ Hin]. by apply Hb.
      * intros t Ht. destruct (Hc t Ht) as [H|H]; [by left|right].
        apply elem_of_list_fmap in H as ([[s' p'] t'] & -> & Hin).
        apply elem_of_list_fmap. exists (s', p', t'). split; [done|].
        apply elem_of_list_filter. split; [|done]. simpl. by eapply Hno.
Qed.

Lemma rrun2_split m ops m' obs0 pre ob post :
  Forall rop_fair ops ->
  rrun m ops = (m', pre ++ ob :: post) ->
  disciplined (obs0 ++ pre ++ ob :: post) ->
  forall range, rinv2 range (outstanding obs0) m ->
  exists m1 o m2, rinv2 range (outstanding (obs0 ++ pre)) m1 /\ rstep m1 o = (m2, ob).
Proof.
  intros Hf. revert m obs0 pre. induction Hf as [|o r Ho Hf IH]; intros m obs0 pre Hrun Hd range Hi; simpl in Hrun.
  - injection Hrun as _ Hnil. by destruct pre.
  - destruct (rstep m o) as [m1 ob1] eqn:Est. destruct (rrun m1 r) as [m2 obs] eqn:Er.
    injection Hrun as <- Heq. destruct pre as [|x pre]; simpl in Heq.
    + injection Heq as -> ->. exists m, o, m1. by rewrite app_nil_r.
    + injection Heq as -> ->.
      replace (obs0 ++ x :: pre) with ((obs0 ++ [x]) ++ pre) by (by rewrite <- app_assoc).
      apply (IH m1 (obs0 ++ [x]) pre Er); [by rewrite <- app_assoc|].
      unfold outstanding. rewrite foldl_app. simpl. eapply rinv2_step; [exact Ho|exact Hi|exact Est|].
      exact (Hd obs0 x (pre ++ ob :: post) eq_refl).
Qed.

Theorem teid_no_loss_partial :
  forall range ops m pre post,
    Forall rop_fair ops ->
    rrun (new_fteidm range) ops = (m, pre ++ NoT :: post) ->
    disciplined (pre ++ NoT :: post) ->
    forall t, 1 <= t <= range -> t ∈ (snd <$> outstanding pre).
Proof.
  intros range ops m pre post Hf H Hd t Ht.
  edestruct (rrun2_split (new_fteidm range) ops m [] pre NoT post Hf H Hd range) as (m1 & o & m2 & Hi & Hst);
    [apply rinv2_init|].
  destruct Hi as (_ & _ & Hc). simpl in Hc. destruct o as [s p|sh s]; simpl in Hst; [|discriminate].
  unfold allocate_teid in Hst. destruct (ft_free m1) as [|x r] eqn:E; [|discriminate].
  destruct (Hc t Ht) as [Hin|Hin]; [|done]. by apply elem_of_nil in Hin.
Qed.

(** ... and false in general: a second allocation for the same pair loses the
    first TEID for good (pool of 2: after everything was returned only one
    TEID can be allocated). *)
Theorem teid_no_loss_refuted :
  exists ops, Forall rop_fair ops /\
    snd (rrun (new_fteidm 2) ops) =
      [GotT 5 1 1; GotT 5 1 2; FreedT 5; GotT 6 1 2; NoT] /\
    outstanding [GotT 5 1 1; GotT 5 1 2; FreedT 5; GotT 6 1 2] = [(6, 1, 2)].
Proof.
  exists [AllocT 5 1; AllocT 5 1; FreeT id_shuffle 5; AllocT 6 1; AllocT 6 2].
  split; [repeat constructor; apply id_shuffle_fair|]. split; vm_compute; reflexivity.
Qed.

(** Released TEIDs come back: after a release everything the pool recorded for
    that session is at the tail of the free list. *)
Theorem release_returns_teids :
  forall sh s m pm, fair sh -> ft_busy m !! s = Some pm ->
    forall p t, pm !! p = Some t -> t ∈ ft_free (release_teid sh s m).
Proof.
  intros sh s m pm Hf Hs p t Hp. unfold release_teid. rewrite Hs. simpl. apply elem_of_app. right.
  rewrite (entries_perm sh s pm Hf). apply elem_of_list_fmap. exists (p, t). split; [done|].
  by apply elem_of_map_to_list.
Qed.

(** ** Proofs: UE addresses *)
Definition iinv (base len : N) (l : list (N * N)) (m : ipam) : Prop :=
  NoDup (ip_free m) /\ NoDup (snd <$> l) /\
  (forall a, a ∈ ip_free m -> a ∉ (snd <$> l)) /\
  (forall a, a ∈ ip_free m \/ a ∈ (snd <$> l) -> base < a < base + 2 ^ (32 - len)) /\
  (forall k a, ip_busy m !! k = Some a -> (k, a) ∈ l).

Lemma prefix_addrs_nodup base len : NoDup (prefix_addrs base len).
Proof. apply NoDup_fmap_2; [intros ??; lia|apply NoDup_Nseq]. Qed.

Lemma prefix_addrs_tail base len a :
  a ∈ tail (prefix_addrs base len) -> base < a < base + 2 ^ (32 - len).
Proof.
  intros Ha. pose proof (prefix_addrs_nodup base len) as Hnd.
  assert (Hin : a ∈ prefix_addrs base len).
  { destruct (prefix_addrs base len); [done|by right]. }
  apply elem_of_list_fmap in Hin as (i & -> & Hi). apply elem_of_Nseq in Hi.
  enough (i <> 0) by lia. intros ->.
  unfold prefix_addrs in *. revert Ha Hnd. unfold Nseq.
  destruct (N.to_nat (2 ^ (32 - len))) as [|n]; simpl; [intros H; by apply elem_of_nil in H|].
  intros Ha Hnd. apply NoDup_cons in Hnd as [Hnd _]. rewrite N.add_0_r in *. done.
Qed.

Lemma iinv_init base len : iinv base len [] (new_ipam base len).
Proof.
  split; [|split; [constructor|split; [intros; apply not_elem_of_nil|split]]]; simpl.
  - pose proof (prefix_addrs_nodup base len) as H. destruct (prefix_addrs base len); [constructor|].
    by apply NoDup_cons in H as [_ H].
  - intros a [H|H]; [|by apply elem_of_nil in H]. by apply prefix_addrs_tail.
  - intros k a H. done.
Qed.

Lemma snd_inj_nodup2 (l : list (N * N)) e e' :
  NoDup (snd <$> l) -> e ∈ l -> e' ∈ l -> e.2 = e'.2 -> e = e'.
Proof.
  induction l as [|x r IH]; intros Hnd He He' Heq; [by apply elem_of_nil in He|].
  rewrite fmap_cons in Hnd. apply NoDup_cons in Hnd as [Hx Hnd].
  apply elem_of_cons in He as [->|He]; apply elem_of_cons in He' as [->|He']; auto.
  - exfalso. apply Hx. rewrite Heq. by apply elem_of_list_fmap_1.
  - exfalso. apply Hx. rewrite <- Heq. by apply elem_of_list_fmap_1.
Qed.

Lemma iinv_step base len l m o m' ob :
  iinv base len l m -> istep m o = (m', ob) -> iinv base len (iout_step l ob) m'.
Proof.
  intros (Hnf & Hno & Hdis & Hrg & Hb) Hst.
  assert (Hsub : forall k a, a ∈ snd <$> filter (fun e => e.1 <> k) l -> a ∈ snd <$> l).
  { intros k a Ha. apply elem_of_list_fmap in Ha as (e & -> & He).
    apply elem_of_list_filter in He as [_ He]. by apply elem_of_list_fmap_1. }
  destruct o as [k|k]; simpl in Hst.
  - unfold allocate_ip in Hst. destruct (ip_free m) as [|a r] eqn:E.
    + injection Hst as <- <-. simpl. unfold iinv. rewrite E. done.
    + injection Hst as <- <-. apply NoDup_cons in Hnf as [Har Hnr]. unfold iinv. simpl.
      split; [done|]. split; [|split; [|split]].
      * rewrite fmap_app. apply NoDup_app. split; [done|]. split; [|apply NoDup_singleton].
        simpl. intros x Hx Hx1. apply elem_of_list_singleton in Hx1 as ->. apply (Hdis a); [left|done].
      * intros x Hx. rewrite fmap_app, elem_of_app. simpl. rewrite elem_of_list_singleton.
        intros [Hx'| ->]; [|done]. apply (Hdis x); [by right|done].
      * intros x Hx. apply Hrg. rewrite fmap_app, elem_of_app in Hx. simpl in Hx.
        rewrite elem_of_list_singleton in Hx. rewrite elem_of_cons. tauto.
      * intros k' a' Hk. apply elem_of_app. destruct (decide (k' = k)) as [->|Hne].
        -- rewrite lookup_insert in Hk. injection Hk as <-. right. by left.
        -- rewrite lookup_insert_ne in Hk by done. left. by apply Hb.
  - injection Hst as <- <-. unfold release_ip. destruct (ip_busy m !! k) as [a|] eqn:Eb.
    + pose proof (Hb _ _ Eb) as Hka. unfold iinv. cbn [iout_step ip_free ip_busy].
      assert (Hal : a ∈ snd <$> l) by (apply elem_of_list_fmap; by exists (k, a)).
      split; [|split; [|split; [|split]]].
      * apply NoDup_app. split; [done|]. split; [|apply NoDup_singleton].
        intros x Hx Hx1. apply elem_of_list_singleton in Hx1 as ->. by apply (Hdis a).
      * by apply filter_fmap_nodup.
      * intros x Hx. apply elem_of_app in Hx as [Hx|Hx].
        -- intros Hin. apply (Hdis x Hx). by eapply Hsub.
        -- apply elem_of_list_singleton in Hx as ->. intros Hin.
           apply elem_of_list_fmap in Hin as (e & He2 & He). apply elem_of_list_filter in He as [Hek He].
           rewrite (snd_inj_nodup2 l e (k, a) Hno He Hka) in Hek by done. done.
      * intros x [Hx|Hx]; apply Hrg.
        -- apply elem_of_app in Hx as [Hx|Hx]; [by left|]. apply elem_of_list_singleton in Hx as ->. by right.
        -- right. by eapply Hsub.
      * intros k' a' Hk. apply lookup_delete_Some in Hk as [Hne Hk]. apply elem_of_list_filter.
        split; [done|by apply Hb].
    + unfold iinv. cbn [iout_step]. split; [done|]. split; [by apply filter_fmap_nodup|].
      split; [|split].
      * intros x Hx Hin. apply (Hdis x Hx). by eapply Hsub.
      * intros x [Hx|Hx]; apply Hrg; [by left|right]. by eapply Hsub.
      * intros k' a' Hk. apply elem_of_list_filter. split; [|by apply Hb]. simpl. intros ->. congruence.
Qed.

Lemma irun_split m ops m' pre ob post :
  irun m ops = (m', pre ++ ob :: post) ->
  forall base len l, iinv base len l m ->
  exists m1 o m2, iinv base len (foldl iout_step l pre) m1 /\ istep m1 o = (m2, ob).
Proof.
  revert m pre. induction ops as [|o r IH]; intros m pre Hrun base len l Hi; simpl in Hrun.
  - injection Hrun as _ Hnil. by destruct pre.
  - destruct (istep m o) as [m1 ob1] eqn:Est. destruct (irun m1 r) as [m2 obs] eqn:Er.
    injection Hrun as <- Heq. destruct pre as [|x pre]; simpl in Heq.
    + injection Heq as -> ->. exists m, o, m1. done.
    + injection Heq as -> ->. simpl. apply (IH m1 pre Er). by eapply iinv_step.
Qed.

(** C04.  An allocated address lies in the prefix, is not the network address
    and differs from every address allocated earlier and not returned since. *)
Theorem ip_grant_exclusive :
  forall base len ops m pre k a post,
    irun (new_ipam base len) ops = (m, pre ++ GotI k a :: post) ->
    base < a < base + 2 ^ (32 - len) /\ a ∉ (snd <$> ioutstanding pre).
Proof.
  intros base len ops m pre k a post H.
  edestruct irun_split as (m1 & o & m2 & Hi & Hst); [exact H|apply iinv_init|].
  destruct o as [k'|k']; simpl in Hst; [|discriminate].
  unfold allocate_ip in Hst. destruct Hi as (_ & _ & Hdis & Hrg & _).
  destruct (ip_free m1) as [|x r] eqn:E; [discriminate|]. injection Hst as <- <- <-.
  split; [apply Hrg; left; left|apply Hdis; left].
Qed.

(** C05 for addresses.  [idisciplined]: no session key asks for a second
    address while it holds one. *)
Definition ifresh_request (obs : list iobs) (ob : iobs) : Prop :=
  match ob with GotI k _ => ~ exists a, (k, a) ∈ ioutstanding obs | _ => True end.
Definition idisciplined (obs : list iobs) : Prop :=
  forall pre ob post, obs = pre ++ ob :: post -> ifresh_request pre ob.

Definition iinv2 (base len : N) (l : list (N * N)) (m : ipam) : Prop :=
  (forall k a, (k, a) ∈ l -> ip_busy m !! k = Some a) /\
  (forall a, base < a < base + 2 ^ (32 - len) -> a ∈ ip_free m \/ a ∈ (snd <$> l)).

Lemma iinv2_init base len : iinv2 base len [] (new_ipam base len).
Proof.
  split; [intros k a H; by apply elem_of_nil in H|]. intros a Ha. left. simpl.
  assert (Hin : a ∈ prefix_addrs base len).
  { apply elem_of_list_fmap. exists (a - base). split; [lia|]. apply elem_of_Nseq. lia. }
  revert Hin. unfold prefix_addrs, Nseq. destruct (N.to_nat (2 ^ (32 - len))) as [|n]; [done|].
  simpl. intros Hin. apply elem_of_cons in Hin as [Heq|Hin]; [exfalso; lia|done].
Qed.

Lemma iinv2_step base len l m o m' ob :
  iinv2 base len l m -> istep m o = (m', ob) ->
  (match ob with GotI k _ => ~ exists a, (k, a) ∈ l | _ => True end) ->
  iinv2 base len (iout_step l ob) m'.
Proof.
  intros (Hb & Hc) Hst Hfr. destruct o as [k|k]; simpl in Hst.
  - unfold allocate_ip in Hst. destruct (ip_free m) as [|a r] eqn:E.
    + injection Hst as <- <-. simpl. split; [done|]. by rewrite E.
    + injection Hst as <- <-. simpl. split; simpl.
      * intros k' a' Hin. apply elem_of_app in Hin as [Hin|Hin].
        -- rewrite lookup_insert_ne; [by apply Hb|]. intros ->. apply Hfr. by exists a'.
        -- apply elem_of_list_singleton in Hin. injection Hin as -> ->. by rewrite lookup_insert.
      * intros x Hx. rewrite fmap_app, elem_of_app. simpl. rewrite elem_of_list_singleton.
        destruct (Hc _ Hx) as [H|H]; [|tauto]. rewrite elem_of_cons in H. tauto.
  - injection Hst as <- <-. unfold release_ip. simpl.
    assert (Hkeep : forall k' a', (k', a') ∈ l -> k' <> k -> a' ∈ snd <$> filter (fun e => e.1 <> k) l).
    { intros k' a' Hin Hne. apply elem_of_list_fmap. exists (k', a'). split; [done|].
      by apply elem_of_list_filter. }
    destruct (ip_busy m !! k) as [a|] eqn:Eb; (split; simpl).
    + intros k' a' Hin. apply elem_of_list_filter in Hin as [Hne Hin]. simpl in Hne.
      rewrite lookup_delete_ne by done. by apply Hb.
    + intros x Hx. rewrite elem_of_app, elem_of_list_singleton. destruct (Hc x Hx) as [H|H]; [tauto|].
      apply elem_of_list_fmap in H as ([k' a'] & -> & Hin). simpl.
      destruct (decide (k' = k)) as [->|Hne]; [|right; by eapply Hkeep].
      rewrite (Hb _ _ Hin) in Eb. injection Eb as ->. tauto.
    + intros k' a' Hin. apply elem_of_list_filter in Hin as [_ Hin]. by apply Hb.
    + intros x Hx. destruct (Hc x Hx) as [H|H]; [tauto|]. right.
      apply elem_of_list_fmap in H as ([k' a'] & -> & Hin). simpl. eapply Hkeep; [exact Hin|].
      intros ->. rewrite (Hb _ _ Hin) in Eb. done.
Qed.

Theorem ip_no_loss_partial :
  forall base len ops m pre post,
    irun (new_ipam base len) ops = (m, pre ++ NoI :: post) ->
    idisciplined (pre ++ NoI :: post) ->
    forall a, base < a < base + 2 ^ (32 - len) -> a ∈ (snd <$> ioutstanding pre).
Proof.
  intros base len ops m pre post H Hd a Ha.
  assert (Hgen : forall ops m0 m' obs0 pre, irun m0 ops = (m', pre ++ NoI :: post) ->
    idisciplined (obs0 ++ pre ++ NoI :: post) -> iinv2 base len (ioutstanding obs0) m0 ->
    exists m1 o m2, iinv2 base len (ioutstanding (obs0 ++ pre)) m1 /\ istep m1 o = (m2, NoI)).
  { clear. induction ops as [|o r IH]; intros m0 m' obs0 pre Hrun Hd Hi; simpl in Hrun.
    - injection Hrun as _ Hnil. by destruct pre.
    - destruct (istep m0 o) as [m1 ob1] eqn:Est. destruct (irun m1 r) as [m2 obs] eqn:Er.
      injection Hrun as <- Heq. destruct pre as [|x pre]; simpl in Heq.
      + injection Heq as -> ->. exists m0, o, m1. by rewrite app_nil_r.
      + injection Heq as -> ->.
        replace (obs0 ++ x :: pre) with ((obs0 ++ [x]) ++ pre) by (by rewrite <- app_assoc).
        apply (IH m1 m2 (obs0 ++ [x]) pre Er); [by rewrite <- app_assoc|].
        unfold ioutstanding. rewrite foldl_app. simpl. eapply iinv2_step; [exact Hi|exact Est|].
        exact (Hd obs0 x (pre ++ NoI :: post) eq_refl). }
  destruct (Hgen ops _ _ [] pre H Hd (iinv2_init base len)) as (m1 & o & m2 & (_ & Hc) & Hst).
  simpl in Hc. destruct o as [k|k]; simpl in Hst; [|discriminate].
  unfold allocate_ip in Hst. destruct (ip_free m1) as [|x r] eqn:E; [|discriminate].
  destruct (Hc a Ha) as [Hin|Hin]; [by apply elem_of_nil in Hin|done].
Qed.

(** In general it is false for addresses too: the same loss. *)
Theorem ip_no_loss_refuted :
  snd (irun (new_ipam 168558592 30) [AllocI 5; AllocI 5; AllocI 5; FreeI 5; AllocI 6; AllocI 7]) =
    [GotI 5 168558593; GotI 5 168558594; GotI 5 168558595; FreedI 5; GotI 6 168558595; NoI] /\
  ioutstanding [GotI 5 168558593; GotI 5 168558594; GotI 5 168558595; FreedI 5; GotI 6 168558595] =
    [(6, 168558595)].
Proof. split; vm_compute; reflexivity. Qed.

(** Non-vacuity of the positive theorems. *)
Example teid_history_example :
  snd (rrun (new_fteidm 3) [AllocT 1 1; AllocT 1 2; AllocT 2 1; AllocT 2 2; FreeT rev_shuffle 1; AllocT 3 9; AllocT 4 9]) =
  [GotT 1 1 1; GotT 1 2 2; GotT 2 1 3; NoT; FreedT 1; GotT 3 9 2; GotT 4 9 1].
Proof. vm_compute. reflexivity. Qed.
Example ip_history_example :
  snd (irun (new_ipam 168558592 30) [AllocI 5; AllocI 6; FreeI 5; AllocI 7; AllocI 8; AllocI 9]) =
  [GotI 5 168558593; GotI 6 168558594; FreedI 5; GotI 7 168558595; GotI 8 168558593; NoI].
Proof. vm_compute. reflexivity. Qed.
