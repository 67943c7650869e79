(** C71: volume counters when several CPUs process packets while the control plane reads and clears them.
    urr.h:41-49 adds to the counter with an ordinary load and an ordinary store, on a value all CPUs share (urr.h:32-38: an ARRAY, not a
    per-CPU map), and pdr.go:244-256 reads it and writes zeros with two system calls. *)
From Verif Require Import Base IdTracker MapOps Xdp.
Open Scope N_scope.

(** One direction of one counter.  [URead c n]: CPU [c] handles a packet of [n] bytes and has loaded the counter (urr.h:45 or 46, the load);
    [UWrite c]: it stores the sum (the store); [ULook]: pdr.go:247, the control plane reads the value it will report; [UZero]: pdr.go:251. *)
Inductive uev := URead (cpu n : N) | UWrite (cpu : N) | ULook | UZero.
(** The counter, the sums about to be stored, the value looked up for a report that is not out yet, the volumes reported. *)
Record ust := Ust { u_v : N; u_pend : gmap N N; u_look : option N; u_out : list N }.
Definition ustep (s : ust) (e : uev) : ust :=
  match e with
  | URead c n => Ust (u_v s) (<[c := u64 (u_v s + n)]> (u_pend s)) (u_look s) (u_out s)
  | UWrite c => match u_pend s !! c with Some x => Ust x (delete c (u_pend s)) (u_look s) (u_out s) | None => s end
  | ULook => Ust (u_v s) (u_pend s) (Some (u_v s)) (u_out s)
  | UZero => Ust 0 (u_pend s) None (u_out s ++ match u_look s with Some v => [v] | None => [] end)
  end.
Definition urun (s : ust) (l : list uev) : ust := foldl ustep s l.

(** ** Specification *)
Fixpoint sum (l : list N) : N := match l with [] => 0 | x :: r => x + sum r end.
(** The bytes of the packets handled. *)
Definition volume (l : list uev) : N := sum (omap (fun e => match e with URead _ n => Some n | _ => None end) l).
(** What has been reported or will be. *)
Definition accounted (s : ust) : N := sum (u_out s) + u_v s.
Definition idle (v : N) : ust := Ust v ∅ None [].

Lemma sum_app l l' : sum (l ++ l') = sum l + sum l'.
Proof. induction l; simpl; lia. Qed.
Lemma volume_cons e l : volume (e :: l) = (match e with URead _ n => n | _ => 0 end) + volume l.
Proof. unfold volume. by destruct e. Qed.
Lemma volume_app l l' : volume (l ++ l') = volume l + volume l'.
Proof. unfold volume. rewrite omap_app, sum_app. done. Qed.

(** *** Positive: nothing is counted twice, as long as no CPU is between load and store when the counter is cleared *)
Fixpoint quiet (s : ust) (l : list uev) : Prop :=
  match l with
  | [] => True
  | e :: r => (e = UZero -> u_pend s = ∅) /\ quiet (ustep s e) r
  end.
Record within (T : N) (s : ust) : Prop := {
  wi_v : sum (u_out s) + u_v s <= T;
  wi_pend : forall c x, u_pend s !! c = Some x -> sum (u_out s) + x <= T;
  wi_look : forall x, u_look s = Some x -> sum (u_out s) + x <= T }.
Lemma within_step T s e : within T s -> T + (match e with URead _ n => n | _ => 0 end) < 18446744073709551616 -> (e = UZero -> u_pend s = ∅) ->
  within (T + match e with URead _ n => n | _ => 0 end) (ustep s e).
Proof.
  intros [W1 W2 W3] HT Hq. destruct e as [c n|c| |]; simpl.
  - constructor; simpl; [lia| |intros x Hx; specialize (W3 x Hx); lia].
    intros c' x Hx. destruct (decide (c' = c)) as [->|Hne].
    + rewrite lookup_insert in Hx. injection Hx as <-. unfold u64. rewrite N.mod_small by lia. lia.
    + rewrite lookup_insert_ne in Hx by done. specialize (W2 _ _ Hx). lia.
  - rewrite N.add_0_r. destruct (u_pend s !! c) as [x|] eqn:E; [|by constructor]. constructor; simpl; [by apply (W2 c)| |done].
    intros c' y Hy. destruct (decide (c' = c)) as [->|Hne]; [by rewrite lookup_delete in Hy|]. rewrite lookup_delete_ne in Hy by done. by apply (W2 c').
  - rewrite N.add_0_r. constructor; simpl; try done. intros x Hx. by injection Hx as <-.
  - rewrite N.add_0_r. constructor; simpl; try done.
    + rewrite sum_app. destruct (u_look s) as [x|] eqn:E; simpl; [specialize (W3 x eq_refl)|]; lia.
    + rewrite (Hq eq_refl). intros c x Hx. by rewrite lookup_empty in Hx.
Qed.
Lemma within_run l : forall T s, within T s -> T + volume l < 18446744073709551616 -> quiet s l -> within (T + volume l) (urun s l).
Proof.
  induction l as [|e l IH]; intros T s W HT Hq; [by rewrite N.add_0_r|]. rewrite volume_cons in *. destruct Hq as [Hq Hql].
  rewrite N.add_assoc. simpl. apply IH; [|lia|done]. apply within_step; [done|lia|done].
Qed.

(** ** C71 *)
Theorem never_counted_twice_partial :
  forall v l, quiet (idle v) l -> v + volume l < 18446744073709551616 -> accounted (urun (idle v) l) <= v + volume l.
Proof.
  intros v l Hq HT. apply (wi_v (v + volume l)). apply within_run; [|done|done]. constructor; simpl; try lia; [|done].
  intros c x Hx. by rewrite lookup_empty in Hx.
Qed.

(** *** Positive: exact, when a packet is charged and a report taken without interruption *)
Inductive op := Packet (cpu n : N) | Report.
Definition steps_of (o : op) : list uev := match o with Packet c n => [URead c n; UWrite c] | Report => [ULook; UZero] end.
Theorem uninterrupted_exact_partial :
  forall v (l : list op), let t := mjoin (steps_of <$> l) in v + volume t < 18446744073709551616 ->
    accounted (urun (idle v) t) = v + volume t.
Proof.
  intros v l t. subst t.
  assert (H : forall l s, u_pend s = ∅ -> accounted s + volume (mjoin (steps_of <$> l)) < 18446744073709551616 ->
    accounted (urun s (mjoin (steps_of <$> l))) = accounted s + volume (mjoin (steps_of <$> l))).
  { clear. induction l as [|o l IH]; intros s Hp HT; [by rewrite N.add_0_r|]. csimpl in *. rewrite volume_app in *.
    unfold urun. rewrite foldl_app. fold (urun s (steps_of o)).
    assert (u_pend (urun s (steps_of o)) = ∅ /\ accounted (urun s (steps_of o)) = accounted s + volume (steps_of o)) as [E1 E2].
    { destruct o as [c n|]; unfold urun; simpl.
      - rewrite lookup_insert. simpl. rewrite Hp, delete_insert by apply lookup_empty. split; [done|]. unfold accounted, volume in *. simpl in *.
        unfold u64. rewrite N.mod_small by lia. lia.
      - rewrite Hp. split; [done|]. unfold accounted, volume. simpl. rewrite sum_app. simpl. lia. }
    rewrite IH; [lia|done|lia]. }
  intros HT. rewrite H; [done|done|]. done.
Qed.

(** These are the operations of the rest of the model: charging a packet ([charge], Xdp.v) and taking a report ([delete_urr], MapOps.v). *)
Lemma charge_is_packet d id u ul dl f l : urr_get d id = Some u ->
  exists d', charge id ul dl (Xst f d l) = Some (tt, Xst f d' l) /\
    urr_get d' id = Some (Urr (u_v (urun (idle (ui_ul u)) (steps_of (Packet 0 ul)))) (u_v (urun (idle (ui_dl u)) (steps_of (Packet 0 dl))))).
Proof.
  intros Hu. unfold charge, get_dp, bind, put_dp. cbn [x_dp]. rewrite Hu. eexists. split; [reflexivity|].
  unfold urr_get, arr_get in *. simpl. destruct (id <? d_urr_size d); [|done]. by rewrite lookup_insert.
Qed.
Lemma take_is_report d id u u' d' : delete_urr id d = (Some u, d') -> urr_get d' id = Some u' ->
  u_out (urun (idle (ui_ul u)) (steps_of Report)) = [ui_ul u] /\ ui_ul u' = u_v (urun (idle (ui_ul u)) (steps_of Report)).
Proof.
  unfold delete_urr, update_urr, urr_get, arr_get. simpl. intros H Hu. destruct (id <? d_urr_size d) eqn:E; [|done].
  injection H as <- <-. simpl in Hu. rewrite ?E, lookup_insert in Hu. injection Hu as <-. done.
Qed.

(** *** Refuted: updates are lost *)
Lemma reads_all cs n : forall s, urun s ((fun c => URead c n) <$> cs) = Ust (u_v s) (foldl (fun m c => <[c := u64 (u_v s + n)]> m) (u_pend s) cs) (u_look s) (u_out s).
Proof. induction cs as [|c cs IH]; intros s; [by destruct s|]. csimpl. unfold urun. simpl. fold (urun (ustep s (URead c n)) ((fun c => URead c n) <$> cs)). rewrite IH. done. Qed.
Lemma pend_all (cs : list N) (x : N) : forall (m : gmap N N) (c : N), foldl (fun m c => <[c := x]> m) m cs !! c = if decide (c ∈ cs) then Some x else m !! c.
Proof.
  induction cs as [|c' cs IH]; intros m c; simpl; [done|]. rewrite IH. destruct (decide (c ∈ cs)) as [H|H].
  - rewrite decide_True by (by apply elem_of_cons; right). done.
  - destruct (decide (c = c')) as [->|Hne].
    + rewrite decide_True by (by apply elem_of_cons; left). by rewrite lookup_insert.
    + rewrite decide_False by (by rewrite elem_of_cons; intros [?|?]). by rewrite lookup_insert_ne.
Qed.
Lemma writes_all cs x : forall s, (forall c y, u_pend s !! c = Some y -> y = x) -> u_v s = x ->
  u_v (urun s (UWrite <$> cs)) = x /\ u_out (urun s (UWrite <$> cs)) = u_out s.
Proof.
  induction cs as [|c cs IH]; intros s Hp Hv; [done|]. csimpl. unfold urun. simpl. fold (urun (ustep s (UWrite c)) (UWrite <$> cs)).
  simpl. destruct (u_pend s !! c) as [y|] eqn:E; [|by apply IH]. rewrite (Hp _ _ E).
  set (s1 := Ust x (delete c (u_pend s)) (u_look s) (u_out s)). change (u_out s) with (u_out s1). apply IH; [|done].
  subst s1. simpl. intros c' z Hz. destruct (decide (c' = c)) as [->|Hne]; [by rewrite lookup_delete in Hz|]. rewrite lookup_delete_ne in Hz by done. by apply (Hp c').
Qed.
(** [n] CPUs handle a packet each at the same time: one of them is counted. *)
Theorem parallel_packets_refuted :
  forall n b v, 0 < n -> v + b < 18446744073709551616 ->
    let l := ((fun c => URead c b) <$> Nseq n) ++ (UWrite <$> Nseq n) in
    volume l = n * b /\ accounted (urun (idle v) l) = v + b.
Proof.
  intros n b v Hn Hb l. subst l. split.
  - rewrite volume_app.
    assert (H1 : forall cs, volume ((fun c => URead c b) <$> cs) = N.of_nat (length cs) * b).
    { induction cs as [|c cs IH]; [done|]. csimpl. rewrite volume_cons, IH. lia. }
    assert (H2 : forall cs, volume (UWrite <$> cs) = 0). { induction cs as [|c cs IH]; [done|]. csimpl. by rewrite volume_cons, IH. }
    rewrite H1, H2, length_Nseq. lia.
  - unfold urun. rewrite foldl_app. fold (urun (idle v) ((fun c => URead c b) <$> Nseq n)). rewrite reads_all. simpl.
    assert (Ev : u64 (v + b) = v + b) by (unfold u64; by rewrite N.mod_small).
    destruct (Nseq n) as [|c cs] eqn:E. { apply (f_equal length) in E. rewrite length_Nseq in E. simpl in E. lia. }
    csimpl. simpl ustep. rewrite pend_all. destruct (decide (c ∈ cs)) as [Hc|Hc];
      rewrite ?lookup_insert; rewrite Ev; set (s := Ust _ _ _ _);
      (destruct (writes_all cs (v + b) s) as [W1 W2]; [|done|]);
      try (subst s; simpl; intros c' y Hy; destruct (decide (c' = c)) as [->|Hne]; [by rewrite lookup_delete in Hy|];
        rewrite lookup_delete_ne, pend_all in Hy by done; destruct (decide (c' ∈ cs)); [by injection Hy as <-|];
        rewrite lookup_insert_ne in Hy by done; by rewrite lookup_empty in Hy);
      unfold accounted; unfold urun in W1, W2; rewrite W1, W2; subst s; done.
Qed.
(** Refuted: a CPU that was between load and store when a report was taken brings the reported volume back; if the URR id has gone to
    another session meanwhile, it is charged to that session.  1000 bytes and a packet of 100 bytes: 2100 bytes are accounted. *)
Theorem reported_again_refuted :
  exists l, volume l = 1100 /\ u_out (urun (idle 0) l) = [1000] /\ u_v (urun (idle 0) l) = 1100.
Proof. exists [URead 1 1000; UWrite 1; URead 1 100; ULook; UZero; UWrite 1]. by vm_compute. Qed.
(** Refuted: bytes counted between the two system calls of a report are in no report. *)
Theorem lost_between_calls_refuted :
  exists l, quiet (idle 0) l /\ volume l = 1100 /\ u_out (urun (idle 0) l) = [1000] /\ u_v (urun (idle 0) l) = 0.
Proof. exists [URead 1 1000; UWrite 1; ULook; URead 1 100; UWrite 1; UZero]. split; [|by vm_compute]. simpl. repeat split; try done; intros _; by apply (bool_decide_unpack _); vm_compute. Qed.
(** A quiet run in which two CPUs overlap. *)
Example ex_quiet : quiet (idle 5) [URead 1 100; URead 2 50; UWrite 2; UWrite 1; ULook; UZero; URead 2 7] /\
  volume [URead 1 100; URead 2 50; UWrite 2; UWrite 1; ULook; UZero; URead 2 7] = 157.
Proof. split; [|by vm_compute]. simpl. repeat split; try done; intros _; by apply (bool_decide_unpack _); vm_compute. Qed.
