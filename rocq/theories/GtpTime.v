(** C104: GTP peers are probed at the configured interval (cmd/core/gtp_path_manager.go, with the clock). *)
From Verif Require Import Base GtpPath.
Open Scope N_scope.

(** ** Model *)

(** Times in milliseconds since [Run] made the ticker (gtp_path_manager.go:38-41); the ticker's channel holds one tick, further ones are
    dropped (time.Ticker).  [pt_busy]: the peers of the sweep not probed yet, and when the read of the probe under way gives up. *)
Record pt_state := Pt { pt_now : N; pt_next : N; pt_pending : bool; pt_busy : option (list peer * N) }.
Definition pt_init (T : N) : pt_state := Pt 0 T false None.
(** gtp_path_manager.go:95: SetReadDeadline(now + 3 s). *)
Definition read_timeout : N := 3000.
Inductive pt_event := Nothing | Probed (p : peer).
(** [T]: the interval (main.go:132); [peers]: the peers, which are not added or removed while it runs (main.go:133-136).
    Sending, resolving and counting take no time; a probe ends with an answer, an error, or after 3 s. *)
Inductive pt_step (T : N) (peers : list peer) : pt_state -> pt_event -> pt_state -> Prop :=
(** Time passes: the loop takes a pending tick at once. *)
| pt_wait now t next pending busy : now < t -> t <= next ->
    match busy with Some (_, deadline) => t <= deadline | None => pending = false end ->
    pt_step T peers (Pt now next pending busy) Nothing (Pt t next pending busy)
(** The ticker (line 40). *)
| pt_tick next pending busy : pt_step T peers (Pt next next pending busy) Nothing (Pt next (next + T) true busy)
(** Lines 47-50: the loop takes the tick and visits the peers in an order of Go's choice. *)
| pt_take now next p rest : p :: rest ≡ₚ peers ->
    pt_step T peers (Pt now next true None) (Probed p) (Pt now next false (Some (rest, now + read_timeout)))
| pt_take_none now next : peers = [] -> pt_step T peers (Pt now next true None) Nothing (Pt now next false None)
(** Lines 50-59: the probe has ended, the next one starts. *)
| pt_more now next pending p rest deadline : now <= deadline ->
    pt_step T peers (Pt now next pending (Some (p :: rest, deadline))) (Probed p) (Pt now next pending (Some (rest, now + read_timeout)))
| pt_done now next pending deadline : now <= deadline ->
    pt_step T peers (Pt now next pending (Some ([], deadline))) Nothing (Pt now next pending None).
(** Executions from the start, with the probes sent and when. *)
Inductive pt_exec (T : N) (peers : list peer) : pt_state -> list (N * peer) -> Prop :=
| pt_start : pt_exec T peers (pt_init T) []
| pt_next_step s log e s' : pt_exec T peers s log -> pt_step T peers s e s' ->
    pt_exec T peers s' (log ++ match e with Probed p => [(pt_now s, p)] | Nothing => [] end).

(** ** Specification *)
(** The peers probed in the [k]th interval, in order. *)
Definition probed_in (T : N) (log : list (N * peer)) (k : N) : list peer :=
  snd <$> List.filter (fun x => (k * T <=? fst x) && (fst x <? (k + 1) * T)) log.

(** ** Proof *)
Lemma probed_in_app T log log' k : probed_in T (log ++ log') k = probed_in T log k ++ probed_in T log' k.
Proof. unfold probed_in. by rewrite List.filter_app, fmap_app. Qed.
Lemma probed_in_one T t p k : k * T <= t < (k + 1) * T -> probed_in T [(t, p)] k = [p].
Proof. intros H. unfold probed_in. cbn [List.filter fst]. rewrite (proj2 (N.leb_le _ _)), (proj2 (N.ltb_lt _ _)) by lia. done. Qed.
Lemma probed_in_other T t p k j : k * T <= t < (k + 1) * T -> j <> k -> probed_in T [(t, p)] j = [].
Proof.
  intros H Hne. unfold probed_in. cbn [List.filter fst]. destruct (N.leb_spec (j * T) t); [|done]. destruct (N.ltb_spec t ((j + 1) * T)); [|done].
  exfalso. apply Hne. destruct (N.lt_trichotomy j k) as [Hl|[|Hl]]; [|done|]; exfalso; nia.
Qed.

(** When three seconds per peer fit into the interval: [k] ticks so far. *)
Record on_time (T : N) (peers : list peer) (s : pt_state) (log : list (N * peer)) (k : N) : Prop := {
  ot_next : pt_next s = (k + 1) * T;
  ot_now : k * T <= pt_now s <= (k + 1) * T;
  ot_later : forall j, k < j -> probed_in T log j = [];
  ot_zero : probed_in T log 0 = [];
  ot_past : forall j, 1 <= j < k -> probed_in T log j ≡ₚ peers;
  ot_phase :
    if pt_pending s then 1 <= k /\ pt_now s = k * T /\ probed_in T log k = [] /\ match pt_busy s with Some (rest, deadline) => rest = [] /\ deadline <= k * T | None => True end
    else match pt_busy s with
         | Some (rest, deadline) => 1 <= k /\ probed_in T log k ++ rest ≡ₚ peers /\ (probed_in T log k <> []) /\
             deadline <= k * T + read_timeout * N.of_nat (length (probed_in T log k)) /\ pt_now s <= deadline
         | None => k = 0 \/ probed_in T log k ≡ₚ peers end }.

Lemma on_time_step T peers s log e s' k : 0 < T -> read_timeout * N.of_nat (length peers) <= T -> on_time T peers s log k -> pt_step T peers s e s' ->
  exists k', on_time T peers s' (log ++ match e with Probed p => [(pt_now s, p)] | Nothing => [] end) k'.
Proof.
  intros HT HF H Hs. unfold read_timeout in *. destruct H as [A B C D E F].
  inversion Hs as [now t next pending busy Hlt Hle Hb|next pending busy|now next p rest Hp|now next Hp|now next pending p rest deadline Hle|now next pending deadline Hle];
    subst; clear Hs; cbn [pt_now pt_next pt_pending pt_busy] in *; rewrite ?app_nil_r.
  - exists k. split; cbn [pt_now pt_next pt_pending pt_busy]; try done; try lia. destruct pending.
    + destruct F as (F1 & F2 & F3 & F4). destruct busy as [[r d]|]; [|done]. destruct F4. exfalso. lia.
    + destruct busy as [[r d]|]; [|done]. destruct F as (F1 & F2 & F3 & F4 & F5). split_and!; try done; lia.
  - exists (k + 1). assert (Hk : k * T < (k + 1) * T) by nia. destruct pending; [exfalso; lia|].
    assert (Hc : k = 0 \/ (probed_in T log k ≡ₚ peers /\ match busy with Some (rest, deadline) => rest = [] /\ deadline <= (k + 1) * T | None => True end)).
    { destruct busy as [[rest d]|]; [|destruct F; auto]. right. destruct F as (F1 & F2 & F3 & F4 & F5).
      pose proof (Permutation_length F2) as L. rewrite app_length in L. unfold read_timeout in F4.
      assert (length rest = 0%nat) as Hr by nia. apply length_zero_iff_nil in Hr as ->. rewrite app_nil_r in F2. split; [done|]. split; [done|]. rewrite app_nil_r in L || idtac. nia. }
    split; cbn [pt_now pt_next pt_pending pt_busy]; try done; try nia.
    + intros j Hj. apply C. lia.
    + intros j Hj. destruct (decide (j = k)) as [->|]; [|apply E; lia]. destruct Hc as [->|[Hc _]]; [lia|done].
    + split; [lia|]. split; [lia|]. split; [apply C; lia|]. destruct busy as [[r d]|]; [|done]. destruct Hc as [->|[_ Hc]]; [destruct F; lia|done].
  - exists k. destruct F as (F1 & F2 & F3 & _). assert (Hi : k * T <= now < (k + 1) * T) by nia.
    split; cbn [pt_now pt_next pt_pending pt_busy]; try done.
    + intros j Hj. rewrite probed_in_app, (C j), (probed_in_other T now p k j) by (done || lia). done.
    + rewrite probed_in_app, D, (probed_in_other T now p k 0) by (done || lia). done.
    + intros j Hj. rewrite probed_in_app, (probed_in_other T now p k j), app_nil_r by (done || lia). by apply E.
    + rewrite probed_in_app, F3, (probed_in_one T now p k) by done. unfold read_timeout. cbn [app length]. split_and!; try done; nia.
  - exists k. destruct F as (F1 & F2 & F3 & _). split; cbn [pt_now pt_next pt_pending pt_busy]; try done. right. by rewrite F3.
  - exists k. destruct pending; [destruct F as (_ & _ & _ & F & _); done|]. destruct F as (F1 & F2 & F3 & F4 & F5). unfold read_timeout in *.
    pose proof (Permutation_length F2) as L. rewrite app_length in L. cbn [length] in L.
    assert (Hi : k * T <= now < (k + 1) * T) by nia.
    split; cbn [pt_now pt_next pt_pending pt_busy]; try done.
    + intros j Hj. rewrite probed_in_app, (C j), (probed_in_other T now p k j) by (done || lia). done.
    + rewrite probed_in_app, D, (probed_in_other T now p k 0) by (done || lia). done.
    + intros j Hj. rewrite probed_in_app, (probed_in_other T now p k j), app_nil_r by (done || lia). by apply E.
    + rewrite probed_in_app, (probed_in_one T now p k) by done. unfold read_timeout. rewrite app_length. cbn [length]. rewrite <- app_assoc. split_and!; try done; try nia. by destruct (probed_in T log k).
  - exists k. destruct pending.
    + split; cbn [pt_now pt_next pt_pending pt_busy]; try done. destruct F as (F1 & F2 & F3 & F4). done.
    + split; cbn [pt_now pt_next pt_pending pt_busy]; try done. destruct F as (F1 & F2 & F3 & F4 & F5). right. by rewrite app_nil_r in F2.
Qed.
Lemma on_time_exec T peers s log : 0 < T -> read_timeout * N.of_nat (length peers) <= T -> pt_exec T peers s log -> exists k, on_time T peers s log k.
Proof.
  intros HT HF H. induction H as [|s log e s' H [k IH] Hs]; [|by eapply on_time_step].
  exists 0. split; cbn [pt_init pt_now pt_next pt_pending pt_busy]; try done; try lia.
Qed.

(** C104: when three seconds per peer fit into the interval, every interval after the first has exactly one probe of every peer. *)
Theorem probed_every_interval_partial : forall T peers s log,
  0 < T -> read_timeout * N.of_nat (length peers) <= T -> pt_exec T peers s log ->
    forall k, 1 <= k -> (k + 1) * T <= pt_now s -> probed_in T log k ≡ₚ peers.
Proof.
  intros T peers s log HT HF H k Hk Ht. destruct (on_time_exec _ _ _ _ HT HF H) as (k' & [A B C D E F]).
  assert (k < k' \/ k' = k + 1 \/ k' = k /\ pt_now s = (k + 1) * T) as [Hl|[->|[-> Hn]]] by nia; [apply E; lia|apply E; lia|].
  destruct (pt_pending s); [exfalso; nia|]. destruct (pt_busy s) as [[rest d]|]; [|destruct F; [lia|done]].
  destruct F as (F1 & F2 & F3 & F4 & F5). pose proof (Permutation_length F2) as L. rewrite app_length in L. unfold read_timeout in *.
  assert (length rest = 0%nat) as Hr by nia. apply length_zero_iff_nil in Hr as ->. by rewrite app_nil_r in F2.
Qed.

(** However the others behave: no peer waits longer for its next probe than an interval or a sweep, whichever is longer, and a sweep without it. *)
Definition longest_wait (T : N) (peers : list peer) : N :=
  N.max T (read_timeout * N.of_nat (length peers)) + read_timeout * (N.of_nat (length peers) - 1).
Record sweeping (T M : N) (peers : list peer) (s : pt_state) (log : list (N * peer)) (start : N) : Prop := {
  sw_next : pt_now s <= pt_next s <= pt_now s + T /\ start <= pt_now s;
  sw_tick : pt_pending s = false -> pt_next s <= start + T;
  sw_phase : match pt_busy s with
    | None => pt_now s <= start + M /\ (forall p, p ∈ peers -> exists t, (t, p) ∈ log /\ start <= t)
    | Some (rest, deadline) => (length rest < length peers)%nat /\ pt_now s <= deadline /\ deadline <= start + read_timeout * (N.of_nat (length peers) - N.of_nat (length rest)) /\
        (forall p, p ∈ peers -> (exists t, (t, p) ∈ log /\ start <= t) \/ p ∈ rest /\ (start <= T \/ exists t, (t, p) ∈ log /\ start <= t + M)) end }.
Definition not_yet (T : N) (s : pt_state) : Prop :=
  pt_busy s = None /\ pt_now s <= T /\ pt_now s <= pt_next s <= pt_now s + T /\ (pt_pending s = false -> pt_next s <= T).
Lemma sweeping_step T peers s log e s' : 0 < T -> pt_step T peers s e s' ->
  let M := N.max T (read_timeout * N.of_nat (length peers)) in
  not_yet T s \/ (exists start, sweeping T M peers s log start) ->
  let log' := log ++ match e with Probed p => [(pt_now s, p)] | Nothing => [] end in
  not_yet T s' \/ (exists start, sweeping T M peers s' log' start).
Proof.
  intros HT Hs M H log'. assert (Hin : forall x, x ∈ log -> x ∈ log') by (intros x Hx; apply elem_of_app; by left).
  unfold read_timeout in *.
  inversion Hs as [now t next pending busy Hlt Hle Hb|next pending busy|now next p rest Hp|now next Hp|now next pending p rest deadline Hle|now next pending deadline Hle]; subst s e s'; clear Hs.
  - destruct H as [(A & B & C & D)|[start [A B C]]]; cbn [pt_now pt_next pt_pending pt_busy] in *.
    + left. subst busy. subst pending. specialize (D eq_refl). unfold not_yet. cbn [pt_now pt_next pt_pending pt_busy]. split_and!; try done; lia.
    + right. exists start. split; cbn [pt_now pt_next pt_pending pt_busy]; [lia|done|]. destruct busy as [[r d]|].
      * destruct C as (C1 & C2 & C3 & C4). split_and!; try done. intros p Hp. destruct (C4 p Hp) as [(t0 & H1 & H2)|[H1 [H2|(t0 & H2 & H3)]]]; eauto 10.
      * subst pending. specialize (B eq_refl). destruct C as [C1 C2]. split; [lia|]. intros p Hp. destruct (C2 p Hp) as (t0 & H1 & H2); eauto.
  - destruct H as [(A & B & C & D)|[start [A B C]]]; cbn [pt_now pt_next pt_pending pt_busy] in *.
    + left. unfold not_yet. cbn [pt_now pt_next pt_pending pt_busy]. split_and!; try done; lia.
    + right. exists start. split; cbn [pt_now pt_next pt_pending pt_busy]; [lia|done|]. destruct busy as [[r d]|].
      * destruct C as (C1 & C2 & C3 & C4). split_and!; try done. intros p Hp. destruct (C4 p Hp) as [(t0 & H1 & H2)|[H1 [H2|(t0 & H2 & H3)]]]; eauto 10.
      * destruct C as [C1 C2]. split; [done|]. intros p Hp. destruct (C2 p Hp) as (t0 & H1 & H2); eauto.
  - right. exists now. pose proof (Permutation_length Hp) as L. cbn [length] in L. split; cbn [pt_now pt_next pt_pending pt_busy].
    + destruct H as [(A & B & C & D)|[start [A B C]]]; cbn [pt_now pt_next pt_pending pt_busy] in *; lia.
    + intros _. destruct H as [(A & B & C & D)|[start [A B C]]]; cbn [pt_now pt_next pt_pending pt_busy] in *; lia.
    + split_and!; try (unfold read_timeout; lia). intros q Hq. rewrite <- Hp, elem_of_cons in Hq. destruct Hq as [->|Hq].
      { left. exists now. split; [|lia]. unfold log'. cbn [pt_now]. apply elem_of_app. right. by apply elem_of_list_singleton. }
      right. split; [done|]. destruct H as [(A & B & C & D)|[start [A B C]]]; cbn [pt_now pt_next pt_pending pt_busy] in *; [by left|]. right.
      destruct C as [C1 C2]. destruct (C2 q) as (t0 & H1 & H2); [rewrite <- Hp; by right|]. exists t0. split; [by apply Hin|lia].
  - right. exists now. split; cbn [pt_now pt_next pt_pending pt_busy].
    + destruct H as [(A & B & C & D)|[start [A B C]]]; cbn [pt_now pt_next pt_pending pt_busy] in *; lia.
    + intros _. destruct H as [(A & B & C & D)|[start [A B C]]]; cbn [pt_now pt_next pt_pending pt_busy] in *; lia.
    + split; [lia|]. intros q Hq. subst peers. by apply elem_of_nil in Hq.
  - destruct H as [(A & _)|[start [A B C]]]; cbn [pt_now pt_next pt_pending pt_busy] in *; [done|]. right. exists start. split; cbn [pt_now pt_next pt_pending pt_busy]; [lia|done|].
    destruct C as (C1 & C2 & C3 & C4). cbn [length] in *. unfold read_timeout in *. split_and!; try lia. intros q Hq. destruct (C4 q Hq) as [(t0 & H1 & H2)|[H1 H2]]; [left; eauto|].
    apply elem_of_cons in H1 as [->|H1].
    + left. exists now. split; [|lia]. unfold log'. cbn [pt_now]. apply elem_of_app. right. by apply elem_of_list_singleton.
    + right. split; [done|]. destruct H2 as [H2|(t0 & H2 & H3)]; eauto 10.
  - destruct H as [(A & _)|[start [A B C]]]; cbn [pt_now pt_next pt_pending pt_busy] in *; [done|]. right. exists start. split; cbn [pt_now pt_next pt_pending pt_busy]; [lia|done|].
    destruct C as (C1 & C2 & C3 & C4). cbn [length] in *. unfold read_timeout in *. split; [lia|]. intros q Hq. destruct (C4 q Hq) as [(t0 & H1 & H2)|[H1 H2]]; [eauto|]. by apply elem_of_nil in H1.
Qed.
Theorem no_peer_waits_longer : forall T peers s log p,
  0 < T -> pt_exec T peers s log -> p ∈ peers -> T + longest_wait T peers <= pt_now s ->
    exists t, (t, p) ∈ log /\ pt_now s <= t + longest_wait T peers.
Proof.
  intros T peers s log p HT H Hp Hl.
  assert (HI : not_yet T s \/ exists start, sweeping T (N.max T (read_timeout * N.of_nat (length peers))) peers s log start).
  { clear Hl. induction H as [|s log e s' H IH Hs]; [|by eapply sweeping_step]. left. unfold not_yet. cbn. split_and!; try done; lia. }
  assert (Hn : (0 < length peers)%nat) by (destruct peers; [by apply elem_of_nil in Hp|cbn; lia]).
  unfold longest_wait, read_timeout in *. destruct HI as [(_ & H1 & _)|[start [A B C]]]; [exfalso; lia|]. destruct (pt_busy s) as [[rest d]|].
  - destruct C as (C1 & C2 & C3 & C4). unfold read_timeout in *. destruct (C4 p Hp) as [(t & H1 & H2)|[H1 H2]].
    + exists t. split; [done|]. lia.
    + assert (0 < length rest)%nat by (destruct rest; [by apply elem_of_nil in H1|cbn; lia]). destruct H2 as [H2|(t & H2 & H3)]; [exfalso; lia|]. exists t. split; [done|]. lia.
  - destruct C as [C1 C2]. destruct (C2 p Hp) as (t & H1 & H2). exists t. split; [done|]. unfold read_timeout in *. lia.
Qed.

(** ** Concrete executions *)
Inductive pt_cmd := Wait (t : N) | Tick | Take (order : list peer) | Ended.
Definition pt_do (T : N) (peers : list peer) (s : pt_state) (x : pt_cmd) : option (pt_state * pt_event) :=
  match x, s with
  | Wait t, Pt now next pending busy =>
      if (now <? t) && (t <=? next) && match busy with Some (_, d) => t <=? d | None => negb pending end then Some (Pt t next pending busy, Nothing) else None
  | Tick, Pt now next pending busy => if now =? next then Some (Pt next (next + T) true busy, Nothing) else None
  | Take (p :: rest), Pt now next true None => if bool_decide (p :: rest ≡ₚ peers) then Some (Pt now next false (Some (rest, now + read_timeout)), Probed p) else None
  | Ended, Pt now next pending (Some (p :: rest, d)) => if now <=? d then Some (Pt now next pending (Some (rest, now + read_timeout)), Probed p) else None
  | Ended, Pt now next pending (Some ([], d)) => if now <=? d then Some (Pt now next pending None, Nothing) else None
  | _, _ => None end.
Lemma pt_do_ok T peers s x s' e : pt_do T peers s x = Some (s', e) -> pt_step T peers s e s'.
Proof.
  destruct s as [now next pending busy]. destruct x as [t| |[|p rest]|]; cbn; intros H; try done.
  - destruct ((now <? t) && (t <=? next) && _) eqn:E; [|done]. injection H as <- <-. rewrite !andb_true_iff in E. destruct E as [[E1%N.ltb_lt E2%N.leb_le] E3].
    apply pt_wait; [done|done|]. destruct busy as [[r d]|]; [by apply N.leb_le|by apply negb_true_iff].
  - destruct (N.eqb_spec now next) as [->|]; [|done]. injection H as <- <-. apply pt_tick.
  - destruct pending; [|done]. destruct busy; [done|]. destruct (bool_decide _) eqn:E; [|done]. apply bool_decide_eq_true in E. injection H as <- <-. by apply pt_take.
  - destruct busy as [[[|p rest] d]|]; [| |done]; destruct (N.leb_spec now d); try done; injection H as <- <-; [by apply pt_done|by apply pt_more].
Qed.
Fixpoint pt_go (T : N) (peers : list peer) (s : pt_state) (log : list (N * peer)) (l : list pt_cmd) : option (pt_state * list (N * peer)) :=
  match l with
  | [] => Some (s, log)
  | x :: l => match pt_do T peers s x with
              | Some (s', e) => pt_go T peers s' (log ++ match e with Probed p => [(pt_now s, p)] | Nothing => [] end) l | None => None end
  end.
Lemma pt_go_ok T peers l : forall s log s' log', pt_go T peers s log l = Some (s', log') -> pt_exec T peers s log -> pt_exec T peers s' log'.
Proof.
  induction l as [|x l IH]; intros s log s' log' H He; cbn [pt_go] in H; [by injection H as <- <-|]. destruct (pt_do T peers s x) as [[s1 e]|] eqn:E; [|done].
  eapply IH; [exact H|]. eapply pt_next_step; [exact He|]. by apply pt_do_ok in E.
Qed.

(** Five peers, the default interval of 10 s: the first answers at once, the others never.  They hold up the second tick, and the
    third interval passes without a probe of the peer that answers. *)
Definition ex_peers : list peer := [[1]; [2]; [3]; [4]; [5]].
Definition ex_held_up : list pt_cmd :=
  [Wait 10000; Tick; Take [[1]; [2]; [3]; [4]; [5]]; Ended; Wait 13000; Ended; Wait 16000; Ended; Wait 19000; Ended; Wait 20000; Tick; Wait 22000; Ended;
   Take [[5]; [4]; [3]; [2]; [1]]; Wait 25000; Ended; Wait 28000; Ended; Wait 30000; Tick].
Theorem probed_every_interval_refuted : exists s log,
  pt_exec 10000 ex_peers s log /\ pt_now s = 3 * 10000 /\ probed_in 10000 log 1 = [[1]; [2]; [3]; [4]; [5]] /\ probed_in 10000 log 2 = [[5]; [4]; [3]].
Proof.
  destruct (pt_go 10000 ex_peers (pt_init 10000) [] ex_held_up) as [[s log]|] eqn:E; [|by vm_compute in E].
  exists s, log. split; [eapply pt_go_ok; [exact E|apply pt_start]|]. vm_compute in E. injection E as <- <-. split_and!; vm_compute; try reflexivity; discriminate.
Qed.

(** Three peers fit: two silent ones delay the third within the interval. *)
Definition ex_fits : list pt_cmd :=
  [Wait 10000; Tick; Take [[2]; [1]; [3]]; Wait 13000; Ended; Wait 16000; Ended; Ended; Wait 20000; Tick; Take [[1]; [2]; [3]]; Wait 23000; Ended; Ended; Wait 26000; Ended; Wait 30000; Tick].
Example ex_on_time : exists s log,
  read_timeout * N.of_nat (length [[1]; [2]; [3]]) <= 10000 /\ pt_exec 10000 [[1]; [2]; [3]] s log /\ (2 + 1) * 10000 <= pt_now s /\
  probed_in 10000 log 2 = [[1]; [2]; [3]] /\ log = [(10000, [2]); (13000, [1]); (16000, [3]); (20000, [1]); (23000, [2]); (23000, [3])].
Proof.
  destruct (pt_go 10000 [[1]; [2]; [3]] (pt_init 10000) [] ex_fits) as [[s log]|] eqn:E; [|by vm_compute in E].
  exists s, log. split; [by vm_compute|]. split; [eapply pt_go_ok; [exact E|apply pt_start]|]. vm_compute in E. injection E as <- <-. split_and!; vm_compute; try reflexivity; discriminate.
Qed.
(** With five, the peer that answers waits 24 of at most 27 seconds. *)
Definition ex_long : list pt_cmd := ex_held_up ++ [Wait 31000; Ended; Wait 34000; Ended; Wait 37000].
Example ex_longest : exists s log,
  pt_exec 10000 ex_peers s log /\ [1] ∈ ex_peers /\ 10000 + longest_wait 10000 ex_peers <= pt_now s /\
  List.filter (fun x => bool_decide (snd x = [1])) log = [(10000, [1]); (34000, [1])] /\ longest_wait 10000 ex_peers = 27000.
Proof.
  destruct (pt_go 10000 ex_peers (pt_init 10000) [] ex_long) as [[s log]|] eqn:E; [|by vm_compute in E].
  exists s, log. split; [eapply pt_go_ok; [exact E|apply pt_start]|]. vm_compute in E. injection E as <- <-. split; [left|]. split_and!; vm_compute; try reflexivity; discriminate.
Qed.
