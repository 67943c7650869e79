(** C67: the PFCP message counters of the metrics endpoint. *)
From Coq Require Import String.
From Verif Require Import Base IdTracker ResourceManager SdfParser MapOps Pfcp PfcpProps PfcpHistory PfcpReach PfcpRules PfcpCreate PfcpRemove Config.

(** metrics.go:14-27: three families of counters; a counter is represented by the list of its increments (as float64 values they are
    exact below 2^53).  Messages are labelled by their type, which go-pfcp names one to one. *)
Inductive inc := Rx (ty : N) | Tx (ty : N) | Err (ty : N) (cause : string).
Definition inc_eqb (a b : inc) : bool :=
  match a, b with
  | Rx t, Rx t' | Tx t, Tx t' => t =? t'
  | Err t s, Err t' s' => (t =? t') && String.eqb s s'
  | _, _ => false
  end.
Definition counter (i : inc) (l : list inc) : nat := List.length (List.filter (inc_eqb i) l).

(** Message types (TS 29.244, table 7.3-1) of what the UPF receives. *)
Definition msg_type (m : msg) : N :=
  match m with
  | HeartbeatReq _ => 1 | HeartbeatResp _ => 2 | AssocSetupReq _ _ => 5 | AssocSetupResp _ _ _ => 6 | AssocUpdateReq _ => 7
  | SessEstReq _ => 50 | SessModReq _ => 52 | SessDelReq _ => 54 | OtherMsg ty => ty
  end.

(** pfcp_session_handlers.go:523-560 [causeToString]. *)
Definition cause_name (k : N) : string :=
  match k with
  | 1 => "RequestAccepted" | 64 => "RequestRejected" | 65 => "SessionContextNotFound" | 66 => "MandatoryIEMissing" | 67 => "ConditionalIEMissing"
  | 68 => "InvalidLength" | 69 => "MandatoryIEIncorrect" | 70 => "InvalidForwardingPolicy" | 71 => "InvalidFTEIDAllocationOption"
  | 72 => "NoEstablishedPFCPAssociation" | 73 => "RuleCreationModificationFailure" | 74 => "PFCPEntityInCongestion" | 75 => "NoResourcesAvailable"
  | 76 => "ServiceNotSupported" | 77 => "SystemFailure" | 78 => "RedirectionRequested" | _ => "UnknownCause"
  end%string.

(** pfcp_session_handlers.go:26, 33, 124, 143. *)
Definition est_incs (addr : N) (q : est_req) (c : conn) : list inc :=
  match validate_request (eq_node q) (eq_fseid q) with
  | None => [Err 50 (cause_name 66)]
  | Some remote =>
    match c_assocs c !! addr with
    | None => [Err 50 (cause_name 72)]
    | Some a =>
      if existsb display_crash (eq_pdrs q) then [] else
      match est_rules (g_ueip (c_cfg c)) q (new_work (c_dp c) (new_session (next_seid a) remote) (c_rm c)) with
      | RCrash => [] | RErr _ => [Err 50 (cause_name 73)] | ROk _ => [Err 50 (cause_name 1)]
      end
    end
  end.
(** pfcp_session_handlers.go:154, 162, 170, 176, 182, 214. *)
Definition del_incs (sh : shuffle) (addr seid : N) (c : conn) : list inc :=
  match c_assocs c !! addr with
  | None => [Err 54 (cause_name 72)]
  | Some a =>
    match a_sessions a !! seid with
    | None => [Err 54 (cause_name 65)]
    | Some s =>
      match del_rules sh s (new_work (c_dp c) s (c_rm c)) with
      | RCrash => [] | RErr _ => [Err 54 (cause_name 73)] | ROk _ => [Err 54 (cause_name 1)]
      end
    end
  end.
(** pfcp_session_handlers.go:227, 235, 464, 482. *)
Definition mod_incs (sh : shuffle) (addr : N) (q : mod_req) (c : conn) : list inc :=
  match c_assocs c !! addr with
  | None => [Err 52 (cause_name 72)]
  | Some a =>
    match a_sessions a !! mq_seid q with
    | None => [Err 52 (cause_name 65)]
    | Some s =>
      let s1 := match mq_fseid q with Good r => set_remote r s | _ => s end in
      if existsb display_crash (mq_cpdr q) || existsb display_crash (mq_updr q) then [] else
      match mod_rules (g_ueip (c_cfg c)) sh q (new_work (c_dp c) s1 (c_rm c)) with
      | RCrash => [] | RErr _ => [Err 52 (cause_name 73)] | ROk _ => [Err 52 (cause_name 1)]
      end
    end
  end.
(** pfcp_handlers.go:61, 72, 82, 91, 131. *)
Definition setup_incs (node rts : fld N) : list inc :=
  match node, rts with
  | Absent, _ | Good _, Absent => [Err 5 (cause_name 66)]
  | Bad, _ | Good _, Bad => [Err 5 (cause_name 69)]
  | Good _, Good _ => [Err 5 (cause_name 1)]
  end.
(** pfcp_handlers.go:142, 153, 164, 178. *)
Definition update_incs (addr : N) (node : fld N) (c : conn) : list inc :=
  match node with
  | Absent => [Err 7 (cause_name 66)]
  | Bad => [Err 7 (cause_name 69)]
  | Good _ => match c_assocs c !! addr with None => [Err 7 (cause_name 72)] | Some _ => [Err 7 (cause_name 1)] end
  end.
(** pfcp_handlers.go:200, 206, 213, 219, 224, 231, 237: nothing for an accepting answer with features. *)
Definition setup_resp_incs (node cause features : fld N) : list inc :=
  match node with
  | Absent => [Err 6 (cause_name 66)] | Bad => [Err 6 (cause_name 69)]
  | Good _ =>
    match cause with
    | Absent => [Err 6 (cause_name 66)] | Bad => [Err 6 (cause_name 69)]
    | Good k =>
      if k =? 1 then match features with Good _ => [] | _ => [Err 6 (cause_name 67)] end
      else [Err 6 (cause_name k)]
    end
  end.
Definition handler_incs (sh : shuffle) (addr : N) (m : msg) (c : conn) : list inc :=
  match m with
  | HeartbeatReq _ | HeartbeatResp _ | OtherMsg _ => []
  | AssocSetupReq node rts => setup_incs node rts
  | AssocSetupResp node cause features => setup_resp_incs node cause features
  | AssocUpdateReq node => update_incs addr node c
  | SessEstReq q => est_incs addr q c
  | SessModReq q => mod_incs sh addr q c
  | SessDelReq seid => del_incs sh addr seid c
  end.
(** pfcp_handlers.go:24 (before the dispatch) and 37-38 (if there is a message to send and the handler returned no error). *)
Definition counted (c : conn) (e : event) : list inc :=
  match e with
  | Recv sh addr seq m =>
      Rx (msg_type m) :: handler_incs sh addr m c ++
      match handle sh addr seq m c with Done _ (Some r) => [Tx (r_type r)] | _ => [] end
  | _ => []
  end.
Fixpoint counted_run (c : conn) (es : list event) : list inc :=
  match es with
  | [] => []
  | e :: es => counted c e ++ match step c e with Done c' _ => counted_run c' es | Crash => [] end
  end.

(** ** Specification: what the counters should say, from the log of messages received and answers sent *)
Definition tally {A} (f : A -> bool) (l : list A) : nat := List.length (List.filter f l).
Definition received (ty : N) (x : event * option response) : bool := match fst x with Recv _ _ _ m => msg_type m =? ty | _ => false end.
Definition sent_back (ty : N) (x : event * option response) : bool := match snd x with Some r => r_type r =? ty | None => false end.
Definition cause_is (name : string) (r : response) : bool := match r_cause r with Some k => String.eqb (cause_name k) name | None => false end.
(** A request of type [ty] was answered with cause [name]. *)
Definition answered (ty : N) (name : string) (x : event * option response) : bool :=
  received ty x && match snd x with Some r => cause_is name r | None => false end.
(** A deletion request was not answered. *)
Definition unanswered_deletion (x : event * option response) : bool := match x with (Recv _ _ _ (SessDelReq _), None) => true | _ => false end.
(** An answer to the UPF's own association setup request that does not set up an association; the name it is counted under. *)
Definition useless_answer (x : event * option response) : option string :=
  match fst x with
  | Recv _ _ _ (AssocSetupResp node cause features) =>
      match node, cause, features with
      | Absent, _, _ | Good _, Absent, _ => Some "MandatoryIEMissing"%string
      | Bad, _, _ | Good _, Bad, _ => Some "MandatoryIEIncorrect"%string
      | Good _, Good 1, Good _ => None
      | Good _, Good 1, _ => Some "ConditionalIEMissing"%string
      | Good _, Good k, _ => Some (cause_name k)
      end
  | _ => None
  end.
Definition refused_association (name : string) (x : event * option response) : bool :=
  match useless_answer x with Some n => String.eqb n name | None => false end.

Lemma tally_app {A} (f : A -> bool) l l' : tally f (l ++ l') = (tally f l + tally f l')%nat.
Proof. unfold tally. rewrite List.filter_app, List.app_length. done. Qed.
Lemma tally_cons {A} (f : A -> bool) x l : tally f (x :: l) = ((if f x then 1 else 0) + tally f l)%nat.
Proof. unfold tally. simpl. by destruct (f x). Qed.
Lemma counter_app i l l' : counter i (l ++ l') = (counter i l + counter i l')%nat.
Proof. apply (tally_app (inc_eqb i)). Qed.
Definition bit (b : bool) : nat := if b then 1%nat else 0%nat.

Lemma handler_incs_spec sh addr seq m c c' r :
  handle sh addr seq m c = Done c' r ->
  (forall ty, counter (Rx ty) (handler_incs sh addr m c) = 0%nat) /\ (forall ty, counter (Tx ty) (handler_incs sh addr m c) = 0%nat) /\
  (forall ty name, counter (Err ty name) (handler_incs sh addr m c) =
    (bit (answered ty name (Recv sh addr seq m, r)) + bit ((ty =? 54)%N && String.eqb "RuleCreationModificationFailure" name && unanswered_deletion (Recv sh addr seq m, r)) +
     bit ((ty =? 6)%N && refused_association name (Recv sh addr seq m, r)))%nat).
Proof.
  intros H.
  assert (Hone : forall t k ty name, counter (Err ty name) [Err t (cause_name k)] = bit ((t =? ty)%N && String.eqb (cause_name k) name)).
  { intros t k ty name. unfold counter. simpl. rewrite (N.eqb_sym ty t), (String.eqb_sym name). by destruct ((t =? ty)%N && _). }
  assert (Hz : forall t k, (forall ty, counter (Rx ty) [Err t (cause_name k)] = 0%nat) /\ (forall ty, counter (Tx ty) [Err t (cause_name k)] = 0%nat)) by done.
  assert (Hplain : forall t k x ty name, useless_answer x = None -> unanswered_deletion x = false -> answered ty name x = (t =? ty)%N && String.eqb (cause_name k) name ->
    counter (Err ty name) [Err t (cause_name k)] = (bit (answered ty name x) + bit ((ty =? 54)%N && String.eqb "RuleCreationModificationFailure" name && unanswered_deletion x) +
     bit ((ty =? 6)%N && refused_association name x))%nat).
  { intros t k x ty name H1 H2 H3. unfold refused_association. rewrite H1, H2, H3, Hone, !andb_false_r. simpl. lia. }
  destruct m as [rts|rts|node rts|node cause features|node|q|q|seid|ty0]; cbn [handler_incs handle] in *.
  - split_and!; try done. intros ty name. unfold handle_hb_req in H. destruct rts; simplify_eq; unfold answered, refused_association; simpl; by rewrite ?andb_false_r.
  - split_and!; try done. intros ty name. unfold handle_hb_resp in H. destruct rts; simplify_eq; unfold answered, refused_association; simpl; by rewrite ?andb_false_r.
  - unfold handle_setup, setup_incs in *. destruct node as [| |n]; [|..|destruct rts as [| |t]]; simplify_eq;
      (split; [done|split; [done|]]); intros ty name; apply Hplain; try done.
  - unfold handle_setup_resp, setup_resp_incs in *. assert (r = None) as -> by (repeat (case_match; simplify_eq); done). clear H.
    assert (HA : forall ty name x, bit (answered ty name (x, None)) = 0%nat) by (intros; unfold answered; by rewrite andb_false_r).
    destruct node as [| |n]; [|..|destruct cause as [| |k]; [|..|destruct (N.eqb_spec k 1) as [->|Hk]; [destruct features as [| |w]|]]];
      (split; [done|split; [done|]]); intros ty name; rewrite ?Hone, HA; simpl; rewrite ?andb_false_r; simpl; unfold refused_association; cbn [useless_answer fst];
      rewrite ?(N.eqb_sym ty 6); try done.
    destruct k as [|[]]; done.
  - unfold handle_update, update_incs in *. destruct node as [| |n]; [|..|destruct (c_assocs c !! addr)]; simplify_eq;
      (split; [done|split; [done|]]); intros ty name; apply Hplain; try done.
  - unfold handle_est, est_incs in *. destruct (validate_request _ _); [|simplify_eq; split; [done|split; [done|]]; intros ty name; by apply Hplain].
    destruct (c_assocs c !! addr); [|simplify_eq; split; [done|split; [done|]]; intros ty name; by apply Hplain].
    destruct (existsb _ _); [done|]. destruct (est_rules _ _ _); simplify_eq; (split; [done|split; [done|]]); intros ty name; by apply Hplain.
  - unfold handle_mod, mod_incs in *. 
    destruct (c_assocs c !! addr) as [a|]; [|simplify_eq; split; [done|split; [done|]]; intros ty name; by apply Hplain].
    destruct (a_sessions a !! mq_seid q); [|simplify_eq; split; [done|split; [done|]]; intros ty name; by apply Hplain].
    destruct (_ || _); [done|]. destruct (mod_rules _ _ _ _); simplify_eq; (split; [done|split; [done|]]); intros ty name; by apply Hplain.
  - unfold handle_del, del_incs in *. 
    destruct (c_assocs c !! addr) as [a|]; [|simplify_eq; split; [done|split; [done|]]; intros ty name; by apply Hplain].
    destruct (a_sessions a !! seid); [|simplify_eq; split; [done|split; [done|]]; intros ty name; by apply Hplain].
    destruct (del_rules _ _ _); simplify_eq; (split; [done|split; [done|]]); intros ty name; [by apply Hplain|].
    rewrite Hone. unfold answered, refused_association. simpl. rewrite !andb_false_r, andb_true_r. simpl. rewrite (N.eqb_sym ty 54). lia.
  - simplify_eq. split_and!; try done. intros ty name. unfold answered, refused_association. simpl. by rewrite !andb_false_r.
Qed.

(** ** C67 *)
Theorem pfcp_counters_exact :
  forall es c c' l, run c es = Some (c', l) ->
    (forall ty, counter (Rx ty) (counted_run c es) = tally (received ty) l) /\
    (forall ty, counter (Tx ty) (counted_run c es) = tally (sent_back ty) l) /\
    (forall ty name, counter (Err ty name) (counted_run c es) =
      (tally (answered ty name) l +
       (if (ty =? 54)%N && String.eqb "RuleCreationModificationFailure" name then tally unanswered_deletion l else 0) +
       (if (ty =? 6)%N then tally (refused_association name) l else 0))%nat).
Proof.
  induction es as [|e es IH]; intros c c' l H; cbn [run counted_run] in *.
  { simplify_eq. split_and!; try done. intros ty name. by repeat case_match. }
  destruct (step c e) as [c1 resp|] eqn:Es; [|done]. destruct (run c1 es) as [[c2 l2]|] eqn:Er; simplify_eq.
  destruct (IH _ _ _ Er) as (IH1 & IH2 & IH3). clear IH.
  assert (HE : (forall ty, counter (Rx ty) (counted c e) = bit (received ty (e, resp))) /\ (forall ty, counter (Tx ty) (counted c e) = bit (sent_back ty (e, resp))) /\
    (forall ty name, counter (Err ty name) (counted c e) =
      (bit (answered ty name (e, resp)) + bit ((ty =? 54)%N && String.eqb "RuleCreationModificationFailure" name && unanswered_deletion (e, resp)) +
       bit ((ty =? 6)%N && refused_association name (e, resp)))%nat)).
  { destruct e as [sh addr seq m|sh addr|mk vo]; cbn [counted].
    - cbn [step] in Es. destruct (handler_incs_spec _ _ _ _ _ _ _ Es) as (H1 & H2 & H3). rewrite Es.
      change (Rx (msg_type m) :: handler_incs sh addr m c ++ match resp with Some r => [Tx (r_type r)] | None => [] end)
        with ([Rx (msg_type m)] ++ handler_incs sh addr m c ++ match resp with Some r => [Tx (r_type r)] | None => [] end).
      split_and!; intros ty; [| |intros name]; rewrite !counter_app; rewrite ?H1, ?H2, ?H3; unfold received, sent_back; cbn [fst snd].
      + unfold counter. simpl. rewrite (N.eqb_sym ty). destruct (_ =? _); destruct resp; done.
      + unfold counter. simpl. destruct resp as [r|]; [|done]. simpl. rewrite (N.eqb_sym ty). by destruct (_ =? _).
      + assert (E0 : counter (Err ty name) [Rx (msg_type m)] = 0%nat) by done. rewrite E0.
        assert (E1 : counter (Err ty name) (match resp with Some r => [Tx (r_type r)] | None => [] end) = 0%nat) by (by destruct resp). rewrite E1. lia.
    - assert (resp = None) as ->. { simpl in Es. unfold prune in Es. repeat (case_match; simplify_eq); done. }
      split_and!; intros ty; try done. intros name. unfold answered, refused_association. simpl. by rewrite !andb_false_r.
    - simpl in Es. simplify_eq. split_and!; intros ty; try done. intros name. unfold answered, refused_association. simpl. by rewrite !andb_false_r. }
  destruct HE as (E1 & E2 & E3).
  split_and!; intros ty; [| |intros name]; rewrite counter_app, ?tally_cons, ?E1, ?E2, ?E3, ?IH1, ?IH2, ?IH3; try done.
  destruct ((ty =? 54)%N && _); rewrite ?tally_cons; destruct (ty =? 6)%N; rewrite ?tally_cons; unfold bit; simpl; lia.
Qed.

(** Different causes the UPF can answer with are counted under different names. *)
Theorem causes_told_apart : forall sh addr seq m c c' r k sh' addr' seq' m' d d' r' k',
  handle sh addr seq m c = Done c' (Some r) -> r_cause r = Some k ->
  handle sh' addr' seq' m' d = Done d' (Some r') -> r_cause r' = Some k' ->
  cause_name k = cause_name k' -> k = k'.
Proof.
  assert (Hk : forall sh addr seq m c c' r k, handle sh addr seq m c = Done c' (Some r) -> r_cause r = Some k -> k ∈ [1; 65; 66; 69; 72; 73]).
  { intros sh addr seq m c c' r k H Hr.
    destruct m; cbn [handle] in H; unfold handle_hb_req, handle_hb_resp, handle_setup, handle_setup_resp, handle_update, handle_est, handle_mod, handle_del in H;
      repeat (case_match; simplify_eq; try (simpl in Hr; simplify_eq)); simplify_eq; apply (bool_decide_unpack _); done. }
  intros sh addr seq m c c' r k sh' addr' seq' m' d d' r' k' H Hr H' Hr' E.
  pose proof (Hk _ _ _ _ _ _ _ _ H Hr) as K. pose proof (Hk _ _ _ _ _ _ _ _ H' Hr') as K'.
  repeat (apply elem_of_cons in K as [->|K]); try (by apply elem_of_nil in K);
    repeat (apply elem_of_cons in K' as [->|K']); try (by apply elem_of_nil in K'); try done.
Qed.

(** upf_pfcp_tx is described as the number of transmitted messages, but requests the UPF sends itself are not counted
    (pfcp_connection.go:246-264 and pfcp_hearbeat.go:42-53 send without touching the counter): a tick that sends a request. *)
Definition ncounted (n : node) (e : nevent) : list inc := match e with Net e => counted (live_conn n) e | Edit _ | Tick => [] end.
Theorem transmitted_all_counted_refuted :
  exists conf c n r f, validate ex_checks ex_config2 = Some conf /\ start (fun _ => Some (167772160, 24)) (Cfg false false 1 1 1 1) conf = Serving c /\
    nstep ex_checks (fun a => [a]) (node_start conf c) Tick = Some (n, [SetupRequest r f; SetupRequest [8] f]) /\
    ncounted (node_start conf c) Tick = [].
Proof. eexists _, _, _, _, _. split_and!; vm_compute; reflexivity. Qed.

(** A run in which all three families count. *)
Example ex_counters : exists c l, ex_start [ex_setup; ex_recv 2 (ex_est_of [ex_pdr 1 9] []); ex_recv 3 (SessDelReq 9); ex_recv 4 (SessDelReq 2); ex_recv 5 (OtherMsg 14)] = Some (c, l) /\
  tally (received 54) l = 2%nat /\ tally (sent_back 55) l = 2%nat /\ tally (answered 54 "SessionContextNotFound") l = 1%nat /\ tally (answered 54 "RequestAccepted") l = 1%nat.
Proof.
  set (es := [_; _; _; _; _]).
  assert (H : match ex_start es with Some (_, l) => (tally (received 54) l =? 2)%nat && (tally (sent_back 55) l =? 2)%nat && (tally (answered 54 "SessionContextNotFound") l =? 1)%nat &&
    (tally (answered 54 "RequestAccepted") l =? 1)%nat | None => false end = true) by by vm_compute.
  destruct (ex_start es) as [[c l]|]; [|discriminate H]. exists c, l. split; [reflexivity|].
  rewrite !andb_true_iff, !Nat.eqb_eq in H. destruct H as (((H1 & H2) & H3) & H4). done.
Qed.
