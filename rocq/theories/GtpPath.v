(** C50, C64, C65: GTP path supervision (cmd/core/gtp_path_manager.go). *)
From Verif Require Import Base IdTracker ResourceManager SdfParser SdfProps MapOps Csum Xdp XdpBase XdpProps XdpFrames XdpEcho XdpEx.
Local Open Scope N_scope.

(** ** Model *)

(** gtp_path_manager.go:15-21: peers are texts (byte strings). *)
Notation peer := (list N).
Notation paths := (gmap peer N).
(** gtp_path_manager.go:34-36 [AddGtpPath]. *)
Definition add_path (p : peer) (m : paths) : paths := <[p := 0]> m.
(** main.go:132-136, gtp_path_manager.go:23-32 [NewGtpPathManager]. *)
Definition new_paths (l : list peer) : paths := foldl (fun m p => add_path p m) ∅ l.

(** gtp_path_manager.go:69-82: version 1, protocol type GTP (set by gopacket), flag S, message type 1, length 4, TEID 0,
    sequence number, N-PDU number and next extension header 0. *)
Definition probe_request (seq : N) : list N := [50; 1; 0; 4; 0; 0; 0; 0] ++ be16 seq ++ [0; 0].

(** gtp_path_manager.go:112-127: what counts as an answer.  gopacket's GTPv1U decoder wants 8 bytes, as many as the length field
    announces, 4 more if one of the flags E, S, PN is set, and, with E, well-formed extension headers ([ext]: any predicate). *)
Definition accepted (ext : list N -> bool) (r : list N) : bool :=
  (8 <=? length r)%nat && ((8 + be_value (field r 2 2)) mod 65536 <=? N.of_nat (length r) mod 65536) &&
  ((byte r 0 mod 8 =? 0) || (12 <=? length r)%nat) && (negb (N.testbit (byte r 0) 2) || ext r) &&
  (byte r 1 =? 2) && bool_decide (field r 4 4 = [0; 0; 0; 0]).

(** One probe: the peer and the datagram read ([None]: an address that does not resolve, a failed write, no answer within 3 seconds). *)
Definition visit := (peer * option (list N))%type.
(** gtp_path_manager.go:48-59: the peers after the probe, and the request sent. *)
Definition probe (ext : list N -> bool) (m : paths) (v : visit) : paths * list (peer * list N) :=
  match m !! fst v with
  | None => (m, [])
  | Some s => (match snd v with
               | Some r => if accepted ext r then <[fst v := (s + 1) mod 65536]> m else m
               | None => m end, [(fst v, probe_request s)])
  end.
Fixpoint probes (ext : list N -> bool) (m : paths) (vs : list visit) : paths * list (peer * list N) :=
  match vs with
  | [] => (m, [])
  | v :: r => let '(m1, l1) := probe ext m v in let '(m2, l2) := probes ext m1 r in (m2, l1 ++ l2)
  end.
(** gtp_path_manager.go:38-63 [Run]: every tick visits every peer once, in an order of Go's choice. *)
Definition tick_of (m : paths) (vs : list visit) : Prop := vs.*1 ≡ₚ (map_to_list m).*1.
Fixpoint ticks_of (m : paths) (ts : list (list visit)) : Prop :=
  match ts with [] => True | t :: r => tick_of m t /\ ticks_of m r end.

(** ** Specification: computed from the answers alone *)
Definition successes (ext : list N -> bool) (p : peer) (vs : list visit) : N :=
  N.of_nat (length (List.filter (fun v : visit => bool_decide (fst v = p) && match snd v with Some r => accepted ext r | None => false end) vs)).
Definition sequence_number (request : list N) : N := be_value (field request 8 2).

(** ** C50 *)

Lemma new_paths_lookup l p : forall m, foldl (fun m p => add_path p m) m l !! p = if decide (p ∈ l) then Some 0 else m !! p.
Proof.
  induction l as [|q l IH]; intros m; cbn [foldl].
  - destruct (decide (p ∈ [])) as [H|]; [by apply elem_of_nil in H|done].
  - rewrite IH. unfold add_path. cbv beta. destruct (decide (p ∈ l)) as [Hl|Hl]; destruct (decide (p ∈ q :: l)) as [Hc|Hc]; rewrite elem_of_cons in Hc;
      try done; try tauto; destruct (decide (p = q)) as [->|Hn]; try tauto; rewrite ?lookup_insert, ?lookup_insert_ne by done; done.
Qed.

Lemma probe_lookup ext m v p s : m !! p = Some s ->
  fst (probe ext m v) !! p = Some (if bool_decide (fst v = p) && match snd v with Some r => accepted ext r | None => false end then (s + 1) mod 65536 else s).
Proof.
  intros Hp. unfold probe. destruct (m !! fst v) as [t|] eqn:E; simpl.
  - destruct (bool_decide (fst v = p)) eqn:Eb; simpl.
    + apply bool_decide_eq_true in Eb. rewrite Eb in *. simplify_eq. destruct (snd v) as [r|]; [|done]. destruct (accepted ext r); [|done]. by rewrite lookup_insert.
    + apply bool_decide_eq_false in Eb. destruct (snd v) as [r|]; [|done]. destruct (accepted ext r); [|done]. by rewrite lookup_insert_ne.
  - destruct (bool_decide (fst v = p)) eqn:Eb; [|done]. apply bool_decide_eq_true in Eb. congruence.
Qed.

Lemma probes_lookup ext vs p : forall m s, s < 65536 -> m !! p = Some s ->
  fst (probes ext m vs) !! p = Some ((s + successes ext p vs) mod 65536).
Proof.
  induction vs as [|v vs IH]; intros m s Hs Hp; simpl.
  - unfold successes. simpl. by rewrite N.add_0_r, N.mod_small.
  - destruct (probe ext m v) as [m1 l1] eqn:E. destruct (probes ext m1 vs) as [m2 l2] eqn:E2. simpl.
    pose proof (probe_lookup ext m v p s Hp) as H. rewrite E in H. simpl in H.
    assert (E2' : fst (probes ext m1 vs) = m2) by by rewrite E2. rewrite <- E2'.
    unfold successes. simpl. destruct (_ && _); simpl in *.
    + erewrite IH; [|by apply N.mod_lt|done]. f_equal. unfold successes. rewrite N.add_mod_idemp_l by done. f_equal. lia.
    + by apply IH.
Qed.

(** In every history, the request sent in the next probe of a peer. *)
Theorem probe_sequence :
  forall ext peers vs p r, p ∈ peers ->
    exists request, snd (probe ext (fst (probes ext (new_paths peers) vs)) (p, r)) = [(p, request)] /\
      length request = 12%nat /\ byte request 1 = 1 /\ field request 4 4 = [0; 0; 0; 0] /\
      sequence_number request = successes ext p vs mod 65536.
Proof.
  intros ext peers vs p r Hp.
  assert (H0 : new_paths peers !! p = Some 0) by (unfold new_paths; rewrite new_paths_lookup; by destruct (decide (p ∈ peers))).
  pose proof (probes_lookup ext vs p _ 0 eq_refl H0) as H. unfold probe. cbn [fst snd]. rewrite H, N.add_0_l. cbn [snd].
  eexists. split; [reflexivity|]. split_and!; [done..|]. unfold sequence_number, probe_request.
  replace (field _ 8 2) with (be16 (successes ext p vs mod 65536)) by done.
  by rewrite be16_mod, N.mod_mod.
Qed.
(** Nothing is sent to a peer that is not configured. *)
Theorem probe_only_configured :
  forall ext peers vs p, (exists request, (p, request) ∈ snd (probes ext (new_paths peers) vs)) -> p ∈ peers.
Proof.
  intros ext peers vs p [q Hq].
  assert (H : forall m, (p, q) ∈ snd (probes ext m vs) -> is_Some (m !! p)).
  { clear Hq. induction vs as [|v vs IH]; intros m Hq; simpl in Hq; [by apply elem_of_nil in Hq|].
    destruct (probe ext m v) as [m1 l1] eqn:E. destruct (probes ext m1 vs) as [m2 l2] eqn:E2. simpl in Hq.
    unfold probe in E. destruct (m !! v.1) as [s|] eqn:Es; simplify_eq.
    - apply elem_of_app in Hq as [Hq|Hq]; [apply elem_of_list_singleton in Hq; simplify_eq; eauto|].
      assert (Hm : is_Some ((match v.2 with Some r => if accepted ext r then <[v.1:=(s + 1) mod 65536]> m else m | None => m end) !! p)).
      { apply IH. by rewrite E2. }
      destruct (v.2) as [r|]; [|done]. destruct (accepted ext r); [|done]. destruct (decide (v.1 = p)) as [<-|Hn]; [eauto|].
      by rewrite lookup_insert_ne in Hm.
    - apply IH. by rewrite E2. }
  apply H in Hq. unfold new_paths in Hq. rewrite new_paths_lookup in Hq. destruct (decide (p ∈ peers)); [done|]. by destruct Hq.
Qed.
(** Every tick sends exactly one request to every configured peer. *)
Lemma probe_dom ext m v p : is_Some (fst (probe ext m v) !! p) <-> is_Some (m !! p).
Proof.
  unfold probe. destruct (m !! v.1) as [s|] eqn:E; [|done]. cbn [fst]. destruct (v.2) as [r|]; [|done]. destruct (accepted ext r); [|done].
  destruct (decide (v.1 = p)) as [<-|Hn]; [rewrite lookup_insert, E; split; eauto|by rewrite lookup_insert_ne].
Qed.
Lemma probes_sent ext vs : forall m, Forall (fun v : visit => is_Some (m !! fst v)) vs -> (snd (probes ext m vs)).*1 = vs.*1.
Proof.
  induction vs as [|v vs IH]; intros m H; [done|]. simpl. destruct (probe ext m v) as [m1 l1] eqn:E. destruct (probes ext m1 vs) as [m2 l2] eqn:E2.
  apply Forall_cons in H as [[s Hs] H]. cbn [snd]. rewrite fmap_app.
  assert (Hl : l1 = [(fst v, probe_request s)]) by (unfold probe in E; rewrite Hs in E; by simplify_eq). rewrite Hl.
  change l2 with (snd (m2, l2)). rewrite <- E2, IH; [done|]. eapply Forall_impl; [exact H|]. intros w Hw.
  replace m1 with (fst (probe ext m v)) by by rewrite E. by apply probe_dom.
Qed.
Theorem tick_probes_all :
  forall ext peers vs t, NoDup peers -> let m := fst (probes ext (new_paths peers) vs) in tick_of m t ->
    (snd (probes ext m t)).*1 ≡ₚ peers.
Proof.
  intros ext peers vs t Hnd m Ht. rewrite probes_sent.
  - rewrite Ht. apply list.NoDup_Permutation; [apply NoDup_fst_map_to_list|done|]. intros p.
    assert (Hm : is_Some (m !! p) <-> is_Some (new_paths peers !! p)).
    { unfold m. clear. generalize (new_paths peers). induction vs as [|v vs IH]; intros m0; [done|]. simpl.
      destruct (probe ext m0 v) as [m1 l1] eqn:E. destruct (probes ext m1 vs) as [m2 l2] eqn:E2. simpl.
      replace m2 with (fst (probes ext m1 vs)) by by rewrite E2. rewrite IH. replace m1 with (fst (probe ext m0 v)) by by rewrite E. apply probe_dom. }
    transitivity (is_Some (m !! p)).
    + rewrite elem_of_list_fmap. split; [intros ([q s] & -> & H); apply elem_of_map_to_list in H; eauto|].
      intros [s Hs]. exists (p, s). split; [done|]. by apply elem_of_map_to_list.
    + rewrite Hm. unfold new_paths. rewrite new_paths_lookup. destruct (decide (p ∈ peers)); [split; eauto|].
      rewrite lookup_empty. split; [by intros []|done].
  - apply Forall_forall. intros v Hv. assert (Hin : fst v ∈ t.*1) by (apply elem_of_list_fmap; eauto). rewrite Ht in Hin.
    apply elem_of_list_fmap in Hin as ([q s] & -> & H). apply elem_of_map_to_list in H. eauto.
Qed.

Example ex_probes :
  let a := [97] in let b := [98] in let yes := [50; 2; 0; 6; 0; 0; 0; 0; 0; 7; 0; 0; 14; 0] in
  snd (probes (fun _ => false) (new_paths [a; b]) [(a, Some yes); (b, None); (b, Some yes); (a, Some yes)]) =
    [(a, probe_request 0); (b, probe_request 0); (b, probe_request 0); (a, probe_request 1)].
Proof. by vm_compute. Qed.

(** ** C64: only the answer to the request counts (refuted: the sequence number is not compared) *)
Theorem wrong_sequence_accepted_refuted :
  exists r, accepted (fun _ => false) r = true /\ sequence_number r = 7 /\
    sequence_number (probe_request 0) = 0 /\ successes (fun _ => false) [97] [([97], Some r)] = 1.
Proof. by exists [50; 2; 0; 4; 0; 0; 0; 0; 0; 7; 0; 0]. Qed.
(** What is accepted is an Echo Response with TEID 0, as long as it says it is, with the optional fields its flags announce and with
    extension headers that decode if it has any; and nothing else is required of it. *)
Theorem accepted_is_response_partial :
  forall ext r, N.of_nat (length r) < 65536 -> be_value (field r 2 2) < 65528 ->
    accepted ext r = true <->
      (8 + N.to_nat (be_value (field r 2 2)) <= length r)%nat /\ byte r 1 = 2 /\ field r 4 4 = [0; 0; 0; 0] /\
      (byte r 0 mod 8 <> 0 -> (12 <= length r)%nat) /\ (N.testbit (byte r 0) 2 = true -> ext r = true).
Proof.
  intros ext r Hr Hl. unfold accepted. rewrite !andb_true_iff, !orb_true_iff, !Nat.leb_le, !N.leb_le, !N.eqb_eq, bool_decide_eq_true, negb_true_iff.
  rewrite !N.mod_small by lia. split.
  - intros [[[[[H1 H2] H3] H4] H5] H6]. split_and!; try done; [lia|intros; destruct H3; done|intros He; destruct H4 as [H4|H4]; congruence].
  - intros (H1 & H2 & H3 & H4 & H5). split_and!; try done; [lia|lia| |].
    + destruct (decide (byte r 0 mod 8 = 0)); [by left|right; tauto].
    + destruct (N.testbit (byte r 0) 2); [right; tauto|by left].
Qed.

(** ** C65: probing another eUPF succeeds, with the sequence number of the request *)

(** The UDP payload of a frame. *)
Definition payload (f : list N) : list N := field f (l4 f + 8) (N.to_nat (be_value (field f (l4 f + 4) 2)) - 8).

Lemma request_fields (f : list N) (o : nat) (s : N) :
  field f o (1 + (1 + (2 + (4 + 4)))) = probe_request s -> (o + 12 <= length f)%nat ->
  byte f o = 50 /\ field f (o + 2) 2 = [0; 4] /\ field f (o + 4) 4 = [0; 0; 0; 0] /\ field f (o + 8) 4 = be16 s ++ [0; 0].
Proof.
  intros Hpl Hl. rewrite !field_split in Hpl. rewrite <- !Nat.add_assoc in Hpl. cbn [Nat.add] in Hpl.
  rewrite (byte_field f o), (byte_field f (o + 1)) in Hpl by lia. unfold probe_request in Hpl. cbn [app] in Hpl.
  injection Hpl as Hb0 Hb1 Hpl.
  assert (H2 : length (field f (o + 2) 2) = 2%nat) by (apply field_length; lia).
  assert (H4 : length (field f (o + 4) 4) = 4%nat) by (apply field_length; lia).
  destruct (field f (o + 2) 2) as [|a0 [|a1 [|]]] eqn:F2; try done.
  destruct (field f (o + 4) 4) as [|b0 [|b1 [|b2 [|b3 [|]]]]] eqn:F4; try done.
  cbn [app] in Hpl. injection Hpl as -> -> -> -> -> -> F8. done.
Qed.
Lemma response_split (g : list N) (o k : nat) : (o + 2 <= length g)%nat ->
  field g o (1 + (1 + (2 + (4 + (4 + k))))) = [byte g o] ++ [byte g (o + 1)] ++ field g (o + 2) 2 ++ field g (o + 4) 4 ++ field g (o + 8) 4 ++ field g (o + 12) k.
Proof.
  intros Hl. rewrite !field_split, <- !Nat.add_assoc. cbn [Nat.add]. by rewrite (byte_field g o), (byte_field g (o + 1)) by lia.
Qed.

Theorem probe_answered :
  forall e f d s, env_ok e -> Forall (fun b => b < 256)%N f -> s < 65536 -> (5 <= byte f 14 mod 16)%N ->
    echo_request e f = true -> be_value (field f (l4 f + 4) 2) = 20 -> payload f = probe_request s -> (l4 f + 20 <= length f)%nat ->
    exists g l, xdp e f d = Some (TX, Xst g d l) /\ src4 g = dst4 f /\ dst4 g = src4 f /\
      forall ext, accepted ext (payload g) = true /\ sequence_number (payload g) = s.
Proof.
  intros e f d s He Hby Hs Hihl Hq Hlen Hp Hl.
  destruct (echo_answered_partial e f d He Hby Hq Hihl) as (g & l & Hx & HR).
  exists g, l. split; [exact Hx|]. clear Hx.
  assert (Hgl : gtp f = (l4 f + 8)%nat) by done.
  assert (Hpl : field f (gtp f) (1 + (1 + (2 + (4 + 4)))) = probe_request s).
  { rewrite <- Hp. unfold payload. rewrite Hlen. done. }
  destruct (request_fields _ _ _ Hpl) as (Hb0 & F2 & F4 & F8); [lia|].
  assert (Ho : gtp_opt f = true) by (unfold gtp_opt; by rewrite Hb0).
  assert (H : exists n, echo_response f g n /\ (n = 0 \/ n = 2)).
  { destruct (_ <=? _)%nat; [exists 2|exists 0]; naive_solver. }
  assert (Hroom : (rec f + 2 <=? length f)%nat = true -> (gtp f + 14 <= length f)%nat).
  { intros Hr%Nat.leb_le. unfold rec in Hr. rewrite Ho in Hr. lia. }
  assert (Hn2 : exists n, echo_response f g n /\ (n = 0 \/ n = 2 /\ (gtp f + 14 <= length f)%nat)).
  { destruct (rec f + 2 <=? length f)%nat eqn:Er; [exists 2|exists 0]; split; try (by apply HR); auto. }
  clear HR H Hroom. destruct Hn2 as (n & HR & Hn).
  pose proof (er_length _ _ _ HR) as L. destruct (er_addr _ _ _ HR) as [-> ->]. do 2 (split; [done|]).
  assert (El : l4 g = l4 f).
  { unfold l4. do 2 f_equal. pose proof (er_version _ _ _ HR) as E.
    assert (Ev : field g 14 1 = field f 14 1).
    { unfold field in E |- *. apply (f_equal (take 1)) in E. by rewrite !take_take in E. }
    rewrite !byte_field in Ev by lia. by injection Ev as ->. }
  assert (Hpg : payload g = field g (gtp f) (1 + (1 + (2 + (4 + (4 + N.to_nat n)))))).
  { unfold payload. rewrite El, (er_udp_len _ _ _ HR), Hlen, Hgl. f_equal. destruct Hn as [->|[-> _]]; done. }
  rewrite response_split in Hpg by lia.
  rewrite (er_flags _ _ _ HR), (er_type _ _ _ HR), (er_teid _ _ _ HR), F4, (er_seq _ _ _ HR Ho), F8, Hb0 in Hpg.
  pose proof (er_gtp_len _ _ _ HR) as Egl. rewrite F2 in Egl.
  assert (G2 : length (field g (gtp f + 2) 2) = 2%nat) by (apply field_length; lia).
  destruct (field g (gtp f + 2) 2) as [|x [|y [|]]]; try done.
  assert (Hext : length (field g (gtp f + 12) (N.to_nat n)) = N.to_nat n) by (apply field_length; destruct Hn as [->|[-> ?]]; lia).
  remember (field g (gtp f + 12) (N.to_nat n)) as rest eqn:Erest. clear Erest.
  intros ext. rewrite Hpg. clear Hpg.
  set (r := _ ++ _). assert (Hr : r = [50; 2; x; y; 0; 0; 0; 0] ++ be16 s ++ [0; 0] ++ rest) by (unfold r; by rewrite <- !app_assoc).
  assert (Lr : length r = (12 + N.to_nat n)%nat) by (rewrite Hr; simpl; by rewrite Hext).
  split.
  - unfold accepted. rewrite Lr. replace (field r 2 2) with [x; y] by by rewrite Hr.
    replace (byte r 0) with 50 by by rewrite Hr. replace (byte r 1) with 2 by by rewrite Hr. replace (field r 4 4) with [0; 0; 0; 0] by by rewrite Hr.
    rewrite Egl. destruct Hn as [->|[-> _]]; done.
  - unfold sequence_number. replace (field r 8 2) with (be16 s) by by rewrite Hr. rewrite be16_mod. by apply N.mod_small.
Qed.

Example ex_probe_answered : env_ok ex_env /\ wellformed ex_echo /\ echo_request ex_env ex_echo = true /\ payload ex_echo = probe_request 7 /\
  be_value (field ex_echo (l4 ex_echo + 4) 2) = 20.
Proof. split; [apply ex_env_ok|]. split; [apply wellformed_b_ok; by vm_compute|]. split_and!; by vm_compute. Qed.
