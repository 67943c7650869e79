(** C68: requests received twice (PFCP runs over UDP, requests are retransmitted with the same sequence number).
    C69: a peer that restarts.  C70: rules a PDR does not name. *)
From Verif Require Import Base IdTracker ResourceManager SdfParser SdfProps MapOps SdfMatch Pfcp PfcpProps PfcpHistory PfcpReach PfcpRules PfcpCreate PfcpRemove PfcpReject
  PfcpInv PfcpAsked PfcpKeys Qer Csum Xdp XdpBase XdpProps XdpRules XdpFrames XdpEcho XdpEx XdpAccount EndToEnd.
Open Scope N_scope.

(** ** C68 *)

(** Messages and answers for which the second copy changes nothing and gets the same answer: all but session requests, and session
    requests refused without being carried out. *)
Definition not_carried_out (m : msg) (r : option response) : Prop :=
  match m with
  | SessEstReq _ | SessModReq _ | SessDelReq _ => exists x k, r = Some x /\ r_cause x = Some k /\ k <> 1 /\ k <> 73
  | _ => True
  end.
Lemma ensure_assoc_twice addr n c : ensure_assoc addr n (ensure_assoc addr n c) = ensure_assoc addr n c.
Proof. unfold ensure_assoc. destruct (c_assocs c !! addr) eqn:E; [by rewrite E|]. simpl. by rewrite lookup_insert. Qed.
Lemma ensure_assoc_cfg addr n c : c_cfg (ensure_assoc addr n c) = c_cfg c.
Proof. unfold ensure_assoc. by destruct (c_assocs c !! addr). Qed.
Theorem repeat_harmless_partial :
  forall sh sh' addr seq m c c1 r1, handle sh addr seq m c = Done c1 r1 -> not_carried_out m r1 ->
    handle sh' addr seq m c1 = Done c1 r1.
Proof.
  intros sh sh' addr seq m c c1 r1 H Hn. destruct m as [rts|rts|node rts|node cause features|node|q|q|seid|ty]; cbn [handle not_carried_out] in *.
  - unfold handle_hb_req in *. by destruct rts; simplify_eq.
  - unfold handle_hb_resp in *. by destruct rts; simplify_eq.
  - unfold handle_setup in *. destruct node as [| |n]; simplify_eq; [done..|]. destruct rts; simplify_eq; [done..|].
    by rewrite ensure_assoc_twice, ensure_assoc_cfg.
  - unfold handle_setup_resp in *. destruct node as [| |n], cause as [| |k], features as [| |f]; simplify_eq; try done.
    destruct (k =? Accepted); simplify_eq; [|done]. by rewrite ensure_assoc_twice.
  - unfold handle_update in *. destruct node as [| |n]; simplify_eq; [done..|]. destruct (c_assocs c !! addr) eqn:E; simplify_eq; by rewrite E.
  - destruct Hn as (x & k & -> & Hk & H1 & H73). unfold handle_est in *. destruct (validate_request _ _); [|by simplify_eq].
    destruct (c_assocs c !! addr) eqn:E; [|simplify_eq; by rewrite E]. destruct (existsb _ _); [done|].
    destruct (est_rules _ _ _); simplify_eq; simpl in Hk; simplify_eq; done.
  - destruct Hn as (x & k & -> & Hk & H1 & H73). unfold handle_mod in *. destruct (c_assocs c !! addr) as [a|] eqn:E; [|simplify_eq; by rewrite E].
    destruct (a_sessions a !! mq_seid q) eqn:Es; [|simplify_eq; by rewrite E, Es]. destruct (_ || _); [done|].
    destruct (mod_rules _ _ _ _); simplify_eq; simpl in Hk; simplify_eq; done.
  - destruct Hn as (x & k & -> & Hk & H1 & H73). unfold handle_del in *. destruct (c_assocs c !! addr) as [a|] eqn:E; [|simplify_eq; by rewrite E].
    destruct (a_sessions a !! seid) eqn:Es; [|simplify_eq; by rewrite E, Es].
    destruct (del_rules _ _ _); simplify_eq; simpl in Hk; simplify_eq; done.
  - by simplify_eq.
Qed.

(** The second copy of an accepted deletion changes nothing, but is answered "session context not found". *)
Theorem repeat_deletion :
  forall sh sh' addr seq seid c c1 r1, handle sh addr seq (SessDelReq seid) c = Done c1 (Some r1) -> r_cause r1 = Some 1 ->
    exists r2, handle sh' addr seq (SessDelReq seid) c1 = Done c1 (Some r2) /\ r_cause r2 = Some 65.
Proof.
  intros sh sh' addr seq seid c c1 r1 H Hr. cbn [handle] in *. unfold handle_del in *.
  destruct (c_assocs c !! addr) as [a|] eqn:E; [|by simplify_eq]. destruct (a_sessions a !! seid) eqn:Es; [|by simplify_eq].
  destruct (del_rules _ _ _); simplify_eq. simpl. rewrite lookup_insert. simpl. rewrite lookup_delete. eauto.
Qed.

(** The second copy of an accepted establishment makes a second session, whenever it is accepted at all. *)
Theorem repeat_establishment_twice :
  forall sh sh' addr seq q c c1 r1 c2 r2 s1 s2 a1 a2,
    handle sh addr seq (SessEstReq q) c = Done c1 (Some r1) -> r_cause r1 = Some 1 -> r_fseid r1 = Some (s1, a1) ->
    handle sh' addr seq (SessEstReq q) c1 = Done c2 (Some r2) -> r_cause r2 = Some 1 -> r_fseid r2 = Some (s2, a2) ->
    s1 < 18446744073709551615 ->
    s1 <> s2 /\ is_Some (session_of c2 addr s1) /\ is_Some (session_of c2 addr s2).
Proof.
  intros sh sh' addr seq q c c1 r1 c2 r2 s1 s2 a1 a2 H1 Hr1 Hf1 H2 Hr2 Hf2 Hlt. cbn [handle] in *. unfold handle_est in *.
  destruct (validate_request _ _) as [rem|]; [|by simplify_eq]. destruct (c_assocs c !! addr) as [a|] eqn:E; [|by simplify_eq].
  destruct (existsb _ _); [done|]. destruct (est_rules _ _ _) as [w1|w1|]; [simplify_eq| by simplify_eq|done].
  simpl in Hf1, H2. simplify_eq. rewrite lookup_insert in H2. simpl in H2.
  destruct (est_rules _ _ _) as [w2|w2|]; [simplify_eq| by simplify_eq|done]. simpl in Hf2. simplify_eq.
  assert (Hne : next_seid a <> next_seid (Assoc (a_node a) (next_seid a) (<[next_seid a := w_ses w1]> (a_sessions a)))).
  { unfold next_seid at 2. simpl. unfold u64. rewrite N.mod_small; lia. }
  split; [done|]. unfold session_of. simpl. rewrite lookup_insert. simpl. split.
  - rewrite lookup_insert_ne by done. rewrite lookup_insert. by eexists.
  - rewrite lookup_insert. by eexists.
Qed.
Theorem repeat_establishment_refuted :
  exists sh addr seq q c l c1 r1 c2 r2, ex_start [ex_setup] = Some (c, l) /\
    handle sh addr seq (SessEstReq q) c = Done c1 (Some r1) /\ r_cause r1 = Some 1 /\
    handle sh addr seq (SessEstReq q) c1 = Done c2 (Some r2) /\ r_cause r2 = Some 1 /\
    r_fseid r1 <> r_fseid r2 /\ session_of c1 addr 3 = None /\ is_Some (session_of c2 addr 3).
Proof.
  pose (q := EstReq (Good 5) (Good 100) [FarIe (Some 1) (Some [2]) None None] [] [] [ex_pdr 1 9]).
  assert (H : ex_runs [ex_setup] (fun c => ex_accepts 1 (handle id_shuffle 7 2 (SessEstReq q) c) (fun c1 r1 =>
    ex_accepts 1 (handle id_shuffle 7 2 (SessEstReq q) c1) (fun c2 r2 =>
      negb (bool_decide (r_fseid r1 = r_fseid r2)) && negb (ex_has_session c1 7 3 (fun _ => true)) && ex_has_session c2 7 3 (fun _ => true)))) = true) by by vm_compute.
  apply ex_runs_inv in H as (c & l & Hc & H). apply ex_accepts_inv in H as (c1 & r1 & H1 & K1 & H). apply ex_accepts_inv in H as (c2 & r2 & H2 & K2 & H).
  exists id_shuffle, 7, 2, q, c, l, c1, r1, c2, r2. split; [exact Hc|]. clear Hc. split; [exact H1|]. clear H1. split; [exact K1|]. split; [exact H2|]. clear H2.
  split; [exact K2|]. rewrite !andb_true_iff, !negb_true_iff in H. destruct H as [[Ha%bool_decide_eq_false Hb] Hd].
  split; [exact Ha|]. split.
  - unfold ex_has_session in Hb. by destruct (session_of c1 7 3).
  - apply ex_has_session_inv in Hd as (s & -> & _). by eexists.
Qed.
(** The other two theorems apply to a request that is refused and to a deletion that is accepted. *)
Example ex_repeat : exists c l c1 r1 c2 r2, ex_start [ex_setup; ex_recv 2 (ex_est_of [ex_pdr 1 9] [])] = Some (c, l) /\
  handle id_shuffle 7 3 (SessDelReq 44) c = Done c1 (Some r1) /\ not_carried_out (SessDelReq 44) (Some r1) /\
  handle id_shuffle 7 3 (SessDelReq 2) c = Done c2 (Some r2) /\ r_cause r2 = Some 1.
Proof.
  assert (H : ex_runs [ex_setup; ex_recv 2 (ex_est_of [ex_pdr 1 9] [])] (fun c => ex_accepts 65 (handle id_shuffle 7 3 (SessDelReq 44) c) (fun _ _ =>
    ex_accepts 1 (handle id_shuffle 7 3 (SessDelReq 2) c) (fun _ _ => true))) = true) by by vm_compute.
  apply ex_runs_inv in H as (c & l & Hc & H). apply ex_accepts_inv in H as (c1 & r1 & H1 & K1 & H). apply ex_accepts_inv in H as (c2 & r2 & H2 & K2 & _).
  exists c, l, c1, r1, c2, r2. split; [exact Hc|]. clear Hc. split; [exact H1|]. split; [|split; [exact H2|exact K2]]. exists r1, 65. done.
Qed.

(** ** C69 *)

(** A setup request from a peer with an association is accepted and changes nothing, whatever its recovery time stamp. *)
Theorem setup_again_changes_nothing :
  forall sh addr seq n t c a, c_assocs c !! addr = Some a ->
    exists r, handle sh addr seq (AssocSetupReq (Good n) (Good t)) c = Done c (Some r) /\ r_cause r = Some 1.
Proof.
  intros sh addr seq n t c a Ha. cbn [handle]. unfold handle_setup, ensure_assoc. rewrite Ha. by eexists.
Qed.
(** So the sessions of a peer's former life go on forwarding. *)
Theorem restart_drops_sessions_refuted :
  exists c l, ex_start [ex_recv 1 (AssocSetupReq (Good 5) (Good 1)); ex_recv 2 (ex_est_of [ex_pdr 1 9] []); ex_recv 1 (AssocSetupReq (Good 5) (Good 2))] = Some (c, l) /\
    (exists r, last l = Some (ex_recv 1 (AssocSetupReq (Good 5) (Good 2)), Some r) /\ r_cause r = Some 1) /\
    is_Some (session_of c 7 2) /\ is_Some (dp_find (c_dp c) (Up 9)).
Proof.
  set (es := [_; _; _]).
  assert (H : match ex_start es with Some (c, l) => ex_has_session c 7 2 (fun _ => true) && bool_decide (is_Some (dp_find (c_dp c) (Up 9))) &&
    match l with [_; _; (_, Some r)] => bool_decide (r_cause r = Some 1) | _ => false end | None => false end = true) by by vm_compute.
  destruct (ex_start es) as [[c l]|] eqn:Ec; [|discriminate H]. exists c, l. split; [reflexivity|].
  rewrite !andb_true_iff in H. destruct H as [[H1 H2%bool_decide_eq_true] H3].
  apply ex_has_session_inv in H1 as (s & Hs & _). split; [|split; [by rewrite Hs|exact H2]].
  destruct l as [|x1 [|x2 [|[e3 [r3|]] [|]]]]; try discriminate H3. apply bool_decide_eq_true in H3.
  exists r3. split; [|exact H3]. simpl. f_equal.
  assert (He : fst <$> [x1; x2; (e3, Some r3)] = es) by (eapply run_length; exact Ec).
  unfold es in He. simpl in He. injection He as _ _ ->. done.
Qed.

(** ** C70 *)

(** A session whose PDR names a FAR but no QER; its packets are judged by whatever QER has data-plane id 0 - here one of another session, with a closed
    gate: the packet is dropped while that session lives and goes through when it is deleted. *)
Definition ex_closed : est_req :=
  EstReq (Good 5) (Good 100) [FarIe (Some 1) (Some [2]) None None] [QerIe (Some 1) (Some 1) (Some 1) (Some 10000) (Some 10000) (Some 9)] [] [ex_upg 1 9 1].
Definition ex_no_qer : est_req :=
  EstReq (Good 5) (Good 101) [ex_both_far_dl] [] []
    [PdrIe (Some 1) None (Some 1) None [] (Some (PdiIe true Absent (Good (UeipIe false (Some 171704321) None)))) None].
Definition dropped (r : option (verdict * xst)) : bool := match r with Some (DROP, _) => true | _ => false end.
Definition redirected (r : option (verdict * xst)) : bool := match r with Some (REDIRECT _, _) => true | _ => false end.
Lemma dropped_inv r : dropped r = true -> exists s, r = Some (DROP, s).
Proof. destruct r as [[[] s]|]; try done. eauto. Qed.
Lemma redirected_inv r : redirected r = true -> exists i s, r = Some (REDIRECT i, s).
Proof. destruct r as [[[] s]|]; try done. eauto. Qed.
Theorem unnamed_qer_refuted :
  exists c l c' r, ex_start [ex_setup; ex_recv 2 (SessEstReq ex_closed); ex_recv 3 (SessEstReq ex_no_qer)] = Some (c, l) /\
    (* two sessions; the packet is detected by the second one *)
    is_Some (session_of c 7 2) /\ (exists s p, session_of c 7 3 = Some s /\ s_pdrs s !! 1 = Some p /\ spdr_key p = Dn4 171704321) /\
    down4 ex_env ex_down = true /\ be_value (dst4 ex_down) = 171704321 /\
    (exists s, xdp ex_env ex_down (c_dp c) = Some (DROP, s)) /\
    (* the first one is deleted *)
    handle id_shuffle 7 4 (SessDelReq 2) c = Done c' (Some r) /\ r_cause r = Some 1 /\
    (exists i s, xdp ex_env ex_down (c_dp c') = Some (REDIRECT i, s)).
Proof.
  assert (H : ex_runs [ex_setup; ex_recv 2 (SessEstReq ex_closed); ex_recv 3 (SessEstReq ex_no_qer)] (fun c =>
    ex_has_session c 7 2 (fun _ => true) && ex_has_session c 7 3 (fun s => ex_pdr_key s 1 (Dn4 171704321)) && dropped (xdp ex_env ex_down (c_dp c)) &&
    ex_accepts 1 (handle id_shuffle 7 4 (SessDelReq 2) c) (fun c' _ => redirected (xdp ex_env ex_down (c_dp c')))) = true) by by vm_compute.
  apply ex_runs_inv in H as (c & l & Hc & H). rewrite !andb_true_iff in H. destruct H as (((H1 & H2) & H3) & H4).
  apply ex_accepts_inv in H4 as (c' & r & Hh & Hk & H4). apply dropped_inv in H3. apply redirected_inv in H4.
  apply ex_has_session_inv in H1 as (s1 & Hs1 & _). apply ex_has_session_inv in H2 as (s2 & Hs2 & H2).
  exists c, l, c', r. split; [exact Hc|]. clear Hc. split; [by rewrite Hs1|]. split.
  { exists s2. unfold ex_pdr_key in H2. destruct (s_pdrs s2 !! 1) as [p|]; [|discriminate H2]. apply bool_decide_eq_true in H2. exists p. split; [exact Hs2|]. split; [reflexivity|exact H2]. }
  split; [by vm_compute|]. split; [by vm_compute|]. split; [exact H3|]. split; [exact Hh|]. split; [exact Hk|exact H4].
Qed.

(** ** C68: a repeated modification that only updates FARs and QERs *)

(** Updating values stored under an id: each value has the slot [gd] of an array; the update is applied to the stored value and written to
    the slot as well. *)
Section updates.
  Context {I S IE : Type} (mk : I -> N -> S) (inf : S -> I) (gd : S -> N) (s0 : S).
  Context (inf_mk : forall i g, inf (mk i g) = i) (gd_mk : forall i g, gd (mk i g) = g).
  Context (ident : IE -> option N) (comp : IE -> I -> option I) (sz : N).
  (** Functions that overwrite some fields and keep the others. *)
  Context (Ov : (I -> I) -> Prop) (Ov_id : Ov (fun i => i)) (Ov_comp : forall F G, Ov F -> Ov G -> Ov (fun i => G (F i)))
          (Ov_idem : forall G, Ov G -> forall i, G (G i) = G i).
  Context (comp_ov : forall ie i i', comp ie i = Some i' -> exists G, Ov G /\ forall j, comp ie j = Some (G j)).

  Definition gets (M : gmap N S) (id : N) : S := default s0 (M !! id).
  Definition upd (ie : IE) (x : gmap N S * gmap N I) : option (gmap N S * gmap N I) :=
    match ident ie with
    | None => None
    | Some id => match comp ie (inf (gets x.1 id)) with
                 | None => None
                 | Some i => let g := gd (gets x.1 id) in if g <? sz then Some (<[id := mk i g]> x.1, <[g := i]> x.2) else None
                 end
    end.
  Fixpoint upds (l : list IE) (x : gmap N S * gmap N I) : option (gmap N S * gmap N I) :=
    match l with [] => Some x | ie :: r => match upd ie x with Some y => upds r y | None => None end end.

  (** The effect of a list of updates: per id one overwriting function [G]; per slot the id that writes it last. *)
  Lemma upds_effect l : forall M D M' D', upds l (M, D) = Some (M', D') ->
    exists (G : N -> I -> I) (W : N -> option N) (T : N -> bool),
      (forall id, Ov (G id)) /\ (forall id i, T id = false -> G id i = i) /\
      (forall g id, W g = Some id -> T id = true) /\ (forall id, T id = true -> W (gd (gets M id)) <> None) /\
      forall M2 D2, (forall id, gd (gets M2 id) = gd (gets M id)) -> exists M2' D2', upds l (M2, D2) = Some (M2', D2') /\
        (forall id, M2' !! id = if T id then Some (mk (G id (inf (gets M2 id))) (gd (gets M id))) else M2 !! id) /\
        (forall g, D2' !! g = match W g with Some id => Some (G id (inf (gets M2 id))) | None => D2 !! g end).
  Proof.
    induction l as [|ie l IH]; intros M D M' D' H.
    { exists (fun _ i => i), (fun _ => None), (fun _ => false). split_and!; try done. intros M2 D2 _. exists M2, D2. done. }
    cbn [upds] in H. destruct (upd ie (M, D)) as [[M1 D1]|] eqn:E; [|done]. unfold upd in E. cbn [fst snd] in E.
    destruct (ident ie) as [id0|] eqn:Eid; [|done]. destruct (comp ie (inf (gets M id0))) as [i1|] eqn:Ec; [|done].
    destruct (gd (gets M id0) <? sz) eqn:Es; [|done]. injection E as <- <-.
    destruct (comp_ov _ _ _ Ec) as (G0 & HG0 & HC). destruct (IH _ _ _ _ H) as (G1 & W1 & T1 & A1 & A2 & A3 & A4 & A5).
    assert (Hgd : forall id, gd (gets (<[id0:=mk i1 (gd (gets M id0))]> M) id) = gd (gets M id)).
    { intros id. unfold gets at 1. destruct (decide (id = id0)) as [->|]; [rewrite lookup_insert; apply gd_mk|by rewrite lookup_insert_ne]. }
    exists (fun id i => if id =? id0 then G1 id (G0 i) else G1 id i),
      (fun g => match W1 g with Some id => Some id | None => if g =? gd (gets M id0) then Some id0 else None end),
      (fun id => T1 id || (id =? id0)).
    assert (B4 : forall id, T1 id = false -> forall i, G1 id i = i) by (intros; by apply A2).
    split; [|split; [|split; [|split]]].
    - intros id. destruct (N.eqb_spec id id0); [by apply Ov_comp|done].
    - intros id i [Ht Hne]%orb_false_iff. rewrite Hne. by apply A2.
    - intros g id. destruct (W1 g) as [j|] eqn:EW; [intros [= <-]; by rewrite (A3 _ _ EW)|]. destruct (g =? _); [|done]. intros [= <-]. by rewrite N.eqb_refl, orb_true_r.
    - intros id Ht. apply orb_true_iff in Ht as [Ht|Ht%N.eqb_eq].
      + specialize (A4 id Ht). rewrite Hgd in A4. by destruct (W1 _).
      + subst id. destruct (W1 _); [done|]. by rewrite N.eqb_refl.
    - intros M2 D2 H2. cbn [upds]. unfold upd at 1. cbn [fst snd]. rewrite Eid, HC, H2, Es.
      set (M3 := <[id0 := mk (G0 (inf (gets M2 id0))) (gd (gets M id0))]> M2).
      set (D3 := <[gd (gets M id0) := G0 (inf (gets M2 id0))]> D2).
      assert (Hg3 : forall id, gd (gets M3 id) = gd (gets (<[id0:=mk i1 (gd (gets M id0))]> M) id)).
      { intros id. rewrite Hgd. unfold M3. unfold gets at 1. destruct (decide (id = id0)) as [->|]; [rewrite lookup_insert; apply gd_mk|rewrite lookup_insert_ne by done; apply H2]. }
      destruct (A5 M3 D3 Hg3) as (M2' & D2' & R1 & R2 & R3). exists M2', D2'. split; [done|].
      assert (Hi3 : forall id, inf (gets M3 id) = if id =? id0 then G0 (inf (gets M2 id0)) else inf (gets M2 id)).
      { intros id. unfold M3. unfold gets at 1. destruct (N.eqb_spec id id0) as [->|]; [rewrite lookup_insert; apply inf_mk|by rewrite lookup_insert_ne]. }
      split.
      + intros id. rewrite R2, Hgd, Hi3. destruct (T1 id) eqn:ET; cbn [orb].
        * by destruct (N.eqb_spec id id0) as [->|].
        * unfold M3. destruct (N.eqb_spec id id0) as [->|]; [|by rewrite lookup_insert_ne]. rewrite lookup_insert. by rewrite (B4 _ ET).
      + intros g. rewrite R3. destruct (W1 g) as [j|] eqn:EW; [rewrite Hi3; by destruct (N.eqb_spec j id0) as [->|]|].
        unfold D3. destruct (N.eqb_spec g (gd (gets M id0))) as [->|]; [|by rewrite lookup_insert_ne]. rewrite lookup_insert, N.eqb_refl.
        rewrite (B4 id0); [done|]. destruct (T1 id0) eqn:ET; [|done]. specialize (A4 _ ET). by rewrite Hgd, EW in A4.
  Qed.
  Lemma upds_twice l M D M' D' : upds l (M, D) = Some (M', D') -> upds l (M', D') = Some (M', D').
  Proof.
    intros H. destruct (upds_effect _ _ _ _ _ H) as (G & W & T & A1 & A2 & A3 & A4 & A5).
    destruct (A5 M D (fun _ => eq_refl)) as (M1 & D1 & R1 & R2 & R3). rewrite H in R1. injection R1 as <- <-.
    assert (Hg : forall id, gets M' id = if T id then mk (G id (inf (gets M id))) (gd (gets M id)) else gets M id).
    { intros id. unfold gets at 1. rewrite R2. by destruct (T id). }
    destruct (A5 M' D') as (M2 & D2 & S1 & S2 & S3).
    { intros id. rewrite Hg. destruct (T id); [by rewrite gd_mk|done]. }
    rewrite S1. do 2 f_equal; apply map_eq.
    - intros id. rewrite S2, R2, Hg. destruct (T id); [|done]. by rewrite inf_mk, Ov_idem.
    - intros g. rewrite S3. destruct (W g) as [id|] eqn:EW; [|done]. rewrite R3, EW, Hg, (A3 _ _ EW), inf_mk. by rewrite Ov_idem.
  Qed.
End updates.

Definition far_ov (G : far_info -> far_info) : Prop :=
  exists a b c d e, forall i, G i = Far (default (fi_action i) a) (default (fi_ohc i) b) (default (fi_teid i) c) (default (fi_remote i) d) (default (fi_tlm i) e).
Lemma default_comp (o p : option N) x : default (default x o) p = default x (match p with Some y => Some y | None => o end).
Proof. by destruct p. Qed.
Lemma far_ov_comp F G : far_ov F -> far_ov G -> far_ov (fun i => G (F i)).
Proof. intros (a & b & c & d & e & HF) (a' & b' & c' & d' & e' & HG). eexists _, _, _, _, _. intros i. rewrite HG, HF. cbn. rewrite !default_comp. done. Qed.
Lemma far_ov_idem G : far_ov G -> forall i, G (G i) = G i.
Proof. intros (a & b & c & d & e & HG) i. rewrite !HG. cbn. by destruct a, b, c, d, e. Qed.
Lemma far_comp_ov f i i' : compose_far f i = Some i' -> exists G, far_ov G /\ forall j, compose_far f j = Some (G j).
Proof.
  intros H. set (a := match fa_apply f with Some (a :: _) => Some a | _ => None end).
  exists (fun j => default far0 (compose_far f j)). unfold compose_far in *. split.
  - destruct (fa_fwd f) as [[| |o]|]; [| |destruct (oh_v6 o); [done|]|].
    1,2,4: exists a, None, None, None, (fa_tlm f); intros j; unfold a; cbn; by destruct (fa_apply f) as [[|]|].
    exists a, (Some (u8 (oh_desc o / 256))), (Some (oh_teid o)), (oh_v4 o ≫= fun a => Some (Pfcp.le32 a)), (fa_tlm f).
    intros j; unfold a; cbn. by destruct (fa_apply f) as [[|]|], (oh_v4 o).
  - intros j. destruct (fa_fwd f) as [[| |o]|]; [done|done|by destruct (oh_v6 o)|done].
Qed.
Definition qer_ov (G : qer_info -> qer_info) : Prop :=
  exists a b c d e f g, forall i, G i = Qer (default (qi_ul_gate i) a) (default (qi_dl_gate i) b) (default (qi_qfi i) c) (default (qi_ul_rate i) d) (default (qi_dl_rate i) e)
    (default (qi_ul_start i) f) (default (qi_dl_start i) g).
Lemma qer_ov_comp F G : qer_ov F -> qer_ov G -> qer_ov (fun i => G (F i)).
Proof.
  intros (a & b & c & d & e & f & g & HF) (a' & b' & c' & d' & e' & f' & g' & HG). eexists _, _, _, _, _, _, _. intros i. rewrite HG, HF. cbn. rewrite !default_comp. done.
Qed.
Lemma qer_ov_idem G : qer_ov G -> forall i, G (G i) = G i.
Proof. intros (a & b & c & d & e & f & g & HG) i. rewrite !HG. cbn. by destruct a, b, c, d, e, f, g. Qed.
Lemma qer_comp_ov q i i' : Some (compose_qer q i) = Some i' -> exists G, qer_ov G /\ forall j, Some (compose_qer q j) = Some (G j).
Proof.
  intros _. exists (compose_qer q). split; [|done].
  exists (qe_gate_ul q), (qe_gate_dl q), (qe_qfi q), (qe_mbr_ul q ≫= fun v => Some (u32 (u32 v * 1000))), (qe_mbr_dl q ≫= fun v => Some (u32 (u32 v * 1000))), (Some 0), (Some 0).
  intros j. unfold compose_qer. by destruct (qe_mbr_ul q), (qe_mbr_dl q).
Qed.

Notation far_upds := (upds Sfar sf_info sf_gid (Sfar far0 0) fa_id compose_far).
Notation qer_upds := (upds Sqer sq_info sq_gid (Sqer qer0 0) qe_id (fun q i => Some (compose_qer q i))).
Definition put_fars (M : gmap N sfar) (D : gmap N far_info) (w : work) : work := w_set_dp (set_far D (w_dp w)) (w_set_ses (set_fars M (w_ses w)) w).
Definition put_qers (M : gmap N sqer) (D : gmap N qer_info) (w : work) : work := w_set_dp (set_qer D (w_dp w)) (w_set_ses (set_qers M (w_ses w)) w).

Lemma each_ufar l : forall w, (forall w', each update_far_ie l w = ROk w' -> Forall (fun f => far_crash f = false) l /\
    exists M D, far_upds (d_far_size (w_dp w)) l (s_fars (w_ses w), d_far (w_dp w)) = Some (M, D) /\ w' = put_fars M D w) /\
  (Forall (fun f => far_crash f = false) l -> forall M D, far_upds (d_far_size (w_dp w)) l (s_fars (w_ses w), d_far (w_dp w)) = Some (M, D) ->
    each update_far_ie l w = ROk (put_fars M D w)).
Proof.
  induction l as [|f l IH]; intros w; cbn [each upds].
  { split.
    - intros w' [= <-]. split; [constructor|]. eexists _, _. split; [done|]. by destruct w as [[] [] ? ? ? ?].
    - intros _ M D [= <- <-]. by destruct w as [[] [] ? ? ? ?]. }
  unfold upd at 1 2, gets. cbn [fst snd]. unfold update_far_ie at 1 3. destruct (fa_id f) as [id|]; [|split; [done|done]].
  fold (get_far (w_ses w) id). destruct (far_crash f) eqn:Ecr.
  { split; [done|]. intros Hc. apply Forall_cons in Hc as [Hc _]. congruence. }
  destruct (compose_far f _) as [i|]; [|done]. unfold update_far. cbn [w_dp w_set_ses].
  destruct (sf_gid (get_far (w_ses w) id) <? d_far_size (w_dp w)); [|done]. cbn [rbind].
  match goal with |- context [each update_far_ie l ?x] => destruct (IH x) as [H1 H2] end. split.
  - intros w' H. destruct (H1 w' H) as (Hf & M & D & Hu & ->). split; [by constructor|]. exists M, D. split; [exact Hu|]. done.
  - intros Hc M D Hu. apply Forall_cons in Hc as [_ Hc]. rewrite (H2 Hc M D Hu). done.
Qed.
Lemma each_uqer l : forall w, (forall w', each update_qer_ie l w = ROk w' ->
    exists M D, qer_upds (d_qer_size (w_dp w)) l (s_qers (w_ses w), d_qer (w_dp w)) = Some (M, D) /\ w' = put_qers M D w) /\
  (forall M D, qer_upds (d_qer_size (w_dp w)) l (s_qers (w_ses w), d_qer (w_dp w)) = Some (M, D) ->
    each update_qer_ie l w = ROk (put_qers M D w)).
Proof.
  induction l as [|q l IH]; intros w; cbn [each upds].
  { split.
    - intros w' [= <-]. eexists _, _. split; [done|]. by destruct w as [[] [] ? ? ? ?].
    - intros M D [= <- <-]. by destruct w as [[] [] ? ? ? ?]. }
  unfold upd at 1 2, gets. cbn [fst snd]. unfold update_qer_ie at 1 3. destruct (qe_id q) as [id|]; [|split; [done|done]].
  fold (get_qer (w_ses w) id). unfold update_qer. cbn [w_dp w_set_ses].
  destruct (sq_gid (get_qer (w_ses w) id) <? d_qer_size (w_dp w)); [|done]. cbn [rbind].
  match goal with |- context [each update_qer_ie l ?x] => destruct (IH x) as [H1 H2] end. split.
  - intros w' H. destruct (H1 w' H) as (M & D & Hu & ->). exists M, D. split; [exact Hu|]. done.
  - intros M D Hu. rewrite (H2 M D Hu). done.
Qed.
Lemma far_upds_twice sz l M D M' D' : far_upds sz l (M, D) = Some (M', D') -> far_upds sz l (M', D') = Some (M', D').
Proof. apply (upds_twice Sfar sf_info sf_gid _ (fun _ _ => eq_refl) (fun _ _ => eq_refl) _ _ _ far_ov); [exists None, None, None, None, None; by intros []|apply far_ov_comp|apply far_ov_idem|apply far_comp_ov]. Qed.
Lemma qer_upds_twice sz l M D M' D' : qer_upds sz l (M, D) = Some (M', D') -> qer_upds sz l (M', D') = Some (M', D').
Proof. apply (upds_twice Sqer sq_info sq_gid _ (fun _ _ => eq_refl) (fun _ _ => eq_refl) _ _ _ qer_ov); [exists None, None, None, None, None, None, None; by intros []|apply qer_ov_comp|apply qer_ov_idem|apply qer_comp_ov]. Qed.

(** A modification that creates and removes nothing and updates only FARs and QERs (any number of them, also the same one several times). *)
Definition only_updates (q : mod_req) : Prop :=
  mq_cfar q = [] /\ mq_rfar q = [] /\ mq_cqer q = [] /\ mq_rqer q = [] /\ mq_curr q = [] /\ mq_uurr q = [] /\ mq_rurr q = [] /\
  mq_cpdr q = [] /\ mq_updr q = [] /\ mq_rpdr q = [].
Theorem repeat_rule_updates :
  forall sh sh' addr seq q c c1 r1, handle sh addr seq (SessModReq q) c = Done c1 (Some r1) -> r_cause r1 = Some 1 -> only_updates q ->
    handle sh' addr seq (SessModReq q) c1 = Done c1 (Some r1).
Proof.
  intros sh sh' addr seq q c c1 r1 H Hr (E1 & E2 & E3 & E4 & E5 & E6 & E7 & E8 & E9 & E10). cbn [handle] in *. unfold handle_mod, mod_rules in *.
  rewrite E1, E2, E3, E4, E5, E6, E7, E8, E9, E10 in *. cbn [each rbind existsb orb] in *.
  destruct (c_assocs c !! addr) as [a|] eqn:Ea; [|by simplify_eq]. destruct (a_sessions a !! mq_seid q) as [s|] eqn:Es; [|by simplify_eq].
  set (s1 := match mq_fseid q with Good r => set_remote r s | _ => s end) in *.
  destruct (each update_far_ie (mq_ufar q) _) as [wf|?|] eqn:Ef; cbn [rbind] in H; [|by simplify_eq|done].
  destruct (each update_qer_ie (mq_uqer q) wf) as [wq|?|] eqn:Eq; cbn [rbind] in H; [|by simplify_eq|done].
  apply (proj1 (each_ufar _ _)) in Ef as (Hcr & M1 & D1 & Hf & ->). apply (proj1 (each_uqer _ _)) in Eq as (M2 & D2 & Hq & ->).
  cbn in Hf, Hq. injection H as <- <-. unfold put_session, set_dp_rm. cbn [set_assocs c_assocs c_dp c_rm c_cfg w_dp w_ses w_rm w_created w_reports put_qers put_fars w_set_dp w_set_ses new_work].
  rewrite lookup_insert. cbn [a_sessions]. rewrite lookup_insert.
  set (s2 := set_qers M2 _).
  assert (Hs2 : match mq_fseid q with Good r => set_remote r s2 | _ => s2 end = s2) by (unfold s2, s1; by destruct (mq_fseid q)).
  rewrite Hs2. rewrite (proj2 (each_ufar _ _) Hcr M1 D1) by (cbn; exact (far_upds_twice _ _ _ _ _ _ Hf)). cbn [rbind].
  rewrite (proj2 (each_uqer _ _) M2 D2) by (cbn; exact (qer_upds_twice _ _ _ _ _ _ Hq)). cbn. rewrite insert_insert. cbn. rewrite insert_insert. done.
Qed.
(** A handover: the FAR gets a new tunnel, then another one in the same request, the QER new gates and rates. *)
Definition ex_handover : mod_req :=
  ModReq 2 Absent [] [FarIe (Some 1) (Some [2]) (Some (Good (OhcIe 256 77 (Some 167772161) false))) None; FarIe (Some 1) None (Some (Good (OhcIe 256 78 (Some 167772162) false))) (Some 10)] []
    [] [QerIe (Some 1) (Some 0) (Some 0) (Some 500) None None] [] [] [] [] [] [] [].
Example ex_repeat_update : exists c l c1 r1, ex_start [ex_setup; ex_recv 2 (SessEstReq ex_closed)] = Some (c, l) /\
  handle id_shuffle 7 3 (SessModReq ex_handover) c = Done c1 (Some r1) /\ r_cause r1 = Some 1 /\ only_updates ex_handover /\ c_dp c1 <> c_dp c.
Proof.
  assert (H : ex_runs [ex_setup; ex_recv 2 (SessEstReq ex_closed)] (fun c => ex_accepts 1 (handle id_shuffle 7 3 (SessModReq ex_handover) c) (fun c1 _ =>
    negb (bool_decide (d_qer (c_dp c1) !! 0 = d_qer (c_dp c) !! 0)))) = true) by by vm_compute.
  apply ex_runs_inv in H as (c & l & Hc & H). apply ex_accepts_inv in H as (c1 & r1 & H1 & K1 & H).
  exists c, l, c1, r1. split; [exact Hc|]. clear Hc. split; [exact H1|]. clear H1. split; [exact K1|]. split; [done|].
  apply negb_true_iff, bool_decide_eq_false in H. intros E. apply H. by rewrite E.
Qed.
