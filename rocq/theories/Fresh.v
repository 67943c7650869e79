(** C108: a QER that was just created or updated starts with an unused bit rate. *)
From Verif Require Import Base IdTracker ResourceManager SdfParser SdfProps MapOps SdfMatch Pfcp PfcpProps PfcpHistory PfcpReach
  PfcpRules PfcpCreate PfcpRemove PfcpReject PfcpInv PfcpAsked PfcpKeys PfcpUpdate Qer Csum Xdp XdpBase XdpProps XdpRules XdpFrames XdpEcho XdpEx XdpAccount
  EndToEnd EndToEndLog Ping Pong XdpRate RestWrites InFlight SdfAgain Forgets Neighbours Order Stream.
Open Scope N_scope.

(** ** Specification *)

(** The request and its answer have just created or updated QER [h] of session [seid] of peer [addr]: an accepted Establishment Request
    that created the session, or an accepted Modification Request with a Create QER or Update QER for [h]. *)
Definition just_set (x : event * option response) (addr seid h : N) : Prop :=
  match x with
  | (Recv _ a _ (SessEstReq _), Some r) => a = addr /\ r_cause r = Some 1 /\ exists ip, r_fseid r = Some (seid, ip)
  | (Recv _ a _ (SessModReq q), Some r) => a = addr /\ r_cause r = Some 1 /\ mq_seid q = seid /\ exists i, i ∈ mq_cqer q ++ mq_uqer q /\ qe_id i = Some h
  | _ => False end.
(** The machine has been up for at least the time the packet takes at the maximum bit rate of the QER. *)
Definition up_long_enough (e : env) (f : list N) (qv : qer_rule) : Prop :=
  ql_rate (dir_of e f) qv = 0 \/ tx_time (N.of_nat (length f)) (ql_rate (dir_of e f) qv) <= now (dir_of e f) e.

(** ** Proof *)

(** The QERs with the ids in [H] have unused windows. *)
Definition fresh (H : N -> Prop) (s : session) (d : dp) : Prop :=
  forall h q x, H h -> s_qers s !! h = Some q -> d_qer d !! sq_gid q = Some x -> qi_ul_start x = 0 /\ qi_dl_start x = 0.
Definition freshw (H : N -> Prop) (w : work) : Prop := fresh H (w_ses w) (w_dp w).
Lemma fresh_part H w w' : qer_part w' = qer_part w -> freshw H w -> freshw H w'.
Proof. unfold qer_part, freshw, fresh. intros E Hf h q x. injection E as E1 _ _ E2. rewrite E2, E1. apply Hf. Qed.
Lemma create_fresh H f w w' : create_qer f w = ROk w' -> freshw H w -> freshw (fun h => H h \/ qe_id f = Some h) w'.
Proof.
  unfold create_qer, new_qer. intros E Hf. destruct (qe_id f) as [id|]; [|done]. destruct (get_next (d_qert (w_dp w))) as [[g|] t]; [|done]. cbv zeta in E.
  destruct (g <? _); [|done]. injection E as <-. unfold freshw, fresh. cbn [w_dp w_ses w_set_ses w_set_dp ses_new_qer set_qers s_qers set_qer d_qer].
  intros h q x Hh. rewrite lookup_insert_Some. intros [[<- <-]|[Hne Hq]]; cbn [sq_gid].
  - rewrite lookup_insert. by intros [= <-].
  - rewrite lookup_insert_Some. intros [[_ <-]|[_ Hx]]; [done|]. eapply Hf; [|exact Hq|exact Hx]. destruct Hh as [|[= ->]]; done.
Qed.
Lemma update_fresh H f w w' : update_qer_ie f w = ROk w' -> freshw H w -> freshw (fun h => H h \/ qe_id f = Some h) w'.
Proof.
  unfold update_qer_ie, update_qer. intros E Hf. destruct (qe_id f) as [id|]; [|done]. cbv zeta in E.
  destruct (_ <? _); [|done]. injection E as <-. unfold freshw, fresh. cbn [w_dp w_ses w_set_ses w_set_dp ses_update_qer set_qers s_qers set_qer d_qer].
  intros h q x Hh. rewrite lookup_insert_Some. intros [[<- <-]|[Hne Hq]]; cbn [sq_gid].
  - rewrite lookup_insert. by intros [= <-].
  - rewrite lookup_insert_Some. intros [[_ <-]|[_ Hx]]; [done|]. eapply Hf; [|exact Hq|exact Hx]. destruct Hh as [|[= ->]]; done.
Qed.
Lemma remove_fresh H f w w' : remove_qer_ie f w = ROk w' -> freshw H w -> freshw H w'.
Proof.
  unfold remove_qer_ie, delete_qer, update_qer. intros E Hf. destruct (qe_id f) as [id|]; [|done]. cbv zeta in E.
  destruct (_ <? _); [|done]. injection E as <-. unfold freshw, fresh. cbn [w_dp w_ses w_set_ses w_set_dp ses_remove_qer set_qers s_qers set_qer d_qer].
  intros h q x Hh. rewrite lookup_delete_Some. intros [Hne Hq]. rewrite lookup_insert_Some. intros [[_ <-]|[_ Hx]]; [done|]. by eapply Hf.
Qed.
Lemma fresh_weak (H H' : N -> Prop) w : (forall h, H' h -> H h) -> freshw H w -> freshw H' w.
Proof. intros Hi Hf h q x Hh. by apply Hf, Hi. Qed.
Lemma each_fresh (f : qer_ie -> work -> res) l : (forall H x w w', f x w = ROk w' -> freshw H w -> freshw (fun h => H h \/ qe_id x = Some h) w') ->
  forall H w w', each f l w = ROk w' -> freshw H w -> freshw (fun h => H h \/ exists x, x ∈ l /\ qe_id x = Some h) w'.
Proof.
  intros Hf. induction l as [|x l IH]; intros H w w' E Hw; cbn [each] in E.
  - injection E as <-. eapply fresh_weak; [|exact Hw]. intros h [Hh|(x & Hx & _)]; [done|by apply elem_of_nil in Hx].
  - apply rbind_ok in E as (w1 & E1 & E2). eapply fresh_weak; [|exact (IH _ _ _ E2 (Hf _ _ _ _ E1 Hw))].
    intros h [Hh|(y & [->|Hy]%elem_of_cons & Hi)]; [by left; left|by left; right|right; by exists y].
Qed.
Lemma part_fresh {A} (f : A -> work -> res) l H w w' : (forall x w, keepsP qer_part w (f x w)) -> each f l w = ROk w' -> freshw H w -> freshw H w'.
Proof. intros Hf E. apply fresh_part. by apply (each_ok_keep qer_part f l). Qed.
Lemma est_fresh ueip q w w' : est_rules ueip q w = ROk w' -> s_qers (w_ses w) = ∅ -> freshw (fun _ => True) w'.
Proof.
  unfold est_rules. intros H H0. apply rbind_ok in H as (w1 & H1 & H). apply rbind_ok in H as (w2 & H2 & H). apply rbind_ok in H as (w3 & H3 & H4).
  eapply (part_fresh _ _ _ _ _ (fun x w => proj1 pdr_frame_qer ueip x w) H4), (part_fresh _ _ _ _ _ (proj1 urr_frame_qer) H3).
  eapply fresh_weak; [|eapply (each_fresh create_qer); [intros *; apply create_fresh|exact H2|]].
  2: { eapply (part_fresh _ _ (fun _ => True) _ _ (proj1 far_frame_qer) H1). intros h g x _. by rewrite H0, lookup_empty. }
  intros h _. by left.
Qed.
Lemma mod_fresh ueip sh q w w' : mod_rules ueip sh q w = ROk w' -> freshw (fun h => exists i, i ∈ mq_cqer q ++ mq_uqer q /\ qe_id i = Some h) w'.
Proof.
  unfold mod_rules. intros H.
  apply rbind_ok in H as (w1 & H1 & H). apply rbind_ok in H as (w2 & H2 & H). apply rbind_ok in H as (w3 & H3 & H).
  apply rbind_ok in H as (w4 & H4 & H). apply rbind_ok in H as (w5 & H5 & H). apply rbind_ok in H as (w6 & H6 & H).
  apply rbind_ok in H as (w7 & H7 & H). apply rbind_ok in H as (w8 & H8 & H). apply rbind_ok in H as (w9 & H9 & H).
  apply rbind_ok in H as (w10 & H10 & H). apply rbind_ok in H as (w11 & H11 & H12).
  destruct pdr_frame_qer as (Pq1 & Pq2 & Pq3 & _). destruct urr_frame_qer as (Uq1 & Uq2 & Uq3 & _).
  eapply (part_fresh _ _ _ _ _ (Pq3 sh) H12), (part_fresh _ _ _ _ _ (Pq2 ueip) H11), (part_fresh _ _ _ _ _ (Pq1 ueip) H10),
    (part_fresh _ _ _ _ _ Uq3 H9), (part_fresh _ _ _ _ _ Uq2 H8), (part_fresh _ _ _ _ _ Uq1 H7).
  refine (each_ok_inv (freshw _) remove_qer_ie _ _ _ _ H6 _); [intros x v v' _; apply remove_fresh|].
  eapply fresh_weak; [|eapply (each_fresh update_qer_ie); [intros *; apply update_fresh|exact H5|]].
  2: { eapply (each_fresh create_qer); [intros *; apply create_fresh|exact H4|]. instantiate (1 := fun _ => False). intros h g x []. }
  intros h (i & [Hi|Hi]%elem_of_app & Hh); [left; right|right]; by exists i.
Qed.

(** On the control plane. *)
Lemma just_set_fresh c e c' r addr seid h s : step c e = Done c' r -> just_set (e, r) addr seid h -> session_of c' addr seid = Some s ->
  fresh (eq h) s (c_dp c').
Proof.
  intros H Hj Hs. destruct e as [sh a seq m|sh a|mk vo]; [|done|done]. destruct m as [t|t|n t|n k f|n|q|q|i|ty]; try done; (destruct r as [r|]; [|done]); simpl in H.
  - destruct Hj as (-> & Hc & ip & Hf). unfold handle_est in H.
    destruct (validate_request _ _) as [rem|]; [|injection H as <- <-; done]. destruct (c_assocs c !! addr) as [a|] eqn:Ea; [|injection H as <- <-; done]. cbv zeta in H.
    destruct (existsb _ _); [done|]. destruct (est_rules _ _ _) as [w|w|] eqn:Ew; [|injection H as <- <-; done|done].
    injection H as <- <-. cbn [r_fseid] in Hf. injection Hf as <- _. apply est_fresh in Ew; [|done].
    unfold session_of, put_session in Hs. simpl in Hs. rewrite lookup_insert in Hs. simpl in Hs. rewrite lookup_insert in Hs. injection Hs as <-.
    intros h' g x _. by apply Ew.
  - destruct Hj as (-> & Hc & <- & i & Hi & Hh). unfold handle_mod in H.
    destruct (c_assocs c !! addr) as [a|] eqn:Ea; [|injection H as <- <-; done]. destruct (a_sessions a !! mq_seid q) as [s0|] eqn:E0; [|injection H as <- <-; done]. cbv zeta in H.
    destruct (_ || _); [done|]. destruct (mod_rules _ _ _ _) as [w|w|] eqn:Ew; [|injection H as <- <-; done|done].
    injection H as <- <-. apply mod_fresh in Ew.
    unfold session_of, put_session in Hs. simpl in Hs. rewrite lookup_insert in Hs. simpl in Hs. rewrite lookup_insert in Hs. injection Hs as <-.
    intros h' g x <-. apply Ew. by exists i.
Qed.

(** On the data plane: the rule that handles a packet a PDR applies to polices with the QER of the PDR. *)
Lemma rule_gid l c e f a n i ask h : keyed (pdrs_in l) c -> pdr_asked l a n i = Some ask -> applies e ask f -> ak_qer ask = Some h ->
  exists s q ep r, session_of c a n = Some s /\ s_qers s !! h = Some q /\ rule_for e (c_dp c) f = Some (ep, r) /\ r_qer r = sq_gid q.
Proof.
  intros K H Hap Hh. unfold pdr_asked in H. destruct (pdrs_in l !! (a, n)) as [pm|] eqn:E; [|done]. cbn in H.
  destruct (kd_live _ _ K _ _ _ E) as [s Hs]. destruct (kd_ses _ _ K _ _ _ Hs) as (pm' & E' & HA). assert (pm' = pm) as -> by congruence.
  destruct (agreeing_r _ _ _ _ _ _ HA H) as (p & Hp & Hag). destruct (PfcpKeys.ag_qer _ _ _ _ Hag h Hh) as (q & Hq & Hg).
  pose proof (kd_in _ _ K _ _ _ _ _ _ Hs E Hp) as Hf. rewrite (PfcpKeys.ag_key _ _ _ _ Hag) in Hf. destruct Hap as [Hk Hsdf].
  exists s, q. rewrite Hg. unfold rule_for. rewrite entry_key, Hk, Hf. unfold entry_of, upd. rewrite H, (PfcpKeys.ag_sdf _ _ _ _ Hag). unfold select.
  destruct (ak_sdf ask) as [flt|].
  - assert (Hc : forall b : bool, er_filter (ep_rules_ (combine_pdr_with_sdf (if b then Some zero_entry else None) flt (sd_info p))) = ep_filter_of flt) by (by intros []).
    rewrite Hc, Hsdf. clear Hc. destruct (ak_again ask); cbn; eexists _, _; split_and!; done.
  - cbn. eexists _, _; split_and!; done.
Qed.
Lemma rest_passes size rt t : rt = 0 \/ tx_time size rt <= t -> fst (limit_rate size 0 rt t) = true.
Proof.
  unfold limit_rate. intros [->|H]; [done|]. destruct (rt =? 0); [done|]. cbv zeta.
  assert (E : u64 (0 + tx_time size rt) = tx_time size rt).
  { rewrite N.add_0_l. unfold tx_time, u64. by rewrite N.mod_mod. }
  rewrite E. assert ((t <? tx_time size rt) = false) as -> by (by apply N.ltb_ge). by destruct (_ <? _).
Qed.

(** C108: the first packet after a QER was created or updated is not held back by the maximum bit rate: what becomes of it is what its
    FAR and the gate say. *)
Theorem fresh_rate_partial :
  forall g rm p f0 q0 u es c l x, start_pools rm -> Forall event_fair es -> run (init g rm (dp_init p f0 q0 u)) es = Some (c, l ++ [x]) ->
    N.of_nat (List.length es) <= bound -> tidy (l ++ [x]) = true ->
  forall e f addr seid i a j h fv qv, just_set x addr seid h -> pdr_asked (l ++ [x]) addr seid i = Some a -> applies e a f ->
    ak_far a = Some j -> asked_far (l ++ [x]) addr seid j = Some fv -> ak_qer a = Some h -> asked_qer (l ++ [x]) addr seid h = Some qv -> up_long_enough e f qv ->
    decision e (c_dp c) f = Some (if far_permits (dir_of e f) fv && (ql_gate (dir_of e f) qv =? 0) then Some (fv, ql_qfi qv, ak_ohr a) else None).
Proof.
  intros g rm p0 f0 q0 u es c l x Hrm Hfair Hrun Hb Ht e f addr seid i a j h fv qv Hj Ha Hap Hfj Hfv Hh Hqv Hup.
  assert (A : after (l ++ [x]) (c_dp c)) by (exists g, rm, p0, f0, q0, u, es, c; split_and!; try done; constructor).
  destruct (tidy_run _ _ _ _ _ _ _ _ _ Hrm Hfair Hrun Hb Ht) as (_ & _ & K).
  destruct (rule_gid _ _ _ _ _ _ _ _ _ K Ha Hap Hh) as (s & q & ep & r & Hs & Hq & Hr & Hg).
  assert (Hfresh : fresh (eq h) s (c_dp c)).
  { destruct es as [|ev es _] using rev_ind; [simpl in Hrun; injection Hrun as _ Hl; by destruct l|].
    apply run_app in Hrun as (c1 & l1 & l2 & H1 & H2 & Hl). simpl in H2. destruct (step c1 ev) as [c2 o|] eqn:Es; [|done]. injection H2 as -> <-.
    apply app_inj_tail in Hl as [_ ->]. by eapply just_set_fresh. }
  destruct (applied_rule _ _ e f addr seid i a A Ha Hap) as (ep' & r' & Hr' & Ho & Hf' & Hq'). rewrite Hr in Hr'. injection Hr' as <- <-.
  destruct (Hf' j Hfj) as (fv1 & Hfv1 & Hfg). destruct (Hq' h Hh) as (qv1 & x1 & Hqv1 & Hqg & Hqq).
  assert (fv1 = fv) as -> by congruence. assert (qv1 = qv) as -> by congruence. clear A Hfv1 Hqv1 Hf' Hq' Hrun.
  assert (Hst : start (dir_of e f) x1 = 0).
  { unfold qer_get, arr_get in Hqg. destruct (r_qer r <? _); [|done]. destruct (d_qer (c_dp c) !! r_qer r) as [y|] eqn:Ey; [|injection Hqg as <-; by destruct (dir_of e f)].
    injection Hqg as <-. rewrite Hg in Ey. destruct (Hfresh h q y eq_refl Hq Ey). by destruct (dir_of e f). }
  unfold decision. rewrite Hr. unfold permitted. rewrite Hfg, Hqg. subst qv. unfold gate_open, in_rate. rewrite Hst.
  assert (Hrate : rate (dir_of e f) x1 = ql_rate (dir_of e f) (rule_of_qer x1)) by (by destruct (dir_of e f)).
  rewrite rest_passes by (rewrite Hrate; exact Hup). rewrite andb_true_r.
  assert (gate (dir_of e f) x1 = ql_gate (dir_of e f) (rule_of_qer x1)) as -> by (by destruct (dir_of e f)). rewrite <- Ho.
  by destruct (_ && _).
Qed.

(** ** The hypotheses are met: the QER slot was used up by an earlier session *)
Definition ex_busy : gmap N (N * N) := {[ 0 := (5000000000, 5000000000); 1 := (5000000000, 5000000000) ]}.
Definition ex_slot_again : list event :=
  [ex_setup; ex_recv 2 (SessEstReq (EstReq (Good 5) (Good 100) [ex_both_far_dl; ex_both_far_ul] [ex_slow_qer] [] [ex_dl 1 171704330 1 1]));
   Traffic ex_busy ∅; ex_recv 3 (SessDelReq 2);
   ex_recv 4 (SessEstReq (EstReq (Good 5) (Good 100) [ex_both_far_dl; ex_both_far_ul] [ex_slow_qer] [] [ex_dl 1 171704321 1 1]))].
(** The premises of [fresh_rate_partial] about the log, decided for the session [seid] of peer 7 that the last message set up. *)
Definition ex_fresh_b (l : log) : bool :=
  match rev l with
  | (Recv _ a _ (SessEstReq _), Some r) :: _ => bool_decide (r_cause r = Some 1) &&
      match r_fseid r with
      | Some (seid, _) => match pdr_asked l a seid 1 with
          | Some k => match ak_sdf k, ak_far k, ak_qer k with
              | None, Some j, Some h => bool_decide (frame_key ex_env ex_down = Some (ak_key k)) &&
                  match asked_far l a seid j, asked_qer l a seid h with
                  | Some fv, Some qv => negb (ql_rate Downlink qv =? 0) && (tx_time (N.of_nat (length ex_down)) (ql_rate (dir_of ex_env ex_down) qv) <=? now (dir_of ex_env ex_down) ex_env)
                  | _, _ => false end
              | _, _, _ => false end
          | None => false end
      | None => false end
  | _ => false end.
Example ex_fresh : exists l x c addr seid a j h fv qv, tidy (l ++ [x]) = true /\ run (init ex_cfg ex_small_rm (dp_init 8 8 8 8)) ex_slot_again = Some (c, l ++ [x]) /\
  just_set x addr seid h /\ pdr_asked (l ++ [x]) addr seid 1 = Some a /\ applies ex_env a ex_down /\ ak_far a = Some j /\ asked_far (l ++ [x]) addr seid j = Some fv /\
  ak_qer a = Some h /\ asked_qer (l ++ [x]) addr seid h = Some qv /\ up_long_enough ex_env ex_down qv /\ ql_rate Downlink qv <> 0.
Proof.
  assert (H : match ex_start ex_slot_again with Some (c, l) => tidy l && ex_fresh_b l | None => false end = true) by (vm_compute; reflexivity).
  destruct (ex_start ex_slot_again) as [[c l]|] eqn:Ec; [|discriminate H]. apply andb_true_iff in H as [Ht H].
  destruct l as [|x l _] using rev_ind; [discriminate H|]. unfold ex_fresh_b in H. rewrite rev_unit in H.
  destruct x as [ev o]. destruct ev as [sh ad sq m| |]; [|discriminate H..]. destruct m as [?|?|? ?|? ? ?|?|eq|?|?|?]; try discriminate H. destruct o as [r|]; [|discriminate H].
  apply andb_true_iff in H as [Hc%bool_decide_eq_true H]. destruct (r_fseid r) as [[seid ip]|] eqn:Ef; [|discriminate H].
  destruct (pdr_asked _ ad seid 1) as [k|] eqn:Ek; [|discriminate H]. destruct (ak_sdf k) eqn:E1; [discriminate H|].
  destruct (ak_far k) as [j|] eqn:E2; [|discriminate H]. destruct (ak_qer k) as [h|] eqn:E3; [|discriminate H].
  apply andb_true_iff in H as [Hk%bool_decide_eq_true H]. destruct (asked_far _ ad seid j) as [fv|] eqn:E4; [|discriminate H]. destruct (asked_qer _ ad seid h) as [qv|] eqn:E5; [|discriminate H].
  apply andb_true_iff in H as [Hn%negb_true_iff%N.eqb_neq Hl%N.leb_le].
  eexists l, _, c, ad, seid, k, j, h, fv, qv. split; [exact Ht|]. split; [exact Ec|]. clear Ec Ht. split; [split; [reflexivity|split; [exact Hc|exists ip; exact Ef]]|].
  split; [exact Ek|]. split; [split; [exact Hk|rewrite E1; exact I]|]. split; [exact E2|]. split; [exact E4|]. split; [exact E3|]. split; [exact E5|]. split; [right; exact Hl|exact Hn].
Qed.

(** ** The other side of it: an update that repeats what the QER has sets the limiter back *)
Definition ex_repeat : event := ex_recv 3 (SessModReq (ModReq 2 Absent [] [] [] [] [ex_slow_qer] [] [] [] [] [] [] [])).
(** An accepted Update QER that asks for what the QER was created with lets a packet pass that is dropped without it. *)
Theorem update_forgives_refuted : exists c l i s s' c2 r s2 i2 x o,
  ex_start (ex_slow_two [ex_both_far_dl; ex_both_far_ul] [ex_slow_qer] [ex_dl 1 171704321 1 1]) = Some (c, l) /\
  xdp ex_env ex_down (c_dp c) = Some (REDIRECT i, s) /\ xdp ex_env ex_down (x_dp s) = Some (DROP, s') /\
  step (set_dp_rm (x_dp s) (c_rm c) c) ex_repeat = Done c2 (Some r) /\ r_cause r = Some 1 /\ xdp ex_env ex_down (c_dp c2) = Some (REDIRECT i2, s2) /\
  l = [o; x] /\ asked_in [o; x; (ex_repeat, Some r)] = asked_in [o; x].
Proof.
  assert (H : match ex_start (ex_slow_two [ex_both_far_dl; ex_both_far_ul] [ex_slow_qer] [ex_dl 1 171704321 1 1]) with
    | Some (c, l) => match l, ex_out (xdp ex_env ex_down (c_dp c)) with
        | [o; x], Some (true, d) => match ex_out (xdp ex_env ex_down d), step (set_dp_rm d (c_rm c) c) ex_repeat with
            | Some (false, _), Done c2 (Some r) => bool_decide (r_cause r = Some 1) && bool_decide (asked_in [o; x; (ex_repeat, Some r)] = asked_in [o; x]) &&
                match ex_out (xdp ex_env ex_down (c_dp c2)) with Some (true, _) => true | _ => false end
            | _, _ => false end
        | _, _ => false end
    | None => false end = true) by (vm_compute; reflexivity).
  destruct (ex_start _) as [[c l]|] eqn:Ec; [|discriminate H]. destruct l as [|o [|x [|]]]; [discriminate H..| |discriminate H].
  destruct (ex_out (xdp ex_env ex_down (c_dp c))) as [[[] d0]|] eqn:E1; [|discriminate H..]. apply ex_out_inv in E1 as (v & s & X1 & D1 & i & ->).
  destruct (ex_out (xdp ex_env ex_down d0)) as [[[] d1]|] eqn:E2; [discriminate H| |discriminate H]. apply ex_out_inv in E2 as (v' & s' & X2 & _ & ->).
  destruct (step _ ex_repeat) as [c2 [r|]|] eqn:Es; [|discriminate H..]. rewrite !andb_true_iff in H. destruct H as [[Hc%bool_decide_eq_true Ha%bool_decide_eq_true] H].
  destruct (ex_out (xdp ex_env ex_down (c_dp c2))) as [[[] d2]|] eqn:E3; [|discriminate H..]. apply ex_out_inv in E3 as (v2 & s2 & X3 & _ & i2 & ->).
  exists c, [o; x], i, s, s', c2, r, s2, i2, x, o. rewrite D1. split; [reflexivity|]. clear Ec. split; [exact X1|]. split; [exact X2|]. split; [exact Es|]. clear Es.
  split; [exact Hc|]. split; [exact X3|]. split; [reflexivity|exact Ha].
Qed.
