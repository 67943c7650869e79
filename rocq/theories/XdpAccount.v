(** Charging (C21), direction independence (C59), SDF rules beside a default rule (C58), traffic without a
    session in detail (C30). *)
From Verif Require Import Base IdTracker ResourceManager SdfParser SdfProps MapOps SdfMatch Pfcp PfcpProps PfcpHistory PfcpReach
  PfcpRules PfcpCreate PfcpRemove Qer Csum Xdp XdpBase XdpProps XdpRules XdpFrames XdpEcho XdpEx.
Open Scope nat_scope.

(** The frame is not a G-PDU with a ping for the UPF itself inside (the UPF answers these, and the answer is a downlink packet). *)
Definition no_ping (e : env) (f : list N) : Prop := gpdu e f = true -> forall far ohr, pings_upf e f far ohr = false.

(** Data plane state after a permitted packet. *)
Lemma permitted_state e d f p r far q v s : env_ok e -> rule_for e d f = Some (p, r) ->
  permitted e (dir_of e f) (N.of_nat (length f)) d r = Some (far, q) -> no_ping e f -> xdp e f d = Some (v, s) ->
  x_dp s = account e (dir_of e f) (N.of_nat (length f)) p r q d.
Proof.
  intros He Hr Hp Hn H. unfold dir_of in *. destruct (gpdu e f) eqn:Hg.
  - rewrite (xdp_uplink e d f p r far q) in H; [|done|done|done|done|by apply Hn].
    destruct (uplink_result e f far (r_ohr r)) as [[v0 g] c]. by simplify_eq.
  - rewrite (xdp_downlink e d f p r far q) in H by done. cbv zeta in H. destruct (e_head e); simpl in H; [|by simplify_eq].
    destruct (routed e true _) as [[v0 g0] c0]. simpl in H. by simplify_eq.
Qed.

(** ** C21 *)
Lemma arr_get_insert {A} (z : A) (m : gmap N A) size k v j : (k < size)%N ->
  arr_get z (<[k := v]> m) size j = if decide (j = k) then Some v else arr_get z m size j.
Proof.
  intros Hk. unfold arr_get. destruct (decide (j = k)) as [->|Hj].
  - rewrite (proj2 (N.ltb_lt _ _)) by done. by rewrite lookup_insert.
  - by rewrite lookup_insert_ne by done.
Qed.
Lemma urr_add_get id ul dl d j :
  urr_get (urr_add id ul dl d) j =
  match urr_get d j with
  | Some u => Some (if decide (j = id) then Urr (u64 (ui_ul u + ul)) (u64 (ui_dl u + dl)) else u)
  | None => None
  end.
Proof.
  unfold urr_add. destruct (urr_get d id) as [u|] eqn:E.
  - assert (Hs : (id < d_urr_size d)%N) by (unfold urr_get, arr_get in E; by destruct (N.ltb_spec id (d_urr_size d))).
    unfold urr_get at 1. simpl. rewrite arr_get_insert by done. destruct (decide (j = id)) as [->|]; [by rewrite E|].
    change (arr_get urr0 (d_urr d) (d_urr_size d) j) with (urr_get d j). by destruct (urr_get d j).
  - destruct (urr_get d j) as [u|] eqn:Ej; [|done]. destruct (decide (j = id)) as [->|]; [congruence|done].
Qed.

(** Adding the size of a packet to the counter of its direction. *)
Definition counted (w : dir) (size : N) (u : urr_info) : urr_info :=
  match w with
  | Uplink => Urr (u64 (ui_ul u + size)) (u64 (ui_dl u + 0))
  | Downlink => Urr (u64 (ui_ul u + 0)) (u64 (ui_dl u + size))
  end.

Theorem entry_urrs_charged :
  forall e d f p r far q v s, env_ok e -> rule_for e d f = Some (p, r) ->
    permitted e (dir_of e f) (N.of_nat (length f)) d r = Some (far, q) -> no_ping e f ->
    xdp e f d = Some (v, s) ->
    forall id u, urr_get d id = Some u ->
      urr_get (x_dp s) id =
      Some (let n := N.of_nat (length f) in
            if decide (id = ep_urr1 p) then
              if decide (id = ep_urr2 p) then counted (dir_of e f) n (counted (dir_of e f) n u) else counted (dir_of e f) n u
            else if decide (id = ep_urr2 p) then counted (dir_of e f) n u
            else u).
Proof.
  intros e d f p r far q v s He Hr Hp Hn H id u Hu.
  rewrite (permitted_state e d f p r far q v s) by done. unfold account, volume, counted. cbv zeta.
  assert (Hm : urr_get (mark e (dir_of e f) (N.of_nat (length f)) r q d) id = Some u) by (unfold mark; by destruct (rate _ _ =? 0)%N).
  destruct (dir_of e f); rewrite !urr_add_get, Hm; by destruct (decide (id = ep_urr1 p)), (decide (id = ep_urr2 p)).
Qed.

(** A frame that is dropped by its rules or has no rule is charged to nobody: [not_permitted_dropped], [no_rule_passes_untouched]. *)

(** The control plane never stores a URR id in an entry. *)
Definition no_urrs (d : dp) : Prop :=
  (map_Forall (fun _ p => ep_urr1 p = 0%N /\ ep_urr2 p = 0%N) (d_up d)) /\
  (map_Forall (fun _ p => ep_urr1 p = 0%N /\ ep_urr2 p = 0%N) (d_dn4 d)) /\
  (map_Forall (fun _ p => ep_urr1 p = 0%N /\ ep_urr2 p = 0%N) (d_dn6 d)).

Lemma stored_no_urrs m k p : ep_urr1 (pdr_to_store m k p) = 0%N /\ ep_urr2 (pdr_to_store m k p) = 0%N.
Proof. unfold pdr_to_store, combine_pdr_with_sdf. destruct (pr_sdf p); [|done]. by destruct (m !! k). Qed.
Lemma hash_put_no_urrs k v m max m' : hash_put k v m max = Some m' ->
  map_Forall (fun _ p => ep_urr1 p = 0%N /\ ep_urr2 p = 0%N) m -> ep_urr1 v = 0%N /\ ep_urr2 v = 0%N ->
  map_Forall (fun _ p => ep_urr1 p = 0%N /\ ep_urr2 p = 0%N) m'.
Proof. unfold hash_put. intros H Hm Hv. repeat case_match; simplify_eq; by apply map_Forall_insert_2. Qed.
Lemma hash_delete_no_urrs k m m' : hash_delete k m = Some m' ->
  map_Forall (fun _ p => ep_urr1 p = 0%N /\ ep_urr2 p = 0%N) m -> map_Forall (fun _ p => ep_urr1 p = 0%N /\ ep_urr2 p = 0%N) m'.
Proof. unfold hash_delete. intros H Hm. repeat case_match; simplify_eq; by apply map_Forall_delete. Qed.

Lemma pstep_no_urrs x y : pstep x y -> no_urrs (fst x) -> no_urrs (fst y).
Proof.
  destruct 1; simpl; auto; intros (H1 & H2 & H3); unfold no_urrs.
  - unfold new_far. repeat case_match; done.
  - unfold update_far. repeat case_match; done.
  - unfold delete_far, update_far. repeat case_match; done.
  - unfold new_qer. repeat case_match; done.
  - unfold update_qer. repeat case_match; done.
  - unfold delete_qer, update_qer. repeat case_match; done.
  - unfold new_urr. repeat case_match; done.
  - unfold update_urr. repeat case_match; done.
  - unfold delete_urr, update_urr. repeat case_match; simplify_eq; simpl; done.
  - unfold apply_pdr, put_pdr_downlink, put_pdr_ip6, put_pdr_uplink.
    repeat case_match; simpl; split_and!; try done; eapply hash_put_no_urrs; try done; apply stored_no_urrs.
  - unfold delete_pdr_uplink. repeat case_match; simpl; split_and!; try done. by eapply hash_delete_no_urrs.
  - unfold delete_pdr_downlink. repeat case_match; simpl; split_and!; try done. by eapply hash_delete_no_urrs.
  - unfold delete_pdr_ip6. repeat case_match; simpl; split_and!; try done. by eapply hash_delete_no_urrs.
Qed.

Lemma reachable_no_urrs c : reachable c -> no_urrs (c_dp c).
Proof.
  intros H. apply (reachable_inv (fun x => no_urrs (fst x)) c); [|apply pstep_no_urrs|done].
  intros. split_and!; simpl; apply map_Forall_empty.
Qed.

(** What the UPF does instead of C21: whatever URRs the PDRs name, in every state that signalling can lead to every forwarded packet is
    charged twice to URR 0 and to no other. *)
Theorem charged_to_urr0_partial :
  forall c e f p r far q v s, reachable c -> env_ok e -> rule_for e (c_dp c) f = Some (p, r) ->
    permitted e (dir_of e f) (N.of_nat (length f)) (c_dp c) r = Some (far, q) -> no_ping e f ->
    xdp e f (c_dp c) = Some (v, s) ->
    forall id u, urr_get (c_dp c) id = Some u ->
      urr_get (x_dp s) id =
      Some (let n := N.of_nat (length f) in
            if decide (id = 0%N) then counted (dir_of e f) n (counted (dir_of e f) n u) else u).
Proof.
  intros c e f p r far q v s Hc He Hr Hp Hn H id u Hu.
  pose proof (entry_urrs_charged e (c_dp c) f p r far q v s He Hr Hp Hn H id u Hu) as E.
  destruct (reachable_no_urrs c Hc) as (H1 & H2 & H3).
  assert (ep_urr1 p = 0%N /\ ep_urr2 p = 0%N) as [U1 U2].
  { unfold rule_for in Hr. destruct (entry e (c_dp c) f) as [p0|] eqn:Ee; [|done].
    assert (p0 = p) as -> by (destruct (select p0 _); by simplify_eq).
    unfold entry in Ee. destruct (gpdu e f); [by apply (H1 _ _ Ee)|]. destruct (down4 e f); [by apply (H2 _ _ Ee)|].
    destruct (down6 f); [by apply (H3 _ _ Ee)|done]. }
  rewrite U1, U2 in E. rewrite E. cbv zeta. by destruct (decide (id = 0%N)).
Qed.

(** A session whose only PDR (TEID 256) names URR 4, stored under id 1: traffic of that PDR is not counted there. *)
Definition ex_urr_pdr : pdr_ie :=
  PdrIe (Some 1%N) (Some 0%N) (Some 1%N) None [4%N] (Some (PdiIe true (Good (FteidIe 256 false None)) Absent)) None.
Definition ex_urr_history : list event := [ex_setup; ex_recv 2 (ex_est_of [ex_urr_pdr] [Some 3; Some 4]%N)].
Theorem traffic_charged_refuted :
  exists c l s u pd, ex_start ex_urr_history = Some (c, l) /\ reachable c /\ session_of c 7 2 = Some s /\
    s_urrs s !! 4%N = Some u /\ s_pdrs s !! 1%N = Some pd /\ pr_urr1 (sd_info pd) = su_gid u /\ sd_teid pd = 256%N /\
    gpdu ex_env ex_up = true /\ be_value (teid ex_up) = 256%N /\
    exists st, xdp ex_env ex_up (c_dp c) = Some (REDIRECT 7, st) /\
      urr_get (c_dp c) (su_gid u) = Some (Urr 0 0) /\ urr_get (x_dp st) (su_gid u) = Some (Urr 0 0).
Proof.
  destruct (ex_runs_inv ex_urr_history (fun c =>
    ex_has_session c 7 2 (fun s =>
      match s_urrs s !! 4%N, s_pdrs s !! 1%N with
      | Some u, Some pd => bool_decide (pr_urr1 (sd_info pd) = su_gid u) && bool_decide (sd_teid pd = 256%N) &&
          match xdp ex_env ex_up (c_dp c) with
          | Some (REDIRECT i, st) => bool_decide (i = 7%N) && bool_decide (urr_get (c_dp c) (su_gid u) = Some (Urr 0 0)) &&
                                     bool_decide (urr_get (x_dp st) (su_gid u) = Some (Urr 0 0))
          | _ => false
          end
      | _, _ => false
      end))) as (c & l & Hc & H); [by vm_compute|].
  apply ex_has_session_inv in H as (s & Hs & H).
  destruct (s_urrs s !! 4%N) as [u|] eqn:Eu; [|done]. destruct (s_pdrs s !! 1%N) as [pd|] eqn:Ep; [|done].
  apply andb_true_iff in H as [H H3]. apply andb_true_iff in H as [H1 H2]. apply bool_decide_eq_true in H1, H2.
  destruct (xdp ex_env ex_up (c_dp c)) as [[v st]|] eqn:Ex; [|done].
  destruct v as [| | | |i]; try done. apply andb_true_iff in H3 as [H3 H5]. apply andb_true_iff in H3 as [H3 H4].
  apply bool_decide_eq_true in H3, H4, H5. subst i.
  exists c, l, s, u, pd. split; [done|]. split. { eapply ex_start_reachable; [|exact Hc]. repeat constructor; apply id_shuffle_fair. }
  split; [done|]. split; [done|]. split; [done|]. split; [done|]. split; [done|]. split; [by vm_compute|]. split; [by vm_compute|].
  by exists st.
Qed.

(** ** C59 *)
(** Two data plane states that agree on everything that concerns direction [w]. *)
Record agree (w : dir) (d d' : dp) : Prop := {
  ag_up : d_up d = d_up d'; ag_dn4 : d_dn4 d = d_dn4 d'; ag_dn6 : d_dn6 d = d_dn6 d';
  ag_far : forall i, far_get d i = far_get d' i;
  ag_qer : forall i, match qer_get d i, qer_get d' i with
                     | Some q, Some q' => gate w q = gate w q' /\ rate w q = rate w q' /\ start w q = start w q' /\
                                          (w = Downlink -> qi_qfi q = qi_qfi q')
                     | None, None => True
                     | _, _ => False
                     end }.

Lemma agree_rule w e d d' f : agree w d d' -> rule_for e d f = rule_for e d' f.
Proof. intros [H1 H2 H3 _ _]. unfold rule_for, entry. by rewrite H1, H2, H3. Qed.
Lemma agree_permitted w e size d d' r : agree w d d' ->
  match permitted e w size d r, permitted e w size d' r with
  | Some (far, q), Some (far', q') => far = far' /\ gate w q = gate w q' /\ rate w q = rate w q' /\ start w q = start w q' /\
                                      (w = Downlink -> qi_qfi q = qi_qfi q')
  | None, None => True
  | _, _ => False
  end.
Proof.
  intros [_ _ _ Hf Hq]. unfold permitted. rewrite <- (Hf (r_far r)). destruct (far_get d (r_far r)) as [far|]; [|done].
  specialize (Hq (r_qer r)). destruct (qer_get d (r_qer r)) as [q|], (qer_get d' (r_qer r)) as [q'|]; try done.
  destruct Hq as (Hg & Hr & Hs & Hi). unfold gate_open, in_rate. rewrite Hg, Hr, Hs. by destruct (_ && _).
Qed.

Lemma urr_add_agree w id ul dl d d' : agree w d d' -> agree w (urr_add id ul dl d) d'.
Proof. intros H. unfold urr_add. destruct (urr_get d id); [|done]. destruct H. by split. Qed.
Lemma agree_sym w d d' : agree w d d' -> agree w d' d.
Proof.
  intros [H1 H2 H3 H4 H5]. split; try done. intros i. specialize (H5 i).
  destruct (qer_get d i), (qer_get d' i); try done. destruct H5 as (? & ? & ? & ?). split_and!; try done. intros ?. symmetry. auto.
Qed.
Lemma agree_refl w d : agree w d d.
Proof. split; try done. intros i. by destruct (qer_get d i). Qed.
Lemma qer_insert d i q j : (i < d_qer_size d)%N ->
  qer_get (set_qer (<[i := q]> (d_qer d)) d) j = if decide (j = i) then Some q else qer_get d j.
Proof. intros Hi. unfold qer_get. simpl. by apply arr_get_insert. Qed.
Lemma permitted_qer e w size d r far q : permitted e w size d r = Some (far, q) ->
  qer_get d (r_qer r) = Some q /\ (r_qer r < d_qer_size d)%N.
Proof.
  unfold permitted. destruct (far_get d (r_far r)); [|done]. destruct (qer_get d (r_qer r)) as [q0|] eqn:E; [|done].
  destruct (_ && _); [|done]. intros [= <- <-]. split; [done|]. unfold qer_get, arr_get in E. by destruct (N.ltb_spec (r_qer r) (d_qer_size d)).
Qed.

Lemma account_agree w e size p r d d' far q far' q' : agree w d d' ->
  permitted e w size d r = Some (far, q) -> permitted e w size d' r = Some (far', q') ->
  agree w (account e w size p r q d) (account e w size p r q' d').
Proof.
  intros Ha Hp Hp'. pose proof (agree_permitted w e size d d' r Ha) as H. rewrite Hp, Hp' in H. destruct H as (_ & Hg & Hr & Hs & Hi).
  destruct (permitted_qer _ _ _ _ _ _ _ Hp) as [_ Hb]. destruct (permitted_qer _ _ _ _ _ _ _ Hp') as [_ Hb'].
  unfold account. destruct (volume w size) as [ul dl]. do 2 apply urr_add_agree. apply agree_sym. do 2 apply urr_add_agree. apply agree_sym.
  unfold mark. rewrite <- Hr, <- Hs. destruct (rate w q =? 0)%N; [done|]. destruct Ha as [H1 H2 H3 H4 H5].
  split; try done. intros i. rewrite !qer_insert by done. destruct (decide (i = r_qer r)) as [->|]; [|apply H5].
  destruct w; simpl in *; by rewrite ?Hg, ?Hr, ?Hs.
Qed.

(** What happens to a packet depends only on the gate, rate and limiter state of its own direction, and keeps doing so. *)
Theorem direction_independent :
  forall e f d d', env_ok e -> echo_request e f = false -> no_ping e f -> agree (dir_of e f) d d' ->
    match xdp e f d, xdp e f d' with
    | Some (v, s), Some (v', s') => v = v' /\ x_f s = x_f s' /\ x_log s = x_log s' /\ agree (dir_of e f) (x_dp s) (x_dp s')
    | _, _ => False
    end.
Proof.
  intros e f d d' He Hq Hn Ha. pose proof (agree_rule _ e d d' f Ha) as Hr.
  destruct (rule_for e d f) as [[p r]|] eqn:Hr1.
  2: { rewrite (no_rule_passes_untouched e d f), (no_rule_passes_untouched e d' f) by done. done. }
  symmetry in Hr. pose proof (agree_permitted _ e (N.of_nat (length f)) d d' r Ha) as Hp.
  destruct (permitted e (dir_of e f) (N.of_nat (length f)) d r) as [[far q]|] eqn:Hp1.
  2: { destruct (permitted e (dir_of e f) (N.of_nat (length f)) d' r) as [[far' q']|] eqn:Hp2; [done|].
       rewrite (not_permitted_dropped e d f p r), (not_permitted_dropped e d' f p r) by done. done. }
  destruct (permitted e (dir_of e f) (N.of_nat (length f)) d' r) as [[far' q']|] eqn:Hp2; [|done].
  destruct Hp as (<- & _ & _ & _ & Hqfi).
  pose proof (account_agree _ e (N.of_nat (length f)) p r d d' far q far q' Ha Hp1 Hp2) as Hag.
  unfold dir_of in *. destruct (gpdu e f) eqn:Hg.
  - rewrite (xdp_uplink e d f p r far q) by (try done; by apply Hn).
    rewrite (xdp_uplink e d' f p r far q') by (try done; by apply Hn).
    by destruct (uplink_result e f far (r_ohr r)) as [[v0 g] c].
  - rewrite (xdp_downlink e d f p r far q), (xdp_downlink e d' f p r far q') by done. cbv zeta.
    rewrite <- (Hqfi eq_refl). destruct (e_head e); [|done]. by destruct (routed e true _) as [[v0 g0] c0].
Qed.

(** Uplink traffic leaves the downlink gates, rates and limiters alone, and vice versa. *)
Definition opposite (w : dir) : dir := match w with Uplink => Downlink | Downlink => Uplink end.
Theorem other_direction_untouched :
  forall e f d v s, env_ok e -> echo_request e f = false -> no_ping e f -> xdp e f d = Some (v, s) ->
    agree (opposite (dir_of e f)) d (x_dp s).
Proof.
  intros e f d v s He Hq Hn H. destruct (rule_for e d f) as [[p r]|] eqn:Hr.
  2: { rewrite (no_rule_passes_untouched e d f) in H by done. simplify_eq. apply agree_refl. }
  destruct (permitted e (dir_of e f) (N.of_nat (length f)) d r) as [[far q]|] eqn:Hp.
  2: { rewrite (not_permitted_dropped e d f p r) in H by done. simplify_eq. apply agree_refl. }
  rewrite (permitted_state e d f p r far q v s) by done. destruct (permitted_qer _ _ _ _ _ _ _ Hp) as [Hg Hb].
  unfold account. destruct (volume _ _) as [ul dl]. apply agree_sym. do 2 apply urr_add_agree. apply agree_sym.
  unfold mark. destruct (rate _ q =? 0)%N; [apply agree_refl|]. split; try done. intros i. rewrite qer_insert by done.
  destruct (decide (i = r_qer r)) as [->|]; [|by destruct (qer_get d i)]. rewrite Hg. by destruct (dir_of e f).
Qed.

Example ex_direction : echo_request ex_env ex_up = false /\ no_ping ex_env ex_up /\ dir_of ex_env ex_up = Uplink /\
  dir_of ex_env ex_down = Downlink /\ no_ping ex_env ex_down.
Proof.
  split; [by vm_compute|]. split.
  - intros _ far ohr. unfold pings_upf. destruct (kind far ohr); [done| |done]. by vm_compute.
  - split; [by vm_compute|]. split; [by vm_compute|]. intros H. by vm_compute in H.
Qed.

(** ** C58 *)
(** Where a PDR applies (key, direction) and the frames it can apply to. *)
Definition addressed (e : env) (s : spdr) (f : list N) : Prop :=
  match sd_v4 s, sd_v6 s with
  | Some a, _ => gpdu e f = false /\ down4 e f = true /\ be_value (dst4 f) = a
  | None, Some a => gpdu e f = false /\ down4 e f = false /\ down6 f = true /\ be_value (dst6 f) = a
  | None, None => gpdu e f = true /\ be_value (teid f) = sd_teid s
  end.

Lemma hash_put_lookup k v m max m' : hash_put k v m max = Some m' -> m' = <[k := v]> m.
Proof. unfold hash_put. intros H. repeat case_match; by simplify_eq. Qed.

(** Before the installation, frames for the key had the default rule of the entry [p0]; afterwards those that match the filter have
    the rule of the new PDR, the others keep theirs.  Frames for other keys are unaffected. *)
Theorem sdf_beside_default :
  forall e d d' s flt f p0 b,
    apply_pdr s d = (true, d') -> pr_sdf (sd_info s) = Some flt ->
    addressed e s f -> entry e d f = Some p0 ->
    matches e (ep_filter_of flt) f = Some b ->
    (ep_mode p0 = 0%N -> rule_for e d f = Some (p0, default_rule p0)) /\
    exists p1, rule_for e d' f =
      Some (p1, if b then Rule (pr_far (sd_info s)) (pr_qer (sd_info s)) (pr_ohr (sd_info s)) else default_rule p0).
Proof.
  intros e d d' s flt f p0 b Ha Hs Had He Hm. split. { intros H0. unfold rule_for, select. by rewrite He, H0. }
  unfold apply_pdr, addressed in *. unfold rule_for.
  assert (Hst : forall m k, m !! k = Some p0 -> pdr_to_store m k (sd_info s) =
    EpPdr (ep_far p0) (ep_qer p0) 0 0 (ep_ohr p0) 2 (EpRules (ep_filter_of flt) (pr_ohr (sd_info s)) (pr_far (sd_info s)) (pr_qer (sd_info s)) 0 0)).
  { intros m k Hk. unfold pdr_to_store, combine_pdr_with_sdf. by rewrite Hs, Hk. }
  set (p1 := EpPdr (ep_far p0) (ep_qer p0) 0 0 (ep_ohr p0) 2 (EpRules (ep_filter_of flt) (pr_ohr (sd_info s)) (pr_far (sd_info s)) (pr_qer (sd_info s)) 0 0)) in *.
  assert (He' : entry e d' f = Some p1).
  { unfold entry in *. destruct (sd_v4 s) as [a|]; [|destruct (sd_v6 s) as [a|]].
    - destruct Had as (Hg & H4 & Hk). rewrite Hg, H4 in *. unfold put_pdr_downlink in Ha.
      destruct (hash_put _ _ _ _) as [m|] eqn:E; [|done]. simplify_eq. apply hash_put_lookup in E as ->. simpl. rewrite lookup_insert. f_equal. by apply Hst.
    - destruct Had as (Hg & H4 & H6 & Hk). rewrite Hg, H4, H6 in *. unfold put_pdr_ip6 in Ha.
      destruct (hash_put _ _ _ _) as [m|] eqn:E; [|done]. simplify_eq. apply hash_put_lookup in E as ->. simpl. rewrite lookup_insert. f_equal. by apply Hst.
    - destruct Had as (Hg & Hk). rewrite Hg in *. unfold put_pdr_uplink in Ha. rewrite Hk in *.
      destruct (hash_put _ _ _ _) as [m|] eqn:E; [|done]. simplify_eq. apply hash_put_lookup in E as ->. simpl. rewrite lookup_insert. f_equal. by apply Hst. }
  rewrite He'. exists p1. unfold p1 at 2. cbn [ep_rules_ er_filter]. rewrite Hm. unfold select, p1. cbn [ep_mode]. by destruct b.
Qed.

Theorem sdf_other_keys :
  forall e d d' s f, apply_pdr s d = (true, d') -> ~ addressed e s f -> rule_for e d' f = rule_for e d f.
Proof.
  intros e d d' s f Ha Hn. unfold rule_for. replace (entry e d' f) with (entry e d f); [done|].
  unfold apply_pdr, addressed, entry, put_pdr_downlink, put_pdr_ip6, put_pdr_uplink in *.
  destruct (sd_v4 s) as [a|]; [|destruct (sd_v6 s) as [a|]]; (destruct (hash_put _ _ _ _) as [m|] eqn:E; [|done]); simplify_eq;
    apply hash_put_lookup in E as ->; simpl; destruct (gpdu e f), (down4 e f), (down6 f); try done;
    symmetry; apply lookup_insert_ne; intros Heq; apply Hn; auto.
Qed.

(** A PDR without filter replaces everything installed for its key before, filters included: the rules of a key depend on the order in
    which its PDRs arrive. *)
Lemma default_put e d d' s f : apply_pdr s d = (true, d') -> pr_sdf (sd_info s) = None -> addressed e s f ->
  exists p1, rule_for e d' f = Some (p1, Rule (pr_far (sd_info s)) (pr_qer (sd_info s)) (pr_ohr (sd_info s))).
Proof.
  intros Ha Hs Had. unfold apply_pdr, addressed in *.
  assert (Hst : forall m k, pdr_to_store m k (sd_info s) = to_entrypoint (sd_info s)) by (intros m k; unfold pdr_to_store; by rewrite Hs).
  exists (to_entrypoint (sd_info s)). unfold rule_for.
  assert (He : entry e d' f = Some (to_entrypoint (sd_info s))).
  { unfold entry. destruct (sd_v4 s) as [a|]; [|destruct (sd_v6 s) as [a|]].
    - destruct Had as (Hg & H4 & Hk). rewrite Hg, H4. unfold put_pdr_downlink in Ha.
      destruct (hash_put _ _ _ _) as [m|] eqn:E; [|done]. simplify_eq. apply hash_put_lookup in E as ->. simpl. rewrite lookup_insert. f_equal. by apply Hst.
    - destruct Had as (Hg & H4 & H6 & Hk). rewrite Hg, H4, H6. unfold put_pdr_ip6 in Ha.
      destruct (hash_put _ _ _ _) as [m|] eqn:E; [|done]. simplify_eq. apply hash_put_lookup in E as ->. simpl. rewrite lookup_insert. f_equal. by apply Hst.
    - destruct Had as (Hg & Hk). rewrite Hg. unfold put_pdr_uplink in Ha. rewrite Hk.
      destruct (hash_put _ _ _ _) as [m|] eqn:E; [|done]. simplify_eq. apply hash_put_lookup in E as ->. simpl. rewrite lookup_insert. f_equal. by apply Hst. }
  by rewrite He.
Qed.

(** C61.  Concretely: default PDR (FAR 1) and SDF PDR (FAR 2, "permit out ip from any to any") for TEID 256. *)
Definition ex_any : sdf_filter := Sdf 1 any_addr all_ports any_addr all_ports.
Definition ex_default : spdr := Spdr 1 (PdrReq 0 1 0 0 0 None) 256 None None false.
Definition ex_sdf : spdr := Spdr 2 (PdrReq 0 2 0 0 0 (Some ex_any)) 256 None None false.
Definition ex_rule (d : dp) : option rule := option_map snd (rule_for ex_env d ex_up).
(** C58 applies to them. *)
Example ex_sdf_beside_default :
  (apply_pdr ex_sdf (snd (apply_pdr ex_default (dp_init 8 8 8 8)))).1 = true /\ addressed ex_env ex_sdf ex_up /\
  entry ex_env (snd (apply_pdr ex_default (dp_init 8 8 8 8))) ex_up = Some (EpPdr 1 0 0 0 0 0 ep_rules0) /\
  matches ex_env (ep_filter_of ex_any) ex_up = Some true.
Proof. split; [by vm_compute|]. split; [split; by vm_compute|]. split; by vm_compute. Qed.
Theorem install_order_refuted :
  ~ forall d s1 s2 d1 d12 d2 d21,
      apply_pdr s1 d = (true, d1) -> apply_pdr s2 d1 = (true, d12) ->
      apply_pdr s2 d = (true, d2) -> apply_pdr s1 d2 = (true, d21) ->
      forall e f, option_map snd (rule_for e d12 f) = option_map snd (rule_for e d21 f).
Proof.
  intros H.
  pose proof (H (dp_init 8 8 8 8) ex_default ex_sdf (snd (apply_pdr ex_default (dp_init 8 8 8 8)))
    (snd (apply_pdr ex_sdf (snd (apply_pdr ex_default (dp_init 8 8 8 8))))) (snd (apply_pdr ex_sdf (dp_init 8 8 8 8)))
    (snd (apply_pdr ex_default (snd (apply_pdr ex_sdf (dp_init 8 8 8 8))))) ltac:(reflexivity) ltac:(reflexivity) ltac:(reflexivity) ltac:(reflexivity) ex_env ex_up) as E.
  by vm_compute in E.
Qed.

(** ** C30, spelled out *)
Theorem no_session_untouched :
  forall e d f, echo_request e f = false ->
    (ethertype f <> 2048%N /\ ethertype f <> 34525%N \/                                    (* not IP *)
     gpdu e f = true /\ d_up d !! be_value (teid f) = None \/                                (* no PDR for the TEID *)
     gpdu e f = false /\ d_dn4 d !! be_value (dst4 f) = None /\ d_dn6 d !! be_value (dst6 f) = None \/  (* nor for the address *)
     (exists p, entry e d f = Some p /\ ep_mode p = 1%N /\ matches e (er_filter (ep_rules_ p)) f <> Some true)) -> (* filter does not match *)
    xdp e f d = Some (PASS, Xst f d (rx_counters e f ++ [action 2])).
Proof.
  intros e d f Hq H. apply no_rule_passes_untouched; [|done]. unfold rule_for.
  destruct H as [[H4 H6]|[[Hg Hn]|[(Hg & H4 & H6)|(p & Hp & Hm & Hf)]]].
  - assert (is_ip4 f = false) as I4 by (unfold is_ip4; by apply N.eqb_neq in H4 as ->).
    assert (is_ip6 f = false) as I6 by (unfold is_ip6; by apply N.eqb_neq in H6 as ->).
    unfold entry, gpdu, down4, down6, gtpu. by rewrite I4, I6.
  - unfold entry. by rewrite Hg, Hn.
  - unfold entry. rewrite Hg, H4, H6. by destruct (down4 e f), (down6 f).
  - rewrite Hp. unfold select. rewrite Hm. by destruct (matches _ _ _) as [[]|].
Qed.

(** [ex_any] is what the parser makes of the text. *)
From Coq Require Import String.
Example ex_any_text : parse_sdf (str "permit out ip from any to any"%string) = Some ex_any.
Proof. by vm_compute. Qed.
