(** C81: which of the PDRs installed for a tunnel or a UE address handles a packet, for every sequence of installations and removals.
    C82: fragments. C84: IP protocols. *)
From Verif Require Import Base IdTracker ResourceManager SdfParser SdfProps MapOps SdfMatch Pfcp PfcpProps PfcpHistory PfcpReach PfcpRules PfcpCreate PfcpRemove
  Qer Csum Xdp XdpBase XdpProps XdpRules XdpFrames XdpEcho XdpEx XdpAccount Maps EndToEnd.
Open Scope nat_scope.

(** ** Specification *)

(** What the control plane does to the tables of PDRs. *)
Inductive change := Install (s : spdr) | Remove (s : spdr).
Definition change_dp (c : change) (d : dp) : bool * dp :=
  match c with Install s => apply_pdr s d | Remove s => remove_pdr (spdr_key s) d end.
Fixpoint changes (l : list change) (d : dp) : option dp :=
  match l with
  | [] => Some d
  | c :: l => match change_dp c d with (true, d') => changes l d' | (false, _) => None end
  end.

Global Instance addressed_dec e s f : Decision (addressed e s f).
Proof. unfold addressed. destruct (sd_v4 s), (sd_v6 s); apply _. Defined.

(** The PDRs installed for the packet's tunnel or address and not removed since, the latest first. *)
Fixpoint standing (e : env) (f : list N) (l : list change) (acc : list spdr) : list spdr :=
  match l with
  | [] => acc
  | Install s :: l => standing e f l (if decide (addressed e s f) then s :: acc else acc)
  | Remove s :: l => standing e f l (if decide (addressed e s f) then [] else acc)
  end.

Definition rule_of (s : spdr) : rule := Rule (pr_far (sd_info s)) (pr_qer (sd_info s)) (pr_ohr (sd_info s)).
(** Does the packet match the PDR?  One without filter matches everything. *)
Definition applies (e : env) (s : spdr) (f : list N) : option bool :=
  match pr_sdf (sd_info s) with None => Some true | Some flt => matches e (ep_filter_of flt) f end.
Definition unfiltered (s : spdr) : bool := match pr_sdf (sd_info s) with None => true | Some _ => false end.
(** Rule of the latest PDR without filter; [Rule 0 0 0] if there is none. *)
Fixpoint fallback (l : list spdr) : rule :=
  match l with [] => Rule 0 0 0 | s :: l => if unfiltered s then rule_of s else fallback l end.

(** What the code does: the latest PDR if the packet matches it, otherwise the fallback of the older ones, if there are any. *)
Definition chosen (e : env) (f : list N) (l : list spdr) : option rule :=
  match l with
  | [] => None
  | s :: older =>
    match applies e s f with
    | None => None
    | Some true => Some (rule_of s)
    | Some false => match older with [] => None | _ :: _ => Some (fallback older) end
    end
  end.

(** ** Proofs *)
Fixpoint built (l : list spdr) : option ep_pdr :=
  match l with
  | [] => None
  | s :: l => Some (match pr_sdf (sd_info s) with None => to_entrypoint (sd_info s) | Some flt => combine_pdr_with_sdf (built l) flt (sd_info s) end)
  end.

Lemma install_entry e d d' s f : apply_pdr s d = (true, d') -> addressed e s f ->
  entry e d' f = Some (match pr_sdf (sd_info s) with None => to_entrypoint (sd_info s) | Some flt => combine_pdr_with_sdf (entry e d f) flt (sd_info s) end).
Proof.
  intros Ha Had. unfold apply_pdr, addressed, entry in *. destruct (sd_v4 s) as [a|]; [|destruct (sd_v6 s) as [a|]].
  - destruct Had as (Hg & H4 & Hk). rewrite Hg, H4. unfold put_pdr_downlink in Ha.
    destruct (hash_put _ _ _ _) as [m|] eqn:E; [|done]. simplify_eq. apply hash_put_lookup in E as ->. simpl. by rewrite lookup_insert.
  - destruct Had as (Hg & H4 & H6 & Hk). rewrite Hg, H4, H6. unfold put_pdr_ip6 in Ha.
    destruct (hash_put _ _ _ _) as [m|] eqn:E; [|done]. simplify_eq. apply hash_put_lookup in E as ->. simpl. by rewrite lookup_insert.
  - destruct Had as (Hg & Hk). rewrite Hg. unfold put_pdr_uplink in Ha. rewrite Hk.
    destruct (hash_put _ _ _ _) as [m|] eqn:E; [|done]. simplify_eq. apply hash_put_lookup in E as ->. simpl. by rewrite lookup_insert.
Qed.
Lemma install_other e d d' s f : apply_pdr s d = (true, d') -> ~ addressed e s f -> entry e d' f = entry e d f.
Proof.
  intros Ha Hn. unfold apply_pdr, addressed, entry, put_pdr_downlink, put_pdr_ip6, put_pdr_uplink in *.
  destruct (sd_v4 s) as [a|]; [|destruct (sd_v6 s) as [a|]]; (destruct (hash_put _ _ _ _) as [m|] eqn:E; [|done]); simplify_eq;
    apply hash_put_lookup in E as ->; simpl; destruct (gpdu e f), (down4 e f), (down6 f); try done;
    apply lookup_insert_ne; intros Heq; apply Hn; auto.
Qed.
Lemma hash_delete_lookup k (m m' : gmap N ep_pdr) : hash_delete k m = Some m' -> m' = delete k m.
Proof. unfold hash_delete. intros H. repeat case_match; by simplify_eq. Qed.
Lemma remove_entry e d d' s f : remove_pdr (spdr_key s) d = (true, d') -> addressed e s f -> entry e d' f = None.
Proof.
  intros Ha Had. unfold remove_pdr, spdr_key, addressed, entry in *. destruct (sd_v4 s) as [a|]; [|destruct (sd_v6 s) as [a|]].
  - destruct Had as (Hg & H4 & Hk). rewrite Hg, H4. unfold delete_pdr_downlink in Ha.
    destruct (hash_delete _ _) as [m|] eqn:E; [|done]. simplify_eq. apply hash_delete_lookup in E as ->. simpl. apply lookup_delete.
  - destruct Had as (Hg & H4 & H6 & Hk). rewrite Hg, H4, H6. unfold delete_pdr_ip6 in Ha.
    destruct (hash_delete _ _) as [m|] eqn:E; [|done]. simplify_eq. apply hash_delete_lookup in E as ->. simpl. apply lookup_delete.
  - destruct Had as (Hg & Hk). rewrite Hg. unfold delete_pdr_uplink in Ha. rewrite Hk.
    destruct (hash_delete _ _) as [m|] eqn:E; [|done]. simplify_eq. apply hash_delete_lookup in E as ->. simpl. apply lookup_delete.
Qed.
Lemma remove_other e d d' s f : remove_pdr (spdr_key s) d = (true, d') -> ~ addressed e s f -> entry e d' f = entry e d f.
Proof.
  intros Ha Hn. unfold remove_pdr, spdr_key, addressed, entry, delete_pdr_downlink, delete_pdr_ip6, delete_pdr_uplink in *.
  destruct (sd_v4 s) as [a|]; [|destruct (sd_v6 s) as [a|]]; (destruct (hash_delete _ _) as [m|] eqn:E; [|done]); simplify_eq;
    apply hash_delete_lookup in E as ->; simpl; destruct (gpdu e f), (down4 e f), (down6 f); try done;
    apply lookup_delete_ne; intros Heq; apply Hn; auto.
Qed.

Lemma changes_entry e f l : forall d d' acc, changes l d = Some d' -> entry e d f = built acc -> entry e d' f = built (standing e f l acc).
Proof.
  induction l as [|[s|s] l IH]; intros d d' acc H He; cbn [changes change_dp standing] in *; [by simplify_eq| |].
  - destruct (apply_pdr s d) as [[] d1] eqn:E; [|done]. apply (IH d1); [done|]. destruct (decide (addressed e s f)) as [Ha|Ha].
    + cbn [built]. rewrite <- He. by apply install_entry.
    + rewrite <- He. by apply (install_other e d d1 s f).
  - destruct (remove_pdr (spdr_key s) d) as [[] d1] eqn:E; [|done]. apply (IH d1); [done|]. destruct (decide (addressed e s f)) as [Ha|Ha].
    + by apply (remove_entry e d d1 s f).
    + rewrite <- He. by apply (remove_other e d d1 s f).
Qed.

Lemma built_default l p : built l = Some p -> default_rule p = fallback l.
Proof.
  revert p. induction l as [|s l IH]; intros p H; [done|]. cbn [built fallback] in *. unfold unfiltered. apply (inj Some) in H as <-.
  destruct (pr_sdf (sd_info s)) as [flt|]; [|done]. unfold combine_pdr_with_sdf. destruct (built l) as [q|] eqn:E.
  - rewrite <- (IH q eq_refl). done.
  - destruct l; done.
Qed.

(** For every sequence of installations and removals, on a tunnel or address that had no PDR before. *)
Theorem handled_by_exactly_partial :
  forall e d l d' f, entry e d f = None -> changes l d = Some d' ->
    option_map snd (rule_for e d' f) = chosen e f (standing e f l []).
Proof.
  intros e d l d' f He H. pose proof (changes_entry e f l d d' [] H He) as Hb. unfold rule_for. rewrite Hb.
  destruct (standing e f l []) as [|s older]; [done|]. cbn [built chosen]. unfold applies, select.
  destruct (pr_sdf (sd_info s)) as [flt|]; [|done]. unfold combine_pdr_with_sdf. destruct (built older) as [q|] eqn:E.
  - cbn [ep_mode ep_rules_ er_filter]. change (2 =? 0)%N with false. cbv iota.
    destruct (matches e (ep_filter_of flt) f) as [[]|]; [done| |done]. change (N.odd 2) with false. cbv iota. cbn [option_map snd].
    destruct older as [|s' older]; [done|]. f_equal. rewrite <- (built_default _ _ E). done.
  - destruct older; [|done]. cbn [ep_mode ep_rules_ er_filter]. by destruct (matches e (ep_filter_of flt) f) as [[]|].
Qed.

(** A packet whose headers can be read is handled iff it matches one of the PDRs, as long as at most one of them has a filter; then
    it is handled by the rule of a PDR that it matches.  More generally: if an unfiltered PDR stands below the latest. *)
Theorem handled_by_match_partial :
  forall e d l d' f p r, entry e d f = None -> changes l d = Some d' -> rule_for e d' f = Some (p, r) ->
    (length (standing e f l []) <= 1 \/ existsb unfiltered (standing e f l []) = true) ->
    exists s, s ∈ standing e f l [] /\ applies e s f = Some true /\ r = rule_of s.
Proof.
  intros e d l d' f p r He H Hr Hu. pose proof (handled_by_exactly_partial e d l d' f He H) as Hc. rewrite Hr in Hc. cbn [option_map snd] in Hc.
  destruct (standing e f l []) as [|s older]; [done|]. cbn [chosen] in Hc. destruct (applies e s f) as [[]|] eqn:Ha; [| |done].
  { apply (inj Some) in Hc as ->. exists s. split; [left|done]. }
  destruct older as [|s' older]; [done|]. apply (inj Some) in Hc as ->. cbn [length] in Hu. destruct Hu as [Hu|Hu]; [lia|].
  assert (unfiltered s = false) as Hs. { unfold applies, unfiltered in *. by destruct (pr_sdf (sd_info s)). }
  cbn [existsb] in Hu. rewrite Hs in Hu. cbn [orb] in Hu. change (unfiltered s' || existsb unfiltered older) with (existsb unfiltered (s' :: older)) in Hu.
  clear Hr H He Ha Hs. revert Hu. generalize (s' :: older). clear. intros l Hl.
  assert (exists x, x ∈ l /\ unfiltered x = true /\ fallback l = rule_of x) as (x & Hx & Hux & Hf).
  { induction l as [|y l IH]; [done|]. cbn [existsb fallback] in *. destruct (unfiltered y) eqn:E; [exists y; split; [left|done]|].
    destruct (IH Hl) as (x & ? & ? & ?). exists x. split; [by right|done]. }
  exists x. split; [by right|]. split; [|done]. unfold unfiltered, applies in *. by destruct (pr_sdf (sd_info x)).
Qed.
(** A packet whose headers can be read and that matches one of the PDRs is handled. *)
Theorem match_is_handled :
  forall e d l d' f s, entry e d f = None -> changes l d = Some d' ->
    (forall x, x ∈ standing e f l [] -> applies e x f <> None) ->
    s ∈ standing e f l [] -> applies e s f = Some true -> exists p r, rule_for e d' f = Some (p, r).
Proof.
  intros e d l d' f s He H Hp Hs Ha. pose proof (handled_by_exactly_partial e d l d' f He H) as Hc.
  destruct (rule_for e d' f) as [[p r]|]; [eauto|]. exfalso. cbn [option_map] in Hc.
  destruct (standing e f l []) as [|x older]; [by apply not_elem_of_nil in Hs|]. cbn [chosen] in Hc.
  destruct (applies e x f) as [[]|] eqn:Hx; [done| |].
  - destruct older; [|done]. apply elem_of_list_singleton in Hs as ->. congruence.
  - apply (Hp x); [left|done].
Qed.

(** ** Two filters *)
(** The same through PFCP: a session for TEID 256 whose PDRs permit only TCP, and only 9.9.9.9.  With the first alone a UDP
    datagram to 8.8.8.8 is not forwarded; with both it is, by the first FAR the UPF ever installed. *)
From Coq Require String.
Definition ex_pdr_text (id far : N) (t : list N) : pdr_ie :=
  PdrIe (Some id) (Some 0%N) (Some far) None [] (Some (PdiIe true (Good (FteidIe 256 false None)) Absent)) (Some t).
Section texts.
Import String.
Definition ex_tcp : pdr_ie := ex_pdr_text 1 1 (str "permit out tcp from any to any"%string).
Definition ex_nine : pdr_ie := ex_pdr_text 2 1 (str "permit out ip from 9.9.9.9 to any"%string).
End texts.

Theorem filters_bypassed_refuted :
  exists c l c1 r1 c2 r2, ex_start [ex_setup] = Some (c, l) /\ reachable c /\
    handle id_shuffle 7 2 (ex_est_of [ex_tcp] []) c = Done c1 (Some r1) /\ r_cause r1 = Some 1%N /\
    handle id_shuffle 7 2 (ex_est_of [ex_tcp; ex_nine] []) c = Done c2 (Some r2) /\ r_cause r2 = Some 1%N /\
    (forall t flt, t ∈ [ex_tcp; ex_nine] -> parse_sdf (default [] (pe_sdf t)) = Some flt -> matches ex_env (ep_filter_of flt) ex_up = Some false) /\
    (exists s, xdp ex_env ex_up (c_dp c1) = Some (PASS, s) /\ x_f s = ex_up) /\
    (exists s, xdp ex_env ex_up (c_dp c2) = Some (REDIRECT 7, s) /\ x_f s = [2; 0; 0; 0; 0; 77; 2; 0; 0; 0; 0; 1; 8; 0]%N ++ drop 58 ex_up).
Proof.
  pose (B := ex_runs [ex_setup] (fun c =>
    ex_accepts 1 (handle id_shuffle 7 2 (ex_est_of [ex_tcp] []) c) (fun c1 _ => out_is (xdp ex_env ex_up (c_dp c1)) PASS ex_up) &&
    ex_accepts 1 (handle id_shuffle 7 2 (ex_est_of [ex_tcp; ex_nine] []) c) (fun c2 _ =>
      out_is (xdp ex_env ex_up (c_dp c2)) (REDIRECT 7) ([2; 0; 0; 0; 0; 77; 2; 0; 0; 0; 0; 1; 8; 0]%N ++ drop 58 ex_up)))).
  assert (H : B = true) by (by vm_compute). unfold B in H.
  apply ex_runs_inv in H as (c & l & Hc & H). apply andb_true_iff in H as [H1 H2].
  apply ex_accepts_inv in H1 as (c1 & r1 & Hh1 & Hk1 & H1). apply ex_accepts_inv in H2 as (c2 & r2 & Hh2 & Hk2 & H2).
  apply out_is_ok in H1, H2. exists c, l, c1, r1, c2, r2. split; [exact Hc|].
  split. { eapply ex_start_reachable; [|exact Hc]. repeat constructor; apply id_shuffle_fair. }
  split; [exact Hh1|]. split; [exact Hk1|]. split; [exact Hh2|]. split; [exact Hk2|].
  split; [|split; [exact H1|exact H2]]. clear.
  intros t flt Ht Hp.
  assert (Hb : match parse_sdf (default [] (pe_sdf t)) with Some x => matches ex_env (ep_filter_of x) ex_up | None => None end = Some false).
  { apply elem_of_cons in Ht as [->|Ht]; [by vm_compute|]. apply elem_of_list_singleton in Ht as ->. by vm_compute. }
  rewrite Hp in Hb. exact Hb.
Qed.

(** The positive theorems are not vacuous: a PDR without filter below one with a filter, packets for another tunnel in between. *)
Example ex_standing :
  let l := [Install ex_default; Install (Spdr 3 (PdrReq 0 9 0 0 0 None) 300 None None false); Install ex_sdf; Remove (Spdr 3 (PdrReq 0 9 0 0 0 None) 300 None None false)] in
  entry ex_env (dp_init 8 8 8 8) ex_up = None /\ (exists d', changes l (dp_init 8 8 8 8) = Some d') /\
  standing ex_env ex_up l [] = [ex_sdf; ex_default] /\ applies ex_env ex_sdf ex_up = Some true /\
  chosen ex_env ex_up (standing ex_env ex_up l []) = Some (Rule 2 0 0) /\
  standing ex_env ex_up (l ++ [Remove ex_sdf]) [] = [].
Proof.
  intros l. split; [by vm_compute|]. split; [eexists; vm_compute; reflexivity|]. split; [by vm_compute|]. split; [by vm_compute|]. split; by vm_compute.
Qed.
