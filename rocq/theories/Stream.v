(** C107: two UPFs that got the same requests treat the same packets the same, one after the other, with maximum bit rates. *)
From Verif Require Import Base IdTracker ResourceManager SdfParser SdfProps MapOps SdfMatch Pfcp PfcpProps PfcpHistory PfcpReach
  PfcpRules PfcpCreate PfcpRemove PfcpReject PfcpInv PfcpAsked PfcpKeys PfcpUpdate Qer Csum Xdp XdpBase XdpProps XdpRules XdpFrames XdpEcho XdpEx XdpAccount
  EndToEnd EndToEndLog Ping Pong XdpRate RestWrites InFlight SdfAgain Forgets Neighbours Order.
Open Scope N_scope.

(** ** Specification *)

(** [d] is the data plane of a UPF after the requests and answers of [l] (tidy, C66), before the first packet. *)
Definition set_up (l : log) (d : dp) : Prop :=
  exists g rm p f q u es c, start_pools rm /\ Forall event_fair es /\ run (init g rm (dp_init p f q u)) es = Some (c, l) /\
    N.of_nat (List.length es) <= bound /\ tidy l = true /\ d = c_dp c /\ forall marks volumes, Traffic marks volumes ∉ es.
(** What becomes of the packets, one after the other, each in its environment (time, interface, route). *)
Fixpoint fates (d : dp) (fs : list (env * list N)) : list (option (verdict * list N)) :=
  match fs with
  | [] => []
  | (e, f) :: fs => fate (xdp e f d) :: match xdp e f d with Some (_, s) => fates (x_dp s) fs | None => [] end
  end.
(** All packets, and the answers to those that ping the UPF, have [P]. *)
Fixpoint all_along (P : env -> list N -> Prop) (d : dp) (fs : list (env * list N)) : Prop :=
  match fs with
  | [] => True
  | (e, f) :: fs => env_ok e /\ both_ways (P e) e d f /\ match xdp e f d with Some (_, s) => all_along P (x_dp s) fs | None => True end
  end.

(** ** Proof *)

(** *** Before the first packet the limiter remembers nothing *)
Definition blank (d : dp) : Prop := forall i q, d_qer d !! i = Some q -> qi_ul_start q = 0 /\ qi_dl_start q = 0.
Definition blankw (w : work) : Prop := blank (w_dp w).
Lemma blank_same d d' : d_qer d' = d_qer d -> blank d -> blank d'.
Proof. intros E H i q. rewrite E. apply H. Qed.
Lemma blank_put d i q : qi_ul_start q = 0 -> qi_dl_start q = 0 -> blank d -> blank (set_qer (<[i := q]> (d_qer d)) d).
Proof. intros H1 H2 H j q'. cbn. rewrite lookup_insert_Some. intros [[_ <-]|[_ Hj]]; [done|]. by eapply H. Qed.
Lemma blank_update i q d b d' : qi_ul_start q = 0 -> qi_dl_start q = 0 -> blank d -> update_qer i q d = (b, d') -> blank d'.
Proof. unfold update_qer. intros H1 H2 H E. destruct (_ <? _); injection E as _ <-; [|done]. by apply blank_put. Qed.
Lemma blank_delete i d b d' : blank d -> delete_qer i d = (b, d') -> blank d'.
Proof. unfold delete_qer. intros H E. eapply blank_update; [..|exact E]; done. Qed.
Lemma blank_new q d o d' : qi_ul_start q = 0 -> qi_dl_start q = 0 -> blank d -> new_qer q d = (o, d') -> blank d'.
Proof.
  unfold new_qer. intros H1 H2 H E. destruct (get_next (d_qert d)) as [[i|] t]; [|by injection E as _ <-]. cbv zeta in E.
  destruct (_ <? _); injection E as _ <-; [|done]. by apply (blank_put (set_qert t d)).
Qed.
Lemma apply_pdr_qer s d b d' : apply_pdr s d = (b, d') -> d_qer d' = d_qer d.
Proof. unfold apply_pdr, put_pdr_downlink, put_pdr_ip6, put_pdr_uplink. intros E. repeat (case_match; simplify_eq); done. Qed.
Lemma new_far_qer f d o d' : new_far f d = (o, d') -> d_qer d' = d_qer d.
Proof. unfold new_far. intros E. destruct (get_next (d_fart d)) as [[i|] t]; [|by injection E as _ <-]. cbv zeta in E. destruct (_ <? _); by injection E as _ <-. Qed.
Lemma update_far_qer i f d b d' : update_far i f d = (b, d') -> d_qer d' = d_qer d.
Proof. unfold update_far. intros E. destruct (_ <? _); by injection E as _ <-. Qed.
Lemma delete_far_qer i d b d' : delete_far i d = (b, d') -> d_qer d' = d_qer d.
Proof. unfold delete_far. intros E. by apply update_far_qer in E. Qed.
Lemma new_urr_qer f d o d' : new_urr f d = (o, d') -> d_qer d' = d_qer d.
Proof. unfold new_urr. intros E. destruct (get_next (d_urrt d)) as [[i|] t]; [|by injection E as _ <-]. cbv zeta in E. destruct (_ <? _); by injection E as _ <-. Qed.
Lemma update_urr_qer i f d b d' : update_urr i f d = (b, d') -> d_qer d' = d_qer d.
Proof. unfold update_urr. intros E. destruct (_ <? _); by injection E as _ <-. Qed.
Lemma delete_urr_qer i d o d' : delete_urr i d = (o, d') -> d_qer d' = d_qer d.
Proof.
  unfold delete_urr. intros E. destruct (urr_get d i); [|by injection E as _ <-]. cbv zeta in E. destruct (update_urr _ _ _) as [[|] d1] eqn:E1; injection E as _ <-; by apply update_urr_qer in E1.
Qed.
Lemma extract_pdr_dp ueip p s w o w' : extract_pdr ueip p s w = (o, w') -> w_dp w' = w_dp w.
Proof. unfold extract_pdr, get_fteid, get_ip. intros H. repeat (case_match; simplify_eq); done. Qed.

Lemma create_far_blank f w : blankw w -> ends (create_far f w) blankw.
Proof.
  unfold create_far, blankw. intros H. destruct (far_crash f); [done|]. destruct (compose_far f far0); [|done].
  destruct (new_far _ _) as [[g|] d] eqn:E; apply new_far_qer in E; cbn; by eapply blank_same.
Qed.
Lemma update_far_blank f w : blankw w -> ends (update_far_ie f w) blankw.
Proof.
  unfold update_far_ie, blankw. intros H. destruct (fa_id f); [|done]. destruct (far_crash f); [done|]. cbv zeta. destruct (compose_far _ _); [|done].
  destruct (update_far _ _ _) as [[|] d] eqn:E; apply update_far_qer in E; cbn in *; by eapply blank_same.
Qed.
Lemma remove_far_blank f w : blankw w -> ends (remove_far_ie f w) blankw.
Proof. unfold remove_far_ie, blankw. intros H. cbv zeta. destruct (delete_far _ _) as [[|] d] eqn:E; apply delete_far_qer in E; cbn in *; by eapply blank_same. Qed.
Lemma create_qer_blank q w : blankw w -> ends (create_qer q w) blankw.
Proof.
  unfold create_qer, blankw. intros H. destruct (qe_id q); [|done]. cbv zeta. destruct (new_qer _ _) as [[g|] d] eqn:E; apply blank_new in E; done.
Qed.
Lemma update_qer_blank q w : blankw w -> ends (update_qer_ie q w) blankw.
Proof. unfold update_qer_ie, blankw. intros H. destruct (qe_id q); [|done]. cbv zeta. destruct (update_qer _ _ _) as [[|] d] eqn:E; apply blank_update in E; done. Qed.
Lemma remove_qer_blank q w : blankw w -> ends (remove_qer_ie q w) blankw.
Proof. unfold remove_qer_ie, blankw. intros H. destruct (qe_id q); [|done]. cbv zeta. destruct (delete_qer _ _) as [[|] d] eqn:E; apply blank_delete in E; done. Qed.
Lemma create_urr_blank u w : blankw w -> ends (create_urr u w) blankw.
Proof. unfold create_urr, blankw. intros H. destruct u; [|done]. destruct (new_urr _ _) as [[g|] d] eqn:E; apply new_urr_qer in E; cbn; by eapply blank_same. Qed.
Lemma update_urr_blank u w : blankw w -> ends (update_urr_ie u w) blankw.
Proof. unfold update_urr_ie, blankw. intros H. destruct u; [|done]. cbv zeta. destruct (update_urr _ _ _) as [[|] d] eqn:E; apply update_urr_qer in E; cbn in *; by eapply blank_same. Qed.
Lemma remove_urr_blank u w : blankw w -> ends (remove_urr_ie u w) blankw.
Proof. unfold remove_urr_ie, blankw. intros H. destruct u; [|done]. cbv zeta. destruct (delete_urr _ _) as [[v|] d] eqn:E; apply delete_urr_qer in E; cbn in *; by eapply blank_same. Qed.
Lemma create_pdr_blank b p w : blankw w -> ends (create_pdr b p w) blankw.
Proof.
  unfold create_pdr, blankw. intros H. destruct (pe_id p); [|done]. destruct (extract_pdr _ _ _ w) as [[s|] w1] eqn:E; apply extract_pdr_dp in E; cbn; rewrite ?E; [|done].
  cbv zeta. destruct (apply_pdr _ _) as [[|] d] eqn:Ea; apply apply_pdr_qer in Ea; cbn in *; by eapply blank_same.
Qed.
Lemma update_pdr_blank b p w : blankw w -> ends (update_pdr_ie b p w) blankw.
Proof.
  unfold update_pdr_ie, blankw. intros H. destruct (pe_id p); [|done]. destruct (extract_pdr _ _ _ w) as [[s|] w1] eqn:E; apply extract_pdr_dp in E; cbn; rewrite ?E; [|done].
  cbv zeta. destruct (apply_pdr _ _) as [[|] d] eqn:Ea; apply apply_pdr_qer in Ea; cbn in *; by eapply blank_same.
Qed.
Lemma delete_pdr_blank sh s w : blankw w -> ends (delete_pdr sh s w) blankw.
Proof.
  unfold delete_pdr, delete_pdr_downlink, delete_pdr_ip6, delete_pdr_uplink, blankw. intros H. repeat (case_match; simplify_eq); cbn; try done; by eapply blank_same; [|exact H].
Qed.
Lemma remove_pdr_blank sh p w : blankw w -> ends (remove_pdr_ie sh p w) blankw.
Proof. unfold remove_pdr_ie. intros H. cbv zeta. destruct (s_pdrs _ !! _); [|done]. by apply delete_pdr_blank. Qed.
Lemma del_far_blank x w : blankw w -> ends (del_far x w) blankw.
Proof. unfold del_far, blankw. intros H. destruct (delete_far _ _) as [[|] d] eqn:E; apply delete_far_qer in E; cbn in *; by eapply blank_same. Qed.
Lemma del_qer_blank x w : blankw w -> ends (del_qer x w) blankw.
Proof. unfold del_qer, blankw. intros H. destruct (delete_qer _ _) as [[|] d] eqn:E; apply blank_delete in E; done. Qed.
Lemma del_urr_blank x w : blankw w -> ends (del_urr x w) blankw.
Proof. unfold del_urr, blankw. intros H. destruct (delete_urr _ _) as [[v|] d] eqn:E; apply delete_urr_qer in E; cbn in *; by eapply blank_same. Qed.
Lemma ign_blank {A} (f : A -> work -> res) x w : ends (f x w) blankw -> ends (ign f x w) blankw.
Proof. unfold ign. by destruct (f x w). Qed.
Lemma ends_bind (Q : work -> Prop) r k : ends r Q -> (forall w, Q w -> ends (k w) Q) -> ends (rbind r k) Q.
Proof. destruct r; cbn; auto. Qed.
Lemma est_blank b q w : blankw w -> ends (est_rules b q w) blankw.
Proof.
  intros H. unfold est_rules. repeat (apply ends_bind; [apply each_ends; [|done]|clear w H; intros w H]).
  - intros. by apply create_far_blank.
  - intros. by apply create_qer_blank.
  - intros. by apply create_urr_blank.
  - apply each_ends; [|done]. intros. by apply create_pdr_blank.
Qed.
Lemma mod_blank b sh q w : blankw w -> ends (mod_rules b sh q w) blankw.
Proof.
  intros H. unfold mod_rules. repeat (apply ends_bind; [apply each_ends; [|done]|clear w H; intros w H]).
  - intros. by apply create_far_blank.
  - intros. by apply update_far_blank.
  - intros. by apply remove_far_blank.
  - intros. by apply create_qer_blank.
  - intros. by apply update_qer_blank.
  - intros. by apply remove_qer_blank.
  - intros. by apply create_urr_blank.
  - intros. by apply update_urr_blank.
  - intros. by apply remove_urr_blank.
  - intros. by apply create_pdr_blank.
  - intros. by apply update_pdr_blank.
  - apply each_ends; [|done]. intros. by apply remove_pdr_blank.
Qed.
Lemma del_blank sh s w : blankw w -> ends (del_rules sh s w) blankw.
Proof.
  intros H. unfold del_rules. repeat (apply ends_bind; [apply each_ends; [|done]|clear w H; intros w H]).
  - intros. by apply delete_pdr_blank.
  - intros. by apply del_far_blank.
  - intros. by apply del_qer_blank.
  - apply each_ends; [|done]. intros. by apply del_urr_blank.
Qed.
Lemma prune_blank sh l : forall d rm d' rm', blank d -> prune_sessions sh l d rm = Some (d', rm') -> blank d'.
Proof.
  induction l as [|[n s] l IH]; intros d rm d' rm' H E; cbn [prune_sessions] in E; [by injection E as <- _|].
  destruct (prune_session sh s d rm) as [[d1 rm1]|] eqn:E1; [|done]. refine (IH _ _ _ _ _ E). clear IH E.
  unfold prune_session in E1.
  assert (Hx : ends (rbind (each (ign del_far) (entries sh 1 (s_fars s)) (new_work d s rm)) (fun w =>
    rbind (each (ign del_qer) (entries sh 2 (s_qers s)) w) (fun w => each (ign (fun e => delete_pdr sh (snd e))) (entries sh 0 (s_pdrs s)) w))) blankw).
  { assert (Hw : blankw (new_work d s rm)) by done. revert Hw. generalize (new_work d s rm). intros w Hw.
    repeat (apply ends_bind; [apply each_ends; [|done]|clear w Hw; intros w Hw]).
    - intros. apply ign_blank. by apply del_far_blank.
    - intros. apply ign_blank. by apply del_qer_blank.
    - apply each_ends; [|done]. intros. apply (ign_blank (fun e => delete_pdr sh (snd e))). by apply delete_pdr_blank. }
  destruct (rbind _ _); [| |done]; injection E1 as <- _; exact Hx.
Qed.
Lemma step_blank c e c' r : (forall marks volumes, e <> Traffic marks volumes) -> step c e = Done c' r -> blank (c_dp c) -> blank (c_dp c').
Proof.
  intros Hn H Hb. destruct e as [sh addr seq m|sh addr|marks vols]; [| |by edestruct Hn].
  - destruct m as [t|t|n t|n k f|n|q|q|seid|ty]; simpl in H.
    + unfold handle_hb_req in H. destruct t; simplify_eq; done.
    + unfold handle_hb_resp in H. destruct t; simplify_eq; done.
    + unfold handle_setup, ensure_assoc in H. repeat (case_match; simplify_eq); simplify_eq; done.
    + unfold handle_setup_resp, ensure_assoc in H. repeat (case_match; simplify_eq); simplify_eq; done.
    + unfold handle_update in H. repeat (case_match; simplify_eq); simplify_eq; done.
    + unfold handle_est in H. destruct (validate_request _ _) as [rem|]; simplify_eq; [|done]. destruct (c_assocs c !! addr) as [a|]; simplify_eq; [|done]. cbv zeta in H.
      destruct (existsb _ _); [done|].
      pose proof (est_blank (g_ueip (c_cfg c)) q (new_work (c_dp c) (new_session (next_seid a) rem) (c_rm c)) Hb) as E.
      destruct (est_rules _ _ _); simplify_eq; exact E.
    + unfold handle_mod in H. destruct (c_assocs c !! addr) as [a|]; simplify_eq; [|done]. destruct (a_sessions a !! _) as [s|]; simplify_eq; [|done]. cbv zeta in H.
      destruct (_ || _); [done|].
      pose proof (mod_blank (g_ueip (c_cfg c)) sh q (new_work (c_dp c) (match mq_fseid q with Good r => set_remote r s | _ => s end) (c_rm c)) Hb) as E.
      destruct (mod_rules _ _ _ _); simplify_eq; exact E.
    + unfold handle_del in H. destruct (c_assocs c !! addr) as [a|]; simplify_eq; [|done]. destruct (a_sessions a !! _) as [s|]; simplify_eq; [|done].
      pose proof (del_blank sh s (new_work (c_dp c) s (c_rm c)) Hb) as E. destruct (del_rules _ _ _); simplify_eq; exact E.
    + by simplify_eq.
  - simpl in H. unfold prune in H. destruct (c_assocs c !! addr) as [a|]; [|done]. destruct (prune_sessions _ _ _ _) as [[d rm]|] eqn:E; [|done]. simplify_eq.
    cbn. by eapply prune_blank.
Qed.
Lemma run_blank es : forall c c' l, (forall marks volumes, Traffic marks volumes ∉ es) -> run c es = Some (c', l) -> blank (c_dp c) -> blank (c_dp c').
Proof.
  induction es as [|e es IH]; intros c c' l Hn H Hb; simpl in H; [by simplify_eq|]. destruct (step c e) as [c1 r|] eqn:E; [|done].
  destruct (run c1 es) as [[c2 l2]|] eqn:E2; [|done]. simplify_eq. refine (IH _ _ _ _ E2 _).
  - intros m v Hx. apply (Hn m v). by right.
  - eapply step_blank; [|exact E|done]. intros m v ->. apply (Hn m v). by left.
Qed.

(** *** One pass through the rules, for the QER it is policed by *)
Global Instance dir_eq_dec : EqDecision dir.
Proof. solve_decision. Defined.
(** What the pass does to what the rules read of the QER. *)
Definition bump (e : env) (w : dir) (n : N) (far : option far_info) (x : option (N * N * N * N)) : option (N * N * N * N) :=
  match far, x with
  | Some fv, Some (g, rt, st, qfi) => if far_permits w fv && (g =? 0) && fst (limit_rate n st rt (now w e)) then Some (g, rt, snd (limit_rate n st rt (now w e)), qfi) else x
  | _, _ => x end.
Lemma leg_bump h : leg_ok h -> forall w i, read_qer w (h_after h) i =
  match rule_for (h_env h) (h_before h) (h_frame h) with
  | Some (p, r) => if decide (i = r_qer r /\ w = dir_of (h_env h) (h_frame h)) then bump (h_env h) w (h_size h) (far_get (h_before h) (r_far r)) (read_qer w (h_before h) i)
                   else read_qer w (h_before h) i
  | None => read_qer w (h_before h) i end.
Proof.
  intros Hk w i. destruct (leg_reads h Hk) as (_ & _ & L3). destruct h as [e f d v d']. unfold leg_ok, h_size in *. cbn [h_env h_frame h_before h_verdict h_after] in *.
  destruct (rule_for e d f) as [[p r]|] eqn:Hr; [|by rewrite Hk].
  destruct (decide _) as [[-> ->]|Hne].
  2: { apply L3. apply not_true_iff_false. intros (Hw & p1 & r1 & Hr1 & Hi)%of_qer_inv. cbn [h_env h_frame h_before] in *. rewrite Hr in Hr1. injection Hr1 as <- <-. by apply Hne. }
  clear L3. destruct (permitted e (dir_of e f) (N.of_nat (length f)) d r) as [[far q]|] eqn:Hp.
  - destruct (permitted_qer _ _ _ _ _ _ _ Hp) as [Eq Hb]. unfold permitted in Hp. unfold read_qer, bump. rewrite Eq in Hp |- *.
    destruct (far_get d (r_far r)) as [fv|]; [|done].
    destruct (_ && _) eqn:Ec in Hp; [|done]. clear Hp. unfold gate_open, in_rate in Ec. rewrite Ec. rewrite Hk.
    assert (G : forall id ul dl d, forall i, qer_get (urr_add id ul dl d) i = qer_get d i).
    { intros id ul dl d0 i. unfold urr_add. by destruct (urr_get d0 id). }
    unfold account. destruct (volume _ _) as [ul dl]. rewrite !G. clear G Ec. unfold mark. destruct (rate (dir_of e f) q =? 0) eqn:E0.
    + rewrite Eq. unfold limit_rate. by rewrite E0.
    + rewrite qer_insert by done. rewrite decide_True by done. by destruct (dir_of e f).
  - assert (Hd : d' = d) by (by destruct Hk). rewrite Hd. unfold permitted in Hp. unfold read_qer, bump. destruct (far_get d (r_far r)) as [fv|]; [|done]. destruct (qer_get d (r_qer r)) as [q|]; [|done].
    unfold gate_open, in_rate in Hp. by destruct (_ && _).
Qed.

(** *** The two UPFs *)
(** What is known of each of the two. *)
Record side (l : log) (c : conn) : Prop := {
  sd_after : after l (c_dp c);
  sd_keyed : keyed (pdrs_in l) c;
  sd_follows : follows (asked_in l) c;
  sd_mirror : mirror qer_kind c;
  sd_policed : all_policed l;
  sd_blank : blank (c_dp c) }.
Lemma set_up_side l d : set_up l d -> complete l -> exists c, d = c_dp c /\ side l c.
Proof.
  intros (g & rm & p & f & q & u & es & c & Hrm & Hfair & Hrun & Hb & Ht & -> & Hn) Hc. exists c. split; [done|].
  destruct (tidy_run _ _ _ _ _ _ _ _ _ Hrm Hfair Hrun Hb Ht) as (HC & HF & HK). constructor; try done.
  - exists g, rm, p, f, q, u, es, c. by split_and!; try done; constructor.
  - by apply careful_mirror.
  - intros a n i x Hx. by destruct (Hc _ _ _ _ Hx).
  - eapply run_blank; [exact Hn|exact Hrun|]. intros i x. cbn. by rewrite lookup_empty.
Qed.
(** The QER a rule polices with, by the names the control plane has for it. *)
Definition named (c : conn) (gid : N) (x : N * N * N) : Prop :=
  let '(a, n, h) := x in exists s q, session_of c a n = Some s /\ s_qers s !! h = Some q /\ sq_gid q = gid.
Lemma named_one c gid x y : mirror qer_kind c -> named c gid x -> named c gid y -> x = y.
Proof.
  intros [_ Hinj]. destruct x as [[a n] h], y as [[a' n'] h']. intros (s & q & S1 & Q1 & G1) (s' & q' & S2 & Q2 & G2).
  destruct (Hinj a n s h gid (rule_of_qer (sq_info q)) a' n' s' h' (rule_of_qer (sq_info q')) S1 S2) as (<- & <- & <-); [..|done].
  - cbn [qer_kind ktab]. rewrite lookup_fmap, Q1. cbn. by rewrite G1.
  - cbn [qer_kind ktab]. rewrite lookup_fmap, Q2. cbn. by rewrite G2.
Qed.
Lemma named_gid c gid gid' x : named c gid x -> named c gid' x -> gid = gid'.
Proof. destruct x as [[a n] h]. intros (s & q & S1 & Q1 & G1) (s' & q' & S2 & Q2 & G2). congruence. Qed.
Lemma asked_owned l c a n i ask : keyed (pdrs_in l) c -> pdr_asked l a n i = Some ask ->
  exists s p, session_of c a n = Some s /\ s_pdrs s !! i = Some p /\ spdr_key p = ak_key ask.
Proof.
  intros K H. unfold pdr_asked in H. destruct (pdrs_in l !! (a, n)) as [pm|] eqn:E; [|done]. cbn in H.
  destruct (kd_live _ _ K _ _ _ E) as [s Hs]. destruct (kd_ses _ _ K _ _ _ Hs) as (pm' & E' & HA). assert (pm' = pm) as -> by congruence.
  destruct (agreeing_r _ _ _ _ _ _ HA H) as (p & Hp & Hag). exists s, p. split_and!; try done. by apply (PfcpKeys.ag_key _ _ _ _ Hag).
Qed.
Lemma one_asked l c a n i ask a' n' i' ask' : keyed (pdrs_in l) c -> pdr_asked l a n i = Some ask -> pdr_asked l a' n' i' = Some ask' ->
  ak_key ask = ak_key ask' -> a = a' /\ n = n' /\ ask = ask'.
Proof.
  intros K H H' Hk. destruct (asked_owned _ _ _ _ _ _ K H) as (s & p & S1 & P1 & K1), (asked_owned _ _ _ _ _ _ K H') as (s' & p' & S2 & P2 & K2).
  destruct (kd_one _ _ K _ _ _ _ _ _ _ _ _ _ S1 P1 S2 P2 ltac:(congruence)) as (<- & <- & <-). split; [done|]. split; [done|]. congruence.
Qed.
(** The rules the two have for a packet. *)
Definition twins (c c' : conn) (r r' : rule) : Prop :=
  r_ohr r' = r_ohr r /\ far_get (c_dp c') (r_far r') = far_get (c_dp c) (r_far r) /\ exists x, named c (r_qer r) x /\ named c' (r_qer r') x.
Lemma rules_twin l l' c c' e f p r : side l c -> side l' c' -> asked_in l' = asked_in l -> pdrs_in l' = pdrs_in l -> complete l -> ~ captured l e f ->
  rule_for e (c_dp c) f = Some (p, r) -> exists p' r', rule_for e (c_dp c') f = Some (p', r') /\ twins c c' r r'.
Proof.
  intros [A K F M P _] [A' K' F' M' P' _] HQ HP Hc Hn Hr.
  assert (HPa : forall a n i, pdr_asked l' a n i = pdr_asked l a n i) by (intros a n i; unfold pdr_asked; by rewrite HP).
  assert (Hn' : ~ captured l' e f). { intros (a & n & i & x & Hx & H). apply Hn. exists a, n, i, x. split; [|done]. by rewrite <- HPa. }
  destruct (rule_policed l c (c_dp c) e f p r K (packets_nil _) P Hr Hn) as (a & n & h & s & q & (i & ask & Hask & Hap & Hh) & S1 & Q1 & G1).
  destruct (applied_rule l (c_dp c) e f a n i ask A Hask Hap) as (p1 & r1 & Hr1 & Ho1 & Hf1 & _). assert (r1 = r) as -> by congruence. clear Hr1.
  destruct (applied_rule l' (c_dp c') e f a n i ask A' ltac:(by rewrite HPa) Hap) as (p' & r' & Hr' & Ho' & Hf' & _).
  exists p', r'. split; [done|]. split; [congruence|].
  destruct (Hc _ _ _ _ Hask) as [[j Hj] _]. destruct (Hf1 j Hj) as (v & Hv & Hg), (Hf' j Hj) as (v' & Hv' & Hg'). 
  assert (v' = v) as -> by (unfold asked_far in *; rewrite HQ in Hv'; congruence). split; [congruence|].
  destruct (rule_policed l' c' (c_dp c') e f p' r' K' (packets_nil _) P' Hr' Hn') as (a' & n' & h' & s' & q' & (i' & ask' & Hask' & Hap' & Hh') & S2 & Q2 & G2).
  rewrite HPa in Hask'. destruct (one_asked l c a n i ask a' n' i' ask' K Hask Hask') as (<- & <- & <-).
  { destruct Hap as [E1 _], Hap' as [E2 _]. congruence. }
  assert (h' = h) as -> by congruence. exists (a, n, h). split; [by exists s, q|by exists s', q'].
Qed.
Lemma twin_rules l l' c c' e f : side l c -> side l' c' -> asked_in l' = asked_in l -> pdrs_in l' = pdrs_in l -> complete l -> ~ captured l e f ->
  match rule_for e (c_dp c) f, rule_for e (c_dp c') f with
  | None, None => True | Some (_, r), Some (_, r') => twins c c' r r' | _, _ => False end.
Proof.
  intros D D' HQ HP Hc Hn. destruct (rule_for e (c_dp c) f) as [[p r]|] eqn:Hr.
  { destruct (rules_twin l l' c c' e f p r D D' HQ HP Hc Hn Hr) as (p' & r' & -> & H). exact H. }
  destruct (rule_for e (c_dp c') f) as [[p' r']|] eqn:Hr'; [|done].
  destruct (rules_twin l' l c' c e f p' r' D' D) as (p & r & Hx & _); [done|done|..|done|congruence].
  - intros a n i x Hx. eapply Hc. unfold pdr_asked in *. by rewrite <- HP.
  - intros (a & n & i & x & Hx & H). apply Hn. exists a, n, i, x. split; [|done]. unfold pdr_asked in *. by rewrite <- HP.
Qed.

(** The data planes are in step: every QER reads the same on both. *)
Record sync (c c' : conn) (d d' : dp) : Prop := {
  sy_entry : forall e g, entry e d g = entry e (c_dp c) g;
  sy_entry' : forall e g, entry e d' g = entry e (c_dp c') g;
  sy_far : forall i, far_get d i = far_get (c_dp c) i;
  sy_far' : forall i, far_get d' i = far_get (c_dp c') i;
  sy_qer : forall x w i i', named c i x -> named c' i' x -> read_qer w d i = read_qer w d' i' }.
Lemma read_rest d g v w : blank d -> rule_of_qer <$> qer_get d g = Some v ->
  read_qer w d g = Some (match w with Uplink => ql_ul_gate v | Downlink => ql_dl_gate v end, ql_rate w v, 0, ql_qfi v).
Proof.
  intros Hb H. unfold read_qer. destruct (qer_get d g) as [q|] eqn:E; [|done]. apply (inj Some) in H. subst v.
  assert (Hq : qi_ul_start q = 0 /\ qi_dl_start q = 0).
  { unfold qer_get, arr_get in E. destruct (g <? d_qer_size d); [|done]. destruct (d_qer d !! g) as [q1|] eqn:E1; [|by injection E as <-]. injection E as <-. by eapply Hb. }
  destruct Hq as [H1 H2]. by destruct w; cbn; rewrite ?H1, ?H2.
Qed.
Lemma sync_start l l' c c' : side l c -> side l' c' -> asked_in l' = asked_in l -> sync c c' (c_dp c) (c_dp c').
Proof.
  intros [_ _ F [M _] _ B] [_ _ F' [M' _] _ B'] HQ. constructor; try done.
  intros [[a n] h] w i i' (s & q & S1 & Q1 & <-) (s' & q' & S2 & Q2 & <-).
  destruct (M a n s h (sq_gid q) (rule_of_qer (sq_info q)) S1) as [V1 _]; [cbn [qer_kind ktab]; by rewrite lookup_fmap, Q1|].
  destruct (M' a n s' h (sq_gid q') (rule_of_qer (sq_info q')) S2) as [V2 _]; [cbn [qer_kind ktab]; by rewrite lookup_fmap, Q2|].
  cbn [qer_kind kget kv] in V1, V2. rewrite (read_rest _ _ _ w B V1), (read_rest _ _ _ w B' V2).
  pose proof (F _ _ _ S1) as E1. pose proof (F' _ _ _ S2) as E2. rewrite HQ, E1 in E2. injection E2 as _ E2.
  assert (Hx : qers_of s !! h = qers_of s' !! h) by (by rewrite E2). unfold qers_of in Hx. rewrite !lookup_fmap, Q1, Q2 in Hx. apply (inj Some) in Hx. by rewrite Hx.
Qed.
Lemma sync_rules l l' c c' d d' e f : side l c -> side l' c' -> asked_in l' = asked_in l -> pdrs_in l' = pdrs_in l -> complete l -> ~ captured l e f -> sync c c' d d' ->
  match rule_for e d f, rule_for e d' f with
  | None, None => True | Some (_, r), Some (_, r') => twins c c' r r' | _, _ => False end.
Proof.
  intros D D' HQ HP Hc Hn [E E' _ _ _]. rewrite (entry_rule e (c_dp c) d f (E e f)), (entry_rule e (c_dp c') d' f (E' e f)). by eapply twin_rules.
Qed.
Lemma sync_decision l l' c c' d d' e f : side l c -> side l' c' -> asked_in l' = asked_in l -> pdrs_in l' = pdrs_in l -> complete l -> ~ captured l e f -> sync c c' d d' ->
  decision e d' f = decision e d f.
Proof.
  intros D D' HQ HP Hc Hn Hy. pose proof (sync_rules l l' c c' d d' e f D D' HQ HP Hc Hn Hy) as T. destruct Hy as [_ _ Y Y' Z]. unfold decision.
  destruct (rule_for e d f) as [[p r]|], (rule_for e d' f) as [[p' r']|]; try done. destruct T as (T1 & T2 & x & N1 & N2). specialize (Z x (dir_of e f) _ _ N1 N2).
  unfold permitted. rewrite Y, Y', T2, T1. unfold read_qer in Z. destruct (far_get (c_dp c) (r_far r)) as [far|]; [|done].
  destruct (qer_get d (r_qer r)) as [q|], (qer_get d' (r_qer r')) as [q'|]; try done. injection Z as E1 E2 E3 E4. unfold gate_open, in_rate. rewrite <- E1, <- E2, <- E3.
  destruct (_ && _); [by rewrite E4|done].
Qed.
(** One pass through the rules on both. *)
Lemma sync_leg l l' c c' h h' : side l c -> side l' c' -> asked_in l' = asked_in l -> pdrs_in l' = pdrs_in l -> complete l ->
  h_env h' = h_env h -> h_frame h' = h_frame h -> ~ captured l (h_env h) (h_frame h) -> leg_ok h -> leg_ok h' ->
  sync c c' (h_before h) (h_before h') -> sync c c' (h_after h) (h_after h').
Proof.
  intros D D' HQ HP Hc He Hf Hn Hk Hk' Hy. destruct (leg_reads h Hk) as (L1 & L2 & _), (leg_reads h' Hk') as (L1' & L2' & _).
  pose proof (sync_rules l l' c c' _ _ _ _ D D' HQ HP Hc Hn Hy) as T. destruct Hy as [E E' Y Y' Z]. constructor.
  - intros e g. by rewrite L1.
  - intros e g. by rewrite L1'.
  - intros i. by rewrite L2.
  - intros i. by rewrite L2'.
  - intros x w i i' N1 N2. rewrite (leg_bump h Hk), (leg_bump h' Hk'). unfold h_size. rewrite He, Hf.
    destruct (rule_for (h_env h) (h_before h) (h_frame h)) as [[p r]|], (rule_for (h_env h) (h_before h') (h_frame h)) as [[p' r']|]; try done; [|by eapply Z].
    destruct T as (T1 & T2 & y & M1 & M2). rewrite Y, Y', T2, (Z x w i i' N1 N2).
    assert (Hi : i = r_qer r <-> i' = r_qer r').
    { split; intros ->.
      - assert (x = y) as -> by (eapply named_one; [apply D|done|done]). by eapply named_gid.
      - assert (x = y) as -> by (eapply named_one; [apply D'|done|done]). by eapply named_gid. }
    destruct (decide (i = r_qer r /\ _)) as [[H1 H2]|H1], (decide (i' = r_qer r' /\ _)) as [[H3 H4]|H3]; try done; tauto.
Qed.
Lemma answer_decided e d d' f : decision e d' f = decision e d f -> fst <$> answer_of e d' f = fst <$> answer_of e d f.
Proof.
  unfold decision, answer_of. destruct (rule_for e d f) as [[p r]|], (rule_for e d' f) as [[p' r']|]; try done. intros H. injection H as H.
  destruct (permitted _ _ _ d r) as [[far q]|], (permitted _ _ _ d' r') as [[far' q']|]; try done. apply (inj Some) in H. injection H as -> _ ->.
  by destruct (_ && _).
Qed.
(** A packet, and the maps after the first of its (at most two) passes through the rules. *)
Lemma packet_legs h : processed h ->
  match answer_of (h_env h) (h_before h) (h_frame h) with
  | Some (g, d1) => leg_ok (Handled (h_env h) (h_frame h) (h_before h) (h_verdict h) d1) /\ leg_ok (Handled (h_env h) g d1 (h_verdict h) (h_after h))
  | None => leg_ok h end.
Proof.
  intros Hp. destruct (answer_of (h_env h) (h_before h) (h_frame h)) as [[g d1]|] eqn:Ha; [|by apply processed_leg].
  destruct (answer_inv _ _ _ _ Ha) as (p & r & far & q & Hr & Hpm).
  pose proof Hp as (He & s & Hx & Hs). pose proof (xdp_legs _ _ _ p r far q He Hr Hpm) as K. rewrite Ha in K. destruct K as (Hg & Hd1 & H4 & _ & Ho). split.
  - unfold leg_ok, h_size. cbn [h_env h_frame h_before h_verdict h_after]. rewrite Hr, Hpm. rewrite Hd1. unfold dir_of. by rewrite Hg.
  - apply processed_leg; [|cbn [h_env h_before h_frame]; by apply answer_last].
    split; [done|]. cbn [h_env h_frame h_before h_verdict h_after]. rewrite Hx in Ho. destruct (xdp (h_env h) g d1) as [[v' s']|]; [|done].
    cbn [outcome] in Ho. injection Ho as -> _ Hd. exists s'. split; [done|]. by rewrite <- Hd.
Qed.
Lemma sync_packet l l' c c' d d' e f : side l c -> side l' c' -> asked_in l' = asked_in l -> pdrs_in l' = pdrs_in l -> complete l -> env_ok e ->
  both_ways (fun g => ~ captured l e g) e d f -> sync c c' d d' ->
  fate (xdp e f d') = fate (xdp e f d) /\
  forall v s v' s', xdp e f d = Some (v, s) -> xdp e f d' = Some (v', s') -> sync c c' (x_dp s) (x_dp s').
Proof.
  intros D D' HQ HP Hc He [Hn Ha] Hy. split.
  { apply packet_depends_on_decision; [done|by eapply (sync_decision l l' c c')|]. intros g d1 Hg. eapply (sync_decision l l' c c'); try done. by eapply Ha. }
  intros v s v' s' Hx Hx'. pose proof (answer_decided e d d' f) as Hd. specialize (Hd ltac:(by eapply (sync_decision l l' c c'))).
  assert (P1 : processed (Handled e f d v (x_dp s))) by (split; [done|by exists s]). assert (P2 : processed (Handled e f d' v' (x_dp s'))) by (split; [done|by exists s']).
  apply packet_legs in P1, P2. cbn [h_env h_frame h_before h_verdict h_after] in P1, P2.
  destruct (answer_of e d f) as [[g d1]|] eqn:Hg, (answer_of e d' f) as [[g' d1']|] eqn:Hg'; try done.
  - cbn in Hd. injection Hd as ->. destruct P1 as [K1 K2], P2 as [K1' K2'].
    assert (Y1 : sync c c' d1 d1') by (refine (sync_leg l l' c c' _ _ D D' HQ HP Hc _ _ _ K1 K1' Hy); done).
    refine (sync_leg l l' c c' _ _ D D' HQ HP Hc _ _ _ K2 K2' Y1); try done. by eapply Ha.
  - refine (sync_leg l l' c c' _ _ D D' HQ HP Hc _ _ _ P1 P2 Hy); done.
Qed.

(** ** C107 *)
Theorem same_packets_same_fate_partial :
  forall l l' d d' fs, set_up l d -> set_up l' d' -> Forall2 same_exchange l l' -> complete l ->
    all_along (fun e g => ~ captured l e g) d fs -> fates d' fs = fates d fs.
Proof.
  intros l l' d d' fs Hd Hd' Hl Hc Hall. destruct (exchanges_same _ _ Hl) as [HQ HP].
  assert (Hc' : complete l'). { intros a n i x Hx. eapply Hc. unfold pdr_asked in *. by rewrite <- HP. }
  destruct (set_up_side l d Hd Hc) as (c & -> & D), (set_up_side l' d' Hd' Hc') as (c' & -> & D'). clear Hd Hd' Hl Hc'.
  pose proof (sync_start l l' c c' D D' HQ) as Hy0. enough (G : forall d d', sync c c' d d' -> all_along (fun e g => ~ captured l e g) d fs -> fates d' fs = fates d fs) by (by apply G). clear Hy0 Hall.
  induction fs as [|[e f] fs IH]; intros d d' Hy Ha; [done|]. cbn [all_along fates] in *. destruct Ha as (He & Hb & Ha).
  destruct (sync_packet l l' c c' d d' e f D D' HQ HP Hc He Hb Hy) as [Hf Hn]. rewrite Hf. f_equal.
  destruct (xdp e f d) as [[v s]|] eqn:Ex, (xdp e f d') as [[v' s']|] eqn:Ex'; try done. apply IH; [|done]. by eapply Hn.
Qed.

(** ** The hypotheses are met: two subscribers with 100 kbit/s, the second packet of the first comes too soon *)
Definition ex_slow_other : qer_ie := QerIe (Some 2) (Some 0) (Some 0) (Some 100) (Some 100) (Some 8).
Definition ex_slow_two (fars : list far_ie) (qers : list qer_ie) (pdrs : list pdr_ie) : list event :=
  [ex_setup; ex_recv 2 (SessEstReq (EstReq (Good 5) (Good 100) fars qers [] pdrs))].
Definition ex_slow_one_way : list event := ex_slow_two [ex_both_far_dl; ex_both_far_ul] [ex_slow_qer; ex_slow_other] [ex_dl 1 171704321 1 1; ex_dl 3 171704330 1 2].
Definition ex_slow_other_way : list event := ex_slow_two [ex_both_far_ul; ex_both_far_dl] [ex_slow_other; ex_slow_qer] [ex_dl 3 171704330 1 2; ex_dl 1 171704321 1 1].
Definition ex_stream : list (env * list N) := [(ex_env, ex_down); (ex_env, ex_down)].
Lemma set_up_start es c l : ex_start es = Some (c, l) -> Forall event_fair es -> (N.of_nat (List.length es) <=? bound) = true -> tidy l = true ->
  forallb (fun e => match e with Traffic _ _ => false | _ => true end) es = true -> set_up l (c_dp c).
Proof.
  intros Hc Hf Hb Ht Hn. exists ex_cfg, ex_small_rm, 8%N, 8%N, 8%N, 8%N, es, c.
  split; [right; by exists 8%N, 167837696%N, 29%N|]. split; [exact Hf|]. split; [exact Hc|]. clear Hc. split; [by apply N.leb_le|]. split; [exact Ht|]. split; [reflexivity|].
  intros m v Hx. rewrite forallb_forall in Hn. by apply elem_of_list_In, Hn in Hx.
Qed.
Example ex_same_stream : exists l l' d d', set_up l d /\ set_up l' d' /\ l' <> l /\ Forall2 same_exchange l l' /\ complete l /\
  all_along (fun e g => ~ captured l e g) d ex_stream /\ exists i g g', fates d ex_stream = [Some (REDIRECT i, g); Some (DROP, g')].
Proof.
  assert (H : match ex_start ex_slow_one_way, ex_start ex_slow_other_way with
    | Some (c, l), Some (c', l') => tidy l && tidy l' && answers_same_b l l' && complete_b l && negb (captured_b l ex_env ex_down) && down_only ex_env ex_down &&
        match ex_out (xdp ex_env ex_down (c_dp c)) with Some (true, d) => match ex_out (xdp ex_env ex_down d) with Some (false, _) => true | _ => false end | _ => false end
    | _, _ => false end = true) by (vm_compute; reflexivity).
  destruct (ex_start ex_slow_one_way) as [[c l]|] eqn:Ec; [|discriminate H]. destruct (ex_start ex_slow_other_way) as [[c' l']|] eqn:Ec'; [|discriminate H].
  rewrite !andb_true_iff in H. destruct H as ((((((H1 & H2) & H3) & H4%complete_b_ok) & H5%negb_true_iff) & H6) & H7).
  assert (Hne : l' <> l).
  { pose proof (proj2 (run_length _ _ _ _ Ec)) as A. pose proof (proj2 (run_length _ _ _ _ Ec')) as B. clear -A B. intros ->. rewrite A in B. discriminate B. }
  assert (Hx : Forall2 same_exchange l l').
  { refine (exchanges_from _ _ _ _ _ _ Ec Ec' _ H3). clear. apply Forall2_cons. split; [split; [reflexivity|split; [reflexivity|exact I]]|].
    apply Forall2_cons. split; [|by apply Forall2_nil].
    split; [reflexivity|]. split; [|exact I]. split; [reflexivity|]. split; [reflexivity|]. split; [apply swapped; discriminate|]. split; [apply swapped; discriminate|].
    split; [apply same_order; reflexivity|]. apply swapped; discriminate. }
  pose proof (set_up_start _ _ _ Ec ltac:(repeat constructor; apply id_shuffle_fair) eq_refl H1 eq_refl) as A1. clear Ec.
  pose proof (set_up_start _ _ _ Ec' ltac:(repeat constructor; apply id_shuffle_fair) eq_refl H2 eq_refl) as A2. clear Ec'.
  exists l, l', (c_dp c), (c_dp c'). split; [exact A1|]. split; [exact A2|]. split; [exact Hne|]. split; [exact Hx|]. split; [exact H4|].
  destruct (ex_out (xdp ex_env ex_down (c_dp c))) as [[[] d0]|] eqn:E1; [|discriminate H7..]. apply ex_out_inv in E1 as (v & s & X1 & D1 & i & ->).
  subst d0. destruct (ex_out (xdp ex_env ex_down (x_dp s))) as [[[] d1]|] eqn:E2; [discriminate H7| |discriminate H7]. apply ex_out_inv in E2 as (v' & s' & X2 & _ & ->).
  pose proof (captured_b_ok _ _ _ H5) as Hc. clear H1 H2 H3 H5 H7 A1 A2 Hne Hx H4. split.
  - unfold ex_stream. cbn [all_along]. rewrite X1, X2.
    assert (Hb : forall d, both_ways (fun g => ~ captured l ex_env g) ex_env d ex_down).
    { intros d. split; [exact Hc|]. intros g d1' Hg. rewrite (down_only_answer _ _ _ H6) in Hg. discriminate Hg. }
    split; [exact ex_env_ok|]. split; [apply Hb|]. split; [exact ex_env_ok|]. split; [apply Hb|exact I].
  - exists i, (x_f s), (x_f s'). unfold ex_stream. cbn [fates]. rewrite X1, X2. reflexivity.
Qed.
