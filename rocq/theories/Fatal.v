(** Exactly which message ends the process, and that nothing else does (C106). *)
From Verif Require Import Base IdTracker ResourceManager SdfParser MapOps Pfcp PfcpProps PfcpHistory Heartbeat Deletion Whole.
Open Scope N_scope.

(** ** Specification: what is fatal *)

(** A FAR whose Apply Action is empty or whose Forwarding Parameters cannot be decoded (pfcp_session_handlers.go:568-604). *)
Definition broken_far (f : far_ie) : Prop := fa_apply f = Some [] \/ fa_fwd f = Some Bad.
(** A PDR whose PDI has no Source Interface (display_utils.go). *)
Definition broken_pdr (p : pdr_ie) : Prop := exists d, pe_pdi p = Some d /\ pi_src d = false.

(** What the UPF would answer to [m] in this state. *)
Definition would_accept (sh : shuffle) (addr seq : N) (m : msg) (c : conn) : Prop :=
  exists c' r, handle sh addr seq m c = Done c' (Some r) /\ r_cause r = Some 1.

(** The request with no other rules than these FARs (to create, to update). *)
Definition est_fars (q : est_req) (l : list far_ie) : msg := SessEstReq (EstReq (eq_node q) (eq_fseid q) l [] [] []).
Definition mod_fars (q : mod_req) (l l' : list far_ie) : msg := SessModReq (ModReq (mq_seid q) (mq_fseid q) l l' [] [] [] [] [] [] [] [] [] []).

(** Fatal: a heartbeat without Recovery Time Stamp; an Establishment Request of an associated peer, with Node ID and F-SEID, or a Modification
    Request for an established session, one of whose PDRs (to create or update) has no Source Interface, or that has a broken FAR to create or to
    update, and whose FARs before that one would be accepted. *)
Inductive fatal (sh : shuffle) (addr seq : N) (c : conn) : msg -> Prop :=
| FatalHbReq : fatal sh addr seq c (HeartbeatReq Absent)
| FatalHbResp : fatal sh addr seq c (HeartbeatResp Absent)
| FatalEstPdr q a n s p : c_assocs c !! addr = Some a -> eq_node q = Good n -> eq_fseid q = Good s ->
    p ∈ eq_pdrs q -> broken_pdr p -> fatal sh addr seq c (SessEstReq q)
| FatalEstFar q a n s l1 f l2 : c_assocs c !! addr = Some a -> eq_node q = Good n -> eq_fseid q = Good s ->
    eq_fars q = l1 ++ f :: l2 -> broken_far f -> would_accept sh addr seq (est_fars q l1) c -> fatal sh addr seq c (SessEstReq q)
| FatalModPdr q s p : session_of c addr (mq_seid q) = Some s ->
    p ∈ mq_cpdr q ++ mq_updr q -> broken_pdr p -> fatal sh addr seq c (SessModReq q)
| FatalModCreate q s l1 f l2 : session_of c addr (mq_seid q) = Some s ->
    mq_cfar q = l1 ++ f :: l2 -> broken_far f -> would_accept sh addr seq (mod_fars q l1 []) c -> fatal sh addr seq c (SessModReq q)
| FatalModUpdate q s l1 f l2 : session_of c addr (mq_seid q) = Some s ->
    mq_ufar q = l1 ++ f :: l2 -> fa_id f <> None -> broken_far f -> would_accept sh addr seq (mod_fars q (mq_cfar q) l1) c ->
    fatal sh addr seq c (SessModReq q).

(** ** Proof *)

Lemma broken_far_crash f : far_crash f = true <-> broken_far f.
Proof.
  unfold far_crash, broken_far. rewrite orb_true_iff. split.
  - intros [H|H]; [left|right]; repeat (case_match; try done).
  - intros [->| ->]; [by left|by right].
Qed.
Lemma broken_pdr_crash p : display_crash p = true <-> broken_pdr p.
Proof.
  unfold display_crash, broken_pdr. destruct (pe_pdi p) as [d|]; [|split; [done|by intros (?&?&?)]].
  rewrite negb_true_iff. split; [by exists d|]. by intros (?&[= <-]&?).
Qed.
Lemma broken_pdrs l : existsb display_crash l = true <-> exists p, p ∈ l /\ broken_pdr p.
Proof. rewrite existsb_exists. split; intros (p & H1 & H2); exists p; (split; [by apply elem_of_list_In|by apply broken_pdr_crash]). Qed.

Lemma each_app {A} (f : A -> work -> res) l1 l2 w : each f (l1 ++ l2) w = rbind (each f l1 w) (each f l2).
Proof. revert w. induction l1 as [|x l1 IH]; intros w; cbn; [done|]. destruct (f x w); cbn; [apply IH|done|done]. Qed.
Lemma each_crash {A} (f : A -> work -> res) l w :
  each f l w = RCrash <-> exists l1 x l2 w1, l = l1 ++ x :: l2 /\ each f l1 w = ROk w1 /\ f x w1 = RCrash.
Proof.
  split.
  - revert w. induction l as [|x l IH]; intros w H; cbn in H; [done|]. destruct (f x w) as [w1|w1|] eqn:E; cbn in H; [|done|].
    + destruct (IH _ H) as (l1 & y & l2 & w2 & -> & H1 & H2). exists (x :: l1), y, l2, w2. split; [done|]. split; [|done]. cbn. by rewrite E.
    + by exists [], x, l, w.
  - intros (l1 & x & l2 & w1 & -> & H1 & H2). rewrite each_app, H1. cbn. by rewrite H2.
Qed.
Lemma create_far_crash f w : create_far f w = RCrash <-> broken_far f.
Proof. rewrite <- broken_far_crash. unfold create_far. destruct (far_crash f); [done|]. split; [|done]. repeat (case_match; try done). Qed.
Lemma update_far_crash f w : update_far_ie f w = RCrash <-> fa_id f <> None /\ broken_far f.
Proof.
  rewrite <- broken_far_crash. unfold update_far_ie. destruct (fa_id f); [|by split; [|intros [? _]]].
  destruct (far_crash f); [by split|]. split; [|by intros [_ ?]]. repeat (case_match; try done).
Qed.

(** [each] with bodies that do not crash, whatever [far]. *)
Definition kept (r : res) : Prop := match r with ROk w => has_rm w | RErr _ => True | RCrash => True end.
Lemma kept_each {A} (f : A -> work -> res) l w : has_rm w -> (forall x w, has_rm w -> kept (f x w)) -> kept (each f l w).
Proof.
  intros Hw Hf. revert w Hw. induction l as [|x l IH]; intros w Hw; cbn; [done|]. specialize (Hf x w Hw) as Hx. destruct (f x w); cbn in *; [by apply IH|done|done].
Qed.
Lemma create_far_kept f w : has_rm w -> kept (create_far f w).
Proof. intros Hw. unfold create_far. repeat (case_match; simplify_eq); done. Qed.
Lemma update_far_kept f w : has_rm w -> kept (update_far_ie f w).
Proof. intros Hw. unfold update_far_ie. repeat (case_match; simplify_eq); done. Qed.

Lemma bind_crash r k : rbind r k = RCrash <-> r = RCrash \/ exists w, r = ROk w /\ k w = RCrash.
Proof.
  destruct r as [w|w|]; cbn; split; try done.
  - intros H. right. by exists w.
  - intros [|(?&[= <-]&?)]; done.
  - intros [|(?&?&?)]; done.
  - intros _. by left.
Qed.
Lemma safe_not r : safe has_rm r -> r <> RCrash.
Proof. by destruct r. Qed.

Lemma est_crash ueip q w : has_rm w -> (est_rules ueip q w = RCrash <-> each create_far (eq_fars q) w = RCrash).
Proof.
  intros Hw. unfold est_rules. rewrite bind_crash. split; [|by left]. intros [H|(w1 & H1 & H)]; [done|]. exfalso.
  pose proof (kept_each create_far (eq_fars q) w Hw create_far_kept) as Hk. rewrite H1 in Hk. cbn in Hk.
  refine (safe_not _ _ H). repeat (apply safe_bind; [apply safe_each|intros]); try done; intros.
  - by apply create_qer_safe.
  - by apply create_urr_safe.
  - apply safe_each; [done|]. intros. by apply create_pdr_safe.
Qed.
Lemma mod_crash ueip sh q w : has_rm w ->
  (mod_rules ueip sh q w = RCrash <-> each create_far (mq_cfar q) w = RCrash \/ exists w1, each create_far (mq_cfar q) w = ROk w1 /\ each update_far_ie (mq_ufar q) w1 = RCrash).
Proof.
  intros Hw. unfold mod_rules. rewrite bind_crash. split.
  - intros [H|(w1 & H1 & H)]; [by left|]. right. exists w1. split; [done|]. apply bind_crash in H as [H|(w2 & H2 & H)]; [done|]. exfalso.
    pose proof (kept_each create_far (mq_cfar q) w Hw create_far_kept) as Hk. rewrite H1 in Hk. cbn in Hk.
    pose proof (kept_each update_far_ie (mq_ufar q) w1 Hk update_far_kept) as Hk2. rewrite H2 in Hk2. cbn in Hk2.
    refine (safe_not _ _ H). repeat (apply safe_bind; [apply safe_each|intros]); try done; intros.
    + by apply remove_far_safe.
    + by apply create_qer_safe.
    + by apply update_qer_safe.
    + by apply remove_qer_safe.
    + by apply create_urr_safe.
    + by apply update_urr_safe.
    + by apply remove_urr_safe.
    + by apply create_pdr_safe.
    + by apply update_pdr_safe.
    + apply safe_each; [done|]. intros. by apply remove_pdr_safe.
  - intros [H|(w1 & H1 & H)]; [by left|]. right. exists w1. split; [done|]. apply bind_crash. by left.
Qed.

Lemma est_fars_accepted sh addr seq q l c a n s : c_assocs c !! addr = Some a -> eq_node q = Good n -> eq_fseid q = Good s ->
  (would_accept sh addr seq (est_fars q l) c <-> exists w, each create_far l (new_work (c_dp c) (new_session (next_seid a) s) (c_rm c)) = ROk w).
Proof.
  intros Ha Hn Hs. unfold would_accept, est_fars, handle, handle_est. cbn [eq_node eq_fseid eq_pdrs]. rewrite Hn, Hs. cbn [validate_request]. rewrite Ha.
  cbn [existsb]. unfold est_rules. cbn [eq_fars eq_qers eq_urrs eq_pdrs]. destruct (each create_far l _) as [w|w|]; cbn.
  - split; [intros _; by eexists|]. intros _. eexists _, _. split; reflexivity.
  - split; [intros (? & ? & [= <- <-] & H); discriminate H|intros [? ?]; done].
  - split; [intros (? & ? & ? & _); done|intros [? ?]; done].
Qed.
Lemma mod_fars_accepted sh addr seq q l l' c s : session_of c addr (mq_seid q) = Some s ->
  (would_accept sh addr seq (mod_fars q l l') c <-> exists w1 w, each create_far l (new_work (c_dp c) (match mq_fseid q with Good r => set_remote r s | _ => s end) (c_rm c)) = ROk w1 /\
     each update_far_ie l' w1 = ROk w).
Proof.
  intros Hs. unfold session_of in Hs. unfold would_accept, mod_fars, handle, handle_mod. cbn [mq_seid mq_fseid mq_cpdr mq_updr].
  destruct (c_assocs c !! addr) as [a|]; [|done]. cbn in Hs. rewrite Hs. cbn [existsb orb]. unfold mod_rules. cbn.
  destruct (each create_far l _) as [w1|w1|]; cbn.
  - destruct (each update_far_ie l' w1) as [w|w|] eqn:E; cbn.
    + split; [intros _; by exists w1, w|]. intros _. eexists _, _. split; reflexivity.
    + split; [intros (? & ? & [= <- <-] & H); discriminate H|]. intros (? & ? & [= <-] & ?). congruence.
    + split; [intros (? & ? & ? & _); done|]. intros (? & ? & [= <-] & ?). congruence.
  - split; [intros (? & ? & [= <- <-] & H); discriminate H|intros (? & ? & ? & _); done].
  - split; [intros (? & ? & ? & _); done|intros (? & ? & ? & _); done].
Qed.

(** A message ends the process exactly if it is fatal (with a resource manager). *)
Theorem fatal_exactly : forall sh addr seq m c, is_Some (c_rm c) -> (handle sh addr seq m c = Crash <-> fatal sh addr seq c m).
Proof.
  intros sh addr seq m c Hrm. destruct m as [t|t|n t|n k f|n|q|q|seid|ty].
  1: { destruct t; (split; [intros H; try done; constructor|]); intros H; inversion H; done. }
  1: { destruct t; (split; [intros H; try done; constructor|]); intros H; inversion H; done. }
  all: try (split; [intros H; exfalso; eapply no_crash_partial; [|exact Hrm|exact H]; exact Logic.I|intros H; inversion H]).
  - (* establishment *)
    split.
    + intros H. cbn [handle] in H. unfold handle_est in H. unfold validate_request in H.
      destruct (eq_node q) as [| |n] eqn:En; [done|done|]. destruct (eq_fseid q) as [| |s] eqn:Es; [done|done|].
      destruct (c_assocs c !! addr) as [a|] eqn:Ea; [|done]. destruct (existsb display_crash (eq_pdrs q)) eqn:Ep.
      { apply broken_pdrs in Ep as (p & Hp & Hb). by eapply FatalEstPdr. }
      destruct (est_rules _ _ _) as [w|w|] eqn:Er; [done|done|]. apply est_crash in Er; [|done].
      apply each_crash in Er as (l1 & x & l2 & w1 & El & H1 & H2). apply create_far_crash in H2.
      eapply FatalEstFar; [exact Ea|exact En|exact Es|exact El|exact H2|]. apply (est_fars_accepted _ _ _ _ _ _ a n s Ea En Es). by exists w1.
    + intros H. inversion H as [| |q' a n s p Ha Hn Hs Hp Hb Eq|q' a n s l1 f l2 Ha Hn Hs El Hb Hw Eq| | | ]; subst q'.
      * cbn [handle]. unfold handle_est. rewrite Hn, Hs. cbn [validate_request]. rewrite Ha.
        assert (existsb display_crash (eq_pdrs q) = true) as -> by (apply broken_pdrs; by exists p). done.
      * cbn [handle]. unfold handle_est. rewrite Hn, Hs. cbn [validate_request]. rewrite Ha. destruct (existsb _ _); [done|].
        apply (est_fars_accepted _ _ _ _ _ _ a n s Ha Hn Hs) in Hw as [w1 Hw].
        assert (est_rules (g_ueip (c_cfg c)) q (new_work (c_dp c) (new_session (next_seid a) s) (c_rm c)) = RCrash) as ->; [|done].
        apply est_crash; [done|]. apply each_crash. exists l1, f, l2, w1. split; [done|]. split; [done|]. by apply create_far_crash.
  - (* modification *)
    split.
    + intros H. cbn [handle] in H. unfold handle_mod in H.
      destruct (c_assocs c !! addr) as [a|] eqn:Ea; [|done]. destruct (a_sessions a !! mq_seid q) as [s|] eqn:Es; [|done].
      assert (Hs : session_of c addr (mq_seid q) = Some s). { unfold session_of. rewrite Ea. exact Es. }
      rewrite <- existsb_app in H. destruct (existsb display_crash (mq_cpdr q ++ mq_updr q)) eqn:Ep.
      { apply broken_pdrs in Ep as (p & Hp & Hb). by eapply FatalModPdr. }
      destruct (mod_rules _ _ _ _) as [w|w|] eqn:Er; [done|done|]. apply mod_crash in Er; [|done]. destruct Er as [Er|(w0 & E0 & Er)].
      * apply each_crash in Er as (l1 & x & l2 & w1 & El & H1 & H2). apply create_far_crash in H2.
        eapply FatalModCreate; [exact Hs|exact El|exact H2|]. apply (mod_fars_accepted _ _ _ _ _ _ _ s Hs). exists w1, w1. done.
      * apply each_crash in Er as (l1 & x & l2 & w1 & El & H1 & H2). apply update_far_crash in H2 as [H2 H3].
        eapply FatalModUpdate; [exact Hs|exact El|exact H2|exact H3|]. apply (mod_fars_accepted _ _ _ _ _ _ _ s Hs). by exists w0, w1.
    + intros H.
      assert (exists s, session_of c addr (mq_seid q) = Some s) as [s Hs] by (inversion H; by eexists).
      cbn [handle]. unfold handle_mod. pose proof Hs as Hs'. unfold session_of in Hs'. destruct (c_assocs c !! addr) as [a|]; [|done]. cbn in Hs'. rewrite Hs'.
      rewrite <- existsb_app.
      inversion H as [| | | |q' s' p Hs2 Hp Hb Eq|q' s' l1 f l2 Hs2 El Hb Hw Eq|q' s' l1 f l2 Hs2 El Hi Hb Hw Eq]; subst q'.
      * assert (existsb display_crash (mq_cpdr q ++ mq_updr q) = true) as -> by (apply broken_pdrs; by exists p). done.
      * destruct (existsb _ _); [done|]. apply (mod_fars_accepted _ _ _ _ _ _ _ s Hs) in Hw as (w1 & w & Hw & _).
        match goal with |- context [mod_rules ?x ?y ?z ?t] => assert (mod_rules x y z t = RCrash) as -> end; [|done].
        apply mod_crash; [done|]. left. apply each_crash. exists l1, f, l2, w1. split; [done|]. split; [done|]. by apply create_far_crash.
      * destruct (existsb _ _); [done|]. apply (mod_fars_accepted _ _ _ _ _ _ _ s Hs) in Hw as (w1 & w & Hw & Hw').
        match goal with |- context [mod_rules ?x ?y ?z ?t] => assert (mod_rules x y z t = RCrash) as -> end; [|done].
        apply mod_crash; [done|]. right. exists w1. split; [done|]. apply each_crash. exists l1, f, l2, w. split; [done|]. split; [done|].
        by apply update_far_crash.
Qed.

(** ** The running process *)

(** The process ends at a moment when the loop takes a fatal message from the socket, and only then. *)
Definition takes_fatal (w : whole) (t : N) (e : wev) : Prop :=
  wh_now w <= t /\ exists sh u a q m rest, e = Takes sh /\ wh_loop w = Reading u /\ wh_queue w = (a, q, m) :: rest /\ fatal sh a q (wh_conn w) m.

Lemma wstep_crash k w t e : winv k w -> is_Some (c_rm (wh_conn w)) -> (wstep k w t e = WCrash <-> takes_fatal w t e).
Proof.
  intros HI Hrm. unfold takes_fatal. split.
  - intros E. unfold wstep in E. destruct (N.ltb_spec t (wh_now w)) as [|Ht]; [done|]. split; [done|]. destruct e as [b q m| |sh| | |b|b|sh b| |marks vols].
    + by destruct (wh_loop w).
    + destruct (wh_loop w); [|done|done]. by destruct (reporting w).
    + destruct (wh_loop w) as [|u|]; [done| |done]. destruct (wh_queue w) as [|[[b q] m] rest] eqn:Eq; [done|].
      exists sh, u, b, q, m, rest. split; [done|]. split; [done|]. split; [done|]. apply fatal_exactly; [done|]. by destruct (handle sh b q m (wh_conn w)).
    + destruct (wh_loop w) as [|u|]; [done| |done]. by destruct (u <=? t).
    + destruct (wh_loop w) as [| |b q]; [done|done|]. unfold task_step in E. repeat case_match; done.
    + assert (E' : (if due w b t (wc_timeout k) then task_step k t b (wh_loop w) w Timeout else WNot) = WCrash) by (destruct (wh_loop w); exact E).
      unfold task_step in E'. repeat case_match; done.
    + assert (E' : (if due w b t (wc_interval k) then task_step k t b (wh_loop w) w Wake else WNot) = WCrash) by (destruct (wh_loop w); exact E).
      unfold task_step in E'. repeat case_match; done.
    + exfalso. destruct (wh_loop w); [|done|done]. destruct (wh_tasks w !! b) as [[[[| |] since]|]|] eqn:Eb; try done.
      assert (is_Some (c_assocs (wh_conn w) !! b)) as Hx. { apply elem_of_dom. rewrite <- (wi_dom _ _ HI). apply elem_of_dom. by eexists. }
      pose proof (prune_safe sh b (wh_conn w) Hrm Hx) as Hn. by destruct (prune sh b (wh_conn w)).
    + by destruct (wh_loop w).
    + by destruct (wh_loop w).
  - intros (Ht & sh & u & a & q & m & rest & -> & El & Eq & Hf). unfold wstep. destruct (N.ltb_spec t (wh_now w)); [lia|]. rewrite El, Eq.
    apply fatal_exactly in Hf; [|done]. by rewrite Hf.
Qed.
Lemma wrun_crashed k l : forall w, wrun k w l = Crashed <-> exists l1 t e l2 w1 lg, l = l1 ++ (t, e) :: l2 /\ wrun k w l1 = Ran w1 lg /\ wstep k w1 t e = WCrash.
Proof.
  induction l as [|[t e] l IH]; intros w; cbn [wrun].
  - split; [done|]. intros (l1 & ? & ? & ? & ? & ? & E & _). by destruct l1.
  - destruct (wstep k w t e) as [w1 o| |] eqn:E.
    + split.
      * intros H. assert (wrun k w1 l = Crashed) as H' by (by destruct (wrun k w1 l)).
        apply IH in H' as (l1 & t' & e' & l2 & w2 & lg & -> & H1 & H2). exists ((t, e) :: l1), t', e', l2, w2, ((t, e, o) :: lg). split; [done|]. split; [|done].
        cbn [wrun]. by rewrite E, H1.
      * intros (l1 & t' & e' & l2 & w2 & lg & El & H1 & H2). destruct l1 as [|[t0 e0] l1]; [injection El as -> -> ->; injection H1 as <- <-; congruence|].
        injection El as <- <- ->. cbn [wrun] in H1. rewrite E in H1. destruct (wrun k w1 l1) as [w3 lg3| |] eqn:E3; [|done|done]. injection H1 as -> <-.
        assert (wrun k w1 (l1 ++ (t', e') :: l2) = Crashed) as ->; [|done]. apply IH. by exists l1, t', e', l2, w2, lg3.
    + split; [|done]. intros _. by exists [], t, e, l, w, [].
    + split; [done|]. intros (l1 & t' & e' & l2 & w2 & lg & El & H1 & H2). destruct l1 as [|[t0 e0] l1]; [injection El as -> -> ->; injection H1 as <- <-; congruence|].
      injection El as <- <- ->. cbn [wrun] in H1. by rewrite E in H1.
Qed.
Lemma wrun_rm k l : forall w w' lg, Forall (fun x => wev_fair (snd x)) l -> is_Some (c_rm (wh_conn w)) -> wrun k w l = Ran w' lg -> is_Some (c_rm (wh_conn w')).
Proof.
  induction l as [|[t e] l IH]; intros w w' lg Hl Hrm H; cbn [wrun] in H; [by injection H as <- _|]. apply Forall_cons in Hl as [Hf Hl].
  destruct (wstep k w t e) as [w1 o| |] eqn:E; [|done|done]. destruct (wrun k w1 l) as [w2 lg2| |] eqn:E2; [|done|done]. injection H as <- <-.
  refine (IH _ _ _ Hl _ E2). apply wstep_kind in E as [_ E].
  destruct E as [a q m|e l' Hc|sh u a q m rest c' r El Eq Eh|e l' i b s since s' bo Eb Es Hc|sh b since c' r El Eb Ep|marks vols]; cbn [wh_conn]; try done.
  - exact (step_rm (wh_conn w) (Recv sh a q m) c' r Hf Eh Hrm).
  - exact (step_rm (wh_conn w) (HeartbeatFailed sh b) c' r Hf Ep Hrm).
Qed.

Theorem process_ends_exactly_by_fatal_message :
  forall k g rm d l, Forall (fun x => wev_fair (snd x)) l ->
    (wrun k (wstart (init g (Some rm) d)) l = Crashed <->
     exists l1 t e l2 w lg, l = l1 ++ (t, e) :: l2 /\ wrun k (wstart (init g (Some rm) d)) l1 = Ran w lg /\ takes_fatal w t e).
Proof.
  intros k g rm d l Hl. rewrite wrun_crashed. split; intros (l1 & t & e & l2 & w & lg & -> & H1 & H2); exists l1, t, e, l2, w, lg; (split; [done|]; split; [done|]).
  all: assert (HI : winv k w) by (refine (winv_run k l1 _ _ _ (winv_start k _ _) H1); done).
  all: apply Forall_app in Hl as [Hl _].
  all: assert (Hrm : is_Some (c_rm (wh_conn w))) by (refine (wrun_rm _ _ _ _ _ Hl _ H1); by eexists).
  all: by apply (wstep_crash k w t e HI Hrm).
Qed.

(** In the code any sender, associated or not, can end the process at any time with one datagram. *)
Theorem process_survives_refuted :
  forall k g rm d l w lg u sh a q, wrun k (wstart (init g rm d)) l = Ran w lg -> wh_loop w = Reading u -> wh_queue w = [] ->
    wrun k (wstart (init g rm d)) (l ++ [(wh_now w, Arrives a q (HeartbeatReq Absent)); (wh_now w, Takes sh)]) = Crashed.
Proof.
  intros k g rm d l w lg u sh a q H El Eq. apply wrun_crashed.
  set (w1 := Whole (wh_now w) (wh_conn w) (wh_loop w) (wh_queue w ++ [(a, q, HeartbeatReq Absent)]) (wh_tasks w)).
  assert (E1 : wstep k w (wh_now w) (Arrives a q (HeartbeatReq Absent)) = WDone w1 []).
  { unfold wstep. rewrite N.ltb_irrefl, El. unfold w1. by rewrite El. }
  exists (l ++ [(wh_now w, Arrives a q (HeartbeatReq Absent))]), (wh_now w), (Takes sh), [], w1, (lg ++ [(wh_now w, Arrives a q (HeartbeatReq Absent), [])]).
  split; [by rewrite <- app_assoc|]. split.
  - apply (wrun_join k l _ _ w lg); [exact H|]. cbn [wrun]. by rewrite E1.
  - unfold wstep, w1. cbn. rewrite N.ltb_irrefl, El, Eq. done.
Qed.
(** From a sender without association nothing else is fatal. *)
Theorem stranger_fatal : forall sh a q c m, c_assocs c !! a = None -> (fatal sh a q c m <-> m = HeartbeatReq Absent \/ m = HeartbeatResp Absent).
Proof.
  intros sh a q c m Ha. assert (Hs : forall seid, session_of c a seid = None) by (intros; unfold session_of; by rewrite Ha).
  split.
  - intros H. destruct H as [| |r x n s p Hx Hn Hs' Hp Hb|r x n s l1 f l2 Hx Hn Hs' El Hb Hw|r s p Hx Hp Hb|r s l1 f l2 Hx El Hb Hw|r s l1 f l2 Hx El Hi Hb Hw];
      [by left|by right|congruence|congruence|by rewrite Hs in Hx|by rewrite Hs in Hx|by rewrite Hs in Hx].
  - intros [-> | ->]; constructor.
Qed.
(** Removing rules, QERs, URRs and sessions, and associating, is never fatal; nor is a request all of whose FARs and PDRs are whole. *)
Theorem whole_rules_not_fatal : forall sh a q c m, no_crash_msg m -> ~ fatal sh a q c m.
Proof.
  intros sh a q c m Hm H.
  destruct H as [| |r x n s p Ha Hn Hs Hp Hb|r x n s l1 f l2 Ha Hn Hs El Hb Hw|r s p Hs Hp Hb|r s l1 f l2 Hs El Hb Hw|r s l1 f l2 Hs El Hi Hb Hw]; cbn in Hm; try done.
  - destruct Hm as [_ Hm]. rewrite Forall_forall in Hm. apply Hm in Hp. apply broken_pdr_crash in Hb. congruence.
  - destruct Hm as [Hm _]. rewrite El in Hm. apply Forall_app in Hm as [_ Hm]. apply Forall_cons in Hm as [Hm _]. apply broken_far_crash in Hb. congruence.
  - destruct Hm as [_ Hm]. rewrite Forall_forall in Hm. apply Hm in Hp. apply broken_pdr_crash in Hb. congruence.
  - destruct Hm as [Hm _]. apply Forall_app in Hm as [Hm _]. rewrite El in Hm. apply Forall_app in Hm as [_ Hm]. apply Forall_cons in Hm as [Hm _]. apply broken_far_crash in Hb. congruence.
  - destruct Hm as [Hm _]. apply Forall_app in Hm as [_ Hm]. rewrite El in Hm. apply Forall_app in Hm as [_ Hm]. apply Forall_cons in Hm as [Hm _]. apply broken_far_crash in Hb. congruence.
Qed.

(** Two FARs, the second broken: fatal if there is room for the first, else refused. *)
Definition ex_two_fars : msg := SessEstReq (EstReq (Good 5) (Good 100) [FarIe (Some 1) (Some [2]) None None; FarIe (Some 2) (Some []) None None] [] [] []).
Example ex_fatal : fatal id_shuffle 7 1 ex_conn ex_two_fars /\ ~ fatal id_shuffle 8 1 ex_conn ex_two_fars /\
  (forall c, c = Conn {[7 := new_assoc 5]} (dp_init 8 0 8 8) ex_rm ex_cfg -> is_Some (c_rm c) /\ ~ fatal id_shuffle 7 1 c ex_two_fars /\
     (exists c' r, handle id_shuffle 7 1 ex_two_fars c = Done c' (Some r) /\ r_cause r = Some 73)).
Proof.
  split; [|split].
  - apply fatal_exactly; [by eexists|]. vm_compute. reflexivity.
  - intros H. apply stranger_fatal in H; [|vm_compute; reflexivity]. destruct H; done.
  - intros c ->. split; [by eexists|]. split.
    + intros H. apply fatal_exactly in H; [|by eexists]. vm_compute in H. discriminate H.
    + eexists _, _. vm_compute. split; reflexivity.
Qed.
(** A running process with the loop in a read. *)
Example ex_ends : exists w lg u, wrun (Wcfg 3 5000 5000) (wstart (init ex_cfg ex_rm ex_dp)) [(10, Arrives 7 1 (AssocSetupReq (Good 5) (Good 1))); (11, Reads); (12, Takes id_shuffle); (13, Reads)] = Ran w lg /\
  wh_loop w = Reading u /\ wh_queue w = [] /\ is_Some (c_assocs (wh_conn w) !! 7).
Proof. eexists _, _, _. split; [vm_compute; reflexivity|]. split; [reflexivity|]. split; [reflexivity|]. eexists. vm_compute. reflexivity. Qed.
