(** C21 for every frame: what each usage counter holds after a run of the program, whatever the frame is - also for pings of the UPF,
    whose answer is charged as well. *)
From Verif Require Import Base IdTracker ResourceManager SdfParser SdfProps MapOps SdfMatch Pfcp PfcpProps PfcpHistory PfcpReach
  PfcpRules PfcpCreate PfcpRemove Qer Csum Xdp XdpBase XdpProps XdpRules XdpFrames XdpEcho XdpEx XdpAccount Ping Pong XdpRate.
Open Scope nat_scope.

(** ** Specification *)
(** The rule that lets the packet through, if there is one: its PDR entry. *)
Definition let_in (e : env) (d : dp) (f : list N) : option ep_pdr :=
  match rule_for e d f with
  | Some (p, r) => match permitted e (dir_of e f) (N.of_nat (length f)) d r with Some _ => Some p | None => None end
  | None => None
  end.
(** Usage counter [id], once charged for each of the two places of the entry that name it. *)
Definition billed (w : dir) (size : N) (p : option ep_pdr) (id : N) (u : urr_info) : urr_info :=
  match p with
  | Some p => let u1 := if decide (id = ep_urr1 p) then counted w size u else u in if decide (id = ep_urr2 p) then counted w size u1 else u1
  | None => u
  end.
(** The whole run: the packet and, if it pings the UPF, the answer. *)
Definition bill (e : env) (d : dp) (f : list N) (id : N) (u : urr_info) : urr_info :=
  let u1 := billed (dir_of e f) (N.of_nat (length f)) (let_in e d f) id u in
  match answer_of e d f with
  | Some (g, d1) => billed Downlink (N.of_nat (length g)) (let_in e d1 g) id u1
  | None => u1
  end.

(** ** Proof *)
Lemma account_bill e w size p r q d id : urr_get (account e w size p r q d) id = billed w size (Some p) id <$> urr_get d id.
Proof.
  unfold account, volume, billed, counted. cbv zeta.
  assert (Hm : urr_get (mark e w size r q d) id = urr_get d id) by (unfold mark; by destruct (rate _ _ =? 0)%N).
  destruct w; rewrite !urr_add_get, Hm; destruct (urr_get d id); try done; cbn [fmap option_fmap option_map];
    by destruct (decide (id = ep_urr1 p)), (decide (id = ep_urr2 p)).
Qed.
Lemma leg_bill h id : leg_ok h ->
  urr_get (h_after h) id = billed (dir_of (h_env h) (h_frame h)) (h_size h) (let_in (h_env h) (h_before h) (h_frame h)) id <$> urr_get (h_before h) id.
Proof.
  unfold leg_ok, let_in, h_size. destruct (rule_for _ _ _) as [[p r]|]; [|intros ->; by destruct (urr_get _ _)].
  destruct (permitted _ _ _ _ _) as [[far q]|]; [|intros [_ ->]; by destruct (urr_get _ _)].
  intros ->. apply account_bill.
Qed.

Theorem every_frame_charged :
  forall e f d v s id u, env_ok e -> xdp e f d = Some (v, s) -> urr_get d id = Some u -> urr_get (x_dp s) id = Some (bill e d f id u).
Proof.
  intros e f d v s id u He H Hu.
  assert (Hp : processed (Handled e f d v (x_dp s))) by (split; [done|exists s; by split]).
  unfold bill. destruct (answer_of e d f) as [[g d1]|] eqn:Ha.
  - destruct (answer_inv _ _ _ _ Ha) as (p & r & far & q & Hr & Hpm). pose proof (xdp_legs e f d p r far q He Hr Hpm) as K. rewrite Ha in K.
    destruct K as (Hg & Hd1 & H4 & _ & Ho). rewrite H in Ho. destruct (xdp e g d1) as [[v' s']|] eqn:E; [|done]. cbn [outcome] in Ho. injection Ho as _ _ Hd.
    assert (L : leg_ok (Handled e g d1 v' (x_dp s'))).
    { apply processed_leg; [|cbn [h_env h_before h_frame]; by apply answer_last]. split; [done|]. exists s'. by split. }
    apply (leg_bill _ id) in L. unfold h_size in L. cbn [h_env h_frame h_before h_after] in L. rewrite Hd, L.
    assert (Hl : let_in e d f = Some p) by (unfold let_in; by rewrite Hr, Hpm). rewrite Hl.
    assert (Hu1 : urr_get d1 id = Some (billed Uplink (N.of_nat (length f)) (Some p) id u)) by (rewrite Hd1, account_bill, Hu; done).
    rewrite Hu1. cbn [fmap option_fmap option_map]. unfold dir_of. rewrite Hg. by rewrite (proj1 (down4_not_gpdu e g H4)).
  - apply processed_leg, (leg_bill _ id) in Hp; [|done]. unfold h_size in Hp. cbn [h_env h_frame h_before h_after] in Hp. by rewrite Hp, Hu.
Qed.

(** What the UPF does instead of C21: whatever usage reporting rules the PDRs name, in every state that signalling can lead to every packet
    that is let through is charged twice to URR 0 and to no other, and so is the answer to a ping. *)
Definition twice (w : dir) (size : N) (through : bool) (id : N) (u : urr_info) : urr_info :=
  if through && (id =? 0)%N then counted w size (counted w size u) else u.
Theorem every_frame_charged_to_urr0_partial :
  forall c e f v s id u, reachable c -> env_ok e -> xdp e f (c_dp c) = Some (v, s) -> urr_get (c_dp c) id = Some u ->
    urr_get (x_dp s) id =
    Some (let u1 := twice (dir_of e f) (N.of_nat (length f)) (bool_decide (is_Some (let_in e (c_dp c) f))) id u in
          match answer_of e (c_dp c) f with
          | Some (g, d1) => twice Downlink (N.of_nat (length g)) (bool_decide (is_Some (let_in e d1 g))) id u1
          | None => u1
          end).
Proof.
  intros c e f v s id u Hc He H Hu. rewrite (every_frame_charged e f (c_dp c) v s id u He H Hu). f_equal. unfold bill. cbv zeta.
  pose proof (reachable_no_urrs c Hc) as Hn. set (d := c_dp c) in *. clearbody d.
  assert (G : forall d f w size u, no_urrs d -> billed w size (let_in e d f) id u = twice w size (bool_decide (is_Some (let_in e d f))) id u).
  { clear. intros d f w size u (H1 & H2 & H3). destruct (let_in e d f) as [p|] eqn:El; [|done].
    assert (ep_urr1 p = 0%N /\ ep_urr2 p = 0%N) as [U1 U2].
    { unfold let_in in El. destruct (rule_for e d f) as [[p0 r]|] eqn:Hr; [|done]. destruct (permitted _ _ _ _ _); [|done]. apply (inj Some) in El as ->.
      unfold rule_for in Hr. destruct (entry e d f) as [p0|] eqn:Ee; [|done]. assert (p0 = p) as -> by (destruct (select p0 _); by simplify_eq).
      unfold entry in Ee. destruct (gpdu e f); [by apply (H1 _ _ Ee)|]. destruct (down4 e f); [by apply (H2 _ _ Ee)|].
      destruct (down6 f); [by apply (H3 _ _ Ee)|done]. }
    unfold billed, twice. cbv zeta. rewrite U1, U2. rewrite bool_decide_true by eauto. cbn [andb].
    destruct (N.eqb_spec id 0) as [->|Hid]; [by rewrite !decide_True by done|by rewrite !decide_False by done]. }
  destruct (answer_of e d f) as [[g d1]|] eqn:Ha; [|by apply G].
  assert (Hd1 : no_urrs d1).
  { unfold answer_of in Ha. destruct (rule_for e d f) as [[p r]|]; [|done]. destruct (permitted _ _ _ _ _) as [[far q]|]; [|done].
    destruct (_ && _); [|done]. apply (inj Some) in Ha. injection Ha as _ <-. destruct Hn as (H1 & H2 & H3).
    unfold account, volume, mark, urr_add. destruct (dir_of e f); repeat case_match; done. }
  rewrite G by done. by rewrite G by done.
Qed.

(** A ping of the UPF, with entries that name URR 4 and URR 0: 82 bytes uplink and, for the answer, 46 bytes downlink on both. *)
Example ex_ping_bill : exists v s, xdp ex_env ex_ping_up ex_dp = Some (v, s) /\ env_ok ex_env /\ urr_get ex_dp 4 = Some (Urr 0 0) /\
  bill ex_env ex_dp ex_ping_up 4 (Urr 0 0) = Urr 82 46 /\ urr_get (x_dp s) 4 = Some (Urr 82 46) /\ urr_get (x_dp s) 0 = Some (Urr 82 46) /\ urr_get (x_dp s) 1 = Some (Urr 0 0).
Proof.
  assert (H : match xdp ex_env ex_ping_up ex_dp with Some (v, s) => bool_decide (urr_get (x_dp s) 4 = Some (Urr 82 46)) && bool_decide (urr_get (x_dp s) 0 = Some (Urr 82 46)) && bool_decide (urr_get (x_dp s) 1 = Some (Urr 0 0)) | None => false end = true) by (by vm_compute).
  destruct (xdp ex_env ex_ping_up ex_dp) as [[v s]|]; [|discriminate H]. rewrite !andb_true_iff, !bool_decide_eq_true in H. exists v, s.
  split; [reflexivity|]. split; [exact ex_env_ok|]. split; [by vm_compute|]. split; [by vm_compute|tauto].
Qed.
