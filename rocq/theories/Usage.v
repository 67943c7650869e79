(** C78: the control plane is never told of more traffic than was carried. *)
From Verif Require Import Base IdTracker ResourceManager SdfParser SdfProps MapOps SdfMatch Pfcp PfcpProps PfcpHistory PfcpReach
  PfcpRules PfcpCreate PfcpRemove Qer Csum Xdp XdpBase XdpProps XdpRules XdpFrames XdpEcho XdpEx XdpAccount Ping Pong XdpRate.
Open Scope N_scope.

(** ** Histories of packets and messages, one after the other *)
Inductive act := Packet (e : env) (f : list N) | Signal (ev : event).
(** What was there before, what happened, and what was sent back to the control plane. *)
Record moment := Moment { m_before : conn; m_act : act; m_resp : option response }.
Fixpoint play_all (c : conn) (l : list act) : option (conn * list moment) :=
  match l with
  | [] => Some (c, [])
  | a :: r =>
      match match a with
            | Packet e f => match xdp e f (c_dp c) with Some (_, s) => Some (set_dp_rm (x_dp s) (c_rm c) c, None) | None => None end
            | Signal ev => match step c ev with Done c1 x => Some (c1, x) | Crash => None end
            end with
      | Some (c1, x) => match play_all c1 r with Some (c2, ms) => Some (c2, Moment c a x :: ms) | None => None end
      | None => None
      end
  end.
(** Frames of real environments; messages and heartbeat failures. *)
Definition real (a : act) : Prop :=
  match a with Packet e f => env_ok e | Signal (Traffic _ _) => False | Signal _ => True end.

(** ** Specification *)
(** Uplink, downlink, both together. *)
Inductive side := Ul | Dl | Total.
Definition on (w : side) (x : dir) : bool := match w, x with Ul, Uplink | Dl, Downlink | Total, _ => true | _, _ => false end.
Definition rp_volume (w : side) (x : report) : N := match w with Ul => rp_ul x | Dl => rp_dl x | Total => rp_total x end.
(** The volume of side [w] in all reports of the history. *)
Definition reported (w : side) (ms : list moment) : N :=
  sumN ((fun m => match m_resp m with Some r => sumN (rp_volume w <$> r_reports r) | None => 0 end) <$> ms).
(** The bytes of the packets of side [w] that a rule let through.  If the packet pings the UPF, the answer is a downlink packet as well. *)
Definition let_through (w : side) (e : env) (f : list N) (d : dp) : N :=
  if on w (dir_of e f) then
    match rule_for e d f with
    | Some (_, r) => if permitted e (dir_of e f) (N.of_nat (length f)) d r then N.of_nat (length f) else 0
    | None => 0 end
  else 0.
Definition carried_by (w : side) (m : moment) : N :=
  match m_act m with
  | Packet e f =>
      let d := c_dp (m_before m) in
      let_through w e f d + match answer_of e d f with Some (g, d1) => let_through w e g d1 | None => 0 end
  | Signal _ => 0
  end.
Definition carried (w : side) (ms : list moment) : N := sumN (carried_by w <$> ms).
(** What the counters in the data plane hold. *)
Definition cnt (w : side) (u : urr_info) : N := match w with Ul => ui_ul u | Dl => ui_dl u | Total => ui_ul u + ui_dl u end.
Definition pending (w : side) (d : dp) : N := map_fold (fun _ u n => cnt w u + n) 0 (d_urr d).

(** ** Proof *)
Lemma pending_insert (w : side) (i : N) (u : urr_info) (m : gmap N urr_info) :
  map_fold (fun (_ : N) u n => cnt w u + n) 0 (<[i := u]> m) + cnt w (default urr0 (m !! i)) =
  cnt w u + map_fold (fun (_ : N) u n => cnt w u + n) 0 m.
Proof.
  assert (K : forall (v : urr_info) (m : gmap N urr_info), m !! i = None -> map_fold (fun (_ : N) u n => cnt w u + n) 0 (<[i := v]> m) = cnt w v + map_fold (fun (_ : N) u n => cnt w u + n) 0 m).
  { intros v m' Hm. rewrite (map_fold_insert_L (fun (_ : N) u n => cnt w u + n) 0 i v m'); [done|intros; lia|done]. }
  assert (C0 : cnt w urr0 = 0) by by destruct w.
  destruct (m !! i) as [v|] eqn:E; cbn [default].
  - pose proof (K u (delete i m) (lookup_delete m i)) as K1. pose proof (K v (delete i m) (lookup_delete m i)) as K2.
    rewrite insert_delete_insert in K1. rewrite insert_delete in K2 by done. unfold default, from_option, id. lia.
  - rewrite K by done. unfold default, from_option, id. lia.
Qed.
Lemma pending_set w i u d : pending w (set_urr (<[i := u]> (d_urr d)) d) + cnt w (default urr0 (d_urr d !! i)) = cnt w u + pending w d.
Proof. apply pending_insert. Qed.

(** One rule at a time: counters and reports together never grow, and the sessions remember no volumes. *)
Definition pot (w : side) (k : work) : N := pending w (w_dp k) + sumN (rp_volume w <$> w_reports k).
Definition blank (s : session) : Prop := forall i u, s_urrs s !! i = Some u -> su_info u = urr0.
Definition spends (w : side) (k : work) (r : res) : Prop :=
  match r with ROk k' | RErr k' => blank (w_ses k) -> blank (w_ses k') /\ pot w k' <= pot w k | RCrash => True end.
Lemma spends_each {A} w (f : A -> work -> res) l k : (forall x k, spends w k (f x k)) -> spends w k (each f l k).
Proof.
  intros Hf. revert k. induction l as [|x l IH]; intros k; simpl; [done|].
  pose proof (Hf x k) as Hx. destruct (f x k) as [k1|k1|]; simpl in *; try done.
  specialize (IH k1). destruct (each f l k1); simpl in *; try done; intros Hb; destruct (Hx Hb) as [B1 L1], (IH B1) as [B2 L2]; split; try done; lia.
Qed.
Lemma spends_bind w k r g : spends w k r -> (forall k', spends w k' (g k')) -> spends w k (rbind r g).
Proof.
  intros H Hg. destruct r as [k1|k1|]; simpl in *; try done. specialize (Hg k1).
  destruct (g k1); simpl in *; try done; intros Hb; destruct (H Hb) as [B1 L1], (Hg B1) as [B2 L2]; split; try done; lia.
Qed.
Lemma spends_keep w k r : keepsP urr_part k r -> keepsP rep_part k r -> spends w k r.
Proof.
  destruct r as [k1|k1|]; simpl; try done; unfold urr_part, rep_part, pot, pending, blank; intros H1 H2; simplify_eq; rewrite H2;
    repeat match goal with H : _ = _ |- _ => rewrite H end; done.
Qed.
Lemma sumN_app l l' : sumN (l ++ l') = sumN l + sumN l'.
Proof. induction l as [|x l IH]; [done|]. cbn [app]. rewrite !sumN_cons, IH. lia. Qed.

Lemma blank_get s i : blank s -> su_info (get_urr s i) = urr0.
Proof. intros H. unfold get_urr. destruct (s_urrs s !! i) as [u|] eqn:E; [by apply (H i)|done]. Qed.
Lemma blank_insert s i u : blank s -> su_info u = urr0 -> blank (set_urrs (<[i := u]> (s_urrs s)) s).
Proof. intros H Hu j v. cbn. rewrite lookup_insert_Some. intros [[_ <-]|[_ Hj]]; [done|by apply (H j)]. Qed.
Lemma cnt0 w : cnt w urr0 = 0. Proof. by destruct w. Qed.

Lemma create_urr_spends w u k : spends w k (create_urr u k).
Proof.
  unfold create_urr. destruct u as [i|]; [|by split]. unfold new_urr. destruct (get_next (d_urrt (w_dp k))) as [[g|] t]; [|by split].
  cbn zeta. destruct (g <? d_urr_size (w_dp k)); simpl; [|by split]. intros Hb. split; [by apply blank_insert|].
  unfold pot. cbn. pose proof (pending_insert w g urr0 (d_urr (w_dp k))) as H. rewrite cnt0 in H. unfold pending. cbn. lia.
Qed.
Lemma update_urr_spends w u k : spends w k (update_urr_ie u k).
Proof.
  unfold update_urr_ie. destruct u as [i|]; [|by split]. cbn zeta. unfold update_urr. cbn [w_dp w_set_ses].
  destruct (su_gid (get_urr (w_ses k) i) <? d_urr_size (w_dp k)); simpl; intros Hb; (split; [apply blank_insert; [done|by apply blank_get]|]); [|done].
  rewrite blank_get by done. unfold pot. cbn. pose proof (pending_insert w (su_gid (get_urr (w_ses k) i)) urr0 (d_urr (w_dp k))) as H. rewrite cnt0 in H. unfold pending. cbn. lia.
Qed.
(** Taking a counter: what it held, and it is empty. *)
Lemma delete_urr_pending w i d v d' : delete_urr i d = (v, d') ->
  pending w d' + match v with Some v => cnt w v | None => 0 end = pending w d.
Proof.
  unfold delete_urr, urr_get, arr_get, update_urr. intros H. destruct (i <? d_urr_size d) eqn:E; [|simplify_eq; lia].
  cbn in H. rewrite E in H. simplify_eq. pose proof (pending_insert w i urr0 (d_urr d)) as K. rewrite cnt0 in K. unfold pending. cbn. lia.
Qed.
Lemma report_volume w i u v : rp_volume w (make_report i u v) <= cnt w v.
Proof. destruct w; cbn; [lia|lia|]. apply N.mod_le. done. Qed.
Lemma remove_urr_spends w u k : spends w k (remove_urr_ie u k).
Proof.
  unfold remove_urr_ie. destruct u as [i|]; [|by split]. cbn zeta. cbn [w_dp w_set_ses].
  destruct (delete_urr _ (w_dp k)) as [[v|] d] eqn:E; apply (delete_urr_pending w) in E; simpl; intros Hb.
  - split. { intros j x. cbn. rewrite lookup_delete_Some. intros [_ Hx]. by apply (Hb j). }
    unfold pot. cbn [w_dp w_reports w_add_report w_set_dp w_set_ses]. rewrite fmap_app, sumN_app. cbn [fmap list_fmap]. rewrite sumN_cons.
    change (sumN []) with 0. pose proof (report_volume w i (get_urr (w_ses k) i) v). lia.
  - split. { intros j x. cbn. rewrite lookup_delete_Some. intros [_ Hx]. by apply (Hb j). }
    unfold pot. cbn [w_dp w_reports w_set_dp w_set_ses]. lia.
Qed.
Lemma del_urr_spends w x k : spends w k (del_urr x k).
Proof.
  unfold del_urr. destruct (delete_urr _ (w_dp k)) as [[v|] d] eqn:E; apply (delete_urr_pending w) in E; simpl; intros Hb; (split; [done|]).
  - unfold pot. cbn [w_dp w_reports w_add_report w_set_dp w_set_ses]. rewrite fmap_app, sumN_app. cbn [fmap list_fmap]. rewrite sumN_cons.
    change (sumN []) with 0. pose proof (report_volume w (fst x) (snd x) v). lia.
  - unfold pot. cbn [w_dp w_reports w_set_dp]. lia.
Qed.

Lemma est_spends w ueip q k : spends w k (est_rules ueip q k).
Proof.
  unfold est_rules. repeat (apply spends_bind; [apply spends_each; intros|intros]);
    [apply spends_keep; [apply far_frame_urr|apply far_frame_rep]|apply spends_keep; [apply qer_frame_urr|apply qer_frame_rep]|apply create_urr_spends|].
  apply spends_each. intros. apply spends_keep; [apply pdr_frame_urr|apply pdr_frame_rep].
Qed.
Lemma mod_spends w ueip sh q k : spends w k (mod_rules ueip sh q k).
Proof.
  unfold mod_rules. do 3 (apply spends_bind; [apply spends_each; intros; apply spends_keep; [apply far_frame_urr|apply far_frame_rep]|intros]).
  do 3 (apply spends_bind; [apply spends_each; intros; apply spends_keep; [apply qer_frame_urr|apply qer_frame_rep]|intros]).
  apply spends_bind; [apply spends_each; intros; apply create_urr_spends|intros].
  apply spends_bind; [apply spends_each; intros; apply update_urr_spends|intros].
  apply spends_bind; [apply spends_each; intros; apply remove_urr_spends|intros].
  do 2 (apply spends_bind; [apply spends_each; intros; apply spends_keep; [apply pdr_frame_urr|apply pdr_frame_rep]|intros]).
  apply spends_each. intros. apply spends_keep; [apply pdr_frame_urr|apply pdr_frame_rep].
Qed.
Lemma del_spends w sh s k : spends w k (del_rules sh s k).
Proof.
  unfold del_rules. apply spends_bind; [apply spends_each; intros; apply spends_keep; [apply pdr_frame_urr|apply pdr_frame_rep]|intros].
  apply spends_bind; [apply spends_each; intros; apply spends_keep; [apply far_frame_urr|apply far_frame_rep]|intros].
  apply spends_bind; [apply spends_each; intros; apply spends_keep; [apply qer_frame_urr|apply qer_frame_rep]|intros].
  apply spends_each. intros. apply del_urr_spends.
Qed.
Lemma ign_keep {A B} (proj : work -> B) (f : A -> work -> res) x k : keepsP proj k (f x k) -> keepsP proj k (ign f x k).
Proof. unfold ign. by destruct (f x k). Qed.
Lemma prune_session_keeps sh s d rm d' rm' : prune_session sh s d rm = Some (d', rm') -> d_urr d' = d_urr d.
Proof.
  unfold prune_session.
  match goal with |- match ?r with _ => _ end = _ -> _ => assert (K : keepsP urr_part (new_work d s rm) r) end.
  { apply bind_keep; [apply each_keep; intros; apply ign_keep, far_frame_urr|intros].
    apply bind_keep; [apply each_keep; intros; apply ign_keep, qer_frame_urr|intros].
    apply each_keep. intros. apply ign_keep. apply (proj2 (proj2 (proj2 pdr_frame_urr))). }
  destruct (rbind _ _) as [k|k|]; intros H; simplify_eq; unfold urr_part in K; simpl in K; by simplify_eq.
Qed.
Lemma prune_sessions_keeps sh l : forall d rm d' rm', prune_sessions sh l d rm = Some (d', rm') -> d_urr d' = d_urr d.
Proof.
  induction l as [|[i s] l IH]; intros d rm d' rm' H; simpl in H; [by simplify_eq|].
  destruct (prune_session sh s d rm) as [[d1 rm1]|] eqn:E; [|done]. apply prune_session_keeps in E. apply IH in H. congruence.
Qed.

(** One message. *)
Definition blanks (c : conn) : Prop := forall addr a seid s, c_assocs c !! addr = Some a -> a_sessions a !! seid = Some s -> blank s.
Lemma blanks_put addr seid a s c : blanks c -> (forall seid s, a_sessions a !! seid = Some s -> blank s) -> blank s -> blanks (put_session addr seid a s c).
Proof.
  intros Hb Ha Hs addr' a' seid' s' H1 H2. cbn in H1. rewrite lookup_insert_Some in H1. destruct H1 as [[_ <-]|[_ H1]]; [|by apply (Hb addr' a' seid' s')].
  cbn in H2. rewrite lookup_insert_Some in H2. destruct H2 as [[_ <-]|[_ H2]]; [done|by apply (Ha seid')].
Qed.
Lemma blanks_assoc addr a c : blanks c -> (forall seid s, a_sessions a !! seid = Some s -> blank s) -> blanks (set_assocs (<[addr := a]> (c_assocs c)) c).
Proof.
  intros Hb Ha addr' a' seid' s' H1 H2. cbn in H1. rewrite lookup_insert_Some in H1. destruct H1 as [[_ <-]|[_ H1]]; [by apply (Ha seid')|by apply (Hb addr' a' seid' s')].
Qed.
Lemma blanks_dp d rm c : blanks c -> blanks (set_dp_rm d rm c). Proof. done. Qed.
Definition volume_in (w : side) (r : option response) : N := match r with Some r => sumN (rp_volume w <$> r_reports r) | None => 0 end.

Lemma sumN_nil : sumN [] = 0. Proof. done. Qed.
Ltac quiet := cbn; rewrite ?sumN_nil; lia.
Lemma signal_spends w c ev c' r : real (Signal ev) -> step c ev = Done c' r -> blanks c ->
  blanks c' /\ pending w (c_dp c') + volume_in w r <= pending w (c_dp c).
Proof.
  intros Hr H Hb. destruct ev as [sh addr seq m|sh addr|]; [|clear Hr|done]; cbn [step] in H.
  - clear Hr. destruct m as [rts|rts|node rts|node cause fe|node|q|q|seid|ty]; cbn [handle] in H.
    + unfold handle_hb_req in H. repeat (case_match; simplify_eq); (split; [done|]); quiet.
    + unfold handle_hb_resp in H. repeat (case_match; simplify_eq); (split; [done|]); quiet.
    + unfold handle_setup, ensure_assoc in H. repeat (case_match; simplify_eq); (split; [|quiet]); try done.
      apply blanks_assoc; [done|]. cbn. by intros ? ? ?%lookup_empty_Some.
    + unfold handle_setup_resp, ensure_assoc in H. repeat (case_match; simplify_eq); (split; [|quiet]); try done.
      apply blanks_assoc; [done|]. cbn. by intros ? ? ?%lookup_empty_Some.
    + unfold handle_update in H. repeat (case_match; simplify_eq); (split; [done|]); quiet.
    + unfold handle_est in H. destruct (validate_request _ _) as [remote|]; [|simplify_eq; split; [done|quiet]].
      destruct (c_assocs c !! addr) as [a|] eqn:Ea; [|simplify_eq; split; [done|quiet]]. cbn zeta in H.
      destruct (existsb _ _); [done|].
      match type of H with match est_rules ?u ?q ?k with _ => _ end = _ => pose proof (est_spends w u q k) as K end.
      destruct (est_rules _ _ _) as [k|k|]; [| |done]; cbn [spends] in K; (destruct K as [B L]; [intros ? ? HH; cbn in HH; by apply lookup_empty_Some in HH|]);
        simplify_eq; unfold pot in L; cbn in L |- *; change (sumN []) with 0 in *.
      * split; [|lia]. apply blanks_dp, blanks_put; [|by intros sd ? ?; apply (Hb addr a sd)|done]. apply blanks_assoc; [done|]. by intros sd ? ?; apply (Hb addr a sd).
      * split; [|lia]. apply blanks_dp. apply blanks_assoc; [done|]. by intros sd ? ?; apply (Hb addr a sd).
    + unfold handle_mod in H. destruct (c_assocs c !! addr) as [a|] eqn:Ea; [|simplify_eq; split; [done|quiet]].
      destruct (a_sessions a !! mq_seid q) as [s|] eqn:Es; [|simplify_eq; split; [done|quiet]]. cbn zeta in H.
      destruct (_ || _); [done|].
      match type of H with match mod_rules ?u ?sh ?q ?k with _ => _ end = _ => pose proof (mod_spends w u sh q k) as K end.
      assert (Hs : blank s) by by apply (Hb addr a (mq_seid q)).
      destruct (mod_rules _ _ _ _) as [k|k|]; [| |done]; cbn [spends] in K; (destruct K as [B L]; [by cbn; destruct (mq_fseid q)|]);
        simplify_eq; unfold pot in L; cbn in L |- *; change (sumN []) with 0 in *; (split; [|lia]);
        apply blanks_dp, blanks_put; try done; intros sd ? ?; by apply (Hb addr a sd).
    + unfold handle_del in H. destruct (c_assocs c !! addr) as [a|] eqn:Ea; [|simplify_eq; split; [done|quiet]].
      destruct (a_sessions a !! seid) as [s|] eqn:Es; [|simplify_eq; split; [done|quiet]].
      match type of H with match del_rules ?sh ?q ?k with _ => _ end = _ => pose proof (del_spends w sh q k) as K end.
      assert (Hs : blank s) by by apply (Hb addr a seid).
      destruct (del_rules _ _ _) as [k|k|]; [| |done]; cbn [spends] in K; (destruct K as [B L]; [done|]);
        simplify_eq; unfold pot in L; cbn in L |- *; change (sumN []) with 0 in *; (split; [|lia]); [|done].
      apply blanks_dp, blanks_assoc; [done|]. intros sd ?. cbn. rewrite lookup_delete_Some. intros [_ ?]. by apply (Hb addr a sd).
    + simplify_eq. split; [done|quiet].
  - unfold prune in H. destruct (c_assocs c !! addr) as [a|]; [|done]. destruct (prune_sessions _ _ _ _) as [[d rm]|] eqn:E; [|done].
    apply prune_sessions_keeps in E. simplify_eq. split.
    + intros addr' a' seid s H1 H2. cbn in H1. rewrite lookup_delete_Some in H1. destruct H1 as [_ H1]. by apply (Hb addr' a' seid).
    + cbn. unfold pending. rewrite E. lia.
Qed.

(** One packet. *)
Lemma urr_add_pending w id ul dl d : pending w (urr_add id ul dl d) <= pending w d + cnt w (Urr ul dl).
Proof.
  unfold urr_add. destruct (urr_get d id) as [u|] eqn:E; [|lia].
  assert (Hu : default urr0 (d_urr d !! id) = u). { unfold urr_get, arr_get in E. destruct (id <? d_urr_size d); congruence. }
  pose proof (pending_set w id (Urr (u64 (ui_ul u + ul)) (u64 (ui_dl u + dl))) d) as K. rewrite Hu in K.
  pose proof (N.mod_le (ui_ul u + ul) 18446744073709551616 ltac:(done)). pose proof (N.mod_le (ui_dl u + dl) 18446744073709551616 ltac:(done)).
  unfold u64 in *. destruct w; cbn [cnt ui_ul ui_dl] in *; lia.
Qed.
Lemma account_pending w e f d p r far q : rule_for e d f = Some (p, r) -> permitted e (dir_of e f) (N.of_nat (length f)) d r = Some (far, q) ->
  pending w (account e (dir_of e f) (N.of_nat (length f)) p r q d) <= pending w d + 2 * let_through w e f d.
Proof.
  intros Hr Hp. unfold let_through. rewrite Hr, Hp. unfold account. destruct (volume (dir_of e f) (N.of_nat (length f))) as [ul dl] eqn:Ev.
  pose proof (urr_add_pending w (ep_urr2 p) ul dl (urr_add (ep_urr1 p) ul dl (mark e (dir_of e f) (N.of_nat (length f)) r q d))) as K2.
  pose proof (urr_add_pending w (ep_urr1 p) ul dl (mark e (dir_of e f) (N.of_nat (length f)) r q d)) as K1.
  assert (Hm : pending w (mark e (dir_of e f) (N.of_nat (length f)) r q d) = pending w d) by (unfold mark; by destruct (rate _ _ =? 0)).
  unfold volume in Ev. unfold on. destruct (dir_of e f), w; simplify_eq; cbn [cnt ui_ul ui_dl] in *; lia.
Qed.
Lemma leg_spends w e f d v d' : leg_ok (Handled e f d v d') -> pending w d' <= pending w d + 2 * let_through w e f d.
Proof.
  unfold leg_ok, h_size. cbn [h_env h_frame h_before h_verdict h_after]. destruct (rule_for e d f) as [[p r]|] eqn:Hr; [|intros ->; lia].
  destruct (permitted e (dir_of e f) (N.of_nat (length f)) d r) as [[far q]|] eqn:Hp; [|intros [_ ->]; lia].
  intros ->. by apply (account_pending w e f d p r far q).
Qed.
Lemma packet_spends w c e f v s : env_ok e -> xdp e f (c_dp c) = Some (v, s) ->
  pending w (x_dp s) <= pending w (c_dp c) + 2 * carried_by w (Moment c (Packet e f) None).
Proof.
  intros He H. unfold carried_by. cbn [m_act m_before]. set (d := c_dp c) in *. clearbody d. clear c. cbv zeta.
  destruct (answer_of e d f) as [[g d1]|] eqn:Ha.
  - destruct (answer_inv _ _ _ _ Ha) as (p & r & far & q & Hr & Hp). pose proof (xdp_legs e f d p r far q He Hr Hp) as K. rewrite Ha in K.
    destruct K as (Hg & -> & H4 & _ & Ho). rewrite H in Ho. set (d1 := account _ _ _ _ _ _ _) in *.
    destruct (xdp e g d1) as [[v' s']|] eqn:E; [|done]. cbn [outcome] in Ho. injection Ho as _ _ Hd.
    assert (L : leg_ok (Handled e g d1 v' (x_dp s'))).
    { apply processed_leg; [|cbn [h_env h_before h_frame]; by apply answer_last]. split; [done|]. exists s'. by split. }
    apply (leg_spends w) in L. pose proof (account_pending w e f d p r far q Hr Hp) as K. unfold dir_of in K. rewrite Hg in K.
    rewrite Hd. unfold d1 in L. unfold d1. lia.
  - assert (L : leg_ok (Handled e f d v (x_dp s))) by (apply processed_leg; [split; [done|exists s; by split]|done]).
    apply (leg_spends w) in L. lia.
Qed.

(** ** C78 *)
(** After any history of packets and messages: everything reported so far and everything still to be reported, together, is at most
    twice the traffic that was carried (every packet is charged twice: C21). *)
Theorem reported_at_most_twice_partial :
  forall g rm pdr far qer urr l c ms, Forall real l -> play_all (init g rm (dp_init pdr far qer urr)) l = Some (c, ms) ->
    forall w, reported w ms + pending w (c_dp c) <= 2 * carried w ms.
Proof.
  intros g rm pdr far qer urr l c ms Hl H w.
  assert (G : forall l c0, Forall real l -> blanks c0 -> forall c ms, play_all c0 l = Some (c, ms) ->
    reported w ms + pending w (c_dp c) <= pending w (c_dp c0) + 2 * carried w ms).
  { clear. induction l as [|a l IH]; intros c0 Hl Hb c ms H; cbn [play_all] in H.
    - simplify_eq. unfold reported, carried. cbn. rewrite sumN_nil. lia.
    - apply Forall_cons in Hl as [Ha Hl]. destruct a as [e f|ev].
      + cbn [real] in Ha. destruct (xdp e f (c_dp c0)) as [[v s]|] eqn:E; [|done].
        destruct (play_all _ l) as [[c2 ms2]|] eqn:E2; [|done]. simplify_eq. apply IH in E2; [|done|done].
        apply (packet_spends w c0) in E; [|done..]. unfold reported, carried in *. rewrite !fmap_cons, !sumN_cons. cbn [c_dp set_dp_rm m_resp] in *. lia.
      + destruct (step c0 ev) as [c1 x|] eqn:E; [|done]. destruct (play_all c1 l) as [[c2 ms2]|] eqn:E2; [|done]. simplify_eq.
        apply (signal_spends w) in E as [Hb1 L]; [|done|done]. apply IH in E2; [|done|done].
        unfold reported, carried in *. rewrite !fmap_cons, !sumN_cons. cbn [m_resp carried_by m_act]. unfold volume_in in L. lia. }
  apply G in H; [|done|]. { unfold pending at 2 in H. cbn in H. rewrite map_fold_empty in H. lia. }
  intros addr a seid s0 Hx. cbn in Hx. by apply lookup_empty_Some in Hx.
Qed.

(** The bound is reached with a single usage reporting rule in the whole UPF: one packet, reported for that rule with twice its size
    when the session is deleted. *)
Definition ex_usage : list act :=
  [Signal ex_setup; Signal (ex_recv 2 (ex_est_of [ex_urr_pdr] [Some 4])); Packet ex_env ex_up; Signal (ex_recv 3 (SessDelReq 2))].
Lemma ex_usage_real : Forall real ex_usage.
Proof.
  unfold ex_usage. apply Forall_cons. split; [exact I|]. apply Forall_cons. split; [exact I|]. apply Forall_cons.
  split; [exact ex_env_ok|]. apply Forall_cons. split; [exact I|]. apply Forall_nil. exact I.
Qed.
Theorem reported_at_most_carried_refuted :
  exists c ms, Forall real ex_usage /\ play_all (init ex_cfg ex_small_rm (dp_init 8 8 8 8)) ex_usage = Some (c, ms) /\
    carried Ul ms = N.of_nat (length ex_up) /\ carried Dl ms = 0 /\
    reported Ul ms = 2 * carried Ul ms /\ reported Total ms = 2 * carried Ul ms /\ reported Dl ms = 0 /\
    (m_resp <$> last ms) ≫= (fun x => r_reports <$> x) = Some [Report 4 1 (2 * carried Ul ms) (2 * carried Ul ms) 0].
Proof.
  assert (H : match play_all (init ex_cfg ex_small_rm (dp_init 8 8 8 8)) ex_usage with
    | Some (c, ms) => (carried Ul ms =? N.of_nat (length ex_up)) && (carried Dl ms =? 0) && (reported Ul ms =? 2 * carried Ul ms) &&
                      (reported Total ms =? 2 * carried Ul ms) && (reported Dl ms =? 0) &&
                      bool_decide ((m_resp <$> last ms) ≫= (fun x => r_reports <$> x) = Some [Report 4 1 (2 * carried Ul ms) (2 * carried Ul ms) 0])
    | None => false end = true) by by vm_compute.
  destruct (play_all _ ex_usage) as [[c ms]|]; [|discriminate H]. exists c, ms. split; [exact ex_usage_real|]. split; [reflexivity|].
  rewrite !andb_true_iff, !N.eqb_eq, bool_decide_eq_true in H. tauto.
Qed.
