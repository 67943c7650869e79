(** C47, C48, C54, C62, C63: configuration, start-up, features, association refresh
    (cmd/config/config.go, cmd/main.go, cmd/api/rest/config.go, cmd/core/config_edit.go, cmd/core/logger.go, cmd/core/pfcp_connection.go). *)
From Verif Require Import Base IdTracker ResourceManager SdfParser SdfProps MapOps Pfcp PfcpProps PfcpHistory PfcpReach PfcpRules PfcpCreate PfcpRemove.
Open Scope N_scope.

(** ** Model *)

(** Texts are byte strings. *)
Definition text := list N.

(** config.go:13-39 [UpfConfig]. *)
Record config := Config {
  k_ifaces : list text; k_attach : text; k_api : text; k_pfcp : text; k_node : text; k_remotes : list text; k_setup_timeout : N;
  k_metrics : text; k_n3 : text; k_n9 : text; k_peers : list text; k_echo : N;
  k_qer : N; k_far : N; k_urr : N; k_pdr : N; k_max : N;
  k_hb_retries : N; k_hb_interval : N; k_hb_timeout : N; k_log : text; k_ueip_pool : text; k_teid_pool : N;
  k_ueip : bool; k_ftup : bool }.
Global Instance config_eq_dec : EqDecision config. Proof. solve_decision. Defined.

(** The field checks of the validator package (hostname_port, hostname|ip, ipv4, cidr), the attach modes and the names
    that zerolog.ParseLevel knows: any predicates. *)
Record checks := Checks { is_hostport : text -> bool; is_host : text -> bool; is_ipv4 : text -> bool; is_cidr : text -> bool;
                          is_mode : text -> bool; is_level : text -> bool }.
(** config.go:15-35: the validate tags. *)
Definition tags_ok (k : checks) (c : config) : bool :=
  is_mode k (k_attach c) && is_hostport k (k_api c) && is_hostport k (k_pfcp c) && is_host k (k_node c) && forallb (is_host k) (k_remotes c) &&
  is_hostport k (k_metrics c) && is_ipv4 k (k_n3 c) && is_ipv4 k (k_n9 c) && forallb (is_hostport k) (k_peers c) && (1 <=? k_echo c) &&
  negb (bool_decide (k_log c = [])) && is_cidr k (k_ueip_pool c).

Definition set_pools (ueip : text) (teid : N) (c : config) : config :=
  Config (k_ifaces c) (k_attach c) (k_api c) (k_pfcp c) (k_node c) (k_remotes c) (k_setup_timeout c) (k_metrics c) (k_n3 c) (k_n9 c)
    (k_peers c) (k_echo c) (k_qer c) (k_far c) (k_urr c) (k_pdr c) (k_max c) (k_hb_retries c) (k_hb_interval c) (k_hb_timeout c)
    (k_log c) ueip teid (k_ueip c) (k_ftup c).
Definition set_sizes (qer far urr pdr : N) (c : config) : config :=
  Config (k_ifaces c) (k_attach c) (k_api c) (k_pfcp c) (k_node c) (k_remotes c) (k_setup_timeout c) (k_metrics c) (k_n3 c) (k_n9 c)
    (k_peers c) (k_echo c) qer far urr pdr (k_max c) (k_hb_retries c) (k_hb_interval c) (k_hb_timeout c)
    (k_log c) (k_ueip_pool c) (k_teid_pool c) (k_ueip c) (k_ftup c).
Definition set_level (l : text) (c : config) : config :=
  Config (k_ifaces c) (k_attach c) (k_api c) (k_pfcp c) (k_node c) (k_remotes c) (k_setup_timeout c) (k_metrics c) (k_n3 c) (k_n9 c)
    (k_peers c) (k_echo c) (k_qer c) (k_far c) (k_urr c) (k_pdr c) (k_max c) (k_hb_retries c) (k_hb_interval c) (k_hb_timeout c)
    l (k_ueip_pool c) (k_teid_pool c) (k_ueip c) (k_ftup c).

(** config.go:118-145 [Validate]; [None]: error. *)
Definition validate (k : checks) (c : config) : option config :=
  if tags_ok k c then
    let c := set_pools (if k_ueip c then k_ueip_pool c else []) (if k_ftup c then k_teid_pool c else 0) c in
    let pdr := if k_pdr c =? 0 then u32 (k_max c * 2) else k_pdr c in
    let far := if k_far c =? 0 then u32 (k_max c * 2) else k_far c in
    let qer := if k_qer c =? 0 then k_max c else k_qer c in
    let urr := if k_urr c =? 0 then u32 (k_max c * 2) else k_urr c in
    Some (set_sizes qer far urr pdr c)
  else None.

(** The configuration edit.  Global state: the configuration object (config.Conf, to which ApiHandler.Cfg points: main.go:110)
    and the level of the logger. *)
Record gstate := Gstate { gs_conf : config; gs_level : text }.
(** logger.go:17-28 [SetLoggerLevel] with config_edit.go:11-18 [SetConfig]; level names are kept as written
    (zerolog prints some of them differently). *)
Definition set_logger_level (k : checks) (l : text) (g : gstate) : bool * gstate :=
  if bool_decide (l = []) then (false, g)
  else if is_level k l then (true, Gstate (set_level l (gs_conf g)) l) else (false, g).
(** rest/config.go:22-41 [editConfig]; [None]: a body that does not bind.  HTTP status and state. *)
Definition edit_config (k : checks) (body : option config) (g : gstate) : N * gstate :=
  match body with
  | None => (400, g)
  | Some conf =>
      match set_logger_level k (k_log conf) (Gstate conf (gs_level g)) with
      | (true, g') => (200, g')
      | (false, g') => (400, g')
      end
  end.

(** Start-up (main.go:44-51, 85-96, 103, 132-136) with a validated configuration: maps of the configured sizes (a BPF map of 0 entries
    is refused by the kernel: exit), pools from the configuration ([pool]: the base and length of the IPv4 prefix a CIDR text denotes;
    [None]: ipnetgen refuses it, then the resource manager is nil), then the goroutine that creates its ticker
    (pfcp_connection.go:115: time.NewTicker panics on a period that is not positive; gtp_path_manager.go:40 likewise).
    Not modelled: interfaces, sockets and addresses that cannot be used, which exit. *)
Inductive started := Serving (c : conn) | Exits | Panics | Hangs.
Definition start (pool : text -> option (N * N)) (g : cfg) (c : config) : started :=
  if (k_pdr c =? 0) || (k_far c =? 0) || (k_qer c =? 0) || (k_urr c =? 0) then Exits
  else if k_teid_pool c =? 4294967295 then Hangs (** resource_manager.go:57-59; see teid_loop_diverges_at_max *)
  else if (k_setup_timeout c =? 0) || (k_echo c =? 0) then Panics
  else
    let ips := match k_ueip_pool c with [] => Some (Ipam [] ∅) | t => (fun p => new_ipam (fst p) (snd p)) <$> pool t end in
    Serving (init (Cfg (k_ftup c) (k_ueip c) (g_node g) (g_addr g) (g_n3 g) (g_rts g))
               ((fun i => Rman (new_fteidm (k_teid_pool c)) i) <$> ips)
               (dp_init (k_pdr c) (k_far c) (k_qer c) (k_urr c))).
(** config/startup.go:10-20 [Init]: an invalid configuration ends the process. *)
Definition boot (k : checks) (pool : text -> option (N * N)) (g : cfg) (c : config) : started :=
  match validate k c with None => Exits | Some c => start pool g c end.

(** pfcp_connection.go:173-179 [RefreshAssociations] on every tick: the configured texts are looked up among the
    associations, which are stored under the text of the peer's address ([ip_text]). *)
Definition refresh (ip_text : N -> text) (remotes : list text) (c : conn) : list text :=
  List.filter (fun r => negb (existsb (fun x => bool_decide (ip_text (fst x) = r)) (map_to_list (c_assocs c)))) remotes.

(** The running process with its global configuration.  [n_octets]: PfcpConnection.featuresOctets, computed once
    (pfcp_connection.go:82-89); [n_remotes]: the nodes, set once (main.go:98-102).  config.Conf is read again for every PDR
    (pdr_creation_context.go:142), which is why the connection's [g_ueip] follows it. *)
Record node := Node { n_octets : list N; n_remotes : list text; n_conn : conn; n_g : gstate }.
Inductive nevent := Net (e : event) | Edit (body : option config) | Tick.
Definition live_cfg (c : config) (g : cfg) : cfg := Cfg (g_ftup g) (k_ueip c) (g_node g) (g_addr g) (g_n3 g) (g_rts g).
Definition live_conn (n : node) : conn :=
  let c := n_conn n in Conn (c_assocs c) (c_dp c) (c_rm c) (live_cfg (gs_conf (n_g n)) (c_cfg c)).
(** What leaves with a UP Function Features element: answers to association setup requests (pfcp_handlers.go:123-130) and the
    requests sent on a tick (pfcp_connection.go:246-264), by the text of the node they go to. *)
Inductive sent := SetupAnswer (features : list N) | SetupRequest (to : text) (features : list N).
Definition features_of (s : sent) : list N := match s with SetupAnswer f | SetupRequest _ f => f end.
Definition nstep (k : checks) (ip_text : N -> text) (n : node) (e : nevent) : option (node * list sent) :=
  match e with
  | Net e => match step (live_conn n) e with
             | Crash => None
             | Done c r => Some (Node (n_octets n) (n_remotes n) c (n_g n),
                                 match r with Some r => match r_features r with Some _ => [SetupAnswer (n_octets n)] | None => [] end | None => [] end)
             end
  | Edit b => Some (Node (n_octets n) (n_remotes n) (n_conn n) (snd (edit_config k b (n_g n))), [])
  | Tick => Some (n, (fun r => SetupRequest r (n_octets n)) <$> refresh ip_text (n_remotes n) (n_conn n))
  end.
Fixpoint nrun (k : checks) (ip_text : N -> text) (n : node) (es : list nevent) : option (node * list sent) :=
  match es with
  | [] => Some (n, [])
  | e :: r => match nstep k ip_text n e with
              | None => None
              | Some (n1, s1) => match nrun k ip_text n1 r with Some (n2, s2) => Some (n2, s1 ++ s2) | None => None end
              end
  end.
(** The node when serving starts with the validated configuration [conf]. *)
Definition node_start (conf : config) (c : conn) : node := Node (feature_octets (c_cfg c)) (k_remotes conf) c (Gstate conf (k_log conf)).

(** ** C47: defaults *)

(** A valid configuration (docs/Configuration.md and the tags of the fields, spelled out). *)
Record valid (k : checks) (c : config) : Prop := Valid {
  va_attach : is_mode k (k_attach c) = true;
  va_api : is_hostport k (k_api c) = true;
  va_pfcp : is_hostport k (k_pfcp c) = true;
  va_node : is_host k (k_node c) = true;
  va_remotes : forall r, r ∈ k_remotes c -> is_host k r = true;
  va_metrics : is_hostport k (k_metrics c) = true;
  va_n3 : is_ipv4 k (k_n3 c) = true;
  va_n9 : is_ipv4 k (k_n9 c) = true;
  va_peers : forall p, p ∈ k_peers c -> is_hostport k p = true;
  va_echo : 0 < k_echo c;
  va_log : k_log c <> [];
  va_pool : is_cidr k (k_ueip_pool c) = true }.
Lemma tags_valid k c : tags_ok k c = true <-> valid k c.
Proof.
  unfold tags_ok. rewrite !andb_true_iff, !forallb_forall, N.leb_le, negb_true_iff, bool_decide_eq_false. split.
  - intros [[[[[[[[[[[H1 H2] H3] H4] H5] H6] H7] H8] H9] H10] H11] H12].
    constructor; try done; [|..|lia]; intros x Hx%elem_of_list_In; auto.
  - intros [H1 H2 H3 H4 H5 H6 H7 H8 H9 H10 H11 H12]. split_and!; try done; [|..|lia]; intros x Hx%elem_of_list_In; auto.
Qed.
(** Exactly the valid configurations are accepted. *)
Theorem invalid_config_refused :
  forall k c, valid k c <-> is_Some (validate k c).
Proof. intros k c. rewrite <- tags_valid. unfold validate. destruct (tags_ok k c); split; try done; by intros [? ?]. Qed.

Theorem config_defaults :
  forall k c c', validate k c = Some c' ->
    (k_ftup c = false -> k_teid_pool c' = 0) /\ (k_ftup c = true -> k_teid_pool c' = k_teid_pool c) /\
    (k_ueip c = false -> k_ueip_pool c' = []) /\ (k_ueip c = true -> k_ueip_pool c' = k_ueip_pool c) /\
    (k_max c < 2 ^ 31 ->
      k_pdr c' = (if k_pdr c =? 0 then 2 * k_max c else k_pdr c) /\
      k_far c' = (if k_far c =? 0 then 2 * k_max c else k_far c) /\
      k_urr c' = (if k_urr c =? 0 then 2 * k_max c else k_urr c)) /\
    k_qer c' = (if k_qer c =? 0 then k_max c else k_qer c) /\
    (** nothing else changes *)
    set_pools (k_ueip_pool c) (k_teid_pool c) (set_sizes (k_qer c) (k_far c) (k_urr c) (k_pdr c) c') = c.
Proof.
  intros k c c'. unfold validate. destruct (tags_ok k c); [|done]. intros [= <-]. simpl.
  split_and!; try (by intros ->); [|done|by destruct c].
  intros Hm. unfold u32. rewrite !N.mod_small by lia. rewrite !(N.mul_comm (k_max c)). done.
Qed.

(** With 2^31 sessions or more the doubled size wraps; with 2^31 it is zero and the UPF cannot start. *)
Definition ex_checks : checks := Checks (fun _ => true) (fun _ => true) (fun _ => true) (fun _ => true) (fun _ => true) (fun t => bool_decide (t = [105])).
Definition ex_config (max teid setup : N) : config :=
  Config [] [103] [58] [58] [49] [[115; 109; 102]] setup [58] [49] [49] [] 10 0 0 0 0 max 3 5 5 [105] [49] teid false true.
Theorem config_defaults_refuted :
  exists k c c', k_max c < 2 ^ 32 /\ k_pdr c = 0 /\ k_max c <> 0 /\ validate k c = Some c' /\ k_pdr c' <> 2 * k_max c /\ k_pdr c' = 0.
Proof. exists ex_checks, (ex_config 2147483648 65535 5). eexists. split_and!; [done..|vm_compute; reflexivity|done|done]. Qed.

Example ex_config_defaults : exists c', validate ex_checks (ex_config 65535 65535 5) = Some c' /\
  k_pdr c' = 131070 /\ k_qer c' = 65535 /\ k_teid_pool c' = 65535 /\ k_ueip_pool c' = [].
Proof. eexists. split; [vm_compute; reflexivity|done]. Qed.

(** ** C63: a valid configuration starts *)

Theorem valid_config_starts_partial :
  forall k pool g c, valid k c -> 0 < k_max c < 2 ^ 31 -> k_setup_timeout c <> 0 ->
    (k_ftup c = true -> k_teid_pool c < 4294967295) ->
    exists conn, boot k pool g c = Serving conn /\ reachable conn /\ c_assocs conn = ∅ /\
      g_ftup (c_cfg conn) = k_ftup c /\ g_ueip (c_cfg conn) = k_ueip c /\
      (** the maps are empty and have room for as many rules as configured, or else as the sessions need *)
      d_up (c_dp conn) = ∅ /\ d_dn4 (c_dp conn) = ∅ /\ d_dn6 (c_dp conn) = ∅ /\
      d_pdr_max (c_dp conn) = (if k_pdr c =? 0 then 2 * k_max c else k_pdr c) /\
      d_far_size (c_dp conn) = (if k_far c =? 0 then 2 * k_max c else k_far c) /\
      d_qer_size (c_dp conn) = (if k_qer c =? 0 then k_max c else k_qer c) /\
      d_urr_size (c_dp conn) = (if k_urr c =? 0 then 2 * k_max c else k_urr c) /\
      (** the pools are those of the configuration, if the feature is enabled *)
      (k_ueip c = true -> k_ueip_pool c <> [] ->
        c_rm conn = (fun i => Rman (new_fteidm (if k_ftup c then k_teid_pool c else 0)) i) <$>
                    ((fun p => new_ipam (fst p) (snd p)) <$> pool (k_ueip_pool c))) /\
      (k_ueip c = false -> c_rm conn = Some (Rman (new_fteidm (if k_ftup c then k_teid_pool c else 0)) (Ipam [] ∅))).
Proof.
  intros k pool g c Ht%tags_valid Hm Hs Hp. unfold boot, validate. rewrite Ht.
  assert (He : k_echo c <> 0).
  { unfold tags_ok in Ht. rewrite !andb_true_iff in Ht. destruct Ht as [[[_ Ht] _] _]. apply N.leb_le in Ht. lia. }
  assert (Hz : forall x y, y <> 0 -> ((if x =? 0 then y else x) =? 0) = false).
  { intros x y Hy. destruct (N.eqb_spec x 0); apply N.eqb_neq; lia. }
  unfold start. simpl. unfold u32. rewrite !Hz by (rewrite ?N.mod_small; lia). simpl.
  replace ((if k_ftup c then k_teid_pool c else 0) =? 4294967295) with false
    by (symmetry; apply N.eqb_neq; destruct (k_ftup c); [specialize (Hp eq_refl)|]; lia).
  rewrite (proj2 (N.eqb_neq _ _) Hs), (proj2 (N.eqb_neq _ _) He). simpl.
  eexists. split; [reflexivity|]. cbn [init c_assocs c_cfg c_dp c_rm dp_init g_ftup g_ueip d_up d_dn4 d_dn6 d_pdr_max d_far_size d_qer_size d_urr_size].
  split; [|rewrite !N.mod_small, !(N.mul_comm (k_max c)) by lia; split_and!; try done;
    [intros ->; by destruct (k_ueip_pool c)|by intros ->]].
  apply reachable_init.
  destruct (if k_ueip c then k_ueip_pool c else []) as [|x t] eqn:E; simpl.
  - right. exists (if k_ftup c then k_teid_pool c else 0), 0, 32. done.
  - destruct (pool (x :: t)) as [[b n]|]; simpl; [right; eauto|by left].
Qed.

(** Exactly the configurations that start: the sizes of the maps have to be given or follow from the number of sessions. *)
Theorem starts_exactly_partial :
  forall k pool g c, k_max c < 2 ^ 31 ->
    ((exists conn, boot k pool g c = Serving conn) <->
     valid k c /\ (k_max c <> 0 \/ (k_pdr c <> 0 /\ k_far c <> 0 /\ k_qer c <> 0 /\ k_urr c <> 0)) /\
     (k_ftup c = true -> k_teid_pool c <> 2 ^ 32 - 1) /\ k_setup_timeout c <> 0).
Proof.
  intros k pool g c Hm. rewrite <- tags_valid. unfold boot, validate. destruct (tags_ok k c) eqn:Ht; [|split; [by intros [? ?]|by intros [? _]]].
  assert (He : k_echo c <> 0).
  { unfold tags_ok in Ht. rewrite !andb_true_iff in Ht. destruct Ht as [[[_ Ht] _] _]. apply N.leb_le in Ht. lia. }
  unfold start. cbn [k_pdr k_far k_qer k_urr k_teid_pool k_setup_timeout k_echo set_sizes set_pools k_max k_ueip_pool k_ftup k_ueip].
  unfold u32. rewrite !N.mod_small by lia. rewrite (proj2 (N.eqb_neq _ _) He), orb_false_r.
  assert (Hz : forall x y, ((if x =? 0 then y else x) =? 0) = (x =? 0) && (y =? 0)).
  { intros x y. destruct (N.eqb_spec x 0); [done|by apply N.eqb_neq]. }
  rewrite !Hz. assert (E2 : (k_max c * 2 =? 0) = (k_max c =? 0)) by (destruct (N.eqb_spec (k_max c) 0), (N.eqb_spec (k_max c * 2) 0); lia). rewrite E2.
  assert (Hsz : ((k_pdr c =? 0) && (k_max c =? 0) || (k_far c =? 0) && (k_max c =? 0) || (k_qer c =? 0) && (k_max c =? 0) || (k_urr c =? 0) && (k_max c =? 0)) = false
     <-> (k_max c <> 0 \/ (k_pdr c <> 0 /\ k_far c <> 0 /\ k_qer c <> 0 /\ k_urr c <> 0))).
  { destruct (N.eqb_spec (k_max c) 0), (N.eqb_spec (k_pdr c) 0), (N.eqb_spec (k_far c) 0), (N.eqb_spec (k_qer c) 0), (N.eqb_spec (k_urr c) 0); cbn; split; try done; intros; try lia; tauto. }
  destruct ((k_pdr c =? 0) && (k_max c =? 0) || (k_far c =? 0) && (k_max c =? 0) || (k_qer c =? 0) && (k_max c =? 0) || (k_urr c =? 0) && (k_max c =? 0)).
  { split; [by intros [? ?]|]. intros (_ & H & _). apply Hsz in H. done. }
  assert (Hp : ((if k_ftup c then k_teid_pool c else 0) =? 4294967295) = false <-> (k_ftup c = true -> k_teid_pool c <> 2 ^ 32 - 1)).
  { rewrite N.eqb_neq. destruct (k_ftup c); split; intros H; try done. by apply H. }
  destruct ((if k_ftup c then k_teid_pool c else 0) =? 4294967295).
  { split; [by intros [? ?]|]. intros (_ & _ & H & _). apply Hp in H. done. }
  destruct (N.eqb_spec (k_setup_timeout c) 0); split.
  - by intros [? ?].
  - by intros (_ & _ & _ & ?).
  - intros _. split_and!; try done; [by apply Hsz|by apply Hp].
  - intros _. eauto.
Qed.

(** The three ways in which it does not. *)
Theorem valid_config_starts_refuted :
  forall pool g,
    (exists k c, valid k c /\ boot k pool g c = Panics) /\
    (exists k c, valid k c /\ boot k pool g c = Exits) /\
    (exists k c, valid k c /\ k_teid_pool c < 2 ^ 32 /\ boot k pool g c = Hangs).
Proof.
  intros pool g. split_and!; exists ex_checks.
  - exists (ex_config 65535 65535 0). split; [by apply tags_valid|done].
  - exists (ex_config 0 65535 5). split; [by apply tags_valid|done].
  - exists (ex_config 65535 4294967295 5). split; [by apply tags_valid|done].
Qed.

(** ** C54: features *)

(** Bit [j] of octet [i]: FTUP is bit 5 of octet 5, EMPU bit 1 of octet 6, UEIP bit 3 of octet 7 of the element (TS 29.244, 8.2.25). *)
Definition advertises (features : list N) (i : nat) (j : N) : Prop := N.testbit (nth i features 0) j = true.
Definition FTUP (f : list N) : Prop := advertises f 0 4.
Definition EMPU (f : list N) : Prop := advertises f 1 0.
Definition UEIP (f : list N) : Prop := advertises f 2 2.

Lemma octets_spec g : let f := feature_octets g in
  length f = 3%nat /\ (FTUP f <-> g_ftup g = true) /\ (UEIP f <-> g_ueip g = true) /\ EMPU f /\
  forall i j, advertises f i j -> (i, j) = (0%nat, 4) \/ (i, j) = (1%nat, 0) \/ (i, j) = (2%nat, 2).
Proof.
  intros f. split_and!; [done|..]; unfold f, FTUP, UEIP, EMPU, advertises, feature_octets.
  - by destruct (g_ftup g).
  - by destruct (g_ueip g).
  - done.
  - assert (Hs : forall p j, N.testbit (set_bit 0 p) j = true -> j = p).
    { intros p j. unfold set_bit. rewrite N.lor_0_l, N.shiftl_1_l. intros H. destruct (N.eq_dec p j) as [|Hn]; [done|].
      by rewrite (N.pow2_bits_false _ _ Hn) in H. }
    intros i j. destruct i as [|[|[|i]]]; cbn [nth]; [destruct (g_ftup g)| |destruct (g_ueip g)|destruct i];
      rewrite ?N.bits_0; try done; intros Hj%Hs; subst; auto.
Qed.

Lemma nrun_octets k ip es : forall n n' l, nrun k ip n es = Some (n', l) ->
  n_octets n' = n_octets n /\ n_remotes n' = n_remotes n /\ Forall (fun s => features_of s = n_octets n) l.
Proof.
  induction es as [|e es IH]; intros n n' l H; simpl in H; [by simplify_eq|].
  destruct (nstep k ip n e) as [[n1 s1]|] eqn:E; [|done].
  destruct (nrun k ip n1 es) as [[n2 s2]|] eqn:E2; simplify_eq.
  apply IH in E2 as (Ho & Hr & Hf).
  assert (Hn : n_octets n1 = n_octets n /\ n_remotes n1 = n_remotes n /\ Forall (fun s => features_of s = n_octets n) s1).
  { destruct e; simpl in E.
    - destruct (step _ _) as [c r|]; simplify_eq. split_and!; [done..|]. destruct r as [r|]; [|done]. destruct (r_features r); [|done].
      by repeat constructor.
    - by simplify_eq.
    - simplify_eq. split_and!; [done..|]. apply Forall_fmap. by apply Forall_true. }
  destruct Hn as (Hn1 & Hn2 & Hn3). split_and!; [congruence..|]. apply Forall_app. split; [done|]. by rewrite <- Hn1.
Qed.

(** Every UP Function Features element sent, in answers and in requests, whatever happened since the start. *)
Theorem features_as_started_partial :
  forall k pool g c conf conn ip es n l f,
    validate k c = Some conf -> start pool g conf = Serving conn ->
    nrun k ip (node_start conf conn) es = Some (n, l) -> f ∈ features_of <$> l ->
    length f = 3%nat /\ (FTUP f <-> k_ftup c = true) /\ (UEIP f <-> k_ueip c = true) /\ EMPU f /\
    forall i j, advertises f i j -> (i, j) = (0%nat, 4) \/ (i, j) = (1%nat, 0) \/ (i, j) = (2%nat, 2).
Proof.
  intros k pool g c conf conn ip es n l f Hv Hs Hr Hf. apply nrun_octets in Hr as (_ & _ & Hall).
  apply elem_of_list_fmap in Hf as (s & -> & Hin). rewrite Forall_forall in Hall. rewrite (Hall _ Hin). simpl.
  pose proof (octets_spec (c_cfg conn)) as H. cbv zeta in H.
  assert (Hc : g_ftup (c_cfg conn) = k_ftup c /\ g_ueip (c_cfg conn) = k_ueip c).
  { unfold validate in Hv. destruct (tags_ok k c); [|done]. simplify_eq. unfold start in Hs. repeat case_match; simplify_eq; done. }
  destruct Hc as [<- <-]. exact H.
Qed.

(** The answer to an association setup request carries that element. *)
Theorem setup_answer_sent :
  forall k ip n addr seq nd t sh, exists n', nstep k ip n (Net (Recv sh addr seq (AssocSetupReq (Good nd) (Good t)))) = Some (n', [SetupAnswer (n_octets n)]).
Proof. intros. eexists. reflexivity. Qed.

(** Refuted when the configuration is edited: the edited UEIP feature takes effect for new PDRs, but is not advertised. *)
Theorem features_after_edit_refuted :
  exists k conf conn es n f, start (fun _ => None) (Cfg false false 1 1 1 1) conf = Serving conn /\
    nrun k (fun a => [a]) (node_start conf conn) es = Some (n, [SetupAnswer f]) /\
    k_ueip (gs_conf (n_g n)) = true /\ g_ueip (c_cfg (live_conn n)) = true /\ ~ UEIP f.
Proof.
  destruct (validate ex_checks (ex_config 10 10 5)) as [conf|] eqn:E; [|done].
  exists ex_checks, conf. vm_compute in E. injection E as <-.
  eexists _, [Edit (Some (Config [] [] [] [] [] [] 0 [] [] [] [] 0 0 0 0 0 0 0 0 0 [105] [] 0 true false));
              Net (Recv id_shuffle 7 1 (AssocSetupReq (Good 1) (Good 1)))], _, _.
  split_and!; [vm_compute; reflexivity..|]. vm_compute. done.
Qed.

(** ** C48: configuration edits *)

Theorem unreadable_edit_changes_nothing_partial :
  forall k g, edit_config k None g = (400, g).
Proof. done. Qed.
(** An edit is answered 200 exactly if its logging level is known; whatever the answer the body has replaced the configuration. *)
Theorem edit_status :
  forall k conf g, exists g', edit_config k (Some conf) g = (if is_level k (k_log conf) && negb (bool_decide (k_log conf = [])) then 200 else 400, g') /\
    gs_conf g' = conf /\ gs_level g' = if is_level k (k_log conf) && negb (bool_decide (k_log conf = [])) then k_log conf else gs_level g.
Proof.
  intros k conf g. unfold edit_config, set_logger_level. destruct (bool_decide (k_log conf = [])) eqn:E; simpl.
  - rewrite andb_false_r. eauto.
  - rewrite andb_true_r. destruct (is_level k (k_log conf)); simpl; eauto. eexists. split; [done|]. split; [|done]. by destruct conf.
Qed.
Theorem refused_edit_changes_refuted :
  exists k conf g g', edit_config k (Some conf) g = (400, g') /\ g' <> g /\ gs_conf g' = conf /\ k_max (gs_conf g') <> k_max (gs_conf g).
Proof.
  exists ex_checks, (Config [] [] [] [] [] [] 0 [] [] [] [] 0 0 0 0 0 0 0 0 0 [] [] 0 true false), (Gstate (ex_config 10 10 5) [105]).
  eexists. split; [vm_compute; reflexivity|]. done.
Qed.
(** An accepted edit of one field resets those it does not mention. *)
Theorem partial_edit_resets_refuted :
  exists k conf g g', edit_config k (Some conf) g = (200, g') /\ k_hb_timeout (gs_conf g) = 5 /\ k_hb_timeout (gs_conf g') = 0.
Proof.
  exists ex_checks, (Config [] [] [] [] [] [] 0 [] [] [] [] 0 0 0 0 0 0 0 0 0 [105] [] 0 true false), (Gstate (ex_config 10 10 5) [105]).
  eexists. split; [vm_compute; reflexivity|]. done.
Qed.

(** ** C62: association refresh *)

Lemma elem_of_refresh ip remotes c r :
  r ∈ refresh ip remotes c <-> r ∈ remotes /\ forall a, ip a = r -> c_assocs c !! a = None.
Proof.
  unfold refresh. rewrite elem_of_list_In, filter_In, <- elem_of_list_In. apply and_iff_compat_l.
  rewrite negb_true_iff. split.
  - intros H a Ha. destruct (c_assocs c !! a) as [x|] eqn:E; [|done].
    rewrite <- not_true_iff_false, existsb_exists in H. destruct H. exists (a, x).
    split; [by apply elem_of_list_In, elem_of_map_to_list|]. by apply bool_decide_eq_true.
  - intros H. apply not_true_iff_false. rewrite existsb_exists. intros ([a x] & Hin & Ht).
    apply bool_decide_eq_true in Ht. simpl in Ht. apply elem_of_list_In, elem_of_map_to_list in Hin. by rewrite (H a Ht) in Hin.
Qed.

(** Nodes configured by address: on every tick, in every state, a setup request goes to exactly those without association. *)
Theorem refresh_asks_missing_partial :
  forall k ip n n' l a, nstep k ip n Tick = Some (n', l) -> Inj eq eq ip -> ip a ∈ n_remotes n ->
    n' = n /\ (SetupRequest (ip a) (n_octets n) ∈ l <-> c_assocs (n_conn n) !! a = None).
Proof.
  intros k ip n n' l a H Hi Ha. simpl in H. simplify_eq. split; [done|]. rewrite elem_of_list_fmap. split.
  - intros (r & Hr & Hin). simplify_eq. apply elem_of_refresh in Hin as [_ Hin]. by apply Hin.
  - intros Hn. exists (ip a). split; [done|]. apply elem_of_refresh. split; [done|]. intros b Hb. by apply Hi in Hb as ->.
Qed.
(** Nothing is sent to anybody else, and on no other event is a request sent. *)
Theorem refresh_asks_only_configured :
  forall k ip n e n' l r f, nstep k ip n e = Some (n', l) -> SetupRequest r f ∈ l -> e = Tick /\ r ∈ n_remotes n /\ f = n_octets n.
Proof.
  intros k ip n e n' l r f H Hin. destruct e; simpl in H.
  - repeat (case_match; simplify_eq); try (by apply elem_of_nil in Hin). apply elem_of_list_singleton in Hin. done.
  - simplify_eq. by apply elem_of_nil in Hin.
  - simplify_eq. apply elem_of_list_fmap in Hin as (x & Hx & Hin). simplify_eq. apply elem_of_refresh in Hin as [? _]. done.
Qed.
(** Whatever happens after the start, edits of the configuration included: only the nodes configured at the start are asked. *)
Theorem asked_are_configured :
  forall k ip conf conn es n l r f,
    nrun k ip (node_start conf conn) es = Some (n, l) -> SetupRequest r f ∈ l -> r ∈ k_remotes conf.
Proof.
  intros k ip conf conn es n l r f H Hin.
  assert (forall es n n' l, nrun k ip n es = Some (n', l) -> SetupRequest r f ∈ l -> r ∈ n_remotes n) as G.
  { clear. induction es as [|e es IH]; intros n n' l H Hin; simpl in H; [simplify_eq; by apply elem_of_nil in Hin|].
    destruct (nstep k ip n e) as [[n1 s1]|] eqn:E; [|done].
    destruct (nrun k ip n1 es) as [[n2 s2]|] eqn:E2; simplify_eq.
    apply elem_of_app in Hin as [Hin|Hin]; [by apply (refresh_asks_only_configured _ _ _ _ _ _ _ _ E) in Hin as (_ & ? & _)|].
    assert (n_remotes n1 = n_remotes n) as <-; [|by eapply IH].
    pose proof (nrun_octets k ip [e] n n1 (s1 ++ [])) as Hn. simpl in Hn. rewrite E in Hn. by apply Hn. }
  exact (G _ _ _ _ H Hin).
Qed.
(** A node configured by host name is asked again on every tick although its peer has associated (the hypotheses: "smf" resolves to 7). *)
Theorem refresh_hostname_refuted :
  exists k ip resolve n n' l a, Inj eq eq ip /\ resolve [115; 109; 102] = Some a /\ [115; 109; 102] ∈ n_remotes n /\
    is_Some (c_assocs (n_conn n) !! a) /\ nstep k ip n Tick = Some (n', l) /\ SetupRequest [115; 109; 102] (n_octets n) ∈ l.
Proof.
  set (c0 := init (Cfg true false 1 1 1 1) None (dp_init 10 10 10 10)).
  exists ex_checks, (fun a => [a]), (fun _ : text => Some 7), (node_start (ex_config 10 10 5) (ensure_assoc 7 1 c0)).
  eexists _, _, 7. split_and!; [by intros ?? [= ->]|done|left|by eexists|reflexivity|left].
Qed.

(** The hypotheses of [features_as_started_partial] and [refresh_asks_missing_partial] met: two nodes configured by address, one of which sets up an
    association; the next tick asks the other one. *)
Definition ex_config2 : config :=
  Config [] [103] [58] [58] [49] [[7]; [8]] 5 [58] [49] [49] [] 10 0 0 0 0 100 3 5 5 [105] [49] 10 true true.
Example ex_features_run :
  exists conf conn n, validate ex_checks ex_config2 = Some conf /\ start (fun _ => Some (167772160, 24)) (Cfg false false 1 1 1 1) conf = Serving conn /\
    nrun ex_checks (fun a => [a]) (node_start conf conn) [Net (Recv id_shuffle 7 1 (AssocSetupReq (Good 1) (Good 1))); Tick] =
      Some (n, [SetupAnswer [16; 1; 4]; SetupRequest [8] [16; 1; 4]]).
Proof. eexists _, _, _. split_and!; vm_compute; reflexivity. Qed.

(** ** C85: does an accepted edit take effect? *)
(** Two histories that differ only in what the edits say about anything but the UE address feature. *)
Definition same_but_edits (e e' : nevent) : Prop :=
  match e, e' with
  | Edit (Some c), Edit (Some c') => k_ueip c = k_ueip c'
  | Edit None, Edit None => True
  | Net x, Net y => x = y
  | Tick, Tick => True
  | _, _ => False
  end.
Definition same_node (n n' : node) : Prop :=
  n_octets n = n_octets n' /\ n_remotes n = n_remotes n' /\ n_conn n = n_conn n' /\ k_ueip (gs_conf (n_g n)) = k_ueip (gs_conf (n_g n')).
Lemma edit_ueip k b g : k_ueip (gs_conf (snd (edit_config k (Some b) g))) = k_ueip b.
Proof. destruct (edit_status k b g) as (g' & E & Hc & _). rewrite E. cbn [snd]. by rewrite Hc. Qed.
Lemma nstep_same k ip n n' e e' : same_node n n' -> same_but_edits e e' ->
  match nstep k ip n e, nstep k ip n' e' with
  | Some (m, l), Some (m', l') => same_node m m' /\ l = l'
  | None, None => True
  | _, _ => False
  end.
Proof.
  intros (Ho & Hr & Hc & Hu) He.
  destruct e as [x|[b|]|], e' as [y|[b'|]|]; cbn [same_but_edits] in He; try contradiction.
  - subst y. assert (live_conn n = live_conn n') as E by (unfold live_conn, live_cfg; by rewrite Hc, Hu).
    unfold nstep. rewrite <- E, <- Ho, <- Hr. destruct (step (live_conn n) x) as [c1 r|]; [|exact I]. split; [|reflexivity].
    unfold same_node. cbn [n_octets n_remotes n_conn n_g]. split_and!; [reflexivity..|exact Hu].
  - unfold nstep, same_node. cbn [n_octets n_remotes n_conn n_g]. rewrite !edit_ueip. by split_and!.
  - unfold nstep, same_node. cbn [n_octets n_remotes n_conn n_g]. by split_and!.
  - unfold nstep. rewrite Ho, Hr, Hc. unfold same_node. by split_and!.
Qed.
Lemma nrun_same k ip es es' : Forall2 same_but_edits es es' -> forall n n', same_node n n' ->
  match nrun k ip n es, nrun k ip n' es' with
  | Some (m, l), Some (m', l') => l = l' /\ n_conn m = n_conn m'
  | None, None => True
  | _, _ => False
  end.
Proof.
  induction 1 as [|e e' es es' He _ IH]; intros n n' Hn; cbn [nrun]. { split; [done|]. apply Hn. }
  pose proof (nstep_same k ip n n' e e' Hn He) as Hs.
  destruct (nstep k ip n e) as [[m l]|], (nstep k ip n' e') as [[m' l']|]; try done.
  destruct Hs as [Hm ->]. specialize (IH m m' Hm).
  destruct (nrun k ip m es) as [[m2 l2]|], (nrun k ip m' es') as [[m2' l2']|]; try done. by destruct IH as [-> ?].
Qed.
(** Over every history: what edits say about anything else is without influence on what the UPF sends and on its sessions and rules. *)
Theorem edit_only_ueip_partial :
  forall k ip n es es', Forall2 same_but_edits es es' ->
    match nrun k ip n es, nrun k ip n es' with
    | Some (m, l), Some (m', l') => l = l' /\ n_conn m = n_conn m'
    | None, None => True
    | _, _ => False
    end.
Proof. intros k ip n es es' H. by apply nrun_same. Qed.
(** So an edit that adds a control plane node is answered 200 and shown as the configuration in force, but the node is never asked
    for an association; a UPF started with that configuration asks it. *)
Theorem edit_takes_effect_refuted :
  exists k ip conf conf' conn n, validate k conf' = Some conf' /\ start (fun _ => None) (Cfg false false 1 1 1 1) conf = Serving conn /\
    fst (edit_config k (Some conf') (Gstate conf (k_log conf))) = 200 /\
    nrun k ip (node_start conf conn) [Edit (Some conf'); Tick] = Some (n, []) /\ gs_conf (n_g n) = conf' /\
    (exists conn' n', start (fun _ => None) (Cfg false false 1 1 1 1) conf' = Serving conn' /\
       nrun k ip (node_start conf' conn') [Tick] = Some (n', [SetupRequest [8] [0; 1; 0]])) /\
    forall es n2 l f, nrun k ip (node_start conf conn) es = Some (n2, l) -> SetupRequest [8] f ∉ l.
Proof.
  pose (cf := fun r => Config [] [103] [58] [58] [49] r 5 [58] [49] [49] [] 10 10 10 10 10 10 3 5 5 [105] [] 0 false false).
  exists ex_checks, (fun a => [a]), (cf []), (cf [[8]]). eexists _, _.
  split; [by vm_compute|]. split; [vm_compute; reflexivity|]. split; [by vm_compute|]. split; [vm_compute; reflexivity|]. split; [by vm_compute|].
  split. { eexists _, _. split; [vm_compute; reflexivity|]. vm_compute. reflexivity. }
  intros es n2 l f H Hin. apply (asked_are_configured _ _ _ _ _ _ _ _ _ H) in Hin. by apply elem_of_nil in Hin.
Qed.
