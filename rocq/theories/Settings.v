(** C105: command line, environment and configuration file (cmd/config/config.go, cmd/config/startup.go, docs/Configuration.md). *)
From Verif Require Import Base SdfParser.
From Coq Require Import String.
Open Scope N_scope.

(** ** Model *)

(** Texts are byte strings; values are kept as written. *)
Notation text := (list N).
(** What the user gives: arguments of the command line (a repeated one as a whole), variables of the environment, entries of the
    configuration file (viper compares keys in lower case, in which they are given here). *)
Record given := Given { on_line : gmap text text; in_env : gmap text text; in_file : gmap text text }.
Definition nothing_given : given := Given ∅ ∅ ∅.

(** config.go:43-69, 73-97: the key of each field of the configuration (the mapstructure tags of config.go:14-38), the flag bound to
    it and the default of the flag. *)
Definition bound_keys : list (text * text * text) :=
  (fun x : string * string * string => (str (fst (fst x)), str (snd (fst x)), str (snd x))) <$>
  [("interface_name", "iface", "[]"); ("xdp_attach_mode", "attach", "generic"); ("api_address", "aaddr", ":8080");
   ("pfcp_address", "paddr", "127.0.0.1:8805"); ("pfcp_node_id", "nodeid", "127.0.0.1"); ("pfcp_remote_node", "pfcprnode", "[]");
   ("association_setup_timeout", "astimeout", "5"); ("metrics_address", "maddr", ":9090"); ("n3_address", "n3addr", "127.0.0.1");
   ("n9_address", "n9addr", "n3addr"); ("gtp_peer", "peer", "[]"); ("gtp_echo_interval", "echo", "10"); ("qer_map_size", "qersize", "0");
   ("far_map_size", "farsize", "0"); ("urr_map_size", "urrsize", "0"); ("pdr_map_size", "pdrsize", "0"); ("max_sessions", "maxsessions", "65535");
   ("heartbeat_retries", "hbretries", "3"); ("heartbeat_interval", "hbinterval", "5"); ("heartbeat_timeout", "hbtimeout", "5");
   ("logging_level", "loglvl", "info"); ("feature_ueip", "ueip", "false"); ("feature_ftup", "ftup", "false");
   ("ueip_pool", "ueippool", "10.60.0.0/24"); ("teid_pool", "teidpool", "65535")]%string.
Definition flag_of (key : text) : option (text * text) :=
  match List.find (fun x => bool_decide (fst (fst x) = key)) bound_keys with Some (_, flag, d) => Some (flag, d) | None => None end.
(** viper: the environment variable of a key, with the prefix of config.go:103. *)
Definition upper (c : N) : N := if (97 <=? c) && (c <=? 122) then c - 32 else c.
Definition env_name (key : text) : text := str "UPF_" ++ (upper <$> key).
(** An empty variable counts as not set (viper's default). *)
Definition env_value (g : given) (name : text) : option text := match in_env g !! name with Some [] => None | x => x end.

(** viper's order (find): a flag given, the environment, the file, a default set, the default of the flag. *)
Definition get (g : given) (auto_env : bool) (file : gmap text text) (defaults : gmap text text) (key : text) : text :=
  match flag_of key with
  | None => []
  | Some (flag, d) =>
    match on_line g !! flag with
    | Some v => v
    | None => match (if auto_env then env_value g (env_name key) else None) with
              | Some v => v
              | None => match file !! key with
                        | Some v => v
                        | None => match defaults !! key with Some v => v | None => d end
                        end
              end
    end
  end.
(** config.go:99: the default of n9_address is what n3_address is then, before the environment and the file are looked at. *)
Definition n9_default (g : given) : gmap text text := {[ str "n9_address" := get g false ∅ ∅ (str "n3_address") ]}.
(** config.go:70 (pflag.Parse ends the process on an unknown argument; --config is known), 106-114, 147-149 [UnmarshalExact] and
    startup.go:12-14 (an entry of the file that is no field ends the process).  [None]: the process has ended.  Otherwise the value of each field.
    Values that do not parse end the process too and are not modelled, nor is a file that cannot be read, which counts as empty. *)
Definition settings (g : given) : option (text -> text) :=
  if forallb (fun x => existsb (fun b => bool_decide (snd (fst b) = fst x)) bound_keys || bool_decide (fst x = str "config")) (map_to_list (on_line g)) &&
     forallb (fun x => existsb (fun b => bool_decide (fst (fst b) = fst x)) bound_keys) (map_to_list (in_file g))
  then Some (get g true (in_file g) (n9_default g)) else None.

(** ** Specification: docs/Configuration.md:11-33, the table *)

(** What the parameter is for, its names, and the documented default; [pd_field]: the field of the configuration that is used for it. *)
Record param := Param { pd_field : text; pd_yaml : text; pd_env : text; pd_cli : text; pd_default : text }.
Definition documented : list param :=
  (fun x : string * string * string * string * string => let '(f, y, e, c, d) := x in Param (str f) (str y) (str e) (str c) (str d)) <$>
  [("interface_name", "interface_name", "UPF_INTERFACE_NAME", "iface", "lo");
   ("n3_address", "n3_address", "UPF_N3_ADDRESS", "n3addr", "127.0.0.1");
   ("n9_address", "n9_address", "UPF_N9_ADDRESS", "n9addr", "n3_address");
   ("xdp_attach_mode", "xdp_attach_mode", "UPF_XDP_ATTACH_MODE", "attach", "generic");
   ("api_address", "api_address", "UPF_API_ADDRESS", "aaddr", ":8080");
   ("pfcp_address", "pfcp_address", "UPF_PFCP_ADDRESS", "paddr", ":8805");
   ("pfcp_node_id", "pfcp_node_id", "UPF_PFCP_NODE_ID", "nodeid", "127.0.0.1");
   ("gtp_peer", "gtp_peer", "UPF_GTP_PEER", "peer", "-");
   ("gtp_echo_interval", "echo_interval", "UPF_ECHO_INTERVAL", "echo", "10");
   ("metrics_address", "metrics_address", "UPF_METRICS_ADDRESS", "maddr", ":9090");
   ("qer_map_size", "qer_map_size", "UPF_QER_MAP_SIZE", "qersize", "1024");
   ("far_map_size", "far_map_size", "UPF_FAR_MAP_SIZE", "farsize", "1024");
   ("pdr_map_size", "pdr_map_size", "UPF_PDR_MAP_SIZE", "pdrsize", "1024");
   ("urr_map_size", "urr_map_size", "UPF_URR_MAP_SIZE", "urrsize", "1024");
   ("max_sessions", "max_sessions", "UPF_MAX_SESSIONS", "maxsessions", "65535");
   ("logging_level", "logging_level", "UPF_LOGGING_LEVEL", "loglvl", "info");
   ("feature_ueip", "feature_ueip", "UPF_FEATURE_UEIP", "ueip", "false");
   ("feature_ftup", "feature_ftup", "UPF_FEATURE_FTUP", "ftup", "false");
   ("ueip_pool", "ueip_pool", "UPF_UEIP_POOL", "ueippool", "10.60.0.0/24");
   ("teid_pool", "teid_pool", "UPF_TEID_POOL", "teidpool", "65535");
   ("pfcp_remote_node", "pfcp_node", "UPF_PFCP_NODE", "pfcpnode", "-");
   ("association_setup_timeout", "association_setup_timeout", "UPF_ASSOCIATION_SETUP_TIMEOUT", "astimeout", "5")]%string.
(** docs/Configuration.md:35-39: command line, then environment, then file. *)
Definition asked_for (p : param) (g : given) : option text :=
  match on_line g !! pd_cli p with
  | Some v => Some v
  | None => match env_value g (pd_env p) with Some v => Some v | None => in_file g !! pd_yaml p end
  end.
(** Only what is documented is given. *)
Definition only_documented (l : list param) (g : given) : Prop :=
  (forall x, is_Some (on_line g !! x) -> exists p, p ∈ l /\ pd_cli p = x) /\ (forall x, is_Some (in_file g !! x) -> exists p, p ∈ l /\ pd_yaml p = x).
Definition echo_param (p : param) : bool := bool_decide (pd_field p = str "gtp_echo_interval").
Definition peers_param (p : param) : bool := bool_decide (pd_field p = str "pfcp_remote_node").

(** ** Proof *)
(** Names that agree: the field is the key, the flag is bound to it, and the environment variable is derived from it. *)
Definition well_named (p : param) : bool :=
  bool_decide (pd_yaml p = pd_field p) && bool_decide (pd_env p = env_name (pd_field p)) &&
  match flag_of (pd_field p) with Some (f, _) => bool_decide (pd_cli p = f) | None => false end.
Lemma documented_well_named : List.filter (fun p => negb (well_named p)) documented = List.filter (fun p => echo_param p || peers_param p) documented.
Proof. vm_compute. reflexivity. Qed.
Lemma well_named_if p : p ∈ documented -> echo_param p = false -> peers_param p = false -> well_named p = true.
Proof.
  intros Hp He Hr. destruct (well_named p) eqn:Hw; [done|]. exfalso.
  assert (Hin : In p (List.filter (fun p => negb (well_named p)) documented)) by (apply filter_In; split; [by apply elem_of_list_In|by rewrite Hw]).
  rewrite documented_well_named in Hin. apply filter_In in Hin as [_ H]. by rewrite He, Hr in H.
Qed.
Lemma well_named_inv p : well_named p = true -> pd_yaml p = pd_field p /\ pd_env p = env_name (pd_field p) /\ exists d, flag_of (pd_field p) = Some (pd_cli p, d).
Proof.
  unfold well_named. intros H. rewrite !andb_true_iff in H. destruct H as [[H1%bool_decide_eq_true H2%bool_decide_eq_true] H3]. split; [done|]. split; [done|].
  destruct (flag_of (pd_field p)) as [[f d]|]; [|done]. apply bool_decide_eq_true in H3 as <-. by exists d.
Qed.
Lemma flag_of_bound key f d : flag_of key = Some (f, d) -> (key, f, d) ∈ bound_keys.
Proof.
  unfold flag_of. destruct (List.find _ bound_keys) as [[[k f0] d0]|] eqn:E; [|done]. intros [= <- <-]. apply find_some in E as [E1 E2%bool_decide_eq_true].
  cbn in E2. subst k. by apply elem_of_list_In.
Qed.

(** C105: a documented parameter that is given has the value given, in the documented order, whatever else is given. *)
Theorem documented_parameter_used_partial : forall p g used v,
  p ∈ documented -> echo_param p = false -> peers_param p = false -> settings g = Some used -> asked_for p g = Some v -> used (pd_field p) = v.
Proof.
  intros p g used v Hp He Hr Hs Ha. destruct (well_named_inv p (well_named_if p Hp He Hr)) as (Hy & Hn & d & Hf).
  unfold settings in Hs. destruct (_ && _) in Hs; [|done]. injection Hs as <-. unfold get. rewrite Hf. unfold asked_for in Ha. rewrite Hy, Hn in Ha.
  destruct (on_line g !! pd_cli p) as [w|]; [by injection Ha as ->|]. destruct (env_value g (env_name (pd_field p))) as [w|]; [by injection Ha as ->|]. by rewrite Ha.
Qed.
(** And the UPF does not end because of it. *)
Theorem documented_parameters_accepted_partial : forall g,
  only_documented (List.filter (fun p => negb (echo_param p || peers_param p)) documented) g -> is_Some (settings g).
Proof.
  intros g [H1 H2]. unfold settings.
  assert (Hin : forall p, p ∈ List.filter (fun p => negb (echo_param p || peers_param p)) documented -> exists d, (pd_field p, pd_cli p, d) ∈ bound_keys /\ pd_yaml p = pd_field p).
  { intros p Hp. apply elem_of_list_In, filter_In in Hp as [Hp Hn]. apply negb_true_iff, orb_false_iff in Hn as [Ha Hb]. apply elem_of_list_In in Hp.
    destruct (well_named_inv p (well_named_if p Hp Ha Hb)) as (Hy & _ & d & Hf). exists d. split; [by apply flag_of_bound|done]. }
  assert (E1 : forallb (fun x => existsb (fun b => bool_decide (snd (fst b) = fst x)) bound_keys || bool_decide (fst x = str "config")) (map_to_list (on_line g)) = true).
  { apply forallb_forall. intros [x v] Hx. apply elem_of_list_In, elem_of_map_to_list in Hx. destruct (H1 x) as (p & Hp & <-); [by eexists|]. destruct (Hin p Hp) as (d & Hb & _).
    apply orb_true_iff. left. apply existsb_exists. exists (pd_field p, pd_cli p, d). split; [by apply elem_of_list_In|]. by apply bool_decide_eq_true. }
  assert (E2 : forallb (fun x => existsb (fun b => bool_decide (fst (fst b) = fst x)) bound_keys) (map_to_list (in_file g)) = true).
  { apply forallb_forall. intros [x v] Hx. apply elem_of_list_In, elem_of_map_to_list in Hx. destruct (H2 x) as (p & Hp & <-); [by eexists|]. destruct (Hin p Hp) as (d & Hb & Hy).
    apply existsb_exists. exists (pd_field p, pd_cli p, d). split; [by apply elem_of_list_In|]. by apply bool_decide_eq_true. }
  by rewrite E1, E2.
Qed.

(** Defaults.  Those of the documentation that are others than the code's, or in words: *)
Definition default_differs (p : param) : bool :=
  existsb (fun f => bool_decide (pd_field p = str f))
    ["interface_name"; "n9_address"; "pfcp_address"; "gtp_peer"; "gtp_echo_interval"; "qer_map_size"; "far_map_size"; "pdr_map_size"; "urr_map_size"; "pfcp_remote_node"]%string.
Lemma defaults_agree : forallb (fun p => default_differs p || well_named p && match flag_of (pd_field p) with Some (_, d) => bool_decide (d = pd_default p) | None => false end &&
  negb (bool_decide (pd_field p = str "n9_address"))) documented = true.
Proof. vm_compute. reflexivity. Qed.
Theorem documented_default_used_partial : forall p g used,
  p ∈ documented -> default_differs p = false -> settings g = Some used -> asked_for p g = None -> used (pd_field p) = pd_default p.
Proof.
  intros p g used Hp Hd Hs Ha. pose proof defaults_agree as H. rewrite forallb_forall in H. apply elem_of_list_In, H in Hp. rewrite Hd in Hp. cbn [orb] in Hp.
  rewrite !andb_true_iff in Hp. destruct Hp as [[Hw Hf] Hn%negb_true_iff%bool_decide_eq_false]. destruct (well_named_inv p Hw) as (Hy & He & d & Hd').
  rewrite Hd' in Hf. apply bool_decide_eq_true in Hf. unfold settings in Hs. destruct (_ && _) in Hs; [|done]. injection Hs as <-. unfold get. rewrite Hd'.
  unfold asked_for in Ha. rewrite Hy, He in Ha. destruct (on_line g !! pd_cli p); [done|]. destruct (env_value g (env_name (pd_field p))); [done|]. rewrite Ha.
  unfold n9_default. rewrite lookup_singleton_ne by congruence. done.
Qed.

(** The address for N9, when it is not given. *)
Definition n3 : text := str "n3_address".
Definition n9 : text := str "n9_address".
Lemma flag_n3 : flag_of n3 = Some (str "n3addr", str "127.0.0.1"). Proof. vm_compute. reflexivity. Qed.
Lemma flag_n9 : flag_of n9 = Some (str "n9addr", str "n3addr"). Proof. vm_compute. reflexivity. Qed.
Theorem n9_default_partial : forall g used, settings g = Some used ->
  on_line g !! str "n9addr" = None -> env_value g (str "UPF_N9_ADDRESS") = None -> in_file g !! n9 = None ->
    used n9 = default (str "127.0.0.1") (on_line g !! str "n3addr") /\
    (is_Some (on_line g !! str "n3addr") \/ env_value g (str "UPF_N3_ADDRESS") = None /\ in_file g !! n3 = None -> used n9 = used n3).
Proof.
  intros g used Hs H1 H2 H3. unfold settings in Hs. destruct (_ && _) in Hs; [|done]. injection Hs as <-.
  change (str "UPF_N9_ADDRESS") with (env_name n9) in H2. change (str "UPF_N3_ADDRESS") with (env_name n3).
  assert (E9 : get g true (in_file g) (n9_default g) n9 = default (str "127.0.0.1") (on_line g !! str "n3addr")).
  { unfold get. rewrite flag_n9, H1, H2, H3. unfold n9_default. fold n9 n3. rewrite lookup_singleton. unfold get. rewrite flag_n3. destruct (on_line g !! str "n3addr"); [done|].
    rewrite !lookup_empty. done. }
  split; [done|]. rewrite E9. intros H. unfold get. rewrite flag_n3. destruct (on_line g !! str "n3addr") as [v|]; [done|]. destruct H as [[? H]|[Ha Hb]]; [done|].
  rewrite Ha, Hb. unfold n9_default. fold n9. rewrite lookup_singleton_ne by (by vm_compute). done.
Qed.

(** ** What does not hold *)
Definition by_file (name : string) (v : text) : given := Given ∅ ∅ {[ str name := v ]}.
Definition by_env (name : string) (v : text) : given := Given ∅ {[ str name := v ]} ∅.
Definition by_line (name : string) (v : text) : given := Given {[ str name := v ]} ∅ ∅.
Lemma unknown_entry g x v : in_file g !! x = Some v -> existsb (fun b => bool_decide (fst (fst b) = x)) bound_keys = false -> settings g = None.
Proof.
  intros Hx Hn. unfold settings. match goal with |- (if _ && ?b then _ else _) = _ => destruct b eqn:E end; [|by rewrite andb_false_r].
  rewrite forallb_forall in E. specialize (E (x, v)). cbn [fst] in E. rewrite Hn in E. exfalso. discriminate E. by apply elem_of_list_In, elem_of_map_to_list.
Qed.
Lemma only_env_starts name v : settings (by_env name v) = Some (get (by_env name v) true ∅ (n9_default (by_env name v))).
Proof. unfold settings, by_env. cbn [on_line in_file]. by rewrite !map_to_list_empty. Qed.
(** The echo interval under its documented names: an entry in the file ends the UPF, a variable is ignored. *)
Theorem documented_parameter_used_refuted : exists p, p ∈ documented /\ pd_cli p = str "echo" /\ (forall v, settings (Given ∅ ∅ {[ pd_yaml p := v ]}) = None) /\
  (forall v, exists used, settings (Given ∅ {[ pd_env p := v ]} ∅) = Some used /\ used (pd_field p) = str "10").
Proof.
  exists (Param (str "gtp_echo_interval") (str "echo_interval") (str "UPF_ECHO_INTERVAL") (str "echo") (str "10")). split; [unfold documented; cbn; do 8 right; left|]. split; [done|]. split.
  - intros v. apply (unknown_entry _ (str "echo_interval") v); [apply lookup_singleton|]. vm_compute. reflexivity.
  - intros v. eexists. split; [apply (only_env_starts "UPF_ECHO_INTERVAL")|]. unfold get.
    replace (flag_of _) with (Some (str "echo", str "10")) by (vm_compute; reflexivity).
    unfold env_value, by_env. cbn [on_line in_env]. rewrite lookup_empty. rewrite lookup_singleton_ne by (by vm_compute). rewrite lookup_empty. unfold n9_default. rewrite lookup_singleton_ne by (by vm_compute). done.
Qed.
(** Remote PFCP nodes: no documented way works. *)
Theorem documented_peers_refuted : exists p, p ∈ documented /\ pd_field p = str "pfcp_remote_node" /\ (forall v, settings (Given ∅ ∅ {[ pd_yaml p := v ]}) = None) /\
  (forall v, settings (Given {[ pd_cli p := v ]} ∅ ∅) = None) /\ (forall v, exists used, settings (Given ∅ {[ pd_env p := v ]} ∅) = Some used /\ used (pd_field p) = str "[]").
Proof.
  exists (Param (str "pfcp_remote_node") (str "pfcp_node") (str "UPF_PFCP_NODE") (str "pfcpnode") (str "-")). split; [unfold documented; cbn; do 20 right; left|]. split; [done|]. split; [|split].
  - intros v. apply (unknown_entry _ (str "pfcp_node") v); [apply lookup_singleton|]. vm_compute. reflexivity.
  - intros v. unfold settings. cbn [on_line]. rewrite map_to_list_singleton. cbn [forallb fst]. 
    replace (existsb _ bound_keys) with false by (vm_compute; reflexivity). by rewrite bool_decide_eq_false_2 by (by vm_compute).
  - intros v. eexists. split; [apply (only_env_starts "UPF_PFCP_NODE")|]. unfold get.
    replace (flag_of _) with (Some (str "pfcprnode", str "[]")) by (vm_compute; reflexivity).
    unfold env_value, by_env. cbn [on_line in_env]. rewrite lookup_empty. rewrite lookup_singleton_ne by (by vm_compute). rewrite lookup_empty. unfold n9_default. rewrite lookup_singleton_ne by (by vm_compute). done.
Qed.
(** The example of the documentation (docs/Configuration.md:47-66) ends the UPF, with whatever else is given. *)
Definition example_keys : list text := str <$> ["interface_name"; "xdp_attach_mode"; "api_address"; "pfcp_address"; "pfcp_node_id"; "metrics_address"; "n3_address"; "n9_address";
  "resize_ebpf_maps"; "qer_map_size"; "far_map_size"; "pdr_map_size"; "urr_map_size"; "feature_ueip"; "feature_ftup"; "ip_pool"; "teid_pool"]%string.
Theorem documented_example_refuted : forall g, (forall x, x ∈ example_keys -> is_Some (in_file g !! x)) -> settings g = None.
Proof.
  intros g H. destruct (H (str "ip_pool")) as [v Hv]; [unfold example_keys; cbn; do 15 right; left|]. apply (unknown_entry g _ v Hv). vm_compute. reflexivity.
Qed.
(** The N3 address from the environment or the file is not the default for N9. *)
Theorem n9_default_refuted : forall v, v <> [] -> exists used used',
  settings (by_env "UPF_N3_ADDRESS" v) = Some used /\ used n3 = v /\ used n9 = str "127.0.0.1" /\
  settings (by_file "n3_address" v) = Some used' /\ used' n3 = v /\ used' n9 = str "127.0.0.1".
Proof.
  intros v Hv. eexists _, _. split; [apply only_env_starts|]. split; [|split; [|split]].
  - unfold get. rewrite flag_n3. cbn [on_line by_env]. rewrite lookup_empty. unfold env_value, by_env. cbn [in_env]. change (env_name n3) with (str "UPF_N3_ADDRESS"). rewrite lookup_singleton. by destruct v.
  - apply (n9_default_partial (by_env "UPF_N3_ADDRESS" v)); [apply only_env_starts|done|..|done]. unfold env_value, by_env. cbn [in_env]. rewrite lookup_singleton_ne; [done|]. by vm_compute.
  - unfold settings, by_file. cbn [on_line in_file]. rewrite map_to_list_empty, map_to_list_singleton. cbn [forallb fst andb]. replace (existsb _ bound_keys) with true by (vm_compute; reflexivity). reflexivity.
  - split.
    + unfold get. rewrite flag_n3. cbn [on_line in_env in_file]. rewrite lookup_empty. unfold env_value. cbn [in_env]. rewrite lookup_empty. change n3 with (str "n3_address"). by rewrite lookup_singleton.
    + refine (proj1 (n9_default_partial (by_file "n3_address" v) _ _ _ _ _)); [|done|done|].
      * unfold settings, by_file. cbn [on_line in_file]. rewrite map_to_list_empty, map_to_list_singleton. cbn [forallb fst andb]. replace (existsb _ bound_keys) with true by (vm_compute; reflexivity). reflexivity.
      * unfold by_file. cbn [in_file]. apply lookup_singleton_ne. by vm_compute.
Qed.

(** ** The hypotheses are met *)
Definition ex_given : given :=
  Given {[ str "paddr" := str "10.0.0.1:8805" ]} {[ str "UPF_PFCP_ADDRESS" := str "10.0.0.2:8805"; str "UPF_N3_ADDRESS" := str "10.0.0.3" ]}
    {[ str "pfcp_address" := str "10.0.0.4:8805"; str "n3_address" := str "10.0.0.5"; str "teid_pool" := str "100" ]}.
Example ex_settings : exists used, settings ex_given = Some used /\ used (str "pfcp_address") = str "10.0.0.1:8805" /\ used n3 = str "10.0.0.3" /\
  used (str "teid_pool") = str "100" /\ used (str "max_sessions") = str "65535" /\ asked_for (Param n3 n3 (str "UPF_N3_ADDRESS") (str "n3addr") (str "127.0.0.1")) ex_given = Some (str "10.0.0.3").
Proof.
  eexists. split; [unfold settings; replace (_ && _) with true by (vm_compute; reflexivity); reflexivity|]. by vm_compute.
Qed.
Example ex_only_documented : forall v, only_documented (List.filter (fun p => negb (echo_param p || peers_param p)) documented) (Given {[ str "paddr" := v ]} ∅ {[ str "teid_pool" := v ]}).
Proof.
  assert (Hm : forall p, existsb (fun q => bool_decide (pd_cli q = pd_cli p /\ pd_yaml q = pd_yaml p)) (List.filter (fun p => negb (echo_param p || peers_param p)) documented) = true ->
    exists q, q ∈ List.filter (fun p => negb (echo_param p || peers_param p)) documented /\ pd_cli q = pd_cli p /\ pd_yaml q = pd_yaml p).
  { intros p (q & H1 & H2%bool_decide_eq_true)%existsb_exists. exists q. split; [by apply elem_of_list_In|done]. }
  intros v. split; intros x [w H]; cbn [on_line in_file] in H; apply lookup_singleton_Some in H as [<- _].
  - destruct (Hm (Param [] (str "pfcp_address") [] (str "paddr") [])) as (q & H1 & H2 & _); [vm_compute; reflexivity|]. by exists q.
  - destruct (Hm (Param [] (str "teid_pool") [] (str "teidpool") [])) as (q & H1 & _ & H2); [vm_compute; reflexivity|]. by exists q.
Qed.
