(** C95: the documents that the REST listings of sessions and associations answer with. *)
From Verif Require Import Base IdTracker ResourceManager SdfParser SdfProps MapOps Pfcp PfcpProps PfcpHistory PfcpReach PfcpRules PfcpCreate
  PfcpRemove PfcpReject PfcpInv PfcpAsked PfcpKeys Seid RestSessions.
From Coq Require Import String DecimalString Decimal DecimalN.
Open Scope N_scope.

(** ** Model *)

(** Go values as encoding/json sees them: numbers, strings, booleans, nil, channels, structs and maps (member names and values; the
    order of the members is not modelled), slices. *)
Inductive gval := GNum (n : N) | GText (s : string) | GBool (b : bool) | GNull | GChan | GObj (l : list (string * gval)) | GArr (l : list gval).
(** encoding/json fails with UnsupportedTypeError for a channel anywhere in the value. *)
Fixpoint encodable (v : gval) : bool :=
  match v with
  | GChan => false
  | GObj l => forallb (fun x => encodable (snd x)) l
  | GArr l => forallb encodable l
  | _ => true
  end.
(** gin v1.9.1 context.go [IndentedJSON], [Render]: the status is set first; if the value cannot be encoded the error is kept in the
    context and nothing is written. *)
Definition indented_json (v : gval) : N * option gval := (200, if encodable v then Some v else None).

(** strconv: a number in decimal.  net.IP.String of four bytes: dotted. *)
Definition dec (n : N) : string := NilEmpty.string_of_uint (N.to_uint n).
Definition ip_text (b : list N) : string :=
  match b with [b0; b1; b2; b3] => (dec b0 ++ "." ++ dec b1 ++ "." ++ dec b2 ++ "." ++ dec b3)%string | _ => "?"%string end.
(** binary.LittleEndian.PutUint32. *)
Definition le_bytes (x : N) : list N := [x mod 256; x / 256 mod 256; x / 65536 mod 256; x / 16777216 mod 256].
(** The four bytes of an IPv4 net.IP, given by its big-endian value. *)
Definition v4_bytes (a : N) : list N := [a / 16777216 mod 256; a / 65536 mod 256; a / 256 mod 256; a mod 256].

(** Texts that are not modelled: an IPv6 address, the base64 of a net.IPMask, a peer's address, a node id. *)
Record texts := Texts { t_ip6 : list N -> string; t_mask : list N -> string; t_addr : N -> string; t_node : N -> string; t_v6 : N -> string }.

(** ebpf/pdr.go:161-172 [FarInfo.MarshalJSON]. *)
Definition far_json (f : far_info) : gval :=
  GObj [("action", GNum (fi_action f)); ("outer_header_creation", GNum (fi_ohc f)); ("remote_ip", GText (ip_text (le_bytes (fi_remote f))));
        ("teid", GNum (fi_teid f)); ("transport_level_marking", GNum (fi_tlm f))]%string.
(** ebpf/pdr.go:194-202 [QerInfo], 225-228 [UrrInfo], by reflection. *)
Definition qer_json (q : qer_info) : gval :=
  GObj [("GateStatusUL", GNum (qi_ul_gate q)); ("GateStatusDL", GNum (qi_dl_gate q)); ("Qfi", GNum (qi_qfi q));
        ("MaxBitrateUL", GNum (qi_ul_rate q)); ("MaxBitrateDL", GNum (qi_dl_rate q)); ("StartUL", GNum (qi_ul_start q)); ("StartDL", GNum (qi_dl_start q))]%string.
Definition urr_json (u : urr_info) : gval := GObj [("UplinkVolume", GNum (ui_ul u)); ("DownlinkVolume", GNum (ui_dl u))]%string.
(** core/session.go:38-52 [SFarInfo], [SQerInfo], [SUrrInfo]. *)
Definition sfar_json (f : sfar) : gval := GObj [("FarInfo", far_json (sf_info f)); ("GlobalId", GNum (sf_gid f))]%string.
Definition sqer_json (q : sqer) : gval := GObj [("QerInfo", qer_json (sq_info q)); ("GlobalId", GNum (sq_gid q))]%string.
Definition surr_json (u : surr) : gval := GObj [("UrrInfo", urr_json (su_info u)); ("GlobalId", GNum (su_gid u)); ("ReportSeqNumber", GNum (su_seq u))]%string.
(** ebpf/pdr.go:26-43 [SdfFilter], [IpWMask], [PortRange]; a nil net.IP is the empty string, a nil net.IPMask is null. *)
Definition ipw_json (t : texts) (a : ipwmask) : gval :=
  GObj [("Type", GNum (iw_type a));
        ("Ip", GText match iw_ip a with [] => "" | [_; _; _; _] => ip_text (iw_ip a) | b => t_ip6 t b end);
        ("Mask", match iw_mask a with [] => GNull | b => GText (t_mask t b) end)]%string.
Definition range_json (r : N * N) : gval := GObj [("LowerBound", GNum (fst r)); ("UpperBound", GNum (snd r))]%string.
Definition sdf_json (t : texts) (f : sdf_filter) : gval :=
  GObj [("Protocol", GNum (sf_proto f)); ("SrcAddress", ipw_json t (sf_src f)); ("SrcPortRange", range_json (sf_sport f));
        ("DstAddress", ipw_json t (sf_dst f)); ("DstPortRange", range_json (sf_dport f))]%string.
(** ebpf/pdr.go:17-24 [PdrInfo]; core/session.go:29-36 [SPDRInfo]. *)
Definition pdr_json (t : texts) (p : pdr_req) : gval :=
  GObj [("OuterHeaderRemoval", GNum (pr_ohr p)); ("FarId", GNum (pr_far p)); ("QerId", GNum (pr_qer p)); ("Urr1Id", GNum (pr_urr1 p));
        ("Urr2Id", GNum (pr_urr2 p)); ("SdfFilter", match pr_sdf p with Some f => sdf_json t f | None => GNull end)]%string.
Definition spdr_json (t : texts) (p : spdr) : gval :=
  GObj [("PdrID", GNum (sd_id p)); ("PdrInfo", pdr_json t (sd_info p)); ("Teid", GNum (sd_teid p));
        ("Ipv4", GText match sd_v4 p with Some a => ip_text (v4_bytes a) | None => "" end);
        ("Ipv6", GText match sd_v6 p with Some a => t_v6 t a | None => "" end); ("Allocated", GBool (sd_alloc p))]%string.
(** A map with integer keys: the keys in decimal. *)
Definition map_json {A} (f : A -> gval) (m : gmap N A) : gval := GObj ((fun x => (dec (fst x), f (snd x))) <$> map_to_list m).
(** core/session.go:9-16 [Session]. *)
Definition session_json (t : texts) (s : session) : gval :=
  GObj [("LocalSEID", GNum (s_local s)); ("RemoteSEID", GNum (s_remote s)); ("PDRs", map_json (spdr_json t) (s_pdrs s));
        ("FARs", map_json sfar_json (s_fars s)); ("QERs", map_json sqer_json (s_qers s)); ("URRs", map_json surr_json (s_urrs s))]%string.
(** rest/pfcp_sessions.go:19-49: the slice starts as nil, which is encoded as null. *)
Definition sessions_json (t : texts) (l : list session) : gval := match l with [] => GNull | _ => GArr (session_json t <$> l) end.
Definition get_sessions (t : texts) (sh : shuffle) (c : conn) : N * option gval := indented_json (sessions_json t (all_sessions sh c)).
(** rest/pfcp_associations.go:24-35 [listPfcpAssociations]; the key and Addr are both the peer's address. *)
Definition get_assocs (t : texts) (sh : shuffle) (c : conn) : N * option gval :=
  indented_json (GObj ((fun x => (t_addr t (fst x),
    GObj [("ID", GText (t_node t (a_node (snd x)))); ("Addr", GText (t_addr t (fst x))); ("NextSessionID", GNum (a_next (snd x)))]%string)) <$> assocs_in sh c)).
(** rest/pfcp_associations.go:44-46 [listPfcpAssociationsFull], core/node_association.go:13-23; [seq], [act]: the fields kept by the
    heartbeats (sync.Mutex has no exported fields). *)
Definition get_assocs_full (t : texts) (seq : N -> N) (act : N -> bool) (sh : shuffle) (c : conn) : N * option gval :=
  indented_json (GObj ((fun x => (t_addr t (fst x),
    GObj [("ID", GText (t_node t (a_node (snd x)))); ("Addr", GText (t_addr t (fst x))); ("NextSessionID", GNum (a_next (snd x)));
          ("NextSequenceID", GNum (seq (fst x))); ("Sessions", map_json (session_json t) (a_sessions (snd x)));
          ("HeartbeatChannel", GChan); ("HeartbeatsActive", GBool (act (fst x)))]%string)) <$> assocs_in sh c)).

(** ** Specification *)

(** The value at a path of member names. *)
Fixpoint find_member (k : string) (l : list (string * gval)) : option gval :=
  match l with [] => None | (k', v) :: l => if String.eqb k k' then Some v else find_member k l end.
Fixpoint at_path (v : gval) (p : list string) : option gval :=
  match p with
  | [] => Some v
  | k :: p => match v with GObj l => match find_member k l with Some v => at_path v p | None => None end | _ => None end
  end.
(** An IPv4 address as people write it: the four decimal numbers, from the most significant octet. *)
Definition dotted (a : N) : string :=
  (dec (a / 16777216) ++ "." ++ dec (a / 65536 mod 256) ++ "." ++ dec (a / 256 mod 256) ++ "." ++ dec (a mod 256))%string.
Definition members (v : gval) : list string := match v with GObj l => fst <$> l | _ => [] end.

(** A FAR (QER) of the session in the document: the values asked for, and the number under which the data plane has them. *)
Definition far_shown (d : dp) (v : far_info) (doc : gval) : Prop :=
  (exists g, far_get d g = Some v /\ at_path doc ["GlobalId"%string] = Some (GNum g)) /\
  at_path doc ["FarInfo"; "action"]%string = Some (GNum (fi_action v)) /\
  at_path doc ["FarInfo"; "outer_header_creation"]%string = Some (GNum (fi_ohc v)) /\
  at_path doc ["FarInfo"; "teid"]%string = Some (GNum (fi_teid v)) /\
  at_path doc ["FarInfo"; "transport_level_marking"]%string = Some (GNum (fi_tlm v)) /\
  (forall a, a < 4294967296 -> fi_remote v = Pfcp.le32 a -> at_path doc ["FarInfo"; "remote_ip"]%string = Some (GText (dotted a))).
Definition qer_shown (d : dp) (v : qer_rule) (doc : gval) : Prop :=
  (exists g, qer_value d g = Some v /\ at_path doc ["GlobalId"%string] = Some (GNum g)) /\
  at_path doc ["QerInfo"; "GateStatusUL"]%string = Some (GNum (ql_ul_gate v)) /\
  at_path doc ["QerInfo"; "GateStatusDL"]%string = Some (GNum (ql_dl_gate v)) /\
  at_path doc ["QerInfo"; "Qfi"]%string = Some (GNum (ql_qfi v)) /\
  at_path doc ["QerInfo"; "MaxBitrateUL"]%string = Some (GNum (ql_ul_rate v)) /\
  at_path doc ["QerInfo"; "MaxBitrateDL"]%string = Some (GNum (ql_dl_rate v)).
(** A filter: protocol, IPv4 addresses and port ranges as parsed. *)
Definition filter_shown (f : sdf_filter) (doc : gval) : Prop :=
  at_path doc ["Protocol"%string] = Some (GNum (sf_proto f)) /\
  (forall b0 b1 b2 b3, iw_ip (sf_src f) = [b0; b1; b2; b3] -> at_path doc ["SrcAddress"; "Ip"]%string = Some (GText (dec b0 ++ "." ++ dec b1 ++ "." ++ dec b2 ++ "." ++ dec b3)%string)) /\
  (forall b0 b1 b2 b3, iw_ip (sf_dst f) = [b0; b1; b2; b3] -> at_path doc ["DstAddress"; "Ip"]%string = Some (GText (dec b0 ++ "." ++ dec b1 ++ "." ++ dec b2 ++ "." ++ dec b3)%string)) /\
  at_path doc ["SrcPortRange"; "LowerBound"]%string = Some (GNum (fst (sf_sport f))) /\ at_path doc ["SrcPortRange"; "UpperBound"]%string = Some (GNum (snd (sf_sport f))) /\
  at_path doc ["DstPortRange"; "LowerBound"]%string = Some (GNum (fst (sf_dport f))) /\ at_path doc ["DstPortRange"; "UpperBound"]%string = Some (GNum (snd (sf_dport f))).
(** A PDR: what it detects, and the FAR and QER it uses, by the numbers shown with them. *)
Definition pdr_shown (t : texts) (ses : gval) (a : pdr_ask) (doc : gval) : Prop :=
  match ak_key a with
  | Up x => at_path doc ["Teid"%string] = Some (GNum x) /\ at_path doc ["Ipv4"%string] = Some (GText "") /\ at_path doc ["Ipv6"%string] = Some (GText "")
  | Dn4 x => x < 4294967296 -> at_path doc ["Ipv4"%string] = Some (GText (dotted x))
  | Dn6 x => at_path doc ["Ipv4"%string] = Some (GText "") /\ at_path doc ["Ipv6"%string] = Some (GText (t_v6 t x))
  end /\
  at_path doc ["PdrInfo"; "OuterHeaderRemoval"]%string = Some (GNum (ak_ohr a)) /\
  match ak_sdf a with
  | None => at_path doc ["PdrInfo"; "SdfFilter"]%string = Some GNull
  | Some f => exists x, at_path doc ["PdrInfo"; "SdfFilter"]%string = Some x /\ filter_shown f x
  end /\
  (forall j, ak_far a = Some j -> exists g, at_path ses ["FARs"; dec j; "GlobalId"]%string = Some (GNum g) /\ at_path doc ["PdrInfo"; "FarId"]%string = Some (GNum g)) /\
  (forall j, ak_qer a = Some j -> exists g, at_path ses ["QERs"; dec j; "GlobalId"]%string = Some (GNum g) /\ at_path doc ["PdrInfo"; "QerId"]%string = Some (GNum g)).
(** A table of the document has the rules asked for, under their ids, and no others. *)
Definition table_shown {A} (f : A -> gval -> Prop) (asked : N -> option A) (doc : option gval) : Prop :=
  exists tab, doc = Some tab /\
    (forall j, match asked j with Some v => exists x, at_path tab [dec j] = Some x /\ f v x | None => at_path tab [dec j] = None end) /\
    (forall k, k ∈ members tab -> exists j, k = dec j /\ is_Some (asked j)).
Definition session_shown (t : texts) (l : log) (d : dp) (k : N * N) (doc : gval) : Prop :=
  at_path doc ["LocalSEID"%string] = Some (GNum (snd k)) /\
  at_path doc ["RemoteSEID"%string] = GNum <$> announced l !! k /\
  table_shown (pdr_shown t doc) (pdr_asked l (fst k) (snd k)) (at_path doc ["PDRs"%string]) /\
  table_shown (far_shown d) (asked_far l (fst k) (snd k)) (at_path doc ["FARs"%string]) /\
  table_shown (qer_shown d) (asked_qer l (fst k) (snd k)) (at_path doc ["QERs"%string]).

(** ** Properties *)

Lemma dec_inj n m : dec n = dec m -> n = m.
Proof.
  unfold dec. intros H. assert (E : NilEmpty.uint_of_string (NilEmpty.string_of_uint (N.to_uint n)) = NilEmpty.uint_of_string (NilEmpty.string_of_uint (N.to_uint m))) by (by rewrite H).
  rewrite !NilEmpty.usu in E. injection E as E. rewrite <- (DecimalN.Unsigned.of_to n), <- (DecimalN.Unsigned.of_to m). by rewrite E.
Qed.
Lemma find_member_in k (l : list (string * gval)) v : NoDup (fst <$> l) -> (k, v) ∈ l -> find_member k l = Some v.
Proof.
  induction l as [|[k' v'] l IH]; intros Hn Hin; [by apply elem_of_nil in Hin|]. cbn [fmap list_fmap fst] in Hn. apply NoDup_cons in Hn as [Hn1 Hn2].
  cbn [find_member]. apply elem_of_cons in Hin as [E|Hin]; [injection E as -> ->; by rewrite String.eqb_refl|].
  destruct (String.eqb_spec k k') as [->|_]; [|by apply IH]. destruct Hn1. apply elem_of_list_fmap. by exists (k', v).
Qed.
Lemma find_member_none k (l : list (string * gval)) : k ∉ (fst <$> l) -> find_member k l = None.
Proof.
  induction l as [|[k' v'] l IH]; intros Hn; [done|]. cbn [fmap list_fmap fst] in Hn. apply not_elem_of_cons in Hn as [H1 H2].
  cbn [find_member]. destruct (String.eqb_spec k k'); [done|]. by apply IH.
Qed.
(** The members of an encoded map. *)
Lemma map_json_at {A} (f : A -> gval) (m : gmap N A) j : at_path (map_json f m) [dec j] = f <$> m !! j.
Proof.
  unfold map_json. cbn [at_path].
  assert (Hn : NoDup (fst <$> ((fun x : N * A => (dec (fst x), f (snd x))) <$> map_to_list m))).
  { rewrite <- list_fmap_compose. pose proof (NoDup_fst_map_to_list m) as H. revert H. generalize (map_to_list m). intros l.
    induction l as [|[k x] l IH]; intros H; cbn [fmap list_fmap compose fst]; [constructor|]. cbn [fmap list_fmap fst] in H. apply NoDup_cons in H as [H1 H2].
    apply NoDup_cons. split; [|by apply IH]. intros Hin. apply H1. apply elem_of_list_fmap in Hin as ([k' x'] & E & Hin).
    unfold compose in E. cbn [fst] in E. apply dec_inj in E as ->. apply elem_of_list_fmap. by exists (k', x'). }
  destruct (m !! j) as [x|] eqn:E; cbn [fmap option_fmap option_map].
  - rewrite (find_member_in (dec j) _ (f x) Hn); [done|]. apply elem_of_list_fmap. exists (j, x). split; [done|]. by apply elem_of_map_to_list.
  - rewrite find_member_none; [done|]. intros Hin. apply elem_of_list_fmap in Hin as ([k v] & E1 & Hin). cbn [fst] in E1. subst k.
    apply elem_of_list_fmap in Hin as ([k x] & E2 & Hin). cbn [fst snd] in E2. injection E2 as E2 _. apply dec_inj in E2 as <-. apply elem_of_map_to_list in Hin. congruence.
Qed.
Lemma map_json_members {A} (f : A -> gval) (m : gmap N A) k : k ∈ members (map_json f m) -> exists j, k = dec j /\ is_Some (m !! j).
Proof.
  unfold map_json, members. intros Hin. apply elem_of_list_fmap in Hin as ([k' v] & -> & Hin). apply elem_of_list_fmap in Hin as ([j x] & E & Hin).
  cbn [fst snd] in E. injection E as -> _. apply elem_of_map_to_list in Hin. exists j. split; [done|]. by rewrite Hin.
Qed.
Lemma map_json_path {A} (f : A -> gval) (m : gmap N A) j p : at_path (map_json f m) (dec j :: p) = match m !! j with Some x => at_path (f x) p | None => None end.
Proof.
  pose proof (map_json_at f m j) as H. unfold map_json in *. cbn [at_path] in *. destruct (find_member _ _) as [v|], (m !! j) as [x|]; cbn [fmap option_fmap option_map] in H; try done.
  by injection H as ->.
Qed.
Lemma table_map {A B} (f : A -> gval) (P : B -> gval -> Prop) (m : gmap N A) (g : A -> B) asked :
  (forall j, asked j = g <$> m !! j) -> (forall j x, m !! j = Some x -> P (g x) (f x)) -> table_shown P asked (Some (map_json f m)).
Proof.
  intros Ha HP. exists (map_json f m). split; [done|]. split.
  - intros j. rewrite Ha, map_json_at. destruct (m !! j) as [x|] eqn:E; cbn [fmap option_fmap option_map]; [|done]. exists (f x). split; [done|]. by apply (HP j).
  - intros k Hk. apply map_json_members in Hk as (j & -> & Hj). exists j. split; [done|]. rewrite Ha. by apply fmap_is_Some.
Qed.

Lemma v4_dotted a : a < 4294967296 -> ip_text (v4_bytes a) = dotted a.
Proof.
  intros H. unfold ip_text, v4_bytes, dotted. rewrite (N.mod_small (a / 16777216)); [done|]. apply N.div_lt_upper_bound; lia.
Qed.

Lemma le_le32 a : le_bytes (Pfcp.le32 a) = v4_bytes a.
Proof.
  unfold le_bytes, Pfcp.le32, v4_bytes.
  set (w := a mod 256). set (x := a / 256 mod 256). set (y := a / 65536 mod 256). set (z := a / 16777216 mod 256).
  assert (w < 256 /\ x < 256 /\ y < 256 /\ z < 256) as (Hw & Hx & Hy & Hz) by (split_and!; by apply N.mod_lt).
  clearbody w x y z. f_equal; [|f_equal; [|f_equal; [|f_equal]]].
  - replace (w * 16777216 + x * 65536 + y * 256 + z) with (z + (w * 65536 + x * 256 + y) * 256) by lia.
    rewrite N.mod_add by done. by apply N.mod_small.
  - replace (w * 16777216 + x * 65536 + y * 256 + z) with (z + (w * 65536 + x * 256 + y) * 256) by lia.
    rewrite N.div_add, (N.div_small z) by done. replace (0 + (w * 65536 + x * 256 + y)) with (y + (w * 256 + x) * 256) by lia.
    rewrite N.mod_add by done. by apply N.mod_small.
  - replace (w * 16777216 + x * 65536 + y * 256 + z) with ((y * 256 + z) + (w * 256 + x) * 65536) by lia.
    rewrite N.div_add, (N.div_small (_ + _)) by lia. replace (0 + (w * 256 + x)) with (x + w * 256) by lia.
    rewrite N.mod_add by done. by apply N.mod_small.
  - replace (w * 16777216 + x * 65536 + y * 256 + z) with ((x * 65536 + y * 256 + z) + w * 16777216) by lia.
    rewrite N.div_add, (N.div_small (_ + _)) by lia. by apply N.mod_small.
Qed.

(** Sessions can be encoded. *)
Lemma forallb_map_json {A} (f : A -> gval) (m : gmap N A) : (forall x, encodable (f x) = true) -> encodable (map_json f m) = true.
Proof.
  intros H. unfold map_json. cbn [encodable]. generalize (map_to_list m). intros l. induction l as [|x l IH]; [done|]. cbn [fmap list_fmap forallb snd]. by rewrite H.
Qed.
Lemma session_encodable t s : encodable (session_json t s) = true.
Proof.
  unfold session_json. cbn [encodable forallb snd]. cbn [andb]. rewrite (forallb_map_json (spdr_json t)), (forallb_map_json sfar_json), (forallb_map_json sqer_json), (forallb_map_json surr_json); try done.
  intros p. unfold spdr_json, pdr_json, sdf_json, ipw_json, range_json. cbn [encodable forallb snd andb]. destruct (pr_sdf (sd_info p)) as [f|]; [|done].
  cbn [encodable forallb snd andb]. by destruct (iw_mask (sf_src f)), (iw_mask (sf_dst f)).
Qed.
Lemma sessions_encodable t l : encodable (sessions_json t l) = true.
Proof.
  unfold sessions_json. destruct l as [|s l]; [done|]. cbn [encodable]. generalize (s :: l). intros k. induction k as [|x k IH]; [done|].
  cbn [fmap list_fmap forallb]. by rewrite session_encodable.
Qed.

(** One session. *)
Lemma session_is_shown t l c addr seid s : careful_history c -> follows (asked_in l) c -> keyed (PfcpKeys.pdrs_in l) c ->
  session_of c addr seid = Some s -> s_local s = seid -> announced l !! (addr, seid) = Some (s_remote s) ->
  session_shown t l (c_dp c) (addr, seid) (session_json t s).
Proof.
  intros Hc HM HK Hs Hloc Hann. destruct (careful_mirror _ Hc) as [[FG _] [QG _]].
  assert (PF : forall p, at_path (session_json t s) ("FARs"%string :: p) = at_path (map_json sfar_json (s_fars s)) p) by done.
  assert (PQ : forall p, at_path (session_json t s) ("QERs"%string :: p) = at_path (map_json sqer_json (s_qers s)) p) by done.
  assert (PP : at_path (session_json t s) ["PDRs"%string] = Some (map_json (spdr_json t) (s_pdrs s))) by done.
  unfold session_shown. cbn [fst snd]. split; [by rewrite <- Hloc|]. split; [by rewrite Hann|].
  rewrite PP, !PF, !PQ. cbn [at_path]. split_and!.
  - destruct HK as [K1 K2 K3 K4 K5]. destruct (K1 _ _ _ Hs) as (pm & Hpm & HA).
    exists (map_json (spdr_json t) (s_pdrs s)). split; [done|]. 
    assert (Ha : forall i, pdr_asked l addr seid i = pm !! i) by (intros i; unfold pdr_asked; by rewrite Hpm).
    split.
    + intros i. rewrite Ha, map_json_at. specialize (HA i). destruct (s_pdrs s !! i) as [p|], (pm !! i) as [a|]; inversion HA as [? ? HR|]; subst; [|done].
      exists (spdr_json t p). split; [done|]. destruct HR as [A1 A2 A3 A4 A5]. unfold pdr_shown. split_and!.
      * rewrite <- A1. unfold spdr_key. destruct (sd_v4 p) as [x|] eqn:E4.
        { intros Hx. unfold spdr_json. cbn [at_path find_member String.eqb Ascii.eqb Bool.eqb]. rewrite E4. by rewrite v4_dotted. }
        destruct (sd_v6 p) as [x|] eqn:E6; unfold spdr_json; cbn [at_path find_member String.eqb Ascii.eqb Bool.eqb]; rewrite E4, E6; done.
      * rewrite <- A2. done.
      * rewrite <- A3. unfold spdr_json, pdr_json. cbn [at_path find_member String.eqb Ascii.eqb Bool.eqb].
        destruct (pr_sdf (sd_info p)) as [f|]; [|done]. exists (sdf_json t f). split; [done|]. unfold filter_shown, sdf_json, ipw_json. split_and!; try done.
        -- intros b0 b1 b2 b3 E. cbn [at_path find_member String.eqb Ascii.eqb Bool.eqb]. by rewrite E.
        -- intros b0 b1 b2 b3 E. cbn [at_path find_member String.eqb Ascii.eqb Bool.eqb]. by rewrite E.
      * intros j Hj. destruct (A4 j Hj) as (f & Hf & Hg). exists (pr_far (sd_info p)). rewrite PF, map_json_path, Hf. split; [by rewrite <- Hg|done].
      * intros j Hj. destruct (A5 j Hj) as (f & Hf & Hg). exists (pr_qer (sd_info p)). rewrite PQ, map_json_path, Hf. split; [by rewrite <- Hg|done].
    + intros k Hk. apply map_json_members in Hk as (j & -> & [p Hp]). exists j. split; [done|]. rewrite Ha. specialize (HA j). rewrite Hp in HA. inversion HA; subst. by eexists.
  - apply (table_map sfar_json (far_shown (c_dp c)) (s_fars s) sf_info).
    + intros j. unfold asked_far. rewrite (HM _ _ _ Hs). cbn [mbind option_bind fst]. unfold fars_of. by rewrite lookup_fmap.
    + intros j f Hf. unfold far_shown. split_and!; try done.
      * exists (sf_gid f). split; [|done]. apply (FG addr seid s j (sf_gid f) (sf_info f) Hs). cbn [ktab far_kind]. by rewrite lookup_fmap, Hf.
      * intros a Ha E. unfold sfar_json, far_json. cbn [at_path find_member String.eqb Ascii.eqb Bool.eqb]. by rewrite E, le_le32, v4_dotted.
  - apply (table_map sqer_json (qer_shown (c_dp c)) (s_qers s) (fun f => rule_of_qer (sq_info f))).
    + intros j. unfold asked_qer. rewrite (HM _ _ _ Hs). cbn [mbind option_bind snd]. unfold qers_of. by rewrite lookup_fmap.
    + intros j f Hf. unfold qer_shown. split_and!; try done.
      exists (sq_gid f). split; [|done]. apply (QG addr seid s j (sq_gid f) (rule_of_qer (sq_info f)) Hs). cbn [ktab qer_kind]. by rewrite lookup_fmap, Hf.
Qed.

(** The list of sessions, after any tidy history: one document for each live session, which shows what was asked for it. *)
Theorem sessions_shown_partial :
  forall t g rm p f q u es c l sh, start_pools rm -> Forall event_fair es ->
    run (init g rm (dp_init p f q u)) es = Some (c, l) -> N.of_nat (List.length es) <= bound -> tidy l = true -> fair sh ->
    exists ks docs, NoDup ks /\ (forall k, k ∈ ks <-> k ∈ PfcpHistory.live l) /\ Forall2 (session_shown t l (c_dp c)) ks docs /\
      get_sessions t sh c = (200, Some (match docs with [] => GNull | _ => GArr docs end)).
Proof.
  intros t g rm p f q u es c l sh Hrm Hf Hrun Hb Ht Hsh.
  destruct (tidy_run _ _ _ _ _ _ _ _ _ Hrm Hf Hrun Hb Ht) as (Hc & HM & HK). pose proof (run_hinv _ _ _ _ _ _ Hrun Hb) as HI.
  destruct (all_sessions_listed _ _ _ _ _ _ sh Hrun Hb Hsh) as (ks & Hn & Hks & HF). exists ks, (session_json t <$> all_sessions sh c). split_and!; try done.
  - apply Forall2_fmap_r. eapply Forall2_impl; [exact HF|]. intros [addr seid] s Hs. cbn [fst snd] in Hs. apply session_is_shown; try done.
    + unfold session_of in Hs. destruct (c_assocs c !! addr) as [a|] eqn:Ea; [|done]. by destruct (hi_seid _ _ _ HI addr a seid s Ea Hs).
    + exact (announced_kept _ _ _ _ _ _ Hrun addr seid s Hs).
  - unfold get_sessions, indented_json. rewrite sessions_encodable. unfold sessions_json. by destruct (all_sessions sh c).
Qed.

(** ** Associations *)

(** The node id that a peer gave when its association was set up. *)
Definition node_said (x : event * option response) : option N :=
  match fst x with
  | Recv _ _ _ (AssocSetupReq (Good n) _) | Recv _ _ _ (AssocSetupResp (Good n) _ _) => Some n
  | _ => None
  end.
Definition nodes_step (M : gmap N N) (x : event * option response) : gmap N N :=
  match accepted_setup x, node_said x, pruned x with
  | Some a, Some n, _ => match M !! a with Some _ => M | None => <[a := n]> M end
  | _, _, Some a => delete a M
  | _, _, _ => M
  end.
Definition nodes (l : log) : gmap N N := foldl nodes_step ∅ l.

Lemma setup_node c e c' r addr : step c e = Done c' r -> accepted_setup (e, r) = Some addr ->
  exists n, node_said (e, r) = Some n /\ c_assocs c' = c_assocs (ensure_assoc addr n c).
Proof.
  intros H Ha. destruct e as [sh a seq m| |]; [|done..]. destruct m as [| |node rts|node cause f| | | | |]; try done; cbn [step handle] in H.
  - unfold handle_setup in H. destruct node as [| |n]; [simplify_eq; done..|]. destruct rts as [| |t]; [simplify_eq; done..|]. simplify_eq.
    cbn [accepted_setup r_cause] in Ha. injection Ha as ->. by exists n.
  - unfold handle_setup_resp in H. destruct node as [| |n], cause as [| |k], f as [| |f]; try done; try (destruct k as [|[]]; done).
    destruct (N.eqb_spec k Accepted) as [->|Hne]; [|destruct k as [|[]]; try done; by destruct Hne].
    simplify_eq. cbn [accepted_setup] in Ha. injection Ha as ->. by exists n.
Qed.
Lemma nodes_step_follow M c e c' r : step c e = Done c' r -> (forall addr, M !! addr = a_node <$> c_assocs c !! addr) ->
  forall addr, nodes_step M (e, r) !! addr = a_node <$> c_assocs c' !! addr.
Proof.
  intros H HM addr. pose proof (step_table _ _ _ _ H) as T. unfold tab_step in T. unfold nodes_step.
  destruct T as [(a1 & a & s & _ & _ & -> & -> & Ha & _ & ->)|[(a1 & a & _ & _ & -> & -> & Ha & ->)|[(a1 & a & k & s & s' & _ & _ & -> & -> & Ha & _ & _ & _ & ->)|
    [(a1 & a & k & s & _ & _ & -> & -> & Ha & _ & ->)|[(a1 & _ & _ & Hp & Hs & _)|[(a1 & a & _ & _ & -> & -> & Ha & ->)|(_ & _ & -> & -> & ->)]]]]]].
  1-4: destruct (decide (addr = a1)) as [->|Hne]; [rewrite lookup_insert; rewrite HM, Ha; done|rewrite lookup_insert_ne by done; apply HM].
  - destruct (setup_node _ _ _ _ _ H Hs) as (n & Hn & Hc). rewrite Hs, Hn, Hc. unfold ensure_assoc. rewrite HM.
    destruct (c_assocs c !! a1) as [a|] eqn:Ea; cbn [fmap option_fmap option_map]; [apply HM|]. cbn [c_assocs set_assocs].
    destruct (decide (addr = a1)) as [->|Hne]; [by rewrite !lookup_insert|]. rewrite !lookup_insert_ne by done. apply HM.
  - destruct (decide (addr = a1)) as [->|Hne]; [by rewrite !lookup_delete|]. rewrite !lookup_delete_ne by done. apply HM.
  - apply HM.
Qed.
Lemma nodes_run g rm d es c l : run (init g rm d) es = Some (c, l) -> forall addr, nodes l !! addr = a_node <$> c_assocs c !! addr.
Proof.
  intros Hrun. unfold nodes.
  assert (G : forall es M c c' l, run c es = Some (c', l) -> (forall addr, M !! addr = a_node <$> c_assocs c !! addr) -> forall addr, foldl nodes_step M l !! addr = a_node <$> c_assocs c' !! addr).
  { clear. induction es as [|e es IH]; intros M c c' l H HM addr; cbn [run] in H; [injection H as <- <-; apply HM|].
    destruct (step c e) as [c1 r|] eqn:E; [|done]. destruct (run c1 es) as [[c2 l2]|] eqn:E2; [|done]. injection H as <- <-.
    cbn [foldl]. apply (IH _ _ _ _ E2). by apply nodes_step_follow with c. }
  apply (G es ∅ _ _ _ Hrun). intros addr. unfold init. cbn [c_assocs]. by rewrite !lookup_empty.
Qed.

(** GET /pfcp_associations: the peers associated, each under its address, with the node id given when the association was set up. *)
Theorem associations_shown :
  forall t g rm d es c l sh, run (init g rm d) es = Some (c, l) -> N.of_nat (List.length es) <= bound -> fair sh ->
    (forall a b, t_addr t a = t_addr t b -> a = b) ->
    exists doc, get_assocs t sh c = (200, Some doc) /\
      (forall k, k ∈ members doc <-> exists addr, addr ∈ peers l /\ k = t_addr t addr) /\
      (forall addr, addr ∈ peers l ->
         at_path doc [t_addr t addr; "Addr"%string] = Some (GText (t_addr t addr)) /\
         exists n, nodes l !! addr = Some n /\ at_path doc [t_addr t addr; "ID"%string] = Some (GText (t_node t n))).
Proof.
  intros t g rm d es c l sh Hrun Hb Hf Hinj. pose proof (association_table_follows_log _ _ _ _ _ _ Hrun Hb) as Hp. pose proof (nodes_run _ _ _ _ _ _ Hrun) as Hn.
  assert (HL : forall addr a, (addr, a) ∈ assocs_in sh c <-> c_assocs c !! addr = Some a) by (intros; by apply elem_of_entries).
  pose proof (NoDup_entries_fst sh 10 (c_assocs c) Hf) as Hnd. fold (assocs_in sh c) in Hnd.
  unfold get_assocs, indented_json. eexists. split_and!.
  - f_equal. match goal with |- context [encodable ?v] => assert (encodable v = true) as E end; [|rewrite E; reflexivity].
    cbn [encodable]. clear. generalize (assocs_in sh c). intros L. induction L as [|x L IH]; [done|]. cbn [fmap list_fmap forallb snd encodable]. exact IH.
  - intros k. cbn [members]. rewrite <- list_fmap_compose. rewrite elem_of_list_fmap. split.
    + intros ([addr a] & -> & Hin). apply HL in Hin. exists addr. split; [|done]. apply Hp. by rewrite Hin.
    + intros (addr & Hin & ->). apply Hp in Hin as [a Ha]. exists (addr, a). split; [done|]. by apply HL.
  - intros addr Hin. apply Hp in Hin as [a Ha]. specialize (Hn addr). rewrite Ha in Hn.
    assert (E : find_member (t_addr t addr) ((fun x : N * assoc => (t_addr t (fst x),
      GObj [("ID", GText (t_node t (a_node (snd x)))); ("Addr", GText (t_addr t (fst x))); ("NextSessionID", GNum (a_next (snd x)))]%string)) <$> assocs_in sh c) =
      Some (GObj [("ID", GText (t_node t (a_node a))); ("Addr", GText (t_addr t addr)); ("NextSessionID", GNum (a_next a))]%string)).
    { apply find_member_in; [|apply elem_of_list_fmap; exists (addr, a); split; [done|by apply HL]]. rewrite <- list_fmap_compose. clear HL Hp Hn Ha. revert Hnd. generalize (assocs_in sh c). intros L.
      induction L as [|[k x] L IH]; intros H; cbn [fmap list_fmap compose fst]; [constructor|]. cbn [fmap list_fmap fst] in H. apply NoDup_cons in H as [H1 H2].
      apply NoDup_cons. split; [|by apply IH]. intros Hi. apply H1. apply elem_of_list_fmap in Hi as ([k' x'] & E & Hi).
      unfold compose in E. cbn [fst] in E. apply Hinj in E as ->. apply elem_of_list_fmap. by exists (k', x'). }
    cbn [at_path]. rewrite E. split; [done|]. exists (a_node a). done.
Qed.
(** GET /pfcp_associations/full: whenever a peer is associated the answer is 200 with an empty body (NodeAssociation has a channel). *)
Theorem associations_full_refuted :
  forall t seq act g rm d es c l sh, run (init g rm d) es = Some (c, l) -> N.of_nat (List.length es) <= bound -> fair sh ->
    (exists addr, addr ∈ peers l) -> get_assocs_full t seq act sh c = (200, None).
Proof.
  intros t seq act g rm d es c l sh Hrun Hb Hf [addr Hin]. apply (association_table_follows_log _ _ _ _ _ _ Hrun Hb) in Hin as [a Ha].
  assert (Hel : (addr, a) ∈ assocs_in sh c) by (by apply elem_of_entries). unfold get_assocs_full, indented_json. f_equal.
  match goal with |- context [encodable ?v] => assert (encodable v = false) as E end; [|rewrite E; reflexivity].
  cbn [encodable]. revert Hel. generalize (assocs_in sh c). intros L. induction L as [|x L IH]; intros Hel; [by apply elem_of_nil in Hel|].
  cbn [fmap list_fmap forallb snd encodable]. cbn [andb]. by rewrite andb_false_r.
Qed.
(** Without sessions the list of sessions is null, not an empty list. *)
Theorem no_sessions_null_refuted :
  forall t g rm d es c l sh, run (init g rm d) es = Some (c, l) -> N.of_nat (List.length es) <= bound -> fair sh ->
    PfcpHistory.live l = ∅ -> get_sessions t sh c = (200, Some GNull).
Proof.
  intros t g rm d es c l sh Hrun Hb Hf Hl. destruct (all_sessions_listed _ _ _ _ _ _ sh Hrun Hb Hf) as (ks & _ & Hks & HF).
  destruct ks as [|k ks]; [|assert (k ∈ PfcpHistory.live l) as H by (apply Hks; by left); rewrite Hl in H; set_solver].
  unfold get_sessions, indented_json. destruct (all_sessions sh c); [done|inversion HF].
Qed.

(** The usage shown with a session is not the usage measured: a session's document has volumes 0 for its URR although the data plane has
    counted 500 and 700 bytes. *)
Definition shows_num (v : gval) (p : list string) (n : N) : bool := match at_path v p with Some (GNum m) => m =? n | _ => false end.
Definition shows_text (v : gval) (p : list string) (x : string) : bool := match at_path v p with Some (GText y) => String.eqb x y | _ => false end.
Lemma shows_num_ok v p n : shows_num v p n = true -> at_path v p = Some (GNum n).
Proof. unfold shows_num. destruct (at_path v p) as [[m| | | | | |]|]; try done. intros H%N.eqb_eq. by subst. Qed.
Lemma shows_text_ok v p x : shows_text v p x = true -> at_path v p = Some (GText x).
Proof. unfold shows_text. destruct (at_path v p) as [[|y| | | | |]|]; try done. intros H%String.eqb_eq. by subst. Qed.
Definition ex_texts : texts := Texts (fun _ => "v6") (fun _ => "mask") dec dec dec.
Definition ex_used : list event :=
  [ex_setup; ex_recv 2 (SessEstReq (EstReq (Good 5) (Good 100) [] [] [Some 1] [])); Traffic ∅ {[ 0 := (500, 700) ]}].
Theorem usage_shown_refuted :
  exists c l d, ex_start ex_used = Some (c, l) /\ get_sessions ex_texts id_shuffle c = (200, Some (GArr [d])) /\
    at_path d ["URRs"; "1"; "GlobalId"]%string = Some (GNum 0) /\ urr_get (c_dp c) 0 = Some (Urr 500 700) /\
    at_path d ["URRs"; "1"; "UrrInfo"; "UplinkVolume"]%string = Some (GNum 0) /\ at_path d ["URRs"; "1"; "UrrInfo"; "DownlinkVolume"]%string = Some (GNum 0).
Proof.
  destruct (ex_runs_inv ex_used (fun c =>
    match get_sessions ex_texts id_shuffle c with
    | (k, Some (GArr [d])) => (k =? 200) && shows_num d ["URRs"; "1"; "GlobalId"]%string 0 && shows_num d ["URRs"; "1"; "UrrInfo"; "UplinkVolume"]%string 0 &&
        shows_num d ["URRs"; "1"; "UrrInfo"; "DownlinkVolume"]%string 0 && match urr_get (c_dp c) 0 with Some u => (ui_ul u =? 500) && (ui_dl u =? 700) | None => false end
    | _ => false end)) as (c & l & Hc & H); [by vm_compute|].
  exists c, l. revert H. generalize (get_sessions ex_texts id_shuffle c). intros [k [[| | | | | |[|d [|]]]|]] H; try discriminate H. exists d.
  split; [exact Hc|]. clear Hc. rewrite !andb_true_iff in H. destruct H as ((((H1%N.eqb_eq & H2%shows_num_ok) & H3%shows_num_ok) & H4%shows_num_ok) & H5).
  destruct (urr_get (c_dp c) 0) as [[ul dl]|]; [|discriminate H5]. cbn [ui_ul ui_dl] in H5. apply andb_true_iff in H5 as [H5%N.eqb_eq H6%N.eqb_eq]. by subst.
Qed.

From Verif Require EndToEnd EndToEndLog.
(** The hypotheses are met: two live sessions of one peer, and what the document of the first one says. *)
Example ex_shown : exists c l d1 d2, ex_start EndToEndLog.ex_log_events = Some (c, l) /\ tidy l = true /\ Forall event_fair EndToEndLog.ex_log_events /\
  get_sessions ex_texts id_shuffle c = (200, Some (GArr [d2; d1])) /\
  at_path d1 ["LocalSEID"%string] = Some (GNum 2) /\ at_path d1 ["RemoteSEID"%string] = Some (GNum 100) /\
  at_path d1 ["FARs"; "1"; "FarInfo"; "remote_ip"]%string = Some (GText "10.0.0.9") /\ at_path d1 ["FARs"; "1"; "FarInfo"; "teid"]%string = Some (GNum 85) /\
  at_path d1 ["FARs"; "1"; "GlobalId"]%string = Some (GNum 0) /\ at_path d1 ["PDRs"; "2"; "PdrInfo"; "FarId"]%string = Some (GNum 0) /\
  at_path d1 ["PDRs"; "2"; "Ipv4"]%string = Some (GText "10.60.0.1") /\ at_path d2 ["LocalSEID"%string] = Some (GNum 3) /\
  peers l = {[7]} /\ get_assocs_full ex_texts (fun _ => 0) (fun _ => false) id_shuffle c = (200, None).
Proof.
  assert (H : match ex_start EndToEndLog.ex_log_events with
    | Some (c, l) => tidy l && bool_decide (peers l = {[7]}) && match get_assocs_full ex_texts (fun _ => 0) (fun _ => false) id_shuffle c with (k, None) => k =? 200 | _ => false end &&
        match get_sessions ex_texts id_shuffle c with
        | (k, Some (GArr [d2; d1])) => (k =? 200) && shows_num d1 ["LocalSEID"%string] 2 && shows_num d1 ["RemoteSEID"%string] 100 &&
            shows_text d1 ["FARs"; "1"; "FarInfo"; "remote_ip"]%string "10.0.0.9" && shows_num d1 ["FARs"; "1"; "FarInfo"; "teid"]%string 85 &&
            shows_num d1 ["FARs"; "1"; "GlobalId"]%string 0 && shows_num d1 ["PDRs"; "2"; "PdrInfo"; "FarId"]%string 0 &&
            shows_text d1 ["PDRs"; "2"; "Ipv4"]%string "10.60.0.1" && shows_num d2 ["LocalSEID"%string] 3
        | _ => false end
    | None => false end = true) by by vm_compute.
  destruct (ex_start EndToEndLog.ex_log_events) as [[c l]|] eqn:Ec; [|discriminate H]. rewrite !andb_true_iff in H. destruct H as (((H1 & H2%bool_decide_eq_true) & H3) & H4).
  exists c, l. revert H4. generalize (get_sessions ex_texts id_shuffle c). intros [k [[| | | | | |[|d2 [|d1 [|]]]]|]] H; try discriminate H. exists d1, d2.
  split; [reflexivity|]. clear Ec. split; [exact H1|]. split; [repeat constructor; apply id_shuffle_fair|].
  rewrite !andb_true_iff in H. destruct H as ((((((((Ha%N.eqb_eq & Hb%shows_num_ok) & Hc%shows_num_ok) & Hd%shows_text_ok) & He%shows_num_ok) & Hf%shows_num_ok) & Hg%shows_num_ok) & Hh%shows_text_ok) & Hi%shows_num_ok).
  subst k. split_and!; try assumption; [reflexivity|]. destruct (get_assocs_full _ _ _ _ _) as [k [|]]; [discriminate H3|]. apply N.eqb_eq in H3. by subst.
Qed.
