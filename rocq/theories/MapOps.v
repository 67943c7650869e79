(** Model of the BPF map operations behind the forwarding rules
    (cmd/ebpf/pdr.go, cmd/ebpf/objects.go, map declarations in cmd/ebpf/xdp). *)
From Verif Require Import Base IdTracker SdfParser.

(** ** Values stored in the maps *)

(** sdf_filter.h:33-42 [ip_subnet]: address type and the 16 bytes of [ip] and [mask]. *)
Record ep_addr := EpAddr { ea_type : N; ea_ip : list N; ea_mask : list N }.

(** sdf_filter.h:49-55 [sdf_filter]. *)
Record ep_filter := EpFilter {
  ef_proto : N; ef_src : ep_addr; ef_sport : N * N; ef_dst : ep_addr; ef_dport : N * N }.

(** pdr.h:45-52 [sdf_rules]. *)
Record ep_rules := EpRules {
  er_filter : ep_filter; er_ohr : N; er_far : N; er_qer : N; er_urr1 : N; er_urr2 : N }.

(** pdr.h:54-62 [pdr_info] (Go: IpEntrypointPdrInfo). *)
Record ep_pdr := EpPdr {
  ep_far : N; ep_qer : N; ep_urr1 : N; ep_urr2 : N; ep_ohr : N; ep_mode : N; ep_rules_ : ep_rules }.

(** pdr.go:153-159 [FarInfo] / pdr.h:110-117 [far_info].  [fi_remote] is the uint32
    read little-endian from the four address bytes. *)
Record far_info := Far { fi_action : N; fi_ohc : N; fi_teid : N; fi_remote : N; fi_tlm : N }.

(** pdr.go:194-202 [QerInfo] / qer.h:30-38 [qer_info]. *)
Record qer_info := Qer { qi_ul_gate : N; qi_dl_gate : N; qi_qfi : N; qi_ul_rate : N;
                         qi_dl_rate : N; qi_ul_start : N; qi_dl_start : N }.

(** pdr.go:225-228 [UrrInfo] / urr.h:25-28 [urr_info]. *)
Record urr_info := Urr { ui_ul : N; ui_dl : N }.

(** Zero values of the above (Go composite literals T{} and fresh BPF array slots). *)
Definition zeros16 : list N := replicate 16 0.
Definition ep_addr0 : ep_addr := EpAddr 0 zeros16 zeros16.
Definition ep_filter0 : ep_filter := EpFilter 0 ep_addr0 (0, 0) ep_addr0 (0, 0).
Definition ep_rules0 : ep_rules := EpRules ep_filter0 0 0 0 0 0.
Definition far0 : far_info := Far 0 0 0 0 0.
Definition qer0 : qer_info := Qer 0 0 0 0 0 0 0.
Definition urr0 : urr_info := Urr 0 0.

(** pdr.go:17-24 [PdrInfo]: what the control plane asks to install. *)
Record pdr_req := PdrReq { pr_ohr : N; pr_far : N; pr_qer : N; pr_urr1 : N; pr_urr2 : N;
                           pr_sdf : option sdf_filter }.

(** ** The maps.  BPF_MAP_TYPE_HASH (pdr.h:65-90) = finite map with a capacity;
    BPF_MAP_TYPE_ARRAY (pdr.h:120-126, qer.h:42-48, urr.h:32-38) = [size] zero-initialised slots,
    represented by the slots written so far.  IPv4 / IPv6 keys are the big-endian
    values of their 4 / 16 key bytes; TEID keys are the uint32 itself. *)
Record dp := Dp {
  d_up : gmap N ep_pdr; d_dn4 : gmap N ep_pdr; d_dn6 : gmap N ep_pdr; d_pdr_max : N;
  d_far : gmap N far_info; d_far_size : N;
  d_qer : gmap N qer_info; d_qer_size : N;
  d_urr : gmap N urr_info; d_urr_size : N;
  d_fart : tracker; d_qert : tracker; d_urrt : tracker }.

(** objects.go:119-152 [Load] and main.go:45-51: empty maps of the configured sizes;
    each id tracker has the MaxEntries of its map. *)
Definition dp_init (pdr far qer urr : N) : dp :=
  Dp ∅ ∅ ∅ pdr ∅ far ∅ qer ∅ urr (new_tracker far) (new_tracker qer) (new_tracker urr).

Definition set_up (m : gmap N ep_pdr) (d : dp) : dp :=
  Dp m (d_dn4 d) (d_dn6 d) (d_pdr_max d) (d_far d) (d_far_size d) (d_qer d) (d_qer_size d)
     (d_urr d) (d_urr_size d) (d_fart d) (d_qert d) (d_urrt d).
Definition set_dn4 (m : gmap N ep_pdr) (d : dp) : dp :=
  Dp (d_up d) m (d_dn6 d) (d_pdr_max d) (d_far d) (d_far_size d) (d_qer d) (d_qer_size d)
     (d_urr d) (d_urr_size d) (d_fart d) (d_qert d) (d_urrt d).
Definition set_dn6 (m : gmap N ep_pdr) (d : dp) : dp :=
  Dp (d_up d) (d_dn4 d) m (d_pdr_max d) (d_far d) (d_far_size d) (d_qer d) (d_qer_size d)
     (d_urr d) (d_urr_size d) (d_fart d) (d_qert d) (d_urrt d).
Definition set_far (m : gmap N far_info) (d : dp) : dp :=
  Dp (d_up d) (d_dn4 d) (d_dn6 d) (d_pdr_max d) m (d_far_size d) (d_qer d) (d_qer_size d)
     (d_urr d) (d_urr_size d) (d_fart d) (d_qert d) (d_urrt d).
Definition set_qer (m : gmap N qer_info) (d : dp) : dp :=
  Dp (d_up d) (d_dn4 d) (d_dn6 d) (d_pdr_max d) (d_far d) (d_far_size d) m (d_qer_size d)
     (d_urr d) (d_urr_size d) (d_fart d) (d_qert d) (d_urrt d).
Definition set_urr (m : gmap N urr_info) (d : dp) : dp :=
  Dp (d_up d) (d_dn4 d) (d_dn6 d) (d_pdr_max d) (d_far d) (d_far_size d) (d_qer d) (d_qer_size d)
     m (d_urr_size d) (d_fart d) (d_qert d) (d_urrt d).
Definition set_fart (t : tracker) (d : dp) : dp :=
  Dp (d_up d) (d_dn4 d) (d_dn6 d) (d_pdr_max d) (d_far d) (d_far_size d) (d_qer d) (d_qer_size d)
     (d_urr d) (d_urr_size d) t (d_qert d) (d_urrt d).
Definition set_qert (t : tracker) (d : dp) : dp :=
  Dp (d_up d) (d_dn4 d) (d_dn6 d) (d_pdr_max d) (d_far d) (d_far_size d) (d_qer d) (d_qer_size d)
     (d_urr d) (d_urr_size d) (d_fart d) t (d_urrt d).
Definition set_urrt (t : tracker) (d : dp) : dp :=
  Dp (d_up d) (d_dn4 d) (d_dn6 d) (d_pdr_max d) (d_far d) (d_far_size d) (d_qer d) (d_qer_size d)
     (d_urr d) (d_urr_size d) (d_fart d) (d_qert d) t.

(** Array lookup as the BPF program and Map.Lookup see it: NULL / ENOENT beyond the size. *)
Definition arr_get {A} (z : A) (m : gmap N A) (size k : N) : option A :=
  if k <? size then Some (default z (m !! k)) else None.

Definition far_get (d : dp) (k : N) : option far_info := arr_get far0 (d_far d) (d_far_size d) k.
Definition qer_get (d : dp) (k : N) : option qer_info := arr_get qer0 (d_qer d) (d_qer_size d) k.
Definition urr_get (d : dp) (k : N) : option urr_info := arr_get urr0 (d_urr d) (d_urr_size d) k.

(** Map.Put on a HASH map ([None] = E2BIG: a new key in a full map). *)
Definition hash_put (k : N) (v : ep_pdr) (m : gmap N ep_pdr) (max : N) : option (gmap N ep_pdr) :=
  match m !! k with
  | Some _ => Some (<[k := v]> m)
  | None => if N.of_nat (size m) <? max then Some (<[k := v]> m) else None
  end.
(** Map.Update(..., UpdateExist) on a HASH map ([None] = ENOENT). *)
Definition hash_update (k : N) (v : ep_pdr) (m : gmap N ep_pdr) : option (gmap N ep_pdr) :=
  match m !! k with Some _ => Some (<[k := v]> m) | None => None end.
(** Map.Delete on a HASH map ([None] = ENOENT). *)
Definition hash_delete (k : N) (m : gmap N ep_pdr) : option (gmap N ep_pdr) :=
  match m !! k with Some _ => Some (delete k m) | None => None end.

(** ** pdr.go *)

(** pdr.go:317-333 [Copy16Ip]: the bytes reversed into a zeroed 16-byte array when
    there are 4 or 16 of them; otherwise arrLen stays 0 and the array is all zero. *)
Definition copy16 (arr : list N) : list N :=
  if (length arr =? 4)%nat then rev arr ++ replicate 12 0
  else if (length arr =? 16)%nat then rev arr
  else zeros16.

Definition ep_addr_of (a : ipwmask) : ep_addr :=
  EpAddr (iw_type a) (copy16 (iw_ip a)) (copy16 (iw_mask a)).
Definition ep_filter_of (f : sdf_filter) : ep_filter :=
  EpFilter (sf_proto f) (ep_addr_of (sf_src f)) (sf_sport f) (ep_addr_of (sf_dst f)) (sf_dport f).

(** pdr.go:309-315 [ToIpEntrypointPdrInfo]: the URR ids are not copied. *)
Definition to_entrypoint (p : pdr_req) : ep_pdr :=
  EpPdr (pr_far p) (pr_qer p) 0 0 (pr_ohr p) 0 ep_rules0.

(** pdr.go:279-307 [CombinePdrWithSdf]: again no URR ids, neither default nor SDF. *)
Definition combine_pdr_with_sdf (dflt : option ep_pdr) (f : sdf_filter) (p : pdr_req) : ep_pdr :=
  let rules := EpRules (ep_filter_of f) (pr_ohr p) (pr_far p) (pr_qer p) 0 0 in
  match dflt with
  | Some q => EpPdr (ep_far q) (ep_qer q) 0 0 (ep_ohr q) 2 rules
  | None => EpPdr 0 0 0 0 0 1 rules
  end.

(** pdr.go:57-64 (and the same lines of the other Put/Update functions) with
    PreprocessPdrWithSdf (pdr.go:45-52). *)
Definition pdr_to_store (m : gmap N ep_pdr) (k : N) (p : pdr_req) : ep_pdr :=
  match pr_sdf p with
  | Some f => combine_pdr_with_sdf (m !! k) f p
  | None => to_entrypoint p
  end.

(** pdr.go:54-66 [PutPdrUplink], 68-80 [PutPdrDownlink], 120-132 [PutDownlinkPdrIp6].
    Result: (error?, state). *)
Definition put_pdr_uplink (teid : N) (p : pdr_req) (d : dp) : bool * dp :=
  match hash_put teid (pdr_to_store (d_up d) teid p) (d_up d) (d_pdr_max d) with
  | Some m => (true, set_up m d) | None => (false, d) end.
Definition put_pdr_downlink (ip : N) (p : pdr_req) (d : dp) : bool * dp :=
  match hash_put ip (pdr_to_store (d_dn4 d) ip p) (d_dn4 d) (d_pdr_max d) with
  | Some m => (true, set_dn4 m d) | None => (false, d) end.
Definition put_pdr_ip6 (ip : N) (p : pdr_req) (d : dp) : bool * dp :=
  match hash_put ip (pdr_to_store (d_dn6 d) ip p) (d_dn6 d) (d_pdr_max d) with
  | Some m => (true, set_dn6 m d) | None => (false, d) end.

(** pdr.go:82-94 [UpdatePdrUplink], 96-108 [UpdatePdrDownlink], 134-146 [UpdateDownlinkPdrIp6]. *)
Definition update_pdr_uplink (teid : N) (p : pdr_req) (d : dp) : bool * dp :=
  match hash_update teid (pdr_to_store (d_up d) teid p) (d_up d) with
  | Some m => (true, set_up m d) | None => (false, d) end.
Definition update_pdr_downlink (ip : N) (p : pdr_req) (d : dp) : bool * dp :=
  match hash_update ip (pdr_to_store (d_dn4 d) ip p) (d_dn4 d) with
  | Some m => (true, set_dn4 m d) | None => (false, d) end.
Definition update_pdr_ip6 (ip : N) (p : pdr_req) (d : dp) : bool * dp :=
  match hash_update ip (pdr_to_store (d_dn6 d) ip p) (d_dn6 d) with
  | Some m => (true, set_dn6 m d) | None => (false, d) end.

(** pdr.go:110-113 [DeletePdrUplink], 115-118 [DeletePdrDownlink], 148-151 [DeleteDownlinkPdrIp6]. *)
Definition delete_pdr_uplink (teid : N) (d : dp) : bool * dp :=
  match hash_delete teid (d_up d) with Some m => (true, set_up m d) | None => (false, d) end.
Definition delete_pdr_downlink (ip : N) (d : dp) : bool * dp :=
  match hash_delete ip (d_dn4 d) with Some m => (true, set_dn4 m d) | None => (false, d) end.
Definition delete_pdr_ip6 (ip : N) (d : dp) : bool * dp :=
  match hash_delete ip (d_dn6 d) with Some m => (true, set_dn6 m d) | None => (false, d) end.

(** pdr.go:174-181 [NewFar] with objects.go:273-277 [GetNextFAR].  When the array write
    fails (id beyond the map) the id is not given back. *)
Definition new_far (f : far_info) (d : dp) : option N * dp :=
  match get_next (d_fart d) with
  | (None, _) => (None, d)
  | (Some i, t) =>
      let d1 := set_fart t d in
      if i <? d_far_size d then (Some i, set_far (<[i := f]> (d_far d1)) d1) else (None, d1)
  end.
(** pdr.go:183-186 [UpdateFar]. *)
Definition update_far (i : N) (f : far_info) (d : dp) : bool * dp :=
  if i <? d_far_size d then (true, set_far (<[i := f]> (d_far d)) d) else (false, d).
(** pdr.go:188-192 [DeleteFar]: release the id, then overwrite the slot with zeros. *)
Definition delete_far (i : N) (d : dp) : bool * dp :=
  update_far i far0 (set_fart (release i (d_fart d)) d).

(** pdr.go:204-211 [NewQer], 213-216 [UpdateQer], 218-222 [DeleteQer]. *)
Definition new_qer (q : qer_info) (d : dp) : option N * dp :=
  match get_next (d_qert d) with
  | (None, _) => (None, d)
  | (Some i, t) =>
      let d1 := set_qert t d in
      if i <? d_qer_size d then (Some i, set_qer (<[i := q]> (d_qer d1)) d1) else (None, d1)
  end.
Definition update_qer (i : N) (q : qer_info) (d : dp) : bool * dp :=
  if i <? d_qer_size d then (true, set_qer (<[i := q]> (d_qer d)) d) else (false, d).
Definition delete_qer (i : N) (d : dp) : bool * dp :=
  update_qer i qer0 (set_qert (release i (d_qert d)) d).

(** pdr.go:230-237 [NewUrr], 239-242 [UpdateUrr]. *)
Definition new_urr (u : urr_info) (d : dp) : option N * dp :=
  match get_next (d_urrt d) with
  | (None, _) => (None, d)
  | (Some i, t) =>
      let d1 := set_urrt t d in
      if i <? d_urr_size d then (Some i, set_urr (<[i := u]> (d_urr d1)) d1) else (None, d1)
  end.
Definition update_urr (i : N) (u : urr_info) (d : dp) : bool * dp :=
  if i <? d_urr_size d then (true, set_urr (<[i := u]> (d_urr d)) d) else (false, d).
(** pdr.go:244-256 [DeleteUrr]: look up, release the id, zero the slot, return the old value.
    ([None] = lookup error; the later update cannot fail once the lookup succeeded.) *)
Definition delete_urr (i : N) (d : dp) : option urr_info * dp :=
  match urr_get d i with
  | None => (None, d)
  | Some u =>
      let d1 := set_urrt (release i (d_urrt d)) d in
      match update_urr i urr0 d1 with
      | (true, d2) => (Some u, d2)
      | (false, d2) => (None, d2)
      end
  end.
