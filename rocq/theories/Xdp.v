(** Model of the packet processing program (cmd/ebpf/xdp), function by function.

    A frame is the list of its bytes; a C pointer into it is the offset from the start of the
    frame, NULL is [None]; data_end is the length of the frame.  A computation has three results:
    a value with the new state, or a fault ([None]): an access outside the frame, a NULL pointer
    dereference or a division by zero.  Map lookups that return a pointer are modelled by reading
    the value and writing it back where the C code stores through the pointer; the per-CPU
    statistics entries (index 0 of a per-CPU array of one element) always exist.  The optional
    compile-time feature ENABLE_ROUTE_CACHE (routing.h:49-88, 107-114, 133-135) is off by default
    and not modelled; upf_printk is dropped.  Integers in headers are read and written byte by byte
    in network order, which is what the code does on a little-endian machine. *)
From Verif Require Import Base IdTracker SdfParser SdfProps MapOps SdfMatch Qer Csum.

(** ** Verdicts, counters, environment *)

(** enum xdp_action; [REDIRECT i] is what bpf_redirect(i, 0) returns. *)
Inductive verdict := ABORTED | DROP | PASS | TX | REDIRECT (ifindex : N).
Definition verdict_code (v : verdict) : N :=
  match v with ABORTED => 0 | DROP => 1 | PASS => 2 | TX => 3 | REDIRECT _ => 4 end.

(** statistics.h:22-51 [upf_counters], [n3_n6_counters], [xdp_actions]; routing.h:30-39
    [route_stat].  The state keeps the list of increments (each by one). *)
Inductive counter :=
  | rx_arp | rx_icmp | rx_icmp6 | rx_ip4 | rx_ip6 | rx_tcp | rx_udp | rx_other
  | rx_gtp_echo | rx_gtp_pdu | rx_gtp_other | rx_gtp_unexp
  | rx_n3 | tx_n3 | rx_n6 | tx_n6
  | fib4_ok | fib4_drop | fib4_pass | fib6_ok | fib6_drop | fib6_pass
  | action (code : N).
Global Instance counter_eq_dec : EqDecision counter.
Proof. solve_decision. Defined.

(** What bpf_fib_lookup is asked and answers (struct bpf_fib_lookup). *)
Record fib_query := FibQ { fq_family : N; fq_tos : N; fq_proto : N; fq_len : N;
                           fq_src : list N; fq_dst : list N; fq_if : N }.
Record fib_answer := FibA { fa_rc : N; fa_if : N; fa_smac : list N; fa_dmac : list N }.

(** What the program gets from outside: its configuration (n3n6_entrypoint.c:48-51, the four
    bytes of each address in memory order), the clock at the uplink and at the downlink rate limiter, the ingress
    interface, the routing table, the bytes in front of the frame that bpf_xdp_adjust_head(-44)
    uncovers ([None]: not enough headroom), and the kernel's bpf_csum_diff. *)
Record env := Env { e_n3 : list N; e_n9 : list N; e_now_ul : N; e_now_dl : N; e_if : N;
                    e_fib : fib_query -> fib_answer; e_head : option (list N);
                    e_diff : list N -> N }.

(** packet_context.h:28-40; counters and xdp_ctx are not pointers into the frame, data_end is the
    length of the frame. *)
Record pctx := Pctx { p_data : nat; p_eth : option nat; p_ip4 : option nat; p_ip6 : option nat;
                      p_udp : option nat; p_tcp : option nat; p_gtp : option nat }.

Record xst := Xst { x_f : list N; x_dp : dp; x_log : list counter }.

(** ** Computations *)
Definition M (A : Type) := xst -> option (A * xst).
Definition ret {A} (a : A) : M A := fun s => Some (a, s).
Definition bind {A B} (m : M A) (k : A -> M B) : M B :=
  fun s => match m s with Some (a, s') => k a s' | None => None end.
Notation "x <- m ;; k" := (bind m (fun x => k)) (at level 81, m at next level, right associativity).
Notation "' x <- m ;; k" := (bind m (fun x => k))
  (at level 81, x pattern, m at next level, right associativity).
Notation "m ;;; k" := (bind m (fun _ => k)) (at level 81, right associativity).

(** [field f off n]: [n] bytes of [f] from offset [off]. *)
Definition field (f : list N) (off n : nat) : list N := take n (drop off f).
Definition byte (f : list N) (off : nat) : N := nth off f 0.

(** Read / write [n] bytes; fault outside the frame. *)
Definition rd (off n : nat) : M (list N) := fun s =>
  if (off + n <=? length (x_f s))%nat then Some (field (x_f s) off n, s) else None.
Definition rd1 (off : nat) : M N := fun s =>
  if (off + 1 <=? length (x_f s))%nat then Some (byte (x_f s) off, s) else None.
Definition patch (f : list N) (off : nat) (l : list N) : list N :=
  take off f ++ l ++ drop (off + length l) f.
Definition wr (off : nat) (l : list N) : M unit := fun s =>
  if (off + length l <=? length (x_f s))%nat
  then Some (tt, Xst (patch (x_f s) off l) (x_dp s) (x_log s)) else None.
(** A pointer comparison p + n > data_end (negated). *)
Definition fits (off n : nat) : M bool := fun s => Some ((off + n <=? length (x_f s))%nat, s).
(** Dereference of a pointer that may be NULL. *)
Definition ptr (p : option nat) : M nat := fun s => match p with Some o => Some (o, s) | None => None end.
(** data_end - data *)
Definition frame_len : M N := fun s => Some (N.of_nat (length (x_f s)), s).
Definition get_dp : M dp := fun s => Some (x_dp s, s).
Definition put_dp (d : dp) : M unit := fun s => Some (tt, Xst (x_f s) d (x_log s)).
(** common.h:19-20 [increment_counter] and the other "+= 1" on counters. *)
Definition inc (c : counter) : M unit := fun s => Some (tt, Xst (x_f s) (x_dp s) (x_log s ++ [c])).
(** A division that faults on a zero divisor. *)
Definition div (a b : N) : M N := fun s => if b =? 0 then None else Some (a / b, s).

(** bpf_xdp_adjust_head(ctx, n) for n > 0: refused if less than an Ethernet header remains. *)
Definition shrink_head (n : nat) : M bool := fun s =>
  if (n + 14 <=? length (x_f s))%nat
  then Some (true, Xst (drop n (x_f s)) (x_dp s) (x_log s)) else Some (false, s).
(** bpf_xdp_adjust_head(ctx, -44). *)
Definition grow_head (e : env) : M bool := fun s =>
  match e_head e with
  | Some h => Some (true, Xst (h ++ x_f s) (x_dp s) (x_log s))
  | None => Some (false, s)
  end.

(** Integers as bytes: network order (bpf_htons, bpf_htonl) and memory order. *)
Definition be16 (v : N) : list N := [v / 256 mod 256; v mod 256].
Definition be32 (v : N) : list N := [v / 16777216 mod 256; v / 65536 mod 256; v / 256 mod 256; v mod 256].
Definition le32 (v : N) : list N := [v mod 256; v / 256 mod 256; v / 65536 mod 256; v / 16777216 mod 256].

(** ** parsers.h.  A parser returns [None] for -1. *)

Definition ctx0 : pctx := Pctx 0 None None None None None None.

(** parsers.h:33-43 [parse_ethernet] *)
Definition parse_ethernet (c : pctx) : M (option N * pctx) :=
  let p := p_data c in
  ok <- fits p 14;;
  if ok : bool then
    t <- rd (p + 12) 2;;
    ret (Some (be_value t), Pctx (p + 14) (Some p) (p_ip4 c) (p_ip6 c) (p_udp c) (p_tcp c) (p_gtp c))
  else ret (None, c).

(** parsers.h:48-60 [parse_ip4] *)
Definition parse_ip4 (c : pctx) : M (option N * pctx) :=
  let p := p_data c in
  ok <- fits p 20;;
  if ok : bool then
    b <- rd1 p;;
    proto <- rd1 (p + 9);;
    ret (Some proto, Pctx (p + 4 * N.to_nat (b mod 16)) (p_eth c) (Some p) (p_ip6 c) (p_udp c) (p_tcp c) (p_gtp c))
  else ret (None, c).

(** parsers.h:62-72 [parse_ip6] *)
Definition parse_ip6 (c : pctx) : M (option N * pctx) :=
  let p := p_data c in
  ok <- fits p 40;;
  if ok : bool then
    proto <- rd1 (p + 6);;
    ret (Some proto, Pctx (p + 40) (p_eth c) (p_ip4 c) (Some p) (p_udp c) (p_tcp c) (p_gtp c))
  else ret (None, c).

(** parsers.h:74-82 [parse_udp] *)
Definition parse_udp (c : pctx) : M (option N * pctx) :=
  let p := p_data c in
  ok <- fits p 8;;
  if ok : bool then
    dport <- rd (p + 2) 2;;
    ret (Some (be_value dport), Pctx (p + 8) (p_eth c) (p_ip4 c) (p_ip6 c) (Some p) (p_tcp c) (p_gtp c))
  else ret (None, c).

(** parsers.h:84-94 [parse_tcp] *)
Definition parse_tcp (c : pctx) : M (option N * pctx) :=
  let p := p_data c in
  ok <- fits p 20;;
  if ok : bool then
    dport <- rd (p + 2) 2;;
    ret (Some (be_value dport), Pctx (p + 20) (p_eth c) (p_ip4 c) (p_ip6 c) (p_udp c) (Some p) (p_gtp c))
  else ret (None, c).

(** parsers.h:96-106 [parse_l4] *)
Definition parse_l4 (proto : N) (c : pctx) : M (option N * pctx) :=
  if proto =? 17 then parse_udp c
  else if proto =? 6 then parse_tcp c
  else ret (Some 0, c).

(** parsers.h:108-113 [swap_mac] *)
Definition swap_mac (eth : nat) : M unit :=
  src <- rd (eth + 6) 6;;
  dst <- rd eth 6;;
  wr (eth + 6) dst;;;
  wr eth src.

(** parsers.h:115-124 [swap_port] *)
Definition swap_port (udp : nat) : M unit :=
  dst <- rd (udp + 2) 2;;
  src <- rd udp 2;;
  wr (udp + 2) src;;;
  wr udp dst;;;
  wr (udp + 6) [0; 0].

(** parsers.h:126-133 [swap_ip] *)
Definition swap_ip (ip : nat) : M unit :=
  dst <- rd (ip + 16) 4;;
  src <- rd (ip + 12) 4;;
  wr (ip + 16) src;;;
  wr (ip + 12) dst.

(** parsers.h:145-181 [context_reset], [context_reinit] (true = 0, false = -1); the tcp pointer is
    not reset. *)
Definition context_reinit (c : pctx) : M (bool * pctx) :=
  '(t, c) <- parse_ethernet (Pctx 0 None None None None (p_tcp c) None);;
  match t with
  | Some t =>
      if t =? 34525 then
        '(r, c) <- parse_ip6 c;; ret (match r with Some _ => true | None => false end, c)
      else if t =? 2048 then
        '(r, c) <- parse_ip4 c;; ret (match r with Some _ => true | None => false end, c)
      else ret (false, c)
  | None => ret (false, c)
  end.

(** ** sdf_filter.h *)

(** sdf_filter.h:74-82, 118-126: ports of the parsed UDP header, else of the TCP header, else 0. *)
Definition sdf_ports (c : pctx) : M (N * N) :=
  match p_udp c, p_tcp c with
  | Some p, _ => s <- rd p 2;; d <- rd (p + 2) 2;; ret (be_value s, be_value d)
  | None, Some p => s <- rd p 2;; d <- rd (p + 2) 2;; ret (be_value s, be_value d)
  | None, None => ret (0, 0)
  end.

(** sdf_filter.h:68-111 [match_sdf_filter_ipv4]; the comparison itself is [match_ipv4]. *)
Definition match_sdf4 (c : pctx) (flt : ep_filter) : M bool :=
  match p_ip4 c with
  | None => ret false
  | Some ip =>
      proto <- rd1 (ip + 9);;
      ports <- sdf_ports c;;
      src <- rd (ip + 12) 4;;
      dst <- rd (ip + 16) 4;;
      ret (match_ipv4 flt (SdfPkt proto src dst ports))
  end.

(** sdf_filter.h:113-152 [match_sdf_filter_ipv6]; the comparison itself is [match_ipv6]. *)
Definition match_sdf6 (c : pctx) (flt : ep_filter) : M bool :=
  ip <- ptr (p_ip6 c);;
  proto <- rd1 (ip + 6);;
  src <- rd (ip + 8) 16;;
  dst <- rd (ip + 24) 16;;
  ports <- sdf_ports c;;
  ret (match_ipv6 flt (SdfPkt proto src dst ports)).

(** ** csum.h:32-35 [ipv4_csum] of the [n] bytes at [off], stored at [off + 10] as iph->check. *)
Definition set_ip_csum (e : env) (off : nat) : M unit :=
  h <- rd off 20;;
  wr (off + 10) (store16 (ipv4_csum (e_diff e) h)).

(** ** qer.h, urr.h *)

(** qer.h:67-90 [limit_rate_sliding_window] with the division made explicit: does the packet pass,
    and the value stored to the window, if any. *)
Definition rate_limit (size start rate now : N) : M (bool * option N) :=
  if rate =? 0 then ret (true, None) else
  q <- div NSEC rate;;
  let tx := u64 (u64 (size * 8) * q) in
  if now <? u64 (start + tx) then ret (false, None)
  else if u64 (start + WINDOW) <? now then
    ret (true, Some (u64 (now + (18446744073709551616 - WINDOW) + tx)))
  else ret (true, Some (u64 (start + tx))).

(** urr.h:41-49 [update_urr] *)
Definition charge (id ul dl : N) : M unit :=
  d <- get_dp;;
  match urr_get d id with
  | Some u => put_dp (set_urr (<[id := Urr (u64 (ui_ul u + ul)) (u64 (ui_dl u + dl))]> (d_urr d)) d)
  | None => ret tt
  end.

(** Stores through &qer->ul_start / &qer->dl_start. *)
Definition with_ul_start (q : qer_info) (v : N) : qer_info :=
  Qer (qi_ul_gate q) (qi_dl_gate q) (qi_qfi q) (qi_ul_rate q) (qi_dl_rate q) v (qi_dl_start q).
Definition with_dl_start (q : qer_info) (v : N) : qer_info :=
  Qer (qi_ul_gate q) (qi_dl_gate q) (qi_qfi q) (qi_ul_rate q) (qi_dl_rate q) (qi_ul_start q) v.
Definition store_qer (id : N) (q : qer_info) : M unit :=
  d <- get_dp;; put_dp (set_qer (<[id := q]> (d_qer d)) d).

(** ** routing.h *)

(** routing.h:90-98 [do_route_ipv4], also 180-187 (MAC addresses written in the other order). *)
Definition do_route (e : env) (eth : option nat) (a : fib_answer) : M verdict :=
  eth <- ptr eth;;
  wr (eth + 6) (fa_smac a);;;
  wr eth (fa_dmac a);;;
  ret (if fa_if a =? e_if e then TX else REDIRECT (fa_if a)).

(** routing.h:100-154 [route_ipv4] (BPF_FIB_LKUP_RET_SUCCESS = 0, BLACKHOLE = 1, UNREACHABLE = 2,
    PROHIBIT = 3; AF_INET = 2). *)
Definition route_ipv4 (e : env) (eth ip4 : option nat) : M verdict :=
  ip <- ptr ip4;;
  tos <- rd1 (ip + 1);;
  proto <- rd1 (ip + 9);;
  len <- rd (ip + 2) 2;;
  src <- rd (ip + 12) 4;;
  dst <- rd (ip + 16) 4;;
  let a := e_fib e (FibQ 2 tos proto (be_value len) src dst (e_if e)) in
  if fa_rc a =? 0 then inc fib4_ok;;; do_route e eth a
  else if (fa_rc a =? 1) || (fa_rc a =? 2) || (fa_rc a =? 3) then inc fib4_drop;;; ret DROP
  else inc fib4_pass;;; ret PASS.

(** routing.h:156-204 [route_ipv6] (the family is AF_INET here too). *)
Definition route_ipv6 (e : env) (eth ip6 : option nat) : M verdict :=
  ip <- ptr ip6;;
  proto <- rd1 (ip + 6);;
  len <- rd (ip + 4) 2;;
  src <- rd (ip + 8) 16;;
  dst <- rd (ip + 24) 16;;
  let a := e_fib e (FibQ 2 0 proto (be_value len) src dst (e_if e)) in
  if fa_rc a =? 0 then inc fib6_ok;;; do_route e eth a
  else if (fa_rc a =? 1) || (fa_rc a =? 2) || (fa_rc a =? 3) then inc fib6_drop;;; ret DROP
  else inc fib6_pass;;; ret PASS.

(** ** gtp_utils.h, gtpu.h *)

(** gtpu.h:34-41: one of the bits E, S, PN (the low three of the first byte). *)
Definition has_opt (flags : N) : bool := negb (flags mod 8 =? 0).

(** gtp_utils.h:31-41 [parse_gtp] *)
Definition parse_gtp (c : pctx) : M (option N * pctx) :=
  let p := p_data c in
  ok <- fits p 8;;
  if ok : bool then
    flags <- rd1 p;;
    t <- rd1 (p + 1);;
    ret (Some t, Pctx (p + 8 + (if has_opt flags then 8 else 0)) (p_eth c) (p_ip4 c) (p_ip6 c) (p_udp c) (p_tcp c) (Some p))
  else ret (None, c).

(** gtpu.h:83-101 [insert_recovery] (the length of the inserted IE). *)
Definition insert_recovery (gtp : nat) : M N :=
  flags <- rd1 gtp;;
  ok <- (if has_opt flags then fits (gtp + 8) 4 else ret true);;
  let r := (gtp + 8 + (if has_opt flags then 4 else 0))%nat in
  if ok : bool then
    room <- fits r 2;;
    if room : bool then wr r [14];;; wr (r + 1) [0];;; ret 2 else ret 0
  else ret 0.

(** x = htons(ntohs(x) + n) for the 16-bit field at [off] (gtp_utils.h:61-63). *)
Definition add16 (off : nat) (n : N) : M unit :=
  v <- rd off 2;; wr off (be16 (be_value v + n)).

(** gtp_utils.h:43-72 [handle_echo_request] *)
Definition handle_echo_request (e : env) (c : pctx) : M verdict :=
  gtp <- ptr (p_gtp c);;
  wr (gtp + 1) [2];;;
  ip <- ptr (p_ip4 c);;
  swap_ip ip;;;
  udp <- ptr (p_udp c);;
  swap_port udp;;;
  eth <- ptr (p_eth c);;
  swap_mac eth;;;
  n <- insert_recovery gtp;;
  if n =? 0 then ret TX else
  add16 (gtp + 2) n;;;
  add16 (udp + 4) n;;;
  add16 (ip + 2) n;;;
  wr (ip + 10) [0; 0];;;
  set_ip_csum e ip;;;
  ret TX.

(** gtp_utils.h:74-88 [guess_eth_protocol]: the two bytes of h_proto. *)
Definition guess_eth_protocol (b : N) : option (list N) :=
  if b / 16 =? 6 then Some [134; 221] else if b / 16 =? 4 then Some [8; 0] else None.

(** gtp_utils.h:90-139 [remove_gtp_header] (true = 0). *)
Definition remove_gtp_header (c : pctx) : M (bool * pctx) :=
  match p_gtp c with
  | None => ret (false, c)
  | Some gtp =>
      flags <- rd1 gtp;;
      let n := (20 + 8 + 8 + (if has_opt flags then 8 else 0))%nat in
      ok <- fits 0 14;;
      if negb ok then ret (false, c) else
      ok <- fits n 14;;
      if negb ok then ret (false, c) else
      ok <- fits (n + 14) 1;;
      if negb ok then ret (false, c) else
      b <- rd1 (n + 14);;
      match guess_eth_protocol b with
      | None => ret (false, c)
      | Some proto =>
          eth <- rd 0 14;;
          wr n eth;;;
          wr (n + 12) proto;;;
          ok <- shrink_head n;;
          if negb ok then ret (false, c) else context_reinit c
      end
  end.

(** gtp_utils.h:141-153 [fill_ip_header] (check = 0). *)
Definition ip_header (saddr daddr : list N) (tos len : N) : list N :=
  [69; tos] ++ be16 len ++ [0; 0; 64; 0; 64; 17; 0; 0] ++ saddr ++ daddr.
(** gtp_utils.h:155-160 [fill_udp_header] with port 2152. *)
Definition udp_header (len : N) : list N := be16 2152 ++ be16 2152 ++ be16 len ++ [0; 0].
(** gtp_utils.h:162-168 [fill_gtp_header]: flags GTP_FLAGS with E set. *)
Definition gtp_header (teid len : N) : list N := [52; 255] ++ be16 len ++ be32 teid.
(** gtp_utils.h:170-174 [fill_gtp_ext_header] *)
Definition gtp_ext_header : list N := [0; 0; 0; 133].
(** gtp_utils.h:176-184 [fill_gtp_ext_header_psc]: PDU type 0, 6-bit qfi. *)
Definition gtp_psc (qfi : N) : list N := [1; 0; qfi mod 64; 0].

(** gtp_utils.h:186-262 [add_gtp_over_ip4_headers] ([None] = -1). *)
Definition add_gtp_over_ip4_headers (e : env) (c : pctx) (saddr daddr : list N) (tos qfi teid : N) : M (option pctx) :=
  len <- match p_ip4 c, p_ip6 c with
         | Some ip, _ => v <- rd (ip + 2) 2;; ret (Some (be_value v))
         | None, Some ip => v <- rd (ip + 4) 2;; ret (Some (be_value v + 40))
         | None, None => ret None
         end;;
  match len with
  | None => ret None
  | Some len =>
      ok <- grow_head e;;
      if negb ok then ret None else
      ok <- fits 44 14;;
      if negb ok then ret None else
      eth <- rd 44 14;;
      wr 0 eth;;;
      wr 12 [8; 0];;;
      ok <- fits 14 20;;
      if negb ok then ret None else
      wr 14 (ip_header saddr daddr tos (len + 44));;;
      ok <- fits 34 8;;
      if negb ok then ret None else
      wr 34 (udp_header (len + 8 + 16));;;
      ok <- fits 42 8;;
      if negb ok then ret None else
      wr 42 (gtp_header teid (8 + len));;;
      ok <- fits 50 4;;
      if negb ok then ret None else
      wr 50 gtp_ext_header;;;
      ok <- fits 54 4;;
      if negb ok then ret None else
      wr 54 (gtp_psc qfi);;;
      set_ip_csum e 14;;;
      ret (Some (Pctx 0 (Some 0%nat) (Some 14%nat) None (Some 34%nat) (p_tcp c) (Some 42%nat)))
  end.

(** gtp_utils.h:264-277 [update_gtp_tunnel] *)
Definition update_gtp_tunnel (e : env) (c : pctx) (src dst : list N) (teid : N) : M unit :=
  gtp <- ptr (p_gtp c);;
  wr (gtp + 4) (be32 teid);;;
  ip <- ptr (p_ip4 c);;
  wr (ip + 12) src;;;
  wr (ip + 16) dst;;;
  wr (ip + 10) [0; 0];;;
  set_ip_csum e ip;;;
  udp <- ptr (p_udp c);;
  wr (udp + 6) [0; 0].

(** ** icmp.h:81-109 [prepare_icmp_echo_reply] (true = 0). *)
Definition prepare_icmp_echo_reply (c : pctx) : M bool :=
  match p_ip4 c with
  | None => ret false
  | Some ip =>
      eth <- ptr (p_eth c);;
      swap_mac eth;;;
      ok <- fits ip 20;;
      if negb ok then ret false else
      swap_ip ip;;;
      ok <- fits (ip + 20) 8;;
      if negb ok then ret false else
      t <- rd1 (ip + 20);;
      if negb (t =? 8) then ret false else
      code <- rd1 (ip + 21);;
      wr (ip + 20) [0];;;
      wr (ip + 21) [0];;;
      k0 <- rd1 (ip + 22);;
      k1 <- rd1 (ip + 23);;
      wr (ip + 22) (store16 (csum_replace (load16 k0 k1) (load16 t code) (load16 0 0)));;;
      ret true
  end.

(** ** n3n6_entrypoint.c *)

(** n3n6_entrypoint.c:53-56 [is_local_ip] *)
Definition is_local_ip (e : env) (ip : list N) : bool := bool_decide (ip = e_n3 e) || bool_decide (ip = e_n9 e).

(** n3n6_entrypoint.c:58-64 [send_to_gtp_tunnel] *)
Definition send_to_gtp_tunnel (e : env) (c : pctx) (src dst : list N) (tos qfi teid : N) : M verdict :=
  r <- add_gtp_over_ip4_headers e c src dst tos qfi teid;;
  match r with
  | None => ret ABORTED
  | Some c => inc tx_n3;;; route_ipv4 e (p_eth c) (p_ip4 c)
  end.

(** n3n6_entrypoint.c:91-128 and 154-191: the part of the downlink handlers after the SDF filter,
    the same for IPv4 and IPv6. *)
Definition n6_forward (e : env) (c : pctx) (pdr : ep_pdr) (far_id qer_id : N) : M verdict :=
  d <- get_dp;;
  match far_get d far_id with
  | None => ret DROP
  | Some far =>
      if N.land (fi_action far) 2 =? 0 then ret DROP else
      if N.land (fi_ohc far) 1 =? 0 then ret DROP else
      match qer_get d qer_id with
      | None => ret DROP
      | Some qer =>
          if negb (qi_dl_gate qer =? 0) then ret DROP else
          size <- frame_len;;
          '(pass, w) <- rate_limit size (qi_dl_start qer) (qi_dl_rate qer) (e_now_dl e);;
          match w with Some v => store_qer qer_id (with_dl_start qer v) | None => ret tt end;;;
          if negb pass then ret DROP else
          charge (ep_urr1 pdr) 0 size;;;
          charge (ep_urr2 pdr) 0 size;;;
          send_to_gtp_tunnel e c (e_n3 e) (le32 (fi_remote far)) (fi_tlm far / 256) (qi_qfi qer) (fi_teid far)
      end
  end.

(** n3n6_entrypoint.c:68-129 [handle_n6_packet_ipv4] *)
Definition handle_n6_packet_ipv4 (e : env) (c : pctx) : M verdict :=
  ip <- ptr (p_ip4 c);;
  dst <- rd (ip + 16) 4;;
  d <- get_dp;;
  match d_dn4 d !! be_value dst with
  | None => ret PASS
  | Some pdr =>
      if ep_mode pdr =? 0 then n6_forward e c pdr (ep_far pdr) (ep_qer pdr) else
      m <- match_sdf4 c (er_filter (ep_rules_ pdr));;
      if m : bool then n6_forward e c pdr (er_far (ep_rules_ pdr)) (er_qer (ep_rules_ pdr))
      else if negb (N.land (ep_mode pdr) 1 =? 0) then ret PASS
      else n6_forward e c pdr (ep_far pdr) (ep_qer pdr)
  end.

(** n3n6_entrypoint.c:131-192 [handle_n6_packet_ipv6] *)
Definition handle_n6_packet_ipv6 (e : env) (c : pctx) : M verdict :=
  ip <- ptr (p_ip6 c);;
  dst <- rd (ip + 24) 16;;
  d <- get_dp;;
  match d_dn6 d !! be_value dst with
  | None => ret PASS
  | Some pdr =>
      if ep_mode pdr =? 0 then n6_forward e c pdr (ep_far pdr) (ep_qer pdr) else
      m <- match_sdf6 c (er_filter (ep_rules_ pdr));;
      if m : bool then n6_forward e c pdr (er_far (ep_rules_ pdr)) (er_qer (ep_rules_ pdr))
      else if negb (N.land (ep_mode pdr) 1 =? 0) then ret PASS
      else n6_forward e c pdr (ep_far pdr) (ep_qer pdr)
  end.

(** n3n6_entrypoint.c:347-371: the end of the uplink handler, after the tunnel header was rewritten,
    removed or left alone. *)
Definition n3_deliver (e : env) (c : pctx) : M verdict :=
  local <- match p_ip4 c with
           | None => ret false
           | Some ip =>
               dst <- rd (ip + 16) 4;;
               if is_local_ip e dst then proto <- rd1 (ip + 9);; ret (proto =? 1) else ret false
           end;;
  if local : bool then
    ok <- prepare_icmp_echo_reply c;;
    if ok : bool then handle_n6_packet_ipv4 e c else ret ABORTED
  else
    match p_ip4 c, p_ip6 c with
    | Some _, _ => inc tx_n6;;; route_ipv4 e (p_eth c) (p_ip4 c)
    | None, Some _ => inc tx_n6;;; route_ipv6 e (p_eth c) (p_ip6 c)
    | None, None => ret ABORTED
    end.

(** n3n6_entrypoint.c:284-333: steps 2 and 3 of the uplink handler and the tunnel header. *)
Definition n3_forward (e : env) (c : pctx) (pdr : ep_pdr) (far_id qer_id ohr : N) : M verdict :=
  d <- get_dp;;
  match far_get d far_id with
  | None => ret DROP
  | Some far =>
      if N.land (fi_action far) 2 =? 0 then ret DROP else
      match qer_get d qer_id with
      | None => ret DROP
      | Some qer =>
          if negb (qi_ul_gate qer =? 0) then ret DROP else
          size <- frame_len;;
          '(pass, w) <- rate_limit size (qi_ul_start qer) (qi_ul_rate qer) (e_now_ul e);;
          match w with Some v => store_qer qer_id (with_ul_start qer v) | None => ret tt end;;;
          if negb pass then ret DROP else
          charge (ep_urr1 pdr) size 0;;;
          charge (ep_urr2 pdr) size 0;;;
          if negb (N.land (fi_ohc far) 1 =? 0) then
            update_gtp_tunnel e c (e_n9 e) (le32 (fi_remote far)) (fi_teid far);;;
            n3_deliver e c
          else if ohr =? 0 then
            '(ok, c) <- remove_gtp_header c;;
            if ok : bool then n3_deliver e c else ret ABORTED
          else n3_deliver e c
      end
  end.

(** n3n6_entrypoint.c:194-373 [handle_gtp_packet]; the inner packet is parsed with a fresh context
    starting at the current position (:216-219). *)
Definition handle_gtp_packet (e : env) (c : pctx) : M verdict :=
  match p_gtp c with
  | None => ret PASS
  | Some gtp =>
      teid <- rd (gtp + 4) 4;;
      d <- get_dp;;
      match d_up d !! be_value teid with
      | None => ret PASS
      | Some pdr =>
          let dflt := n3_forward e c pdr (ep_far pdr) (ep_qer pdr) (ep_ohr pdr) in
          let sdf := n3_forward e c pdr (er_far (ep_rules_ pdr)) (er_qer (ep_rules_ pdr)) (er_ohr (ep_rules_ pdr)) in
          if ep_mode pdr =? 0 then dflt else
          let strict := negb (N.land (ep_mode pdr) 1 =? 0) in
          let inner := Pctx (p_data c) None None None None None None in
          ok <- fits (p_data c) 1;;
          if negb ok then ret PASS else
          b <- rd1 (p_data c);;
          if b / 16 =? 4 then
            '(proto, ic) <- parse_ip4 inner;;
            match proto with
            | None => ret PASS
            | Some proto =>
                '(l4, ic) <- parse_l4 proto ic;;
                match l4 with
                | None => ret PASS
                | Some _ =>
                    m <- match_sdf4 ic (er_filter (ep_rules_ pdr));;
                    if m : bool then sdf else if strict then ret PASS else dflt
                end
            end
          else if b / 16 =? 6 then
            '(proto, ic) <- parse_ip6 inner;;
            match proto with
            | None => ret PASS
            | Some proto =>
                '(l4, ic) <- parse_l4 proto ic;;
                match l4 with
                | None => ret PASS
                | Some _ =>
                    m <- match_sdf6 ic (er_filter (ep_rules_ pdr));;
                    if m : bool then sdf else if strict then ret PASS else dflt
                end
            end
          else if strict then ret PASS else dflt
      end
  end.

(** n3n6_entrypoint.c:375-399 [handle_gtpu] *)
Definition handle_gtpu (e : env) (c : pctx) : M verdict :=
  '(t, c) <- parse_gtp c;;
  match t with
  | Some t =>
      if t =? 255 then inc rx_gtp_pdu;;; handle_gtp_packet e c
      else if t =? 1 then inc rx_gtp_echo;;; handle_echo_request e c
      else if t =? 2 then ret PASS
      else if (t =? 26) || (t =? 31) || (t =? 254) then inc rx_gtp_other;;; ret PASS
      else inc rx_gtp_unexp;;; ret PASS
  | None => inc rx_gtp_unexp;;; ret PASS
  end.

(** n3n6_entrypoint.c:401-429 [handle_ip4] *)
Definition handle_ip4 (e : env) (c : pctx) : M verdict :=
  '(proto, c) <- parse_ip4 c;;
  match proto with
  | None => inc rx_other;;; ret PASS
  | Some proto =>
      if proto =? 1 then inc rx_icmp;;; inc rx_n6;;; handle_n6_packet_ipv4 e c
      else if proto =? 17 then
        inc rx_udp;;;
        '(port, c) <- parse_udp c;;
        gtpu <- (if bool_decide (port = Some 2152) then
                   ip <- ptr (p_ip4 c);; dst <- rd (ip + 16) 4;; ret (is_local_ip e dst)
                 else ret false);;
        if gtpu : bool then inc rx_n3;;; handle_gtpu e c
        else inc rx_n6;;; handle_n6_packet_ipv4 e c
      else if proto =? 6 then
        inc rx_tcp;;;
        '(_, c) <- parse_tcp c;;
        inc rx_n6;;; handle_n6_packet_ipv4 e c
      else inc rx_other;;; ret PASS
  end.

(** n3n6_entrypoint.c:431-457 [handle_ip6] *)
Definition handle_ip6 (e : env) (c : pctx) : M verdict :=
  '(proto, c) <- parse_ip6 c;;
  match proto with
  | None => inc rx_other;;; ret PASS
  | Some proto =>
      if proto =? 58 then inc rx_icmp6;;; ret PASS
      else if proto =? 17 then inc rx_udp;;; inc rx_n6;;; handle_n6_packet_ipv6 e c
      else if proto =? 6 then
        inc rx_tcp;;;
        '(_, c) <- parse_tcp c;;
        inc rx_n6;;; handle_n6_packet_ipv6 e c
      else inc rx_other;;; ret PASS
  end.

(** n3n6_entrypoint.c:459-477 [process_packet] (-1 becomes ethertype 65535). *)
Definition process_packet (e : env) (c : pctx) : M verdict :=
  '(t, c) <- parse_ethernet c;;
  let t := default 65535 t in
  if t =? 34525 then inc rx_ip6;;; handle_ip6 e c
  else if t =? 2048 then inc rx_ip4;;; handle_ip4 e c
  else if t =? 2054 then inc rx_arp;;; ret PASS
  else ret PASS.

(** n3n6_entrypoint.c:481-508 [upf_ip_entrypoint_func] *)
Definition entrypoint (e : env) : M verdict :=
  v <- process_packet e ctx0;;
  inc (action (N.land (verdict_code v) 7));;;
  ret v.

(** One packet: verdict, outgoing frame, data plane afterwards, counter increments. *)
Definition xdp (e : env) (f : list N) (d : dp) : option (verdict * xst) := entrypoint e (Xst f d []).
