(** Model of the SDF filter text parser, core/sdf_filter_parser.go. *)
From Verif Require Import Base.
From Coq Require Import String Ascii.
Open Scope N_scope.
Open Scope list_scope.
Notation length := List.length.

(** A Go string is its list of bytes. *)
Definition str (s : string) : list N := N_of_ascii <$> list_ascii_of_string s.

Definition is_digit (c : N) : bool := (48 <=? c) && (c <=? 57).
Definition is_digit_dot (c : N) : bool := is_digit c || (c =? 46).
Definition is_hex (c : N) : bool :=
  is_digit c || ((97 <=? c) && (c <=? 102)) || ((65 <=? c) && (c <=? 70)).
Definition is_hex_colon (c : N) : bool := is_hex c || (c =? 58).

(** ** Regular expressions with capture groups (the fragment of Go's regexp
    syntax used by the parser).  [matches r s caps]: the whole text [s] matches
    [r] with these participating groups.  Go picks one match by preference;
    [sdf_text_one_reading] below shows there is only one. *)
Inductive re :=
| RLit (l : list N)          (* literal text *)
| RPlus (p : N -> bool)      (* [class]+ *)
| RSeq (a b : re)
| RAlt (a b : re)
| ROpt (a : re)              (* (?:a)? *)
| RGrp (n : nat) (a : re).   (* capture group number n *)

Inductive matches : re -> list N -> list (nat * list N) -> Prop :=
| MLit l : matches (RLit l) l []
| MPlus p l : l <> [] -> forallb p l = true -> matches (RPlus p) l []
| MSeq a b l1 l2 c1 c2 : matches a l1 c1 -> matches b l2 c2 -> matches (RSeq a b) (l1 ++ l2) (c1 ++ c2)
| MAltL a b l c : matches a l c -> matches (RAlt a b) l c
| MAltR a b l c : matches b l c -> matches (RAlt a b) l c
| MOptN a : matches (ROpt a) [] []
| MOptS a l c : matches a l c -> matches (ROpt a) l c
| MGrp n a l c : matches a l c -> matches (RGrp n a) l ((n, l) :: c).

Definition rdigits := RPlus is_digit.
(** sdf_filter_parser.go:14, transcribed piece by piece. *)
Definition re_proto := RAlt (RLit (str "icmp")) (RAlt (RLit (str "ip")) (RAlt (RLit (str "tcp"))
                        (RAlt (RLit (str "udp")) rdigits))).
Definition re_srcaddr := RAlt (RLit (str "any")) (RAlt (RPlus is_digit_dot) (RPlus is_hex_colon)).
Definition re_dstaddr := RAlt (RLit (str "assigned")) (RAlt (RLit (str "any"))
                          (RAlt (RPlus is_digit_dot) (RPlus is_hex_colon))).
Definition re_mask n := ROpt (RSeq (RLit (str "/")) (RGrp n rdigits)).
Definition re_port n := ROpt (RSeq (RLit (str " "))
                          (RGrp n (RAlt rdigits (RSeq rdigits (RSeq (RLit (str "-")) rdigits))))).
Definition sdf_re : re :=
  RSeq (RLit (str "permit out ")) (RSeq (RGrp 1 re_proto) (RSeq (RLit (str " from "))
  (RSeq (RGrp 2 re_srcaddr) (RSeq (re_mask 3) (RSeq (re_port 4) (RSeq (RLit (str " to "))
  (RSeq (RGrp 5 re_dstaddr) (RSeq (re_mask 6) (re_port 7))))))))).

(** The submatches 1..7; a group that does not participate is "". *)
Record groups := Groups {
  g_proto : list N; g_src : list N; g_smask : list N; g_sport : list N;
  g_dst : list N; g_dmask : list N; g_dport : list N }.
Fixpoint cap (n : nat) (c : list (nat * list N)) : list N :=
  match c with
  | [] => []
  | (k, t) :: r => if Nat.eqb k n then t else cap n r
  end.
Definition groups_of (c : list (nat * list N)) : groups :=
  Groups (cap 1 c) (cap 2 c) (cap 3 c) (cap 4 c) (cap 5 c) (cap 6 c) (cap 7 c).

(** ** Executable matcher (equivalent to the regular expression: see
    [tokenize_sound] and [tokenize_complete]). *)
Fixpoint span (p : N -> bool) (l : list N) : list N * list N :=
  match l with
  | c :: r => if p c then let '(a, b) := span p r in (c :: a, b) else ([], l)
  | [] => ([], [])
  end.
Fixpoint strip (lit l : list N) : option (list N) :=
  match lit, l with
  | [], _ => Some l
  | a :: lit', c :: l' => if a =? c then strip lit' l' else None
  | _ :: _, [] => None
  end.
Definition nonspace (c : N) : bool := negb (c =? 32).
Definition nonslash (c : N) : bool := negb (c =? 47).
Definition digits (l : list N) : bool := negb (bool_decide (l = [])) && forallb is_digit l.
Definition is_proto (l : list N) : bool :=
  bool_decide (l = str "icmp") || bool_decide (l = str "ip") || bool_decide (l = str "tcp")
  || bool_decide (l = str "udp") || digits l.
Definition is_addr (kws : list (list N)) (l : list N) : bool :=
  existsb (fun k => bool_decide (l = k)) kws
  || (negb (bool_decide (l = [])) && (forallb is_digit_dot l || forallb is_hex_colon l)).
Definition split_port (l : list N) : option (list N * list N) :=
  let '(a, r) := span is_digit l in
  if digits a then
    match r with
    | [] => Some (a, [])
    | c :: b => if (c =? 45) && digits b then Some (a, b) else None
    end
  else None.
Definition is_ports (l : list N) : bool := match split_port l with Some _ => true | None => false end.
Definition split_addr (kws : list (list N)) (l : list N) : option (list N * list N) :=
  let '(a, r) := span nonslash l in
  if is_addr kws a then
    match r with
    | [] => Some (a, [])
    | _ :: m => if digits m then Some (a, m) else None
    end
  else None.
Definition src_kws := [str "any"].
Definition dst_kws := [str "assigned"; str "any"].

Definition tokenize (s : list N) : option groups :=
  s1 ← strip (str "permit out ") s;
  let '(p, s2) := span nonspace s1 in
  if negb (is_proto p) then None else
  s3 ← strip (str " from ") s2;
  let '(a, s4) := span nonspace s3 in
  '(sa, sm) ← split_addr src_kws a;
  '(sp, s5) ← (match strip (str " to ") s4 with
               | Some s5 => Some ([], s5)
               | None => s5 ← strip (str " ") s4;
                         let '(pt, s6) := span nonspace s5 in
                         if is_ports pt then s7 ← strip (str " to ") s6; Some (pt, s7) else None
               end);
  let '(b, s8) := span nonspace s5 in
  '(da, dm) ← split_addr dst_kws b;
  match s8 with
  | [] => Some (Groups p sa sm sp da dm [])
  | _ => s9 ← strip (str " ") s8;
         if is_ports s9 then Some (Groups p sa sm sp da dm s9) else None
  end.

(** ** Values *)

(** strconv.ParseUint(s, 10, 64) on a text of digits: error beyond 2^64-1. *)
Definition dec_value (l : list N) : N := foldl (fun acc c => 10 * acc + (c - 48)) 0 l.
Definition parse_uint (l : list N) : option N :=
  let v := dec_value l in if v <? 18446744073709551616 then Some v else None.

(** sdf_filter_parser.go:61-78 [ParseProtocol]. *)
Definition parse_protocol (l : list N) : option N :=
  if bool_decide (l = str "icmp") then Some 0
  else if bool_decide (l = str "ip") then Some 1
  else if bool_decide (l = str "tcp") then Some 2
  else if bool_decide (l = str "udp") then Some 3
  else if bool_decide (l = str "58") then Some 4
  else None.

(** sdf_filter_parser.go:129-138 [ParsePort]. *)
Definition parse_port (l : list N) : option N :=
  v ← parse_uint l; if 65535 <? v then None else Some v.

(** sdf_filter_parser.go:108-127 [ParsePortRange] (called on a text that
    matched the port group, so its regexp matches). *)
Definition parse_port_range (l : list N) : option (N * N) :=
  '(a, b) ← split_port l;
  lo ← parse_port a;
  hi ← (if bool_decide (b = []) then Some lo else parse_port b);
  if hi <? lo then None else Some (lo, hi).

(** net.ParseIP for texts without ':' (Go 1.22 netip.parseIPv4Fields): four
    decimal fields without leading zeros, each at most 255.
    [val], [digs]: value and digit count of the current field; [acc]: finished
    fields. *)
Fixpoint ipv4_fields (l : list N) (val : N) (digs : nat) (acc : list N) : option (list N) :=
  match l with
  | [] => if Nat.eqb digs 0 then None
          else if Nat.eqb (length acc) 3 then Some (acc ++ [val]) else None
  | c :: r =>
      if is_digit c then
        if Nat.eqb digs 1 && (val =? 0) then None
        else let v := 10 * val + (c - 48) in
             if 255 <? v then None else ipv4_fields r v (S digs) acc
      else if c =? 46 then
        if Nat.eqb digs 0 then None
        else if Nat.eqb (length acc) 3 then None
        else ipv4_fields r 0 0 (acc ++ [val])
      else None
  end.
Definition parse_ipv4 (l : list N) : option (list N) := ipv4_fields l 0 0 [].

(** net.ParseIP for texts with ':' and without '.' (Go 1.22 netip.parseIPv6):
    groups of at most four hex digits, one "::" allowed. *)
Definition hex_value (c : N) : N :=
  if is_digit c then c - 48 else if (97 <=? c) then c - 87 else c - 55.
Definition hexnum (l : list N) : N := foldl (fun acc c => 16 * acc + hex_value c) 0 l.
Fixpoint ipv6_loop (fuel : nat) (l : list N) (out : list N) (ell : option nat)
  : option (list N * option nat) :=
  match fuel with
  | O => if bool_decide (l = []) then Some (out, ell) else None  (* i = 16: trailing garbage *)
  | S f =>
      let '(h, r) := span is_hex l in
      if (Nat.eqb (length h) 0) || (Nat.ltb 4 (length h)) then None else
      let v := hexnum h in
      let out := out ++ [v / 256; v mod 256] in
      match r with
      | [] => Some (out, ell)
      | c :: r1 =>
          if negb (c =? 58) then None else
          match r1 with
          | [] => None
          | c2 :: r2 =>
              if c2 =? 58 then
                match ell with
                | Some _ => None
                | None => if bool_decide (r2 = []) then Some (out, Some (length out))
                          else ipv6_loop f r2 out (Some (length out))
                end
              else ipv6_loop f r1 out ell
          end
      end
  end.
Definition expand_ipv6 (o : list N * option nat) : option (list N) :=
  let '(out, ell) := o in
  let n := length out in
  if Nat.ltb n 16 then
    match ell with
    | None => None
    | Some e => Some (take e out ++ replicate (16 - n) 0 ++ drop e out)
    end
  else match ell with Some _ => None | None => Some out end.
Definition parse_ipv6 (l : list N) : option (list N) :=
  match strip [58; 58] l with
  | Some [] => Some (replicate 16 0)
  | Some r => o ← ipv6_loop 8 r [] (Some 0%nat); expand_ipv6 o
  | None => o ← ipv6_loop 8 l [] None; expand_ipv6 o
  end.

(** net.ParseIP: the first '.' or ':' decides the family; neither: error. *)
Definition parse_ip (l : list N) : option (list N) :=
  match List.find (fun c => (c =? 46) || (c =? 58)) l with
  | Some c => if c =? 46 then parse_ipv4 l else parse_ipv6 l
  | None => None
  end.
(** net.IP.To4 on a 16-byte address. *)
Definition is_v4_mapped (b : list N) : bool :=
  bool_decide (take 12 b = replicate 10 0 ++ [255; 255]).

(** net.CIDRMask(ones, 8*nbytes): nil (here []) when ones is out of range. *)
Fixpoint mask_bytes (nbytes : nat) (ones : N) : list N :=
  match nbytes with
  | O => []
  | S n => (if 8 <=? ones then 255 else 256 - 2 ^ (8 - ones)) :: mask_bytes n (ones - 8)
  end.
Definition cidr_mask (ones : N) (nbytes : nat) : list N :=
  if ones <=? 8 * N.of_nat nbytes then mask_bytes nbytes ones else [].
(** net.IP.Mask, for operands of equal length (the only ones that occur) or a
    nil mask. *)
Definition ip_mask (ip mask : list N) : list N :=
  if Nat.eqb (length ip) (length mask) then zip_with N.land ip mask else [].

(** ebpf/pdr.go:34-38 [IpWMask]; nil slices are []. *)
Record ipwmask := IpW { iw_type : N; iw_ip : list N; iw_mask : list N }.
Definition any_addr : ipwmask := IpW 0 [] [].

(** sdf_filter_parser.go:80-106 [ParseCidrIp]. *)
Definition parse_cidr (ip mask : list N) : option ipwmask :=
  b0 ← parse_ip ip;
  let '(t, b) := if Nat.eqb (length b0) 4 then (1, b0)
                 else if is_v4_mapped b0 then (1, drop 12 b0) else (2, b0) in
  if bool_decide (mask = []) then
    Some (IpW t b (cidr_mask (8 * N.of_nat (length b)) (length b)))
  else
    m ← parse_uint mask;
    let mk := cidr_mask m (length b) in
    Some (IpW t (ip_mask b mk) mk).

(** ebpf/pdr.go:26-32 [SdfFilter]. *)
Record sdf_filter := Sdf {
  sf_proto : N; sf_src : ipwmask; sf_sport : N * N; sf_dst : ipwmask; sf_dport : N * N }.

Definition all_ports : N * N := (0, 65535).

(** sdf_filter_parser.go:13-59 [ParseSdfFilter]. *)
Definition parse_sdf (s : list N) : option sdf_filter :=
  g ← tokenize s;
  proto ← parse_protocol (g_proto g);
  src ← (if bool_decide (g_src g = str "any")
         then if bool_decide (g_smask g = []) then Some any_addr else None
         else parse_cidr (g_src g) (g_smask g));
  sport ← (if bool_decide (g_sport g = []) then Some all_ports else parse_port_range (g_sport g));
  dst ← (if bool_decide (g_dst g = str "assigned") || bool_decide (g_dst g = str "any")
         then Some any_addr else parse_cidr (g_dst g) (g_dmask g));
  dport ← (if bool_decide (g_dport g = []) then Some all_ports else parse_port_range (g_dport g));
  Some (Sdf proto src sport dst dport).
