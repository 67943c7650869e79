(** C26, C27: which flow descriptions are accepted and what they mean. *)
From Coq Require Import String Ascii.
From Verif Require Import Base SdfParser.
Open Scope string_scope.
Open Scope N_scope.
Open Scope list_scope.

(** * Specification: the texts of a flow description *)
Definition digit_char (c : N) : Prop := 48 <= c <= 57.
Definition hex_char (c : N) : Prop := 48 <= c <= 57 \/ 97 <= c <= 102 \/ 65 <= c <= 70.
Definition digit_text (l : list N) : Prop := l <> [] /\ Forall digit_char l.
Definition proto_text (l : list N) : Prop :=
  l = str "icmp" \/ l = str "ip" \/ l = str "tcp" \/ l = str "udp" \/ digit_text l.
Definition addr_text (kws : list (list N)) (l : list N) : Prop :=
  l ∈ kws \/ (l <> [] /\ Forall (fun c => digit_char c \/ c = 46) l)
          \/ (l <> [] /\ Forall (fun c => hex_char c \/ c = 58) l).
Definition port_text (l : list N) : Prop :=
  digit_text l \/ exists a b, digit_text a /\ digit_text b /\ l = a ++ str "-" ++ b.

Record wf_groups (g : groups) : Prop := {
  wf_proto : proto_text (g_proto g);
  wf_src : addr_text [str "any"] (g_src g);
  wf_smask : g_smask g = [] \/ digit_text (g_smask g);
  wf_sport : g_sport g = [] \/ port_text (g_sport g);
  wf_dst : addr_text [str "assigned"; str "any"] (g_dst g);
  wf_dmask : g_dmask g = [] \/ digit_text (g_dmask g);
  wf_dport : g_dport g = [] \/ port_text (g_dport g) }.

(** "prefix + t", or nothing when [t] is absent *)
Definition opt_text (prefix t : list N) : list N := match t with [] => [] | _ => prefix ++ t end.
(** permit out PROTO from ADDR[/MASK][ PORTS] to ADDR[/MASK][ PORTS] *)
Definition flow_text (g : groups) : list N :=
  str "permit out " ++ g_proto g ++ str " from " ++
  g_src g ++ opt_text (str "/") (g_smask g) ++ opt_text (str " ") (g_sport g) ++ str " to " ++
  g_dst g ++ opt_text (str "/") (g_dmask g) ++ opt_text (str " ") (g_dport g).

(** * Character classes *)
Lemma is_digit_spec c : is_digit c = true <-> digit_char c.
Proof. unfold is_digit, digit_char. rewrite andb_true_iff, !N.leb_le. tauto. Qed.
Lemma is_digit_dot_spec c : is_digit_dot c = true <-> digit_char c \/ c = 46.
Proof. unfold is_digit_dot. rewrite orb_true_iff, is_digit_spec, N.eqb_eq. tauto. Qed.
Lemma is_hex_spec c : is_hex c = true <-> hex_char c.
Proof.
  unfold is_hex, hex_char. rewrite !orb_true_iff, !andb_true_iff, !N.leb_le, is_digit_spec.
  unfold digit_char. tauto.
Qed.
Lemma is_hex_colon_spec c : is_hex_colon c = true <-> hex_char c \/ c = 58.
Proof. unfold is_hex_colon. rewrite orb_true_iff, is_hex_spec, N.eqb_eq. tauto. Qed.

Lemma forallb_Forall_iff (p : N -> bool) (P : N -> Prop) :
  (forall c, p c = true <-> P c) -> forall l, forallb p l = true <-> Forall P l.
Proof.
  intros Hp l. induction l as [|c r IH]; simpl; [split; auto|].
  rewrite andb_true_iff, IH, Hp, Forall_cons. tauto.
Qed.
Definition fd := forallb_Forall_iff is_digit digit_char is_digit_spec.
Definition fdd := forallb_Forall_iff is_digit_dot _ is_digit_dot_spec.
Definition fhc := forallb_Forall_iff is_hex_colon _ is_hex_colon_spec.

Lemma digits_spec l : digits l = true <-> digit_text l.
Proof.
  unfold digits, digit_text. rewrite andb_true_iff, negb_true_iff, bool_decide_eq_false, fd. tauto.
Qed.
Lemma is_proto_spec l : is_proto l = true <-> proto_text l.
Proof.
  unfold is_proto, proto_text. rewrite !orb_true_iff, !bool_decide_eq_true, digits_spec. tauto.
Qed.
Lemma is_addr_spec kws l : is_addr kws l = true <-> addr_text kws l.
Proof.
  unfold is_addr, addr_text.
  rewrite orb_true_iff, andb_true_iff, orb_true_iff, negb_true_iff, bool_decide_eq_false, fdd, fhc.
  rewrite existsb_exists. setoid_rewrite bool_decide_eq_true. rewrite elem_of_list_In.
  split; [intros [(x & Hx & ->)|[? [?|?]]]|intros [?|[[??]|[??]]]]; eauto; tauto.
Qed.

(** * Splitting *)
Lemma span_inv p l a b : span p l = (a, b) ->
  l = a ++ b /\ forallb p a = true /\ match b with [] => True | c :: _ => p c = false end.
Proof.
  revert a b. induction l as [|c r IH]; intros a b; simpl.
  - intros [= <- <-]. auto.
  - destruct (p c) eqn:E.
    + destruct (span p r) as [a' b'] eqn:Es. intros [= <- <-].
      destruct (IH _ _ eq_refl) as (-> & H1 & H2). simpl. rewrite E. auto.
    + intros [= <- <-]. auto.
Qed.
Lemma span_app p a b : forallb p a = true ->
  match b with [] => True | c :: _ => p c = false end -> span p (a ++ b) = (a, b).
Proof.
  intros Ha Hb. induction a as [|c r IH]; simpl in *.
  - destruct b as [|c b]; simpl; [done|]. by rewrite Hb.
  - apply andb_true_iff in Ha as [-> Ha]. by rewrite IH.
Qed.
Lemma strip_app lit l : strip lit (lit ++ l) = Some l.
Proof. induction lit as [|c r IH]; simpl; [done|]. by rewrite N.eqb_refl. Qed.
Lemma strip_inv lit l r : strip lit l = Some r -> l = lit ++ r.
Proof.
  revert l. induction lit as [|c lit IH]; intros l; simpl; [congruence|].
  destruct l as [|d l]; [done|]. destruct (c =? d) eqn:E; [|done].
  apply N.eqb_eq in E as ->. intros H. by rewrite (IH _ H).
Qed.

Lemma forallb_imp (p q : N -> bool) l :
  (forall c, p c = true -> q c = true) -> forallb p l = true -> forallb q l = true.
Proof. intros H. rewrite !forallb_forall. eauto. Qed.

(** No component contains a blank; addresses contain no '/'. *)
Lemma digit_char_plain c : digit_char c -> nonspace c = true /\ nonslash c = true.
Proof. unfold digit_char, nonspace, nonslash. intros. rewrite !negb_true_iff, !N.eqb_neq. lia. Qed.
Lemma hex_char_plain c : hex_char c -> nonspace c = true /\ nonslash c = true.
Proof. unfold hex_char, nonspace, nonslash. intros. rewrite !negb_true_iff, !N.eqb_neq. lia. Qed.
Lemma Forall_forallb (P : N -> Prop) (p : N -> bool) l :
  (forall c, P c -> p c = true) -> Forall P l -> forallb p l = true.
Proof. intros H. induction 1; simpl; [done|]. rewrite (H x) by done. done. Qed.

Lemma digit_text_plain l : digit_text l -> forallb nonspace l = true /\ forallb nonslash l = true.
Proof.
  intros [_ H]. split; eapply Forall_forallb; try exact H; intros; by apply digit_char_plain.
Qed.
Lemma proto_text_plain l : proto_text l -> forallb nonspace l = true.
Proof. intros [->|[->|[->|[->|H]]]]; [done..|]. by apply digit_text_plain. Qed.
Lemma addr_text_plain kws l :
  (forall k, k ∈ kws -> forallb nonspace k = true /\ forallb nonslash k = true) ->
  addr_text kws l -> forallb nonspace l = true /\ forallb nonslash l = true.
Proof.
  intros Hk [H|[[_ H]|[_ H]]]; [by apply Hk| |]; split; eapply Forall_forallb; try exact H; simpl;
    intros c [Hc|Hc]; try (by apply digit_char_plain); try (by apply hex_char_plain); subst; reflexivity.
Qed.
Lemma src_kws_plain k : k ∈ [str "any"] -> forallb nonspace k = true /\ forallb nonslash k = true.
Proof. rewrite elem_of_list_singleton. by intros ->. Qed.
Lemma dst_kws_plain k :
  k ∈ [str "assigned"; str "any"] -> forallb nonspace k = true /\ forallb nonslash k = true.
Proof. rewrite !elem_of_cons. intros [->|[->|H]]; [done..|by apply elem_of_nil in H]. Qed.

Lemma split_port_spec l a b :
  split_port l = Some (a, b) <->
  digit_text a /\ ((b = [] /\ l = a) \/ (digit_text b /\ l = a ++ str "-" ++ b)).
Proof.
  unfold split_port. split.
  - destruct (span is_digit l) as [x r] eqn:Es. apply span_inv in Es as (-> & Hx & Hr).
    destruct (digits x) eqn:Ex; [|done]. apply digits_spec in Ex.
    destruct r as [|c r].
    + intros [= <- <-]. split; [done|]. left. split; [done|]. by rewrite app_nil_r.
    + destruct (c =? 45) eqn:Ec; [|done]. apply N.eqb_eq in Ec as ->. simpl.
      destruct (digits r) eqn:Er; [|done]. intros [= <- <-]. apply digits_spec in Er. auto.
  - intros (Ha & [[-> ->]|[Hb ->]]).
    + rewrite <- (app_nil_r a) at 1. rewrite span_app; [|by apply fd, Ha|done].
      apply digits_spec in Ha as ->. done.
    + rewrite span_app; [|by apply fd, Ha|reflexivity]. apply digits_spec in Ha as ->.
      apply digits_spec in Hb. simpl. by rewrite Hb.
Qed.
Lemma is_ports_spec l : is_ports l = true <-> port_text l.
Proof.
  unfold is_ports, port_text. split.
  - destruct (split_port l) as [[a b]|] eqn:E; [|done]. intros _.
    apply split_port_spec in E as (Ha & [[-> ->]|[Hb ->]]); [by left|]. right. eauto.
  - intros [H|(a & b & Ha & Hb & ->)].
    + rewrite (proj2 (split_port_spec l l [])); [done|]. auto.
    + rewrite (proj2 (split_port_spec (a ++ str "-" ++ b) a b)); [done|]. auto.
Qed.
Lemma port_text_plain l : port_text l -> forallb nonspace l = true.
Proof.
  intros [H|(a & b & Ha & Hb & ->)]; [by apply digit_text_plain|].
  rewrite !forallb_app. rewrite (proj1 (digit_text_plain a Ha)), (proj1 (digit_text_plain b Hb)). done.
Qed.

Lemma split_addr_spec kws l a m :
  (forall k, k ∈ kws -> forallb nonspace k = true /\ forallb nonslash k = true) ->
  split_addr kws l = Some (a, m) <->
  addr_text kws a /\ (m = [] \/ digit_text m) /\ l = a ++ opt_text (str "/") m.
Proof.
  intros Hk. unfold split_addr. split.
  - destruct (span nonslash l) as [x r] eqn:Es. apply span_inv in Es as (-> & Hx & Hr).
    destruct (is_addr kws x) eqn:Ex; [|done]. apply is_addr_spec in Ex.
    destruct r as [|c r].
    + intros [= <- <-]. simpl. auto.
    + destruct (digits r) eqn:Er; [|done]. intros [= <- <-]. apply digits_spec in Er.
      split; [done|]. split; [auto|]. f_equal. destruct r as [|y r]; [by destruct Er|].
      unfold nonslash in Hr. apply negb_false_iff, N.eqb_eq in Hr as ->. done.
  - intros (Ha & Hm & ->). destruct (addr_text_plain kws a Hk Ha) as [_ Hs].
    destruct m as [|c m].
    + simpl. rewrite span_app by done. apply is_addr_spec in Ha as ->. done.
    + destruct Hm as [Hm|Hm]; [done|]. cbn [opt_text]. rewrite span_app by done.
      apply is_addr_spec in Ha as ->. apply digits_spec in Hm. simpl. by rewrite Hm.
Qed.

(** * The matcher accepts exactly the flow texts *)
Lemma tokenize_complete g : wf_groups g -> tokenize (flow_text g) = Some g.
Proof.
  intros [Hp Hs Hsm Hsp Hd Hdm Hdp]. unfold flow_text, tokenize.
  rewrite strip_app. cbn [mbind option_bind].
  rewrite span_app; [|by apply proto_text_plain|reflexivity].
  apply is_proto_spec in Hp. rewrite Hp. cbn [negb].
  rewrite strip_app. cbn [mbind option_bind].
  assert (Hmp : forall m, m = [] \/ digit_text m -> forallb nonspace (opt_text (str "/") m) = true).
  { intros [|c m]; [done|]. intros [H|H]; [done|]. cbn [opt_text]. rewrite forallb_app.
    by rewrite (proj1 (digit_text_plain _ H)). }
  rewrite (app_assoc (g_src g)).
  rewrite span_app; [|rewrite forallb_app, (proj1 (addr_text_plain _ _ src_kws_plain Hs)), Hmp; done
                    |by destruct (g_sport g)].
  rewrite (proj2 (split_addr_spec src_kws _ (g_src g) (g_smask g) src_kws_plain)) by auto.
  cbn [mbind option_bind].
  match goal with |- context [match strip (str " to ") ?x with _ => _ end] =>
    assert (Hpt : (match strip (str " to ") x with
             | Some s5 => Some ([], s5)
             | None => s5 ← strip (str " ") x;
                       let '(pt, s6) := span nonspace s5 in
                       if is_ports pt then s7 ← strip (str " to ") s6; Some (pt, s7) else None
             end) = Some (g_sport g, g_dst g ++ opt_text (str "/") (g_dmask g) ++ opt_text (str " ") (g_dport g)))
  end.
  { destruct (g_sport g) as [|c sp] eqn:Esp.
    - cbn [opt_text]. rewrite app_nil_l, strip_app. done.
    - destruct Hsp as [Hsp|Hsp]; [done|]. cbn [opt_text].
      assert (Hc : digit_char c).
      { destruct Hsp as [[_ H]|(a & b & [Hne Ha] & _ & Heq)]; [by inversion H|].
        destruct a as [|x a]; [done|]. injection Heq as -> _. by inversion Ha. }
      assert (Hnone : forall t, strip (str " to ") ((str " " ++ c :: sp) ++ t) = None).
      { intros t. destruct (strip (str " to ") ((str " " ++ c :: sp) ++ t)) as [x|] eqn:Ex; [|done].
        exfalso. apply strip_inv in Ex. simpl in Ex. injection Ex as Ex _. unfold digit_char in Hc.
        vm_compute in Ex. subst c. lia. }
      rewrite Hnone. rewrite <- (app_assoc (str " ")), strip_app. cbn [mbind option_bind].
      rewrite span_app; [|by apply port_text_plain|reflexivity].
      apply is_ports_spec in Hsp as ->. rewrite strip_app. done. }
  rewrite Hpt. cbn [mbind option_bind].
  rewrite (app_assoc (g_dst g)).
  rewrite span_app; [|rewrite forallb_app, (proj1 (addr_text_plain _ _ dst_kws_plain Hd)), Hmp; done
                    |by destruct (g_dport g)].
  rewrite (proj2 (split_addr_spec dst_kws _ (g_dst g) (g_dmask g) dst_kws_plain)) by auto.
  cbn [mbind option_bind]. destruct g as [p s sm sp d dm dp]; simpl in *.
  destruct dp as [|c dp]; [done|]. destruct Hdp as [Hdp|Hdp]; [done|].
  apply is_ports_spec in Hdp. simpl. by rewrite Hdp.
Qed.

Lemma bind_Some_inv {A B} (m : option A) (f : A -> option B) y :
  (m ≫= f) = Some y -> exists x, m = Some x /\ f x = Some y.
Proof. destruct m as [a|]; simpl; [eauto|intros H; discriminate H]. Qed.

Lemma tokenize_sound s g : tokenize s = Some g -> wf_groups g /\ s = flow_text g.
Proof.
  unfold tokenize. intros H.
  apply bind_Some_inv in H as (s1 & H1 & H). apply strip_inv in H1 as ->.
  destruct (span nonspace s1) as [p s2] eqn:E. apply span_inv in E as (-> & _ & _).
  destruct (is_proto p) eqn:Ep; [|done]. cbn [negb] in H. apply is_proto_spec in Ep.
  apply bind_Some_inv in H as (s3 & H1 & H). apply strip_inv in H1 as ->.
  destruct (span nonspace s3) as [a s4] eqn:E. apply span_inv in E as (-> & _ & _).
  apply bind_Some_inv in H as ([sa sm] & H1 & H).
  apply (split_addr_spec src_kws _ _ _ src_kws_plain) in H1 as (Hsa & Hsm & ->).
  apply bind_Some_inv in H as ([sp s5] & H1 & H).
  assert (Hsp : (sp = [] \/ port_text sp) /\ s4 = opt_text (str " ") sp ++ str " to " ++ s5).
  { destruct (strip (str " to ") s4) as [x|] eqn:Est.
    - injection H1 as <- <-. apply strip_inv in Est as ->. auto.
    - apply bind_Some_inv in H1 as (s6 & H1 & H2). apply strip_inv in H1 as ->.
      destruct (span nonspace s6) as [pt s7] eqn:E. apply span_inv in E as (-> & _ & _).
      destruct (is_ports pt) eqn:Ept; [|done]. apply is_ports_spec in Ept.
      apply bind_Some_inv in H2 as (s8 & H2 & H3). apply strip_inv in H2 as ->.
      injection H3 as <- <-. split; [auto|].
      destruct pt as [|c pt]; [exfalso|].
      { destruct Ept as [[Hn _]|(x & y & [Hn _] & _ & Heq)]; [done|]. by destruct x. }
      cbn [opt_text]. by rewrite <- app_assoc. }
  destruct Hsp as [Hsp ->]. clear H1.
  destruct (span nonspace s5) as [b s8] eqn:E. apply span_inv in E as (-> & _ & _).
  apply bind_Some_inv in H as ([da dm] & H1 & H).
  apply (split_addr_spec dst_kws _ _ _ dst_kws_plain) in H1 as (Hda & Hdm & ->).
  destruct s8 as [|c s8].
  - injection H as <-. split; [by constructor; auto|]. unfold flow_text. cbn [g_proto g_src g_smask g_sport g_dst g_dmask g_dport].
    rewrite <- !app_assoc. done.
  - apply bind_Some_inv in H as (s9 & H1 & H). apply strip_inv in H1 as Heq. rewrite Heq.
    destruct (is_ports s9) eqn:Ept; [|done]. apply is_ports_spec in Ept.
    injection H as <-. split; [by constructor; auto|].
    unfold flow_text. cbn [g_proto g_src g_smask g_sport g_dst g_dmask g_dport].
    destruct s9 as [|c9 s9]; [exfalso|].
    { destruct Ept as [[Hn _]|(x & y & [Hn _] & _ & Heq')]; [done|]. by destruct x. }
    rewrite <- !app_assoc. done.
Qed.

(** * The regular expression denotes exactly the flow texts *)
Lemma m_lit x l c : matches (RLit x) l c -> l = x /\ c = [].
Proof. by inversion 1. Qed.
Lemma m_plus p l c : matches (RPlus p) l c -> l <> [] /\ forallb p l = true /\ c = [].
Proof. by inversion 1. Qed.
Lemma m_seq a b l c : matches (RSeq a b) l c ->
  exists l1 l2 c1 c2, l = l1 ++ l2 /\ c = c1 ++ c2 /\ matches a l1 c1 /\ matches b l2 c2.
Proof. inversion 1; subst. eauto 10. Qed.
Lemma m_alt a b l c : matches (RAlt a b) l c -> matches a l c \/ matches b l c.
Proof. inversion 1; auto. Qed.
Lemma m_grp n a l c : matches (RGrp n a) l c -> exists c', c = (n, l) :: c' /\ matches a l c'.
Proof. inversion 1; subst. eauto. Qed.

Lemma m_digits l c : matches rdigits l c <-> digit_text l /\ c = [].
Proof.
  split.
  - intros (H1 & H2 & ->)%m_plus. split; [|done]. split; [done|]. by apply fd.
  - intros [[H1 H2] ->]. constructor; [done|]. by apply fd.
Qed.
Lemma m_proto l c : matches re_proto l c <-> proto_text l /\ c = [].
Proof.
  unfold re_proto, proto_text. split.
  - intros [[-> ->]%m_lit|[[-> ->]%m_lit|[[-> ->]%m_lit|[[-> ->]%m_lit|[H ->]%m_digits]%m_alt]%m_alt]%m_alt]%m_alt;
      auto 10.
  - intros [[->|[->|[->|[->|H]]]] ->].
    + apply MAltL, MLit.
    + apply MAltR, MAltL, MLit.
    + apply MAltR, MAltR, MAltL, MLit.
    + apply MAltR, MAltR, MAltR, MAltL, MLit.
    + apply MAltR, MAltR, MAltR, MAltR, m_digits. auto.
Qed.
Lemma m_cls l c : matches (RAlt (RPlus is_digit_dot) (RPlus is_hex_colon)) l c <->
  ((l <> [] /\ Forall (fun c => digit_char c \/ c = 46) l)
   \/ (l <> [] /\ Forall (fun c => hex_char c \/ c = 58) l)) /\ c = [].
Proof.
  split.
  - intros [(H1 & H2 & ->)%m_plus|(H1 & H2 & ->)%m_plus]%m_alt; (split; [|done]).
    + left. split; [done|by apply fdd].
    + right. split; [done|by apply fhc].
  - intros [[[H1 H2]|[H1 H2]] ->].
    + apply MAltL. constructor; [done|by apply fdd].
    + apply MAltR. constructor; [done|by apply fhc].
Qed.
Lemma m_src l c : matches re_srcaddr l c <-> addr_text [str "any"] l /\ c = [].
Proof.
  unfold re_srcaddr, addr_text. rewrite elem_of_list_singleton. split.
  - intros [[-> ->]%m_lit|H%m_cls]%m_alt; tauto.
  - intros [[->|H] ->]; [apply MAltL, MLit|]. apply MAltR, m_cls. tauto.
Qed.
Lemma m_dst l c : matches re_dstaddr l c <-> addr_text [str "assigned"; str "any"] l /\ c = [].
Proof.
  unfold re_dstaddr, addr_text. rewrite elem_of_cons, elem_of_list_singleton. split.
  - intros [[-> ->]%m_lit|[[-> ->]%m_lit|H%m_cls]%m_alt]%m_alt; tauto.
  - intros [[[->| ->]|H] ->]; [apply MAltL, MLit|apply MAltR, MAltL, MLit|].
    apply MAltR, MAltR, m_cls. tauto.
Qed.
Lemma m_mask n l c : matches (re_mask n) l c <->
  (l = [] /\ c = []) \/ exists m, digit_text m /\ l = str "/" ++ m /\ c = [(n, m)].
Proof.
  split.
  - inversion 1 as [| | | | | |a l' c' Hm|]; subst; [by left|right].
    apply m_seq in Hm as (l1 & l2 & c1 & c2 & -> & -> & [-> ->]%m_lit & (c' & -> & [H' ->]%m_digits)%m_grp).
    eauto.
  - intros [[-> ->]|(m & Hm & -> & ->)]; [constructor|]. apply MOptS.
    change [(n, m)] with ([] ++ [(n, m)]). constructor; [constructor|]. constructor. by apply m_digits.
Qed.
Lemma m_port n l c : matches (re_port n) l c <->
  (l = [] /\ c = []) \/ exists m, port_text m /\ l = str " " ++ m /\ c = [(n, m)].
Proof.
  split.
  - inversion 1 as [| | | | | |a l' c' Hm|]; subst; [by left|right].
    apply m_seq in Hm as (l1 & l2 & c1 & c2 & -> & -> & [-> ->]%m_lit & (c' & -> & H')%m_grp).
    exists l2. apply m_alt in H' as [[H' ->]%m_digits|H'].
    + split; [by left|]. auto.
    + apply m_seq in H' as (x & y & c3 & c4 & -> & -> & [Hx ->]%m_digits & H').
      apply m_seq in H' as (z & w & c5 & c6 & -> & -> & [-> ->]%m_lit & [Hw ->]%m_digits).
      split; [right; eauto|]. auto.
  - intros [[-> ->]|(m & Hm & -> & ->)]; [constructor|]. apply MOptS.
    change [(n, m)] with ([] ++ [(n, m)]). constructor; [constructor|]. constructor.
    destruct Hm as [Hm|(a & b & Ha & Hb & ->)].
    + apply MAltL. by apply m_digits.
    + apply MAltR. change (@nil (nat * list N)) with (@nil (nat * list N) ++ []).
      constructor; [by apply m_digits|]. change (@nil (nat * list N)) with (@nil (nat * list N) ++ []).
      constructor; [constructor|by apply m_digits].
Qed.

Lemma opt_text_ne p t : t <> [] -> opt_text p t = p ++ t.
Proof. by destruct t. Qed.
Lemma digit_text_ne l : digit_text l -> l <> [].
Proof. by intros [H _]. Qed.
Lemma port_text_ne l : port_text l -> l <> [].
Proof. intros [[H _]|(a & b & [H _] & _ & ->)]; [done|]. by destruct a. Qed.

Lemma regex_sound s c : matches sdf_re s c -> wf_groups (groups_of c) /\ s = flow_text (groups_of c).
Proof.
  intros H.
  apply m_seq in H as (? & ? & ? & ? & -> & -> & [-> ->]%m_lit & H).
  apply m_seq in H as (p & ? & ? & ? & -> & -> & (? & -> & [Hp ->]%m_proto)%m_grp & H).
  apply m_seq in H as (? & ? & ? & ? & -> & -> & [-> ->]%m_lit & H).
  apply m_seq in H as (sa & ? & ? & ? & -> & -> & (? & -> & [Hsa ->]%m_src)%m_grp & H).
  apply m_seq in H as (sm & ? & ? & ? & -> & -> & Hsm%m_mask & H).
  apply m_seq in H as (sp & ? & ? & ? & -> & -> & Hsp%m_port & H).
  apply m_seq in H as (? & ? & ? & ? & -> & -> & [-> ->]%m_lit & H).
  apply m_seq in H as (da & ? & ? & ? & -> & -> & (? & -> & [Hda ->]%m_dst)%m_grp & H).
  apply m_seq in H as (dm & dp & ? & ? & -> & -> & Hdm%m_mask & Hdp%m_port).
  destruct Hsm as [[-> ->]|(m1 & Hm1 & -> & ->)];
  destruct Hsp as [[-> ->]|(m2 & Hm2 & -> & ->)];
  destruct Hdm as [[-> ->]|(m3 & Hm3 & -> & ->)];
  destruct Hdp as [[-> ->]|(m4 & Hm4 & -> & ->)];
  (split; [constructor; simpl; auto|]);
  unfold flow_text; cbn [groups_of cap app Nat.eqb g_proto g_src g_smask g_sport g_dst g_dmask g_dport];
  rewrite ?(opt_text_ne _ m1), ?(opt_text_ne _ m2), ?(opt_text_ne _ m3), ?(opt_text_ne _ m4)
    by (first [by apply digit_text_ne|by apply port_text_ne]);
  cbn [opt_text]; rewrite ?app_nil_r, ?app_nil_l, <- ?app_assoc; reflexivity.
Qed.

Definition opt_cap (n : nat) (t : list N) : list (nat * list N) :=
  match t with [] => [] | _ => [(n, t)] end.
Lemma regex_complete g : wf_groups g -> exists c, matches sdf_re (flow_text g) c /\ groups_of c = g.
Proof.
  intros [Hp Hs Hsm Hsp Hd Hdm Hdp].
  exists ([] ++ [(1%nat, g_proto g)] ++ [] ++ [(2%nat, g_src g)] ++ opt_cap 3 (g_smask g) ++
          opt_cap 4 (g_sport g) ++ [] ++ [(5%nat, g_dst g)] ++ opt_cap 6 (g_dmask g) ++ opt_cap 7 (g_dport g)).
  split.
  - unfold flow_text, sdf_re.
    assert (Hmask : forall n t, t = [] \/ digit_text t -> matches (re_mask n) (opt_text (str "/") t) (opt_cap n t)).
    { intros n t Ht. apply m_mask. destruct t as [|x t]; [by left|]. destruct Ht as [Ht|Ht]; [done|].
      right. eauto. }
    assert (Hport : forall n t, t = [] \/ port_text t -> matches (re_port n) (opt_text (str " ") t) (opt_cap n t)).
    { intros n t Ht. apply m_port. destruct t as [|x t]; [by left|]. destruct Ht as [Ht|Ht]; [done|].
      right. eauto. }
    repeat (apply MSeq); try apply MLit; try (by apply Hmask); try (by apply Hport); apply MGrp.
    + by apply m_proto.
    + by apply m_src.
    + by apply m_dst.
  - destruct g as [p s sm sp d dm dp]; simpl. destruct sm, sp, dm, dp; reflexivity.
Qed.

(** * C26 *)

(** The executable matcher used by the model of the parser agrees with the
    regular expression written in the source, including the submatches. *)
Theorem tokenize_is_the_regexp :
  forall s g, tokenize s = Some g <-> exists c, matches sdf_re s c /\ groups_of c = g.
Proof.
  intros s g. split.
  - intros [Hw ->]%tokenize_sound. by apply regex_complete.
  - intros (c & Hm & <-). apply regex_sound in Hm as [Hw ->]. by apply tokenize_complete.
Qed.

(** Only texts of the documented form are accepted ... *)
Theorem sdf_accepts_only_flow_texts :
  forall s f, parse_sdf s = Some f -> exists g, wf_groups g /\ s = flow_text g.
Proof.
  intros s f H. unfold parse_sdf in H. apply bind_Some_inv in H as (g & Hg & _).
  exists g. by apply tokenize_sound.
Qed.

(** ... and a text can be read in one way only. *)
Theorem sdf_text_one_reading :
  forall g g', wf_groups g -> wf_groups g' -> flow_text g = flow_text g' -> g = g'.
Proof.
  intros g g' Hg Hg' Heq. apply tokenize_complete in Hg, Hg'. congruence.
Qed.
Theorem sdf_regexp_one_reading :
  forall s c c', matches sdf_re s c -> matches sdf_re s c' -> groups_of c = groups_of c'.
Proof.
  intros s c c' H H'. apply regex_sound in H as [Hw ->]. apply regex_sound in H' as [Hw' Heq].
  by apply sdf_text_one_reading.
Qed.

(** * C27 *)

(** Specification of the values. *)
Definition be_value (l : list N) : N := foldl (fun acc x => 256 * acc + x) 0 l.

(** A decimal text of a number up to 255 without leading zeros, and a dotted quad. *)
Definition octet_text (l : list N) (v : N) : Prop :=
  digit_text l /\ dec_value l = v /\ v <= 255 /\ (length l = 1%nat \/ head l <> Some 48).
Definition ipv4_text (l : list N) (a b c d : N) : Prop :=
  exists la lb lc ld, l = la ++ str "." ++ lb ++ str "." ++ lc ++ str "." ++ ld /\
    octet_text la a /\ octet_text lb b /\ octet_text lc c /\ octet_text ld d.

(** A stored prefix of [k] bytes: network [v] with [n] significant bits. *)
Definition stores_prefix (w : ipwmask) (ty : N) (k : nat) (v n : N) : Prop :=
  let host := 2 ^ (8 * N.of_nat k - n) in
  iw_type w = ty /\
  length (iw_ip w) = k /\ Forall (fun x => x < 256) (iw_ip w) /\ be_value (iw_ip w) = v / host * host /\
  length (iw_mask w) = k /\ Forall (fun x => x < 256) (iw_mask w) /\
  be_value (iw_mask w) = 2 ^ (8 * N.of_nat k) - host.

Definition mask_value (k : nat) (t : list N) : N :=
  match t with [] => 8 * N.of_nat k | _ => dec_value t end.

Inductive ports_mean : list N -> N * N -> Prop :=
| PM_all : ports_mean [] (0, 65535)
| PM_one a : digit_text a -> dec_value a <= 65535 -> ports_mean a (dec_value a, dec_value a)
| PM_range a b : digit_text a -> digit_text b -> dec_value a <= dec_value b <= 65535 ->
    ports_mean (a ++ str "-" ++ b) (dec_value a, dec_value b).

Inductive proto_means : list N -> N -> Prop :=
| PR_icmp : proto_means (str "icmp") 0
| PR_ip : proto_means (str "ip") 1
| PR_tcp : proto_means (str "tcp") 2
| PR_udp : proto_means (str "udp") 3
| PR_icmp6 : proto_means (str "58") 4.

(** ** Ports *)
Lemma parse_port_spec l v : parse_port l = Some v <-> dec_value l = v /\ v <= 65535.
Proof.
  unfold parse_port, parse_uint. destruct (dec_value l <? 18446744073709551616) eqn:E; simpl.
  - destruct (65535 <? dec_value l) eqn:E2.
    + apply N.ltb_lt in E2. split; [done|]. lia.
    + apply N.ltb_ge in E2. split; [intros [= <-]; auto|]. intros [-> _]. done.
  - apply N.ltb_ge in E. split; [done|]. lia.
Qed.

Lemma parse_port_range_spec l lo hi : l <> [] ->
  parse_port_range l = Some (lo, hi) <-> ports_mean l (lo, hi).
Proof.
  intros Hne. unfold parse_port_range. split.
  - intros H. apply bind_Some_inv in H as ([a b] & Hs & H).
    apply split_port_spec in Hs as (Ha & Hb).
    apply bind_Some_inv in H as (x & Hx & H). apply parse_port_spec in Hx as [<- Hx].
    apply bind_Some_inv in H as (y & Hy & H).
    destruct Hb as [[-> ->]|[Hb ->]].
    + rewrite bool_decide_eq_true_2 in Hy by done. injection Hy as <-.
      rewrite N.ltb_irrefl in H. injection H as <- <-. by constructor.
    + rewrite bool_decide_eq_false_2 in Hy by (by apply digit_text_ne).
      apply parse_port_spec in Hy as [<- Hy].
      destruct (dec_value b <? dec_value a) eqn:E; [done|]. apply N.ltb_ge in E.
      injection H as <- <-. by constructor.
  - inversion 1 as [|a Ha Hle|a b Ha Hb Hle]; subst; [done| |].
    + rewrite (proj2 (split_port_spec l l [])) by auto. cbn [mbind option_bind].
      rewrite (proj2 (parse_port_spec l (dec_value l))) by auto. cbn [mbind option_bind].
      rewrite bool_decide_eq_true_2 by done. cbn [mbind option_bind]. by rewrite N.ltb_irrefl.
    + rewrite (proj2 (split_port_spec _ a b)) by auto. cbn [mbind option_bind].
      rewrite (proj2 (parse_port_spec a (dec_value a))) by (split; [done|lia]). cbn [mbind option_bind].
      rewrite bool_decide_eq_false_2 by (by apply digit_text_ne).
      rewrite (proj2 (parse_port_spec b (dec_value b))) by (split; [done|lia]). cbn [mbind option_bind].
      assert (dec_value b <? dec_value a = false) as -> by (apply N.ltb_ge; lia). done.
Qed.

(** ** Protocols *)
Lemma parse_protocol_spec l p : parse_protocol l = Some p <-> proto_means l p.
Proof.
  unfold parse_protocol. split.
  - repeat case_bool_decide; subst; intros [= <-]; constructor.
  - destruct 1; reflexivity.
Qed.

(** ** Dotted quads *)
Definition dec_from (v : N) (l : list N) : N := foldl (fun acc c => 10 * acc + (c - 48)) v l.
Lemma dec_from_ge v l : v <= dec_from v l.
Proof.
  revert v. unfold dec_from. induction l as [|c r IH]; intros v; simpl; [lia|].
  specialize (IH (10 * v + (c - 48))). lia.
Qed.

Lemma ipv4_fields_cons c r val digs acc :
  ipv4_fields (c :: r) val digs acc =
      if is_digit c then
        if Nat.eqb digs 1 && (val =? 0) then None
        else let v := 10 * val + (c - 48) in
             if 255 <? v then None else ipv4_fields r v (S digs) acc
      else if c =? 46 then
        if Nat.eqb digs 0 then None
        else if Nat.eqb (length acc) 3 then None
        else ipv4_fields r 0 0 (acc ++ [val])
      else None.
Proof. reflexivity. Qed.

Lemma ipv4_fields_run l : forall val digs r acc,
  Forall digit_char l ->
  (digs = 0%nat -> val = 0 /\ ((length l <= 1)%nat \/ head l <> Some 48)) ->
  (digs = 1%nat -> val <> 0 \/ l = []) ->
  dec_from val l <= 255 ->
  ipv4_fields (l ++ r) val digs acc = ipv4_fields r (dec_from val l) (digs + length l) acc.
Proof.
  induction l as [|c l IH]; intros val digs r acc Hd H0 H1 Hv.
  - simpl. by rewrite Nat.add_0_r.
  - inversion Hd as [|? ? Hc Hl]; subst. cbn [app]. rewrite ipv4_fields_cons.
    rewrite (proj2 (is_digit_spec c) Hc).
    assert ((Nat.eqb digs 1 && (val =? 0))%bool = false) as ->.
    { destruct (Nat.eqb digs 1) eqn:E; [|done]. apply Nat.eqb_eq in E. destruct (H1 E) as [H|H]; [|done].
      simpl. by apply N.eqb_neq. }
    cbv zeta. unfold dec_from in Hv. cbn [foldl] in Hv.
    pose proof (dec_from_ge (10 * val + (c - 48)) l) as Hge. unfold dec_from in Hge.
    assert (255 <? 10 * val + (c - 48) = false) as -> by (apply N.ltb_ge; lia).
    rewrite IH; [|done| done| |done].
    + unfold dec_from. cbn [foldl]. f_equal. simpl. lia.
    + intros [= ->]. destruct (H0 eq_refl) as [-> [Hlen|Hh]].
      * destruct l; [by right|simpl in Hlen; lia].
      * left. unfold digit_char in Hc. simpl in Hh. assert (c <> 48) by congruence. lia.
Qed.

Lemma octet_run l v r acc : octet_text l v ->
  ipv4_fields (l ++ r) 0 0 acc = ipv4_fields r v (length l) acc.
Proof.
  intros ((Hne & Hd) & <- & Hle & Hlead). rewrite ipv4_fields_run; [done|done| |done|done].
  intros _. split; [done|]. destruct Hlead as [H|H]; [left; lia|by right].
Qed.
Lemma octet_len l v : octet_text l v -> Nat.eqb (length l) 0 = false.
Proof. intros ((Hne & _) & _). by destruct l. Qed.

Lemma dot_step r v n acc : Nat.eqb n 0 = false -> Nat.eqb (length acc) 3 = false ->
  ipv4_fields (str "." ++ r) v n acc = ipv4_fields r 0 0 (acc ++ [v]).
Proof.
  intros Hn Ha. change (str "." ++ r) with (46 :: r). rewrite ipv4_fields_cons.
  change (is_digit 46) with false. change (46 =? 46) with true. cbv iota. by rewrite Hn, Ha.
Qed.
Lemma parse_ipv4_complete l a b c d : ipv4_text l a b c d -> parse_ipv4 l = Some [a; b; c; d].
Proof.
  intros (la & lb & lc & ld & -> & Ha & Hb & Hc & Hd). unfold parse_ipv4.
  rewrite (octet_run la a) by done. rewrite dot_step by (done || by eapply octet_len).
  rewrite (octet_run lb b) by done. rewrite dot_step by (done || by eapply octet_len).
  rewrite (octet_run lc c) by done. rewrite dot_step by (done || by eapply octet_len).
  rewrite <- (app_nil_r ld). rewrite (octet_run ld d) by done.
  simpl. by rewrite (octet_len _ _ Hd).
Qed.

Lemma ipv4_fields_inv l : forall val digs acc bs,
  ipv4_fields l val digs acc = Some bs -> val <= 255 ->
  exists l1 r, l = l1 ++ r /\ Forall digit_char l1 /\ dec_from val l1 <= 255 /\
    (digs + length l1 <> 0)%nat /\
    (digs = 1%nat -> val = 0 -> l1 = []) /\
    (digs = 0%nat -> val = 0 -> (length l1 = 1%nat \/ head l1 <> Some 48)) /\
    ((r = [] /\ length acc = 3%nat /\ bs = acc ++ [dec_from val l1]) \/
     (exists r', r = 46 :: r' /\ length acc <> 3%nat /\ ipv4_fields r' 0 0 (acc ++ [dec_from val l1]) = Some bs)).
Proof.
  induction l as [|c l IH]; intros val digs acc bs H Hv.
  - simpl in H. exists [], []. destruct (Nat.eqb digs 0) eqn:E; [done|]. apply Nat.eqb_neq in E.
    destruct (Nat.eqb (length acc) 3) eqn:E3; [|done]. apply Nat.eqb_eq in E3. injection H as <-.
    repeat split; auto; try lia; try constructor; auto.
  - rewrite ipv4_fields_cons in H. destruct (is_digit c) eqn:Ed.
    + apply is_digit_spec in Ed.
      destruct (Nat.eqb digs 1 && (val =? 0))%bool eqn:Ez; [done|]. cbv zeta in H.
      destruct (255 <? 10 * val + (c - 48)) eqn:E255; [done|]. apply N.ltb_ge in E255.
      destruct (IH _ _ _ _ H E255) as (l1 & r & -> & Hl1 & Hdv & _ & H1 & _ & Hr).
      exists (c :: l1), r. split; [done|]. split; [by constructor|]. split; [exact Hdv|].
      split; [simpl; lia|]. split; [|split; [|exact Hr]].
      * intros -> ->. done.
      * intros -> ->. destruct (decide (c = 48)) as [->|Hne]; [|right; simpl; congruence].
        left. rewrite (H1 eq_refl); [done|]. done.
    + destruct (c =? 46) eqn:Ec; [|done]. apply N.eqb_eq in Ec as ->.
      destruct (Nat.eqb digs 0) eqn:E; [done|]. apply Nat.eqb_neq in E.
      destruct (Nat.eqb (length acc) 3) eqn:E3; [done|]. apply Nat.eqb_neq in E3.
      exists [], (46 :: l). split; [done|]. split; [constructor|]. split; [done|].
      split; [simpl; lia|]. split; [done|]. split; [lia|]. right. eauto.
Qed.

Lemma ipv4_first_inv l acc bs : ipv4_fields l 0 0 acc = Some bs ->
  exists l1 v, octet_text l1 v /\
   ((l = l1 /\ length acc = 3%nat /\ bs = acc ++ [v]) \/
    (exists r', l = l1 ++ 46 :: r' /\ length acc <> 3%nat /\ ipv4_fields r' 0 0 (acc ++ [v]) = Some bs)).
Proof.
  intros H. apply ipv4_fields_inv in H as (l1 & r & -> & Hd & Hv & Hlen & _ & Hlead & Hr); [|lia].
  exists l1, (dec_from 0 l1). split.
  - split; [split; [by destruct l1|done]|]. split; [done|]. split; [done|]. by apply Hlead.
  - destruct Hr as [(-> & H3 & ->)|(r' & -> & H3 & H)].
    + left. by rewrite app_nil_r.
    + right. eauto.
Qed.

(** The dotted-quad reader accepts exactly the dotted quads, with their value. *)
Theorem parse_ipv4_spec :
  forall l bs, parse_ipv4 l = Some bs <->
    exists a b c d, bs = [a; b; c; d] /\ ipv4_text l a b c d.
Proof.
  intros l bs. split; [|intros (a & b & c & d & -> & H); by apply parse_ipv4_complete].
  intros H. apply ipv4_first_inv in H as (la & a & Ha & [(_ & H & _)|(r & -> & _ & H)]); [done|].
  apply ipv4_first_inv in H as (lb & b & Hb & [(_ & H & _)|(r' & -> & _ & H)]); [done|].
  apply ipv4_first_inv in H as (lc & c & Hc & [(_ & H & _)|(r'' & -> & _ & H)]); [done|].
  apply ipv4_first_inv in H as (ld & d & Hd & [(-> & _ & ->)|(r''' & -> & H & _)]); [|done].
  exists a, b, c, d. split; [done|]. exists la, lb, lc, ld. auto.
Qed.

(** ** Prefix arithmetic *)
Lemma be_from v l : foldl (fun acc x => 256 * acc + x) v l = v * 256 ^ N.of_nat (length l) + be_value l.
Proof.
  revert v. induction l as [|x r IH]; intros v; [unfold be_value; simpl; lia|].
  simpl foldl. unfold be_value. simpl foldl. rewrite IH, (IH (256 * 0 + x)).
  replace (N.of_nat (length (x :: r))) with (N.succ (N.of_nat (length r))) by (simpl; lia).
  rewrite N.pow_succ_r'. ring.
Qed.
Lemma be_cons x l : be_value (x :: l) = x * 256 ^ N.of_nat (length l) + be_value l.
Proof. unfold be_value at 1. simpl foldl. rewrite be_from. f_equal. Qed.
Lemma be_bound l : Forall (fun x => x < 256) l -> be_value l < 256 ^ N.of_nat (length l).
Proof.
  induction 1 as [|x l Hx Hl IH]; [done|]. rewrite be_cons. simpl length. rewrite Nat2N.inj_succ, N.pow_succ_r'.
  nia.
Qed.

Lemma length_mask_bytes k n : length (mask_bytes k n) = k.
Proof. revert n. induction k as [|k IH]; intros n; simpl; auto. Qed.
Lemma byte_mask_bound n : (if 8 <=? n then 255 else 256 - 2 ^ (8 - n)) < 256.
Proof.
  destruct (8 <=? n); [lia|]. pose proof (N.pow_nonzero 2 (8 - n)). lia.
Qed.
Lemma mask_bytes_bytes k n : Forall (fun x => x < 256) (mask_bytes k n).
Proof. revert n. induction k as [|k IH]; intros n; simpl; constructor; [apply byte_mask_bound|apply IH]. Qed.

Lemma pow256 k : 256 ^ k = 2 ^ (8 * k).
Proof. change 256 with (2 ^ 8). by rewrite <- N.pow_mul_r. Qed.

Lemma mask_bytes_value k : forall n, n <= 8 * N.of_nat k ->
  be_value (mask_bytes k n) = 2 ^ (8 * N.of_nat k) - 2 ^ (8 * N.of_nat k - n).
Proof.
  induction k as [|k IH]; intros n Hn.
  - simpl in *. replace n with 0 by lia. done.
  - cbn [mask_bytes]. rewrite be_cons, length_mask_bytes.
    assert (Hk : 2 ^ (8 * N.of_nat (S k)) = 256 * 2 ^ (8 * N.of_nat k)).
    { replace (8 * N.of_nat (S k)) with (8 + 8 * N.of_nat k) by lia. by rewrite N.pow_add_r. }
    rewrite pow256. destruct (8 <=? n) eqn:E.
    + apply N.leb_le in E. rewrite IH by lia.
      replace (8 * N.of_nat (S k) - n) with (8 * N.of_nat k - (n - 8)) by lia.
      assert (2 ^ (8 * N.of_nat k - (n - 8)) <= 2 ^ (8 * N.of_nat k)) by (apply N.pow_le_mono_r; lia).
      lia.
    + apply N.leb_gt in E. rewrite IH by lia. replace (n - 8) with 0 by lia.
      rewrite N.sub_0_r, N.sub_diag, N.add_0_r.
      replace (8 * N.of_nat (S k) - n) with ((8 - n) + 8 * N.of_nat k) by lia.
      rewrite N.pow_add_r, Hk, N.mul_sub_distr_r. done.
Qed.

Lemma byte_land x n : x < 256 -> n < 8 -> N.land x (256 - 2 ^ (8 - n)) = x / 2 ^ (8 - n) * 2 ^ (8 - n).
Proof.
  intros Hx Hn.
  assert (H : forallb (fun x => forallb (fun n => N.land x (256 - 2 ^ (8 - n)) =? x / 2 ^ (8 - n) * 2 ^ (8 - n)) (Nseq 8)) (Nseq 256) = true)
    by (vm_compute; reflexivity).
  rewrite forallb_forall in H. specialize (H x). rewrite <- elem_of_list_In, elem_of_Nseq in H.
  specialize (H Hx). rewrite forallb_forall in H. specialize (H n).
  rewrite <- elem_of_list_In, elem_of_Nseq in H. by apply N.eqb_eq, H.
Qed.
Lemma byte_land_255 x : x < 256 -> N.land x 255 = x.
Proof. intros. change 255 with (N.ones 8). rewrite N.land_ones. by apply N.mod_small. Qed.

Lemma masked_value k : forall b n, length b = k -> Forall (fun x => x < 256) b -> n <= 8 * N.of_nat k ->
  be_value (zip_with N.land b (mask_bytes k n)) =
  be_value b / 2 ^ (8 * N.of_nat k - n) * 2 ^ (8 * N.of_nat k - n).
Proof.
  induction k as [|k IH]; intros b n Hlen Hb Hn.
  - destruct b; [|done]. simpl in *. replace n with 0 by lia. done.
  - destruct b as [|x b]; [done|]. injection Hlen as Hlen. inversion Hb as [|? ? Hx Hb']; subst.
    cbn [mask_bytes]. cbn [zip_with]. rewrite !be_cons.
    assert (Hzl : length (zip_with N.land b (mask_bytes (length b) (n - 8))) = length b).
    { rewrite zip_with_length, length_mask_bytes. lia. }
    rewrite Hzl, pow256. set (P := 2 ^ (8 * N.of_nat (length b))).
    assert (HP : 0 < P) by (unfold P; pose proof (N.pow_nonzero 2 (8 * N.of_nat (length b))); lia).
    pose proof (be_bound b Hb') as Hbb. rewrite pow256 in Hbb. fold P in Hbb.
    destruct (8 <=? n) eqn:E.
    + apply N.leb_le in E. rewrite byte_land_255 by done. rewrite IH by (done || lia).
      replace (8 * N.of_nat (S (length b)) - n) with (8 * N.of_nat (length b) - (n - 8)) by lia.
      set (s := 8 * N.of_nat (length b) - (n - 8)).
      assert (HPs : P = 2 ^ (n - 8) * 2 ^ s).
      { unfold P, s. rewrite <- N.pow_add_r. f_equal. lia. }
      assert (Hs : 2 ^ s <> 0) by (by apply N.pow_nonzero).
      rewrite HPs. replace (x * (2 ^ (n - 8) * 2 ^ s) + be_value b) with (be_value b + x * 2 ^ (n - 8) * 2 ^ s) by ring.
      rewrite N.div_add by done. ring.
    + apply N.leb_gt in E. rewrite byte_land by done. rewrite IH by (done || lia).
      replace (n - 8) with 0 by lia. rewrite N.sub_0_r. fold P.
      rewrite (N.div_small (be_value b) P) by done. rewrite N.mul_0_l, N.add_0_r.
      replace (8 * N.of_nat (S (length b)) - n) with ((8 - n) + 8 * N.of_nat (length b)) by lia.
      rewrite N.pow_add_r. fold P. rewrite (N.mul_comm (2 ^ (8 - n)) P).
      rewrite <- N.div_div by (lia || by apply N.pow_nonzero).
      rewrite N.div_add_l by lia. rewrite (N.div_small (be_value b) P) by done. rewrite N.add_0_r. ring.
Qed.

Lemma land_prefix_mask x w s : x < 2 ^ w -> s <= w -> N.land x (2 ^ w - 2 ^ s) = x / 2 ^ s * 2 ^ s.
Proof.
  intros Hx Hs.
  assert (Hm : 2 ^ w - 2 ^ s = N.shiftl (N.ones (w - s)) s).
  { rewrite N.shiftl_mul_pow2, N.ones_equiv, <- N.sub_1_r, N.mul_sub_distr_r, <- N.pow_add_r.
    replace (w - s + s) with w by lia. lia. }
  rewrite Hm. apply N.bits_inj. intros i. rewrite N.land_spec.
  rewrite <- N.shiftr_div_pow2, <- N.shiftl_mul_pow2.
  destruct (N.lt_ge_cases i s) as [Hi|Hi].
  - rewrite !N.shiftl_spec_low by done. apply andb_false_r.
  - rewrite !N.shiftl_spec_high' by done. rewrite N.shiftr_spec by lia.
    replace (i - s + s) with i by lia.
    destruct (N.lt_ge_cases (i - s) (w - s)) as [Hw|Hw].
    + rewrite N.ones_spec_low by done. apply andb_true_r.
    + rewrite N.ones_spec_high by done. rewrite andb_false_r. symmetry.
      destruct (decide (x = 0)) as [->|Hne]; [apply N.bits_0|].
      apply N.bits_above_log2. apply N.log2_lt_pow2; [lia|].
      eapply N.lt_le_trans; [exact Hx|]. apply N.pow_le_mono_r; lia.
Qed.

(** The meaning of a stored prefix: an address of the family has the stored
    network under the stored mask exactly when its first [n] bits are those of
    [v]. *)
Theorem stored_prefix_meaning :
  forall w ty k v n, stores_prefix w ty k v n -> n <= 8 * N.of_nat k -> v < 2 ^ (8 * N.of_nat k) ->
  forall x, x < 2 ^ (8 * N.of_nat k) ->
    (N.land x (be_value (iw_mask w)) = be_value (iw_ip w) <->
     x / 2 ^ (8 * N.of_nat k - n) = v / 2 ^ (8 * N.of_nat k - n)).
Proof.
  intros w ty k v n (_ & _ & _ & Hip & _ & _ & Hm) Hn Hv x Hx. rewrite Hip, Hm.
  rewrite land_prefix_mask by (done || lia).
  split; [|by intros ->]. intros H. apply N.mul_cancel_r in H; [done|]. by apply N.pow_nonzero.
Qed.

Lemma cidr_stores k ty b t : (t = [] \/ digit_text t) -> length b = k -> Forall (fun x => x < 256) b ->
  mask_value k t <= 8 * N.of_nat k -> (k = 4%nat \/ k = 16%nat) ->
  forall w,
  (if bool_decide (t = []) then
    Some (IpW ty b (cidr_mask (8 * N.of_nat (length b)) (length b)))
  else
    m ← parse_uint t;
    let mk := cidr_mask m (length b) in
    Some (IpW ty (ip_mask b mk) mk)) = Some w ->
  stores_prefix w ty k (be_value b) (mask_value k t).
Proof.
  intros Ht Hlen Hb Hle Hk w H. unfold stores_prefix. destruct t as [|c t].
  - rewrite bool_decide_eq_true_2 in H by done. injection H as <-. simpl iw_type. simpl iw_ip. simpl iw_mask.
    cbn [mask_value] in *. unfold cidr_mask. rewrite Hlen, N.leb_refl.
    rewrite length_mask_bytes, mask_bytes_value by lia.
    rewrite N.sub_diag, N.pow_0_r, N.div_1_r, N.mul_1_r.
    split; [done|]. split; [done|]. split; [done|]. split; [done|]. split; [done|].
    split; [apply mask_bytes_bytes|done].
  - rewrite bool_decide_eq_false_2 in H by done. destruct Ht as [Ht|Ht]; [done|].
    cbn [mask_value] in *. apply bind_Some_inv in H as (m & Hm & H). unfold parse_uint in Hm.
    destruct (dec_value (c :: t) <? 18446744073709551616); [|done]. injection Hm as <-.
    cbv zeta in H. injection H as <-. simpl iw_type. simpl iw_ip. simpl iw_mask.
    unfold cidr_mask. rewrite Hlen, (proj2 (N.leb_le _ _) Hle).
    unfold ip_mask. rewrite length_mask_bytes, Hlen, Nat.eqb_refl.
    rewrite zip_with_length, length_mask_bytes, Hlen, Nat.min_id, mask_bytes_value by done.
    split; [done|]. split; [done|]. split.
    { rewrite Forall_forall. intros x Hx. rewrite elem_of_lookup_zip_with in Hx.
      destruct Hx as (i & y & z & -> & Hy & Hz).
      rewrite Forall_forall in Hb. specialize (Hb y (elem_of_list_lookup_2 _ _ _ Hy)). simpl in Hb.
      pose proof (mask_bytes_bytes k (dec_value (c :: t))) as Hmb. rewrite Forall_forall in Hmb.
      specialize (Hmb z (elem_of_list_lookup_2 _ _ _ Hz)). simpl in Hmb.
      destruct (decide (N.land y z = 0)) as [->|Hne]; [lia|].
      apply N.log2_lt_cancel. pose proof (N.log2_land y z) as Hl.
      assert (Hy8 : N.log2 y < 8 \/ y = 0).
      { destruct (decide (y = 0)); [by right|left]. apply N.log2_lt_pow2; [lia|done]. }
      destruct Hy8 as [Hy8|Hy8]; [|subst; done]. change (N.log2 256) with 8. lia. }
    split; [by apply masked_value|]. split; [done|]. split; [apply mask_bytes_bytes|done].
Qed.

Lemma ipv4_text_has_dot l a b c d : ipv4_text l a b c d ->
  List.find (fun c => (c =? 46) || (c =? 58)) l = Some 46.
Proof.
  intros (la & lb & lc & ld & -> & ((_ & Hd) & _) & _). induction Hd as [|x l Hx _ IH]; [done|].
  simpl. unfold digit_char in Hx.
  assert (x =? 46 = false) as -> by (apply N.eqb_neq; lia).
  assert (x =? 58 = false) as -> by (apply N.eqb_neq; lia). exact IH.
Qed.

Lemma octet_bound l v : octet_text l v -> v < 256.
Proof. intros (_ & _ & H & _). lia. Qed.

(** A dotted quad with an optional mask of at most 32 is accepted and stored as
    that prefix. *)
Theorem ipv4_prefix_stored :
  forall t a b c d m, ipv4_text t a b c d -> (m = [] \/ digit_text m) -> mask_value 4 m <= 32 ->
  exists w, parse_cidr t m = Some w /\
    stores_prefix w 1 4 (a * 2 ^ 24 + b * 2 ^ 16 + c * 2 ^ 8 + d) (mask_value 4 m).
Proof.
  intros t a b c d m Ht Hm Hle. unfold parse_cidr, parse_ip.
  rewrite (ipv4_text_has_dot _ _ _ _ _ Ht). change (46 =? 46) with true. cbv iota.
  rewrite (parse_ipv4_complete _ _ _ _ _ Ht). cbn [mbind option_bind].
  change (Nat.eqb (length [a; b; c; d]) 4) with true. cbv iota beta.
  destruct Ht as (la & lb & lc & ld & -> & Ha & Hb & Hc & Hd).
  apply octet_bound in Ha, Hb, Hc, Hd.
  assert (Hv : a * 2 ^ 24 + b * 2 ^ 16 + c * 2 ^ 8 + d = be_value [a; b; c; d]).
  { unfold be_value. simpl foldl. lia. }
  rewrite Hv.
  match goal with |- exists w, ?X = Some w /\ _ => destruct X as [w|] eqn:E end.
  - exists w. split; [done|]. eapply (cidr_stores 4 1 [a; b; c; d] m); [done|done| |done|by left|exact E].
    repeat constructor; done.
  - exfalso. destruct m as [|x m].
    + rewrite bool_decide_eq_true_2 in E by done. done.
    + rewrite bool_decide_eq_false_2 in E by done. cbn [mask_value] in Hle. unfold parse_uint in E.
      assert (dec_value (x :: m) <? 18446744073709551616 = true) as Hlt by (apply N.ltb_lt; lia).
      rewrite Hlt in E. done.
Qed.

(** The IPv6 reader yields 16 bytes. *)
Lemma hexnum_bound l : Forall hex_char l -> hexnum l < 16 ^ N.of_nat (length l).
Proof.
  assert (H : forall v k, Forall hex_char l -> v < 16 ^ N.of_nat k ->
    foldl (fun acc c => 16 * acc + hex_value c) v l < 16 ^ N.of_nat (k + length l)).
  { induction l as [|c r IH]; intros v k Hl Hv; simpl.
    - by rewrite Nat.add_0_r.
    - inversion Hl as [|? ? Hc Hr]; subst. replace (k + S (length r))%nat with (S k + length r)%nat by lia.
      apply IH; [done|]. rewrite Nat2N.inj_succ, N.pow_succ_r'.
      assert (hex_value c < 16); [|lia]. unfold hex_value, hex_char in *.
      destruct (is_digit c) eqn:E; [apply is_digit_spec in E; unfold digit_char in E; lia|].
      assert (~ digit_char c) as Hn by (rewrite <- is_digit_spec, E; done). unfold digit_char in Hn.
      destruct (97 <=? c) eqn:E2; [apply N.leb_le in E2|apply N.leb_gt in E2]; lia. }
  intros Hl. apply (H 0 0%nat); [done|reflexivity].
Qed.

Lemma ipv6_loop_bytes f : forall l out ell o e,
  ipv6_loop f l out ell = Some (o, e) ->
  Forall (fun x => x < 256) out -> (length out + 2 * f = 16)%nat ->
  (match ell with Some k => k <= length out | None => True end)%nat ->
  Forall (fun x => x < 256) o /\ (length o <= 16)%nat /\
  (match e with Some k => k <= length o | None => True end)%nat.
Proof.
  induction f as [|f IH]; intros l out ell o e H Ho Hlen He; simpl in H.
  - case_bool_decide; [|done]. injection H as <- <-. split; [done|]. split; [lia|done].
  - destruct (span is_hex l) as [h r] eqn:Es. apply span_inv in Es as (-> & Hh & _).
    destruct (Nat.eqb (length h) 0 || Nat.ltb 4 (length h))%bool eqn:Eb; [done|].
    apply orb_false_iff in Eb as [_ E4]. apply Nat.ltb_ge in E4.
    set (v := hexnum h) in *.
    assert (Hv : v < 65536).
    { assert (Forall hex_char h) as Hf by (by apply (forallb_Forall_iff is_hex hex_char is_hex_spec)).
      pose proof (hexnum_bound h Hf) as Hb. fold v in Hb.
      assert (16 ^ N.of_nat (length h) <= 16 ^ 4) by (apply N.pow_le_mono_r; lia).
      change (16 ^ 4) with 65536 in *. lia. }
    assert (Ho' : Forall (fun x => x < 256) (out ++ [v / 256; v mod 256])).
    { apply Forall_app. split; [done|]. repeat constructor.
      - apply N.div_lt_upper_bound; lia.
      - apply N.mod_upper_bound. lia. }
    assert (Hl' : length (out ++ [v / 256; v mod 256]) = S (S (length out))).
    { rewrite app_length. simpl. lia. }
    destruct r as [|c r].
    + injection H as <- <-. split; [done|]. rewrite Hl'. split; [lia|]. destruct ell; [lia|done].
    + destruct (negb (c =? 58)); [done|]. destruct r as [|c2 r2]; [done|]. destruct (c2 =? 58).
      * destruct ell; [done|]. case_bool_decide.
        -- injection H as <- <-. split; [done|]. rewrite Hl'. split; lia.
        -- apply IH in H; [done|done|rewrite Hl'; lia|lia].
      * apply IH in H; [done|done|rewrite Hl'; lia|]. rewrite Hl'. destruct ell; [lia|done].
Qed.

Lemma expand_ipv6_bytes o e b :
  expand_ipv6 (o, e) = Some b -> Forall (fun x => x < 256) o -> (length o <= 16)%nat ->
  (match e with Some k => k <= length o | None => True end)%nat ->
  Forall (fun x => x < 256) b /\ length b = 16%nat.
Proof.
  unfold expand_ipv6. intros H Ho Hl He. destruct (Nat.ltb (length o) 16) eqn:E.
  - apply Nat.ltb_lt in E. destruct e as [k|]; [|done]. injection H as <-. split.
    + apply Forall_app. split; [by apply Forall_take|]. apply Forall_app. split; [|by apply Forall_drop].
      apply Forall_replicate. lia.
    + rewrite !app_length, replicate_length, take_length, drop_length. lia.
  - apply Nat.ltb_ge in E. destruct e; [done|]. injection H as <-. split; [done|lia].
Qed.

Lemma parse_ipv6_bytes l b : parse_ipv6 l = Some b -> Forall (fun x => x < 256) b /\ length b = 16%nat.
Proof.
  intros H.
  assert (Hgen : forall l ell, (match ell with Some k => k <= 0 | None => True end)%nat ->
    (o ← ipv6_loop 8 l [] ell; expand_ipv6 o) = Some b -> Forall (fun x => x < 256) b /\ length b = 16%nat).
  { clear H. intros l' ell He H. apply bind_Some_inv in H as ([o e] & H1 & H2).
    apply ipv6_loop_bytes in H1 as (Ho & Hl & He'); [|constructor|reflexivity|exact He].
    by eapply expand_ipv6_bytes. }
  unfold parse_ipv6 in H.
  destruct (strip [58; 58] l) as [[|c r]|].
  - injection H as <-. split; [by repeat constructor|done].
  - apply (Hgen (c :: r) (Some 0%nat)); [simpl; lia|exact H].
  - apply (Hgen l None); [exact I|exact H].
Qed.

Lemma parse_ip_bytes l b : parse_ip l = Some b ->
  Forall (fun x => x < 256) b /\ (length b = 4%nat \/ length b = 16%nat).
Proof.
  unfold parse_ip. destruct (List.find _ l) as [c|]; [|done]. destruct (c =? 46).
  - intros (a & b' & c' & d & -> & Ht)%parse_ipv4_spec.
    destruct Ht as (la & lb & lc & ld & -> & Ha & Hb & Hc & Hd).
    apply octet_bound in Ha, Hb, Hc, Hd. split; [by repeat constructor|by left].
  - intros [H1 H2]%parse_ipv6_bytes. auto.
Qed.

(** Whatever the address family: an accepted address with a mask that fits the
    family is stored as the prefix of the parsed address with host bits cleared. *)
Theorem any_prefix_stored :
  forall t m w, (m = [] \/ digit_text m) -> parse_cidr t m = Some w ->
  exists b, (parse_ip t = Some b \/ exists p, parse_ip t = Some (replicate 10 0 ++ [255; 255] ++ p) /\ b = p) /\
    ((length b = 4%nat /\ (mask_value 4 m <= 32 -> stores_prefix w 1 4 (be_value b) (mask_value 4 m))) \/
     (length b = 16%nat /\ (mask_value 16 m <= 128 -> stores_prefix w 2 16 (be_value b) (mask_value 16 m)))).
Proof.
  intros t m w Hm H. unfold parse_cidr in H. apply bind_Some_inv in H as (b0 & Hb0 & H).
  destruct (parse_ip_bytes _ _ Hb0) as [Hbytes Hlen].
  destruct (Nat.eqb (length b0) 4) eqn:E4.
  - apply Nat.eqb_eq in E4. exists b0. split; [by left|]. left. split; [done|]. intros Hle.
    eapply cidr_stores; [done|done|done|exact Hle|by left|exact H].
  - apply Nat.eqb_neq in E4. destruct Hlen as [Hlen|Hlen]; [done|].
    destruct (is_v4_mapped b0) eqn:Ev.
    + apply bool_decide_eq_true in Ev. exists (drop 12 b0). split.
      { right. exists (drop 12 b0). split; [|done]. rewrite Hb0. f_equal.
        rewrite <- (take_drop 12 b0) at 1. rewrite Ev. done. }
      left. assert (Hl4 : length (drop 12 b0) = 4%nat) by (rewrite drop_length; lia).
      split; [done|]. intros Hle.
      eapply cidr_stores; [done|done|by apply Forall_drop|exact Hle|by left|exact H].
    + exists b0. split; [by left|]. right. split; [done|]. intros Hle.
      eapply cidr_stores; [done|done|done|exact Hle|by right|exact H].
Qed.

(** ** C27, complete statement *)
Definition addr_means (kws : list (list N)) (t m : list N) (w : ipwmask) : Prop :=
  (t ∈ kws /\ w = IpW 0 [] []) \/ (t ∉ kws /\ parse_cidr t m = Some w).

(** A flow text is accepted with result [f] exactly when every part has the
    stated meaning; "any/mask" is refused for the source (but ignored for the
    destination). *)
Theorem sdf_meaning :
  forall g f, wf_groups g ->
    (parse_sdf (flow_text g) = Some f <->
     proto_means (g_proto g) (sf_proto f) /\
     addr_means [str "any"] (g_src g) (g_smask g) (sf_src f) /\
     (g_src g = str "any" -> g_smask g = []) /\
     ports_mean (g_sport g) (sf_sport f) /\
     addr_means [str "assigned"; str "any"] (g_dst g) (g_dmask g) (sf_dst f) /\
     ports_mean (g_dport g) (sf_dport f)).
Proof.
  intros g f Hw.
  assert (Hports : forall t r, t = [] \/ port_text t ->
    (if bool_decide (t = []) then Some all_ports else parse_port_range t) = Some r <-> ports_mean t r).
  { intros t [lo hi] Ht. destruct t as [|c t].
    - rewrite bool_decide_eq_true_2 by done. unfold all_ports. split.
      + intros [= <- <-]. constructor.
      + inversion 1 as [|a [Ha _] _|a b [Ha _] _ _ Heq]; subst; [done|done|]. by destruct a.
    - rewrite bool_decide_eq_false_2 by done. by apply parse_port_range_spec. }
  unfold parse_sdf. rewrite (tokenize_complete g Hw). cbn [mbind option_bind].
  assert (Hsrc : forall r,
    (if bool_decide (g_src g = str "any")
         then if bool_decide (g_smask g = []) then Some any_addr else None
         else parse_cidr (g_src g) (g_smask g)) = Some r <->
    addr_means [str "any"] (g_src g) (g_smask g) r /\ (g_src g = str "any" -> g_smask g = [])).
  { intros r. unfold addr_means. rewrite elem_of_list_singleton. case_bool_decide as Hany.
    - case_bool_decide as Hmk.
      + unfold any_addr. split; [intros [= <-]; auto|]. intros [[[_ ->]|[? _]] _]; done.
      + split; [done|]. intros [_ ?]. exfalso. auto.
    - split; [intros HH; split; [right; done|done]|]. intros [Hx _]. destruct Hx as [[Hx _]|[_ Hx]]; [done|exact Hx]. }
  assert (Hdst : forall r,
    (if bool_decide (g_dst g = str "assigned") || bool_decide (g_dst g = str "any")
         then Some any_addr else parse_cidr (g_dst g) (g_dmask g)) = Some r <->
    addr_means [str "assigned"; str "any"] (g_dst g) (g_dmask g) r).
  { intros r. unfold addr_means. rewrite elem_of_cons, elem_of_list_singleton.
    destruct (bool_decide (g_dst g = str "assigned") || bool_decide (g_dst g = str "any"))%bool eqn:E.
    - rewrite orb_true_iff, !bool_decide_eq_true in E. unfold any_addr.
      split; [intros [= <-]; auto|]. intros [[_ ->]|[? _]]; [done|]. tauto.
    - rewrite orb_false_iff, !bool_decide_eq_false in E. split; [intros; right; tauto|].
      intros [[? _]|[_ ?]]; [tauto|done]. }
  split.
  - intros H. apply bind_Some_inv in H as (p & Hp & H).
    apply bind_Some_inv in H as (sa & Hsa & H). apply bind_Some_inv in H as (sp & Hsp & H).
    apply bind_Some_inv in H as (da & Hda & H). apply bind_Some_inv in H as (dp & Hdp & H).
    injection H as <-. cbn [sf_proto sf_src sf_sport sf_dst sf_dport].
    apply parse_protocol_spec in Hp. apply Hsrc in Hsa as [Hsa1 Hsa2]. apply Hports in Hsp; [|apply Hw].
    apply Hdst in Hda. apply Hports in Hdp; [|apply Hw]. auto 10.
  - intros (Hp & Hsa & Hany & Hsp & Hda & Hdp). destruct f as [p sa sp da dp]. simpl in *.
    apply parse_protocol_spec in Hp as ->. cbn [mbind option_bind].
    rewrite (proj2 (Hsrc sa) (conj Hsa Hany)). cbn [mbind option_bind].
    apply Hports in Hsp as ->; [|apply Hw]. cbn [mbind option_bind].
    apply Hdst in Hda as ->. cbn [mbind option_bind].
    apply Hports in Hdp as ->; [|apply Hw]. done.
Qed.

(** Port bounds of every accepted description. *)
Theorem sdf_ports_in_range :
  forall s f, parse_sdf s = Some f ->
    fst (sf_sport f) <= snd (sf_sport f) <= 65535 /\ fst (sf_dport f) <= snd (sf_dport f) <= 65535.
Proof.
  intros s f H. destruct (sdf_accepts_only_flow_texts s f H) as (g & Hw & ->).
  apply (sdf_meaning g f Hw) in H as (_ & _ & _ & Hsp & _ & Hdp).
  split; [destruct Hsp|destruct Hdp]; simpl; lia.
Qed.

(** Finding: a mask longer than the address is accepted and stored as an empty
    network and mask, which every packet matches. *)
Theorem sdf_oversized_mask_refuted :
  parse_sdf (str "permit out ip from 10.0.0.1/33 to any") =
  Some (Sdf 1 (IpW 1 [] []) (0, 65535) (IpW 0 [] []) (0, 65535)).
Proof. vm_compute. reflexivity. Qed.

(** Examples: the hypotheses are met by ordinary texts. *)
Example sdf_example_text :
  flow_text (Groups (str "udp") (str "10.62.7.1") (str "8") (str "5-9") (str "assigned") [] (str "80")) =
  str "permit out udp from 10.62.7.1/8 5-9 to assigned 80".
Proof. reflexivity. Qed.
Example sdf_example_parse :
  parse_sdf (str "permit out udp from 10.62.7.1/8 5-9 to assigned 80") =
  Some (Sdf 3 (IpW 1 [10; 0; 0; 0] [255; 0; 0; 0]) (5, 9) (IpW 0 [] []) (80, 80)).
Proof. vm_compute. reflexivity. Qed.
Example sdf_example_quad : ipv4_text (str "10.62.7.1") 10 62 7 1.
Proof.
  exists (str "10"), (str "62"), (str "7"), (str "1"). split; [reflexivity|].
  repeat split; try (vm_compute; done); try (repeat constructor; unfold digit_char; vm_compute; intuition congruence);
    try (right; vm_compute; congruence); try (left; reflexivity).
Qed.
Example sdf_rejects :
  Forall (fun t => parse_sdf t = None)
    [str "permit out sctp from any to any"; str "permit out ip from any/8 to any";
     str "permit out ip from 10.0.0.256 to any"; str "permit out ip from 10.0.01.2 to any";
     str "permit out ip from any 70000 to any"; str "permit out ip from any 9-5 to any";
     str "deny out ip from any to any"; str "permit out ip from any to any "].
Proof. repeat constructor. Qed.
