(** C124: everything the calls that carry no data do on the bus. *)
From Verif Require Import Life RawHistory ExecFacts BytesFacts ValueFacts CallFacts Transcript Answers.
From Coq Require Import Lia.

Local Notation W b a d := (EWrite b a d (Ok tt)) (only parsing).
Local Notation R b a d := (ERead b a d (Ok tt)) (only parsing).

(** ** C124.  The calls that set up, open, bind, close and reset have, when they answer Ok, exactly the
    following traffic; and if the bus answers so they answer Ok. *)

(** The mode register, bit by bit. *)
Definition mode_bits (m : Mode) : byte :=
  u8 ((match on_wake_on_lan m with WolInvokeInterrupt => 32 | WolIgnore => 0 end) + (match on_ping_request m with PingRespond => 0 | PingIgnore => 16 end) +
      (match connection_type m with CtPPoE => 8 | CtEthernet => 0 end) + (match arp_responses m with ArpCache => 0 | ArpDropAfterUse => 2 end)).
(** An address is written unless it is zero. *)
Definition unless_zero (a : N) (d : list byte) : list event := if forallb (fun x => b2n x =? 0) d then [] else [W 0 a d].
Definition addresses (mc : mac) (ip g s : ipv4) : list event :=
  unless_zero 0x01 [ip0 g; ip1 g; ip2 g; ip3 g] ++ unless_zero 0x05 [ip0 s; ip1 s; ip2 s; ip3 s] ++
  unless_zero 0x09 [m0 mc; m1 mc; m2 mc; m3 mc; m4 mc; m5 mc] ++ unless_zero 0x0f [ip0 ip; ip1 ip; ip2 ip; ip3 ip].
Definition init_traffic (chk : bool) (k : setup) (m : Mode) : list event :=
  (if chk then [R 0 0x39 [x04]] else []) ++ [W 0 0x00 [x80]; W 0 0x00 [mode_bits m]] ++
  match k with
  | IDhcp _ => []
  | IManual mc ip => addresses mc ip (Ip4 (ip0 ip) (ip1 ip) (ip2 ip) x01) (Ip4 xff xff xff x00)
  | IAdvanced mc ip g s => addresses mc ip g s
  end.

Lemma zero4 g : forallb (fun x => b2n x =? 0) [ip0 g; ip1 g; ip2 g; ip3 g] = ipv4_eqb g ip_unspecified.
Proof.
  apply Bool.eq_iff_eq_true. rewrite ipv4_eqb_eq, forallb_forall. split.
  - intros H. destruct g as [a b c d]; cbn [ip0 ip1 ip2 ip3] in H. assert (Z : forall x, In x [a; b; c; d] -> x = x00) by (intros x Hx; specialize (H x Hx); clear - H; destruct x; try discriminate H; reflexivity).
    rewrite (Z a), (Z b), (Z c), (Z d) by (cbn; auto). reflexivity.
  - intros -> x H. cbn in H. repeat destruct H as [<-|H]; try reflexivity. destruct H.
Qed.
Lemma zero6 g : forallb (fun x => b2n x =? 0) [m0 g; m1 g; m2 g; m3 g; m4 g; m5 g] = mac_eqb g mac_unspecified.
Proof.
  apply Bool.eq_iff_eq_true. unfold mac_eqb. rewrite bytes_eqb_eq, forallb_forall. split.
  - intros H. assert (Z : forall x, In x (mac_octets g) -> x = x00) by (intros x Hx; specialize (H x Hx); clear - H; destruct x; try discriminate H; reflexivity).
    unfold mac_octets in *. rewrite (Z (m0 g)), (Z (m1 g)), (Z (m2 g)), (Z (m3 g)), (Z (m4 g)), (Z (m5 g)) by (cbn; auto 10). reflexivity.
  - intros E x H. change [m0 g; m1 g; m2 g; m3 g; m4 g; m5 g] with (mac_octets g) in H. rewrite E in H. cbn in H. repeat destruct H as [<-|H]; try reflexivity. destruct H.
Qed.
(** one guarded write *)
Lemma given_on (z : bool) a d c c' k tr c1 : exec (write_if (negb z) a d c c' k) tr (Done (c1, Ok tt)) <->
  exists w, tr = (if z then [] else [W 0 a d]) ++ w /\ exec (k (if z then c else c')) w (Done (c1, Ok tt)).
Proof.
  unfold write_if. destruct z; cbn [negb]; split.
  - intros X. exists tr. auto.
  - intros (w & -> & X). exact X.
  - intros X. wr X. exists x. auto.
  - intros (w & -> & X). gw. exact X.
Qed.
Lemma settings_on mc ip g s tr : (exists c, exec (write_settings hc_default (mkHC mc ip g s)) tr (Done (c, Ok tt))) <-> tr = addresses mc ip g s.
Proof.
  unfold addresses, unless_zero. rewrite !zero4, zero6. unfold write_settings. cbn [hc_gateway hc_subnet hc_mac hc_ip]. split.
  - intros (c & X). change (hc_gateway hc_default) with ip_unspecified in X. apply given_on in X as (w & -> & X). f_equal. cbn beta in X.
    match type of X with context [hc_subnet ?c] => replace (hc_subnet c) with ip_unspecified in X by (now destruct (ipv4_eqb g _)) end. apply given_on in X as (w1 & -> & X). f_equal. cbn beta in X.
    match type of X with context [hc_mac ?c] => replace (hc_mac c) with mac_unspecified in X by (now destruct (ipv4_eqb g _), (ipv4_eqb s _)) end. apply given_on in X as (w2 & -> & X). f_equal. cbn beta in X.
    match type of X with context [hc_ip ?c] => replace (hc_ip c) with ip_unspecified in X by (now destruct (ipv4_eqb g _), (ipv4_eqb s _), (mac_eqb mc _)) end. apply given_on in X as (w3 & -> & X).
    apply ret_on in X as [-> _]. apply app_nil_r.
  - intros ->. eexists. change (hc_gateway hc_default) with ip_unspecified. apply given_on. eexists. split; [reflexivity|]. cbn beta.
    match goal with |- context [hc_subnet ?c] => replace (hc_subnet c) with ip_unspecified by (now destruct (ipv4_eqb g _)) end. apply given_on. eexists. split; [reflexivity|]. cbn beta.
    match goal with |- context [hc_mac ?c] => replace (hc_mac c) with mac_unspecified by (now destruct (ipv4_eqb g _), (ipv4_eqb s _)) end. apply given_on. eexists. split; [reflexivity|]. cbn beta.
    match goal with |- context [hc_ip ?c] => replace (hc_ip c) with ip_unspecified by (now destruct (ipv4_eqb g _), (ipv4_eqb s _), (mac_eqb mc _)) end. apply given_on. eexists. split; [symmetry; apply app_nil_r|]. constructor.
Qed.

Theorem C124_initialize : forall chk k m tr, (exists d, exec (run_setup chk k m) tr (Done (Ok d))) <-> tr = init_traffic chk k m.
Proof.
  assert (Em : forall m, mode_to_register m = [mode_bits m]) by (intros [[] [] [] []]; reflexivity).
  assert (H : forall chk h m tr, (exists d, exec (initialize_with_host chk h m) tr (Done (Ok d))) <->
    exists w, tr = (if chk then [R 0 0x39 [x04]] else []) ++ [W 0 0x00 [x80]; W 0 0x00 [mode_bits m]] ++ w /\ exists h', exec (refresh h) w (Done (h', Ok tt))).
  { intros chk h m tr. unfold initialize_with_host, uninit_reset, dev_set_mode. rewrite Em. split.
    - intros (d & X).
      assert (Y : forall t, exec (try_ (write_frame COMMON c_MODE [u8 128]) (fun e => @Err DeviceState _ (SpiError e)) (fun _ => try_ (write_frame COMMON c_MODE [mode_bits m]) (fun e => Err (SpiError e)) (fun _ =>
         bind (refresh h) (fun r => match snd r with Ok _ => Ret (Ok (ds_new (fst r))) | Err e => Ret (Err (SpiError e)) end)))) t (Done (Ok d)) ->
         exists w, t = [W 0 0x00 [x80]; W 0 0x00 [mode_bits m]] ++ w /\ exists h', exec (refresh h) w (Done (h', Ok tt))).
      { intros t Y. wr Y. wr Y. apply exec_bind_done in Y as (t1 & [h' r] & t2 & -> & Y1 & Y). cbn [fst snd] in Y. destruct r as [[]|e]; apply ret_on in Y as [-> Y]; [|discriminate Y].
        exists t1. rewrite app_nil_r. split; [reflexivity|eauto]. }
      destruct chk; [|exact (Y _ X)]. apply try_on in X as (t1 & v & t2 & -> & X1 & X); [|discriminate]. destruct (Y _ X) as (w & -> & H). exists w. split; [|exact H]. f_equal.
      unfold assert_chip_version, dev_version in X1. rd X1 b L. apply Waits.one_byte in L as (c & ->). change (byte0 [c]) with c in X1. destruct (b2n c =? 4) eqn:E; cbn [negb] in X1; apply ret_on in X1 as [-> X1]; [|discriminate X1].
      assert (c = x04) as -> by (clear - E; destruct c; try discriminate E; reflexivity). reflexivity.
    - intros (w & -> & h' & X). exists (ds_new h').
      assert (Y : exec (try_ (write_frame COMMON c_MODE [u8 128]) (fun e => @Err DeviceState _ (SpiError e)) (fun _ => try_ (write_frame COMMON c_MODE [mode_bits m]) (fun e => Err (SpiError e)) (fun _ =>
         bind (refresh h) (fun r => match snd r with Ok _ => Ret (Ok (ds_new (fst r))) | Err e => Ret (Err (SpiError e)) end)))) ([W 0 0x00 [x80]; W 0 0x00 [mode_bits m]] ++ w) (Done (Ok (ds_new h')))).
      { cbn [List.app]. gw. gw. rewrite <- (app_nil_r w). apply exec_bind_intro with (a := (h', Ok tt)); [exact X|constructor]. }
      destruct chk; [|exact Y]. apply to_try with (a := tt); [|exact Y]. unfold assert_chip_version, dev_version. gr. constructor. }
  assert (HM : forall chk mc ip g s m tr, (exists d, exec (initialize_advanced chk mc ip g s m) tr (Done (Ok d))) <-> tr = init_traffic chk (IAdvanced mc ip g s) m).
  { intros chk mc ip g s m tr. unfold initialize_advanced. rewrite H. unfold init_traffic, manual_new. cbn [refresh]. split.
    - intros (w & -> & h' & X). apply exec_bind_done in X as (t1 & [c r] & t2 & -> & X & Y). apply ret_on in Y as [-> Y]. cbn [fst snd] in Y. injection Y as -> <-. rewrite app_nil_r.
      rewrite (proj1 (settings_on mc ip g s t1) (ex_intro _ c X)). reflexivity.
    - intros ->. exists (addresses mc ip g s). split; [reflexivity|]. destruct (proj2 (settings_on mc ip g s _) eq_refl) as (c & X). eexists. rewrite <- (app_nil_r (addresses _ _ _ _)).
      apply exec_bind_intro with (a := (c, Ok tt)); [exact X|constructor]. }
  intros chk [mc|mc ip|mc ip g s] m tr; cbn [run_setup].
  - unfold initialize. rewrite H. unfold init_traffic, dhcp_new. cbn [refresh]. split.
    + intros (w & -> & h' & X). apply ret_on in X as [-> _]. reflexivity.
    + intros ->. exists []. split; [reflexivity|]. eexists. constructor.
  - unfold initialize_manual. rewrite HM. reflexivity.
  - apply HM.
Qed.
Print Assumptions C124_initialize.

(** MACRAW: reset, MAC address, all buffer memory to socket 0, its mode with the MAC filter, OPEN. *)
Theorem C124_initialize_macraw : forall mc tr, (exists d, exec (initialize_macraw mc) tr (Done (Ok d))) <->
  tr = [W 0 0x00 [x80]; W 0 0x09 [m0 mc; m1 mc; m2 mc; m3 mc; m4 mc; m5 mc]; W 1 0x1f [x10]; W 1 0x1e [x10]] ++
       flat_map (fun i => [W (4 * i + 1) 0x1f [x00]; W (4 * i + 1) 0x1e [x00]]) [1; 2; 3; 4; 5; 6; 7] ++ [W 1 0x00 [x84]; W 1 0x01 [x01]].
Proof.
  intros mc tr. unfold initialize_macraw, raw_new, command. split.
  - intros (d & X). do 4 wr X. apply try_on in X as (t1 & [] & t2 & -> & X1 & X); [|discriminate]. do 2 wr X. apply ret_on in X as [-> _].
    cbn [raw_zero_buffers] in X1. do 14 wr X1. apply ret_on in X1 as [-> _]. reflexivity.
  - intros ->. eexists. cbn [List.app]. do 4 gw.
    apply (to_try _ _ _ (flat_map (fun i => [W (4 * i + 1) 0x1f [x00]; W (4 * i + 1) 0x1e [x00]]) [1; 2; 3; 4; 5; 6; 7]) tt).
    + cbn [raw_zero_buffers flat_map List.app]. do 14 gw. constructor.
    + do 2 gw. constructor.
Qed.
Print Assumptions C124_initialize_macraw.

(** Closing: mode 0 and CLOSE. *)
Theorem C124_close : forall i d tr, i < 8 ->
  ((exists d', exec (tcp_close d (mkTcp (socket_new i))) tr (Done (d', Ok tt))) <-> tr = [W (4 * i + 1) 0x00 [x00]; W (4 * i + 1) 0x01 [x10]]) /\
  (forall dst port, (exists d', exec (udp_close d (mkUdp (socket_new i) dst port)) tr (Done (d', Ok tt))) <-> tr = [W (4 * i + 1) 0x00 [x00]; W (4 * i + 1) 0x01 [x10]]).
Proof.
  intros i d tr Hi. destruct (socket_blocks i Hi) as (E1 & _ & _ & E4). split; [|intros dst port]; (split; [intros (d' & X)|intros ->; exists (mkDS (ds_host d) (N.setbit (ds_sockets d) i))]).
  - unfold tcp_close in X. apply try_on in X as (t1 & [] & t2 & -> & X1 & X); [|discriminate]. unfold release_socket in X. cbn [t_socket] in X. rewrite E4, (proj2 (N.ltb_lt i 8) Hi) in X. apply ret_on in X as [-> _].
    unfold tcp_socket_close, set_mode, command in X1. do 2 wr X1. apply ret_on in X1 as [-> _]. cbn [t_socket]. rewrite E1. reflexivity.
  - unfold tcp_close. rewrite <- (app_nil_r [_; _]). apply to_try with (a := tt).
    + unfold tcp_socket_close, set_mode, command. cbn [t_socket]. rewrite E1. do 2 gw. constructor.
    + unfold release_socket. cbn [t_socket]. rewrite E4, (proj2 (N.ltb_lt i 8) Hi). constructor.
  - unfold udp_close in X. apply try_on in X as (t1 & [] & t2 & -> & X1 & X); [|discriminate]. unfold release_socket in X. cbn [u_socket] in X. rewrite E4, (proj2 (N.ltb_lt i 8) Hi) in X. apply ret_on in X as [-> _].
    unfold udp_socket_close, set_mode, command in X1. do 2 wr X1. apply ret_on in X1 as [-> _]. cbn [u_socket]. rewrite E1. reflexivity.
  - unfold udp_close. rewrite <- (app_nil_r [_; _]). apply to_try with (a := tt).
    + unfold udp_socket_close, set_mode, command. cbn [u_socket]. rewrite E1. do 2 gw. constructor.
    + unfold release_socket. cbn [u_socket]. rewrite E4, (proj2 (N.ltb_lt i 8) Hi). constructor.
Qed.
Print Assumptions C124_close.

(** UDP bind and connect: CLOSE, flags, port, mode, mask, OPEN; before it the port once more for bind,
    after it the destination for connect, unless it is the one remembered. *)
Definition udp_opening (i port : N) : list event :=
  [W (4 * i + 1) 0x01 [x10]; W (4 * i + 1) 0x02 [xff]; W (4 * i + 1) 0x04 (to_be port); W (4 * i + 1) 0x00 [x02]; W (4 * i + 1) 0x2c [x00]; W (4 * i + 1) 0x01 [x01]].
Theorem C124_udp_bind : forall i dst port p tr u', i < 8 ->
  exec (udp_bind (mkUdp (socket_new i) dst port) p) tr (Done (u', Ok tt)) <-> tr = W (4 * i + 1) 0x04 (to_be p) :: udp_opening i p /\ u' = mkUdp (socket_new i) dst p.
Proof.
  intros i dst port p tr u' Hi. destruct (socket_blocks i Hi) as (E1 & _). unfold udp_bind, udp_set_port. cbn [u_socket u_dest u_port]. split.
  - intros X. apply exec_bind_done in X as (t1 & r & t2 & -> & X1 & X). unfold set_source_port in X1.
    destruct r as [u0 [[]|e]]; cbn [fst snd] in X; [|apply ret_on in X as [_ X]; discriminate X].
    wr X1. apply ret_on in X1 as [-> [= ->]]. apply try_on in X as (t1 & [] & t3 & -> & X1 & X); [|discriminate]. apply ret_on in X as [-> [= ->]].
    unfold udp_open, set_mode, command, reset_interrupt, set_interrupt_mask, set_source_port in X1. do 6 wr X1. apply ret_on in X1 as [-> _]. cbn [u_socket u_port]. rewrite E1. split; reflexivity.
  - intros [-> ->]. change (W (4 * i + 1) 0x04 (to_be p) :: udp_opening i p) with ([W (4 * i + 1) 0x04 (to_be p)] ++ udp_opening i p).
    apply exec_bind_intro with (a := (mkUdp (socket_new i) dst p, Ok tt)); [unfold set_source_port; rewrite E1; gw; constructor|]. cbn [fst snd].
    rewrite <- (app_nil_r (udp_opening i p)). apply to_try with (a := tt); [|constructor].
    unfold udp_open, udp_opening, set_mode, command, reset_interrupt, set_interrupt_mask, set_source_port. cbn [u_socket u_port]. rewrite E1. do 6 gw. constructor.
Qed.
Print Assumptions C124_udp_bind.
Theorem C124_udp_connect : forall i dst port r tr u', i < 8 ->
  exec (udp_connect (mkUdp (socket_new i) dst port) (V4 r)) tr (Done (u', Ok tt)) <->
  u' = mkUdp (socket_new i) (Some r) port /\ exists to, tr = udp_opening i port ++ to /\
  (dst = Some r /\ to = [] \/
   dst <> Some r /\ to = [W (4 * i + 1) 0x0c [ip0 (a_ip r); ip1 (a_ip r); ip2 (a_ip r); ip3 (a_ip r)]; W (4 * i + 1) 0x10 (to_be (a_port r))]).
Proof.
  intros i dst port r tr u' Hi. destruct (socket_blocks i Hi) as (E1 & _). unfold udp_connect. cbn [u_socket u_dest u_port]. split.
  - intros X. apply try_on in X as (t1 & [] & t3 & -> & X1 & X); [|discriminate].
    unfold udp_open, set_mode, command, reset_interrupt, set_interrupt_mask, set_source_port in X1. do 6 wr X1. apply ret_on in X1 as [-> _]. cbn [u_socket u_port]. rewrite E1.
    unfold udp_set_destination in X. cbn [u_dest u_socket u_port] in X. destruct (match dst with Some _ => _ | None => true end) eqn:E in X.
    + unfold set_destination_ip, set_destination_port in X. do 2 wr X. apply ret_on in X as [-> [= ->]]. split; [reflexivity|]. eexists. split; [reflexivity|]. right. split; [|rewrite E1; reflexivity].
      intros ->. rewrite (proj2 (addr4_eqb_eq r r) eq_refl) in E. discriminate E.
    + apply ret_on in X as [-> [= ->]]. destruct dst as [a|]; [|discriminate E]. apply Bool.negb_false_iff, addr4_eqb_eq in E. subst a. split; [reflexivity|]. exists []. split; [reflexivity|auto].
  - intros (-> & to & -> & Ht). apply to_try with (a := tt).
    + unfold udp_open, udp_opening, set_mode, command, reset_interrupt, set_interrupt_mask, set_source_port. cbn [u_socket u_port]. rewrite E1. do 6 gw. constructor.
    + unfold udp_set_destination. cbn [u_dest]. destruct Ht as [[-> ->]|[Nd ->]].
      * rewrite (proj2 (addr4_eqb_eq r r) eq_refl). constructor.
      * assert (E : match dst with Some a => negb (addr4_eqb a r) | None => true end = true).
        { destruct dst as [a|]; [|reflexivity]. destruct (addr4_eqb a r) eqn:E; [|reflexivity]. apply addr4_eqb_eq in E. congruence. }
        rewrite E. cbn [u_socket]. unfold set_destination_ip, set_destination_port. rewrite E1. do 2 gw. constructor.
Qed.
Print Assumptions C124_udp_connect.

(** One register, one access: the getters and setters of the device, and the interrupts of MACRAW. *)
Theorem C124_registers : forall tr,
  (forall d, exec (dev_reset d) tr (Done (Ok tt)) <-> ds_sockets d = 255 /\ tr = [W 0 0x00 [x80]]) /\
  (forall m, exec (dev_set_mode m) tr (Done (Ok tt)) <-> tr = [W 0 0x00 [mode_bits m]]) /\
  (forall n, exec (dev_set_retry_timeout (mkRetryTime n)) tr (Done (Ok tt)) <-> tr = [W 0 0x19 (to_be n)]) /\
  (forall n, exec (dev_set_retry_count n) tr (Done (Ok tt)) <-> tr = [W 0 0x1b [n]]) /\
  (forall a, exec dev_gateway tr (Done (Ok a)) <-> tr = [R 0 0x01 [ip0 a; ip1 a; ip2 a; ip3 a]]) /\
  (forall a, exec dev_subnet_mask tr (Done (Ok a)) <-> tr = [R 0 0x05 [ip0 a; ip1 a; ip2 a; ip3 a]]) /\
  (forall a, exec dev_ip tr (Done (Ok a)) <-> tr = [R 0 0x0f [ip0 a; ip1 a; ip2 a; ip3 a]]) /\
  (forall a, exec dev_mac tr (Done (Ok a)) <-> tr = [R 0 0x09 [m0 a; m1 a; m2 a; m3 a; m4 a; m5 a]]) /\
  (forall v, exec dev_version tr (Done (Ok v)) <-> tr = [R 0 0x39 [v]]) /\
  (forall v, exec dev_current_retry_count tr (Done (Ok v)) <-> tr = [R 0 0x1b [v]]) /\
  (forall n, exec dev_current_retry_timeout tr (Done (Ok n)) <-> exists d, length d = 2%nat /\ n = mkRetryTime (from_be d) /\ tr = [R 0 0x19 d]) /\
  (forall which, exec (raw_enable_interrupts (mkRaw (socket_new 0)) which) tr (Done (Ok tt)) <-> tr = [W 1 0x2c [which]; W 0 0x18 [x01]]) /\
  (exec (raw_clear_interrupts (mkRaw (socket_new 0))) tr (Done (Ok tt)) <-> tr = [W 1 0x02 [xff]]) /\
  (exec (raw_disable_interrupts (mkRaw (socket_new 0))) tr (Done (Ok tt)) <-> tr = [W 0 0x18 [x00]; W 1 0x2c [xff]]).
Proof.
  assert (Em : forall m, mode_to_register m = [mode_bits m]) by (intros [[] [] [] []]; reflexivity).
  assert (W1 : forall b a d tr, exec (write_frame b a d) tr (Done (Ok tt)) <-> tr = [W b a d]).
  { intros b a d tr. split; [|intros ->; cbn; constructor; constructor]. intros X. cbn in X. inversion X; subst. match goal with Y : exec (Ret _) _ _ |- _ => apply ret_on in Y as [-> [= <-]] end. reflexivity. }
  assert (W2 : forall b a d tr, exec (try x <- write_frame b a d else Err ;; Ret (Ok tt)) tr (Done (Ok tt)) <-> tr = [W b a d]).
  { intros b a d tr. split; [intros X; wr X; apply ret_on in X as [-> _]; reflexivity|intros ->; gw; constructor]. }
  assert (R1 : forall A b a n (conv : list byte -> A) y tr, exec (try d <- read_reg b a n else Err ;; Ret (Ok (conv d))) tr (Done (Ok y)) <-> exists d, length d = n /\ y = conv d /\ tr = [R b a d]).
  { intros A b a n conv y tr. split; [intros X; rd X d L; apply ret_on in X as [-> [= ->]]; eauto|intros (d & L & -> & ->); gr; constructor]. }
  intros tr. repeat match goal with |- _ /\ _ => split end.
  - intros d. unfold dev_reset, any_allocated. destruct (N.eqb_spec (ds_sockets d) 255) as [E|E]; cbn [negb].
    + split; [intros X; unfold reset_device in X; wr X; apply ret_on in X as [-> _]; auto|intros [_ ->]; unfold reset_device; gw; constructor].
    + split; [intros X; apply ret_on in X as [_ X]; discriminate X|intros [Y _]; contradiction].
  - intros m. unfold dev_set_mode. rewrite Em. apply W1.
  - intros n. apply W2.
  - intros n. apply W2.
  - intros a. unfold dev_gateway. rewrite R1. split; [intros (d & L & -> & ->)|intros ->; eexists; split; [|split; [|reflexivity]]; [reflexivity|now destruct a]].
    destruct d as [|? [|? [|? [|? [|]]]]]; try discriminate L. reflexivity.
  - intros a. unfold dev_subnet_mask. rewrite R1. split; [intros (d & L & -> & ->)|intros ->; eexists; split; [|split; [|reflexivity]]; [reflexivity|now destruct a]].
    destruct d as [|? [|? [|? [|? [|]]]]]; try discriminate L. reflexivity.
  - intros a. unfold dev_ip. rewrite R1. split; [intros (d & L & -> & ->)|intros ->; eexists; split; [|split; [|reflexivity]]; [reflexivity|now destruct a]].
    destruct d as [|? [|? [|? [|? [|]]]]]; try discriminate L. reflexivity.
  - intros a. unfold dev_mac. rewrite R1. split; [intros (d & L & -> & ->)|intros ->; eexists; split; [|split; [|reflexivity]]; [reflexivity|now destruct a]].
    destruct d as [|? [|? [|? [|? [|? [|? [|]]]]]]]; try discriminate L. reflexivity.
  - intros v. unfold dev_version. rewrite R1. split; [intros (d & L & -> & ->); apply Waits.one_byte in L as (c & ->); reflexivity|intros ->; eexists; split; [|split; [|reflexivity]]; reflexivity].
  - intros v. unfold dev_current_retry_count. rewrite R1. split; [intros (d & L & -> & ->); apply Waits.one_byte in L as (c & ->); reflexivity|intros ->; eexists; split; [|split; [|reflexivity]]; reflexivity].
  - intros n. unfold dev_current_retry_timeout. apply R1.
  - intros which. unfold raw_enable_interrupts, set_interrupt_mask. rewrite u8_b2n. split; [intros X; do 2 wr X; apply ret_on in X as [-> _]; reflexivity|intros ->; do 2 gw; constructor].
  - unfold raw_clear_interrupts, reset_interrupt. apply W1.
  - unfold raw_disable_interrupts, set_interrupt_mask. split; [intros X; do 2 wr X; apply ret_on in X as [-> _]; reflexivity|intros ->; do 2 gw; constructor].
Qed.
Print Assumptions C124_registers.

(** 10.0.0.7 with the gateway and mask made up; and without a gateway, which is not written. *)
Example C124_case : exists d d',
  exec (run_setup true (IManual (Mac x02 x00 x00 x00 x00 x01) (Ip4 x0a x00 x00 x07)) mode_default)
    [R 0 0x39 [x04]; W 0 0x00 [x80]; W 0 0x00 [x02]; W 0 0x01 [x0a; x00; x00; x01]; W 0 0x05 [xff; xff; xff; x00]; W 0 0x09 [x02; x00; x00; x00; x00; x01]; W 0 0x0f [x0a; x00; x00; x07]]
    (Done (Ok d)) /\
  exec (run_setup false (IAdvanced (Mac x02 x00 x00 x00 x00 x01) (Ip4 x0a x00 x00 x07) (Ip4 x00 x00 x00 x00) (Ip4 xff x00 x00 x00)) mode_default)
    [W 0 0x00 [x80]; W 0 0x00 [x02]; W 0 0x05 [xff; x00; x00; x00]; W 0 0x09 [x02; x00; x00; x00; x00; x01]; W 0 0x0f [x0a; x00; x00; x07]] (Done (Ok d')).
Proof.
  destruct (proj2 (C124_initialize true (IManual (Mac x02 x00 x00 x00 x00 x01) (Ip4 x0a x00 x00 x07)) mode_default _) eq_refl) as (d & X).
  destruct (proj2 (C124_initialize false (IAdvanced (Mac x02 x00 x00 x00 x00 x01) (Ip4 x0a x00 x00 x07) (Ip4 x00 x00 x00 x00) (Ip4 xff x00 x00 x00)) mode_default _) eq_refl) as (d' & X').
  exists d, d'. split; [exact X|exact X'].
Qed.
