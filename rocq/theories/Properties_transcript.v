(** C122: everything a call that succeeds did on the bus. *)
From Verif Require Import History RawHistory ExecFacts BytesFacts ValueFacts CallFacts Transcript.
From Coq Require Import Lia.

(** ** C122.  A call that answers Ok has done exactly the following on the bus, in this order and
    nothing else, whatever the bus answered.  Registers of socket [i] are block 4i+1, its send
    buffer 4i+2, its receive buffer 4i+3. *)

(** A pair of readings of a 16-bit register. *)
Definition both (q : list byte * list byte) : Prop := length (fst q) = 2%nat /\ length (snd q) = 2%nat.

(** TCP send of [d], [n] bytes taken: status, free space, write pointer, one copy, pointer moved,
    SEND, flags until SEND_OK, SEND_OK cleared. *)
Definition tcp_send_traffic (i : N) (d : list byte) (n : N) (tr : list event) : Prop :=
  exists f p l c, length f = 2%nat /\ length p = 2%nat /\ n = N.min (len d) (from_be f) /\
  tr = [ERead (4 * i + 1) 0x03 [x17] (Ok tt); ERead (4 * i + 1) 0x20 f (Ok tt); ERead (4 * i + 1) 0x24 p (Ok tt);
        EWrite (4 * i + 2) (from_be p) (firstn (N.to_nat n) d) (Ok tt); EWrite (4 * i + 1) 0x24 (to_be ((from_be p + n) mod 65536)) (Ok tt);
        EWrite (4 * i + 1) 0x01 [x20] (Ok tt)] ++
       map (fun c => ERead (4 * i + 1) 0x02 [c] (Ok tt)) (l ++ [c]) ++ [EWrite (4 * i + 1) 0x02 [x10] (Ok tt)] /\
  N.testbit (b2n c) 4 = true /\ (forall c', In c' l -> N.testbit (b2n c') 4 = false).

(** TCP receive into [d], [n] bytes answered and [d'] the buffer then: nothing but the status and the
    flags when there is nothing; otherwise the size until two readings agree, the read pointer, one
    copy, pointer moved by what was copied, RECV, flag cleared. *)
Definition tcp_receive_traffic (i : N) (d d' : list byte) (n : N) (tr : list event) : Prop :=
  exists f, 
  (tr = [ERead (4 * i + 1) 0x03 [x17] (Ok tt); ERead (4 * i + 1) 0x02 [f] (Ok tt)] /\ N.testbit (b2n f) 2 = false /\ n = 0 /\ d' = d) \/
  (N.testbit (b2n f) 2 = true /\ exists l w p got, Forall (fun q => fst q <> snd q /\ both q) l /\ length w = 2%nat /\ length p = 2%nat /\
   n = N.min (len d) (from_be w) /\ len got = n /\ d' = got ++ skipn (N.to_nat n) d /\
   tr = [ERead (4 * i + 1) 0x03 [x17] (Ok tt); ERead (4 * i + 1) 0x02 [f] (Ok tt)] ++
     flat_map (fun q => [ERead (4 * i + 1) 0x26 (fst q) (Ok tt); ERead (4 * i + 1) 0x26 (snd q) (Ok tt)]) (l ++ [(w, w)]) ++
     [ERead (4 * i + 1) 0x28 p (Ok tt); ERead (4 * i + 3) (from_be p) got (Ok tt);
      EWrite (4 * i + 1) 0x28 (to_be ((from_be p + n) mod 65536)) (Ok tt); EWrite (4 * i + 1) 0x01 [x40] (Ok tt); EWrite (4 * i + 1) 0x02 [x04] (Ok tt)]).

(** TCP connect to [r]: CLOSE, flags, source port, mode, mask, OPEN; the status; a second opening
    unless that is INIT; address, port, CONNECT; statuses that are neither ESTABLISHED nor CLOSED,
    then one that is; and after CLOSED a further opening, and Ok all the same. *)
Definition tcp_connect_traffic (i : N) (r : addr4) (tr : list event) : Prop :=
  exists st mid l c rest,
  let b := 4 * i + 1 in
  let fresh := [EWrite b 0x00 [x00] (Ok tt); EWrite b 0x01 [x10] (Ok tt); EWrite b 0x01 [x10] (Ok tt); EWrite b 0x02 [xff] (Ok tt); EWrite b 0x00 [x01] (Ok tt);
                EWrite b 0x2c [x00] (Ok tt); EWrite b 0x01 [x01] (Ok tt)] in
  tr = [EWrite b 0x01 [x10] (Ok tt); EWrite b 0x02 [xff] (Ok tt); EWrite b 0x04 (to_be (49849 + i)) (Ok tt); EWrite b 0x00 [x01] (Ok tt);
        EWrite b 0x2c [x00] (Ok tt); EWrite b 0x01 [x01] (Ok tt); ERead b 0x03 [st] (Ok tt)] ++ mid ++
       [EWrite b 0x0c [ip0 (a_ip r); ip1 (a_ip r); ip2 (a_ip r); ip3 (a_ip r)] (Ok tt); EWrite b 0x10 (to_be (a_port r)) (Ok tt); EWrite b 0x01 [x04] (Ok tt)] ++
       map (fun c => ERead b 0x03 [c] (Ok tt)) (l ++ [c]) ++ rest /\
  (st = x13 /\ mid = [] \/ In st [x00; x14; x15; x16; x17; x18; x1a; x1b; x1c; x1d] /\ mid = fresh) /\
  ~ In x17 l /\ ~ In x00 l /\ (c = x17 /\ rest = [] \/ c = x00 /\ rest = fresh).

(** UDP receive into [d]: [n] bytes answered, from [a], and [d'] the buffer then. *)
Definition udp_receive_traffic (i : N) (d d' : list byte) (n : N) (a : sockaddr) (tr : list event) : Prop :=
  exists f l w p h got, Forall (fun q => fst q <> snd q /\ both q) l /\ length w = 2%nat /\ from_be w <> 0 /\ d <> [] /\ length p = 2%nat /\ length h = 8%nat /\
  N.testbit (b2n f) 2 = true /\ n = N.max (N.min (from_be w) (len d)) (from_be (skipn 6 h)) /\ len got = n /\ n <= len d /\ d' = got ++ skipn (N.to_nat n) d /\
  a = V4 (Addr4 (Ip4 (nth 0 h x00) (nth 1 h x00) (nth 2 h x00) (nth 3 h x00)) (from_be (firstn 2 (skipn 4 h)))) /\
  tr = [ERead (4 * i + 1) 0x03 [x22] (Ok tt); ERead (4 * i + 1) 0x02 [f] (Ok tt)] ++
     flat_map (fun q => [ERead (4 * i + 1) 0x26 (fst q) (Ok tt); ERead (4 * i + 1) 0x26 (snd q) (Ok tt)]) (l ++ [(w, w)]) ++
     [ERead (4 * i + 1) 0x28 p (Ok tt); ERead (4 * i + 3) (from_be p) h (Ok tt); ERead (4 * i + 3) ((from_be p + 8) mod 65536) got (Ok tt);
      EWrite (4 * i + 1) 0x28 (to_be ((from_be p + from_be w) mod 65536)) (Ok tt); EWrite (4 * i + 1) 0x01 [x40] (Ok tt); EWrite (4 * i + 1) 0x02 [x04] (Ok tt)].

(** MACRAW write of [d], [n] bytes taken: the frame is copied whole or not at all. *)
Definition raw_write_traffic (d : list byte) (n : N) (tr : list event) : Prop :=
  exists f p l c, length f = 2%nat /\ length p = 2%nat /\ n = (if len d <=? from_be f then len d else 0) /\
  tr = [EWrite 1 0x02 [x10] (Ok tt); ERead 1 0x20 f (Ok tt); ERead 1 0x24 p (Ok tt)] ++ (if n =? 0 then [] else [EWrite 2 (from_be p) d (Ok tt)]) ++
       [EWrite 1 0x24 (to_be ((from_be p + n) mod 65536)) (Ok tt); EWrite 1 0x01 [x20] (Ok tt)] ++ map (fun c => ERead 1 0x02 [c] (Ok tt)) (l ++ [c]) /\
  N.testbit (b2n c) 4 = true /\ (forall c', In c' l -> N.testbit (b2n c') 4 = false).

(** UDP send: one datagram after the other until all is out, each followed by the two pointers until
    they agree.  [cap] is the free space read last. *)
Inductive datagrams (i : N) : N -> list byte -> list event -> Prop :=
| all_out cap : datagrams i cap [] []
| datagram cap d d1 d2 f p l q q' fin f' rest : d <> [] -> d = d1 ++ d2 -> length f = 2%nat -> length p = 2%nat -> length f' = 2%nat -> from_be f <> 0 ->
    len d1 = N.min (N.min cap (len d)) (from_be f) ->
    Forall (fun a => from_be (fst a) <> from_be (snd a) /\ both a) l -> both (q, q') -> from_be q = from_be q' ->
    (exists c, N.testbit (b2n c) 4 = true /\ fin = [ERead (4 * i + 1) 0x02 [c] (Ok tt); EWrite (4 * i + 1) 0x02 [x10] (Ok tt)]) \/
    (exists c c', N.testbit (b2n c) 4 = false /\ N.testbit (b2n c') 3 = false /\ fin = [ERead (4 * i + 1) 0x02 [c] (Ok tt); ERead (4 * i + 1) 0x02 [c'] (Ok tt)]) ->
    datagrams i (from_be f') d2 rest ->
    datagrams i cap d
      ([ERead (4 * i + 1) 0x03 [x22] (Ok tt); ERead (4 * i + 1) 0x20 f (Ok tt); ERead (4 * i + 1) 0x24 p (Ok tt); EWrite (4 * i + 2) (from_be p) d1 (Ok tt);
        EWrite (4 * i + 1) 0x24 (to_be ((from_be p + len d1) mod 65536)) (Ok tt); EWrite (4 * i + 1) 0x01 [x20] (Ok tt)] ++
       flat_map (fun a => [ERead (4 * i + 1) 0x22 (fst a) (Ok tt); ERead (4 * i + 1) 0x24 (snd a) (Ok tt)]) (l ++ [(q, q')]) ++ fin ++
       [ERead (4 * i + 1) 0x20 f' (Ok tt)] ++ rest).
(** UDP send of [d] to [r] through a handle that remembers [dst]: address and port unless they are
    those of the last time, the status and the free space, and the datagrams. *)
Definition udp_send_traffic (i : N) (dst : option addr4) (r : addr4) (d : list byte) (tr : list event) : Prop :=
  exists to f rest, length f = 2%nat /\ from_be f <> 0 /\
  tr = to ++ [ERead (4 * i + 1) 0x03 [x22] (Ok tt); ERead (4 * i + 1) 0x20 f (Ok tt)] ++ rest /\
  (dst = Some r /\ to = [] \/
   dst <> Some r /\ to = [EWrite (4 * i + 1) 0x0c [ip0 (a_ip r); ip1 (a_ip r); ip2 (a_ip r); ip3 (a_ip r)] (Ok tt); EWrite (4 * i + 1) 0x10 (to_be (a_port r)) (Ok tt)]) /\
  datagrams i (from_be f) d rest.

Lemma small_sum p n : n < 65536 -> wadd16 p (as_u16 n) = (p + n) mod 65536.
Proof. intros H. unfold wadd16, as_u16. now rewrite (N.mod_small n) by exact H. Qed.
Lemma sending_datagrams i cap d tr : sending (4 * i + 1) (4 * i + 2) cap d tr <-> datagrams i cap d tr.
Proof.
  split.
  - induction 1 as [|cap d d1 d2 f p l q q' fin f' rest Nd Ed Lf Lp Lf' F0 L1 Hl Lq Eq St S IH]; [constructor|].
    pose proof (from_be_lt f Lf). rewrite small_sum by lia. exact (datagram i cap d d1 d2 f p l q q' fin f' rest Nd Ed Lf Lp Lf' F0 L1 Hl Lq Eq St IH).
  - induction 1 as [|cap d d1 d2 f p l q q' fin f' rest Nd Ed Lf Lp Lf' F0 L1 Hl Lq Eq St S IH]; [constructor|].
    pose proof (from_be_lt f Lf). rewrite <- small_sum by lia. exact (one_more _ _ cap d d1 d2 f p l q q' fin f' rest Nd Ed Lf Lp Lf' F0 L1 Hl Lq Eq St IH).
Qed.

Theorem C122_tcp_send : forall fuel i d tr n, i < 8 -> exec (tcp_send fuel (mkTcp (socket_new i)) d) tr (Done (Ok n)) -> tcp_send_traffic i d n tr.
Proof.
  intros fuel i d tr n Hi X. destruct (socket_blocks i Hi) as (E1 & E2 & _). apply tcp_send_done in X as (f & p & l & c & Lf & Lp & En & -> & B & N).
  cbn [t_socket]. rewrite E1, E2. pose proof (from_be_lt f Lf). rewrite small_sum by lia. exists f, p, l, c.
  split; [exact Lf|]. split; [exact Lp|]. split; [exact En|]. split; [|auto]. unfold BSB_REG, BSB_TX. reflexivity.
Qed.
Print Assumptions C122_tcp_send.

Theorem C122_tcp_receive : forall fuel i d tr d' n, i < 8 -> exec (tcp_receive fuel (mkTcp (socket_new i)) d) tr (Done (d', Ok n)) -> tcp_receive_traffic i d d' n tr.
Proof.
  intros fuel i d tr d' n Hi X. destruct (socket_blocks i Hi) as (E1 & E2 & E3 & _). apply tcp_receive_done in X as (f & X). cbn [t_socket] in X. rewrite E1, E3 in X. exists f.
  destruct X as [X|(B & l & w & p & got & D & Lw & Lp & En & Lg & Ed & ->)]; [left; exact X|right]. split; [exact B|]. exists l, w, p, got. split; [exact D|].
  pose proof (from_be_lt w Lw). rewrite small_sum by lia. do 5 (split; [assumption|]). reflexivity.
Qed.
Print Assumptions C122_tcp_receive.

Theorem C122_tcp_connect : forall fuel i r tr x, i < 8 -> exec (tcp_connect fuel (mkTcp (socket_new i)) (V4 r)) tr (Done (Ok x)) -> tcp_connect_traffic i r tr.
Proof.
  intros fuel i r tr x Hi X. destruct (socket_blocks i Hi) as (E1 & E2 & E3 & E4). apply connect_done in X as (st & mid & l & c & rest & X). cbn [t_socket] in X. rewrite E1, E4 in X.
  exists st, mid, l, c, rest. destruct X as (Et & Hm & H). split; [exact Et|]. split; [|exact H]. destruct Hm as [Hm|(N1 & N2 & N3 & (s & Es) & Em)]; [left; exact Hm|right]. split; [|exact Em].
  clear - N1 N2 N3 Es. destruct st; try discriminate Es; try contradiction; cbn; auto 12.
Qed.
Print Assumptions C122_tcp_connect.

Theorem C122_udp_receive : forall fuel i dst port d tr d' n a, i < 8 ->
  exec (udp_receive fuel (mkUdp (socket_new i) dst port) d) tr (Done (d', Ok (n, a))) -> udp_receive_traffic i d d' n a tr.
Proof.
  intros fuel i dst port d tr d' n a Hi X. destruct (socket_blocks i Hi) as (E1 & E2 & E3 & _). apply udp_receive_done in X. cbn [u_socket] in X. rewrite E1, E3 in X. exact X.
Qed.
Print Assumptions C122_udp_receive.

Theorem C122_raw_write : forall fuel d tr n, exec (raw_write_frame fuel (mkRaw (socket_new 0)) d) tr (Done (Ok n)) -> raw_write_traffic d n tr.
Proof.
  intros fuel d tr n X. apply raw_write_done in X as (f & p & l & c & Lf & Lp & En & X & B & N). exists f, p, l, c. repeat (split; [assumption|]). split; [|auto].
  pose proof (from_be_lt p Lp) as Hp. assert (Es : (from_be p + n) mod 65536 = if n =? 0 then from_be p else wadd16 (from_be p) n).
  { destruct (N.eqb_spec n 0) as [->|]; [rewrite N.add_0_r; now apply N.mod_small|reflexivity]. }
  rewrite Es. exact X.
Qed.
Print Assumptions C122_raw_write.

Theorem C122_udp_send : forall fuel i dst port r d tr u' x, i < 8 -> exec (udp_send_to fuel (mkUdp (socket_new i) dst port) (V4 r) d) tr (Done (u', Ok x)) ->
  u' = mkUdp (socket_new i) (Some r) port /\ udp_send_traffic i dst r d tr.
Proof.
  intros fuel i dst port r d tr u' x Hi X. destruct (socket_blocks i Hi) as (E1 & E2 & _). unfold udp_send_to, udp_send_to_v4 in X.
  apply exec_bind_done in X as (t1 & [u0 r0] & t2 & -> & X1 & X). cbn [fst snd] in X. destruct r0 as [[]|e]; [|apply ret_on in X as [_ X]; discriminate X].
  apply exec_bind_done in X as (t3 & r1 & t4 & -> & X2 & X). apply ret_on in X as [-> [= -> <-]]. rewrite app_nil_r.
  assert (K : u0 = mkUdp (socket_new i) (Some r) port /\ (dst = Some r /\ t1 = [] \/
   dst <> Some r /\ t1 = [EWrite (4 * i + 1) 0x0c [ip0 (a_ip r); ip1 (a_ip r); ip2 (a_ip r); ip3 (a_ip r)] (Ok tt); EWrite (4 * i + 1) 0x10 (to_be (a_port r)) (Ok tt)])).
  { unfold udp_set_destination in X1. cbn [u_dest u_socket u_port] in X1. destruct (match dst with Some _ => _ | None => true end) eqn:E in X1.
    - unfold set_destination_ip, set_destination_port in X1. do 2 wr X1. apply ret_on in X1 as [-> [= ->]]. split; [reflexivity|]. right. split.
      + intros ->. rewrite (proj2 (addr4_eqb_eq r r) eq_refl) in E. discriminate E.
      + rewrite E1. reflexivity.
    - apply ret_on in X1 as [-> [= ->]]. destruct dst as [a|]; [|discriminate E]. apply Bool.negb_false_iff, addr4_eqb_eq in E. subst a. auto. }
  destruct K as (-> & K). split; [reflexivity|]. apply udp_send_done in X2 as (f & rest & Lf & F0 & -> & S). cbn [u_socket] in S. rewrite E1, E2 in S.
  exists t1, f, rest. split; [exact Lf|]. split; [exact F0|]. split; [cbn [u_socket]; rewrite E1; reflexivity|]. split; [exact K|]. apply sending_datagrams. exact S.
Qed.
Print Assumptions C122_udp_send.

(** ** Cases: a send of five bytes into three free ones, across the end of the 16-bit pointer, told to
    wait once; a receive whose size changes between two readings; a connect to a socket in use that
    the peer refuses; a datagram of two bytes, for which three are copied and answered; a send in
    two datagrams; a frame. *)
Example C122_case_tcp : exists t1 t2 t3,
  exec (tcp_send 9 (mkTcp (socket_new 2)) [x01; x02; x03; x04; x05]) t1 (Done (Ok 3)) /\ In (EWrite 10 0xfffe [x01; x02; x03] (Ok tt)) t1 /\ In (EWrite 9 0x24 [x00; x01] (Ok tt)) t1 /\
  exec (tcp_receive 9 (mkTcp (socket_new 2)) [x00; x00; x00]) t2 (Done ([x07; x08; x00], Ok 2)) /\
  exec (tcp_connect 9 (mkTcp (socket_new 2)) (V4 (Addr4 (Ip4 x0a x00 x00 x02) 80))) t3 (Done (Ok tt)) /\ length t3 = 26%nat.
Proof.
  do 3 eexists. split.
  { apply (replay_eq _ [([x17], Ok tt); ([x00; x03], Ok tt); ([xff; xfe], Ok tt); ([], Ok tt); ([], Ok tt); ([], Ok tt); ([x00], Ok tt); ([x10], Ok tt); ([], Ok tt)]). vm_compute. reflexivity. }
  split; [cbn; auto 10|]. split; [cbn; auto 10|]. split.
  { apply (replay_eq _ [([x17], Ok tt); ([x04], Ok tt); ([x00; x01], Ok tt); ([x00; x02], Ok tt); ([x00; x02], Ok tt); ([x00; x02], Ok tt); ([x00; x09], Ok tt); ([x07; x08], Ok tt);
      ([], Ok tt); ([], Ok tt); ([], Ok tt)]). vm_compute. reflexivity. }
  split.
  { apply (replay_eq _ (repeat ([], Ok tt) 6 ++ [([x17], Ok tt)] ++ repeat ([], Ok tt) 7 ++ repeat ([], Ok tt) 3 ++ [([x15], Ok tt); ([x00], Ok tt)] ++ repeat ([], Ok tt) 7)). vm_compute. reflexivity. }
  reflexivity.
Qed.
Example C122_case_udp : exists t1 t2 t3,
  exec (udp_receive 9 (mkUdp (socket_new 1) None 68) [x00; x00; x00]) t1 (Done ([x0d; x0e; x0f], Ok (3, V4 (Addr4 (Ip4 x0a x00 x00 x02) 53)))) /\
  exec (udp_send_to 9 (mkUdp (socket_new 1) None 68) (V4 (Addr4 (Ip4 x0a x00 x00 x02) 53)) [x01; x02; x03]) t2
    (Done (mkUdp (socket_new 1) (Some (Addr4 (Ip4 x0a x00 x00 x02) 53)) 68, Ok tt)) /\
  In (EWrite 6 0 [x01; x02] (Ok tt)) t2 /\ In (EWrite 6 2 [x03] (Ok tt)) t2 /\
  exec (raw_write_frame 9 (mkRaw (socket_new 0)) [x01; x02]) t3 (Done (Ok 2)).
Proof.
  do 3 eexists. split.
  { apply (replay_eq _ [([x22], Ok tt); ([x04], Ok tt); ([x00; x0a], Ok tt); ([x00; x0a], Ok tt); ([x00; x09], Ok tt); ([x0a; x00; x00; x02; x00; x35; x00; x02], Ok tt); ([x0d; x0e; x0f], Ok tt);
      ([], Ok tt); ([], Ok tt); ([], Ok tt)]). vm_compute. reflexivity. }
  split.
  { apply (replay_eq _ ([([], Ok tt); ([], Ok tt); ([x22], Ok tt); ([x00; x02], Ok tt)] ++
      [([x22], Ok tt); ([x00; x02], Ok tt); ([x00; x00], Ok tt); ([], Ok tt); ([], Ok tt); ([], Ok tt); ([x00; x00], Ok tt); ([x00; x02], Ok tt); ([x00; x02], Ok tt); ([x00; x02], Ok tt);
       ([x10], Ok tt); ([], Ok tt); ([x00; x02], Ok tt)] ++
      [([x22], Ok tt); ([x00; x02], Ok tt); ([x00; x02], Ok tt); ([], Ok tt); ([], Ok tt); ([], Ok tt); ([x00; x03], Ok tt); ([x00; x03], Ok tt);
       ([x00], Ok tt); ([x00], Ok tt); ([x00; x02], Ok tt)])). vm_compute. reflexivity. }
  split; [cbn; auto 30|]. split; [cbn; auto 30|].
  apply (replay_eq _ [([], Ok tt); ([x00; x03], Ok tt); ([xff; xff], Ok tt); ([], Ok tt); ([], Ok tt); ([], Ok tt); ([x10], Ok tt)]). vm_compute. reflexivity.
Qed.
