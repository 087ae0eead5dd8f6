(** Properties C24, C28, C29, C34, C41, C48, C51, C52, C54: what single calls do, whatever the
    bus answers. *)
From Verif Require Import CallFacts RawExact TwoDeviceFacts.

(** C34 *)
Theorem C34_send_needs_established :
  forall i fuel data tr o, i < 8 ->
    exec (tcp_send fuel (mkTcp (socket_new i)) data) tr o -> o <> Cut ->
    (* the status is read first *)
    exists b q rest, tr = ERead (BSB_REG i) Sn_SR [b] q :: rest /\
      (* not Established: NotConnected, and that was the only access *)
      (q = Ok tt -> b2n b <> SOCK_ESTABLISHED -> rest = [] /\ o = Done (Err (NbOther TNotConnected))) /\
      (* NotConnected: only for that reason *)
      (o = Done (Err (NbOther TNotConnected)) -> q = Ok tt /\ b2n b <> SOCK_ESTABLISHED).
Proof. intros i fuel data tr o Hi X Hc. exact (tcp_send_gate i fuel data Hi tr o X Hc). Qed.
Print Assumptions C34_send_needs_established.
Example C34_case : exec (tcp_send 5 (mkTcp (socket_new 2)) [x41])
  [ERead 9 3 [x1c] (Ok tt)] (Done (Err (NbOther TNotConnected))).
Proof. apply (replay_eq _ [([x1c], Ok tt)]). reflexivity. Qed.
Example C34_case_connected : exists tr, exec (tcp_send 5 (mkTcp (socket_new 2)) [x41]) tr (Done (Ok 1)) /\ length tr = 8%nat.
Proof.
  eexists. split; [apply (replay_eq _ [([x17], Ok tt); ([x08; x00], Ok tt); ([x00; x00], Ok tt);
    ([], Ok tt); ([], Ok tt); ([], Ok tt); ([x10], Ok tt); ([], Ok tt)]); vm_compute; reflexivity|reflexivity].
Qed.

(** C41 *)
Theorem C41_receive_nothing :
  forall i fuel buf tr o, i < 8 ->
    exec (tcp_receive fuel (mkTcp (socket_new i)) buf) tr o -> o <> Cut ->
    exists b q rest, tr = ERead (BSB_REG i) Sn_SR [b] q :: rest /\
      (q = Ok tt -> b2n b <> SOCK_ESTABLISHED ->
         rest = [] /\ o = Done (buf, Err (NbOther TNotConnected))) /\
      ((exists buf', o = Done (buf', Err (NbOther TNotConnected))) ->
         q = Ok tt /\ b2n b <> SOCK_ESTABLISHED) /\
      (q = Ok tt -> b2n b = SOCK_ESTABLISHED ->
         exists f q2 rest2, rest = ERead (BSB_REG i) Sn_IR [f] q2 :: rest2 /\
           (q2 = Ok tt -> N.testbit (b2n f) 2 = false -> rest2 = [] /\ o = Done (buf, Ok 0))).
Proof. intros i fuel buf tr o Hi X Hc. exact (tcp_receive_gate i fuel buf Hi tr o X Hc). Qed.
Print Assumptions C41_receive_nothing.
Example C41_case : exec (tcp_receive 5 (mkTcp (socket_new 1)) [x41; x42])
  [ERead 5 3 [x17] (Ok tt); ERead 5 2 [x1b] (Ok tt)] (Done ([x41; x42], Ok 0)).
Proof. apply (replay_eq _ [([x17], Ok tt); ([x1b], Ok tt)]). reflexivity. Qed.

(** C48.  Full statement: in addition, nothing was written to the chip whenever one of these
    errors is returned.  False for buffers larger than the free space, which go out in several
    datagrams: the second one may meet the error. *)
Theorem C48_send_preconditions_partial :
  forall i fuel u buf tr o, i < 8 -> u_socket u = socket_new i ->
    exec (udp_send fuel u buf) tr o -> o <> Cut ->
    (exists b q rest, tr = ERead (BSB_REG i) Sn_SR [b] q :: rest /\
      (q = Ok tt -> b2n b <> SOCK_UDP -> known_status b ->
         rest = [] /\ o = Done (Err (NbOther USocketNotOpen))) /\
      (q = Ok tt -> ~ known_status b -> rest = [] /\ o = Done (Err (NbOther UUnrecognisedStatus))) /\
      (q = Ok tt -> b2n b = SOCK_UDP -> u_dest u = None ->
         rest = [] /\ o = Done (Err (NbOther UDestinationNotSet))) /\
      (q = Ok tt -> b2n b = SOCK_UDP -> u_dest u <> None ->
         exists w q2 rest2, rest = ERead (BSB_REG i) Sn_TX_FSR w q2 :: rest2 /\
           (q2 = Ok tt -> from_be w = 0 -> rest2 = [] /\ o = Done (Err (NbOther UBufferFull))))) /\
    (* conversely: the last access showed the reason, and nothing was written unless the free
       size was once read as smaller than the buffer *)
    (forall e, o = Done (Err (NbOther e)) ->
       match e with
       | USocketNotOpen => exists tr0 b, tr = tr0 ++ [ERead (BSB_REG i) Sn_SR [b] (Ok tt)] /\
                             known_status b /\ b2n b <> SOCK_UDP
       | UUnrecognisedStatus => exists tr0 b, tr = tr0 ++ [ERead (BSB_REG i) Sn_SR [b] (Ok tt)] /\
                                  ~ known_status b
       | UDestinationNotSet => u_dest u = None
       | UBufferFull => exists tr0 w, tr = tr0 ++ [ERead (BSB_REG i) Sn_TX_FSR w (Ok tt)] /\ from_be w = 0
       | _ => True
       end) /\
    (forall e, o = Done (Err (NbOther e)) ->
       In e [USocketNotOpen; UUnrecognisedStatus; UDestinationNotSet; UBufferFull] ->
       only_reads tr \/ exists w, In (ERead (BSB_REG i) Sn_TX_FSR w (Ok tt)) tr /\ from_be w < len buf).
Proof.
  intros i fuel u buf tr o Hi Hu X Hc. destruct (udp_send_gate i fuel u buf Hi Hu tr o X Hc) as [H1 H2].
  split; [exact H1|]. split.
  - intros e E. specialize (H2 e E). destruct e; try exact I; exact (proj1 (H2 I)).
  - intros e E Hin. refine (proj2 (H2 e E _)). cbn in Hin. destruct Hin as [<-|[<-|[<-|[<-|[]]]]]; exact I.
Qed.
Print Assumptions C48_send_preconditions_partial.
Example C48_case : exec (udp_send 5 (mkUdp (socket_new 1) (Some (Addr4 (Ip4 x0a x00 x00 x01) 53)) 7) [x41])
  [ERead 5 3 [x22] (Ok tt); ERead 5 32 [x00; x00] (Ok tt)] (Done (Err (NbOther UBufferFull))).
Proof. apply (replay_eq _ [([x22], Ok tt); ([x00; x00], Ok tt)]). reflexivity. Qed.

(** one datagram of two bytes is sent, then BufferFull is returned *)
Theorem C48_send_preconditions_refuted :
  exists u buf tr, exec (udp_send 5 u buf) tr (Done (Err (NbOther UBufferFull))) /\
    In (EWrite (BSB_REG 0) Sn_CR [u8 CR_SEND] (Ok tt)) tr.
Proof.
  exists (mkUdp (socket_new 0) (Some (Addr4 (Ip4 x0a x00 x00 x01) 53)) 7), [x41; x42; x43].
  eexists. split.
  - apply (replay_eq _ [([x22], Ok tt); ([x00; x02], Ok tt); ([x22], Ok tt); ([x00; x02], Ok tt);
      ([x00; x00], Ok tt); ([], Ok tt); ([], Ok tt); ([], Ok tt); ([x00; x02], Ok tt); ([x00; x02], Ok tt);
      ([x10], Ok tt); ([], Ok tt); ([x00; x00], Ok tt); ([x22], Ok tt); ([x00; x00], Ok tt)]).
    vm_compute. reflexivity.
  - cbn. tauto.
Qed.
Print Assumptions C48_send_preconditions_refuted.

(** C52: [size_reads] is the received-size loop: reads of Sn_RX_RSR in pairs until two agree on [w] *)
Theorem C52_receive_preconditions :
  forall i fuel u buf tr o, i < 8 -> u_socket u = socket_new i ->
    exec (udp_receive fuel u buf) tr o -> o <> Cut ->
    (* when each error is returned *)
    (exists b q rest, tr = ERead (BSB_REG i) Sn_SR [b] q :: rest /\
      (q = Ok tt -> b2n b <> SOCK_UDP -> known_status b ->
         rest = [] /\ o = Done (buf, Err (NbOther USocketNotOpen))) /\
      (q = Ok tt -> ~ known_status b -> rest = [] /\ o = Done (buf, Err (NbOther UUnrecognisedStatus))) /\
      (q = Ok tt -> b2n b = SOCK_UDP ->
         exists f q2 rest2, rest = ERead (BSB_REG i) Sn_IR [f] q2 :: rest2 /\
           (q2 = Ok tt -> N.testbit (b2n f) 2 = false -> rest2 = [] /\ o = Done (buf, Err WouldBlock)) /\
           (q2 = Ok tt -> N.testbit (b2n f) 2 = true ->
              forall l w rest3, differing l -> length w = 2%nat -> rest2 = size_reads (BSB_REG i) l w ++ rest3 ->
                (from_be w = 0 -> rest3 = [] /\ o = Done (buf, Err WouldBlock)) /\
                (from_be w <> 0 -> buf = [] -> rest3 = [] /\ o = Done (buf, Err (NbOther UBufferOverflow)))))) /\
    (* and what each error means; in particular nothing was written, the buffer is untouched *)
    (forall buf' x, o = Done (buf', Err x) ->
       match x with
       | NbOther USocketNotOpen =>
           buf' = buf /\ exists b, tr = [ERead (BSB_REG i) Sn_SR [b] (Ok tt)] /\ known_status b /\ b2n b <> SOCK_UDP
       | NbOther UUnrecognisedStatus =>
           buf' = buf /\ exists b, tr = [ERead (BSB_REG i) Sn_SR [b] (Ok tt)] /\ ~ known_status b
       | WouldBlock =>
           buf' = buf /\ exists b f, b2n b = SOCK_UDP /\
             ((tr = [ERead (BSB_REG i) Sn_SR [b] (Ok tt); ERead (BSB_REG i) Sn_IR [f] (Ok tt)] /\
               N.testbit (b2n f) 2 = false) \/
              (N.testbit (b2n f) 2 = true /\ exists l w, differing l /\ length w = 2%nat /\ from_be w = 0 /\
                 tr = [ERead (BSB_REG i) Sn_SR [b] (Ok tt); ERead (BSB_REG i) Sn_IR [f] (Ok tt)]
                        ++ size_reads (BSB_REG i) l w))
       | NbOther UBufferOverflow =>
           buf' = buf /\ buf = [] /\ exists b f l w, b2n b = SOCK_UDP /\ N.testbit (b2n f) 2 = true /\
             differing l /\ length w = 2%nat /\ from_be w <> 0 /\
             tr = [ERead (BSB_REG i) Sn_SR [b] (Ok tt); ERead (BSB_REG i) Sn_IR [f] (Ok tt)]
                    ++ size_reads (BSB_REG i) l w
       | NbOther (UOther _) => True
       | NbOther _ => False
       end).
Proof.
  intros i fuel u buf tr o Hi Hu X Hc. split.
  - exact (udp_receive_refuses i fuel u buf Hi Hu tr o X Hc).
  - intros buf' x ->. exact (urecv_refusal _ _ _ _ _ (udp_receive_cases i fuel u buf Hi Hu tr _ X Hc)).
Qed.
Print Assumptions C52_receive_preconditions.
Example C52_case : exec (udp_receive 5 (udp_new (socket_new 1)) [])
  [ERead 5 3 [x22] (Ok tt); ERead 5 2 [x04] (Ok tt); ERead 5 38 [x00; x10] (Ok tt); ERead 5 38 [x00; x20] (Ok tt);
   ERead 5 38 [x00; x20] (Ok tt); ERead 5 38 [x00; x20] (Ok tt)] (Done ([], Err (NbOther UBufferOverflow))).
Proof.
  apply (replay_eq _ [([x22], Ok tt); ([x04], Ok tt); ([x00; x10], Ok tt); ([x00; x20], Ok tt);
    ([x00; x20], Ok tt); ([x00; x20], Ok tt)]). reflexivity.
Qed.

(** C24 *)
Theorem C24_would_block :
  forall fuel ho ops tr0 a outs, program fuel ho ops tr0 a outs ->
  forall o tr a' r, exec (step fuel a o) tr (Done (a', r)) -> out_would_block r ->
    exists h buf u i, o = OpUdpReceive h buf /\ lookup h (handles a) = Some (HUdp u) /\ i = index (u_socket u) /\
      r = RUdpReceive buf (Err WouldBlock) /\ a' = a /\
      (* nothing was written *)
      only_reads tr /\
      (* and the last access showed no received datagram *)
      ((exists tr1 f, tr = tr1 ++ [ERead (BSB_REG i) Sn_IR [f] (Ok tt)] /\ N.testbit (b2n f) 2 = false) \/
       (exists tr1 w, tr = tr1 ++ [ERead (BSB_REG i) Sn_RX_RSR w (Ok tt)] /\ from_be w = 0)).
Proof.
  intros fuel ho ops tr0 a outs P o tr a' r X W. destruct (program_inv _ _ _ _ _ _ P) as (I & _).
  destruct (exec_step_post _ _ _ _ _ I X) as (_ & _ & HW & _). destruct (HW W) as (h & buf & ->). clear HW.
  cbn [step] in X. destruct (lookup h (handles a)) as [[s|t|u]|] eqn:L;
    try (apply exec_Ret_inv in X as [_ [X|X]]; [injection X as -> ->; destruct W|discriminate]).
  apply exec_map in X as ([buf' q] & X & E). injection E as -> ->. cbn [fst snd] in *. cbn in W. subst q.
  destruct (pi_lookup _ _ _ I L) as (i & Hi & E & _). cbn [handle_socket] in E.
  exists h, buf, u, i. split; [reflexivity|]. split; [exact L|]. split; [now rewrite E|].
  destruct (C52_receive_preconditions i fuel u buf tr _ Hi E X ltac:(discriminate)) as (_ & H).
  destruct (H buf' _ eq_refl) as (-> & b & f & Hb & Hc). split; [reflexivity|]. split; [reflexivity|].
  destruct Hc as [[-> Hf]|(Hf & l & w & D & Lw & Hw & ->)].
  - split; [auto|]. left. exists [ERead (BSB_REG i) Sn_SR [b] (Ok tt)], f. auto.
  - split; [cbn [List.app]; auto using only_reads_size|]. right. unfold size_reads.
    exists (ERead (BSB_REG i) Sn_SR [b] (Ok tt) :: ERead (BSB_REG i) Sn_IR [f] (Ok tt)
      :: flat_map (fun p => [ERead (BSB_REG i) Sn_RX_RSR (fst p) (Ok tt); ERead (BSB_REG i) Sn_RX_RSR (snd p) (Ok tt)]) l
      ++ [ERead (BSB_REG i) Sn_RX_RSR w (Ok tt)]), w.
    split; [|exact Hw]. cbn [List.app]. rewrite <- app_assoc. reflexivity.
Qed.
Print Assumptions C24_would_block.
Example C24_case : exists a outs tr,
  program 5 Dhcp [OpUdpSocket] [] a outs /\
  exec (step 5 a (OpUdpReceive 0 [x41])) tr (Done (a, RUdpReceive [x41] (Err WouldBlock))).
Proof.
  destruct (replay (run_ops 5 (app_new Dhcp) [OpUdpSocket]) []) as [tr o] eqn:E.
  pose proof (replay_eq _ _ _ _ E) as X. vm_compute in E. injection E as <- <-.
  match type of X with exec _ _ (Done (?a, _)) => set (a0 := a) in * end.
  eexists _, _, _. split; [exact X|].
  apply (replay_eq _ [([x22], Ok tt); ([x00], Ok tt)]). vm_compute. reflexivity.
Qed.

(** C51.  Full statement: receive never panics.  Refuted by [C51_receive_panics_refuted].  The
    exact condition: the length in the datagram's header exceeds the buffer. *)
Theorem C51_receive_panics_partial :
  forall i fuel u buf tr s, i < 8 -> u_socket u = socket_new i ->
    exec (udp_receive fuel u buf) tr (Panicked s) ->
    exists tr1 h, length h = 8%nat /\
      (exists p, tr = tr1 ++ [ERead (BSB_REG i) Sn_RX_RD p (Ok tt); ERead (BSB_RX i) (from_be p) h (Ok tt)]) /\
      len buf < from_be [nth 6 h x00; nth 7 h x00].
Proof.
  intros i fuel u buf tr s Hi Hu X.
  pose proof (udp_receive_cases i fuel u buf Hi Hu tr _ X ltac:(discriminate)) as C. inversion C; subst.
  exists ([ERead (BSB_REG i) Sn_SR [b] (Ok tt); ERead (BSB_REG i) Sn_IR [f] (Ok tt)] ++ size_reads (BSB_REG i) l w), h.
  split; [assumption|]. split; [|assumption]. exists p. now rewrite <- app_assoc.
Qed.
Print Assumptions C51_receive_panics_partial.
Example C51_case : exists tr s, exec (udp_receive 5 (udp_new (socket_new 1)) [x00; x00]) tr (Panicked s).
Proof.
  eexists _, _. apply (replay_eq _ [([x22], Ok tt); ([x04], Ok tt); ([x00; x0b], Ok tt); ([x00; x0b], Ok tt);
    ([x00; x00], Ok tt); ([x0a; x00; x00; x01; x00; x35; x00; x03], Ok tt)]). vm_compute. reflexivity.
Qed.

(** C54: [within base n ev]: reads stay within the [n] received bytes from [base], and the read
    pointer is moved by at most [n] *)
Theorem C54_raw_read_bounds :
  forall fuel frame tr o,
    exec (raw_read_frame fuel (mkRaw (socket_new 0)) frame) tr o -> o <> Cut ->
    (* the caller's buffer: nothing behind the reported bytes changes *)
    match o with
    | Done (frame', r) => length frame' = length frame /\
        match r with Ok m => m <= len frame /\ drop m frame' = drop m frame | Err _ => True end
    | _ => True
    end /\
    ((* bus error or endless loop before the received size was known *)
     (only_reads tr /\ (o = Looping \/ exists e, o = Done (frame, Err e))) \/
     (* [w] is the received size, [p] the read pointer *)
     exists l w p rest, differing l /\ length w = 2%nat /\ length p = 2%nat /\
       tr = size_reads (BSB_REG 0) l w ++ ERead (BSB_REG 0) Sn_RX_RD p (Ok tt) :: rest /\
       Forall (fun ev => match ev with
         | ERead b a got _ => b = BSB_RX 0 /\
             exists off, a = (from_be p + off) mod 65536 /\ off + len got <= from_be w
         | EWrite b a d _ => b = BSB_REG 0 /\
             ((a = Sn_RX_RD /\ exists k, k <= from_be w /\ d = to_be ((from_be p + k) mod 65536)) \/
              (a = Sn_CR /\ d = [u8 CR_RECV]))
         end) rest /\
       (from_be w = 0 -> rest = [] /\ o = Done (frame, Ok 0)) /\
       (forall s, o = Panicked s -> from_be w = 1)).
Proof. intros fuel frame tr o X Hc. exact (raw_read_bounds fuel frame tr o X Hc). Qed.
Print Assumptions C54_raw_read_bounds.
(** a five-byte record of which three payload bytes fit nowhere near the four-byte buffer *)
Example C54_case : exists tr, exec (raw_read_frame 5 (mkRaw (socket_new 0)) [x00; x00; x00; x09]) tr
  (Done ([x01; x02; x03; x09], Ok 3)) /\ length tr = 7%nat.
Proof.
  eexists. split; [apply (replay_eq _ [([x00; x05], Ok tt); ([x00; x05], Ok tt); ([xff; xfe], Ok tt);
    ([x00; x05], Ok tt); ([x01; x02; x03], Ok tt); ([], Ok tt); ([], Ok tt)]); vm_compute; reflexivity|reflexivity].
Qed.

(** A read_frame that succeeds, access by access.  [w] is the received size, [p] the read pointer,
    [h] the length field of the record, which counts its own two bytes; a record said to be longer
    than what was received is cut there.  What does not fit into the caller's buffer is skipped.
    A length field below two takes only itself. *)
Theorem C54_raw_read_exact :
  forall fuel frame tr frame' m,
    exec (raw_read_frame fuel (mkRaw (socket_new 0)) frame) tr (Done (frame', Ok m)) ->
    exists l w p rest, differing l /\ length w = 2%nat /\ length p = 2%nat /\
      tr = size_reads (BSB_REG 0) l w ++ ERead (BSB_REG 0) Sn_RX_RD p (Ok tt) :: rest /\
      (from_be w = 0 /\ rest = [] /\ frame' = frame /\ m = 0 \/
       exists h got, length h = 2%nat /\ 2 <= from_be w /\
         let body := if from_be h <? 2 then 0 else from_be h - 2 in
         let held := from_be w - 2 in
         m = N.min body (N.min held (len frame)) /\ len got = m /\ frame' = got ++ drop m frame /\
         rest = ERead (BSB_RX 0) (from_be p) h (Ok tt) ::
           (if (body =? 0) || (len frame =? 0) then [] else [ERead (BSB_RX 0) ((from_be p + 2) mod 65536) got (Ok tt)]) ++
           [EWrite (BSB_REG 0) Sn_RX_RD (to_be ((from_be p + 2 + N.min body held) mod 65536)) (Ok tt);
            EWrite (BSB_REG 0) Sn_CR [u8 CR_RECV] (Ok tt)]).
Proof.
  intros fuel frame tr frame' m X. destruct (raw_read_exact fuel frame tr _ X ltac:(discriminate) frame' m eq_refl) as (l & w & p & rest & D & Lw & Lp & E & H).
  exists l, w, p, rest. repeat (split; [assumption|]). destruct H as [H|(h & got & Lh & L & H)]; [now left|right].
  exists h, got. split; [exact Lh|]. split; [exact L|]. destruct (N.ltb_spec (from_be h) 2) as [Hl|Hl]; [|exact H].
  replace (from_be h - 2) with 0 in H by lia. exact H.
Qed.
Print Assumptions C54_raw_read_exact.
(** a length field of one: the record is nothing but its length field *)
Example C54_case_short : exists tr, exec (raw_read_frame 5 (mkRaw (socket_new 0)) [x00; x00; x00; x09]) tr
  (Done ([x00; x00; x00; x09], Ok 0)) /\ In (EWrite (BSB_REG 0) Sn_RX_RD [x00; x00] (Ok tt)) tr.
Proof.
  eexists. split; [apply (replay_eq _ [([x00; x05], Ok tt); ([x00; x05], Ok tt); ([xff; xfe], Ok tt);
    ([x00; x01], Ok tt); ([], Ok tt); ([], Ok tt)]); vm_compute; reflexivity|]. cbn. auto 10.
Qed.

(** C28 *)
Theorem C28_version_check :
  (forall h m tr o, exec (initialize_with_host true h m) tr o -> o <> Cut ->
     exists v q rest, tr = ERead BSB_COMMON VERSIONR [v] q :: rest /\
       (q = Ok tt -> b2n v <> 4 -> rest = [] /\ o = Done (Err ChipNotConnected)) /\
       (o = Done (Err ChipNotConnected) -> q = Ok tt /\ b2n v <> 4)) /\
  (forall h m tr, ~ exec (initialize_with_host false h m) tr (Done (Err ChipNotConnected))) /\
  (* the three public functions *)
  (forall chk mc m, initialize chk mc m = initialize_with_host chk (dhcp_new mc) m) /\
  (forall chk mc ip m, exists g s, initialize_manual chk mc ip m
     = initialize_with_host chk (manual_new mc ip g s) m) /\
  (forall chk mc ip g s m, initialize_advanced chk mc ip g s m
     = initialize_with_host chk (manual_new mc ip g s) m).
Proof.
  split; [|split; [|split; [|split]]].
  - intros h m tr o X Hc. exact (proj1 (init_version_check h m) tr o X Hc).
  - intros h m tr X. exact (proj2 (init_version_check h m) tr _ X ltac:(discriminate) eq_refl).
  - reflexivity.
  - intros. eexists _, _. reflexivity.
  - reflexivity.
Qed.
Print Assumptions C28_version_check.
Example C28_case : exec (initialize true (Mac x02 x00 x00 x00 x00 x01) (mkMode WolIgnore PingRespond CtEthernet ArpDropAfterUse))
  [ERead 0 57 [xff] (Ok tt)] (Done (Err ChipNotConnected)).
Proof. apply (replay_eq _ [([xff], Ok tt)]). reflexivity. Qed.

(** C29: any number of refresh calls on a Manual host, with bus errors anywhere.  The effect on
    the chip is [C29_refresh_chip]. *)
Theorem C29_refresh :
  forall n want cur tr o,
    exec (refreshes n (Manual false want cur)) tr o -> o <> Cut ->
    exists h rs, o = Done (h, rs) /\ Forall (fun ev => is_write ev = true) tr /\
    ((* all failed so far: a prefix of the differing settings was written, the rest is pending *)
     (exists cur', h = Manual false want cur' /\ (forall r, In r rs -> exists e, r = Err e) /\
        length rs = n /\ pending cur want = successful tr ++ pending cur' want) \/
     (* one succeeded: every differing setting was written, once and in order; nothing after that *)
     (exists es k, h = Manual true want want /\ rs = map Err es ++ Ok tt :: repeat (Ok tt) k /\
        successful tr = pending cur want)).
Proof. intros n want cur tr o X Hc. exact (refreshes_spec n want cur tr o X Hc). Qed.
Print Assumptions C29_refresh.
(** the second register write fails; the next call resumes there; the third does nothing *)
Definition want0 : HostConfig :=
  mkHC (Mac x02 x00 x00 x00 x00 x01) (Ip4 x0a x00 x00 x02) (Ip4 x0a x00 x00 x01) (Ip4 xff xff xff x00).
Example C29_case : exists tr,
  exec (refreshes 3 (Manual false want0 hc_default)) tr (Done (Manual true want0 want0, [Err 9; Ok tt; Ok tt])) /\
  map fst (successful tr) = [GAR; SUBR; SHAR; SIPR] /\ length tr = 5%nat.
Proof.
  eexists. split; [apply (replay_eq _ [([], Ok tt); ([], Err 9); ([], Ok tt); ([], Ok tt); ([], Ok tt)]);
    vm_compute; reflexivity|split; reflexivity].
Qed.
