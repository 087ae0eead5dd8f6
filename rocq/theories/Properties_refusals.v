(** C100: a call that is refused has no effect, and calls are refused when they should be. *)
From Verif Require Import Refusals ExecFacts.

(** Claim: a call that answers an error of its own (not the bus's and not a timeout of the network)
    has done nothing.  That holds of every call (no write on the bus, the program's device and
    handles as before, the caller's buffer untouched) with three exceptions, shown below:
    - connect answers UnsupportedMode after it has closed, configured and opened the socket;
    - UDP send with more data than the free size answered: the batches before were sent;
    - send_to a new remote: the destination was written, to the chip and the handle. *)
Theorem C100_no_effect_partial :
  forall fuel ho ops tr0 a outs, program fuel ho ops tr0 a outs ->
  forall o tr a' r, exec (step fuel a o) tr (Done (a', r)) -> refused r = true ->
  r <> RTcpConnect (Err (NbOther TUnsupportedMode)) ->
  (forall h u d, lookup h (handles a) = Some (HUdp u) ->
     (o = OpUdpSend h d \/ exists q, o = OpUdpSendTo h (V4 q) d) ->
     (forall b got, In (ERead b 0x20 got (Ok tt)) tr -> b = 4 * index (u_socket u) + 1 -> len d <= from_be got) /\
     (forall q, o = OpUdpSendTo h (V4 q) d -> u_dest u = Some q)) ->
  Forall (fun e => is_write e = false) tr /\ a' = a /\
  (forall h b, o = OpTcpReceive h b -> forall b' x, r = RTcpReceive b' x -> b' = b) /\
  (forall h b, o = OpUdpReceive h b -> forall b' x, r = RUdpReceive b' x -> b' = b).
Proof.
  intros fuel ho ops tr0 a outs P o tr a' r X Rf NM Room. destruct (program_inv _ _ _ _ _ _ P) as (PI & _). clear P.
  assert (NW : forall l, existsb is_write l = false -> Forall (fun e => is_write e = false) l).
  { induction l as [|e l IH]; cbn [existsb]; intros H; constructor; apply orb_false_iff in H as [H1 H2]; auto. }
  assert (All : forall j l, Forall (roomy j 0) l).
  { intros j l. apply Forall_forall. intros [b ad got [[]|e]|] _; cbn; auto. intros _ _. lia. }
  assert (R0 : forall x, exec (Ret x) tr (Done (a', r)) -> tr = [] /\ x = (a', r)).
  { intros x Y. apply exec_Ret_inv in Y as [-> [Y|Y]]; [injection Y as ->; auto|discriminate]. }
  assert (Nil : tr = [] -> a' = a -> (forall b x, r <> RTcpReceive b x) -> (forall b x, r <> RUdpReceive b x) ->
    Forall (fun e => is_write e = false) tr /\ a' = a /\ (forall h b, o = OpTcpReceive h b -> forall b' x, r = RTcpReceive b' x -> b' = b) /\
    (forall h b, o = OpUdpReceive h b -> forall b' x, r = RUdpReceive b' x -> b' = b)).
  { intros -> -> N1 N2. split; [constructor|]. split; [reflexivity|]. split; intros; subst; exfalso; [eapply N1|eapply N2]; reflexivity. }
  assert (Rd : Forall (fun e => is_write e = false) tr -> a' = a -> (forall b x, r <> RTcpReceive b x) -> (forall b x, r <> RUdpReceive b x) ->
    Forall (fun e => is_write e = false) tr /\ a' = a /\ (forall h b, o = OpTcpReceive h b -> forall b' x, r = RTcpReceive b' x -> b' = b) /\
    (forall h b, o = OpUdpReceive h b -> forall b' x, r = RUdpReceive b' x -> b' = b)).
  { intros F -> N1 N2. split; [exact F|]. split; [reflexivity|]. split; intros; subst; exfalso; [eapply N1|eapply N2]; reflexivity. }
  destruct o; cbn [step] in X.
  1: { unfold take_socket in X. destruct (first_free _ _); apply R0 in X as [-> X]; injection X as <- <-; [discriminate Rf|]. apply Nil; auto; [apply app_eta|discriminate..]. }
  2: { unfold tcp_socket, take_socket in X. destruct (first_free _ _); apply R0 in X as [-> X]; injection X as <- <-; [discriminate Rf|]. apply Nil; auto; [apply app_eta|discriminate..]. }
  6: { unfold udp_socket, take_socket in X. destruct (first_free _ _); apply R0 in X as [-> X]; injection X as <- <-; [discriminate Rf|]. apply Nil; auto; [apply app_eta|discriminate..]. }
  all: try match type of X with context [lookup ?k _] => destruct (lookup k (handles a)) as [[s|t|u]|] eqn:L end.
  all: try (apply R0 in X as [-> X]; injection X as <- <-; discriminate Rf).
  1: { destruct (release_socket _ _); [|inversion X]. apply R0 in X as [-> X]; injection X as <- <-; discriminate Rf. }
  all: apply exec_bind_done in X as (tr1 & x & tr2 & -> & X & X2);
    (apply exec_Ret_inv in X2 as [-> [X2|X2]]; [injection X2 as -> ->|discriminate]); rewrite app_nil_r in *; cbn [refused] in Rf.
  - (* connect *) destruct remote as [q|].
    + pose proof (ne_exec 0 0 _ _ _ _ X false (nb_tconnect 0 0 fuel t q false) (All _ _)) as K. cbn beta iota in K.
      exfalso. apply NM. rewrite K; [reflexivity|]. destruct x as [y|[|y]]; exact Rf.
    + apply exec_Ret_inv in X as [-> [X|X]]; [|discriminate]. apply Nil; auto; discriminate.
  - (* send *) destruct (pi_lookup _ _ _ PI L) as (i & Hi & E & _). destruct t as [so]. cbn [handle_socket t_socket] in E. subst so.
    pose proof (ne_exec i 0 _ _ _ _ X false (ne_tcp_send i 0 fuel d) (All _ _)) as K. cbn beta iota in K.
    apply Rd; try discriminate; [|reflexivity]. apply NW. apply K. destruct x as [y|[|y]]; exact Rf.
  - (* receive *) destruct (pi_lookup _ _ _ PI L) as (i & Hi & E & _). destruct t as [so]. cbn [handle_socket t_socket] in E. subst so.
    pose proof (ne_exec i 0 _ _ _ _ X false (ne_tcp_receive i 0 fuel buf) (All _ _)) as K. cbn beta iota in K.
    destruct K as [K1 K2]; [destruct x as [b [y|[|y]]]; exact Rf|]. split; [apply NW; exact K1|]. split; [reflexivity|]. split; [|discriminate].
    intros h' b [= <- <-] b' y [= <- <-]. exact K2.
  - (* close *) pose proof (ne_exec 0 0 _ _ _ _ X false (nb_tclose 0 0 (dev a) t false) (All _ _)) as K. cbn beta iota in K.
    destruct x as [b [y|y]]; cbn [snd tt_refused] in *; congruence.
  - destruct remote as [q|].
    + pose proof (ne_exec 0 0 _ _ _ _ X false (nb_connect 0 0 u q false) (All _ _)) as K. cbn beta iota in K.
      destruct x as [b [y|y]]; cbn [snd uu_refused] in *; congruence.
    + apply exec_Ret_inv in X as [-> [X|X]]; [injection X as ->|discriminate]. cbn [fst snd]. apply Nil; auto; [now apply put_same|discriminate..].
  - pose proof (ne_exec 0 0 _ _ _ _ X false (nb_bind 0 0 u port false) (All _ _)) as K. cbn beta iota in K.
    destruct x as [b [y|y]]; cbn [snd uu_refused] in *; congruence.
  - (* udp send *) destruct (pi_lookup _ _ _ PI L) as (i & Hi & E & _). destruct (Room h u d L (or_introl eq_refl)) as [Rm _].
    destruct u as [so de po]. cbn [handle_socket u_socket] in E, Rm. subst so.
    assert (F : Forall (roomy i (len d)) tr1).
    { apply Forall_forall. intros [b ad got [[]|e]|] Hin; cbn; auto. intros -> ->. exact (Rm _ got Hin eq_refl). }
    pose proof (ne_exec i (len d) _ _ _ _ X false (ne_udp_all i (len d) Hi de po fuel d eq_refl) F) as K. cbn beta iota in K.
    apply Rd; try discriminate; [|reflexivity]. apply NW. apply K. destruct x as [y|[|y]]; exact Rf.
  - (* send_to *) destruct remote as [q|].
    + destruct (pi_lookup _ _ _ PI L) as (i & Hi & E & _). destruct (Room h u d L (or_intror (ex_intro _ q eq_refl))) as [Rm Dst]. specialize (Dst q eq_refl).
      destruct u as [so de po]. cbn [handle_socket u_socket u_dest] in E, Rm, Dst. subst so de.
      unfold udp_send_to, udp_send_to_v4, udp_set_destination in X. cbn [u_dest] in X.
      assert (Q : addr4_eqb q q = true) by (now apply ValueFacts.addr4_eqb_eq). rewrite Q in X. cbn [negb bind fst snd] in X.
      apply exec_bind_done in X as (tr3 & y & tr4 & -> & X & X2).
      apply exec_Ret_inv in X2 as [-> [X2|X2]]; [injection X2 as ->|discriminate]. rewrite app_nil_r in *. cbn [fst snd] in *.
      assert (F : Forall (roomy i (len d)) tr3).
      { apply Forall_forall. intros [b ad got [[]|e]|] Hin; cbn; auto. intros -> ->. exact (Rm _ got Hin eq_refl). }
      pose proof (ne_exec i (len d) _ _ _ _ X false (ne_udp_all i (len d) Hi (Some q) po fuel d eq_refl) F) as K. cbn beta iota in K.
      apply Rd; try discriminate; [|now apply put_same]. apply NW. apply K. destruct y as [y|[|y]]; exact Rf.
    + apply exec_Ret_inv in X as [-> [X|X]]; [injection X as ->|discriminate]. cbn [fst snd]. apply Nil; auto; [now apply put_same|discriminate..].
  - (* udp receive *) destruct (pi_lookup _ _ _ PI L) as (i & Hi & E & _). destruct u as [so de po]. cbn [handle_socket u_socket] in E. subst so.
    pose proof (ne_exec i 0 _ _ _ _ X false (ne_udp_receive i 0 de po fuel buf) (All _ _)) as K. cbn beta iota in K.
    destruct K as [K1 K2]; [destruct x as [b [y|[|y]]]; exact Rf|]. split; [apply NW; exact K1|]. split; [reflexivity|]. split; [discriminate|].
    intros h' b [= <- <-] b' y [= <- <-]. exact K2.
  - pose proof (ne_exec 0 0 _ _ _ _ X false (nb_uclose 0 0 (dev a) u false) (All _ _)) as K. cbn beta iota in K.
    destruct x as [b [y|y]]; cbn [snd uu_refused] in *; congruence.
  - destruct x; discriminate Rf.
  - pose proof (ne_exec 0 0 _ _ _ _ X false (nb_port 0 0 u port false) (All _ _)) as K. cbn beta iota in K.
    destruct x as [b [y|y]]; cbn [snd uu_refused] in *; congruence.
  - destruct x; discriminate Rf.
Qed.
Print Assumptions C100_no_effect_partial.
(** two bound sockets, TCP and UDP, nothing to read: the calls are refused after one or two reads *)
Example C100_case : exists tr0 a outs, program 5 Dhcp [OpTcpSocket; OpUdpSocket; OpUdpBind 1 53] tr0 a outs /\
  exec (step 5 a (OpTcpSend 0 [x41])) [ERead 1 3 [x1c] (Ok tt)] (Done (a, RTcpSend (Err (NbOther TNotConnected)))) /\
  exec (step 5 a (OpUdpReceive 1 [x41; x42])) [ERead 5 3 [x22] (Ok tt); ERead 5 2 [x00] (Ok tt)]
    (Done (a, RUdpReceive [x41; x42] (Err WouldBlock))) /\
  exec (step 5 a (OpUdpSend 1 [x41])) [ERead 5 3 [x22] (Ok tt)] (Done (a, RUdpSend (Err (NbOther UDestinationNotSet)))).
Proof.
  eexists _, _, _. split; [apply (replay_eq _ (repeat ([], Ok tt) 7)); vm_compute; reflexivity|].
  split; [apply (replay_eq _ [([x1c], Ok tt)]); vm_compute; reflexivity|].
  split; [apply (replay_eq _ [([x22], Ok tt); ([x00], Ok tt)]); vm_compute; reflexivity|].
  apply (replay_eq _ [([x22], Ok tt)]); vm_compute; reflexivity.
Qed.

(** The exceptions are real. *)
Theorem C100_no_effect_refuted :
  (* connect: refused, yet OPEN (0x01) was written to the command register *)
  (exists tr0 a outs tr, program 5 Dhcp [OpTcpSocket] tr0 a outs /\
     exec (step 5 a (OpTcpConnect 0 (V4 (Addr4 (Ip4 x0a x00 x00 x01) 80)))) tr
       (Done (a, RTcpConnect (Err (NbOther TUnsupportedMode)))) /\
     In (EWrite 1 1 [x01] (Ok tt)) tr) /\
  (* UDP send of three bytes with room for two: refused, yet SEND (0x20) was written *)
  (exists tr0 a outs tr, program 5 Dhcp [OpUdpSocket; OpUdpConnect 0 (V4 (Addr4 (Ip4 x0a x00 x00 x01) 53))] tr0 a outs /\
     exec (step 5 a (OpUdpSend 0 [x41; x42; x43])) tr (Done (a, RUdpSend (Err (NbOther USocketNotOpen)))) /\
     In (EWrite 1 1 [x20] (Ok tt)) tr) /\
  (* send_to on a closed socket: refused, yet the handle and the chip have a new destination *)
  (exists tr0 a outs tr a', program 5 Dhcp [OpUdpSocket] tr0 a outs /\
     exec (step 5 a (OpUdpSendTo 0 (V4 (Addr4 (Ip4 x0a x00 x00 x01) 53)) [x41])) tr
       (Done (a', RUdpSend (Err (NbOther USocketNotOpen)))) /\
     a' <> a /\ In (EWrite 1 0x0c [x0a; x00; x00; x01] (Ok tt)) tr).
Proof.
  split; [|split].
  - eexists _, _, _, _. split; [apply (replay_eq _ []); vm_compute; reflexivity|].
    split; [apply (replay_eq _ (repeat ([], Ok tt) 6 ++ [([x22], Ok tt)])); vm_compute; reflexivity|]. cbn. tauto.
  - eexists _, _, _, _. split; [apply (replay_eq _ (repeat ([], Ok tt) 8)); vm_compute; reflexivity|].
    split; [apply (replay_eq _ ([([x22], Ok tt); ([x00; x02], Ok tt); ([x22], Ok tt); ([x00; x02], Ok tt); ([x00; x00], Ok tt);
      ([], Ok tt); ([], Ok tt); ([], Ok tt); ([x00; x02], Ok tt); ([x00; x02], Ok tt); ([x10], Ok tt); ([], Ok tt); ([x00; x02], Ok tt); ([x00], Ok tt)])); vm_compute; reflexivity|]. cbn. tauto.
  - eexists _, _, _, _, _. split; [apply (replay_eq _ []); vm_compute; reflexivity|].
    split; [apply (replay_eq _ [([], Ok tt); ([], Ok tt); ([x00], Ok tt)]); vm_compute; reflexivity|].
    split; [discriminate|]. cbn. tauto.
Qed.
Print Assumptions C100_no_effect_refuted.

(** IPv6 remotes are always refused, without touching the bus, the handle or the device. *)
Theorem C100_ipv6 :
  forall fuel a h tr o, o <> Cut ->
  (forall t, lookup h (handles a) = Some (HTcp t) -> exec (step fuel a (OpTcpConnect h V6)) tr o ->
     tr = [] /\ o = Done (a, RTcpConnect (Err (NbOther TUnsupportedAddress)))) /\
  (forall u, lookup h (handles a) = Some (HUdp u) -> exec (step fuel a (OpUdpConnect h V6)) tr o ->
     tr = [] /\ o = Done (a, RUdpUnit (Err UUnsupportedAddress))) /\
  (forall u d, lookup h (handles a) = Some (HUdp u) -> exec (step fuel a (OpUdpSendTo h V6 d)) tr o ->
     tr = [] /\ o = Done (a, RUdpSend (Err (NbOther UUnsupportedAddress)))).
Proof.
  intros fuel a h tr o C.
  split; [intros t L X|split; [intros u L X|intros u d L X]]; cbn [step] in X; rewrite L in X;
    cbn [tcp_connect udp_connect udp_send_to bind fst snd] in X; (apply exec_Ret_inv in X as [-> [X|X]]; [|contradiction]);
    subst o; (split; [reflexivity|]); rewrite ?(put_same _ _ _ L); reflexivity.
Qed.
Print Assumptions C100_ipv6.
Example C100_case_ipv6 : exists tr0 a outs u, program 5 Dhcp [OpUdpSocket; OpUdpBind 0 53] tr0 a outs /\
  lookup 0 (handles a) = Some (HUdp u) /\ exec (step 5 a (OpUdpSendTo 0 V6 [x41])) [] (Done (a, RUdpSend (Err (NbOther UUnsupportedAddress)))).
Proof.
  eexists _, _, _, _. split; [apply (replay_eq _ (repeat ([], Ok tt) 7)); vm_compute; reflexivity|].
  split; [reflexivity|]. apply (replay_eq _ []); vm_compute; reflexivity.
Qed.
