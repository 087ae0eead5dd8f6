(** C105: devices set up for DHCP; C106: whom a connected UDP socket hears. *)
From Verif Require Import LifeFacts Cases InitFacts UdpSession Life.
From Verif Require Import Datasheet.
From Verif Require Properties_udp.

(** ** C105.  Full statement: a device set up with initialize, which is meant for DHCP, comes by an
    address.  False of every program, chip and network: the gateway, the mask, the hardware address
    and the IP address stay zero at every moment (host/dhcp.rs:27-30 negotiates nothing), and no later
    call sets them, bus errors and calls left unfinished included. *)
Theorem C105_address_refuted :
  (forall e chk mc m s d s1, run e (initialize chk mc m) s = (Done (Ok d), s1) ->
     forall fuel ops o s2, run e (run_ops fuel (mkApp d [] 0) ops) s1 = (o, s2) ->
       forall x, GAR <= x < SIPR + 4 -> com (s_chip s2) x = x00) /\
  exists d s1 a s2, run quiet (initialize true (Mac x02 x00 x00 x00 x00 x01) mode_default) sys0 = (Done (Ok d), s1) /\
    run quiet (run_ops 9 (mkApp d [] 0) [OpUdpSocket; OpUdpConnect 0 (V4 (Addr4 (Ip4 xff xff xff xff) 67)); OpUdpSetPort 0 68; OpDevice QIp]) s1 =
      (Done (a, [RUdpSocket (Ok 0%nat); RUdpUnit (Ok tt); RUdpUnit (Ok tt); RDevice (DIp (Ok (Ip4 x00 x00 x00 x00)))]), s2).
Proof.
  split.
  - intros e chk mc m s d s1 R fuel ops o s2 R2 x Hx. unfold initialize in R. apply run_init in R as (t & c & h' & _ & C1 & _ & _ & R & ->).
    cbn [dhcp_new refresh run] in R. injection R as <- <-.
    assert (A : addr_inv (fun _ => x00) (s_chip t)).
    { left. intros y Hy. unfold addr_range, GAR, SIPR in Hy. rewrite C1 by (unfold MR, PHYCFGR; lia). unfold com_reset.
      repeat match goal with |- (if ?b then _ else _) = _ => destruct b eqn:?E end; try reflexivity;
        repeat match goal with H : (_ =? _) = true |- _ => apply N.eqb_eq in H; unfold PHYCFGR, VERSIONR, RTR, RCR in *; lia end. }
    pose proof (run_ops_addr e (fun _ => x00) fuel ops (mkApp (ds_new Dhcp) [] 0) t (fun _ _ (H : In _ []) => match H with end) A) as K. rewrite R2 in K.
    destruct K as [K|K]; apply K; exact Hx.
  - do 4 eexists. split; [apply run_snd; vm_compute; reflexivity|]. apply run_snd; vm_compute; reflexivity.
Qed.
Print Assumptions C105_address_refuted.

(** ** C106.  Full statement: a UDP socket that is connected to a remote delivers only what this
    remote sent.  False: connect only sets where sends go to.  A datagram of anybody else is
    delivered, too; the address returned with it is its sender's (C49). *)
Theorem C106_peer_refuted : exists e s s', let a := Properties_udp.uapp (Some Properties_udp.peer) 49849 in
  udp_session e 30 0 0 (Some Properties_udp.peer) 49849 a s /\
  run e (step 30 a (OpUdpReceive 0 (repeat x00 3))) s = (Done (a, RUdpReceive [x41; x42; x43] (Ok (3, V4 (Addr4 (Ip4 x01 x02 x03 x04) 53)))), s') /\
  Properties_udp.peer <> Addr4 (Ip4 x01 x02 x03 x04) 53.
Proof.
  destruct Properties_udp.C49_case as (s & s' & H1 & _ & H2). exists Properties_udp.one, s, s'. cbv zeta. split; [exact H1|]. split; [exact H2|discriminate].
Qed.
Print Assumptions C106_peer_refuted.
