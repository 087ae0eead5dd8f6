(** C101: local ports. *)
From Verif Require Import Ports ExecFacts Dial Cases Life Properties_whole.

(** Claim: two connections of a program never have both ends in common, so that the peer can tell
    them apart.  True of connections of different sockets, over the whole life of a chip: their
    local ports differ, and are in the range set aside for this (49152 to 65535). *)
Theorem C101_sockets_partial :
  forall e chk fuel ops o s s' i j, i < 8 -> j < 8 -> i <> j ->
    Forall (fun q => forall h, q <> LCall (OpSocket h (KCommand CmConnect))) ops ->
    Forall (fun q => forall h r, q = LCall (OpTcpConnect h (V4 r)) -> a_port r < 65536) ops ->
    run e (run_life chk fuel life_new ops) s = (o, s') ->
    exists ni nj, dialled (socks (s_chip s') i) = dialled (socks (s_chip s) i) ++ ni /\
      dialled (socks (s_chip s') j) = dialled (socks (s_chip s) j) ++ nj /\
      forall p ip rp p' ip' rp', In (p, ip, rp) ni -> In (p', ip', rp') nj -> p <> p' /\ 49152 <= p < 65536 /\ 49152 <= p' < 65536.
Proof.
  intros e chk fuel ops o s s' i j Hi Hj Hn F1 F2 R.
  destruct (C85_whole_life e chk fuel ops o s s' i Hi F1 F2 R) as (ni & Ei & Wi).
  destruct (C85_whole_life e chk fuel ops o s s' j Hj F1 F2 R) as (nj & Ej & Wj).
  exists ni, nj. split; [exact Ei|]. split; [exact Ej|]. intros p ip rp p' ip' rp' Pi Pj.
  apply (within_in _ _ _ Wi) in Pi. apply (within_in _ _ _ Wj) in Pj.
  assert (K : forall k q ip rp, In (q, ip, rp) (flat_map (fun q => match q with
        | LCall (OpTcpConnect _ (V4 (Addr4 a p))) => [(49849 + k, [ip0 a; ip1 a; ip2 a; ip3 a], p)] | _ => [] end) ops) -> q = 49849 + k).
  { intros k q ip1 rp1 H. apply in_flat_map in H as (x & _ & H). destruct x as [| | |[]| | | | | |]; try contradiction.
    destruct remote as [[]|]; [|contradiction]. destruct H as [[= <- _ _]|[]]. reflexivity. }
  apply K in Pi, Pj. lia.
Qed.
Print Assumptions C101_sockets_partial.

(** False of connections a socket makes one after the other: whatever the program, two connections of
    one socket to the same peer have the same two ends.  (As close does not tell the peer, C96, the
    first may still exist there.)  The program below connects, closes and connects again. *)
Definition again_ops : list lop :=
  [LInit (IManual (Mac x02 x00 x00 x00 x00 x01) (Ip4 x0a x00 x00 x02)) mode_default;
   LCall OpTcpSocket; LCall (OpTcpConnect 0 (V4 (Addr4 (Ip4 x0a x00 x00 x09) 80))); LCall (OpTcpClose 0);
   LCall OpTcpSocket; LCall (OpTcpConnect 1 (V4 (Addr4 (Ip4 x0a x00 x00 x09) 80)))].
Theorem C101_reconnect_refuted :
  (forall e chk fuel ops o s s' i, i < 8 ->
    Forall (fun q => forall h, q <> LCall (OpSocket h (KCommand CmConnect))) ops ->
    Forall (fun q => forall h r, q = LCall (OpTcpConnect h (V4 r)) -> a_port r < 65536) ops ->
    run e (run_life chk fuel life_new ops) s = (o, s') ->
    exists new, dialled (socks (s_chip s') i) = dialled (socks (s_chip s) i) ++ new /\
      forall p p' ip rp, In (p, ip, rp) new -> In (p', ip, rp) new -> p = p') /\
  (exists l s', run answering (run_life true 9 life_new again_ops) sys0 =
     (Done (l, [LInited (Ok tt); LOut (RTcpSocket (Ok 0%nat)); LOut (RTcpConnect (Ok tt)); LOut (RTcpClose (Ok tt));
                LOut (RTcpSocket (Ok 1%nat)); LOut (RTcpConnect (Ok tt))]), s') /\
     dialled (socks (s_chip s') 0) = [(49849, [x0a; x00; x00; x09], 80); (49849, [x0a; x00; x00; x09], 80)]).
Proof.
  split.
  - intros e chk fuel ops o s s' i Hi F1 F2 R. destruct (C85_whole_life e chk fuel ops o s s' i Hi F1 F2 R) as (new & E & W).
    exists new. split; [exact E|]. intros p p' ip rp P1 P2. apply (within_in _ _ _ W) in P1, P2.
    apply in_flat_map in P1 as (x & _ & H1). apply in_flat_map in P2 as (y & _ & H2).
    destruct x as [| | |[]| | | | | |]; try contradiction. destruct remote as [[]|]; [|contradiction].
    destruct y as [| | |[]| | | | | |]; try contradiction. destruct remote as [[]|]; [|contradiction].
    destruct H1 as [[= <- _ _]|[]], H2 as [[= <- _ _]|[]]. reflexivity.
  - eexists _, _. split; [apply run_snd; vm_compute; reflexivity|vm_compute; reflexivity].
Qed.
Print Assumptions C101_reconnect_refuted.

(** UDP handles the program never bound have different local ports, in that range. *)
Theorem C101_udp :
  forall fuel ho ops tr a outs, program fuel ho ops tr a outs ->
  forall h u, lookup h (handles a) = Some (HUdp u) ->
  (forall p, ~ In (OpUdpBind h p) ops /\ ~ In (OpUdpSetPort h p) ops) ->
  49152 <= u_port u < 65536 /\
  forall h' u', h' <> h -> lookup h' (handles a) = Some (HUdp u') ->
    (forall p, ~ In (OpUdpBind h' p) ops /\ ~ In (OpUdpSetPort h' p) ops) -> u_port u' <> u_port u.
Proof.
  intros fuel ho ops tr a outs P h u L N. destruct (program_inv _ _ _ _ _ _ P) as (PI & _).
  pose (b := fun k => exists p, In (OpUdpBind k p) ops \/ In (OpUdpSetPort k p) ops).
  assert (U : unbound b a).
  { refine (unbound_ops b fuel ops _ _ _ _ _ (pool_inv_new ho) P _); [|intros k x; discriminate].
    intros k o Hin B. destruct o; try contradiction; cbn [binds] in B; subst; eexists; eauto. }
  assert (K : forall k v, lookup k (handles a) = Some (HUdp v) -> (forall p, ~ In (OpUdpBind k p) ops /\ ~ In (OpUdpSetPort k p) ops) ->
    u_port v = 49849 + index (u_socket v) /\ index (u_socket v) < 8).
  { intros k v Lk Nk. split.
    - destruct (U _ _ Lk) as [(p & [B|B])|A]; [now elim (proj1 (Nk p))|now elim (proj2 (Nk p))|exact A].
    - destruct (pi_lookup _ _ _ PI Lk) as (i & Hi & E & _). cbn [handle_socket] in E. now rewrite E. }
  destruct (K h u L N) as [E1 H1]. split; [lia|]. intros h' u' Hn L' N'. destruct (K h' u' L' N') as [E2 H2].
  intros E. apply (inv_unique a PI h' (HUdp u') h (HUdp u)); auto using lookup_in. cbn [handle_socket]. lia.
Qed.
Print Assumptions C101_udp.
Example C101_case_udp : exists tr a outs, program 5 Dhcp [OpUdpSocket; OpUdpSocket; OpUdpConnect 1 (V4 (Addr4 (Ip4 x0a x00 x00 x01) 53))] tr a outs /\
  lookup 0 (handles a) = Some (HUdp (mkUdp (socket_new 0) None 49849)) /\
  lookup 1 (handles a) = Some (HUdp (mkUdp (socket_new 1) (Some (Addr4 (Ip4 x0a x00 x00 x01) 53)) 49850)).
Proof.
  eexists _, _, _. split; [apply (replay_eq _ (repeat ([], Ok tt) 8)); vm_compute; reflexivity|]. split; reflexivity.
Qed.
(** two sockets at the same time, the second dialling twice (a life with sleeping, resets and MACRAW) *)
Example C101_case : exists o s', run answering (run_life true 9 life_new full_life) sys0 = (o, s') /\
  dialled (socks (s_chip s') 0) = [(49849, [x0a; x00; x00; x09], 80)] /\
  dialled (socks (s_chip s') 1) = [(49850, [xc0; xa8; x00; x0a], 8080); (49850, [x0a; x00; x00; x09], 80)].
Proof. exists (fst full_run), (snd full_run). split; [apply surjective_pairing|]. exact C85_whole_case. Qed.
