(** Single API calls of a program that is using a UDP socket. *)
From Verif Require Export UdpSession.
From Verif Require Import Datasheet TcpSession.

(** the call hands [buf] to the handle [h], for the remote [r] *)
Inductive sends_buf (h : nat) (dest : option addr4) : op -> addr4 -> list byte -> Prop :=
| sb_send r buf : dest = Some r -> sends_buf h dest (OpUdpSend h buf) r buf
| sb_send_to r buf : a_port r < 65536 -> sends_buf h dest (OpUdpSendTo h (V4 r) buf) r buf.

Definition no_berr (o : outcome (History.app * out)) : Prop := forall a' out, o = Done (a', out) -> out_berr out = None.

Lemma udp_send_call e fuel h i dest port a s o r buf oc s' :
  udp_session e fuel h i dest port a s -> sends_buf h dest o r buf ->
  run e (step fuel a o) s = (oc, s') -> no_berr oc ->
  (exists a', oc = Done (a', RUdpSend (Ok tt)) /\ usend_ok port r buf (sk i s) (sk i s') /\ uinv (Some r) port (sk i s')) \/
  (exists a', oc = Done (a', RUdpSend (Err (NbOther UWriteTimeout))) /\ usend_timeout port r buf (sk i s) (sk i s') /\ uinv (Some r) port (sk i s')) \/
  (oc = Looping /\ usend_waiting port r buf (sk i s) (sk i s')).
Proof.
  intros T B R NB. destruct (udp_session_facts _ _ _ _ _ _ _ _ T) as (Hi & Hp & I & L & U).
  refine (session_call _ e _ (fun oc s' =>
    (exists a', oc = Done (a', RUdpSend (Ok tt)) /\ usend_ok port r buf (sk i s) (sk i s') /\ uinv (Some r) port (sk i s')) \/
    (exists a', oc = Done (a', RUdpSend (Err (NbOther UWriteTimeout))) /\ usend_timeout port r buf (sk i s) (sk i s') /\ uinv (Some r) port (sk i s')) \/
    (oc = Looping /\ usend_waiting port r buf (sk i s) (sk i s'))) s oc s' (es_step fuel a _) R _ _).
  { intros [a' ou] ->. now apply (NB a' ou). }
  destruct B as [r buf ->|r buf Hr]; cbn [step]; rewrite L; unfold udp_handle; apply wp_bind.
  - apply wp_udp_send_known; auto using nofail_no_faults; intros; try apply wp_ret; eauto 10.
  - apply wp_udp_send_to; auto using nofail_no_faults; intros; try apply wp_ret; eauto 10.
Qed.

Lemma udp_receive_call e fuel h i dest port a s buf q0 oc s' :
  udp_session e fuel h i dest port a s -> queue (sk i s) q0 ->
  run e (step fuel a (OpUdpReceive h buf)) s = (oc, s') -> no_berr oc ->
  (exists n r buf', oc = Done (a, RUdpReceive buf' (Ok (n, V4 r))) /\ urecv (sk i s) q0 buf n r buf' (sk i s')) \/
  (oc = Done (a, RUdpReceive buf (Err WouldBlock)) /\ sevs i (sk i s) (sk i s') /\ (recvf (sk i s) = false \/ q0 = [])) \/
  (oc = Done (a, RUdpReceive buf (Err (NbOther UBufferOverflow))) /\ sevs i (sk i s) (sk i s') /\ buf = []) \/
  (oc = Panicked P_udp_recv_slice /\ sevs i (sk i s) (sk i s') /\
     exists g q q1, q0 ++ q1 = g :: q /\ queue (sk i s') (q0 ++ q1) /\ len buf < len (g_data g)) \/
  (oc = Looping /\ sevs i (sk i s) (sk i s')).
Proof.
  intros T Q0 R NB. destruct (udp_session_facts _ _ _ _ _ _ _ _ T) as (Hi & Hp & I & L & U).
  refine (session_call _ e _ (fun oc s' =>
    (exists n r buf', oc = Done (a, RUdpReceive buf' (Ok (n, V4 r))) /\ urecv (sk i s) q0 buf n r buf' (sk i s')) \/
    (oc = Done (a, RUdpReceive buf (Err WouldBlock)) /\ sevs i (sk i s) (sk i s') /\ (recvf (sk i s) = false \/ q0 = [])) \/
    (oc = Done (a, RUdpReceive buf (Err (NbOther UBufferOverflow))) /\ sevs i (sk i s) (sk i s') /\ buf = []) \/
    (oc = Panicked P_udp_recv_slice /\ sevs i (sk i s) (sk i s') /\
       exists g q q1, q0 ++ q1 = g :: q /\ queue (sk i s') (q0 ++ q1) /\ len buf < len (g_data g)) \/
    (oc = Looping /\ sevs i (sk i s) (sk i s'))) s oc s' (es_step fuel a _) R _ _).
  { intros [a' ou] ->. now apply (NB a' ou). }
  cbn [step]. rewrite L. unfold udp_handle. apply wp_bind.
  apply (wp_udp_receive_api _ i (nofail_no_faults e) Hi fuel dest port buf q0); auto; intros; try apply wp_ret; cbn [fst snd]; eauto 20.
  all: right; right; right; left; eauto 20.
Qed.

(** every datagram that leaves goes to the remote last named, and only sends emit any *)
Lemma udp_packets e fuel h i dest port a s o oc s' :
  udp_session e fuel h i dest port a s -> keeps_udp h o ->
  run e (step fuel a o) s = (oc, s') -> (op_handle o = Some h -> no_berr oc) ->
  exists ps, sent (sk i s') = sent (sk i s) ++ ps /\
    Forall (fun p => exists r, named1 h dest o = Some r /\ p_sport p = port /\ p_ip p = octets (a_ip r) /\ p_dport p = a_port r) ps /\
    (ps <> [] -> exists r buf, sends_buf h dest o r buf).
Proof.
  intros T K R NB. destruct (udp_session_facts _ _ _ _ _ _ _ _ T) as (Hi & Hp & I & L & U).
  assert (Same : sent (sk i s') = sent (sk i s) -> exists ps, sent (sk i s') = sent (sk i s) ++ ps /\
    Forall (fun p => exists r, named1 h dest o = Some r /\ p_sport p = port /\ p_ip p = octets (a_ip r) /\ p_dport p = a_port r) ps /\
    (ps <> [] -> exists r buf, sends_buf h dest o r buf)).
  { intros E. exists []. rewrite app_nil_r. split; [exact E|]. split; [constructor|]. intros X. now elim X. }
  assert (SE : forall y, sevs i (sk i s) y -> sent y = sent (sk i s)).
  { intros y N. apply (rested_sevs i _ _ N). apply U. }
  assert (Sb : forall r buf, sends_buf h dest o r buf -> named1 h dest o = Some r).
  { intros r b B. destruct B as [r b ->|r b Hr]; cbn [named1]; rewrite ?Nat.eqb_refl; reflexivity. }
  assert (Pk : forall r buf, sends_buf h dest o r buf -> op_handle o = Some h -> exists ps, sent (sk i s') = sent (sk i s) ++ ps /\
    Forall (fun p => exists r, named1 h dest o = Some r /\ p_sport p = port /\ p_ip p = octets (a_ip r) /\ p_dport p = a_port r) ps /\
    (ps <> [] -> exists r buf, sends_buf h dest o r buf)).
  { intros r b B Ho. pose proof (udp_send_call _ _ _ _ _ _ _ _ _ _ _ _ _ T B R (NB Ho)) as C.
    assert (X : exists cs ps, sent (sk i s') = sent (sk i s) ++ ps /\ part ps (map (sent_to port r) cs)).
    { destruct C as [(a' & _ & (cs & ps & _ & C1 & C2 & _) & _)|[(a' & _ & (cs & rest & ps & _ & _ & _ & C1 & C2 & _) & _)|(_ & (cs & rest & ps & _ & _ & C1 & C2))]]; eauto. }
    destruct X as (cs & ps & E1 & E2). exists ps. split; [exact E1|]. split; [|eauto]. apply (part_Forall _ _ _ E2), Forall_map, Forall_forall.
    intros c _. exists r. rewrite (Sb r b B). auto. }
  assert (Dec : op_handle o = Some h \/ op_handle o <> Some h).
  { destruct (op_handle o) as [h'|]; [|right; discriminate]. destruct (Nat.eq_dec h' h) as [->|]; [left; reflexivity|right; congruence]. }
  destruct Dec as [E|E].
  - specialize (NB E).
    assert (Wp : wp (nofail e) (step fuel a o) (fun _ s' => sent (sk i s') = sent (sk i s)) s -> sent (sk i s') = sent (sk i s)).
    { intros W. refine (session_call _ e _ (fun _ s' => sent (sk i s') = sent (sk i s)) s oc s' (es_step fuel a o) R _ W).
      intros [a' ou] ->. now apply (NB a' ou). }
    pose proof (nofail_no_faults e) as NF. destruct (uinv_valid _ _ _ U) as (Vt & Vr & C & Id).
    destruct o as [|h'| |h' r'|h' d|h' b|h'| |h' r'|h' pt|h' d|h' r' d|h' b|h'|h'| |q|h' pt|h' q]; cbn [op_handle] in E; try discriminate E; injection E as ->;
      cbn [keeps_udp] in K; try (now elim K);
      try (apply Same, Wp; cbn [step]; rewrite L; unfold udp_handle; apply wp_ret; reflexivity).
    + apply Same, Wp. cbn [step]. rewrite L. unfold udp_handle. apply wp_bind. destruct r' as [r'|]; [|apply wp_ret, wp_ret; reflexivity].
      apply connect_opens; auto. intros s2 _ _ S. apply wp_ret. auto.
    + apply Same, Wp. cbn [step]. rewrite L. unfold udp_handle. apply wp_bind. apply bind_opens; auto. intros s2 _ _ S. apply wp_ret. auto.
    + destruct dest as [r|]; [apply (Pk r d); [now constructor|reflexivity]|]. apply Same, Wp. cbn [step]. rewrite L. unfold udp_handle.
      apply wp_bind, wp_udp_send_unknown; auto; [apply U|]. intros s2 N. apply wp_ret. auto.
    + destruct r' as [r|]; [apply (Pk r d); [now constructor|reflexivity]|]. apply Same, Wp. cbn [step]. rewrite L. unfold udp_handle.
      apply wp_bind, wp_ret, wp_ret. reflexivity.
    + apply Same, Wp. cbn [step]. rewrite L. unfold udp_handle. apply wp_bind. pose proof U as (_ & _ & _ & (q0 & Q0) & _).
      apply (wp_udp_receive_api _ i NF Hi fuel dest port b q0); auto; intros; try apply wp_ret; auto.
      match goal with H : urecv _ _ _ _ _ _ _ |- _ => apply H end.
    + apply Same, Wp. cbn [step]. rewrite L. unfold udp_handle. apply wp_bind. apply (set_port_keeps _ _ _ port); auto; try apply U.
  - apply Same. assert (Hs : spares i (step fuel a o)) by (eapply spares_step; eauto; intros ->; exact K).
    pose proof (run_spares e i _ Hs s) as N. rewrite R in N. cbn [snd] in N. auto.
Qed.

(** ** The read pointer of a UDP socket moves once per SEND, to the end of the data *)
Definition flight (x y : sock) : Prop :=
  sr y = SOCK_UDP /\ regs y = regs x /\ tx_end y = tx_end x /\
  ((tx_rd y = tx_rd x /\ (tx_busy y = true -> tx_busy x = true)) \/ (tx_rd y = tx_end x /\ tx_busy x = true /\ tx_busy y = false)).
Lemma flight_step x y ev : tx_rd x < 65536 -> (tx_busy x = true -> tx_end x < 65536) -> flight x y -> flight x (sock_step y ev).
Proof.
  intros Hr He F. pose proof F as (F1 & F2 & F3 & F4). assert (A : forall c, flight x (rx_append y c)).
  { intros c. unfold rx_append. destruct (_ <=? _); exact F. }
  assert (B : tx_busy y = true -> tx_busy x = true /\ tx_rd y = tx_rd x) by (intros B; destruct F4 as [(E & Bx)|(_ & _ & Bx)]; [auto|congruence]).
  destruct ev; cbn [sock_step]; rewrite ?F1; try exact F.
  - destruct (_ && _); [apply A|exact F].
  - unfold transmit. destruct (tx_busy y) eqn:By; [|exact F]. destruct (B eq_refl) as (Bx & E). rewrite F1.
    change ((SOCK_UDP =? SOCK_UDP) || (SOCK_UDP =? SOCK_MACRAW)) with true. cbv iota zeta. rewrite N.eqb_refl.
    assert (R : (tx_rd y + sub16 (tx_end y) (tx_rd y)) mod 65536 = tx_end x) by (rewrite F3; apply add_sub16; [auto|congruence]).
    rewrite R. destruct (sub16 (tx_end y) (tx_rd y) =? 0); (split; [exact F1|]; split; [exact F2|]; split; [exact F3|]; right; auto).
  - destruct (tx_okdue y); exact F.
  - destruct (tx_busy y) eqn:By; [|exact F]. destruct (B eq_refl) as (Bx & E).
    change ((SOCK_UDP =? SOCK_UDP) || (SOCK_UDP =? SOCK_MACRAW)) with true. cbv iota zeta.
    destruct advance; (split; [exact F1|]; split; [exact F2|]; split; [exact F3|]); sfields; [right; auto|left; split; [exact E|discriminate]].
Qed.
Lemma flight_sevs i x y : sr x = SOCK_UDP -> tx_rd x < 65536 -> (tx_busy x = true -> tx_end x < 65536) -> sevs i x y -> flight x y.
Proof.
  intros S Hr He H. refine (sevs_inv i (flight x) _ x y H _); [intros z ev _; now apply flight_step|].
  split; [exact S|]. auto 6.
Qed.
(** the SEND in progress, if any, covers everything written *)
Definition all_handed (x : sock) : Prop := sr x = SOCK_UDP /\ tx_rd x < 65536 /\ (tx_busy x = true -> tx_end x = tx_wr x).
Lemma handed_sevs i x y : all_handed x -> sevs i x y ->
  all_handed y /\ tx_wr y = tx_wr x /\ (tx_rd y = tx_rd x \/ tx_rd y = tx_wr x) /\ (tx_rd x = tx_wr x -> tx_rd y = tx_wr x).
Proof.
  intros (S & Hr & He) H. assert (He' : tx_busy x = true -> tx_end x < 65536) by (intros B; rewrite He by exact B; apply tx_wr_lt).
  destruct (flight_sevs i x y S Hr He' H) as (F1 & F2 & F3 & F4). assert (W : tx_wr y = tx_wr x) by (unfold tx_wr; now rewrite F2).
  unfold all_handed. rewrite W, F3, F1. destruct F4 as [(E & B)|(E & B1 & B2)].
  - rewrite E. split; [split; [reflexivity|auto]|]. auto.
  - rewrite E, He by exact B1. split; [|auto]. split; [reflexivity|]. split; [apply tx_wr_lt|auto].
Qed.
Lemma wp_flush_handed e i d p (Q : outcome (res unit (nberr uerr)) -> sys -> Prop) s : no_faults e -> i < 8 -> all_handed (sk i s) ->
  (forall s', all_handed (sk i s') -> Q (Done (Err WouldBlock)) s') ->
  (forall s' r, all_handed (sk i s') -> tx_rd (sk i s') = tx_wr (sk i s') -> (r = Ok tt \/ r = Err (NbOther UWriteTimeout)) -> Q (Done r) s') ->
  wp e (udp_try_flush_tx (mkUdp (socket_new i) d p)) Q s.
Proof.
  intros NF Hi H0 HW HO. unfold udp_try_flush_tx. cbn [u_socket].
  apply wp_try, wp_get_tx_read_pointer; auto. intros y s1 N1 N2. cbv beta iota.
  destruct (handed_sevs i _ _ H0 N1) as (Hy & Wy & Cy & _). destruct (handed_sevs i _ _ Hy N2) as (H1 & W1 & C1 & D1).
  apply wp_try, wp_get_tx_write_pointer; auto. intros s2 N3. cbv beta iota.
  destruct (handed_sevs i _ _ H1 N3) as (H2 & W2 & C2 & D2).
  match goal with |- context [?u =? ?v] => destruct (N.eqb_spec u v) as [Eq|_] end; [|apply wp_ret; now apply HW].
  assert (E1 : tx_rd (sk i s1) = tx_wr (sk i s1)).
  { destruct C1 as [C1|C1]; [|congruence]. rewrite C1, W2 in Eq. unfold hi, lo in Eq. rewrite !b2n_u8 in Eq.
    destruct Hy as (_ & Hr & _). rewrite C1, <- Eq. lia. }
  assert (End : forall y z, all_handed y -> tx_rd y = tx_wr y -> sevs i y z -> all_handed z /\ tx_rd z = tx_wr z).
  { intros u z Hu Eu Nz. destruct (handed_sevs i _ _ Hu Nz) as (Hz & Wz & _ & Dz). split; [exact Hz|]. rewrite Wz. auto. }
  destruct (End _ _ H1 E1 N3) as (_ & E2).
  apply wp_try, (wp_has_interrupt e i NF Hi InSendOk 4); [reflexivity|reflexivity|]. intros s3 N4. cbv beta iota.
  destruct (End _ _ H2 E2 N4) as (H3 & E3). destruct (N.testbit (ir (sk i s3)) 4).
  - apply wp_try, wp_reset_interrupt; auto. intros z s4 N5 E4. cbv beta iota. apply wp_ret.
    destruct (End _ _ H3 E3 N5) as (Hz & Ez). apply HO; [rewrite E4; exact Hz|rewrite E4; exact Ez|auto].
  - apply wp_try, (wp_has_interrupt e i NF Hi InTimeout 3); [reflexivity|reflexivity|]. intros s4 N5. cbv beta iota.
    destruct (End _ _ H3 E3 N5) as (H4 & E4). destruct (N.testbit (ir (sk i s4)) 3).
    + apply wp_try, wp_reset_interrupt; auto. intros z s5 N6 E5. cbv beta iota. apply wp_ret.
      destruct (End _ _ H4 E4 N6) as (Hz & Ez). apply HO; [rewrite E5; exact Hz|rewrite E5; exact Ez|auto].
    + apply wp_ret. apply HO; auto.
Qed.
(** the busy-wait around it *)
Lemma wp_flush_loop_handed e i d p (Q : outcome (res unit (nberr uerr)) -> sys -> Prop) : no_faults e -> i < 8 -> forall fuel s, all_handed (sk i s) ->
  (forall s', Q Looping s') ->
  (forall s' r, all_handed (sk i s') -> tx_rd (sk i s') = tx_wr (sk i s') -> (r = Ok tt \/ r = Err (NbOther UWriteTimeout)) -> Q (Done r) s') ->
  wp e (udp_flush_loop fuel (mkUdp (socket_new i) d p)) Q s.
Proof.
  intros NF Hi. induction fuel as [|fuel IH]; intros s H HL HO; cbn [udp_flush_loop]; [apply HL|].
  apply wp_bind, wp_flush_handed; auto.
  - intros s' r H' E Hr. destruct Hr as [-> | ->]; apply wp_ret, HO; auto.
Qed.
