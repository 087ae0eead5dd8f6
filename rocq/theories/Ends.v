(** Programs that come to their end: on a network that answers, no call waits for ever. *)
From Verif Require Export Liveness RawStays LifeCalls.
From Verif Require Import Datasheet ProgFacts HistoryFacts ErrorFacts SockSpecs RawSession InitFacts Life LifeFacts LifeWire LifeAccess AccessFacts SizeFacts TcpSession TcpLimits Causes.
From Verif Require System.

(** ** What is true of every socket since the chip was reset *)
Definition sane_sock (x : sock) : Prop :=
  rx_base x < 65536 /\ rx_size x <= 16384 /\ sr x < 256 /\ tx_rd x < 65536 /\ tx_end x < 65536 /\ (sr x = SOCK_UDP -> tx_ack x = tx_rd x).
Definition sane (c : chip) : Prop := forall i, i < 8 -> sane_sock (socks c i).

Lemma sub16_same a : a < 65536 -> sub16 a a = 0.
Proof. intros H. unfold sub16. replace (a + 65536 - a) with 65536 by lia. reflexivity. Qed.
Lemma sane_sock_ev x ev : sane_sock x -> sane_sock (sock_step x ev).
Proof.
  intros (H1 & H2 & H3 & H4 & H5 & H6).
  assert (M : forall n, n mod 65536 < 65536) by (intros n; apply N.mod_lt; discriminate).
  unfold sane_sock, rx_size in *. destruct ev; cbn [sock_step]; unfold transmit, rx_append; cbv zeta;
    repeat match goal with |- context [if ?b then _ else _] =>
      lazymatch b with context [if _ then _ else _] => fail | _ => destruct b eqn:? end end;
    sfields; auto 10; repeat (split; try assumption; try apply M; try reflexivity); try discriminate; auto.
  all: try (intros E; rewrite E in *; discriminate).
  intros E. rewrite (H6 E), sub16_same, N.min_0_r, N.add_0_r by assumption. now apply N.mod_small.
Qed.
Lemma sane_ev c ev : sane c -> sane (nstep c ev).
Proof.
  intros H i Hi. specialize (H i Hi). unfold nstep. destruct (ev_sock ev) as [n|]; [|destruct ev; exact H].
  unfold set_sock. cbn [socks]. destruct (N.eqb_spec i n) as [<-|]; [|exact H]. now apply sane_sock_ev.
Qed.
Lemma sane_reset x : sane_sock (sock_reset x).
Proof. unfold sane_sock, rx_size. cbn. repeat split; discriminate. Qed.
Lemma sane_init x st : st < 256 -> sane_sock x -> sane_sock (set_sr (init_pointers x) st).
Proof.
  intros Hs (_ & H & _). assert (M : forall n, n mod 65536 < 65536) by (intros n; apply N.mod_lt; discriminate).
  unfold sane_sock, init_pointers. cbv zeta. sfields. repeat (split; try apply M; try assumption; try reflexivity).
Qed.

(** the writes that keep it *)
Definition size_ok (blk a : N) (v : byte) : Prop := forall i, i < 8 -> blk = BSB_REG i -> a = Sn_RXBUF_SIZE -> b2n v <= 16.
Lemma sane_dialled x l : sane_sock x -> sane_sock (set_dialled x l). Proof. exact (fun H => H). Qed.
Lemma sane_cmd n x c : sane_sock x -> sane_sock (do_command n x c).
Proof.
  intros H. unfold do_command.
  repeat match goal with |- sane_sock (if ?b then _ else _) => destruct b eqn:? end; auto; cbv zeta.
  all: try match goal with |- sane_sock (set_sr (init_pointers _) _) => now apply sane_init end.
  - destruct H as (H1 & H2 & H3 & H4 & H5 & H6). unfold sane_sock, rx_size in *. sfields. repeat (split; try assumption; try reflexivity); discriminate.
  - apply sane_dialled. now apply sane_init.
  - destruct H as (H1 & H2 & H3 & H4 & H5 & H6). unfold sane_sock, rx_size in *. sfields. repeat (split; try assumption; try reflexivity); discriminate.
  - destruct H as (H1 & H2 & H3 & H4 & H5 & H6). unfold sane_sock, rx_size in *. sfields. repeat (split; try assumption; try reflexivity); discriminate.
  - destruct H as (H1 & H2 & H3 & H4 & H5 & H6). unfold sane_sock, rx_size in *. sfields. repeat (split; try assumption; try reflexivity); discriminate.
  - destruct H as (H1 & H2 & H3 & H4 & H5 & H6). unfold sane_sock, rx_size in *. sfields. repeat (split; try assumption); apply tx_wr_lt.
  - destruct H as (H1 & H2 & H3 & H4 & H5 & H6). unfold sane_sock, rx_size in *. sfields. repeat (split; try assumption); apply rx_rd_lt.
Qed.
Lemma sane_wr c blk a v : size_ok blk a v -> sane c -> sane (wbyte c blk a v).
Proof.
  intros W H i Hi. pose proof (H i Hi) as Hx. unfold wbyte.
  destruct (blk =? 0) eqn:B0.
  { destruct (a =? MR); [destruct (N.testbit _ _); [apply sane_reset|exact Hx]|]. destruct (a =? VERSIONR); exact Hx. }
  cbv zeta. assert (K : forall y, (i = blk / 4 -> sane_sock y) -> sane_sock (socks (set_sock c (blk / 4) y) i)).
  { intros y Hy. unfold set_sock. cbn [socks]. destruct (N.eqb_spec i (blk / 4)); [now apply Hy|exact Hx]. }
  destruct (blk mod 4) as [|p] eqn:B; [exact Hx|].
  assert (Cases : N.pos p = 1 \/ N.pos p = 2 \/ N.pos p = 3) by (pose proof (N.mod_lt blk 4 ltac:(discriminate)); lia).
  destruct Cases as [E|[E|E]]; injection E as ->.
  - apply K. intros Eq. rewrite <- Eq. unfold sock_wr. destruct (a =? Sn_CR); [now apply sane_cmd|]. destruct (a =? Sn_IR); [exact Hx|].
    destruct (read_only a); [exact Hx|]. destruct Hx as (H1 & H2 & H3). unfold sane_sock, rx_size in *. sfields.
    split; [exact H1|]. split; [|exact H3]. unfold upd. destruct (N.eqb_spec Sn_RXBUF_SIZE a) as [Ea|]; [|exact H2].
    assert (b2n v <= 16); [|lia]. apply (W i Hi); [|now symmetry]. unfold BSB_REG. pose proof (N.div_mod blk 4 ltac:(discriminate)). lia.
  - destruct (tx_size _ =? 0); [exact Hx|]. apply K. intros <-. exact Hx.
  - destruct (rx_size _ =? 0); [exact Hx|]. apply K. intros <-. exact Hx.
Qed.
Lemma run_sane {A} e (p : prog A) s : mild size_ok p -> sane (s_chip s) -> sane (s_chip (snd (run e p s))).
Proof. intros M H. exact (run_inv size_ok e sane sane_ev sane_wr p M s H). Qed.

Lemma each_forall {I} (P : I -> N -> N -> byte -> Prop) (K : I -> Prop) blk : forall d a,
  (forall i, K i -> each (P i) blk a d) -> each (fun b x v => forall i, K i -> P i b x v) blk a d.
Proof.
  induction d as [|v d IH]; intros a H; cbn [each] in *; [exact Logic.I|]. split; [intros i Hi; apply H, Hi|].
  apply IH. intros i Hi. apply H, Hi.
Qed.
Lemma mild_forall {I A} (P : I -> N -> N -> byte -> Prop) (K : I -> Prop) (p : prog A) :
  (forall i, K i -> mild (P i) p) -> mild (fun b x v => forall i, K i -> P i b x v) p.
Proof.
  induction p as [a|w| |b a d k IH|b a d k IH]; cbn [mild]; intros H; try exact Logic.I.
  - intros got r L. apply IH. intros i Hi. now apply H.
  - split; [apply each_forall; intros i Hi; now apply H|]. intros r. apply IH. intros i Hi. now apply H.
Qed.
(** every computation that only writes what the register map allows, and never a buffer size *)
Notation AP G p := (atree read_ok (fun b a d => plain_write b a d \/ tx_read_write b a d) G p).
Lemma mild_ap {A} (G : A -> Prop) (p : prog A) : AP G p -> mild size_ok p.
Proof.
  intros H. eapply mild_mono; [|apply (mild_forall size_safe (fun i => i < 8))].
  - intros b a v S i Hi E Ea. destruct (S i Hi E) as (X & _). contradiction.
  - intros i Hi. exact (mild_sizes i G p Hi H).
Qed.
Lemma ap_done {A} e (G : A -> Prop) (p : prog A) s a s' : AP G p -> run e p s = (Done a, s') -> G a.
Proof. intros H R. destruct (run_exec e p s _ _ R) as (tr & X). exact (proj2 (atree_exec _ _ _ _ _ _ H X)). Qed.
Lemma wp_first {A B} e (G : A -> Prop) (p : prog A) (f : A -> prog B) s : spinless p -> AP G p -> sane (s_chip s) ->
  (forall a s', G a -> sane (s_chip s') -> wp e (f a) ended s') -> wp e (bind p f) ended s.
Proof.
  intros Sp Ap H Hf. apply wp_bind. unfold wp at 1. pose proof (spinless_wp e p s Sp) as E. pose proof (run_sane e p s (mild_ap G p Ap) H) as M.
  unfold wp in E. destruct (run e p s) as [[a|w| |] s1] eqn:R; cbn [snd] in M; try discriminate.
  - apply Hf; [exact (ap_done e G p s a s1 Ap R)|exact M].
  - now elim E.
Qed.

(** ** UDP send from any state of the socket *)
Definition uready (x : sock) : Prop := sr x = SOCK_UDP /\ tx_rd x < 65536 /\ tx_end x < 65536 /\ tx_ack x = tx_rd x.
Lemma uready_ev x ev : uready x -> uready (sock_step x ev).
Proof.
  intros (S & H1 & H2 & H3). assert (M : forall n, n mod 65536 < 65536) by (intros n; apply N.mod_lt; discriminate).
  unfold uready. destruct ev; unfold sock_step, transmit, rx_append; rewrite ?S;
    change (SOCK_UDP =? SOCK_UDP) with true; change (SOCK_UDP =? SOCK_SYNSENT) with false; change (SOCK_UDP =? SOCK_LISTEN) with false;
    change (SOCK_UDP =? SOCK_ESTABLISHED) with false; change (SOCK_UDP =? SOCK_CLOSE_WAIT) with false; change (SOCK_UDP =? SOCK_FIN_WAIT) with false;
    change (SOCK_UDP =? SOCK_LAST_ACK) with false; change (SOCK_UDP =? SOCK_MACRAW) with false; cbn [orb andb]; cbv zeta;
    repeat match goal with |- context [if ?b then _ else _] =>
      lazymatch b with context [if _ then _ else _] => fail | _ => destruct b eqn:? end end;
    sfields; repeat (split; try assumption; try apply M; try reflexivity).
  rewrite H3, sub16_same, N.min_0_r, N.add_0_r by assumption. now apply N.mod_small.
Qed.
Lemma uready_sevs i x y : sevs i x y -> uready x -> uready y.
Proof. intros N. refine (sevs_inv i uready _ x y N). intros z ev _. apply uready_ev. Qed.
Lemma sane_uready x : sane_sock x -> sr x = SOCK_UDP -> uready x.
Proof. intros (_ & _ & _ & H1 & H2 & H3) S. split; [exact S|]. auto. Qed.
Lemma arrived_free x : uready x -> arrived x -> tx_fsr x = tx_size x.
Proof. intros (_ & H & _ & E) (_ & D). unfold tx_fsr. rewrite E, <- D, sub16_same by exact H. apply N.sub_0_r. Qed.

Definition ir_only (i : N) (blk a : N) (v : byte) : Prop := blk = BSB_REG i /\ a = Sn_IR.
Lemma uready_ir i c blk a v : ir_only i blk a v -> uready (socks c i) -> uready (socks (wbyte c blk a v) i).
Proof. intros (-> & ->) H. rewrite wbyte_reg. exact H. Qed.
Lemma flush_loop_ir i d p fuel : i < 8 -> mild (ir_only i) (udp_flush_loop fuel (mkUdp (socket_new i) d p)).
Proof.
  intros Hi. assert (Rd : forall blk a n, mild (ir_only i) (read_reg blk a n)) by (intros; cbn; intros got [u|er] _; exact Logic.I).
  assert (Ri : forall m, mild (ir_only i) (reset_interrupt (socket_new i) m)).
  { intros m. unfold reset_interrupt, write_frame. rewrite so_reg by exact Hi. cbn [mild each]. repeat split. }
  induction fuel as [|fuel IH]; cbn [udp_flush_loop]; [exact Logic.I|]. apply mild_bind; [|intros [u|[|er]]; [exact Logic.I|exact IH|exact Logic.I]].
  unfold udp_try_flush_tx. cbn [u_socket]. cbv zeta.
  repeat first [exact Logic.I | apply Ri | apply mild_try; [first [apply Ri | (apply mild_try; [apply Rd|intros; exact Logic.I])]|intros]
    | match goal with |- mild _ (if ?b then _ else _) => destruct b end].
Qed.

Lemma udp_gate_open st a : st < 256 -> udp_status_gate (u8 st) = Ok a -> st = SOCK_UDP.
Proof. intros L G. apply Causes.gate_ok in G. apply (f_equal b2n) in G. rewrite b2n_u8, N.mod_small in G by exact L. exact G. Qed.

Lemma wp_dest {A R} e (o : option A) (p q : prog R) Q s : wp e p Q s -> wp e q Q s -> wp e (match o with None => p | Some _ => q end) Q s.
Proof. destruct o; auto. Qed.

Section UdpAny.
  Context (e : env) (i : N).
  Hypothesis NF : no_faults e.
  Hypothesis Hi : i < 8.
  Hypothesis Clean : forall t, ~ In (EvSendTimeout i false) (happens e t).
  Context (W : nat).
  Hypothesis Fair : forall t, exists t' b, (t <= t' < t + W)%nat /\ finishes i b /\ In b (happens e t').
  Context (d : option addr4) (p : N).
  Let so := mkUdp (socket_new i) d p.
  Let Pev t x ev : In ev (happens e t) -> ev_sock ev = Some i -> uready x -> uready (sock_step x ev).
  Proof. intros _ _. apply uready_ev. Qed.

  Lemma flush_any fuel s : uready (sk i s) -> due e i W s -> (W < fuel)%nat ->
    wp e (udp_flush_loop fuel so) (fun o s' => exists r, o = Done r /\ uready (sk i s') /\ (r = Ok tt -> arrived (sk i s'))) s.
  Proof.
    intros U D Hf. assert (Ha : all_handed (sk i s)) by (destruct D as [D|(D & _)]; apply D).
    pose proof (run_mild (ir_only i) e i uready (fun x ev _ => uready_ev x ev) (uready_ir i) _ (flush_loop_ir i d p fuel Hi) s U) as M.
    pose proof (flush_loop_returns e i NF Hi Clean d p fuel W s D Hf) as (r & R).
    pose proof (wp_flush_loop_handed e i d p (fun o s' => forall r, o = Done r -> arrived (sk i s')) NF Hi fuel s Ha
      ltac:(discriminate) ltac:(intros s' r' H1 H2 _ _ _; split; assumption)) as Q.
    unfold wp in *. unfold so. destruct (run e (udp_flush_loop fuel (mkUdp (socket_new i) d p)) s) as [o s']. cbn [snd] in *.
    exists r. split; [exact R|]. split; [exact M|]. intros _. now apply (Q r).
  Qed.
  Lemma send_cmd_any {R} (h : berr -> R) (k : prog R) (Q : outcome R -> sys -> Prop) s : uready (sk i s) ->
    (forall s1, uready (sk i s1) -> due e i W s1 -> wp e k Q s1) ->
    wp e (try c <- command (socket_new i) CmSend else h ;; k) Q s.
  Proof.
    intros H Hk. apply wp_try. unfold command, write_frame. rewrite so_reg by exact Hi.
    unfold wp at 1. cbn [run]. unfold bus_write. rewrite NF. cbn [write_bytes run fst snd].
    pose proof (walk_tick e i uready Pev s H) as H1.
    set (s1 := end_call (on_chip (fun c => wbyte c (BSB_REG i) s_COMMAND (u8 (command_u8 CmSend))) (tick e s))).
    assert (E : sk i s1 = set_tx_okdue (set_tx_busy (set_tx_end (sk i (tick e s)) (tx_wr (sk i (tick e s)))) true) false).
    { unfold s1, sk, on_chip. cbn [s_chip end_call]. rewrite wbyte_reg.
      change (sock_wr i (socks (s_chip (tick e s)) i) s_COMMAND (u8 (command_u8 CmSend)))
        with (do_command i (socks (s_chip (tick e s)) i) (command_u8 CmSend)).
      rewrite do_send. destruct H1 as (S & _). unfold sk in S. unfold is_sending_state. rewrite S. reflexivity. }
    destruct H1 as (S & B1 & B2 & B3). apply Hk; fold s1.
    - rewrite E. unfold uready. sfields. repeat (split; try assumption). apply tx_wr_lt.
    - right. rewrite E. split; [split; [split; [exact S|split; [exact B1|reflexivity]]|reflexivity]|].
      destruct (Fair (s_tick s1)) as (t & b & Ht & F & Hb). exists b. split; [exact F|]. exists t. auto.
  Qed.
  Lemma send_data_any fuel w s : uready (sk i s) -> (W < fuel)%nat ->
    wp e (udp_send_data fuel so w) (fun o s' => exists r, o = Done r /\ (forall n, r = Ok n -> n = len w /\ uready (sk i s') /\ arrived (sk i s'))) s.
  Proof.
    intros U Hf. unfold udp_send_data, udp_block_send_command. cbn [u_socket so].
    apply (wp_stage_walk e i uready NF Pev (fun x m H => H) (fun x m H => H)); [exact Hi|exact U|]. intros s1 U1.
    apply wp_try, send_cmd_any; [exact U1|]. intros s2 U2 D2. cbv beta iota.
    eapply wp_mono; [|apply flush_any; eauto]. intros o s' (r & -> & U3 & A). destruct r as [[]|er]; cbv beta iota.
    - apply wp_ret. eexists. split; [reflexivity|]. intros n [= <-]. auto.
    - eexists. split; [reflexivity|]. discriminate.
  Qed.
  Lemma free_arrived (Q : outcome (res N berr) -> sys -> Prop) s : uready (sk i s) -> arrived (sk i s) ->
    (forall s', sevs i (sk i s) (sk i s') -> Q (Done (Ok (tx_size (sk i s) mod 65536))) s') ->
    wp e (get_tx_free_size (socket_new i)) Q s.
  Proof.
    intros U A HQ. unfold get_tx_free_size, read_reg, try_. cbn [bind zeros repeat]. rewrite so_reg by exact Hi.
    apply wp_rd2_exact; [exact NF|reflexivity|]. cbn [bind fst snd]. apply wp_ret.
    set (s1 := tick e s). set (s2 := tick e s1).
    assert (T1 : sevs i (sk i s) (sk i s1)) by apply tick_sevs. assert (T2 : sevs i (sk i s) (sk i s2)) by (eapply sevs_trans; [exact T1|apply tick_sevs]).
    change (sock_rd (sk i s1) s_TX_FREE_SIZE) with (hi (tx_fsr (sk i s1))). change (sock_rd (sk i s2) (s_TX_FREE_SIZE + 1)) with (lo (tx_fsr (sk i s2))).
    rewrite !arrived_free by eauto using uready_sevs, arrived_sevs. unfold tx_size. rewrite (sevs_regs _ _ _ T1), (sevs_regs _ _ _ T2).
    fold (tx_size (sk i s)). rewrite from_be_2. unfold hi, lo. rewrite !b2n_u8.
    replace (tx_size (sk i s) / 256 mod 256 * 256 + tx_size (sk i s) mod 256) with (tx_size (sk i s) mod 65536) by lia.
    apply HQ. exact T2.
  Qed.
  Lemma socket_send_any fuel w s : uready (sk i s) -> (W < fuel)%nat ->
    wp e (udp_socket_send fuel so w)
      (fun o s' => exists r, o = Done r /\ forall n, r = Ok n ->
         n <= len w /\ (w <> [] -> 0 < n) /\ uready (sk i s') /\ arrived (sk i s') /\ (arrived (sk i s) -> tx_size (sk i s) mod 65536 <> 0)) s.
  Proof.
    intros U Hf. unfold udp_socket_send. cbn [u_socket u_dest so].
    apply wp_try, wp_get_status; auto. intros s1 N1. cbv beta iota. pose proof (uready_sevs i _ _ N1 U) as U1.
    destruct (udp_status_gate _); [|apply wp_ret; eexists; split; [reflexivity|discriminate]].
    apply wp_dest; [apply wp_ret; eexists; split; [reflexivity|discriminate]|].
    assert (K : forall v s2, uready (sk i s2) -> (arrived (sk i s) -> v = tx_size (sk i s) mod 65536) ->
      wp e (if v =? 0 then Ret (Err (NbOther UBufferFull)) else if len w <? v then udp_send_data fuel so w
            else slice_to P_udp_send_slice v w (fun front => udp_send_data fuel so front))
        (fun o s' => exists r, o = Done r /\ forall n, r = Ok n ->
         n <= len w /\ (w <> [] -> 0 < n) /\ uready (sk i s') /\ arrived (sk i s') /\ (arrived (sk i s) -> tx_size (sk i s) mod 65536 <> 0)) s2).
    { intros v s2 U2 Hv. destruct (N.eqb_spec v 0) as [|V0]; [apply wp_ret; eexists; split; [reflexivity|discriminate]|].
      destruct (N.ltb_spec (len w) v) as [L|L].
      - eapply wp_mono; [|apply send_data_any; eassumption]. intros o s' (r & -> & X). eexists. split; [reflexivity|]. intros n En.
        destruct (X n En) as (-> & X1 & X2). split; [lia|]. split; [intros Nw; destruct w; [now elim Nw|rewrite len_cons; lia]|]. split; [exact X1|]. split; [exact X2|].
        intros A. rewrite <- (Hv A). exact V0.
      - apply wp_slice_to; [|lia]. intros _.
        eapply wp_mono; [|apply send_data_any; eassumption]. intros o s' (r & -> & X). eexists. split; [reflexivity|]. intros n En.
        destruct (X n En) as (-> & X1 & X2). rewrite len_take. split; [lia|]. split; [lia|]. split; [exact X1|]. split; [exact X2|].
        intros A. rewrite <- (Hv A). exact V0. }
    assert (Dec : arrived (sk i s) \/ ~ arrived (sk i s)).
    { unfold arrived, all_handed. destruct (N.eq_dec (tx_rd (sk i s)) (tx_wr (sk i s))), (N.eq_dec (tx_end (sk i s)) (tx_wr (sk i s))), (tx_busy (sk i s)) eqn:Eb;
        destruct U as (S & B & _); try (left; repeat (split; try assumption); congruence); right; intros ((_ & _ & X) & Y); auto; congruence. }
    destruct Dec as [A|A].
    - assert (A1 : arrived (sk i s1)) by exact (arrived_sevs i _ _ N1 A).
      apply wp_try, free_arrived; [exact U1|exact A1|]. intros s2 N2. cbv beta iota. apply K; [exact (uready_sevs i _ _ N2 U1)|].
      intros _. unfold tx_size. now rewrite (sevs_regs _ _ _ N1).
    - apply wp_try. unfold get_tx_free_size. apply (wp_read_reg_walk e i uready NF Pev); [exact U1|]. intros got s2 _ U2. apply wp_ret. cbv beta iota.
      apply K; [exact U2|]. intros X. now elim A.
  Qed.
  Lemma send_loop_any fuel buf : (W < fuel)%nat -> forall outer s don rem f,
    uready (sk i s) -> buf = don ++ rem -> (length rem <= outer)%nat -> (0 < f \/ (arrived (sk i s) /\ f = tx_size (sk i s) mod 65536)) ->
    wp e (udp_send_loop outer fuel so buf f (len don)) returned s.
  Proof.
    intros Hf. induction outer as [|outer IH]; intros s don rem f U EB Ho HF; cbn [udp_send_loop];
      (destruct (N.eqb_spec (len don) (len buf)) as [El|Nl]; [apply wp_ret; eexists; reflexivity|]).
    - exfalso. destruct rem; [|cbn [length] in Ho; lia]. rewrite app_nil_r in EB. congruence.
    - assert (Lr : 0 < len rem) by (rewrite EB, len_app in Nl; lia).
      apply wp_slice_from; [|rewrite EB, len_app; lia]. intros _. assert (drop (len don) buf = rem) as -> by (rewrite EB; apply drop_app_exact).
      apply wp_slice_to; [|lia]. intros _. set (w := take (N.min f (len rem)) rem).
      assert (Lw : len w = N.min f (len rem)) by (unfold w; rewrite len_take; lia).
      apply wp_try. eapply wp_mono; [|apply (socket_send_any fuel w s U Hf)].
      intros o s1 (r & -> & X). cbv beta iota. destruct r as [n|x]; [|eexists; reflexivity].
      destruct (X n eq_refl) as (Ln & Pn & U1 & A1 & Z). clear X.
      assert (F0 : 0 < f) by (destruct HF as [HF|(A & ->)]; [exact HF|]; specialize (Z A); lia).
      assert (n0 : 0 < n) by (apply Pn; intros Ew; rewrite Ew in Lw; change (len []) with 0 in Lw; lia).
      apply wp_try, free_arrived; [exact U1|exact A1|]. intros s2 N2. cbv beta iota.
      assert (Er : rem = take n rem ++ drop n rem) by (symmetry; apply take_drop).
      assert (Lt : len (take n rem) = n) by (rewrite len_take; lia).
      replace (len don + n) with (len (don ++ take n rem)) by (rewrite len_app, Lt; reflexivity).
      apply (IH s2 (don ++ take n rem) (drop n rem)).
      + exact (uready_sevs i _ _ N2 U1).
      + now rewrite <- app_assoc, <- Er.
      + assert (Y : length rem = (length (take n rem) + length (drop n rem))%nat) by (rewrite Er at 1; apply app_length). unfold len in *. lia.
      + right. split; [exact (arrived_sevs i _ _ N2 A1)|]. unfold tx_size. now rewrite (sevs_regs _ _ _ N2).
  Qed.
  Lemma udp_send_any fuel buf s : sane_sock (sk i s) -> (W < fuel)%nat -> (length buf <= fuel)%nat ->
    wp e (udp_send_all fuel so buf) returned s.
  Proof.
    intros Sa Hf Hb. unfold udp_send_all. cbn [u_socket u_dest so].
    apply wp_try, wp_get_status; auto. intros s1 N1. cbv beta iota.
    assert (S1 : sane_sock (sk i s1)) by (refine (sevs_inv i sane_sock _ _ _ N1 Sa); intros z ev _; apply sane_sock_ev).
    destruct (udp_status_gate _) eqn:G; [|apply wp_ret; eexists; reflexivity].
    assert (U1 : uready (sk i s1)).
    { apply sane_uready; [exact S1|]. destruct S1 as (_ & _ & Hs & _). exact (udp_gate_open _ _ Hs G). }
    apply wp_dest; [apply wp_ret; eexists; reflexivity|].
    apply wp_try. unfold get_tx_free_size. apply (wp_read_reg_walk e i uready NF Pev); [exact U1|]. intros got s2 _ U2. apply wp_ret. cbv beta iota.
    destruct (N.eqb_spec (from_be got) 0) as [|V0]; [apply wp_ret; eexists; reflexivity|].
    apply (send_loop_any fuel buf Hf fuel s2 [] buf); auto. left. lia.
  Qed.
End UdpAny.

(** ** Any call, on a network that answers *)
Definition answers (e : env) (W : nat) : Prop := forall i, i < 8 ->
  (forall t b, ~ In (EvDropped i b) (happens e t) /\ ~ In (EvSendTimeout i b) (happens e t)) /\
  (forall t, In (EvEstablished i) (happens e t) -> ~ In (EvPeerFin i) (happens e t)) /\
  (forall t, exists t', (t <= t' < t + W)%nat /\ (In (EvEstablished i) (happens e t') \/ In (EvConnectFailed i) (happens e t'))) /\
  (forall t, exists t', (t <= t' < t + W)%nat /\ In (EvTransmit i 65535) (happens e t')) /\
  (forall t, exists t', (t <= t' < t + W)%nat /\ In (EvSendOk i) (happens e t')).
(** polls enough: twice the window, every size of a buffer, every byte of what is sent over UDP *)
Definition udp_bytes (q : lop) : list byte := match q with LCall (OpUdpSend _ d) | LCall (OpUdpSendTo _ _ d) => d | _ => [] end.
Definition patient (fuel W : nat) (q : lop) : Prop := (2 * W < fuel)%nat /\ (N.to_nat 16384 < fuel)%nat /\ (length (udp_bytes q) <= fuel)%nat.

Section Answers.
  Context (e : env) (W : nat).
  Hypothesis An : answers e W.

  Lemma clean_at i : i < 8 -> forall t ev, In ev (happens (nofail e) t) -> ~ gives_up i ev.
  Proof.
    intros Hi t ev Hin [(b & ->)|(b & ->)]; destruct (An i Hi) as (C & _); destruct (C t b) as (C1 & C2); [now apply C1|now apply C2].
  Qed.
  Lemma tcp_connect_at i fuel r s : i < 8 -> (W <= fuel)%nat -> wp (nofail e) (tcp_connect fuel (mkTcp (socket_new i)) r) ended s.
  Proof.
    intros Hi Hf. destruct r as [r|]; [|discriminate]. destruct (An i Hi) as (_ & HN & HD & _).
    apply wp_tcp_connect_pre; auto using nofail_no_faults. intros x s5 _ E. destruct (dial_state_regs i r x) as (_ & _ & D1 & D2 & _).
    eapply wp_mono; [|apply connect_wait_terminates; auto using nofail_no_faults].
    - intros o s' ->. discriminate.
    - rewrite E. exact D2.
    - rewrite E. exact D1.
    - destruct (HD (s_tick s5)) as (t' & Ht & Hd). exists t'. split; [lia|]. apply Exists_exists.
      destruct Hd as [Hd|Hd]; eexists; (split; [exact Hd|]); [left|right]; reflexivity.
  Qed.
  Lemma tcp_send_at i fuel d s : i < 8 -> sr (sk i s) < 256 -> (2 * W <= fuel)%nat -> wp (nofail e) (tcp_send fuel (mkTcp (socket_new i)) d) ended s.
  Proof.
    intros Hi L Hf. destruct (An i Hi) as (_ & _ & _ & FT & FO).
    eapply wp_mono; [|apply (tcp_send_returns (nofail e) i (nofail_no_faults e) Hi (clean_at i Hi) W FT FO fuel d s L Hf)].
    intros o s' (r & ->). discriminate.
  Qed.
  Lemma udp_send_at i fuel dst prt d s : i < 8 -> sane_sock (sk i s) -> (W < fuel)%nat -> (length d <= fuel)%nat ->
    wp (nofail e) (udp_send_all fuel (mkUdp (socket_new i) dst prt) d) ended s.
  Proof.
    intros Hi Sa Hf Hl. destruct (An i Hi) as (C & _ & _ & FT & _).
    eapply wp_mono; [|apply (udp_send_any (nofail e) i (nofail_no_faults e) Hi (fun t => proj2 (C t false)) W)]; auto.
    - intros o s' (r & ->). discriminate.
    - intros t. destruct (FT t) as (t' & Ht & Hin). exists t', (EvTransmit i 65535). split; [exact Ht|]. split; [left; eauto|exact Hin].
  Qed.
  Lemma udp_send_to_at i fuel dst prt r d s : i < 8 -> sane (s_chip s) -> (W < fuel)%nat -> (length d <= fuel)%nat ->
    wp (nofail e) (udp_send_to fuel (mkUdp (socket_new i) dst prt) r d) ended s.
  Proof.
    intros Hi Sa Hf Hl. destruct r as [r|]; [|discriminate]. cbn [udp_send_to]. unfold udp_send_to_v4.
    eapply (wp_first _ (fun x => u_socket (fst x) = socket_new i)); [| |exact Sa|].
    - unfold udp_set_destination. spinless.
    - now apply at_udp_set_destination.
    - intros [u [v|x]] s' Eu Sa'; cbn [fst snd] in *; [|discriminate]. destruct u as [so dst' prt']. cbn [u_socket] in Eu. subst so.
      apply wp_ended_bind; [|intros; exact Logic.I]. apply udp_send_at; auto. now apply Sa'.
  Qed.
  Lemma step_ends_at fuel a o s : good (handles a) -> sane (s_chip s) -> patient fuel W (LCall o) -> fst (run e (step fuel a o) s) <> Looping.
  Proof.
    intros G Sa (Hf & Hz & Hl). assert (Dec : waits o \/ ~ waits o) by (destruct o; cbn [waits]; auto).
    destruct Dec as [Wt|Nw].
    2:{ apply step_ends_k; auto; [intros h x; apply good_lookup, G|]. intros i Hi. destruct (Sa i Hi) as (B & Z & _). auto. }
    apply (ends_anyway (fun r => out_berr (snd r))); [apply es_step|].
    destruct o as [|h| |h r|h d|h b|h| |h r|h pt|h d|h r d|h b|h|h| |q|h pt|h q]; cbn [waits] in Wt; try (now elim Wt); cbn [step udp_bytes] in *;
      (destruct (lookup h (handles a)) as [[so|t|u]|] eqn:L; try discriminate); destruct (good_lookup _ _ _ G L) as (i & Hi & Ei); cbn [handle_socket] in Ei;
      try (destruct t as [k]; cbn [t_socket] in Ei; subst k); try (destruct u as [k dst prt]; cbn [u_socket] in Ei; subst k);
      (apply wp_ended_bind; [|intros; exact Logic.I]).
    - apply tcp_connect_at; [exact Hi|lia].
    - apply tcp_send_at; [exact Hi|apply (Sa i Hi)|lia].
    - apply udp_send_at; auto; [now apply Sa|lia].
    - apply udp_send_to_at; auto. lia.
  Qed.
  Lemma raw_step_ends fuel o s : sane (s_chip s) -> sr (socks (s_chip s) 0) = SOCK_MACRAW -> (2 * W < fuel)%nat -> (N.to_nat 16384 < fuel)%nat ->
    fst (run e (raw_step fuel raw0 o) s) <> Looping.
  Proof.
    intros Sa S0 Hf Hz. assert (H0 : 0 < 8) by reflexivity. destruct (Sa 0 H0) as (B & Z & _). fold (sk 0 s) in B, Z.
    apply (ends_anyway raw_berr); [apply es_raw_step|]. destruct o; cbn [raw_step]; (apply wp_ended_bind; [|intros; exact Logic.I]).
    1,2,3: apply spinless_wp; unfold raw_enable_interrupts, raw_clear_interrupts, raw_disable_interrupts; spinless.
    - apply raw_read_ends; [apply nofail_no_faults|exact H0|split; [exact B|lia]|lia].
    - destruct (An 0 H0) as (_ & _ & _ & FT & FO).
      eapply wp_mono; [|apply (raw_write_returns (nofail e) (nofail_no_faults e) (clean_at 0 H0) W FT FO); [exact S0|lia]]. intros x s' (r & ->). discriminate.
  Qed.
End Answers.

(** ** Any program *)
Definition armed (l : life) (c : chip) : Prop :=
  (sane c \/ (asleep l = [] /\ (ph l = Fresh \/ ph l = Gone))) /\
  forall r, ph l = RawUp r -> exists mc k q, raw_stays mc k q c.

Lemma sane_setup e chk k m s d s' : run e (run_setup chk k m) s = (Done (Ok d), s') -> sane (s_chip s').
Proof.
  intros R. assert (X : exists h, run e (initialize_with_host chk h m) s = (Done (Ok d), s')) by (destruct k; cbn [run_setup] in R; eauto).
  clear R. destruct X as (h & R). apply run_init in R as (s1 & c & h' & _ & _ & _ & Hs & R & ->).
  pose proof (run_sane e (refresh h) s1) as K. rewrite R in K. apply K; [exact (mild_ap any _ (at_refresh tx_read_write h))|].
  intros i _. rewrite Hs. apply sane_reset.
Qed.
Lemma sane_macraw e mc s d s' : run e (initialize_macraw mc) s = (Done (Ok d), s') -> sane (s_chip s').
Proof.
  intros R. destruct (initialize_macraw_up e mc s d s' R) as (_ & (x & E0) & Ej & _).
  assert (M : forall n, n mod 65536 < 65536) by (intros n; apply N.mod_lt; discriminate).
  intros i Hi. destruct (N.eq_dec i 0) as [->|Hn].
  - rewrite E0. unfold sane_sock, rx_size. cbn. repeat (split; try apply M; try reflexivity; try discriminate).
  - destruct (Ej i ltac:(lia)) as (y & ->). unfold sane_sock, rx_size. cbn. repeat (split; try reflexivity; try discriminate).
Qed.
Lemma mild_com a d : mild size_ok (write_frame COMMON a d).
Proof.
  unfold write_frame. cbn [mild]. split; [|intros []; exact Logic.I]. apply each_all. intros a' v i _ E. exfalso. change COMMON with 0 in E. unfold BSB_REG in E. lia.
Qed.
Lemma mild_macraw mc : mild size_ok (initialize_macraw mc).
Proof.
  assert (S : forall i a v, i < 8 -> b2n v <= 16 \/ a <> Sn_RXBUF_SIZE -> mild size_ok (write_frame (register (socket_new i)) a [v])).
  { intros i a v Hi Hv. unfold write_frame. cbn [mild each]. split; [|intros []; exact Logic.I]. split; [|exact Logic.I]. intros j _ _ Ea. destruct Hv as [Hv|Hv]; [exact Hv|contradiction]. }
  unfold initialize_macraw, raw_new. cbn [raw_zero_buffers]. cbv zeta.
  repeat (apply mild_try; [first [apply mild_com | (apply S; [reflexivity|first [left; vm_compute; discriminate | right; discriminate]])
    | repeat (apply mild_try; [apply S; [reflexivity|first [left; vm_compute; discriminate | right; discriminate]]|intros]); exact Logic.I]|intros]).
  exact Logic.I.
Qed.
Lemma mild_lstep chk fuel l q : wired l -> mild size_ok (lstep chk fuel l q).
Proof.
  intros [G RO]. unfold lstep. destruct q as [u|k m|mc|o|o| | | |k|k], (ph l) as [|d|k'|rd|] eqn:P; try exact Logic.I;
    try solve [destruct (nth_error (asleep l) k); exact Logic.I].
  - apply mild_bind; [|intros; exact Logic.I]. apply (mild_ap any).
    destruct u; [exact (at_run_devop _ QResetDevice)|exact (at_run_devop _ (QSetMode m))|exact (at_run_devop _ QVersion)
      |exact (at_run_devop _ (QSetRetryTimeout r))|exact (at_run_devop _ QRetryTimeout)|exact (at_run_devop _ (QSetRetryCount n))
      |exact (at_run_devop _ QRetryCount)].
  - apply mild_bind; [|intros [d|x]; exact Logic.I]. eapply mild_ap. destruct k; cbn [run_setup]; apply at_initialize_with_host.
  - apply mild_bind; [apply mild_macraw|intros [d|x]; exact Logic.I].
  - apply mild_bind; [|intros; exact Logic.I]. eapply mild_ap. apply at_step_k; [intros h x L; exact (good_lookup _ _ _ G L)|]. intros _ b a d' H'. exact H'.
  - destruct (nth_error (asleep l) k') as [d|]; [|exact Logic.I].
    apply mild_bind; [|intros; exact Logic.I]. eapply mild_ap. apply at_step_k; [intros h x L; exact (good_lookup _ _ _ G L)|]. intros _ b a d' H'. exact H'.
  - apply mild_bind; [|intros; exact Logic.I]. destruct rd as [so]. cbn [raw_socket] in RO. subst so. eapply mild_ap. apply at_raw_step.
  - apply mild_bind; [|intros [[]|x]; exact Logic.I]. unfold dev_reset. destruct (any_allocated d); [exact Logic.I|].
    apply mild_try; [|intros; exact Logic.I]. apply mild_com.
  - destruct (nth_error (asleep l) k') as [d|]; [|exact Logic.I].
    apply mild_bind; [|intros [[]|x]; exact Logic.I]. unfold dev_reset. destruct (any_allocated d); [exact Logic.I|].
    apply mild_try; [|intros; exact Logic.I]. apply mild_com.
Qed.

Lemma lstep_armed e chk fuel l q s r s' : wired l -> armed l (s_chip s) -> run e (lstep chk fuel l q) s = (Done r, s') -> armed (fst r) (s_chip s').
Proof.
  intros Wl (S & Rw) R.
  assert (K : sane (s_chip s) -> sane (s_chip s')).
  { intros H. pose proof (run_sane e _ s (mild_lstep chk fuel l q Wl) H) as X. now rewrite R in X. }
  destruct Wl as [_ RO]. unfold lstep in R. unfold armed.
  destruct q as [u|k m|mc|o|o| | | |k|k], (ph l) as [|d|k'|rd|] eqn:P;
    try (cbn [run] in R; injection R as <- <-; cbn [fst]; rewrite ?P; split; [destruct S as [S|(S1 & [S2|S2])]; try discriminate; auto|exact Rw]; fail).
  all: assert (D : forall l1, (ph l1 = Fresh \/ ph l1 = Gone) -> asleep l1 = asleep l -> (sane (s_chip s) -> sane (s_chip s')) -> armed l1 (s_chip s'))
    by (intros l1 Hp Ha Hk; split; [destruct S as [S|(S1 & _)]; [left; auto|right; split; [congruence|exact Hp]]|intros r1 E1; destruct Hp; congruence]).
  all: assert (U : forall l1, (forall r1, ph l1 <> RawUp r1) -> sane (s_chip s') -> armed l1 (s_chip s'))
    by (intros l1 Hp Hk; split; [now left|intros r1 E1; now elim (Hp r1)]).
  all: fold (armed (fst r) (s_chip s')).
  all: try (cbn [run] in R; injection R as <- <-; apply D; [auto|reflexivity|auto]; fail).
  all: try solve [destruct (nth_error (asleep l) k) as [d0|] eqn:En; cbn [run] in R; injection R as <- <-;
    [ apply U; [discriminate|]; destruct S as [S|(S & _)]; [auto|]; rewrite S in En; destruct k; discriminate
    | cbn [fst]; split; [destruct S as [S|(S1 & [S2|S2])]; try discriminate; [left; auto|right; rewrite P; auto..]|rewrite P; exact Rw] ]].
  - apply run_bind_done in R as (v & s1 & _ & R). cbn [run] in R. injection R as <- <-. apply D; auto.
  - apply run_bind_done in R as ([d|x] & s1 & R1 & R); cbn [run] in R; injection R as <- <-.
    + apply U; [discriminate|]. exact (sane_setup e chk k m s d s1 R1).
    + apply D; auto.
  - apply run_bind_done in R as ([d|x] & s1 & R1 & R); cbn [run] in R; injection R as <- <-.
    + split; [left; exact (sane_macraw e mc s d s1 R1)|]. intros r1 _. destruct (init_stays e mc s d s1 R1) as (_ & X). eauto.
    + apply D; auto.
  - destruct S as [S|(_ & [S|S])]; try discriminate. apply run_bind_done in R as (v & s1 & _ & R). cbn [run] in R. injection R as <- <-. apply U; [discriminate|auto].
  - destruct S as [S|(_ & [S|S])]; try discriminate. destruct (nth_error (asleep l) k') as [d|].
    + apply run_bind_done in R as (v & s1 & _ & R). cbn [run] in R. injection R as <- <-. apply U; [discriminate|auto].
    + cbn [run] in R. injection R as <- <-. apply U; [cbn [fst]; congruence|auto].
  - destruct S as [S|(_ & [S|S])]; try discriminate. destruct (Rw rd eq_refl) as (mc & k & q & St). destruct rd as [so]. cbn [raw_socket] in RO. subst so.
    apply run_bind_done in R as (v & s1 & R1 & R). cbn [run] in R. injection R as <- <-. split; [left; auto|]. intros _ _. exists mc, k, q.
    pose proof (run_inv raw_safe e _ (stays_ev mc k q) (stays_wr mc k q) _ (m_raw_step fuel o) s St) as X. unfold raw0 in X. now rewrite R1 in X.
  - apply run_bind_done in R as ([v|x] & s1 & _ & R); cbn [run] in R; injection R as <- <-; apply D; auto.
  - destruct (nth_error (asleep l) k') as [d|].
    + apply run_bind_done in R as ([v|x] & s1 & _ & R); cbn [run] in R; injection R as <- <-; apply D; auto.
    + destruct S as [S|(_ & [S|S])]; try discriminate. cbn [run] in R. injection R as <- <-. apply U; [cbn [fst]; congruence|auto].
  - destruct S as [S|(_ & [S|S])]; try discriminate. cbn [run] in R. injection R as <- <-. apply U; [discriminate|auto].
Qed.
Lemma lstep_ends e W chk fuel l q s : answers e W -> patient fuel W q -> wired l -> armed l (s_chip s) ->
  fst (run e (lstep chk fuel l q) s) <> Looping.
Proof.
  intros An Pa [G RO] (S & Rw). pose proof Pa as (Hf & Hz & _).
  assert (Sp : spinless (lstep chk fuel l q) -> fst (run e (lstep chk fuel l q) s) <> Looping) by exact (spinless_wp e _ s).
  assert (Bd : forall A (p : prog A) (f : A -> prog (life * lout)), fst (run e p s) <> Looping -> (forall a, spinless (f a)) -> fst (run e (bind p f) s) <> Looping).
  { intros A p f Hp Hs. apply (wp_ended_bind e p f s Hp Hs). }
  unfold lstep in *. destruct q as [u|k m|mc|o|o| | | |k|k], (ph l) as [|d|k'|rd|] eqn:P; try (cbn [run fst]; discriminate);
    try solve [destruct (nth_error (asleep l) k); cbn [run fst]; discriminate].
  - apply Sp. destruct u; cbn; first [intros [got [?|?]]; exact Logic.I|intros [?|?]; exact Logic.I].
  - destruct (System.run_returns e (run_setup chk k m) ltac:(destruct k; apply System.returns_init) s) as (a & s' & R). apply Bd; [rewrite R; discriminate|]. intros [x|x]; exact Logic.I.
  - destruct (System.run_returns e (initialize_macraw mc) (System.returns_macraw mc) s) as (a & s' & R). apply Bd; [rewrite R; discriminate|]. intros [x|x]; exact Logic.I.
  - destruct S as [S|(_ & [S|S])]; try discriminate. apply Bd; [|intros; exact Logic.I]. now apply (step_ends_at e W An).
  - destruct S as [S|(_ & [S|S])]; try discriminate. destruct (nth_error (asleep l) k'); [|cbn [run fst]; discriminate]. apply Bd; [|intros; exact Logic.I]. now apply (step_ends_at e W An).
  - destruct S as [S|(_ & [S|S])]; try discriminate. destruct (Rw rd eq_refl) as (mc & k & q & ((S0 & _) & _)). destruct rd as [so]. cbn [raw_socket] in RO. subst so.
    apply Bd; [|intros; exact Logic.I]. apply (raw_step_ends e W An fuel o s S); [exact S0|exact Hf|exact Hz].
  - apply Sp. unfold dev_reset. destruct (any_allocated d); cbn; [exact Logic.I|]. intros [?|?]; exact Logic.I.
  - destruct (nth_error (asleep l) k') as [d|]; [|cbn [run fst]; discriminate]. apply Sp. unfold dev_reset. destruct (any_allocated d); cbn; [exact Logic.I|]. intros [?|?]; exact Logic.I.
Qed.
Lemma life_ends e W chk fuel : answers e W -> forall ops l s, Forall (patient fuel W) ops -> wired l -> armed l (s_chip s) ->
  fst (run e (run_life chk fuel l ops) s) <> Looping.
Proof.
  intros An. induction ops as [|q ops IH]; intros l s F Wl A; cbn [run_life]; [discriminate|]. inversion F as [|? ? F1 F2]; subst.
  pose proof (lstep_ends e W chk fuel l q s An F1 Wl A) as E. rewrite run_bind.
  destruct (run e (lstep chk fuel l q) s) as [[[l1 o1]| | |] s1] eqn:R; cbn [fst snd] in *; try discriminate; [|now elim E].
  pose proof (lstep_armed e chk fuel l q s _ s1 Wl A R) as A1. cbn [fst] in A1.
  assert (W1 : wired l1).
  { destruct (run_exec e (lstep chk fuel l q) s _ _ R) as (tr & X). exact (proj2 (ptree_exec _ _ _ _ _ _ (pt_lstep chk fuel l q Wl) X)). }
  specialize (IH l1 s1 F2 W1 A1). rewrite run_bind. destruct (run e (run_life chk fuel l1 ops) s1) as [[| | |] s2]; cbn [fst snd run] in *; try discriminate. now elim IH.
Qed.
Lemma armed_new c : armed life_new c.
Proof. split; [right; split; [reflexivity|now left]|discriminate]. Qed.
Lemma run_never_cut {A} e (p : prog A) : forall s, fst (run e p s) <> Cut.
Proof.
  induction p as [a|w| |b a d k IH|b a d k IH]; intros s; cbn [run]; try discriminate.
  - destruct (bus_read e b a d s) as [r s']. apply IH.
  - destruct (bus_write e b a d s) as [r s']. apply IH.
Qed.
