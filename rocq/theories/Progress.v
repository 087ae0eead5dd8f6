(** Progress of a SEND when the network is kept from cutting it off (used by TCP, UDP and
    MACRAW), and calls seen from a socket whose state survives. *)
From Verif Require Export TcpReceive.
From Verif Require Import Datasheet.

Lemma nstep_sock i c ev :
  (ev_sock ev = Some i /\ socks (nstep c ev) i = sock_step (socks c i) ev) \/
  (ev_sock ev <> Some i /\ socks (nstep c ev) i = socks c i).
Proof.
  unfold nstep. destruct (ev_sock ev) as [n|] eqn:E.
  - unfold set_sock. cbn [socks]. destruct (N.eqb_spec i n) as [->|Hne]; [now left|right]. split; congruence.
  - right. split; [congruence|]. now destruct ev.
Qed.
(** an invariant of the events that may happen *)
Lemma nsteps_keeps i (A : nevent -> Prop) (P : sock -> Prop) :
  (forall x ev, A ev -> ev_sock ev = Some i -> P x -> P (sock_step x ev)) ->
  forall l c, (forall ev, In ev l -> A ev) -> P (socks c i) -> P (socks (nsteps c l) i).
Proof.
  intros H. unfold nsteps. induction l as [|ev l IH]; intros c Hl Hc; cbn [fold_left]; [exact Hc|].
  apply IH; [intros x Hx; apply Hl; now right|]. destruct (nstep_sock i c ev) as [[E ->]|[_ ->]]; [|exact Hc].
  apply H; auto. apply Hl. now left.
Qed.
(** once one of the events has had its effect, it lasts *)
Lemma nsteps_reaches i (A : nevent -> Prop) (P R : sock -> Prop) (b : nevent) : ev_sock b = Some i ->
  (forall x ev, A ev -> ev_sock ev = Some i -> P x \/ R x -> P (sock_step x ev) \/ R (sock_step x ev)) ->
  (forall x ev, A ev -> ev_sock ev = Some i -> R x -> R (sock_step x ev)) ->
  (forall x, P x -> R (sock_step x b)) ->
  forall l c, (forall ev, In ev l -> A ev) -> P (socks c i) \/ R (socks c i) -> In b l -> R (socks (nsteps c l) i).
Proof.
  intros Eb H1 H2 H3. unfold nsteps. induction l as [|ev l IH]; intros c Hl Hc Hin; [destruct Hin|].
  cbn [fold_left]. assert (Hl' : forall x, In x l -> A x) by (intros x Hx; apply Hl; now right).
  assert (HA : A ev) by (apply Hl; now left).
  destruct Hin as [->|Hin].
  - apply (nsteps_keeps i A R); auto. destruct (nstep_sock i c b) as [[_ ->]|[X _]]; [|contradiction].
    destruct Hc as [Hc|Hc]; [now apply H3|now apply H2].
  - apply IH; auto. destruct (nstep_sock i c ev) as [[E ->]|[_ ->]]; [|exact Hc]. now apply H1.
Qed.

(** ** A property of the socket that the events keep, while the driver reads, fills the TX
    buffer and writes pointers *)
Section Walk.
  Context (e : env) (i : N) (P : sock -> Prop).
  Hypothesis NF : no_faults e.
  Hypothesis Pev : forall t x ev, In ev (happens e t) -> ev_sock ev = Some i -> P x -> P (sock_step x ev).
  Hypothesis Ptxm : forall x m, P x -> P (set_txm x m).
  Hypothesis Pregs : forall x m, P x -> P (set_regs x m).

  Lemma walk_tick s : P (sk i s) -> P (sk i (tick e s)).
  Proof.
    intros H. unfold sk in *. cbn [s_chip tick].
    apply (nsteps_keeps i (fun ev => In ev (happens e (s_tick s))) P); auto.
    intros x ev Hin E. now apply (Pev (s_tick s)).
  Qed.
  Lemma walk_read_bytes blk : forall n a s, P (sk i s) -> P (sk i (snd (read_bytes e blk a n s))).
  Proof.
    induction n as [|n IH]; intros a s H; cbn [read_bytes]; [exact H|].
    specialize (IH (next_addr a) (tick e s) (walk_tick _ H)). destruct (read_bytes e blk (next_addr a) n (tick e s)). exact IH.
  Qed.
  Lemma walk_write_tx_bytes : forall d a s, P (sk i s) -> P (sk i (write_bytes e (BSB_TX i) a d s)).
  Proof.
    induction d as [|b d IH]; intros a s H; cbn [write_bytes]; [exact H|]. apply IH.
    pose proof (walk_tick s H) as H1. unfold sk, on_chip in *. cbn [s_chip].
    unfold wbyte. destruct (blk_tx i) as (-> & -> & ->). cbv zeta. destruct (_ =? 0); [exact H1|].
    unfold set_sock. cbn [socks]. rewrite N.eqb_refl. now apply Ptxm.
  Qed.
  Lemma walk_write_reg_bytes : forall d a s, P (sk i s) -> Sn_IR < a -> a + len d < 65536 ->
    P (sk i (write_bytes e (BSB_REG i) a d s)).
  Proof.
    induction d as [|b d IH]; intros a s H Ha Hl; cbn [write_bytes]; [exact H|]. rewrite len_cons in Hl.
    unfold next_addr. rewrite N.mod_small by lia. apply IH; [|unfold Sn_IR in *; lia|lia].
    pose proof (walk_tick s H) as H1. unfold sk, on_chip in *. cbn [s_chip]. rewrite wbyte_reg. unfold sock_wr.
    destruct (N.eqb_spec a Sn_CR); [unfold Sn_CR, Sn_IR in *; lia|]. destruct (N.eqb_spec a Sn_IR); [lia|].
    destruct (read_only a); [exact H1|now apply Pregs].
  Qed.
  Lemma wp_read_walk {A} blk a buf (k : list byte * res unit berr -> prog A) Q s : P (sk i s) ->
    (forall got s1, length got = length buf -> P (sk i s1) -> wp e (k (got, Ok tt)) Q s1) -> wp e (BusRead blk a buf k) Q s.
  Proof.
    intros H Hk. unfold wp. cbn [run]. unfold bus_read. rewrite NF.
    pose proof (walk_read_bytes blk (length buf) a s H) as H1. pose proof (read_bytes_length e blk (length buf) a s) as L.
    destruct (read_bytes e blk a (length buf) s) as [l s2]. cbn [fst snd] in *.
    now apply (Hk l (end_call s2)).
  Qed.
  Lemma wp_write_tx_walk {A} a d (k : res unit berr -> prog A) Q s : P (sk i s) ->
    (forall s1, P (sk i s1) -> wp e (k (Ok tt)) Q s1) -> wp e (BusWrite (BSB_TX i) a d k) Q s.
  Proof.
    intros H Hk. unfold wp. cbn [run]. unfold bus_write. rewrite NF. apply Hk. exact (walk_write_tx_bytes d a s H).
  Qed.
  Lemma wp_write_reg_walk {A} a d (k : res unit berr -> prog A) Q s : P (sk i s) -> Sn_IR < a -> a + len d < 65536 ->
    (forall s1, P (sk i s1) -> wp e (k (Ok tt)) Q s1) -> wp e (BusWrite (BSB_REG i) a d k) Q s.
  Proof.
    intros H Ha Hl Hk. unfold wp. cbn [run]. unfold bus_write. rewrite NF. apply Hk. exact (walk_write_reg_bytes d a s H Ha Hl).
  Qed.
  Lemma wp_read_reg_walk {R} blk a n (h : berr -> R) (k : list byte -> prog R) (Q : outcome R -> sys -> Prop) s : P (sk i s) ->
    (forall got s1, length got = n -> P (sk i s1) -> wp e (k got) Q s1) -> wp e (try x <- read_reg blk a n else h ;; k x) Q s.
  Proof.
    intros H Hk. unfold read_reg, try_. cbn [bind]. apply wp_read_walk; [exact H|]. intros got s1 L H1. cbn [bind fst snd].
    apply Hk; [|exact H1]. rewrite L. apply repeat_length.
  Qed.
  (** staging data: read the write pointer, fill the buffer, move the write pointer *)
  Lemma wp_stage_walk {R} (h : berr -> R) w (k : prog R) (Q : outcome R -> sys -> Prop) s : i < 8 -> P (sk i s) ->
    (forall s1, P (sk i s1) -> wp e k Q s1) ->
    wp e (try wp <- get_tx_write_pointer (socket_new i) else h ;;
          try a <- write_frame (tx_buffer (socket_new i)) wp w else h ;;
          try b <- set_tx_write_pointer (socket_new i) (wadd16 wp (as_u16 (len w))) else h ;;
          k) Q s.
  Proof.
    intros Hi H Hk. apply wp_try. unfold get_tx_write_pointer. apply wp_read_reg_walk; [exact H|]. intros got s1 _ H1.
    apply wp_ret. cbv beta iota. apply wp_try. unfold write_frame. rewrite so_tx by exact Hi.
    apply wp_write_tx_walk; [exact H1|]. intros s2 H2. apply wp_ret. cbv beta iota.
    apply wp_try. unfold set_tx_write_pointer, write_frame. rewrite so_reg by exact Hi.
    apply wp_write_reg_walk; [exact H2|reflexivity|now vm_compute|]. intros s3 H3. now apply wp_ret, Hk.
  Qed.
End Walk.

Section Progress.
  Context (e : env) (i : N).
  Hypothesis NF : no_faults e.
  Hypothesis Hi : i < 8.
  (** the chip does not give up the SEND *)
  Definition gives_up (ev : nevent) : Prop := (exists b, ev = EvDropped i b) \/ (exists b, ev = EvSendTimeout i b).
  Hypothesis Clean : forall t ev, In ev (happens e t) -> ~ gives_up ev.

  Definition st_busy (x : sock) : Prop := tx_busy x = true.
  Definition st_due (x : sock) : Prop := tx_okdue x = true.
  Definition st_ok (x : sock) : Prop := sendok x = true.

  Lemma ok_step x ev : st_ok x -> st_ok (sock_step x ev).
  Proof.
    unfold st_ok, sendok. intros H. ev_cases ev; auto; rewrite N.lor_spec, H; reflexivity.
  Qed.
  Lemma due_step x ev : ~ gives_up ev -> ev_sock ev = Some i -> st_due x \/ st_ok x -> st_due (sock_step x ev) \/ st_ok (sock_step x ev).
  Proof.
    intros G E [H|H]; [|right; now apply ok_step].
    destruct ev as [n|n|n|n tm|n d|n ip port d|d|n k0|n|n advance|n k0|v]; cbn [ev_sock] in E; try discriminate E;
      try (injection E as ->); try (elim G; now (left + right); eauto).
    all: try (left; unfold st_due, sock_step, transmit, rx_append in *; cbv zeta;
      repeat match goal with |- context [if ?b then _ else _] =>
             lazymatch b with context [if _ then _ else _] => fail | _ => destruct b end end; sfields; auto; fail).
    right. unfold st_ok, sendok, st_due in *. cbn [sock_step]. rewrite H. sfields. rewrite N.lor_spec.
    change (N.testbit IR_SENDOK 4) with true. apply orb_true_r.
  Qed.
  Lemma busy_step x ev : ~ gives_up ev -> ev_sock ev = Some i -> st_busy x \/ (st_due x \/ st_ok x) ->
    st_busy (sock_step x ev) \/ (st_due (sock_step x ev) \/ st_ok (sock_step x ev)).
  Proof.
    intros G E [H|H]; [|right; now apply due_step].
    destruct ev as [n|n|n|n tm|n d|n ip port d|d|n k0|n|n advance|n k0|v]; cbn [ev_sock] in E; try discriminate E;
      try (injection E as ->); try (elim G; now (left + right); eauto).
    all: try (left; unfold st_busy, sock_step, rx_append in *; cbv zeta;
      repeat match goal with |- context [if ?b then _ else _] =>
             lazymatch b with context [if _ then _ else _] => fail | _ => destruct b end end; sfields; auto; fail).
    cbn [sock_step]. unfold transmit, st_busy, st_due in *. rewrite H. cbv zeta.
    repeat match goal with |- context [if ?b then _ else _] =>
             lazymatch b with context [if _ then _ else _] => fail | _ => destruct b end end; sfields; auto.
  Qed.
  (** everything goes out *)
  Lemma transmit_all x : st_busy x -> st_due (sock_step x (EvTransmit i 65535)) \/ st_ok (sock_step x (EvTransmit i 65535)).
  Proof.
    intros H. left. cbn [sock_step]. unfold transmit, st_busy, st_due in *. rewrite H. cbv zeta.
    pose proof (sub16_lt (tx_end x) (tx_rd x)).
    replace (N.min 65535 (sub16 (tx_end x) (tx_rd x))) with (sub16 (tx_end x) (tx_rd x)) by lia.
    replace (if (sr x =? SOCK_UDP) || (sr x =? SOCK_MACRAW) then sub16 (tx_end x) (tx_rd x) else sub16 (tx_end x) (tx_rd x))
      with (sub16 (tx_end x) (tx_rd x)) by (now destruct ((sr x =? SOCK_UDP) || (sr x =? SOCK_MACRAW))).
    rewrite N.eqb_refl. reflexivity.
  Qed.
  Lemma ok_raised x : st_due x -> st_ok (sock_step x (EvSendOk i)).
  Proof.
    intros H. unfold st_ok, sendok, st_due in *. cbn [sock_step]. rewrite H. sfields. rewrite N.lor_spec.
    change (N.testbit IR_SENDOK 4) with true. apply orb_true_r.
  Qed.

  Lemma wp_has_interrupt_exact code k (R : outcome (res bool berr) -> sys -> Prop) s :
    interrupt_u8 code = 2 ^ k -> k < 8 ->
    R (Done (Ok (N.testbit (ir (sk i (tick e s))) k))) (end_call (tick e s)) ->
    wp e (has_interrupt (socket_new i) code) R s.
  Proof.
    intros Hk Hk8 H. unfold has_interrupt, read_reg, try_. cbn [bind zeros repeat]. rewrite so_reg by exact Hi.
    unfold wp. cbn [run]. unfold bus_read. rewrite NF. cbn [length read_bytes]. rewrite rbyte_reg. cbn [bind snd fst run].
    change (byte0 [sock_rd (socks (s_chip (tick e s)) i) s_INTERRUPT]) with (u8 (ir (sk i (tick e s)))).
    rewrite Hk, flag_read by assumption. exact H.
  Qed.

  (** every window of [W] bytes on the bus brings a full transmission and a SENDOK *)
  Context (W : nat).
  Definition soon (b : nevent) : Prop := forall t, exists t', (t <= t' < t + W)%nat /\ In b (happens e t').
  Hypothesis FT : soon (EvTransmit i 65535).
  Hypothesis FO : soon (EvSendOk i).

  Definition within (b : nevent) (s : sys) (n : nat) : Prop :=
    exists t, (s_tick s <= t < s_tick s + n)%nat /\ In b (happens e t).
  Lemma within_next b s n : within b s (S n) -> In b (happens e (s_tick s)) \/ within b (end_call (tick e s)) n.
  Proof.
    intros (t & Ht & Hb). destruct (Nat.eq_dec t (s_tick s)) as [->|Hn]; [now left|right].
    exists t. cbn [s_tick tick end_call]. split; [lia|exact Hb].
  Qed.

  Lemma wait_done fuel s (Q : outcome (res unit berr) -> sys -> Prop) : st_ok (sk i (tick e s)) ->
    Q (Done (Ok tt)) (end_call (tick e s)) -> wp e (wait_send_ok (S fuel) (socket_new i)) Q s.
  Proof.
    intros H HQ. cbn [wait_send_ok]. apply wp_try, (wp_has_interrupt_exact InSendOk 4); [reflexivity|reflexivity|].
    fold (sendok (sk i (tick e s))). unfold st_ok in H. rewrite H. now apply wp_ret.
  Qed.
  Lemma wait_due (Q : outcome (res unit berr) -> sys -> Prop) : (forall s', Q (Done (Ok tt)) s') -> forall fuel s,
    st_due (sk i s) \/ st_ok (sk i s) -> within (EvSendOk i) s fuel ->
    wp e (wait_send_ok fuel (socket_new i)) Q s.
  Proof.
    intros HQ. induction fuel as [|fuel IH]; intros s D Hw; [destruct Hw as (t & Ht & _); lia|].
    apply within_next in Hw.
    assert (HA : forall ev, In ev (happens e (s_tick s)) -> ~ gives_up ev) by (intros ev; apply Clean).
    cbn [wait_send_ok]. apply wp_try, (wp_has_interrupt_exact InSendOk 4); [reflexivity|reflexivity|].
    fold (sendok (sk i (tick e s))). destruct (sendok (sk i (tick e s))) eqn:So; [now apply wp_ret|].
    destruct Hw as [Hin|Hw].
    - exfalso. assert (X : st_ok (sk i (tick e s))).
      { refine (nsteps_reaches i (fun ev => ~ gives_up ev) st_due st_ok (EvSendOk i) eq_refl _ _ ok_raised _ _ HA D Hin).
        - intros x ev G E. now apply due_step.
        - intros x ev _ _. apply ok_step. }
      unfold st_ok in X. congruence.
    - apply IH; [|exact Hw].
      refine (nsteps_keeps i (fun ev => ~ gives_up ev) (fun x => st_due x \/ st_ok x) _ _ _ HA D).
      intros x ev G E. now apply due_step.
  Qed.
  Lemma wait_busy (Q : outcome (res unit berr) -> sys -> Prop) : (forall s', Q (Done (Ok tt)) s') -> forall n fuel s,
    st_busy (sk i s) \/ (st_due (sk i s) \/ st_ok (sk i s)) -> within (EvTransmit i 65535) s n -> (n + W <= fuel)%nat ->
    wp e (wait_send_ok fuel (socket_new i)) Q s.
  Proof.
    intros HQ. induction n as [|n IH]; intros fuel s D Hw Hf; [destruct Hw as (t & Ht & _); lia|].
    apply within_next in Hw. destruct fuel as [|fuel]; [lia|].
    assert (HA : forall ev, In ev (happens e (s_tick s)) -> ~ gives_up ev) by (intros ev; apply Clean).
    cbn [wait_send_ok]. apply wp_try, (wp_has_interrupt_exact InSendOk 4); [reflexivity|reflexivity|].
    fold (sendok (sk i (tick e s))). destruct (sendok (sk i (tick e s))) eqn:So; [now apply wp_ret|].
    destruct Hw as [Hin|Hw].
    - apply wait_due; [exact HQ| |].
      + refine (nsteps_reaches i (fun ev => ~ gives_up ev) st_busy (fun x => st_due x \/ st_ok x) (EvTransmit i 65535) eq_refl _ _ transmit_all _ _ HA D Hin).
        * intros x ev G E. now apply busy_step.
        * intros x ev G E. now apply due_step.
      + destruct (FO (s_tick (end_call (tick e s)))) as (t & Ht & Hb). exists t. split; [lia|exact Hb].
    - apply IH; [|exact Hw|lia].
      refine (nsteps_keeps i (fun ev => ~ gives_up ev) (fun x => st_busy x \/ (st_due x \/ st_ok x)) _ _ _ HA D).
      intros x ev G E. now apply busy_step.
  Qed.
  Lemma wait_terminates (Q : outcome (res unit berr) -> sys -> Prop) fuel s : (forall s', Q (Done (Ok tt)) s') ->
    st_busy (sk i s) -> (2 * W <= fuel)%nat -> wp e (wait_send_ok fuel (socket_new i)) Q s.
  Proof.
    intros HQ H Hf. apply (wait_busy Q HQ W); [now left| |lia].
    destruct (FT (s_tick s)) as (t & Ht & Hb). exists t. auto.
  Qed.

  (** ** States in which a SEND is taken, kept by the events *)
  Definition open_state (z : N) : Prop := z = SOCK_ESTABLISHED \/ z = SOCK_CLOSE_WAIT \/ z = SOCK_UDP \/ z = SOCK_MACRAW.
  Lemma open_sends z : open_state z -> is_sending_state z = true.
  Proof. intros [-> | [-> | [-> | ->]]]; reflexivity. Qed.
  Lemma open_step x ev : ~ gives_up ev -> ev_sock ev = Some i -> open_state (sr x) -> open_state (sr (sock_step x ev)).
  Proof.
    intros G E H.
    destruct ev as [n|n|n|n tm|n d|n ip port d|d|n k0|n|n advance|n k0|v]; cbn [ev_sock] in E; try discriminate E;
      try (injection E as ->); try (elim G; now (left + right); eauto).
    all: unfold sock_step, transmit, rx_append; cbv zeta;
      repeat match goal with |- context [if ?b then _ else _] =>
             lazymatch b with context [if _ then _ else _] => fail | _ => destruct b eqn:? end end; sfields; auto;
      unfold open_state in *; bsplit; try (rewrite Heqb in H; intuition discriminate); auto.
  Qed.
  Definition opn (x : sock) : Prop := open_state (sr x).
  Lemma opn_ev t x ev : In ev (happens e t) -> ev_sock ev = Some i -> opn x -> opn (sock_step x ev).
  Proof. intros H E. apply open_step; [now apply (Clean t)|exact E]. Qed.
  Lemma opn_txm x m : opn x -> opn (set_txm x m). Proof. exact (fun H => H). Qed.
  Lemma opn_regs x m : opn x -> opn (set_regs x m). Proof. exact (fun H => H). Qed.
  (** SEND in such a state starts a transmission *)
  Lemma wp_send_opn {R} (h : berr -> R) (k : prog R) (Q : outcome R -> sys -> Prop) s : opn (sk i s) ->
    (forall s1, st_busy (sk i s1) -> wp e k Q s1) ->
    wp e (try c <- command (socket_new i) CmSend else h ;; k) Q s.
  Proof.
    intros H Hk. apply wp_try. unfold command, write_frame. rewrite so_reg by exact Hi.
    unfold wp at 1. cbn [run]. unfold bus_write. rewrite NF. cbn [write_bytes run fst snd]. apply Hk.
    pose proof (walk_tick e i opn opn_ev s H) as H1. unfold opn, sk, on_chip in *. cbn [s_chip end_call]. rewrite wbyte_reg.
    change (sock_wr i (socks (s_chip (tick e s)) i) s_COMMAND (u8 (command_u8 CmSend)))
      with (do_command i (socks (s_chip (tick e s)) i) (command_u8 CmSend)).
    rewrite do_send, (open_sends _ H1). reflexivity.
  Qed.
End Progress.
