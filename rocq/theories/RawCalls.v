(** Single calls on a MACRAW device: what each leaves behind. *)
From Verif Require Export RawSession.
From Verif Require Import Datasheet ErrorFacts TcpSession.

(** ** Waiting for SENDOK *)
(** from byte [t] on the chip never reports SENDOK on socket [i] *)
Definition never_ok (e : env) (i : N) (t : nat) : Prop := forall t', (t <= t')%nat -> ~ In (EvSendOk i) (happens e t').
Lemma nook_step i x ev : ev_sock ev = Some i -> ev <> EvSendOk i -> sendok x = false -> sendok (sock_step x ev) = false.
Proof.
  intros Hs Ho H. unfold sendok in *.
  assert (A : forall c, N.testbit (ir (rx_append x c)) 4 = false).
  { intros c. unfold rx_append. destruct (_ <=? _); [|exact H]. cbv zeta. sfields. now rewrite testbit_lor. }
  destruct ev as [n|n|n|n timeout|n d|n ip port d|d|n k0|n|n advance|n k0|v]; cbn [sock_step]; cbn in Hs.
  - destruct (_ || _); [|exact H]. sfields. now rewrite testbit_lor.
  - destruct (_ =? _); [|exact H]. sfields. now rewrite testbit_lor.
  - destruct (_ =? _); [|exact H]. sfields. now rewrite testbit_lor.
  - destruct (_ || _); [|exact H]. sfields. destruct timeout; now rewrite testbit_lor.
  - destruct (_ =? _); [apply A|exact H].
  - destruct (_ && _); [apply A|exact H].
  - destruct (_ && _); [apply A|exact H].
  - unfold transmit. destruct (tx_busy x); [|exact H]. cbv zeta.
    repeat match goal with |- context [if ?b then _ else _] =>
      lazymatch b with context [if _ then _ else _] => fail | _ => destruct b end end; exact H.
  - injection Hs as ->. now elim Ho.
  - destruct (tx_busy x); [|exact H]. cbv zeta. destruct advance, (_ || _); sfields; now rewrite testbit_lor.
  - exact H.
  - discriminate.
Qed.
Lemma nook_nsteps i l : ~ In (EvSendOk i) l -> forall c, sendok (socks c i) = false -> sendok (socks (nsteps c l) i) = false.
Proof.
  unfold nsteps. induction l as [|ev l IH]; intros Hl c H; cbn [fold_left]; [exact H|]. apply IH; [intros X; apply Hl; now right|].
  unfold nstep. destruct (ev_sock ev) as [n|] eqn:E; [|destruct ev; exact H]. unfold set_sock. cbn [socks].
  destruct (N.eqb_spec i n) as [<-|]; [|exact H]. apply (nook_step i); auto. intros ->. apply Hl. now left.
Qed.
Lemma nook_wr n x a v : sendok x = false -> sendok (sock_wr n x a v) = false.
Proof.
  intros H. unfold sock_wr, do_command, sendok in *. cbv zeta.
  repeat match goal with |- context [if ?b then _ else _] => destruct b end; try exact H.
  cbn [ir set_ir]. rewrite N.ldiff_spec, H. reflexivity.
Qed.
Lemma nook_wbyte i c blk a v : sendok (socks c i) = false -> sendok (socks (wbyte c blk a v) i) = false.
Proof.
  intros H. unfold wbyte. destruct (blk =? 0).
  - destruct (a =? MR); [destruct (N.testbit (b2n v) 7); [reflexivity|exact H]|]. destruct (a =? VERSIONR); exact H.
  - cbv zeta.
    assert (A : forall x, sendok (socks c i) = false -> (i = blk / 4 -> sendok x = false) -> sendok (socks (set_sock c (blk / 4) x) i) = false).
    { intros x _ Hx. unfold set_sock. cbn [socks]. destruct (N.eqb_spec i (blk / 4)) as [E|_]; [now apply Hx|exact H]. }
    destruct (blk mod 4) as [|[[p|p|]|[p|p|]|]]; try exact H.
    + destruct (_ =? 0); [exact H|]. apply A; [exact H|]. intros <-. exact H.
    + destruct (_ =? 0); [exact H|]. apply A; [exact H|]. intros <-. exact H.
    + apply A; [exact H|]. intros <-. now apply nook_wr.
Qed.
Section Never.
  Context (e : env) (i : N).
  Definition nook (s : sys) : Prop := never_ok e i (s_tick s) /\ sendok (sk i s) = false.
  Lemma nook_tick s : nook s -> nook (tick e s).
  Proof.
    intros (H1 & H2). split; [intros t' Ht; apply H1; cbn [s_tick tick] in Ht; lia|].
    apply nook_nsteps; [now apply H1|exact H2].
  Qed.
  Lemma nook_read blk : forall n a s, nook s -> nook (snd (read_bytes e blk a n s)).
  Proof.
    induction n as [|n IH]; intros a s H; cbn [read_bytes]; [exact H|]. specialize (IH (next_addr a) (tick e s) (nook_tick s H)).
    destruct (read_bytes e blk (next_addr a) n (tick e s)) as [l s2]. exact IH.
  Qed.
  Lemma nook_write blk : forall d a s, nook s -> nook (write_bytes e blk a d s).
  Proof.
    induction d as [|b d IH]; intros a s H; cbn [write_bytes]; [exact H|]. apply IH. destruct (nook_tick s H) as (H1 & H2).
    split; [exact H1|]. now apply nook_wbyte.
  Qed.
  Lemma nook_run {A} (p : prog A) : forall s, nook s -> nook (snd (run e p s)).
  Proof.
    induction p as [a|w| |b a d k IH|b a d k IH]; intros s H; cbn [run]; try exact H.
    - unfold bus_read. destruct (fails e (s_call s)) as [[q er]|].
      + pose proof (nook_read b (Nat.min q (length d)) a s H) as X. destruct (read_bytes e b a (Nat.min q (length d)) s) as [g s']. apply IH. exact X.
      + pose proof (nook_read b (length d) a s H) as X. destruct (read_bytes e b a (length d) s) as [g s']. apply IH. exact X.
    - unfold bus_write. destruct (fails e (s_call s)) as [[q er]|]; apply IH; apply (nook_write b _ a s H).
  Qed.
End Never.
Lemma wp_any {A} e (p : prog A) (Q : outcome A -> sys -> Prop) s : (forall o s', Q o s') -> wp e p Q s.
Proof. intros H. apply H. Qed.

(** whatever the frame and the chip's state: without SENDOK there is no success *)
Lemma raw_write_waits e i fuel frame s : no_faults e -> i < 8 -> never_ok e i (s_tick s) ->
  forall n s', run e (raw_write_frame fuel (mkRaw (socket_new i)) frame) s <> (Done (Ok n), s').
Proof.
  intros NF Hi NO n s' R.
  pose proof (eq_refl (raw_write_frame fuel (mkRaw (socket_new i)) frame)) as E. unfold raw_write_frame in E at 2. cbn [raw_socket] in E. cbv zeta in E.
  rewrite E in R. clear E. unfold try_ in R at 1. rewrite run_bind in R.
  destruct (run e (reset_interrupt (socket_new i) InSendOk) s) as [o1 s1] eqn:R1. cbn [fst snd] in R.
  assert (X : o1 = Done (Ok tt) /\ nook e i s1).
  { unfold reset_interrupt, write_frame in R1. rewrite so_reg in R1 by exact Hi. cbn [run bind] in R1. unfold bus_write in R1. rewrite NF in R1. cbn [run] in R1.
    injection R1 as <- <-. split; [reflexivity|]. split.
    - intros t' Ht. apply NO. cbn [s_tick end_call on_chip tick write_bytes] in Ht. lia.
    - cbn [write_bytes]. unfold sk. cbn [s_chip end_call on_chip]. unfold wbyte. destruct (blk_reg i) as (-> & -> & ->).
      cbn [socks set_sock]. rewrite N.eqb_refl. unfold sock_wr. unfold sendok.
      change (s_INTERRUPT =? Sn_CR) with false. change (s_INTERRUPT =? Sn_IR) with true. cbv iota. cbn [ir set_ir]. rewrite N.ldiff_spec. apply andb_false_r. }
  destruct X as (-> & No). cbv beta iota in R.
  match type of R with run e ?k s1 = _ => set (p := k) in * end.
  assert (W : wp e p (fun o t => forall m, o = Done (Ok m) -> sendok (sk i t) = true) s1).
  { unfold p. apply wp_try, wp_any. intros [[a|x]|w| |] t1; try discriminate.
    apply wp_try, wp_any. intros [[b|x]|w| |] t2; try discriminate.
    apply wp_try, wp_any. intros [[c|x]|w| |] t3; try discriminate.
    apply wp_try, wp_wait_send_ok; auto; [|discriminate]. intros t4 _ So. cbv beta iota. now apply wp_ret. }
  pose proof (nook_run e i p s1 No) as (_ & F). unfold wp in W. rewrite R in W, F. cbn [fst snd] in W, F. rewrite (W n eq_refl) in F. discriminate.
Qed.

(** from a state between two calls it therefore never returns *)
Lemma raw_write_hangs e fuel frame s : no_faults e -> rawst (sk 0 s) -> never_ok e 0 (s_tick s) ->
  exists s', run e (raw_write_frame fuel raw0 frame) s = (Looping, s').
Proof.
  intros NF St NO. pose proof (raw_write_waits e 0 fuel frame s NF ltac:(reflexivity) NO) as H. fold raw0 in H.
  destruct (run e (raw_write_frame fuel raw0 frame) s) as [o s'] eqn:R. exists s'. f_equal.
  refine (wp_run e _ (fun o' t => (o', t) = (o, s') -> o' = Looping) s o s' R _ eq_refl).
  apply wp_raw_write; auto; try reflexivity.
  - intros t _ _ _ E. injection E as <- <-. now elim (H (len frame) t).
  - intros t _ _ E. injection E as <- <-. now elim (H 0 t).
Qed.

(** ** Interrupt control *)
(** socket state with another interrupt mask *)
Definition set_imr (x : sock) (v : byte) : sock := set_regs x (upd (regs x) Sn_IMR v).
Lemma set_imr_step x v ev : sock_step (set_imr x v) ev = set_imr (sock_step x ev) v.
Proof.
  destruct x as [r sr0 ir0 tr ta te tb to rw rb tm rm s1 s2 st rl dl]. unfold set_imr.
  destruct ev as [n|n|n|n timeout|n d|n ip port d|d|n k0|n|n advance|n k0|w]; unfold sock_step, transmit, rx_append, rx_rsr, rx_size, tx_size; sfields; cbv zeta;
  repeat match goal with |- context [upd r Sn_IMR v ?a] => change (upd r Sn_IMR v a) with (r a) end; try reflexivity;
  repeat match goal with |- context [if ?b then _ else _] =>
      lazymatch b with context [if _ then _ else _] => fail | _ => destruct b end end; reflexivity.
Qed.
(** [c'] is [c] with socket 0's mask set to [v] *)
Definition masked (v : byte) (c c' : chip) : Prop :=
  (forall a, com c' a = com c a) /\ forall j, socks c' j = if j =? 0 then set_imr (socks c 0) v else socks c j.
Lemma masked_nstep v c c' ev : masked v c c' -> masked v (nstep c ev) (nstep c' ev).
Proof.
  intros (A & B). unfold nstep. destruct (ev_sock ev) as [n|] eqn:E.
  - split; [exact A|]. intros j. unfold set_sock. cbn [socks]. rewrite !B. destruct (N.eqb_spec j 0) as [->|Hj].
    + destruct (N.eqb_spec 0 n) as [<-|]; [|reflexivity]. rewrite N.eqb_refl. apply set_imr_step.
    + destruct (N.eqb_spec j n) as [<-|]; [|reflexivity]. destruct (N.eqb_spec j 0); [contradiction|reflexivity].
  - destruct ev; try (split; assumption). split; [|exact B]. intros a. cbn [com set_com]. unfold upd. rewrite !A. reflexivity.
Qed.
Lemma masked_nsteps v l : forall c c', masked v c c' -> masked v (nsteps c l) (nsteps c' l).
Proof. unfold nsteps. induction l as [|ev l IH]; intros c c' H; cbn [fold_left]; [exact H|]. apply IH. now apply masked_nstep. Qed.
Lemma masked_alone v e : forall n c c' t, masked v c c' -> masked v (alone e c t n) (alone e c' t n).
Proof. induction n as [|n IH]; intros c c' t H; cbn [alone]; [exact H|]. apply IH. now apply masked_nsteps. Qed.

Section Control.
  Context (e : env).
  Hypothesis NF : no_faults e.
  (** one byte into socket 0's register block *)
  Lemma wp_reg_write a v {A} (k : res unit berr -> prog A) Q s :
    (forall s', let c := alone e (s_chip s) (s_tick s) 1 in s_tick s' = S (s_tick s) ->
       (forall a, com (s_chip s') a = com c a) ->
       (forall j, socks (s_chip s') j = if j =? 0 then sock_wr 0 (socks c 0) a v else socks c j) -> wp e (k (Ok tt)) Q s') ->
    wp e (BusWrite (register (socket_new 0)) a [v] k) Q s.
  Proof.
    intros HQ. rewrite so_reg by reflexivity. unfold wp. cbn [run]. unfold bus_write. rewrite NF. cbn [write_bytes].
    apply HQ; cbn [s_chip s_tick end_call on_chip tick]; [reflexivity|unfold wbyte; destruct (blk_reg 0) as (-> & -> & ->); reflexivity|].
    unfold wbyte. destruct (blk_reg 0) as (-> & -> & ->). intros j. reflexivity.
  Qed.

  Lemma wp_raw_enable w (Q : outcome (res unit berr) -> sys -> Prop) s :
    (forall s', let c := alone e (s_chip s) (s_tick s) 2 in s_tick s' = (s_tick s + 2)%nat ->
       (forall j, socks (s_chip s') j = if j =? 0 then set_imr (socks c 0) w else socks c j) ->
       (forall a, com (s_chip s') a = if a =? SIMR then x01 else com c a) -> Q (Done (Ok tt)) s') ->
    wp e (raw_enable_interrupts raw0 w) Q s.
  Proof.
    intros HQ. unfold raw_enable_interrupts, set_interrupt_mask, write_frame, raw0. cbn [raw_socket].
    apply wp_try. apply wp_reg_write. intros s1 c1 T1 C1 S1. apply wp_ret. cbv beta iota.
    assert (M : masked w c1 (s_chip s1)).
    { split; [exact C1|]. intros j. rewrite S1. destruct (j =? 0); [|reflexivity]. rewrite u8_b2n. reflexivity. }
    apply wp_try. change COMMON with 0. change c_SOCKET_INTERRUPT_MASK with SIMR.
    apply wp_com_write; [exact NF|reflexivity|discriminate|right; discriminate|right; discriminate|]. cbn [length].
    intros s2 (O1 & O2) T2. apply wp_ret. cbv beta iota. apply wp_ret.
    apply (masked_alone w e 1 _ _ (s_tick s1)) in M. destruct M as (M1 & M2). apply HQ.
    - rewrite T2, T1. lia.
    - intros j. rewrite O2, M2, T1. reflexivity.
    - intros a. rewrite O1, M1, T1. change (len [u8 1]) with 1. destruct (N.eqb_spec a SIMR) as [->|Ha]; [reflexivity|].
      destruct (N.leb_spec SIMR a); [|reflexivity]. destruct (N.ltb_spec a (SIMR + 1)); [lia|]. reflexivity.
  Qed.
  Lemma wp_raw_disable (Q : outcome (res unit berr) -> sys -> Prop) s :
    (forall s', let c := alone e (s_chip s) (s_tick s) 2 in s_tick s' = (s_tick s + 2)%nat ->
       (forall j, socks (s_chip s') j = if j =? 0 then set_imr (socks c 0) xff else socks c j) ->
       (forall a, com (s_chip s') a = if a =? SIMR then x00 else com c a) -> Q (Done (Ok tt)) s') ->
    wp e (raw_disable_interrupts raw0) Q s.
  Proof.
    intros HQ. unfold raw_disable_interrupts, set_interrupt_mask, write_frame, raw0. cbn [raw_socket].
    apply wp_try. change COMMON with 0. change c_SOCKET_INTERRUPT_MASK with SIMR.
    apply wp_com_write; [exact NF|reflexivity|discriminate|right; discriminate|right; discriminate|]. cbn [length].
    intros s1 (O1 & O2) T1. apply wp_ret. cbv beta iota.
    apply wp_try. apply wp_reg_write. intros s2 c2 T2 C2 S2. apply wp_ret. cbv beta iota. apply wp_ret.
    assert (Ov : com_over SIMR [u8 0] c2 (alone e (s_chip s) (s_tick s) 2)).
    { change 2%nat with (1 + 1)%nat. rewrite alone_add, <- T1. unfold c2. cbn [alone]. apply com_over_nsteps; [right; discriminate|]. split; assumption. }
    destruct Ov as (V1 & V2). apply HQ.
    - rewrite T2, T1. lia.
    - intros j. rewrite S2, !V2. destruct (j =? 0); reflexivity.
    - intros a. rewrite C2, V1. change (len [u8 0]) with 1. destruct (N.eqb_spec a SIMR) as [->|Ha]; [reflexivity|].
      destruct (N.leb_spec SIMR a); [|reflexivity]. destruct (N.ltb_spec a (SIMR + 1)); [lia|]. reflexivity.
  Qed.
  Lemma wp_raw_clear (Q : outcome (res unit berr) -> sys -> Prop) s :
    (forall s', let c := alone e (s_chip s) (s_tick s) 1 in s_tick s' = (s_tick s + 1)%nat ->
       (forall j, socks (s_chip s') j = if j =? 0 then set_ir (socks c 0) (N.ldiff (ir (socks c 0)) 255) else socks c j) ->
       (forall a, com (s_chip s') a = com c a) -> Q (Done (Ok tt)) s') ->
    wp e (raw_clear_interrupts raw0) Q s.
  Proof.
    intros HQ. unfold raw_clear_interrupts, reset_interrupt, write_frame, raw0. cbn [raw_socket].
    apply wp_reg_write. intros s1 c1 T1 C1 S1. apply wp_ret. apply HQ; [lia|exact S1|exact C1].
  Qed.
End Control.
