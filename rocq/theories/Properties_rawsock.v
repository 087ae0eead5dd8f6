(** C92: the methods of a [Socket] and phy_config(), against the registers of the chip. *)
From Verif Require Import Verdicts SockRegs Progress Cases ValueFacts Properties_values.
From Verif Require Import Datasheet.

(** the bits of Sn_IR an [Interrupt] stands for, the datasheet's code of a command *)
Definition bits_of (c : Interrupt) : list N :=
  match c with InConnect => [0] | InDisconnect => [1] | InReceive => [2] | InTimeout => [3] | InSendOk => [4] | InAll => [0; 1; 2; 3; 4; 5; 6; 7] end.
Definition code_of (c : Command) : N :=
  match c with CmOpen => CR_OPEN | CmListen => CR_LISTEN | CmConnect => CR_CONNECT | CmDiscon => CR_DISCON | CmClose => CR_CLOSE | CmSend => CR_SEND | CmReceive => CR_RECV end.
(** the chip after [n] bytes of bus time without any access that changes it *)
Definition left_alone (e : env) (s s' : sys) (n : nat) : Prop :=
  s_tick s' = (s_tick s + n)%nat /\ s_chip s' = alone e (s_chip s) (s_tick s) n.
(** two bytes of a 16-bit register, the first read at [x], the second at [y] *)
Definition mixed (x y : N) : N := (x / 256) mod 256 * 256 + y mod 256.
(** [c'] is [c] but for socket [i] *)
Definition but_for (i : N) (c c' : chip) : Prop := com c' = com c /\ forall j, j <> i -> socks c' j = socks c j.

Lemma run_read {A} e b a n (k : list byte -> A) (w : res A berr -> sockout) s (x : History.app) r s' :
  run e (do r <- (do r <- (try d <- read_reg b a n else Err ;; Ret (Ok (k d))) ;; Ret (w r)) ;; Ret (x, RSockop r)) s = (Done r, s') ->
  exists got q, bus_read e b a (zeros n) s = ((got, q), s') /\ r = (x, RSockop (w (match q with Ok _ => Ok (k got) | Err er => Err er end))).
Proof.
  unfold read_reg. cbn [bind run try_]. destruct (bus_read e b a (zeros n) s) as [[got q] s1]. cbn [fst snd]. destruct q as [[]|er]; cbn; intros E; injection E as <- <-; eauto.
Qed.
Lemma run_write e b a d (w : res unit berr -> sockout) s (x : History.app) r s' :
  run e (do r <- (do r <- write_frame b a d ;; Ret (w r)) ;; Ret (x, RSockop r)) s = (Done r, s') ->
  exists q, bus_write e b a d s = (q, s') /\ r = (x, RSockop (w q)).
Proof. unfold write_frame. cbn [bind run]. destruct (bus_write e b a d s) as [q s1]. intros E. injection E as <- <-. eauto. Qed.
Lemma mixed_be x y : from_be [hi x; lo y] = mixed x y.
Proof. unfold hi, lo, from_be, mixed. cbn [fold_left]. rewrite !b2n_u8. lia. Qed.
Lemma mixed_same x : mixed x x = x mod 65536. Proof. unfold mixed. lia. Qed.
Lemma flag_bits x c : negb (N.land (b2n (u8 x)) (interrupt_u8 c) =? 0) = true <-> exists k, In k (bits_of c) /\ N.testbit x k = true.
Proof.
  rewrite b2n_u8, negb_true_iff, N.eqb_neq. split.
  - intros H. assert (K : exists k, N.testbit (N.land (x mod 256) (interrupt_u8 c)) k = true).
    { exists (N.log2 (N.land (x mod 256) (interrupt_u8 c))). now apply N.bit_log2. }
    destruct K as (k & K). rewrite N.land_spec in K. apply andb_true_iff in K as [K1 K2]. exists k. split.
    + assert (k < 8). { destruct (N.ltb_spec k 8) as [|L]; [assumption|]. change 256 with (2 ^ 8) in K1. rewrite N.mod_pow2_bits_high in K1 by exact L. discriminate K1. }
      assert (D : k = 0 \/ k = 1 \/ k = 2 \/ k = 3 \/ k = 4 \/ k = 5 \/ k = 6 \/ k = 7) by lia.
      destruct c; destruct D as [->|[->|[->|[->|[->|[->|[->| ->]]]]]]]; try discriminate K2; cbn; auto 9.
    + destruct (N.ltb_spec k 8) as [L|L]; change 256 with (2 ^ 8) in K1; [rewrite N.mod_pow2_bits_low in K1 by exact L; exact K1|rewrite N.mod_pow2_bits_high in K1 by exact L; discriminate K1].
  - intros (k & Hk & B) E. assert (F : N.testbit (N.land (x mod 256) (interrupt_u8 c)) k = true).
    { rewrite N.land_spec. change 256 with (2 ^ 8). assert (L : k < 8) by (destruct c; cbn in Hk; lia). rewrite N.mod_pow2_bits_low by exact L. rewrite B. cbn [andb].
      destruct c; cbn in Hk; repeat (destruct Hk as [<-|Hk]; [reflexivity|]); contradiction. }
    rewrite E, N.bits_0 in F. discriminate F.
Qed.
Lemma clear_bits x c k : N.testbit (N.ldiff x (b2n (u8 (interrupt_u8 c)))) k = N.testbit x k && negb (existsb (N.eqb k) (bits_of c)).
Proof.
  rewrite N.ldiff_spec. f_equal. f_equal. destruct (N.ltb_spec k 8) as [L|L].
  - assert (D : k = 0 \/ k = 1 \/ k = 2 \/ k = 3 \/ k = 4 \/ k = 5 \/ k = 6 \/ k = 7) by lia.
    destruct c; destruct D as [->|[->|[->|[->|[->|[->|[->| ->]]]]]]]; reflexivity.
  - transitivity false.
    + apply N.bits_above_log2. destruct c; cbn; lia.
    + destruct c; cbn [bits_of existsb]; symmetry; repeat (apply orb_false_iff; split; [apply N.eqb_neq; lia|]); reflexivity.
Qed.
Lemma write_two e b a v w s s' : bus_write e b a [v; w] s = (Ok tt, s') ->
  s_tick s' = (s_tick s + 2)%nat /\
  s_chip s' = wbyte (nsteps (wbyte (nsteps (s_chip s) (happens e (s_tick s))) b a v) (happens e (S (s_tick s)))) b (next_addr a) w.
Proof.
  unfold bus_write. destruct (fails e (s_call s)) as [[k er]|]; [discriminate|]. intros E. injection E as <-. cbn [write_bytes end_call on_chip tick s_chip s_tick]. split; [lia|reflexivity].
Qed.

Lemma got_one e b a got s s' : bus_read e b a (zeros 1) s = ((got, Ok tt), s') -> left_alone e s s' 1 /\ got = [rbyte (s_chip s') b a].
Proof.
  intros B. pose proof (bus_read_length e b a (zeros 1) s) as L. rewrite B in L. cbn in L. destruct got as [|g [|]]; try discriminate L.
  destruct (read_one e b a g (zeros 1) s s' eq_refl B) as (E1 & E2 & ->). split; [|reflexivity]. unfold left_alone. cbn [alone]. split; [lia|exact E1].
Qed.
Lemma got_two e b a got s s' : bus_read e b a (zeros 2) s = ((got, Ok tt), s') ->
  left_alone e s s' 2 /\ got = [rbyte (alone e (s_chip s) (s_tick s) 1) b a; rbyte (s_chip s') b (next_addr a)].
Proof.
  intros B. destruct (read_two e b a got (zeros 2) s s' eq_refl B) as (E1 & E2 & ->). split; [|reflexivity]. unfold left_alone. cbn [alone]. split; [lia|exact E1].
Qed.
Lemma alone_still e i s s' : left_alone e s s' 2 -> Forall (fun ev => ev_sock ev <> Some i) (happens e (S (s_tick s))) ->
  socks (s_chip s') i = socks (alone e (s_chip s) (s_tick s) 1) i.
Proof. intros [_ C] Q. rewrite C. cbn [alone]. now apply nsteps_aside. Qed.
Lemma alone_regs e i s s' : left_alone e s s' 2 -> regs (socks (s_chip s') i) = regs (socks (alone e (s_chip s) (s_tick s) 1) i).
Proof. intros [_ C]. rewrite C. cbn [alone]. apply nsteps_regs. Qed.

(** ** C92, reading *)
(** Full statement: the method answers the register as it was at some byte of the call, and leaves
    the chip alone.  Proved for all but Sn_TX_RD and Sn_TX_FSR, whose two bytes are read at two moments
    ([mixed]): the chip may change them in between ([C92_reads_refuted]).  (For Sn_RX_RSR, which
    is read until two values agree, see C58.) *)
Theorem C92_reads_partial e fuel ho s0 ops a outs s h k q a' r s' :
  run e (run_ops fuel (app_new ho) ops) s0 = (Done (a, outs), s) -> lookup h (handles a) = Some (HSock k) ->
  run e (step fuel a (OpSocket h q)) s = (Done (a', RSockop r), s') ->
  let now := socks (s_chip s') (index k) in
  a' = a /\
  match q, r with
  | KStatus, KByte (Ok b) => left_alone e s s' 1 /\ b = u8 (sr now)
  | KHasInterrupt c, KBool (Ok v) => left_alone e s s' 1 /\ (v = true <-> exists k, In k (bits_of c) /\ N.testbit (ir now) k = true)
  | KTxWrite, KNum (Ok v) => left_alone e s s' 2 /\ v = tx_wr now
  | KRxRead, KNum (Ok v) => left_alone e s s' 2 /\ v = rx_rd now
  | KTxRead, KNum (Ok v) => left_alone e s s' 2 /\
      let before := socks (alone e (s_chip s) (s_tick s) 1) (index k) in
      v = mixed (tx_rd before) (tx_rd now) /\
      (Forall (fun ev => ev_sock ev <> Some (index k)) (happens e (S (s_tick s))) -> v = tx_rd now mod 65536)
  | KTxFree, KNum (Ok v) => left_alone e s s' 2 /\
      let before := socks (alone e (s_chip s) (s_tick s) 1) (index k) in
      v = mixed (tx_fsr before) (tx_fsr now) /\
      (Forall (fun ev => ev_sock ev <> Some (index k)) (happens e (S (s_tick s))) -> v = tx_fsr now mod 65536)
  | _, _ => True
  end.
Proof.
  intros R0 L R now. pose proof (run_ops_inv e fuel ops _ _ _ _ _ (pool_inv_new ho) R0) as I. destruct (pi_lookup _ _ _ I L) as (i & Hi & Ei & _). cbn [handle_socket] in Ei. subst k.
  cbn [step] in R. rewrite L in R. cbn [index socket_new] in now. assert (Ea : a' = a).
  { apply run_bind_done in R as (z & s1 & _ & R). cbn [run] in R. injection R as -> _ _. reflexivity. }
  split; [exact Ea|]. subst a'. pose proof (so_reg i Hi) as Hr.
  destruct q; try exact Logic.I; destruct r as [r|r|r|r]; try exact Logic.I; destruct r as [v|er]; try exact Logic.I; cbn [run_sockop] in R; unfold get_status, has_interrupt, get_tx_read_pointer, get_tx_write_pointer, get_rx_read_pointer, get_tx_free_size in R;
    try rewrite Hr in R; try (apply run_read in R as (got & [[]|er] & B & E); [|discriminate E]; injection E as ->); try exact Logic.I.
  - destruct (got_one _ _ _ _ _ _ B) as [A ->]. split; [exact A|]. rewrite rbyte_reg. reflexivity.
  - destruct (got_one _ _ _ _ _ _ B) as [A ->]. split; [exact A|]. rewrite rbyte_reg. apply flag_bits.
  - destruct (got_two _ _ _ _ _ _ B) as [A ->]. split; [exact A|]. rewrite !rbyte_reg. cbv zeta. cbn [index socket_new].
    match goal with |- from_be [?x; ?y] = _ /\ _ => change x with (hi (tx_rd (socks (alone e (s_chip s) (s_tick s) 1) i))); change y with (lo (tx_rd now)) end.
    rewrite mixed_be. split; [reflexivity|]. intros Q. unfold now. rewrite (alone_still _ _ _ _ A Q). apply mixed_same.
  - destruct (got_two _ _ _ _ _ _ B) as [A ->]. split; [exact A|]. rewrite !rbyte_reg. rewrite from_be_2.
    match goal with |- b2n ?x * 256 + _ = _ => change x with (regs (socks (alone e (s_chip s) (s_tick s) 1) i) Sn_TX_WR) end. rewrite <- (alone_regs _ i _ _ A). reflexivity.
  - destruct (got_two _ _ _ _ _ _ B) as [A ->]. split; [exact A|]. rewrite !rbyte_reg. rewrite from_be_2.
    match goal with |- b2n ?x * 256 + _ = _ => change x with (regs (socks (alone e (s_chip s) (s_tick s) 1) i) Sn_RX_RD) end. rewrite <- (alone_regs _ i _ _ A). reflexivity.
  - destruct (got_two _ _ _ _ _ _ B) as [A ->]. split; [exact A|]. rewrite !rbyte_reg. cbv zeta. cbn [index socket_new].
    match goal with |- from_be [?x; ?y] = _ /\ _ => change x with (hi (tx_fsr (socks (alone e (s_chip s) (s_tick s) 1) i))); change y with (lo (tx_fsr now)) end.
    rewrite mixed_be. split; [reflexivity|]. intros Q. unfold now. rewrite (alone_still _ _ _ _ A Q). apply mixed_same.
Qed.
Print Assumptions C92_reads_partial.

(** a raw socket in UDP mode: 255 bytes have left, one more is on its way; it leaves between the two
    bytes of the read of Sn_TX_RD *)
Definition raw_ops : list op :=
  [OpTakeSocket; OpSocket 0 (KSetMode PrUdp); OpSocket 0 (KCommand CmOpen); OpSocket 0 (KSetTxWrite 255); OpSocket 0 (KCommand CmSend);
   OpSocket 0 KStatus; OpSocket 0 (KSetTxWrite 256); OpSocket 0 (KCommand CmSend)].
Definition raw_env : env := script [(5%nat, [EvTransmit 0 0; EvSendOk 0]); (10%nat, [EvTransmit 0 0])].
Definition raw_out (q : sockop) : option (sockout * list N) :=
  match run raw_env (run_ops 9 (app_new Dhcp) raw_ops) sys0 with
  | (Done (a, _), s) =>
      match run raw_env (step 9 a (OpSocket 0 q)) s with
      | (Done (_, RSockop r), s') => Some (r, [tx_rd (socks (s_chip s) 0); tx_rd (socks (alone raw_env (s_chip s) (s_tick s) 1) 0); tx_rd (socks (s_chip s') 0)])
      | _ => None
      end
  | _ => None
  end.
Example C92_reads_case :
  raw_out KStatus = Some (KByte (Ok x22), [255; 255; 255]) /\ raw_out (KHasInterrupt InSendOk) = Some (KBool (Ok true), [255; 255; 255]) /\
  raw_out (KHasInterrupt InReceive) = Some (KBool (Ok false), [255; 255; 255]) /\ raw_out KTxWrite = Some (KNum (Ok 256), [255; 255; 256]) /\
  raw_out KRxRead = Some (KNum (Ok 0), [255; 255; 256]) /\ raw_out KTxFree = Some (KNum (Ok 1792), [255; 255; 256]).
Proof. repeat split; vm_compute; reflexivity. Qed.

(** the read answers 0, which the register never was: it held 255, 255 and 256 *)
Theorem C92_reads_refuted : exists a outs s k s',
  run raw_env (run_ops 9 (app_new Dhcp) raw_ops) sys0 = (Done (a, outs), s) /\ lookup 0%nat (handles a) = Some (HSock k) /\
  run raw_env (step 9 a (OpSocket 0 KTxRead)) s = (Done (a, RSockop (KNum (Ok 0))), s') /\
  Forall (fun n => tx_rd (socks (alone raw_env (s_chip s) (s_tick s) n) (index k)) <> 0) [0; 1; 2]%nat /\ s_tick s' = (s_tick s + 2)%nat.
Proof.
  assert (X : exists a outs s k, run raw_env (run_ops 9 (app_new Dhcp) raw_ops) sys0 = (Done (a, outs), s) /\ lookup 0%nat (handles a) = Some (HSock k) /\
    (let q := run raw_env (step 9 a (OpSocket 0 KTxRead)) s in fst q = Done (a, RSockop (KNum (Ok 0)))) /\
    forallb (fun n => negb (tx_rd (socks (alone raw_env (s_chip s) (s_tick s) n) (index k)) =? 0)) [0; 1; 2]%nat = true).
  { eexists _, _, _, _. split; [apply run_snd; vm_compute; reflexivity|]. split; [vm_compute; reflexivity|]. split; vm_compute; reflexivity. }
  destruct X as (a & outs & s & k & R & L & Q & F). cbv zeta in Q. apply run_snd in Q. exists a, outs, s, k, (snd (run raw_env (step 9 a (OpSocket 0 KTxRead)) s)).
  split; [exact R|]. split; [exact L|]. split; [exact Q|]. split.
  - rewrite forallb_forall in F. apply Forall_forall. intros n Hn E. specialize (F n Hn). rewrite E in F. discriminate F.
  - apply (C92_reads_partial _ _ _ _ _ _ _ _ _ _ _ _ _ _ R L Q).
Qed.
Print Assumptions C92_reads_refuted.

(** ** C92, writing *)
(** the two pointers that can be written: nothing the network does depends on them *)
Lemma sock_step_pointer z ev a v : a = Sn_TX_WR \/ a = Sn_RX_RD ->
  sock_step (set_regs z (upd (regs z) a v)) ev = set_regs (sock_step z ev) (upd (regs z) a v).
Proof.
  intros D. assert (T : tx_size (set_regs z (upd (regs z) a v)) = tx_size z) by (destruct D as [->| ->]; reflexivity).
  assert (U : rx_size (set_regs z (upd (regs z) a v)) = rx_size z) by (destruct D as [->| ->]; reflexivity).
  assert (W : forall y, y < 0x20 -> upd (regs z) a v y = regs z y). { intros y Y. unfold upd. destruct (N.eqb_spec y a) as [->|]; [destruct D as [->| ->]; discriminate Y|reflexivity]. }
  assert (A : forall d, rx_append (set_regs z (upd (regs z) a v)) d = set_regs (rx_append z d) (upd (regs z) a v)).
  { intros d. unfold rx_append. rewrite U. change (rx_rsr (set_regs z (upd (regs z) a v))) with (rx_rsr z). destruct (len d <=? rx_size z - rx_rsr z); reflexivity. }
  destruct ev; cbn [sock_step]; change (sr (set_regs z (upd (regs z) a v))) with (sr z); try (destruct (_ : bool); reflexivity).
  - destruct (_ =? _); [apply A|reflexivity].
  - destruct (_ && _); [apply A|reflexivity].
  - destruct (_ && _); [apply A|reflexivity].
  - unfold transmit. rewrite T. change (tx_busy (set_regs z (upd (regs z) a v))) with (tx_busy z). destruct (tx_busy z); [|reflexivity].
    assert (X : get16 (regs (set_regs z (upd (regs z) a v))) Sn_PORT = get16 (regs z) Sn_PORT /\ get16 (regs (set_regs z (upd (regs z) a v))) Sn_DPORT = get16 (regs z) Sn_DPORT) by (destruct D as [->| ->]; split; reflexivity).
    destruct X as [-> ->]. change (regs (set_regs z (upd (regs z) a v))) with (upd (regs z) a v). rewrite !W by reflexivity.
    change (tx_rd (set_regs z (upd (regs z) a v))) with (tx_rd z). change (tx_end (set_regs z (upd (regs z) a v))) with (tx_end z). change (sr (set_regs z (upd (regs z) a v))) with (sr z).
    change (txm (set_regs z (upd (regs z) a v))) with (txm z). change (sent (set_regs z (upd (regs z) a v))) with (sent z). cbv zeta.
    destruct ((sr z =? SOCK_UDP) || (sr z =? SOCK_MACRAW)); (destruct (_ =? 0); destruct (_ =? _); reflexivity).
  - change (tx_busy (set_regs z (upd (regs z) a v))) with (tx_busy z). destruct (tx_busy z); [|reflexivity]. destruct advance; destruct (_ || _); reflexivity.
  - reflexivity.
  - reflexivity.
Qed.
Lemma nstep_but i c c' ev : but_for i c c' -> but_for i (nstep c ev) (nstep c' ev).
Proof.
  intros [C S]. unfold nstep, but_for. destruct (ev_sock ev) as [n|] eqn:E.
  - split; [exact C|]. intros j J. cbn [socks set_sock]. destruct (N.eqb_spec j n) as [->|]; [rewrite (S n J); reflexivity|apply S, J].
  - destruct ev; try (split; assumption). cbn [com set_com socks]. rewrite C. split; [reflexivity|exact S].
Qed.
Lemma nsteps_like i (F : sock -> sock) : (forall z ev, sock_step (F z) ev = F (sock_step z ev)) ->
  forall l c c', but_for i c c' -> socks c' i = F (socks c i) -> but_for i (nsteps c l) (nsteps c' l) /\ socks (nsteps c' l) i = F (socks (nsteps c l) i).
Proof.
  intros H. unfold nsteps. induction l as [|ev l IH]; intros c c' B E; cbn [fold_left]; [auto|]. apply IH; [now apply nstep_but|].
  destruct (nstep_sock i c ev) as [[E1 ->]|[E1 ->]]; destruct (nstep_sock i c' ev) as [[E2 ->]|[E2 ->]]; try contradiction; rewrite E; [apply H|reflexivity].
Qed.
Lemma but_refl i c : but_for i c c. Proof. split; auto. Qed.
Lemma but_trans i c c' c'' : but_for i c c' -> but_for i c' c'' -> but_for i c c''.
Proof. intros [A B] [C D]. split; [congruence|]. intros j J. rewrite D, B; auto. Qed.
Lemma wbyte_but i c a v : but_for i c (wbyte c (BSB_REG i) a v).
Proof.
  unfold wbyte, but_for. destruct (blk_reg i) as (-> & -> & ->). cbn. split; [reflexivity|]. intros j N. apply N.eqb_neq in N. now rewrite N.
Qed.
(** two bytes written to the registers of a socket, the network in between *)
Lemma two_like i c l a v w (F : sock -> sock) : (forall z ev, sock_step (F z) ev = F (sock_step z ev)) -> (forall z, sock_wr i z a v = F z) ->
  let c' := wbyte (nsteps (wbyte c (BSB_REG i) a v) l) (BSB_REG i) (next_addr a) w in
  but_for i (nsteps c l) c' /\ socks c' i = sock_wr i (F (socks (nsteps c l) i)) (next_addr a) w.
Proof.
  intros H W c'. destruct (nsteps_like i F H l c (wbyte c (BSB_REG i) a v) (wbyte_but i c a v)) as [B E]; [rewrite wbyte_reg; apply W|].
  unfold c'. rewrite wbyte_reg, E. split; [|reflexivity]. eapply but_trans; [exact B|apply wbyte_but].
Qed.

Lemma put16_get m a p : p < 65536 -> get16 (put16 m a p) a = p.
Proof.
  intros P. unfold get16, put16, upd. rewrite !N.eqb_refl. replace (a =? a + 1) with false by (symmetry; apply N.eqb_neq; lia). rewrite !b2n_u8. lia.
Qed.

(** the method does to the chip what the datasheet says of a write to its register, and nothing else
    but what the network does by itself meanwhile: reset_interrupt clears the flags of its argument,
    the pointer setters set the pointer (Sn_TX_RD is read-only: the chip keeps it), command() has the
    chip execute the command. *)
Theorem C92_writes e fuel ho s0 ops a outs s h k q a' s' :
  run e (run_ops fuel (app_new ho) ops) s0 = (Done (a, outs), s) -> lookup h (handles a) = Some (HSock k) ->
  run e (step fuel a (OpSocket h q)) s = (Done (a', RSockop (KUnit (Ok tt))), s') ->
  let i := index k in let now := socks (s_chip s') i in
  let one := alone e (s_chip s) (s_tick s) 1 in let two := alone e (s_chip s) (s_tick s) 2 in
  match q with
  | KResetInterrupt c => s_tick s' = (s_tick s + 1)%nat /\ but_for i one (s_chip s') /\ set_ir now 0 = set_ir (socks one i) 0 /\
      forall b, N.testbit (ir now) b = N.testbit (ir (socks one i)) b && negb (existsb (N.eqb b) (bits_of c))
  | KCommand c => s_tick s' = (s_tick s + 1)%nat /\ but_for i one (s_chip s') /\ now = do_command i (socks one i) (code_of c)
  | KSetTxWrite p => s_tick s' = (s_tick s + 2)%nat /\ but_for i two (s_chip s') /\ now = set_regs (socks two i) (regs now) /\
      (p < 65536 -> tx_wr now = p) /\ forall y, y <> 0x24 -> y <> 0x25 -> regs now y = regs (socks two i) y
  | KSetRxRead p => s_tick s' = (s_tick s + 2)%nat /\ but_for i two (s_chip s') /\ now = set_regs (socks two i) (regs now) /\
      (p < 65536 -> rx_rd now = p) /\ forall y, y <> 0x28 -> y <> 0x29 -> regs now y = regs (socks two i) y
  | KSetTxRead _ => s_tick s' = (s_tick s + 2)%nat /\ but_for i two (s_chip s') /\ now = socks two i
  | _ => True
  end.
Proof.
  intros R0 L R i now one two. pose proof (run_ops_inv e fuel ops _ _ _ _ _ (pool_inv_new ho) R0) as I. destruct (pi_lookup _ _ _ I L) as (j & Hi & Ei & _). cbn [handle_socket] in Ei. subst k.
  change (index (socket_new j)) with j in i. subst i. cbn [step] in R. rewrite L in R. pose proof (so_reg j Hi) as Hr.
  destruct q; try exact Logic.I; cbn [run_sockop] in R; unfold reset_interrupt, set_tx_read_pointer, set_tx_write_pointer, set_rx_read_pointer, command in R; rewrite Hr in R;
    (apply run_write in R as (w & B & E); injection E as _ <-).
  - destruct (write_one _ _ _ _ _ _ B) as [C T]. split; [lia|]. unfold now. rewrite C. change (nsteps (s_chip s) (happens e (s_tick s))) with one. split; [apply wbyte_but|]. rewrite wbyte_reg. split; [reflexivity|].
    intros b. apply (clear_bits (ir (socks one j)) i b).
  - destruct (write_two _ _ _ _ _ _ _ B) as [T C]. split; [exact T|]. unfold now. rewrite C.
    apply (two_like j _ _ s_TX_DATA_READ_POINTER (u8 (p / 256)) (u8 p) (fun z => z)); reflexivity.
  - destruct (write_two _ _ _ _ _ _ _ B) as [T C]. split; [exact T|].
    destruct (two_like j one (happens e (S (s_tick s))) s_TX_DATA_WRITE_POINTER (u8 (p / 256)) (u8 p) (fun z => set_regs z (upd (regs z) Sn_TX_WR (u8 (p / 256))))) as [X Y];
      [intros z ev; rewrite sock_step_pointer, sock_step_regs by auto; reflexivity|reflexivity|].
    change (nsteps one (happens e (S (s_tick s)))) with two in X, Y. unfold now. rewrite C. split; [exact X|].
    change (nsteps (s_chip s) (happens e (s_tick s))) with one. rewrite Y.
    change (sock_wr j (set_regs (socks two j) (upd (regs (socks two j)) Sn_TX_WR (u8 (p / 256)))) (next_addr s_TX_DATA_WRITE_POINTER) (u8 p)) with (set_regs (socks two j) (put16 (regs (socks two j)) Sn_TX_WR p)).
    split; [reflexivity|]. cbn [regs set_regs]. split.
    + intros P. apply (put16_get (regs (socks two j)) Sn_TX_WR p P).
    + intros y Y1 Y2. unfold put16, upd. change (Sn_TX_WR + 1) with (next_addr Sn_TX_WR). destruct (N.eqb_spec y (next_addr Sn_TX_WR)); [contradiction|]. destruct (N.eqb_spec y Sn_TX_WR); [contradiction|reflexivity].
  - destruct (write_two _ _ _ _ _ _ _ B) as [T C]. split; [exact T|].
    destruct (two_like j one (happens e (S (s_tick s))) s_RX_DATA_READ_POINTER (u8 (p / 256)) (u8 p) (fun z => set_regs z (upd (regs z) Sn_RX_RD (u8 (p / 256))))) as [X Y];
      [intros z ev; rewrite sock_step_pointer, sock_step_regs by auto; reflexivity|reflexivity|].
    change (nsteps one (happens e (S (s_tick s)))) with two in X, Y. unfold now. rewrite C. split; [exact X|].
    change (nsteps (s_chip s) (happens e (s_tick s))) with one. rewrite Y.
    change (sock_wr j (set_regs (socks two j) (upd (regs (socks two j)) Sn_RX_RD (u8 (p / 256)))) (next_addr s_RX_DATA_READ_POINTER) (u8 p)) with (set_regs (socks two j) (put16 (regs (socks two j)) Sn_RX_RD p)).
    split; [reflexivity|]. cbn [regs set_regs]. split.
    + intros P. apply (put16_get (regs (socks two j)) Sn_RX_RD p P).
    + intros y Y1 Y2. unfold put16, upd. change (Sn_RX_RD + 1) with (next_addr Sn_RX_RD). destruct (N.eqb_spec y (next_addr Sn_RX_RD)); [contradiction|]. destruct (N.eqb_spec y Sn_RX_RD); [contradiction|reflexivity].
  - destruct (write_one _ _ _ _ _ _ B) as [C T]. split; [lia|]. unfold now. rewrite C. change (nsteps (s_chip s) (happens e (s_tick s))) with one. split; [apply wbyte_but|]. rewrite wbyte_reg. destruct c; reflexivity.
Qed.
Print Assumptions C92_writes.

(** after [raw_ops] (a datagram of one byte has been handed to the chip, SENDOK of the first is up)
    the interrupt is cleared, the pointers are moved, and the socket is closed *)
Definition raw_after (q : sockop) : option (sockout * list N) :=
  match run raw_env (run_ops 9 (app_new Dhcp) raw_ops) sys0 with
  | (Done (a, _), s) =>
      match run raw_env (step 9 a (OpSocket 0 q)) s with
      | (Done (_, RSockop r), s') => let z := socks (s_chip s') 0 in Some (r, [sr z; ir z; tx_wr z; rx_rd z; tx_rd z])
      | _ => None
      end
  | _ => None
  end.
Example C92_writes_case :
  raw_after KStatus = Some (KByte (Ok x22), [0x22; 0x10; 256; 0; 255]) /\
  raw_after (KResetInterrupt InSendOk) = Some (KUnit (Ok tt), [0x22; 0; 256; 0; 255]) /\
  raw_after (KResetInterrupt InTimeout) = Some (KUnit (Ok tt), [0x22; 0x10; 256; 0; 255]) /\
  raw_after (KSetTxWrite 0x1234) = Some (KUnit (Ok tt), [0x22; 0x10; 0x1234; 0; 256]) /\
  raw_after (KSetRxRead 0x1234) = Some (KUnit (Ok tt), [0x22; 0x10; 256; 0x1234; 256]) /\
  raw_after (KSetTxRead 0x1234) = Some (KUnit (Ok tt), [0x22; 0x10; 256; 0; 256]) /\
  raw_after (KCommand CmClose) = Some (KUnit (Ok tt), [0; 0x10; 256; 0; 255]).
Proof. repeat split; vm_compute; reflexivity. Qed.

(** ** C92, the PHY *)
Theorem C92_phy e fuel a s a' p s' :
  run e (step fuel a (OpDevice QPhyConfig)) s = (Done (a', RDevice (DPhy (Ok p))), s') ->
  let v := b2n (com (s_chip s') PHYCFGR) in
  a' = a /\ left_alone e s s' 1 /\ (phy_link_up p = true <-> v mod 2 = 1) /\ (phy_speed p = Mbps100 <-> (v / 2) mod 2 = 1) /\
  (phy_duplex p = FullDuplex <-> (v / 4) mod 2 = 1) /\ (forall m, phy_operation_mode p = Some m <-> (v / 8) mod 8 = opmdc m).
Proof.
  cbn [step run_devop]. unfold dev_phy_config, read_reg. cbn [bind run try_]. destruct (bus_read e COMMON c_PHY_CONFIG (zeros 1) s) as [[got q] s1] eqn:B. cbn [fst snd].
  destruct q as [[]|er]; cbn [run bind]; [|discriminate]. intros E. injection E as <- <- <-. destruct (got_one _ _ _ _ _ _ B) as [A ->].
  change (byte0 [rbyte (s_chip s1) COMMON c_PHY_CONFIG]) with (com (s_chip s1) PHYCFGR). cbv zeta. split; [reflexivity|]. split; [exact A|].
  destruct (C09_phy_partial (com (s_chip s1) PHYCFGR)) as (H1 & H2 & H3 & _ & H5). auto.
Qed.
Print Assumptions C92_phy.
(** the cable is pulled while the call runs *)
Example C92_phy_case :
  match run (script [(0%nat, [EvLink x06])]) (step 9 (app_new Dhcp) (OpDevice QPhyConfig)) sys0 with
  | (Done (_, RDevice (DPhy (Ok p))), s') => (phy_link_up p, phy_speed p, phy_duplex p, phy_operation_mode p, com (s_chip s') PHYCFGR) = (false, Mbps100, FullDuplex, Some Auto, xbe)
  | _ => False
  end.
Proof. vm_compute. reflexivity. Qed.
