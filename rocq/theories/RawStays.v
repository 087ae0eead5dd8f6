(** What initialize_macraw set up stays so through any MACRAW program, bus errors included. *)
From Verif Require Export PipeCalls RawSession.
From Verif Require Import ProgFacts Datasheet.

(** ** Invariants of the whole chip *)
Section ChipInv.
  Context (P : N -> N -> byte -> Prop) (e : env) (J : chip -> Prop).
  Hypothesis Jev : forall c ev, J c -> J (nstep c ev).
  Hypothesis Jwr : forall c blk a v, P blk a v -> J c -> J (wbyte c blk a v).
  Lemma inv_nsteps l : forall c, J c -> J (nsteps c l).
  Proof. unfold nsteps. induction l as [|ev l IH]; intros c H; cbn [fold_left]; auto. Qed.
  Lemma inv_reads blk : forall n a s, J (s_chip s) -> J (s_chip (snd (read_bytes e blk a n s))).
  Proof.
    induction n as [|n IH]; intros a s H; cbn [read_bytes]; [exact H|]. specialize (IH (next_addr a) (tick e s) (inv_nsteps _ _ H)).
    destruct (read_bytes _ _ _ _ _) as [l s2]. exact IH.
  Qed.
  Lemma inv_writes blk : forall d a s, each P blk a d -> J (s_chip s) -> J (s_chip (write_bytes e blk a d s)).
  Proof.
    induction d as [|v d IH]; intros a s H Hs; cbn [write_bytes each] in *; [exact Hs|]. destruct H as [H1 H2].
    apply IH; [exact H2|]. cbn [s_chip on_chip]. apply Jwr; [exact H1|]. now apply inv_nsteps.
  Qed.
  Lemma run_inv {A} (p : prog A) : mild P p -> forall s, J (s_chip s) -> J (s_chip (snd (run e p s))).
  Proof.
    induction p as [a|w| |b a d k IH|b a d k IH]; cbn [mild run]; intros H s Hs; auto.
    - pose proof (bus_read_length e b a d s) as L.
      assert (E : J (s_chip (snd (bus_read e b a d s)))).
      { unfold bus_read. destruct (fails e (s_call s)) as [[q err]|].
        - pose proof (inv_reads b (Nat.min q (length d)) a s Hs) as E. destruct (read_bytes _ _ _ _ _) as [g s1]. exact E.
        - pose proof (inv_reads b (length d) a s Hs) as E. destruct (read_bytes _ _ _ _ _) as [g s1]. exact E. }
      destruct (bus_read e b a d s) as [[g r] s1]. cbn [fst snd] in *. apply IH; [now apply H|exact E].
    - destruct H as [Hw H].
      assert (E : J (s_chip (snd (bus_write e b a d s)))).
      { unfold bus_write. destruct (fails e (s_call s)) as [[q err]|]; cbn [snd end_call s_chip]; apply inv_writes; auto. now apply each_firstn. }
      destruct (bus_write e b a d s) as [r s1]. cbn [fst snd] in *. apply IH; auto.
  Qed.
End ChipInv.

(** ** The bytes a MACRAW call writes *)
Definition raw_safe (blk a : N) (v : byte) : Prop :=
  (blk = 0 /\ a = SIMR) \/ blk = BSB_TX 0 \/
  (blk = BSB_REG 0 /\ a <> Sn_MR /\ a <> Sn_RXBUF_SIZE /\ a <> Sn_TXBUF_SIZE /\ (a = Sn_CR -> b2n v = CR_SEND \/ b2n v = CR_RECV)).
Notation M := (mild raw_safe).
Notation s_ := (socket_new 0).

Ltac reg_byte := right; right; split; [reflexivity|]; repeat (split; [discriminate|]); first [discriminate | intros _; vm_compute; tauto].
Ltac wr := unfold write_frame; cbn [mild each]; split; [|intros []; exact I]; repeat (split; [reg_byte|]); exact I.
Lemma m_irq c : M (reset_interrupt s_ c). Proof. unfold reset_interrupt. wr. Qed.
Lemma m_mask v : M (set_interrupt_mask s_ v). Proof. unfold set_interrupt_mask. wr. Qed.
Lemma m_rd v : M (set_rx_read_pointer s_ v). Proof. unfold set_rx_read_pointer, to_be. wr. Qed.
Lemma m_wr v : M (set_tx_write_pointer s_ v). Proof. unfold set_tx_write_pointer, to_be. wr. Qed.
Lemma m_send : M (command s_ CmSend). Proof. unfold command. wr. Qed.
Lemma m_recv : M (command s_ CmReceive). Proof. unfold command. wr. Qed.
Lemma m_simr v : M (write_frame COMMON c_SOCKET_INTERRUPT_MASK [v]).
Proof. unfold write_frame. cbn [mild each]. split; [|intros []; exact I]. split; [|exact I]. left. split; reflexivity. Qed.
Lemma m_tx a d : M (write_frame (tx_buffer s_) a d).
Proof. unfold write_frame. cbn [mild]. split; [|intros []; exact I]. apply each_all. intros a' v. right. left. reflexivity. Qed.
Lemma m_read blk a n : M (read_reg blk a n).
Proof. cbn. intros got [u|er] _; exact I. Qed.
Lemma m_into blk a b : M (read_into blk a b).
Proof. cbn. intros got [u|er] _; exact I. Qed.
Lemma m_then {R} blk a n (f : list byte -> R) : M (try d <- read_reg blk a n else Err ;; Ret (Ok (f d))).
Proof. apply mild_try; [apply m_read|]. intros d. exact I. Qed.
Lemma m_size fuel : M (get_receive_size fuel s_).
Proof.
  induction fuel as [|fuel IH]; cbn [get_receive_size]; [exact I|]. apply mild_try; [apply m_read|]. intros a.
  apply mild_try; [apply m_read|]. intros b. destruct (bytes_eqb a b); [exact I|exact IH].
Qed.
Lemma m_wait fuel : M (wait_send_ok fuel s_).
Proof.
  induction fuel as [|fuel IH]; cbn [wait_send_ok]; [exact I|]. apply mild_try; [apply m_then|]. intros [|]; [exact I|exact IH].
Qed.
Lemma m_rx_read c b : M (rx_read s_ c b).
Proof.
  unfold rx_read. destruct b as [|b0 b']; [exact I|]. apply mild_slice_to. intros x.
  apply mild_bind; [apply m_into|]. intros [g [u|er]]; exact I.
Qed.
Lemma m_raw_read fuel f : M (raw_read_frame fuel raw0 f).
Proof.
  unfold raw_read_frame. cbn [raw_socket raw0]. apply mild_try.
  { unfold rx_new. apply mild_try; [apply m_size|]. intros sz. apply mild_try; [apply m_then|]. intros p. exact I. }
  intros c. destruct (available c =? 0); [exact I|]. apply mild_bind; [apply m_rx_read|]. intros [g [cn|er]]; cbn [fst snd]; [|exact I].
  destruct (snd cn =? 2); [|exact I]. unfold raw_read_body. apply mild_bind.
  { unfold rx_read_upto. destruct (_ <? _); [|apply m_rx_read]. apply mild_slice_to. intros x. apply mild_bind; [apply m_rx_read|]. intros y. exact I. }
  intros [g' [cn'|er]]; cbn [fst snd]; [|exact I]. apply mild_try; [|intros u; exact I].
  unfold rx_commit. apply mild_try; [apply m_rd|]. intros u. apply mild_try; [apply m_recv|]. intros v. exact I.
Qed.
Lemma m_raw_write fuel f : M (raw_write_frame fuel raw0 f).
Proof.
  unfold raw_write_frame. cbn [raw_socket raw0]. apply mild_try; [apply m_irq|]. intros a.
  apply mild_try. { unfold tx_new. apply mild_try; [apply m_then|]. intros sz. apply mild_try; [apply m_then|]. intros p. exact I. }
  intros c. apply mild_try.
  { unfold tx_write. destruct orb; [exact I|]. apply mild_slice_to. intros x. apply mild_try; [apply m_tx|]. intros u. destruct (_ <? _); exact I. }
  intros cn. apply mild_try.
  { unfold tx_commit. apply mild_try; [apply m_wr|]. intros u. apply mild_try; [apply m_send|]. intros v. exact I. }
  intros u. apply mild_try; [apply m_wait|]. intros v. exact I.
Qed.
Lemma m_raw_step fuel o : M (raw_step fuel raw0 o).
Proof.
  destruct o; cbn [raw_step]; (apply mild_bind; [|intros; exact I]).
  - unfold raw_enable_interrupts. cbn [raw_socket raw0]. apply mild_try; [apply m_mask|]. intros a. apply mild_try; [apply m_simr|]. intros b. exact I.
  - apply m_irq.
  - unfold raw_disable_interrupts. cbn [raw_socket raw0]. apply mild_try; [apply m_simr|]. intros a. apply mild_try; [apply m_mask|]. intros b. exact I.
  - apply m_raw_read.
  - apply m_raw_write.
Qed.
Lemma m_run_raw fuel ops : M (run_raw fuel raw0 ops).
Proof.
  induction ops as [|o ops IH]; cbn [run_raw]; [exact I|]. apply mild_bind; [apply m_raw_step|]. intros r. apply mild_bind; [exact IH|]. intros rs. exact I.
Qed.

(** ** The invariant *)
(** socket 0 is open in MACRAW mode with the whole memory *)
Definition all_memory (x : sock) : Prop :=
  sr x = SOCK_MACRAW /\ regs x Sn_MR = u8 132 /\ regs x Sn_TXBUF_SIZE = u8 16 /\ regs x Sn_RXBUF_SIZE = u8 16.
(** the others are closed and have none; they have sent [l] and taken in [q] *)
Definition no_memory (l : list packet) (q : list byte) (x : sock) : Prop :=
  sr x = SOCK_CLOSED /\ regs x Sn_TXBUF_SIZE = u8 0 /\ regs x Sn_RXBUF_SIZE = u8 0 /\ tx_busy x = false /\ tx_okdue x = false /\ sent x = l /\ rxlog x = q.
Definition raw_stays (mac : list byte) (l : N -> list packet) (q : N -> list byte) (c : chip) : Prop :=
  all_memory (socks c 0) /\ (forall j, 1 <= j < 8 -> no_memory (l j) (q j) (socks c j)) /\ fld c SHAR 6 = mac.

Lemma all_memory_ev x ev : all_memory x -> all_memory (sock_step x ev).
Proof.
  intros (H1 & H2). unfold all_memory. destruct ev; cbn [sock_step]; unfold transmit, rx_append; rewrite ?H1; change (SOCK_MACRAW =? SOCK_MACRAW) with true;
    change (SOCK_MACRAW =? SOCK_SYNSENT) with false; change (SOCK_MACRAW =? SOCK_LISTEN) with false; change (SOCK_MACRAW =? SOCK_ESTABLISHED) with false;
    change (SOCK_MACRAW =? SOCK_CLOSE_WAIT) with false; change (SOCK_MACRAW =? SOCK_FIN_WAIT) with false; change (SOCK_MACRAW =? SOCK_LAST_ACK) with false;
    change (SOCK_MACRAW =? SOCK_UDP) with false; cbn [orb andb];
    repeat match goal with |- context [if ?b then _ else _] => destruct b end; auto.
Qed.
Lemma no_memory_ev l q x ev : no_memory l q x -> no_memory l q (sock_step x ev).
Proof.
  intros (H1 & H2 & H3 & H4 & H5 & H6). assert (E : no_memory l q x) by (repeat (split; [assumption|]); assumption). unfold no_memory in *.
  destruct ev; cbn [sock_step]; unfold transmit; rewrite ?H1, ?H4, ?H5; try exact E; cbn; auto 10.
Qed.
Lemma stays_ev mac l q c ev : raw_stays mac l q c -> raw_stays mac l q (nstep c ev).
Proof.
  intros (H0 & Hj & Hm). assert (F : fld (nstep c ev) SHAR 6 = mac).
  { rewrite <- Hm. apply com_list_ext. intros x Hx. apply (com_nsteps x [ev]). unfold SHAR, PHYCFGR in *. lia. }
  unfold raw_stays. split; [|split; [|exact F]].
  - unfold nstep. destruct (ev_sock ev) as [n|]; [|destruct ev; exact H0]. unfold set_sock. cbn [socks]. destruct (N.eqb_spec 0 n) as [<-|]; [|exact H0]. now apply all_memory_ev.
  - intros j Hl. unfold nstep. destruct (ev_sock ev) as [n|]; [|destruct ev; apply Hj; exact Hl]. unfold set_sock. cbn [socks]. destruct (N.eqb_spec j n) as [<-|]; [|now apply Hj]. apply no_memory_ev. now apply Hj.
Qed.
Lemma stays_wr mac l q c blk a v : raw_safe blk a v -> raw_stays mac l q c -> raw_stays mac l q (wbyte c blk a v).
Proof.
  intros W (H0 & Hj & Hm).
  assert (F : fld (wbyte c blk a v) SHAR 6 = mac).
  { rewrite <- Hm. apply com_list_ext. intros x Hx. apply keeps_write_byte.
    destruct W as [(-> & ->)|[->|(-> & _)]]; [right|left; discriminate|left; discriminate].
    split; [unfold SIMR, SHAR in *; lia|discriminate]. }
  unfold raw_stays. split; [|split; [|exact F]].
  - destruct W as [(-> & ->)|[->|(-> & Ha & Hb & Hc & Hd)]].
    + exact H0.
    + change (wbyte c (BSB_TX 0) a v) with (if tx_size (socks c 0) =? 0 then c else set_sock c 0 (set_txm (socks c 0) (upd (txm (socks c 0)) (a mod tx_size (socks c 0)) v))).
      destruct (_ =? 0); exact H0.
    + change (wbyte c (BSB_REG 0) a v) with (set_sock c 0 (sock_wr 0 (socks c 0) a v)). unfold set_sock. cbn [socks]. rewrite N.eqb_refl.
      destruct H0 as (S0 & R0 & R1 & R2). unfold sock_wr. destruct (N.eqb_spec a Sn_CR) as [->|].
      * destruct (Hd eq_refl) as [-> | ->]; unfold do_command; cbn [N.eqb Pos.eqb CR_SEND CR_RECV CR_OPEN CR_LISTEN CR_CONNECT CR_DISCON CR_CLOSE];
          repeat match goal with |- context [if ?b then _ else _] => destruct b end; repeat (split; try assumption).
      * destruct (a =? Sn_IR); [repeat (split; try assumption)|]. destruct (read_only a); [repeat (split; try assumption)|].
        unfold all_memory. cbn [set_regs sr regs]. unfold upd.
        destruct (N.eqb_spec Sn_MR a); [congruence|]. destruct (N.eqb_spec Sn_TXBUF_SIZE a); [congruence|]. destruct (N.eqb_spec Sn_RXBUF_SIZE a); [congruence|]. auto.
  - intros j Hl. replace (socks (wbyte c blk a v) j) with (socks c j); [now apply Hj|].
    destruct W as [(-> & ->)|[->|(-> & _)]].
    + reflexivity.
    + change (wbyte c (BSB_TX 0) a v) with (if tx_size (socks c 0) =? 0 then c else set_sock c 0 (set_txm (socks c 0) (upd (txm (socks c 0)) (a mod tx_size (socks c 0)) v))).
      destruct (_ =? 0); [reflexivity|]. unfold set_sock. cbn [socks]. destruct (N.eqb_spec j 0); [lia|reflexivity].
    + change (wbyte c (BSB_REG 0) a v) with (set_sock c 0 (sock_wr 0 (socks c 0) a v)). unfold set_sock. cbn [socks]. destruct (N.eqb_spec j 0); [lia|reflexivity].
Qed.

Lemma init_stays e mc s d s1 : run e (initialize_macraw mc) s = (Done (Ok d), s1) ->
  d = raw0 /\ raw_stays (mac_octets mc) (fun j => sent (socks (s_chip s1) j)) (fun j => rxlog (socks (s_chip s1) j)) (s_chip s1).
Proof.
  intros R. destruct (initialize_macraw_up e mc s d s1 R) as (-> & (x & E0) & Ej & Em). split; [reflexivity|].
  split; [|split; [|exact Em]].
  - rewrite E0. split; [reflexivity|]. split; [reflexivity|]. split; reflexivity.
  - intros j Hj. destruct (Ej j Hj) as (y & ->). repeat split.
Qed.
Lemma raw_program_stays e mc fuel ops s d s1 : run e (initialize_macraw mc) s = (Done (Ok d), s1) ->
  raw_stays (mac_octets mc) (fun j => sent (socks (s_chip s1) j)) (fun j => rxlog (socks (s_chip s1) j)) (s_chip (snd (run e (run_raw fuel d ops) s1))).
Proof.
  intros R. destruct (init_stays e mc s d s1 R) as (-> & K).
  apply (run_inv raw_safe e _ (stays_ev _ _ _) (stays_wr _ _ _)); [apply m_run_raw|exact K].
Qed.
