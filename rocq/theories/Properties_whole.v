(** C23, C61, C84, C85, C88, C94 over the whole life of a chip: any number of initialisations of either
    kind, resets, devices put to sleep and woken up, and calls on the uninitialised device, each
    as often and in the order the program likes (Life.v). *)
From Verif Require Import Handshake Datasheet AccessFacts ExecFacts Dial Cases LifeWire LifeAccess LifeCalls LifeHandshake SockRegs LifeRegs Life.
From Verif Require Import Properties_commands Properties_handshake Properties_sockregs LifePanic.
From Verif Require CallFacts Properties_calls.

(** ** C61 *)
Theorem C61_whole_life :
  forall chk fuel ops tr oc,
    (forall h p, ~ In (LCall (OpSocket h (KSetTxRead p))) ops) ->
    exec (run_life chk fuel life_new ops) tr oc -> Forall access_ok tr.
Proof.
  intros chk fuel ops tr oc H X. apply (life_accesses chk fuel ops tr oc); [|exact X].
  apply Forall_forall. intros q Hq h p ->. exact (H h p Hq).
Qed.
Print Assumptions C61_whole_life.

(** ** C84 *)
(** whatever the program did before, a call writes only registers of the socket it is about, and
    gives only its own commands; initialize_macraw writes registers of the eight sockets and gives
    one command, OPEN, to socket 0; no other call writes a socket register *)
Theorem C84_whole_life :
  forall chk fuel ops tr0 l outs, exec (run_life chk fuel life_new ops) tr0 (Done (l, outs)) ->
  forall q tr end_, exec (lstep chk fuel l q) tr end_ ->
  forall i x d r, In (EWrite (4 * i + 1) x d r) tr ->
    x + len d <= 65536 /\
    match q with
    | LCall o => exists h y, op_handle o = Some h /\ lookup h (lhandles l) = Some y /\ index (handle_socket y) = i
    | LRawCall _ => i = 0
    | LInitRaw _ => i < 8
    | _ => False
    end /\
    (x <= 1 < x + len d -> x = 1 /\ match q with
      | LCall o => exists c, In c (own_commands o) /\ d = [u8 c]
      | LRawCall (RwRead _) => d = [x40]
      | LRawCall (RwWrite _) => d = [x20]
      | LInitRaw _ => i = 0 /\ d = [x01]
      | _ => False
      end).
Proof.
  intros chk fuel ops tr0 l outs X0 q tr end_ X i x d r Hin. pose proof (life_wired _ _ _ _ _ _ X0) as W.
  assert (Com : (forall mc, q <> LInitRaw mc) -> forall j,
    (forall o h y, q = LCall o -> op_handle o = Some h -> lookup h (lhandles l) = Some y -> j = index (handle_socket y)) ->
    (forall o, q = LRawCall o -> j = 0) -> i = j /\ x + len d <= 65536 /\ (x <= 1 < x + len d -> x = 1 /\ exists c, In c (life_commands q) /\ d = [u8 c])).
  { intros N j H1 H2. destruct (writes_exec _ _ _ _ X (cw_lstep_at chk fuel l q j W N H1 H2) _ _ _ _ Hin i ltac:(unfold BSB_REG; lia)) as (K1 & K2).
    split; [exact K1|]. destruct K2 as [K|[(K & K')|(-> & c & Hc & ->)]].
    - unfold Sn_CR in K. split; [lia|]. intros H. lia.
    - unfold Sn_CR in K. split; [lia|]. intros H. lia.
    - split; [unfold Sn_CR, len; cbn; lia|]. intros _. split; [reflexivity|]. exists c. split; [exact Hc|reflexivity]. }
  destruct q as [u|k m|mc|o|o| | | |k|k];
    try (destruct (Com ltac:(discriminate) (i + 1) ltac:(discriminate) ltac:(discriminate)) as (K & _); lia).
  - destruct (writes_exec _ _ _ _ X (macw_lstep chk fuel l mc) _ _ _ _ Hin i ltac:(unfold BSB_REG; lia)) as (K1 & K2).
    destruct K2 as [K|[(K & K')|(-> & -> & ->)]].
    + unfold Sn_CR in K. split; [lia|]. split; [exact K1|]. intros H. lia.
    + unfold Sn_CR in K. split; [lia|]. split; [exact K1|]. intros H. lia.
    + split; [unfold Sn_CR, len; cbn; lia|]. split; [exact K1|]. intros _. split; [reflexivity|]. split; reflexivity.
  - assert (L : exists h y, op_handle o = Some h /\ lookup h (lhandles l) = Some y).
    { destruct (op_handle o) as [h|] eqn:Eo; [destruct (lookup h (lhandles l)) as [y|] eqn:L; [eauto|]|];
      (destruct (Com ltac:(discriminate) (i + 1)) as (K & _); [intros o' h' y' [= <-] E1 E2; congruence|discriminate|lia]). }
    destruct L as (h & y & Eh & Ly). destruct (Com ltac:(discriminate) (index (handle_socket y))) as (K1 & K2 & K3); [|discriminate|].
    { intros o' h' y' [= <-] E1 E2. congruence. }
    split; [exact K2|]. split; [eauto|exact K3].
  - destruct (Com ltac:(discriminate) 0 ltac:(discriminate) ltac:(reflexivity)) as (K1 & K2 & K3). split; [exact K2|]. split; [exact K1|].
    intros H. destruct (K3 H) as (E & c & Hc & ->). split; [exact E|].
    destruct o; cbn in Hc; try contradiction; destruct Hc as [<-|[]]; reflexivity.
Qed.
Print Assumptions C84_whole_life.

(** ** C85 *)
(** Over a whole life, whatever the bus and the network do: the peers a socket dialled are among
    those the connect calls asked for, from port 49849 + socket number, in the order of the calls. *)
Theorem C85_whole_life :
  forall e chk fuel ops o s s' i, i < 8 ->
    Forall (fun q => forall h, q <> LCall (OpSocket h (KCommand CmConnect))) ops ->
    Forall (fun q => forall h r, q = LCall (OpTcpConnect h (V4 r)) -> a_port r < 65536) ops ->
    run e (run_life chk fuel life_new ops) s = (o, s') ->
    exists new, dialled (socks (s_chip s') i) = dialled (socks (s_chip s) i) ++ new /\
      Dial.within new (flat_map (fun q => match q with
        | LCall (OpTcpConnect _ (V4 (Addr4 a p))) => [(49849 + i, [ip0 a; ip1 a; ip2 a; ip3 a], p)] | _ => [] end) ops).
Proof.
  intros e chk fuel ops o s s' i Hi F1 F2 R.
  destruct (run_life_dials e chk fuel i Hi ops life_new s wired_new) as (new & E & W).
  - rewrite Forall_forall in F1, F2. apply Forall_forall. intros q Hq. destruct q as [| | |c| | | | | |]; try exact Logic.I. split.
    + destruct c; try exact Logic.I. destruct remote as [r|]; [|exact Logic.I]. exact (F2 _ Hq _ r eq_refl).
    + intros (h & ->). exact (F1 _ Hq h eq_refl).
  - rewrite R in E. exists new. split; [exact E|].
    replace (flat_map _ ops) with (flat_map (life_asks i) ops); [exact W|]. apply flat_map_ext.
    intros [| | |[]| | | | | |]; try reflexivity. now destruct remote as [[]|].
Qed.
Print Assumptions C85_whole_life.

(** ** C94 *)
Theorem C94_never_read_whole_life :
  forall chk fuel ops tr o, exec (run_life chk fuel life_new ops) tr o -> Forall (fun ev => ~ reads_command_register ev) tr.
Proof.
  intros chk fuel ops tr o X. apply Forall_forall. intros [bk a got r|]; [|intros _ []]. intros Hin (j & E & L).
  assert (Q : Forall (quiet_lop 8) ops) by (apply Forall_forall; intros x _ o' _ h' c _; apply N.le_refl).
  exact (accepted_reads 8 _ _ _ _ _ _ (watched_exec 8 _ _ _ _ X _ (m_run_life 8 chk fuel ops life_new wired_new Q)) Hin j E L).
Qed.
Print Assumptions C94_never_read_whole_life.
(** Between a SEND or CONNECT to a socket and the next command to it, its outcome was awaited, over
    a whole life, as long as the program gives no command by hand. *)
Theorem C94_whole_life_partial :
  forall chk fuel ops tr o j, (forall h c, ~ In (LCall (OpSocket h (KCommand c))) ops) ->
    exec (run_life chk fuel life_new ops) tr o -> outcome_awaited j tr.
Proof.
  intros chk fuel ops tr o j NR X. assert (Q : Forall (quiet_lop j) ops).
  { apply Forall_forall. intros q Hq o' -> h' c ->. now destruct (NR h' c). }
  exact (accepted_awaited j _ _ (watched_exec j _ _ _ _ X _ (m_run_life j chk fuel ops life_new wired_new Q))).
Qed.
Print Assumptions C94_whole_life_partial.

(** ** C88 *)
(** the calls that reset the chip, or may *)
Definition resets (q : lop) : Prop :=
  match q with
  | LUninit UReset | LInit _ _ | LInitRaw _ | LReset | LCall (OpDevice QResetDevice) => True
  | _ => False
  end.
(** the settings a call is to change of its socket, which for a MACRAW device is socket 0 *)
Definition life_to_change (q : lop) : list N :=
  match q with
  | LCall o => to_change o
  | LRawCall (RwEnable _) | LRawCall RwDisable => [0x2C]
  | _ => []
  end.
Definition life_about (l : life) (q : lop) (i : N) : Prop :=
  match q with
  | LCall o => exists h y, op_handle o = Some h /\ lookup h (lhandles l) = Some y /\ index (handle_socket y) = i
  | LRawCall _ => i = 0
  | _ => False
  end.
(** Whatever the program did with the chip before, a call that does not reset it leaves every
    setting as it was but those it is to change of its own socket, bus errors, panics and endless
    polling included. *)
Theorem C88_whole_life_untouched :
  forall e chk fuel ops s0 l outs s, run e (run_life chk fuel life_new ops) s0 = (Done (l, outs), s) ->
  forall q end_ s', ~ resets q -> run e (lstep chk fuel l q) s = (end_, s') ->
  forall i x, is_setting x -> (~ life_about l q i \/ ~ In x (life_to_change q)) -> reg s' i x = reg s i x.
Proof.
  intros e chk fuel ops s0 l outs s R0 q end_ s' Hr R i x Hx H.
  assert (W : wired l) by (destruct (run_exec _ _ _ _ _ R0) as (tr & X); exact (life_wired _ _ _ _ _ _ X)).
  apply is_setting_iff in Hx.
  assert (N : life_resets q = false).
  { destruct q as [[]| | |o| | | | | |]; try reflexivity; try (now destruct Hr). destruct o as [| | | | | | | | | | | | | | | |[]| |]; try reflexivity. now destruct Hr. }
  assert (K : forall j, (forall o h y, q = LCall o -> op_handle o = Some h -> lookup h (lhandles l) = Some y -> j = index (handle_socket y)) ->
    (forall o, q = LRawCall o -> j = 0) -> SockRegs.kept j (life_changes q) s s').
  { intros j H1 H2. pose proof (kept_run e j _ _ (fw_lstep_at chk fuel l q j W N H1 H2) s) as K. now rewrite R in K. }
  assert (T : ~ In x (life_to_change q) -> life_changes q x = false).
  { destruct q as [| | |o|o| | | | |]; try reflexivity; cbn [life_to_change life_changes]; [apply to_change_iff|].
    destruct o; try reflexivity; cbn [raw_changes In]; intros F; apply N.eqb_neq; unfold Sn_IMR; lia. }
  destruct q as [u|k m|mc|o|o| | | |k|k]; try (now destruct Hr);
    try (apply (K (i + 1)); [discriminate|discriminate|exact Hx|left; lia]).
  - destruct (op_handle o) as [h|] eqn:E; [destruct (lookup h (lhandles l)) as [y|] eqn:L|].
    + assert (Kj : SockRegs.kept (index (handle_socket y)) (changes o) s s') by (apply K; [intros o' h' y' [= <-] E1 E2; congruence|discriminate]).
      apply Kj; [exact Hx|]. destruct H as [H|H]; [left|right; now apply T]. intros ->. apply H. exists h, y. auto.
    + apply (K (i + 1)); [intros o' h' y' [= <-] E1 E2; congruence|discriminate|exact Hx|left; lia].
    + apply (K (i + 1)); [intros o' h' y' [= <-] E1 E2; congruence|discriminate|exact Hx|left; lia].
  - apply (K 0); [discriminate|reflexivity|exact Hx|]. destruct H as [H|H]; [left; exact H|right; now apply T].
Qed.
Print Assumptions C88_whole_life_untouched.

(** And a call on a device, freshly initialised or woken up, leaves the settings of the table. *)
Theorem C88_whole_life_after_each_call :
  forall e chk fuel ops s0 l outs s, run e (run_life chk fuel life_new ops) s0 = (Done (l, outs), s) ->
  forall o l' r s', run e (lstep chk fuel l (LCall o)) s = (Done (l', LOut r), s') ->
  forall d g, after_call (mkApp d (lhandles l) (lfresh l)) o r (reg s) = Some g -> forall i x, is_setting x -> reg s' i x = g i x.
Proof.
  intros e chk fuel ops s0 l outs s R0 o l' r s' R d g Hg i x Hx.
  assert (W : wired l) by (destruct (run_exec _ _ _ _ _ R0) as (tr & X); exact (life_wired _ _ _ _ _ _ X)). destruct W as [G _].
  assert (S : exists d' a', run e (step fuel (mkApp d' (lhandles l) (lfresh l)) o) s = (Done (a', r), s')).
  { unfold lstep in R. destruct (ph l) as [|d'|k'|rd|]; try discriminate R; [|destruct (nth_error (asleep l) k') as [d'|]; [|discriminate R]];
      (apply run_bind_done in R as ([a' r'] & s1 & R1 & R); cbn [fst snd run] in R; injection R as _ <- <-; eauto). }
  destruct S as (d' & a' & S).
  destruct (follow_run e _ _ (reg s) s _ _ (follow_step fuel (mkApp d' (lhandles l) (lfresh l)) o (reg s) G) (fun _ _ _ => eq_refl) S) as (f' & A & T).
  cbn [snd] in T. replace (after_call (mkApp d' (lhandles l) (lfresh l)) o r (reg s)) with (Some g) in T.
  unfold reg at 1. rewrite (A i x (is_setting_iff x Hx)). apply T.
Qed.
Print Assumptions C88_whole_life_after_each_call.

(** Over a whole life from power-up, at every moment of it: a setting that no call is to change
    holds its reset value in every socket; initialize_macraw is to change the mode (0) and the buffer
    sizes (0x1E, 0x1F). *)
Theorem C88_whole_life_reset_values :
  forall e chk fuel ops end_ s s', run e (run_life chk fuel life_new ops) s = (end_, s') ->
  forall x, is_setting x -> (forall i, reg s i x = regs_reset x) ->
    Forall (fun q => ~ In x (match q with LInitRaw _ => [0; 0x1E; 0x1F] | _ => life_to_change q end)) ops ->
    forall i, reg s' i x = regs_reset x.
Proof.
  intros e chk fuel ops end_ s s' R x Hx J F.
  pose proof (ut_run_life e chk fuel x (is_setting_iff x Hx) ops life_new s wired_new) as K. rewrite R in K. apply K; [|exact J].
  eapply Forall_impl; [|exact F]. intros q H. destruct q as [| |mc|o|o| | | | |]; try reflexivity; cbn [life_touches life_changes].
  - cbn [In] in H. rewrite !orb_false_iff, !N.eqb_neq. unfold Sn_MR, Sn_RXBUF_SIZE, Sn_TXBUF_SIZE. lia.
  - now apply to_change_iff.
  - destruct o; try reflexivity; cbn [raw_changes life_to_change In] in *; apply N.eqb_neq; unfold Sn_IMR; lia.
Qed.
Print Assumptions C88_whole_life_reset_values.

(** ** A life that meets the hypotheses of all of them *)
(** a MACRAW device sends a frame and is given up for a new device, which connects, is put to sleep
    and woken up, connects a second socket, and is looked at again through a second new device *)
Definition near : addr4 := Addr4 (Ip4 x0a x00 x00 x09) 80.
Definition far : addr4 := Addr4 (Ip4 xc0 xa8 x00 x0a) 8080.
Definition full_life : list lop :=
  [LInitRaw (Mac x02 x00 x00 x00 x00 x01); LRawCall (RwWrite [x41; x42]); LNew; LUninit UVersion;
   LInit (IDhcp (Mac x02 x00 x00 x00 x00 x01)) mode_default; LCall OpTcpSocket; LCall (OpTcpConnect 0 (V4 near));
   LSleep; LWake 0; LCall OpTcpSocket; LCall (OpTcpConnect 1 (V4 far)); LCall (OpTcpSend 1 [x43]); LCall (OpTcpClose 0); LCall (OpTcpConnect 1 (V4 near))].
Definition answering : env := mkEnv (fun _ => [EvTransmit 0 9; EvSendOk 0; EvTransmit 1 9; EvSendOk 1; EvEstablished 0; EvEstablished 1]) (fun _ => None).
(** what happens on the bus in a run against the chip *)
Fixpoint record {A} (e : env) (p : prog A) (s : sys) : list event * outcome A :=
  match p with
  | Ret a => ([], Done a)
  | Panic w => ([], Panicked w)
  | Spin => ([], Looping)
  | BusRead b a buf k => let (r, s') := bus_read e b a buf s in let (tr, o) := record e (k r) s' in (ERead b a (fst r) (snd r) :: tr, o)
  | BusWrite b a d k => let (r, s') := bus_write e b a d s in let (tr, o) := record e (k r) s' in (EWrite b a d r :: tr, o)
  end.
Lemma record_exec {A} e (p : prog A) : forall s tr o, record e p s = (tr, o) -> exec p tr o.
Proof.
  induction p as [a|w| |b a d k IH|b a d k IH]; cbn [record]; intros s tr o R; try (injection R as <- <-; constructor).
  - pose proof (bus_read_length e b a d s) as L. destruct (bus_read e b a d s) as [[g r] s1]. cbn [fst snd] in *.
    destruct (record e (k (g, r)) s1) as [tr' o'] eqn:E. injection R as <- <-. constructor; [exact L|eapply IH, E].
  - destruct (bus_write e b a d s) as [r s1]. destruct (record e (k r) s1) as [tr' o'] eqn:E. injection R as <- <-. constructor. eapply IH, E.
Qed.
Notation full_run := (run answering (run_life true 9 life_new full_life) sys0).
(** C61, C84, C94: the SEND of the MACRAW device to socket 0 is awaited before the CLOSE that the
    TCP connect of the second device begins with, 5 accesses later *)
Example whole_case : exists l outs tr mid,
  (forall h c, ~ In (LCall (OpSocket h (KCommand c))) full_life) /\ (forall h p, ~ In (LCall (OpSocket h (KSetTxRead p))) full_life) /\
  exec (run_life true 9 life_new full_life) tr (Done (l, outs)) /\
  outs = [LInited (Ok tt); LRaw (RwSent (Ok 2)); LMade; LDev (DByte (Ok x04)); LInited (Ok tt); LOut (RTcpSocket (Ok 0%nat)); LOut (RTcpConnect (Ok tt));
    LMade; LMade; LOut (RTcpSocket (Ok 1%nat)); LOut (RTcpConnect (Ok tt)); LOut (RTcpSend (Ok 1)); LOut (RTcpClose (Ok tt)); LOut (RTcpConnect (Ok tt))] /\
  length tr = 74%nat /\ two_commands 0 tr (u8 CR_SEND) mid /\ Forall (fun ev => ev_result ev = Ok tt) mid /\ In (socket_read 0 Sn_IR [x10]) mid.
Proof.
  destruct (record answering (run_life true 9 life_new full_life) sys0) as [tr o] eqn:E.
  pose proof (record_exec _ _ _ _ _ E) as X. vm_compute in E. injection E as <- <-.
  match type of X with exec _ ?tr _ => eexists _, _, tr, (firstn 5 (skipn 26 tr)) end.
  split; [|split; [|split; [exact X|split; [reflexivity|split; [reflexivity|]]]]].
  - intros h c. cbn. intros Y. decompose [or] Y; try discriminate; contradiction.
  - intros h c. cbn. intros Y. decompose [or] Y; try discriminate; contradiction.
  - split; [|split; [repeat constructor|cbn; tauto]].
    match type of X with exec _ ?tr _ => exists (firstn 25 tr) end. eexists _, _, _. split; [reflexivity|].
    cbn. repeat constructor; cbn; unfold BSB_REG, Sn_CR; try (intros []); try discriminate; lia.
Qed.
Example C85_whole_case :
  dialled (socks (s_chip (snd full_run)) 0) = [(49849, [x0a; x00; x00; x09], 80)] /\
  dialled (socks (s_chip (snd full_run)) 1) = [(49850, [xc0; xa8; x00; x0a], 8080); (49850, [x0a; x00; x00; x09], 80)].
Proof. split; vm_compute; reflexivity. Qed.

(** C88: after the life above, the second connect of socket 1, which replaces the destination it
    had; socket 0, closed before, keeps mode 0 and the destination it was given, and the time to
    live is the reset value although the chip was reset and was a MACRAW device in between *)
Definition life_before := removelast full_life.
Example C88_whole_case : exists l outs s l' s',
  run answering (run_life true 9 life_new life_before) sys0 = (Done (l, outs), s) /\
  run answering (lstep true 9 l (LCall (OpTcpConnect 1 (V4 near)))) s = (Done (l', LOut (RTcpConnect (Ok tt))), s') /\
  settings s 1 = [x01; xc2; xba; xc0; xa8; x00; x0a; x1f; x90; x80; x02; x00] /\
  settings s' 1 = [x01; xc2; xba; x0a; x00; x00; x09; x00; x50; x80; x02; x00] /\
  settings s' 0 = [x00; xc2; xb9; x0a; x00; x00; x09; x00; x50; x80; x02; x00].
Proof.
  eexists _, _, _, _, _. split; [apply run_snd; vm_compute; reflexivity|]. split; [apply run_snd; vm_compute; reflexivity|].
  repeat split; vm_compute; reflexivity.
Qed.

(** ** C23 *)
(** A program aborts, over a whole life, only in UDP receive, and then the last thing it read is
    the header of a datagram announcing more bytes than the buffer has; or in MACRAW read_frame,
    and then it read a received size of one byte.  What is missing for the full statement is that
    these two do not abort either, which is false: [C23_whole_life_refuted]. *)
Theorem C23_whole_life_partial :
  forall chk fuel ops tr w, exec (run_life chk fuel life_new ops) tr (Panicked w) ->
  exists before q after t1 t2 l outs,
    ops = before ++ q :: after /\ tr = t1 ++ t2 /\
    exec (run_life chk fuel life_new before) t1 (Done (l, outs)) /\ exec (lstep chk fuel l q) t2 (Panicked w) /\
    ((exists h buf i p hd t, q = LCall (OpUdpReceive h buf) /\ i < 8 /\ length hd = 8%nat /\
        t2 = t ++ [ERead (BSB_REG i) Sn_RX_RD p (Ok tt); ERead (BSB_RX i) (from_be p) hd (Ok tt)] /\
        len buf < from_be [nth 6 hd x00; nth 7 hd x00]) \/
     (exists buf t p rest, q = LRawCall (RwRead buf) /\
        t2 = t ++ ERead (BSB_REG 0) Sn_RX_RSR [x00; x01] (Ok tt) :: ERead (BSB_REG 0) Sn_RX_RD p (Ok tt) :: rest)).
Proof.
  intros chk fuel ops tr w X.
  destruct (life_abort chk fuel ops life_new tr w wired_new X) as (bf & q & af & t1 & t2 & l & outs & E1 & E2 & X1 & W & X2).
  exists bf, q, af, t1, t2, l, outs. split; [exact E1|]. split; [exact E2|]. split; [exact X1|]. split; [exact X2|].
  destruct (lstep_abort chk fuel l q t2 w W X2) as [(i & h & b & u & Hi & -> & Eu & Y)|(b & -> & Y)].
  - left. destruct (Properties_calls.C51_receive_panics_partial i fuel u b t2 w Hi Eu Y) as (t & hd & L & (p & ->) & Hb).
    exists h, b, i, p, hd, t. auto.
  - right. destruct (Properties_calls.C54_raw_read_bounds fuel b t2 _ Y) as (_ & [(_ & [E|(e & E)])|(ds & wd & p & rest & _ & Lw & _ & -> & _ & _ & Hw)]); try discriminate.
    specialize (Hw w eq_refl). destruct wd as [|b1 [|b2 [|]]]; try discriminate Lw.
    assert (Ew : [b1; b2] = [x00; x01]) by (rewrite <- to_be_from_be, Hw; reflexivity).
    rewrite Ew. unfold CallFacts.size_reads. rewrite <- app_assoc. cbn [List.app].
    eexists b, (_ ++ [_]), p, rest. split; [reflexivity|]. rewrite <- app_assoc. reflexivity.
Qed.
Print Assumptions C23_whole_life_partial.
(** the datagram of the first life really comes over the chip: three bytes for a buffer of two.
    The chip never shows the second life a received size of one; a bus that misreads it does. *)
Definition arriving : env := mkEnv (fun t => if Nat.eqb t 12 then [EvDatagram 0 [x01; x02; x03; x04] 53 [x41; x42; x43]] else []) (fun _ => None).
Definition life_udp : list lop :=
  [LInit (IDhcp (Mac x02 x00 x00 x00 x00 x01)) mode_default; LCall OpUdpSocket; LCall (OpUdpBind 0 67); LSleep; LWakeRef 0;
   LCall (OpUdpReceive 0 [x00; x00]); LCall OpTcpSocket].
Theorem C23_whole_life_refuted :
  (exists s, run arriving (run_life true 9 life_new life_udp) sys0 = (Panicked P_udp_recv_slice, s)) /\
  (exists tr, exec (run_life true 9 life_new life_udp) tr (Panicked P_udp_recv_slice)) /\
  (exists tr, exec (run_life true 9 life_new [LInitRaw (Mac x02 x00 x00 x00 x00 x01); LRawCall (RwRead [x00])]) tr (Panicked P_raw_assert)).
Proof.
  split; [|split].
  - eexists. apply run_snd. vm_compute. reflexivity.
  - destruct (record arriving (run_life true 9 life_new life_udp) sys0) as [tr o] eqn:E.
    pose proof (record_exec _ _ _ _ _ E) as X. vm_compute in E. injection E as <- <-. eexists. exact X.
  - destruct (replay (run_life true 9 life_new [LInitRaw (Mac x02 x00 x00 x00 x00 x01); LRawCall (RwRead [x00])])
      (repeat ([], Ok tt) 20 ++ [([x00; x01], Ok tt); ([x00; x01], Ok tt); ([x00; x00], Ok tt); ([x00], Ok tt)])) as [tr o] eqn:E.
    pose proof (replay_eq _ _ _ _ E) as Y. vm_compute in E. injection E as <- <-. eexists. exact Y.
Qed.
Print Assumptions C23_whole_life_refuted.
