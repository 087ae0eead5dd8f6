(** What the driver does to the interrupt pin. *)
From Verif Require Export Pin LifeFacts.
From Verif Require Import ProgFacts Datasheet RawStays.

(** ** Nothing but enable_interrupts lets the pin be asserted *)
Definition zero_ok (blk a : N) (v : byte) : Prop := blk = 0 -> a = SIMR \/ a = C_IMR -> v = x00.
Definition all_masked (c : chip) : Prop := com c SIMR = x00 /\ com c C_IMR = x00.
Lemma masked_off c : all_masked c -> asserted c = false.
Proof. intros [H1 H2]. unfold asserted. rewrite H1, H2. change (b2n x00) with 0. rewrite N.land_0_r. reflexivity. Qed.
Lemma masked_ev c ev : all_masked c -> all_masked (nstep c ev).
Proof.
  intros [H1 H2]. assert (E : forall x, x <> PHYCFGR -> com (nstep c ev) x = com c x) by (intros x Hx; exact (com_nsteps x [ev] Hx c)).
  split; rewrite E by discriminate; assumption.
Qed.
Lemma masked_wr c blk a v : zero_ok blk a v -> all_masked c -> all_masked (wbyte c blk a v).
Proof.
  intros Z [H1 H2]. unfold wbyte. destruct (N.eqb_spec blk 0) as [->|Hb].
  - destruct (N.eqb_spec a MR) as [->|Ha].
    + destruct (N.testbit (b2n v) 7); split; try reflexivity; assumption.
    + destruct (a =? VERSIONR); [split; assumption|]. unfold all_masked. cbn [set_com com]. unfold upd.
      split; [destruct (N.eqb_spec SIMR a) as [<-|]|destruct (N.eqb_spec C_IMR a) as [<-|]]; auto.
  - cbv zeta. assert (K : all_masked c) by (split; assumption).
    destruct (blk mod 4) as [|[[p|p|]|[p|p|]|]]; try exact K; try (destruct (_ =? 0)); exact K.
Qed.
Lemma z_ptree {A} j (B : N -> N -> Prop) W G (p : prog A) : (forall blk a, B blk a -> own_block j blk) ->
  ptree B W G p -> mild zero_ok p.
Proof.
  intros HB. induction p as [a|w| |b a d k IH|b a d k IH]; cbn [ptree mild]; intros H; auto.
  - destruct H as [Hb H]. auto.
  - destruct H as [Hb H]. split; [|auto]. apply each_all. intros ad v E. exfalso. destruct (own_block_div j b (HB _ _ Hb)) as [E1 _]. subst b. discriminate E1.
Qed.
Ltac zbyte := let E := fresh in intros _ [E|E]; first [reflexivity | discriminate E].
Ltac zw := unfold write_frame; cbn [mild each]; split; [|intros []; exact I]; repeat (split; [zbyte|]); exact I.
Lemma z_mode m : mild zero_ok (dev_set_mode m). Proof. unfold dev_set_mode, mode_to_register. zw. Qed.
Lemma z_reset : mild zero_ok (write_frame COMMON c_MODE [u8 128]). Proof. zw. Qed.
Lemma z_devop q : mild zero_ok (run_devop q).
Proof.
  destruct q; cbn [run_devop]; (apply mild_bind; [|intros; exact I]).
  all: try (cbn; intros got r _; destruct r; exact I).
  all: cbn [dev_set_mode dev_set_retry_timeout dev_set_retry_count reset_device mode_to_register rt_to_register to_be try_ bind]; zw.
Qed.
Lemma z_uop u : mild zero_ok (run_uop u).
Proof.
  destruct u; [exact (z_devop QResetDevice)|exact (z_devop (QSetMode m))|exact (z_devop QVersion)
    |exact (z_devop (QSetRetryTimeout r))|exact (z_devop QRetryTimeout)|exact (z_devop (QSetRetryCount n))|exact (z_devop QRetryCount)].
Qed.
Lemma z_step fuel a o : good (handles a) -> mild zero_ok (step fuel a o).
Proof.
  intros G. pose proof (good_step fuel a o G) as T.
  destruct (op_handle o) as [h|] eqn:E.
  - destruct (lookup h (handles a)) as [y|] eqn:L.
    + destruct (good_lookup _ _ _ G L) as (j & Hj & Ej). apply (z_ptree j _ _ _ _) in T; [exact T|].
      intros blk ad. unfold step_blk. rewrite E. intros (x' & L' & Hb). rewrite L in L'. injection L' as <-. rewrite Ej in Hb. now apply (sblk_own j _ ad).
    + destruct o; cbn [op_handle] in E; try discriminate E; injection E as ->; cbn [step]; try rewrite L; exact Logic.I.
  - destruct o; cbn [op_handle] in E; try discriminate E; cbn [step]; try exact Logic.I.
    + destruct (take_socket (dev a)) as [? []]; exact Logic.I.
    + destruct (tcp_socket (dev a)) as [? []]; exact Logic.I.
    + destruct (udp_socket (dev a)) as [? []]; exact Logic.I.
    + apply mild_bind; [|intros; exact Logic.I]. apply z_devop.
Qed.
Lemma z_write_if b a d c c' k : mild zero_ok (write_frame COMMON a d) -> (forall c, mild zero_ok (k c)) -> mild zero_ok (write_if b a d c c' k).
Proof. intros H K. unfold write_if. destruct b; [|apply K]. apply mild_bind; [exact H|]. intros [u|er]; [apply K|exact I]. Qed.
Lemma z_refresh h : mild zero_ok (refresh h).
Proof.
  unfold refresh. destruct h as [[|] s c|]; try exact I. apply mild_bind; [|intros; exact I]. unfold write_settings.
  assert (I4 : forall a x, a = c_GATEWAY \/ a = c_SUBNET_MASK \/ a = c_IP -> mild zero_ok (write_frame COMMON a (octets x))).
  { intros a [x0 x1 x2 x3] [->|[->| ->]]; unfold octets; cbn [ip0 ip1 ip2 ip3]; zw. }
  assert (I6 : forall x, mild zero_ok (write_frame COMMON c_MAC (mac_octets x))).
  { intros []. unfold mac_octets. zw. }
  repeat (apply z_write_if; [first [apply I6|apply I4; tauto]|intros]). exact I.
Qed.
Lemma z_init chk h m : mild zero_ok (initialize_with_host chk h m).
Proof.
  unfold initialize_with_host. cbv zeta.
  assert (R : mild zero_ok (try a <- uninit_reset else (fun e => Err (SpiError e)) ;; try b <- dev_set_mode m else (fun e => Err (SpiError e)) ;;
    do r <- refresh h ;; match snd r with Err e => Ret (Err (SpiError e)) | Ok _ => Ret (Ok (ds_new (fst r))) end)).
  { apply mild_try; [exact z_reset|]. intros a. apply mild_try; [apply z_mode|]. intros b. apply mild_bind; [apply z_refresh|]. intros [h' [u|er]]; exact I. }
  destruct chk; [|exact R]. apply mild_try; [|intros v; exact R]. unfold assert_chip_version. apply mild_try.
  - unfold dev_version. cbn. intros got [u|er] _; exact I.
  - intros v. destruct (negb _); exact I.
Qed.
Lemma z_sock i a d : i < 8 -> mild zero_ok (write_frame (register (socket_new i)) a d).
Proof.
  intros Hi. unfold write_frame. cbn [mild]. split; [|intros []; exact I]. apply each_all. intros a' v E. exfalso.
  rewrite (so_reg i Hi) in E. unfold BSB_REG in E. lia.
Qed.
Lemma z_macraw mc : mild zero_ok (initialize_macraw mc).
Proof.
  unfold initialize_macraw, raw_new. cbn [raw_zero_buffers]. cbv zeta. unfold command.
  apply mild_try; [exact z_reset|]. intros a0. apply mild_try; [destruct mc; unfold mac_octets; zw|]. intros a1.
  repeat (apply mild_try; [first [apply z_sock; reflexivity
    | repeat (apply mild_try; [apply z_sock; reflexivity|intros]); exact I]|intros]).
  exact I.
Qed.
Definition silent (q : lop) : Prop := match q with LRawCall (RwEnable _) => False | _ => True end.

(** ** The bytes a read or a write of a frame puts on the bus *)
Definition rw_safe (blk a : N) (v : byte) : Prop :=
  blk = BSB_TX 0 \/
  (blk = BSB_REG 0 /\ a <> Sn_IMR /\ (a = Sn_CR -> b2n v = CR_SEND \/ b2n v = CR_RECV) /\ (a = Sn_IR -> b2n v = IR_SENDOK)).
Definition w_safe (blk a : N) (v : byte) : Prop :=
  blk = BSB_TX 0 \/
  (blk = BSB_REG 0 /\ a <> Sn_IMR /\ (a = Sn_CR -> b2n v = CR_SEND) /\ (a = Sn_IR -> b2n v = IR_SENDOK)).
Lemma mild_mono {A} (P Q : N -> N -> byte -> Prop) (p : prog A) : (forall blk a v, P blk a v -> Q blk a v) -> mild P p -> mild Q p.
Proof.
  intros H. assert (E : forall b d a, each P b a d -> each Q b a d) by (intros b; induction d as [|v d IH]; cbn [each]; [auto|intros a [X Y]; auto]).
  induction p as [a|w| |b a d k IH|b a d k IH]; cbn [mild]; intros M; auto. destruct M as [M1 M2]. split; [exact (E _ _ _ M1)|auto].
Qed.
Lemma w_rw blk a v : w_safe blk a v -> rw_safe blk a v.
Proof. intros [H|(H1 & H2 & H3 & H4)]; [left; exact H|right]. repeat (split; auto). Qed.
Lemma rw_zero blk a v : rw_safe blk a v -> zero_ok blk a v.
Proof. intros [->|(-> & _)] E; discriminate E. Qed.

Notation s_ := (socket_new 0).
Ltac reg_b := right; split; [reflexivity|]; split; [discriminate|]; split; first [discriminate | intros _; vm_compute; tauto].
Ltac w_r := unfold write_frame; cbn [mild each]; split; [|intros []; exact I]; repeat (split; [reg_b|]); exact I.
Lemma r_read P blk a n : mild P (read_reg blk a n). Proof. cbn. intros got [u|er] _; exact I. Qed.
Lemma r_into P blk a b : mild P (read_into blk a b). Proof. cbn. intros got [u|er] _; exact I. Qed.
Lemma r_then P {R} blk a n (f : list byte -> R) : mild P (try d <- read_reg blk a n else Err ;; Ret (Ok (f d))).
Proof. apply mild_try; [apply r_read|]. intros d. exact I. Qed.
Lemma r_size P fuel : mild P (get_receive_size fuel s_).
Proof.
  induction fuel as [|fuel IH]; cbn [get_receive_size]; [exact I|]. apply mild_try; [apply r_read|]. intros a.
  apply mild_try; [apply r_read|]. intros b. destruct (bytes_eqb a b); [exact I|exact IH].
Qed.
Lemma r_wait P fuel : mild P (wait_send_ok fuel s_).
Proof.
  induction fuel as [|fuel IH]; cbn [wait_send_ok]; [exact I|]. apply mild_try; [apply r_then|]. intros [|]; [exact I|exact IH].
Qed.
Lemma r_rx_read P c b : mild P (rx_read s_ c b).
Proof.
  unfold rx_read. destruct b as [|b0 b']; [exact I|]. apply mild_slice_to. intros x.
  apply mild_bind; [apply r_into|]. intros [g [u|er]]; exact I.
Qed.
Lemma rw_body c n f : mild rw_safe (raw_read_body s_ c n f).
Proof.
  unfold raw_read_body. apply mild_bind.
  { unfold rx_read_upto. destruct (_ <? _); [|apply r_rx_read]. apply mild_slice_to. intros x. apply mild_bind; [apply r_rx_read|]. intros y. exact I. }
  intros [g' [cn'|er]]; cbn [fst snd]; [|exact I]. apply mild_try; [|intros u; exact I].
  unfold rx_commit. apply mild_try; [unfold set_rx_read_pointer, to_be; w_r|]. intros u. apply mild_try; [unfold command; w_r|]. intros v. exact I.
Qed.
(** what read_frame does once it has the size *)
Definition after_size (f : list byte) (c : cursor) : prog (list byte * res N berr) :=
  if available c =? 0 then Ret (f, Ok 0) else
  do h <- rx_read s_ c (zeros 2) ;;
  match snd h with
  | Err e => Ret (f, Err e)
  | Ok cn => if snd cn =? 2 then raw_read_body s_ (fst cn) (ssub16 (from_be (fst h)) 2) f else Panic P_raw_assert
  end.
Lemma rw_after f c : mild rw_safe (after_size f c).
Proof.
  unfold after_size. destruct (available c =? 0); [exact I|]. apply mild_bind; [apply r_rx_read|]. intros [g [cn|er]]; cbn [fst snd]; [|exact I].
  destruct (snd cn =? 2); [|exact I]. apply rw_body.
Qed.
Lemma rw_read fuel f : mild rw_safe (raw_read_frame fuel raw0 f).
Proof.
  change (raw_read_frame fuel raw0 f) with (try_ (rx_new fuel s_) (fun e => (f, @Err N berr e)) (after_size f)). apply mild_try; [|intros c; apply rw_after].
  unfold rx_new. apply mild_try; [apply r_size|]. intros sz. apply mild_try; [apply r_then|]. intros p. exact I.
Qed.
Lemma w_write fuel f : mild w_safe (raw_write_frame fuel raw0 f).
Proof.
  unfold raw_write_frame. cbn [raw_socket raw0]. apply mild_try; [unfold reset_interrupt; w_r|]. intros a.
  apply mild_try. { unfold tx_new. apply mild_try; [apply r_then|]. intros sz. apply mild_try; [apply r_then|]. intros p. exact I. }
  intros c. apply mild_try.
  { unfold tx_write. destruct orb; [exact I|]. apply mild_slice_to. intros x. apply mild_try; [|intros u; destruct (_ <? _); exact I].
    unfold write_frame. cbn [mild]. split; [|intros []; exact I]. apply each_all. intros a' v. left. reflexivity. }
  intros cn. apply mild_try.
  { unfold tx_commit. apply mild_try; [unfold set_tx_write_pointer, to_be; w_r|]. intros u. apply mild_try; [unfold command; w_r|]. intros v. exact I. }
  intros u. apply mild_try; [apply r_wait|]. intros v. exact I.
Qed.
Lemma z_raw fuel o : match o with RwEnable _ => False | _ => True end -> mild zero_ok (raw_step fuel raw0 o).
Proof.
  intros H. destruct o; [elim H| | | |]; cbn [raw_step]; (apply mild_bind; [|intros; exact I]).
  - unfold raw_clear_interrupts, reset_interrupt. apply z_sock. reflexivity.
  - unfold raw_disable_interrupts. apply mild_try; [zw|]. intros a. apply mild_try; [apply (z_sock 0); reflexivity|]. intros b. exact I.
  - apply (mild_mono _ _ _ rw_zero). apply rw_read.
  - apply (mild_mono _ _ _ rw_zero). apply (mild_mono _ _ _ w_rw). apply w_write.
Qed.

Lemma z_lstep chk fuel l q : life_ok l -> silent q -> mild zero_ok (lstep chk fuel l q).
Proof.
  intros [G RO] Q. unfold lstep. destruct q as [u|k m|mc|o|o| | | |k|k], (ph l) as [|d|k'|rd|] eqn:P; try exact I;
    try solve [destruct (nth_error (asleep l) k); exact I].
  - apply mild_bind; [apply z_uop|intros; exact I].
  - apply mild_bind; [destruct k; apply z_init|intros [d|x]; exact I].
  - apply mild_bind; [apply z_macraw|intros [d|x]; exact I].
  - apply mild_bind; [now apply z_step|intros; exact I].
  - destruct (nth_error (asleep l) k') as [d|]; [|exact I]. apply mild_bind; [now apply z_step|intros; exact I].
  - apply mild_bind; [|intros; exact I]. cbn [raw_only] in RO. subst rd. apply z_raw. destruct o; auto.
  - apply mild_bind; [|intros [[]|x]; exact I]. unfold dev_reset. destruct (any_allocated d); [exact I|]. apply mild_try; [exact z_reset|]. intros a. exact I.
  - destruct (nth_error (asleep l) k') as [d|]; [|exact I].
    apply mild_bind; [|intros [[]|x]; exact I]. unfold dev_reset. destruct (any_allocated d); [exact I|]. apply mild_try; [exact z_reset|]. intros a. exact I.
Qed.
Lemma run_all_masked e chk fuel : forall ops l s, life_ok l -> Forall silent ops -> all_masked (s_chip s) ->
  all_masked (s_chip (snd (run e (run_life chk fuel l ops) s))).
Proof.
  induction ops as [|q ops IH]; intros l s K F M; cbn [run_life]; [exact M|]. inversion F as [|? ? F1 F2]; subst.
  pose proof (run_inv zero_ok e all_masked masked_ev masked_wr (lstep chk fuel l q) (z_lstep chk fuel l q K F1) s M) as M1.
  rewrite run_bind. destruct (run e (lstep chk fuel l q) s) as [[r|w| |] s1] eqn:R; cbn [fst snd] in *; try exact M1.
  destruct (lstep_common e chk fuel l q s r s1 K R) as (K1 & _). specialize (IH (fst r) s1 K1 F2 M1).
  rewrite run_bind. destruct (run e (run_life chk fuel (fst r) ops) s1) as [[x|w| |] s2]; exact IH.
Qed.
Lemma started e chk fuel l q s l2 s2 : life_ok l -> run e (lstep chk fuel l q) s = (Done (l2, LInited (Ok tt)), s2) -> life_ok l2 /\ all_masked (s_chip s2).
Proof.
  intros K R. destruct (lstep_common e chk fuel l q s _ s2 K R) as (K1 & C). cbn [fst snd] in *. split; [exact K1|].
  assert (Q : match q with LInit _ _ | LInitRaw _ => True | _ => False end).
  { unfold lstep in R. destruct q as [u|k m|mc|o|o| | | |k|k]; try exact I; exfalso; destruct (ph l); cbn [run] in R; try discriminate R.
    all: try (apply run_map_done in R as (? & _ & [=])).
    all: try (destruct (nth_error (asleep l) _); [|discriminate R]).
    all: try (apply run_map_done in R as (? & _ & [=])).
    all: try discriminate R.
    all: apply run_bind_done in R as ([[]|?] & ? & _ & R); discriminate R. }
  assert (W : clean q (LInited (Ok tt))) by (destruct q; try destruct Q; exact I). specialize (C W).
  split; rewrite C by discriminate; destruct q as [| [] | | | | | | | |]; try destruct Q; reflexivity.
Qed.

(** ** What stays while frames are read and written *)
Lemma wbyte_reg0 c a v : wbyte c (BSB_REG 0) a v = set_sock c 0 (sock_wr 0 (socks c 0) a v). Proof. reflexivity. Qed.
Lemma wbyte_tx0 c a v : wbyte c (BSB_TX 0) a v =
  if tx_size (socks c 0) =? 0 then c else set_sock c 0 (set_txm (socks c 0) (upd (txm (socks c 0)) (a mod tx_size (socks c 0)) v)).
Proof. reflexivity. Qed.
(** the masks that enable_interrupts set *)
Definition enabled (w : byte) (c : chip) : Prop := com c SIMR = x01 /\ com c C_IMR = x00 /\ regs (socks c 0) Sn_IMR = w.
Lemma step_regs x ev : regs (sock_step x ev) = regs x.
Proof. destruct ev; cbn [sock_step]; unfold transmit, rx_append; repeat match goal with |- context [if ?b then _ else _] => destruct b end; reflexivity. Qed.
Lemma step_ir x ev b : N.testbit (ir x) b = true -> N.testbit (ir (sock_step x ev)) b = true.
Proof.
  intros H. destruct ev; cbn [sock_step]; unfold transmit, rx_append; repeat match goal with |- context [if ?b then _ else _] => destruct b end;
    cbn; rewrite ?N.lor_spec, ?H; reflexivity.
Qed.
Lemma enabled_ev w c ev : enabled w c -> enabled w (nstep c ev).
Proof.
  intros (H1 & H2 & H3). assert (E : forall x, x <> PHYCFGR -> com (nstep c ev) x = com c x) by (intros x Hx; exact (com_nsteps x [ev] Hx c)).
  split; [rewrite E by discriminate; exact H1|]. split; [rewrite E by discriminate; exact H2|].
  unfold nstep. destruct (ev_sock ev) as [n|]; [|destruct ev; exact H3]. unfold set_sock. cbn [socks]. destruct (N.eqb_spec 0 n) as [<-|]; [|exact H3].
  rewrite step_regs. exact H3.
Qed.
(** the writes that leave the masks alone: those above and clear_interrupts *)
Definition mask_safe (blk a : N) (v : byte) : Prop := blk = BSB_TX 0 \/ (blk = BSB_REG 0 /\ a <> Sn_IMR).
Lemma rw_mask blk a v : rw_safe blk a v -> mask_safe blk a v.
Proof. intros [H|(H1 & H2 & _)]; [left|right]; auto. Qed.
Lemma cmd_imr n x c : regs (do_command n x c) Sn_IMR = regs x Sn_IMR.
Proof. unfold do_command. repeat match goal with |- context [if ?b then _ else _] => destruct b end; reflexivity. Qed.
Lemma enabled_wr w c blk a v : mask_safe blk a v -> enabled w c -> enabled w (wbyte c blk a v).
Proof.
  intros M (H1 & H2 & H3). destruct M as [->|(-> & Ha)].
  - rewrite wbyte_tx0. destruct (_ =? 0); (split; [exact H1|split; [exact H2|exact H3]]).
  - rewrite wbyte_reg0. split; [exact H1|]. split; [exact H2|]. unfold set_sock. cbn [socks]. change (0 =? 0) with true. cbv iota. unfold sock_wr.
    destruct (a =? Sn_CR); [rewrite cmd_imr; exact H3|]. destruct (a =? Sn_IR); [exact H3|]. destruct (read_only a); [exact H3|].
    cbn [set_regs regs]. unfold upd. destruct (N.eqb_spec Sn_IMR a); [congruence|exact H3].
Qed.
Lemma enabled_pin w c : enabled w c -> asserted c = negb (N.land (ir (socks c 0)) (b2n w) =? 0).
Proof.
  intros (H1 & H2 & H3). unfold asserted. rewrite H1, H2, <- H3. change (b2n x00) with 0. rewrite N.land_0_r. cbn [negb N.eqb orb existsb].
  change (N.testbit (b2n x01) 0) with true. cbn [andb].
  change (N.testbit (b2n x01) 1) with false. change (N.testbit (b2n x01) 2) with false. change (N.testbit (b2n x01) 3) with false.
  change (N.testbit (b2n x01) 4) with false. change (N.testbit (b2n x01) 5) with false. change (N.testbit (b2n x01) 6) with false.
  change (N.testbit (b2n x01) 7) with false. cbn [andb orb]. apply orb_false_r.
Qed.
Lemma flag_pin w c b : enabled w c -> N.testbit (ir (socks c 0)) b = true -> N.testbit (b2n w) b = true -> asserted c = true.
Proof.
  intros E H1 H2. rewrite (enabled_pin w c E). apply negb_true_iff. apply N.eqb_neq. intros Z.
  assert (X : N.testbit (N.land (ir (socks c 0)) (b2n w)) b = true) by (rewrite N.land_spec, H1, H2; reflexivity).
  rewrite Z, N.bits_0 in X. discriminate X.
Qed.
Lemma mask_raw fuel o : match o with RwEnable _ | RwDisable => False | _ => True end -> mild mask_safe (raw_step fuel raw0 o).
Proof.
  intros H. destruct o; try elim H; cbn [raw_step]; (apply mild_bind; [|intros; exact I]).
  - unfold raw_clear_interrupts, reset_interrupt, write_frame. cbn [mild each]. split; [|intros []; exact I]. split; [|exact I]. right. split; [reflexivity|discriminate].
  - apply (mild_mono _ _ _ rw_mask). apply rw_read.
  - apply (mild_mono _ _ _ rw_mask). apply (mild_mono _ _ _ w_rw). apply w_write.
Qed.
Lemma mild_run_raw P fuel ops : Forall (fun o => mild P (raw_step fuel raw0 o)) ops -> mild P (run_raw fuel raw0 ops).
Proof.
  induction 1 as [|o ops M _ IH]; cbn [run_raw]; [exact I|]. apply mild_bind; [exact M|]. intros r. apply mild_bind; [exact IH|]. intros rs. exact I.
Qed.
Definition rw_only (o : rawop) : Prop := match o with RwRead _ | RwWrite _ => True | _ => False end.
Lemma rw_raw fuel o : rw_only o -> mild rw_safe (raw_step fuel raw0 o).
Proof.
  intros H. destruct o; try elim H; cbn [raw_step]; (apply mild_bind; [|intros; exact I]); [apply rw_read|].
  apply (mild_mono _ _ _ w_rw). apply w_write.
Qed.

(** a flag other than SENDOK stays up *)
Definition up (b : N) (c : chip) : Prop := N.testbit (ir (socks c 0)) b = true.
Lemma up_ev b c ev : up b c -> up b (nstep c ev).
Proof.
  intros H. unfold up, nstep. destruct (ev_sock ev) as [n|]; [|destruct ev; exact H]. unfold set_sock. cbn [socks]. destruct (N.eqb_spec 0 n) as [<-|]; [|exact H].
  apply step_ir. exact H.
Qed.
Lemma cmd_ir n x c : ir (do_command n x c) = ir x.
Proof. unfold do_command. repeat match goal with |- context [if ?b then _ else _] => destruct b end; reflexivity. Qed.
Lemma up_wr b c blk a v : b <> 4 -> rw_safe blk a v -> up b c -> up b (wbyte c blk a v).
Proof.
  intros Hb M H. destruct M as [->|(-> & _ & Hc & Hi)].
  - rewrite wbyte_tx0. destruct (_ =? 0); exact H.
  - rewrite wbyte_reg0. unfold up, set_sock. cbn [socks]. change (0 =? 0) with true. cbv iota. unfold sock_wr.
    destruct (a =? Sn_CR); [rewrite cmd_ir; exact H|]. destruct (N.eqb_spec a Sn_IR) as [->|]; [|destruct (read_only a); exact H].
    cbn [set_ir ir]. rewrite N.ldiff_spec, (Hi eq_refl). change IR_SENDOK with (2 ^ 4). rewrite H, N.pow2_bits_false by congruence. reflexivity.
Qed.
(** nothing has arrived since the log was [l], or RECV is up *)
Definition logged (l : list byte) (c : chip) : Prop := up 2 c \/ rxlog (socks c 0) = l.
Lemma step_log x ev : N.testbit (ir (sock_step x ev)) 2 = true \/ (rxlog (sock_step x ev) = rxlog x /\ rx_rsr (sock_step x ev) = rx_rsr x).
Proof.
  destruct ev; cbn [sock_step]; unfold transmit, rx_append; repeat match goal with |- context [if ?b then _ else _] => destruct b end;
    try (right; split; reflexivity); left; cbn; rewrite N.lor_spec; change (N.testbit IR_RECV 2) with true; apply orb_true_r.
Qed.
Lemma logged_ev l c ev : logged l c -> logged l (nstep c ev).
Proof.
  intros [H|H]; [left; now apply up_ev|]. unfold logged, up, nstep. destruct (ev_sock ev) as [n|]; [|destruct ev; right; exact H].
  unfold set_sock. cbn [socks]. destruct (N.eqb_spec 0 n) as [<-|]; [|right; exact H].
  destruct (step_log (socks c 0) ev) as [E|[E _]]; [left; exact E|right; now rewrite E].
Qed.
Lemma logged_wr l c blk a v : rw_safe blk a v -> logged l c -> logged l (wbyte c blk a v).
Proof.
  intros M [H|H]; [left; apply up_wr; [discriminate|exact M|exact H]|right]. destruct M as [->|(-> & _ & Hc & _)].
  - rewrite wbyte_tx0. destruct (_ =? 0); exact H.
  - rewrite wbyte_reg0. unfold set_sock. cbn [socks]. change (0 =? 0) with true. cbv iota. unfold sock_wr.
    destruct (N.eqb_spec a Sn_CR) as [->|]; [|destruct (a =? Sn_IR); [exact H|destruct (read_only a); exact H]].
    destruct (Hc eq_refl) as [-> | ->]; unfold do_command; cbn [N.eqb Pos.eqb CR_SEND CR_RECV CR_OPEN CR_LISTEN CR_CONNECT CR_DISCON CR_CLOSE];
      [destruct (is_sending_state _)|]; exact H.
Qed.
(** nothing waits to be read, or RECV is up *)
Definition heard (c : chip) : Prop := up 2 c \/ rx_rsr (socks c 0) = 0.
Lemma heard_ev c ev : heard c -> heard (nstep c ev).
Proof.
  intros [H|H]; [left; now apply up_ev|]. unfold heard, up, nstep. destruct (ev_sock ev) as [n|]; [|destruct ev; right; exact H].
  unfold set_sock. cbn [socks]. destruct (N.eqb_spec 0 n) as [<-|]; [|right; exact H].
  destruct (step_log (socks c 0) ev) as [E|[_ E]]; [left; exact E|right; now rewrite E].
Qed.
Lemma heard_wr c blk a v : w_safe blk a v -> heard c -> heard (wbyte c blk a v).
Proof.
  intros M [H|H]; [left; apply up_wr; [discriminate|now apply w_rw|exact H]|right]. destruct M as [->|(-> & _ & Hc & _)].
  - rewrite wbyte_tx0. destruct (_ =? 0); exact H.
  - rewrite wbyte_reg0. unfold set_sock. cbn [socks]. change (0 =? 0) with true. cbv iota. unfold sock_wr.
    destruct (N.eqb_spec a Sn_CR) as [->|]; [|destruct (a =? Sn_IR); [exact H|destruct (read_only a); exact H]].
    rewrite (Hc eq_refl). unfold do_command. cbn [N.eqb Pos.eqb CR_SEND CR_RECV CR_OPEN CR_LISTEN CR_CONNECT CR_DISCON CR_CLOSE].
    destruct (is_sending_state _); exact H.
Qed.
(** a size read of anything but 0 means that RECV is up *)
Lemma rsr_bytes e s : heard (s_chip s) -> forall d s', read_bytes e (register s_) s_RECEIVED_SIZE 2 s = (d, s') ->
  up 2 (s_chip s') \/ (rx_rsr (socks (s_chip s') 0) = 0 /\ d = [x00; x00]).
Proof.
  intros H d s' R. cbn [read_bytes] in R. injection R as <- <-.
  assert (H1 : heard (s_chip (tick e s))) by (cbn [tick s_chip]; apply (inv_nsteps heard heard_ev); exact H).
  set (s1 := tick e s) in *. assert (H2 : heard (s_chip (tick e s1))) by (cbn [tick s_chip]; apply (inv_nsteps heard heard_ev); exact H1).
  destruct H2 as [H2|H2]; [left; exact H2|]. destruct H1 as [H1|H1].
  - left. cbn [tick s_chip]. apply (inv_nsteps (up 2) (up_ev 2)). exact H1.
  - right. split; [exact H2|].
    assert (B1 : forall c, rbyte c (register s_) s_RECEIVED_SIZE = hi (rx_rsr (socks c 0))) by (intros; reflexivity).
    assert (B2 : forall c, rbyte c (register s_) (next_addr s_RECEIVED_SIZE) = lo (rx_rsr (socks c 0))) by (intros; reflexivity).
    change ([rbyte (s_chip s1) (register s_) s_RECEIVED_SIZE; rbyte (s_chip (tick e s1)) (register s_) (next_addr s_RECEIVED_SIZE)] = [x00; x00]).
    rewrite B1, B2, H1, H2. reflexivity.
Qed.
Lemma rsr_read e s : heard (s_chip s) -> forall d s', run e (read_reg (register s_) s_RECEIVED_SIZE 2) s = (Done (Ok d), s') ->
  up 2 (s_chip s') \/ (rx_rsr (socks (s_chip s') 0) = 0 /\ d = [x00; x00]).
Proof.
  intros H d s' R. unfold read_reg in R. cbn [bind try_ run] in R. unfold bus_read in R. change (length (zeros 2)) with 2%nat in R.
  destruct (fails e (s_call s)) as [[k er]|].
  - exfalso. destruct (read_bytes _ _ _ _ _) in R. cbn in R. discriminate R.
  - destruct (read_bytes e (register s_) s_RECEIVED_SIZE 2 s) as [g s1] eqn:B. cbn in R. injection R as <- <-. exact (rsr_bytes e s H g s1 B).
Qed.
Lemma size_heard e fuel : forall s, heard (s_chip s) -> forall n s', run e (get_receive_size fuel s_) s = (Done (Ok n), s') -> n <> 0 -> up 2 (s_chip s').
Proof.
  induction fuel as [|fuel IH]; intros s H n s' R Hn; cbn [get_receive_size] in R; [discriminate R|].
  apply run_try_ok in R as [(a & s1 & R1 & R)|(? & _ & [=])]. apply run_try_ok in R as [(b & s2 & R2 & R)|(? & _ & [=])].
  assert (U : up 2 (s_chip s1) -> up 2 (s_chip s')).
  { intros U. pose proof (run_inv rw_safe e (up 2) (up_ev 2) (fun c blk ad v => up_wr 2 c blk ad v ltac:(discriminate)) _ (r_read rw_safe (register s_) s_RECEIVED_SIZE 2) s1 U) as U2.
    rewrite R2 in U2. cbn [snd] in U2. destruct (bytes_eqb a b); [cbn [run] in R; injection R as _ <-; exact U2|].
    pose proof (run_inv rw_safe e (up 2) (up_ev 2) (fun c blk ad v => up_wr 2 c blk ad v ltac:(discriminate)) _ (r_size rw_safe fuel) s2 U2) as U3.
    rewrite R in U3. exact U3. }
  destruct (rsr_read e s H a s1 R1) as [E|[E ->]]; [exact (U E)|].
  assert (H1 : heard (s_chip s1)) by (right; exact E).
  destruct (bytes_eqb _ b) eqn:Q.
  - cbn [run] in R. injection R as <- <-. elim Hn. reflexivity.
  - apply (IH s2) with (n := n); [|exact R|exact Hn].
    pose proof (run_inv w_safe e heard heard_ev heard_wr _ (r_read w_safe (register s_) s_RECEIVED_SIZE 2) s1 H1) as H2. rewrite R2 in H2. exact H2.
Qed.
Lemma new_heard e fuel s : heard (s_chip s) -> forall c s', run e (rx_new fuel s_) s = (Done (Ok c), s') -> available c <> 0 -> up 2 (s_chip s').
Proof.
  intros H c s' R Hn. unfold rx_new in R. apply run_try_ok in R as [(n & s1 & R1 & R)|(? & _ & [=])]. apply run_try_ok in R as [(p & s2 & R2 & R)|(? & _ & [=])].
  cbn [run] in R. injection R as <- <-. cbn [available size] in Hn. pose proof (size_heard e fuel s H n s1 R1 Hn) as U.
  pose proof (run_inv rw_safe e (up 2) (up_ev 2) (fun c blk ad v => up_wr 2 c blk ad v ltac:(discriminate)) (get_rx_read_pointer s_) (r_then rw_safe _ _ _ _) s1 U) as U2.
  rewrite R2 in U2. exact U2.
Qed.
Lemma read_heard e fuel f s : heard (s_chip s) -> heard (s_chip (snd (run e (raw_read_frame fuel raw0 f) s))).
Proof.
  intros H. change (raw_read_frame fuel raw0 f) with (try_ (rx_new fuel s_) (fun e => (f, @Err N berr e)) (after_size f)). unfold try_. rewrite run_bind.
  assert (M : mild w_safe (rx_new fuel s_)) by (unfold rx_new; apply mild_try; [apply r_size|]; intros sz; apply mild_try; [apply r_then|]; intros p; exact I).
  pose proof (run_inv w_safe e heard heard_ev heard_wr _ M s H) as H1.
  destruct (run e (rx_new fuel s_) s) as [[[c|x]|w| |] s1] eqn:R; cbn [fst snd cast] in *; try exact H1.
  destruct (N.eq_dec (available c) 0) as [Z|Z].
  - unfold after_size. rewrite Z. exact H1.
  - left. pose proof (new_heard e fuel s H c s1 R Z) as U.
    exact (run_inv rw_safe e (up 2) (up_ev 2) (fun c blk ad v => up_wr 2 c blk ad v ltac:(discriminate)) _ (rw_after f c) s1 U).
Qed.
Lemma step_heard e fuel o s : rw_only o -> heard (s_chip s) -> heard (s_chip (snd (run e (raw_step fuel raw0 o) s))).
Proof.
  intros Q H. destruct o as [w| | |f|f]; try elim Q; cbn [raw_step]; rewrite run_bind.
  - pose proof (read_heard e fuel f s H) as H1. destruct (run e _ s) as [[r|w| |] s1]; exact H1.
  - pose proof (run_inv w_safe e heard heard_ev heard_wr _ (w_write fuel f) s H) as H1. destruct (run e _ s) as [[r|w| |] s1]; exact H1.
Qed.
Lemma run_heard e fuel : forall ops s, Forall rw_only ops -> heard (s_chip s) -> heard (s_chip (snd (run e (run_raw fuel raw0 ops) s))).
Proof.
  induction ops as [|o ops IH]; intros s F H; cbn [run_raw]; [exact H|]. inversion F as [|? ? F1 F2]; subst.
  pose proof (step_heard e fuel o s F1 H) as H1. rewrite run_bind. destruct (run e (raw_step fuel raw0 o) s) as [[r|w| |] s1]; cbn [fst snd] in *; try exact H1.
  specialize (IH s1 F2 H1). rewrite run_bind. destruct (run e (run_raw fuel raw0 ops) s1) as [[x|w| |] s2]; exact IH.
Qed.
(** the common mask stays off through any MACRAW program *)
Lemma imr_off e fuel ops s : com (s_chip s) C_IMR = x00 -> com (s_chip (snd (run e (run_raw fuel raw0 ops) s))) C_IMR = x00.
Proof.
  apply (run_inv raw_safe e (fun c => com c C_IMR = x00)); [| |apply m_run_raw].
  - intros c ev H. rewrite <- H. exact (com_nsteps C_IMR [ev] ltac:(discriminate) c).
  - intros c blk a v W H. rewrite <- H. apply keeps_write_byte.
    destruct W as [(-> & ->)|[->|(-> & _)]]; [right; split; discriminate|left; discriminate|left; discriminate].
Qed.
