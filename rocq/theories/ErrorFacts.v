(** For every API function: a failing bus access is the last one and is reported. *)
From Verif Require Export ApiFacts.

(** the bus error carried by a result, if any *)
Definition eb {A} (r : res A berr) : option berr := match r with Ok _ => None | Err e => Some e end.
Definition et {A} (r : res A terr) : option berr :=
  match r with Err (TOther e) => Some e | _ => None end.
Definition eu {A} (r : res A uerr) : option berr :=
  match r with Err (UOther e) => Some e | _ => None end.
Definition ent {A} (r : res A (nberr terr)) : option berr :=
  match r with Err (NbOther (TOther e)) => Some e | _ => None end.
Definition enu {A} (r : res A (nberr uerr)) : option berr :=
  match r with Err (NbOther (UOther e)) => Some e | _ => None end.
Definition ei {A} (r : res A InitializeError) : option berr :=
  match r with Err (SpiError e) => Some e | _ => None end.
Definition er {A} (r : res A ResetError) : option berr :=
  match r with Err (RsOther e) => Some e | _ => None end.

Lemma estop_try {A X R} (E : res A X -> option berr) (E' : R -> option berr) p h k :
  estop E p -> (forall a, E (Ok a) = None) -> (forall x, E' (h x) = E (Err x)) ->
  (forall a, estop E' (k a)) -> estop E' (try_ p h k).
Proof.
  intros Hp H1 H2 Hk. unfold try_. eapply estop_bind; [exact Hp| |].
  - intros [a|x] Ha; [apply Hk|cbn; now rewrite H2].
  - intros [a|x] e Ha; [now rewrite H1 in Ha|]. eexists; split; [reflexivity|]. now rewrite H2.
Qed.

Lemma es_write blk a d : estop eb (write_frame blk a d).
Proof. cbn. split; [reflexivity|]. intros e. eauto. Qed.
Lemma es_read_reg blk a n : estop eb (read_reg blk a n).
Proof. cbn. split; [reflexivity|]. intros got e L. eauto. Qed.
Lemma es_read_into blk a buf : estop (fun gr => eb (snd gr)) (read_into blk a buf).
Proof. cbn. split; [reflexivity|]. intros got e L. eauto. Qed.

Lemma es_read_then {R} blk a n (f : list byte -> R) :
  estop eb (try d <- read_reg blk a n else Err ;; Ret (Ok (f d))).
Proof. eapply estop_try; [apply es_read_reg|..]; intros; reflexivity. Qed.

Ltac estep :=
  eapply estop_try;
  [ first [ simple apply es_write | simple apply es_read_reg | simple apply es_read_then
          | eassumption | solve [eauto 2 with es nocore] ]
  | intros; reflexivity | intros [] || intros ?; reflexivity | intros ? ].

Section SocketErr.
  Context (s : Socket).
  Lemma es_set_mode m : estop eb (set_mode s m). Proof. apply es_write. Qed.
  Lemma es_reset_interrupt m : estop eb (reset_interrupt s m). Proof. apply es_write. Qed.
  Lemma es_set_source_port m : estop eb (set_source_port s m). Proof. apply es_write. Qed.
  Lemma es_set_destination_ip m : estop eb (set_destination_ip s m). Proof. apply es_write. Qed.
  Lemma es_set_destination_port m : estop eb (set_destination_port s m). Proof. apply es_write. Qed.
  Lemma es_set_tx_write_pointer m : estop eb (set_tx_write_pointer s m). Proof. apply es_write. Qed.
  Lemma es_set_rx_read_pointer m : estop eb (set_rx_read_pointer s m). Proof. apply es_write. Qed.
  Lemma es_set_interrupt_mask m : estop eb (set_interrupt_mask s m). Proof. apply es_write. Qed.
  Lemma es_command m : estop eb (command s m). Proof. apply es_write. Qed.
  Lemma es_get_status : estop eb (get_status s). Proof. apply es_read_then. Qed.
  Lemma es_has_interrupt i : estop eb (has_interrupt s i). Proof. apply (es_read_then _ _ _ _). Qed.
  Lemma es_get_tx_read_pointer : estop eb (get_tx_read_pointer s). Proof. apply es_read_then. Qed.
  Lemma es_get_tx_write_pointer : estop eb (get_tx_write_pointer s). Proof. apply es_read_then. Qed.
  Lemma es_get_rx_read_pointer : estop eb (get_rx_read_pointer s). Proof. apply es_read_then. Qed.
  Lemma es_get_tx_free_size : estop eb (get_tx_free_size s). Proof. apply es_read_then. Qed.
  Lemma es_get_receive_size fuel : estop eb (get_receive_size fuel s).
  Proof.
    induction fuel as [|fuel IH]; cbn [get_receive_size]; [exact I|].
    estep. estep. destruct (bytes_eqb a a0); [reflexivity|exact IH].
  Qed.
End SocketErr.
Create HintDb es.
#[export] Hint Resolve es_set_mode es_reset_interrupt es_set_source_port es_set_destination_ip
  es_set_destination_port es_set_tx_write_pointer es_set_rx_read_pointer es_set_interrupt_mask
  es_command es_get_status es_has_interrupt es_get_tx_read_pointer es_get_tx_write_pointer
  es_get_rx_read_pointer es_get_tx_free_size es_get_receive_size : es.

Lemma es_wait_send_ok fuel s : estop eb (wait_send_ok fuel s).
Proof.
  induction fuel as [|fuel IH]; cbn [wait_send_ok]; [exact I|].
  estep. destruct a; [reflexivity|exact IH].
Qed.
#[export] Hint Resolve es_wait_send_ok : es.

(** ** TCP *)
Lemma es_tcp_reopen t : estop et (tcp_reopen t).
Proof. unfold tcp_reopen. cbv zeta. repeat estep. reflexivity. Qed.
Lemma es_tcp_open t p : estop et (tcp_open t p).
Proof. unfold tcp_open. cbv zeta. repeat estep. reflexivity. Qed.
Lemma es_tcp_socket_close t : estop et (tcp_socket_close t).
Proof. unfold tcp_socket_close. cbv zeta. repeat estep. reflexivity. Qed.
#[export] Hint Resolve es_tcp_reopen es_tcp_open es_tcp_socket_close : es.
Lemma es_tcp_connect_wait fuel t : estop et (tcp_connect_wait fuel t).
Proof.
  induction fuel as [|fuel IH]; cbn [tcp_connect_wait]; [exact I|].
  estep. destruct (status_try_from a) as [[]|]; try exact IH; [|reflexivity].
  estep. apply es_tcp_reopen.
Qed.
Lemma es_tcp_do_connect fuel t r : estop et (tcp_do_connect fuel t r).
Proof. unfold tcp_do_connect. cbv zeta. do 3 estep. apply es_tcp_connect_wait. Qed.
Lemma es_tcp_socket_connect fuel t r : estop et (tcp_socket_connect fuel t r).
Proof.
  unfold tcp_socket_connect. estep.
  destruct (status_try_from a) as [[]|]; try simple apply es_tcp_do_connect; try reflexivity;
    (estep; estep; simple apply es_tcp_do_connect).
Qed.
#[export] Hint Resolve es_tcp_socket_connect : es.
Lemma es_tcp_connect fuel t r : estop ent (tcp_connect fuel t r).
Proof.
  unfold tcp_connect. destruct r as [r|]; [|reflexivity]. repeat estep. reflexivity.
Qed.
Lemma es_tcp_is_connected t : estop et (tcp_is_connected t).
Proof. unfold tcp_is_connected. estep. reflexivity. Qed.
#[export] Hint Resolve es_tcp_is_connected : es.
Lemma es_tcp_send_data fuel t d : estop et (tcp_send_data fuel t d).
Proof. unfold tcp_send_data. cbv zeta. repeat estep. reflexivity. Qed.
Lemma es_tcp_socket_send fuel t d : estop et (tcp_socket_send fuel t d).
Proof.
  unfold tcp_socket_send. estep. destruct (negb a); [reflexivity|]. estep.
  destruct (len d <? a0); [apply es_tcp_send_data|].
  unfold slice_to. destruct (a0 <=? len d); [apply es_tcp_send_data|exact I].
Qed.
#[export] Hint Resolve es_tcp_socket_send : es.
Lemma es_tcp_send fuel t d : estop ent (tcp_send fuel t d).
Proof. unfold tcp_send. estep. reflexivity. Qed.

Lemma es_tcp_receive_data t n d : estop (fun r => et (snd r)) (tcp_receive_data t n d).
Proof.
  unfold tcp_receive_data. cbv zeta. estep.
  eapply estop_bind; [apply es_read_into| |].
  - intros [got [u|e]]; cbn [fst snd]; [|discriminate]. intros _. repeat estep. reflexivity.
  - intros [got [u|e]] e'; cbn [fst snd]; [discriminate|]. intros [= ->]. eexists. split; reflexivity.
Qed.
Lemma es_tcp_socket_receive fuel t d : estop (fun r => et (snd r)) (tcp_socket_receive fuel t d).
Proof.
  unfold tcp_socket_receive. estep. destruct (negb a); [reflexivity|].
  estep. destruct (negb a0); [reflexivity|]. estep.
  destruct (len d <? a1); [apply es_tcp_receive_data|].
  destruct (a1 <=? len d); [apply es_tcp_receive_data|exact I].
Qed.
Lemma es_tcp_receive fuel t d : estop (fun r => ent (snd r)) (tcp_receive fuel t d).
Proof.
  unfold tcp_receive. eapply estop_bind; [apply es_tcp_socket_receive| |].
  - intros [b [n|[]]]; cbn; congruence.
  - intros [b [n|[]]] e'; cbn; try discriminate. intros [= ->]. eexists. split; reflexivity.
Qed.
Lemma es_tcp_close d t : estop (fun r => et (snd r)) (tcp_close d t).
Proof. unfold tcp_close. estep. destruct (release_socket d (t_socket t)); [reflexivity|exact I]. Qed.

(** ** UDP *)
Lemma es_udp_open u : estop eb (udp_open u).
Proof. unfold udp_open. cbv zeta. repeat estep. reflexivity. Qed.
#[export] Hint Resolve es_udp_open : es.
Lemma es_udp_set_port u p : estop (fun r => eu (snd r)) (udp_set_port u p).
Proof. unfold udp_set_port. cbv zeta. repeat estep. reflexivity. Qed.
Lemma es_udp_set_destination u r : estop (fun r => eu (snd r)) (udp_set_destination u r).
Proof.
  unfold udp_set_destination. destruct (match u_dest u with Some d => _ | None => _ end); [|reflexivity].
  repeat estep. reflexivity.
Qed.
Lemma es_udp_try_flush_tx u : estop enu (udp_try_flush_tx u).
Proof.
  unfold udp_try_flush_tx. cbv zeta. estep. estep. destruct (a =? a0); [|reflexivity].
  estep. destruct a1; [estep; reflexivity|]. estep. destruct a1; [estep; reflexivity|reflexivity].
Qed.
Lemma es_udp_flush_loop fuel u : estop enu (udp_flush_loop fuel u).
Proof.
  induction fuel as [|fuel IH]; cbn [udp_flush_loop]; [exact I|].
  eapply estop_bind; [apply es_udp_try_flush_tx| |].
  - intros [x|[|e]] H; [reflexivity|exact IH|exact H].
  - intros [x|[|e]] e' H; try discriminate. eexists. split; [reflexivity|exact H].
Qed.
Lemma es_udp_block_send fuel u : estop enu (udp_block_send_command fuel u).
Proof. unfold udp_block_send_command. estep. apply es_udp_flush_loop. Qed.
#[export] Hint Resolve es_udp_block_send : es.
Lemma es_udp_send_data fuel u d : estop enu (udp_send_data fuel u d).
Proof. unfold udp_send_data. cbv zeta. repeat estep. reflexivity. Qed.
Lemma gate_enu st e : udp_status_gate st = Err e -> forall A, @enu A (Err e) = None.
Proof. unfold udp_status_gate. destruct (status_try_from st) as [[]|]; intros [= <-]; reflexivity. Qed.
Lemma es_udp_socket_send fuel u d : estop enu (udp_socket_send fuel u d).
Proof.
  unfold udp_socket_send. cbv zeta. estep.
  destruct (udp_status_gate a) eqn:G; [|exact (gate_enu _ _ G _)].
  destruct (u_dest u); [|reflexivity]. estep. destruct (a2 =? 0); [reflexivity|].
  destruct (len d <? a2); [apply es_udp_send_data|].
  unfold slice_to. destruct (a2 <=? len d); [apply es_udp_send_data|exact I].
Qed.
#[export] Hint Resolve es_udp_socket_send : es.
Lemma es_udp_send_loop outer fuel u d free total : estop enu (udp_send_loop outer fuel u d free total).
Proof.
  revert free total. induction outer as [|outer IH]; intros free total; cbn [udp_send_loop].
  - destruct (total =? len d); [reflexivity|exact I].
  - destruct (total =? len d); [reflexivity|].
    unfold slice_from. destruct (total <=? len d); [|exact I]. cbv zeta.
    unfold slice_to. match goal with |- context [if ?c then _ else _] => destruct c end; [|exact I].
    estep. estep. apply IH.
Qed.
Lemma es_udp_send_all fuel u d : estop enu (udp_send_all fuel u d).
Proof.
  unfold udp_send_all. cbv zeta. estep.
  destruct (udp_status_gate a) eqn:G; [|exact (gate_enu _ _ G _)].
  destruct (u_dest u); [|reflexivity]. estep. destruct (a2 =? 0); [reflexivity|].
  apply es_udp_send_loop.
Qed.
Lemma es_udp_connect u r : estop (fun r => eu (snd r)) (udp_connect u r).
Proof. unfold udp_connect. destruct r; [|reflexivity]. estep. apply es_udp_set_destination. Qed.
Lemma es_udp_bind u p : estop (fun r => eu (snd r)) (udp_bind u p).
Proof.
  unfold udp_bind. eapply estop_bind; [apply es_udp_set_port| |].
  - intros [u' [x|e]] H; cbn [fst snd] in *; [|exact H]. estep. reflexivity.
  - intros [u' [x|e]] e' H; cbn [fst snd] in *; [discriminate|]. eexists. split; [reflexivity|exact H].
Qed.
Lemma es_udp_send_to fuel u r d : estop (fun r => enu (snd r)) (udp_send_to fuel u r d).
Proof.
  unfold udp_send_to. destruct r as [r|]; [|reflexivity]. unfold udp_send_to_v4.
  eapply estop_bind; [apply es_udp_set_destination| |].
  - intros [u' [x|e]] H; cbn [fst snd] in *; [|destruct e; exact H].
    eapply estop_bind; [apply es_udp_send_all| |].
    + intros q Hq. exact Hq.
    + intros q e Hq. eexists. split; [reflexivity|exact Hq].
  - intros [u' [x|e]] e' H; cbn [fst snd] in *; [discriminate|].
    eexists. split; [reflexivity|]. destruct e; exact H.
Qed.
Lemma es_udp_socket_receive fuel u d : estop (fun r => enu (snd r)) (udp_socket_receive fuel u d).
Proof.
  unfold udp_socket_receive. cbv zeta. estep.
  destruct (udp_status_gate a) eqn:G; [|exact (gate_enu _ _ G _)].
  estep. destruct (negb a1); [reflexivity|]. estep. destruct (a2 =? 0); [reflexivity|].
  destruct (len d =? 0); [reflexivity|]. estep. estep.
  unfold slice_to. match goal with |- context [if ?c then _ else _] => destruct c end; [|exact I].
  eapply estop_bind; [apply es_read_into| |].
  - intros [got [x|e]]; cbn [fst snd]; [|discriminate]. intros _. repeat estep. reflexivity.
  - intros [got [x|e]] e'; cbn [fst snd]; [discriminate|]. intros [= ->]. eexists. split; reflexivity.
Qed.
Lemma es_udp_receive fuel u d : estop (fun r => enu (snd r)) (udp_receive fuel u d).
Proof.
  unfold udp_receive. eapply estop_bind; [apply es_udp_socket_receive| |].
  - intros [b [n|[|[]]]]; cbn; congruence.
  - intros [b [n|[|[]]]] e'; cbn; try discriminate. intros [= ->]. eexists. split; reflexivity.
Qed.
Lemma es_udp_socket_close u : estop eu (udp_socket_close u).
Proof. unfold udp_socket_close. cbv zeta. repeat estep. reflexivity. Qed.
#[export] Hint Resolve es_udp_socket_close : es.
Lemma es_udp_close d u : estop (fun r => eu (snd r)) (udp_close d u).
Proof. unfold udp_close. estep. destruct (release_socket d (u_socket u)); [reflexivity|exact I]. Qed.

(** ** MACRAW *)
Lemma es_rx_new fuel s : estop eb (rx_new fuel s).
Proof. unfold rx_new. repeat estep. reflexivity. Qed.
Lemma es_tx_new s : estop eb (tx_new s).
Proof. unfold tx_new. repeat estep. reflexivity. Qed.
Lemma es_rx_commit s c : estop eb (rx_commit s c).
Proof. unfold rx_commit. repeat estep. reflexivity. Qed.
Lemma es_tx_commit s c : estop eb (tx_commit s c).
Proof. unfold tx_commit. repeat estep. reflexivity. Qed.
Lemma es_tx_write s c d : estop eb (tx_write s c d).
Proof.
  unfold tx_write. destruct ((len d =? 0) || (available c <? len d)); [reflexivity|]. cbv zeta.
  unfold slice_to. match goal with |- context [if ?c then _ else _] => destruct c end; [|exact I].
  estep. match goal with |- context [if ?c then _ else _] => destruct c end; [exact I|reflexivity].
Qed.
#[export] Hint Resolve es_rx_new es_tx_new es_rx_commit es_tx_commit es_tx_write : es.
Lemma es_rx_read s c d : estop (fun r => eb (snd r)) (rx_read s c d).
Proof.
  unfold rx_read. destruct d as [|b d]; [reflexivity|]. cbv zeta.
  unfold slice_to. match goal with |- context [if ?c then _ else _] => destruct c end; [|exact I].
  eapply estop_bind; [apply es_read_into| |].
  - intros [got [x|e]]; cbn [fst snd]; [|discriminate]. reflexivity.
  - intros [got [x|e]] e'; cbn [fst snd]; [discriminate|]. intros [= ->]. eexists. split; reflexivity.
Qed.
Lemma es_rx_read_upto s c d m : estop (fun r => eb (snd r)) (rx_read_upto s c d m).
Proof.
  unfold rx_read_upto. destruct (m <? len d); [|apply es_rx_read].
  unfold slice_to. match goal with |- context [if ?c then _ else _] => destruct c end; [|exact I].
  eapply estop_bind; [apply es_rx_read| |].
  - intros [got x] H. exact H.
  - intros [got x] e H. eexists. split; [reflexivity|exact H].
Qed.
Lemma es_raw_read_body s c ex d : estop (fun r => eb (snd r)) (raw_read_body s c ex d).
Proof.
  unfold raw_read_body. eapply estop_bind; [apply es_rx_read_upto| |].
  - intros [got [x|e]]; cbn [fst snd]; [|discriminate]. intros _. cbv zeta. estep. reflexivity.
  - intros [got [x|e]] e'; cbn [fst snd]; [discriminate|]. intros [= ->]. eexists. split; reflexivity.
Qed.
Lemma es_raw_read_frame fuel r d : estop (fun r => eb (snd r)) (raw_read_frame fuel r d).
Proof.
  unfold raw_read_frame. cbv zeta. estep. destruct (available a =? 0); [reflexivity|].
  eapply estop_bind; [apply es_rx_read| |].
  - intros [got [x|e]]; cbn [fst snd]; [|discriminate]. intros _.
    destruct (snd x =? 2); [apply es_raw_read_body|exact I].
  - intros [got [x|e]] e'; cbn [fst snd]; [discriminate|]. intros [= ->]. eexists. split; reflexivity.
Qed.
Lemma es_raw_write_frame fuel r d : estop eb (raw_write_frame fuel r d).
Proof. unfold raw_write_frame. cbv zeta. repeat estep. reflexivity. Qed.
Lemma es_raw_enable r w : estop eb (raw_enable_interrupts r w).
Proof. unfold raw_enable_interrupts. repeat estep. reflexivity. Qed.
Lemma es_raw_disable r : estop eb (raw_disable_interrupts r).
Proof. unfold raw_disable_interrupts. repeat estep. reflexivity. Qed.
Lemma es_raw_clear r : estop eb (raw_clear_interrupts r).
Proof. apply es_reset_interrupt. Qed.

(** ** Device, initialisation *)
Definition devout_berr (d : devout) : option berr :=
  match d with
  | DIp r => eb r | DMac r => eb r | DPhy r => eb r | DByte r => eb r
  | DRetryTime r => eb r | DUnit r => eb r
  end.

Lemma es_run_devop q : estop devout_berr (run_devop q).
Proof.
  destruct q; cbn; split; intros; try reflexivity; eexists; split; reflexivity.
Qed.
Lemma es_dev_reset d : estop er (dev_reset d).
Proof.
  unfold dev_reset. destruct (any_allocated d); [reflexivity|]. unfold reset_device. estep. reflexivity.
Qed.
Lemma es_write_if ch a d c c' k :
  (forall x, estop (fun r => eb (snd r)) (k x)) ->
  estop (fun r => eb (snd r)) (write_if ch a d c c' k).
Proof. intros H. unfold write_if. destruct ch; [|apply H]. estep. apply H. Qed.
Lemma es_refresh h : estop (fun r => eb (snd r)) (refresh h).
Proof.
  unfold refresh. destruct h as [[] st c|]; try reflexivity.
  eapply estop_bind with (E := fun r => eb (snd r)).
  - unfold write_settings. repeat (apply es_write_if; intros ?). reflexivity.
  - intros [x r] H. exact H.
  - intros [x r] e H. eexists. split; [reflexivity|exact H].
Qed.
Lemma es_initialize_with_host a h m : estop ei (initialize_with_host a h m).
Proof.
  unfold initialize_with_host. cbv zeta.
  match goal with |- estop ei (if a then _ else ?r) => assert (R : estop ei r) end.
  { unfold uninit_reset, dev_set_mode. estep. estep.
    eapply estop_bind; [apply es_refresh| |].
    - intros [x [u|e]]; cbn [fst snd]; [reflexivity|discriminate].
    - intros [x [u|e]] e'; cbn [fst snd]; [discriminate|]. intros [= ->]. eexists. split; reflexivity. }
  destruct a; [|exact R].
  eapply estop_try with (E := ei); [|reflexivity|intros []; reflexivity|intros ?; exact R].
  unfold assert_chip_version, dev_version. estep. destruct (negb (b2n a =? 4)); reflexivity.
Qed.
Lemma es_raw_zero l : estop eb (raw_zero_buffers l).
Proof. induction l as [|i l IH]; cbn [raw_zero_buffers]; [reflexivity|]. cbv zeta. estep. estep. exact IH. Qed.
#[export] Hint Resolve es_raw_zero : es.
Lemma es_initialize_macraw m : estop ei (initialize_macraw m).
Proof.
  unfold initialize_macraw, raw_new. cbv zeta. repeat estep. reflexivity.
Qed.

Definition sockout_berr (d : sockout) : option berr :=
  match d with KUnit r => eb r | KByte r => eb r | KBool r => eb r | KNum r => eb r end.

(** ** One API call of a program *)
Definition out_berr (o : out) : option berr :=
  match o with
  | RTcpConnect r => ent r | RTcpSend r => ent r | RTcpReceive _ r => ent r | RTcpClose r => et r
  | RUdpUnit r => eu r | RUdpSend r => enu r | RUdpReceive _ r => enu r
  | RDevice d => devout_berr d
  | RSockop d => sockout_berr d
  | RNoHandle | RUnit | RSocket _ | RTcpSocket _ | RUdpSocket _ => None
  end.

Lemma estop_map {A C} (E : A -> option berr) (E' : C -> option berr) p (f : A -> C) :
  estop E p -> (forall a, E' (f a) = E a) -> estop E' (bind p (fun r => Ret (f r))).
Proof.
  intros H Hf. eapply estop_bind; [exact H| |].
  - intros a Ha. cbn. now rewrite Hf.
  - intros a e Ha. eexists. split; [reflexivity|]. now rewrite Hf.
Qed.

Lemma es_run_sockop fuel k q : estop sockout_berr (run_sockop fuel k q).
Proof.
  destruct q; cbn [run_sockop]; (eapply estop_map with (E := eb); [|reflexivity]);
    try (auto with es; fail); apply es_write.
Qed.
Lemma es_step fuel a o : estop (fun r => out_berr (snd r)) (step fuel a o).
Proof.
  destruct o; cbn [step];
    try (match goal with |- context [lookup ?h ?l] => destruct (lookup h l) as [[]|] end; try reflexivity).
  - destruct (take_socket (dev a)) as [? []]; reflexivity.
  - destruct (release_socket _ _); [reflexivity|exact I].
  - destruct (tcp_socket (dev a)) as [? []]; reflexivity.
  - eapply estop_map; [apply es_tcp_connect|reflexivity].
  - eapply estop_map; [apply es_tcp_send|reflexivity].
  - eapply estop_map; [apply es_tcp_receive|reflexivity].
  - eapply estop_map; [apply es_tcp_close|reflexivity].
  - destruct (udp_socket (dev a)) as [? []]; reflexivity.
  - eapply estop_map; [apply es_udp_connect|reflexivity].
  - eapply estop_map; [apply es_udp_bind|reflexivity].
  - eapply estop_map; [apply es_udp_send_all|reflexivity].
  - eapply estop_map; [apply es_udp_send_to|reflexivity].
  - eapply estop_map; [apply es_udp_receive|reflexivity].
  - eapply estop_map; [apply es_udp_close|reflexivity].
  - reflexivity.
  - reflexivity.
  - eapply estop_map; [apply es_run_devop|reflexivity].
  - eapply estop_map; [apply es_udp_set_port|reflexivity].
  - eapply estop_map; [apply es_run_sockop|reflexivity].
Qed.
