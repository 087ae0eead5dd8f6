(** Calls that are refused: what makes them so, and that they leave everything as it was. *)
From Verif Require Export HistoryFacts PoolFacts.
From Verif Require Import ProgFacts ExecFacts SockSpecs Datasheet.

(** ** What a computation has written so far *)
(** [n]: no free size read of socket [i] (register 0x20, Sn_TX_FSR) is below [n] *)
Section Ne.
  Context (i n : N).
  Definition roomy (e : event) : Prop :=
    match e with ERead b a got (Ok _) => b = 4 * i + 1 -> a = 0x20 -> n <= from_be got | _ => True end.
  Fixpoint ne {A} (w : bool) (G : bool -> A -> Prop) (p : prog A) : Prop :=
    match p with
    | Ret a => G w a
    | BusRead b a d k => forall got r, length got = length d -> roomy (ERead b a got r) -> ne w G (k (got, r))
    | BusWrite b a d k => forall r, ne true G (k r)
    | _ => True
    end.
  Lemma ne_mono {A} (G G' : bool -> A -> Prop) p : forall w, (forall w a, G w a -> G' w a) -> ne w G p -> ne w G' p.
  Proof. induction p as [a|x| |b a d k IH|b a d k IH]; intros w H; cbn [ne]; eauto. Qed.
  Lemma ne_bind {A B} (G : bool -> A -> Prop) (G' : bool -> B -> Prop) (p : prog A) f : forall w,
    ne w G p -> (forall w a, G w a -> ne w G' (f a)) -> ne w G' (bind p f).
  Proof. induction p as [a|x| |b a d k IH|b a d k IH]; intros w; cbn [ne bind]; eauto. Qed.
  Lemma ne_try {A E R} (G : bool -> res A E -> Prop) (G' : bool -> R -> Prop) (p : prog (res A E)) h k w :
    ne w G p -> (forall w a, G w (Ok a) -> ne w G' (k a)) -> (forall w e, G w (Err e) -> G' w (h e)) -> ne w G' (try_ p h k).
  Proof. intros Hp Hk Hh. eapply ne_bind; [exact Hp|]. intros w' [a|e] H; cbn [ne]; auto. Qed.
  Lemma ne_any {A} (p : prog A) : forall w, ne w (fun _ _ => True) p.
  Proof. induction p as [a|x| |b a d k IH|b a d k IH]; intros w; cbn [ne]; auto. Qed.
  Lemma ne_exec {A} (G : bool -> A -> Prop) p tr o : exec p tr o -> forall w, ne w G p -> Forall roomy tr ->
    match o with Done a => G (w || existsb is_write tr) a | _ => True end.
  Proof.
    induction 1 as [p|a|x| |blk addr buf k got r tr o Hl X IH|blk addr data k r tr o X IH]; intros w H F; auto.
    - cbn [existsb]. now rewrite orb_false_r.
    - inversion F; subst. cbn [ne existsb is_write] in *. apply IH; auto.
    - inversion F; subst. cbn [ne existsb is_write] in *. replace (w || (true || existsb is_write tr)) with (true || existsb is_write tr) by now rewrite orb_true_r.
      apply IH; auto.
  Qed.
  Lemma ne_slice_to {R} x m l (k : list byte -> prog R) w G : (m <= len l -> ne w G (k (take m l))) -> ne w G (slice_to x m l k).
  Proof. intros H. unfold slice_to. destruct (N.leb_spec m (len l)); [auto|exact I]. Qed.
  Lemma ne_slice_from {R} x m l (k : list byte -> prog R) w G : (m <= len l -> ne w G (k (drop m l))) -> ne w G (slice_from x m l k).
  Proof. intros H. unfold slice_from. destruct (N.leb_spec m (len l)); [auto|exact I]. Qed.
  Lemma ne_reg b a k w : ne w (fun w' _ => w' = w) (read_reg b a k).
  Proof. unfold read_reg. cbn. intros got [u|e] _ _; reflexivity. Qed.
  Lemma ne_rd {R} b a k (f : list byte -> R) w : ne w (fun w' _ => w' = w) (try d <- read_reg b a k else Err ;; Ret (Ok (f d))).
  Proof. unfold read_reg. cbn. intros got [u|e] _ _; reflexivity. Qed.
  Lemma ne_size fuel s w : ne w (fun w' _ => w' = w) (get_receive_size fuel s).
  Proof.
    induction fuel as [|fuel IH]; cbn [get_receive_size]; [exact I|].
    eapply ne_try; [apply ne_reg| |now intros]. intros w1 a1 ->. eapply ne_try; [apply ne_reg| |now intros]. intros w2 a2 ->.
    destruct (bytes_eqb a1 a2); [reflexivity|exact IH].
  Qed.
  Lemma ne_fsr w : i < 8 -> ne w (fun w' r => w' = w /\ forall m, r = Ok m -> n <= m) (get_tx_free_size (socket_new i)).
  Proof.
    intros Hi. unfold get_tx_free_size, read_reg. cbn [try_ bind ne fst snd].
    replace (register (socket_new i)) with (4 * i + 1) by (rewrite (so_reg i Hi); unfold BSB_REG; lia).
    intros got [[]|e] _ H; split; try reflexivity; try discriminate. intros m [= <-]. cbn [roomy] in H. auto.
  Qed.
End Ne.

(** ** Errors that are not the bus's *)
Definition t_refused (e : terr) : bool := match e with TOther _ => false | _ => true end.
Definition u_refused (e : uerr) : bool := match e with UOther _ | UWriteTimeout => false | _ => true end.
(** the call was refused: it answered an error that neither the bus nor the network caused, or WouldBlock *)
Definition refused (r : out) : bool :=
  match r with
  | RTcpSocket (Err e) | RTcpClose (Err e) => t_refused e
  | RTcpConnect (Err (NbOther e)) | RTcpSend (Err (NbOther e)) | RTcpReceive _ (Err (NbOther e)) => t_refused e
  | RTcpConnect (Err WouldBlock) | RTcpSend (Err WouldBlock) | RTcpReceive _ (Err WouldBlock) => true
  | RUdpSocket (Err e) | RUdpUnit (Err e) => u_refused e
  | RUdpSend (Err (NbOther e)) | RUdpReceive _ (Err (NbOther e)) => u_refused e
  | RUdpSend (Err WouldBlock) | RUdpReceive _ (Err WouldBlock) => true
  | RSocket None => true
  | _ => false
  end.
Definition nt_refused {A} (r : res A (nberr terr)) : bool :=
  match r with Err WouldBlock => true | Err (NbOther e) => t_refused e | _ => false end.
Definition nu_refused {A} (r : res A (nberr uerr)) : bool :=
  match r with Err WouldBlock => true | Err (NbOther e) => u_refused e | _ => false end.
Definition tt_refused {A} (r : res A terr) : bool := match r with Err e => t_refused e | _ => false end.

Notation quiet f := (fun (w : bool) r => f r = true -> w = false).
Ltac nrd := eapply ne_try with (G := fun w' _ => w' = false); [solve [apply ne_rd | apply ne_reg | apply ne_size]|let w := fresh in intros w ? ->|try (let w := fresh in intros w ? _; discriminate)].
Section Calls.
  Context (i n : N) (Hi : i < 8).
  Notation s := (socket_new i).
  Notation t := (mkTcp s).
  Ltac any := eapply ne_try with (G := fun _ _ => True); [solve [apply ne_any]|intros ? ? _|intros; try reflexivity; try discriminate].
  Lemma ne_tcp_data fuel d w : ne i n w (fun _ r => tt_refused r = false) (tcp_send_data fuel t d).
  Proof. unfold tcp_send_data. cbv zeta. do 6 any. reflexivity. Qed.
  Lemma ne_tcp_send fuel d : ne i n false (quiet nt_refused) (tcp_send fuel t d).
  Proof.
    unfold tcp_send. eapply ne_try with (G := quiet tt_refused); [|intros; discriminate|intros w e H; exact H].
    unfold tcp_socket_send, tcp_is_connected, get_status, get_tx_free_size.
    eapply ne_try with (G := fun w (r : res bool terr) => w = false /\ forall e, r = Err e -> t_refused e = false).
    { nrd; [now split|]. intros w e ->. split; [reflexivity|]. now intros ? [= <-]. }
    2: { intros w e [-> _] _. reflexivity. }
    intros w c [-> _]. destruct c; cbn [negb]; [|now intros _]. nrd.
    assert (K : forall x, ne i n false (quiet tt_refused) (tcp_send_data fuel t x)).
    { intros x. eapply ne_mono; [|apply ne_tcp_data]. cbn beta. intros w r E E'. congruence. }
    destruct (_ <? _); [apply K|apply ne_slice_to; intros _; apply K].
  Qed.
  Lemma ne_tcp_rdata m d w : ne i n w (fun _ r => tt_refused (snd r) = false) (tcp_receive_data t m d).
  Proof.
    unfold tcp_receive_data. cbv zeta. any. eapply ne_bind; [apply ne_any|]. intros w2 [g [u|e]] _; cbn [fst snd]; [|reflexivity]. do 3 any. reflexivity.
  Qed.
  Lemma ne_tcp_receive fuel d : ne i n false (fun w r => nt_refused (snd r) = true -> w = false /\ fst r = d) (tcp_receive fuel t d).
  Proof.
    unfold tcp_receive. eapply ne_bind with (G := fun w r => tt_refused (snd r) = true -> w = false /\ fst r = d); [|intros w [b [r|r]] H; exact H].
    unfold tcp_socket_receive, tcp_is_connected, get_status, has_interrupt.
    eapply ne_try with (G := fun w (r : res bool terr) => w = false).
    { nrd; [reflexivity|]. now intros w e ->. }
    2: { intros w e -> _. now split. }
    intros w c ->. destruct c; cbn [negb]; [|now split]. nrd. destruct (negb _); [discriminate|]. nrd.
    assert (K : forall x, ne i n false (fun w r => tt_refused (snd r) = true -> w = false /\ fst r = d) (tcp_receive_data t x d)).
    { intros x. eapply ne_mono; [|apply ne_tcp_rdata]. cbn beta. intros w r E E'. congruence. }
    destruct (_ <? _); [apply K|]. destruct (_ <=? _); [apply K|exact I].
  Qed.

  Context (dst : option addr4) (port : N).
  Notation u := (mkUdp s dst port).
  Lemma ne_udp_receive fuel d : ne i n false (fun w r => nu_refused (snd r) = true -> w = false /\ fst r = d) (udp_receive fuel u d).
  Proof.
    unfold udp_receive. eapply ne_bind with (G := fun w r => nu_refused (snd r) = true -> w = false /\ fst r = d); [|intros w [b [r|r]] H; exact H].
    unfold udp_socket_receive. cbv zeta. cbn [u_socket]. unfold get_status, has_interrupt, get_rx_read_pointer. nrd.
    destruct (udp_status_gate _); [|now split]. nrd. destruct (negb _); [now split|]. nrd. destruct (_ =? _); [now split|]. destruct (_ =? _); [now split|].
    do 2 nrd. apply ne_slice_to. intros _. eapply ne_bind; [apply ne_any|]. intros w [g [x|e]] _; cbn [fst snd]; [|discriminate]. do 3 any. discriminate.
  Qed.
  Lemma ne_flush w : ne i n w (fun _ r => r = Err WouldBlock \/ nu_refused r = false) (udp_try_flush_tx u).
  Proof.
    unfold udp_try_flush_tx. cbv zeta. any; [|now right]. any; [|now right].
    destruct (_ =? _); [|now left]. any; [|now right]. match goal with |- context [if ?b then _ else _] => destruct b end; [any; now right|].
    any; [|now right]. match goal with |- context [if ?b then _ else _] => destruct b end; [any; now right|now right].
  Qed.
  Lemma ne_floop fuel : forall w, ne i n w (fun _ r => nu_refused r = false) (udp_flush_loop fuel u).
  Proof.
    induction fuel as [|fuel IH]; intros w; cbn [udp_flush_loop]; [exact I|]. eapply ne_bind; [apply ne_flush|].
    intros w' r [->|H]; [apply IH|]. destruct r as [[]|[|e]]; [reflexivity|discriminate H|exact H].
  Qed.
  Lemma ne_udp_data fuel d w : ne i n w (fun _ r => nu_refused r = false /\ forall m, r = Ok m -> m = len d) (udp_send_data fuel u d).
  Proof.
    unfold udp_send_data. cbv zeta. any; [|split; [reflexivity|discriminate]]. any; [|split; [reflexivity|discriminate]]. any; [|split; [reflexivity|discriminate]].
    eapply ne_try with (G := fun _ r => nu_refused r = false); [| |].
    - unfold udp_block_send_command. any. apply ne_floop.
    - intros ? ? _. split; [reflexivity|]. now intros m [= <-].
    - intros ? ? H. split; [exact H|discriminate].
  Qed.
  Lemma ne_udp_ssend fuel d : n = len d ->
    ne i n false (fun w r => (nu_refused r = true -> w = false) /\ forall m, r = Ok m -> m = len d) (udp_socket_send fuel u d).
  Proof.
    intros Hn. unfold udp_socket_send. cbv zeta. cbn [u_socket u_dest]. unfold get_status.
    eapply ne_try with (G := fun w' _ => w' = false); [solve [apply ne_rd]|intros w st ->|intros w e ->; split; [reflexivity|discriminate]].
    destruct (udp_status_gate _); [|split; [reflexivity|discriminate]]. destruct dst eqn:E; [|split; [reflexivity|discriminate]].
    eapply ne_try; [apply ne_fsr; exact Hi|intros w f [-> Hf]|intros w e [-> _]; split; [reflexivity|discriminate]].
    specialize (Hf f eq_refl). destruct (_ =? _); [split; [reflexivity|discriminate]|]. rewrite <- E.
    assert (K : ne i n false (fun w r => (nu_refused r = true -> w = false) /\ forall m, r = Ok m -> m = len d) (udp_send_data fuel u d)).
    { eapply ne_mono; [|apply ne_udp_data]. cbn beta. intros w r [H1 H2]. split; [congruence|exact H2]. }
    destruct (N.ltb_spec (len d) f); [exact K|]. apply ne_slice_to. intros L. replace (take f d) with d; [exact K|].
    symmetry. apply take_all. lia.
  Qed.
  Lemma ne_udp_all fuel d : n = len d -> ne i n false (quiet nu_refused) (udp_send_all fuel u d).
  Proof.
    intros Hn. unfold udp_send_all. cbv zeta. cbn [u_socket u_dest]. unfold get_status. nrd.
    destruct (udp_status_gate _); [|now intros _]. destruct dst eqn:E; [|now intros _]. rewrite <- E.
    eapply ne_try; [apply ne_fsr; exact Hi|intros w f [-> Hf]|intros w e _; discriminate].
    specialize (Hf f eq_refl). destruct (_ =? _); [now intros _|].
    destruct fuel as [|fuel]; cbn [udp_send_loop]; (destruct (_ =? _); [discriminate|]); [exact I|].
    apply ne_slice_from. intros _. cbv zeta. rewrite drop_0. apply ne_slice_to. intros _.
    replace (take (N.min f (len d)) d) with d by (symmetry; apply take_all; lia).
    eapply ne_try; [apply ne_udp_ssend; exact Hn| |intros w e [H _]; exact H].
    intros w m [_ H]. rewrite (H m eq_refl). any. rewrite N.add_0_l.
    destruct fuel; cbn [udp_send_loop]; rewrite N.eqb_refl; discriminate.
  Qed.
End Calls.

(** ** Calls whose errors are all the bus's *)
Definition uu_refused {A} (r : res A uerr) : bool := match r with Err e => u_refused e | _ => false end.
Ltac anyw := eapply ne_try with (G := fun _ _ => True); [solve [apply ne_any]|intros ? ? _|intros; try reflexivity; try discriminate].
Section Bus.
  Context (i n : N).
  Lemma ne_udp_open_any u w : ne i n w (fun _ _ => True) (udp_open u). Proof. apply ne_any. Qed.
  Lemma nb_connect u r w : ne i n w (fun _ x => uu_refused (snd x) = false) (udp_connect u (V4 r)).
  Proof.
    unfold udp_connect. anyw. unfold udp_set_destination. destruct (match u_dest u with Some _ => _ | None => _ end); [|reflexivity].
    do 2 anyw. reflexivity.
  Qed.
  Lemma nb_port u p w : ne i n w (fun _ x => uu_refused (snd x) = false) (udp_set_port u p).
  Proof. unfold udp_set_port. cbv zeta. anyw. reflexivity. Qed.
  Lemma nb_bind u p w : ne i n w (fun _ x => uu_refused (snd x) = false) (udp_bind u p).
  Proof.
    unfold udp_bind. eapply ne_bind; [apply nb_port|]. intros w' [u' [a|e]] H; cbn [fst snd] in *; [|exact H]. anyw. reflexivity.
  Qed.
  Lemma nb_uclose d u w : ne i n w (fun _ x => uu_refused (snd x) = false) (udp_close d u).
  Proof.
    unfold udp_close. eapply ne_try with (G := fun _ r => uu_refused r = false).
    - unfold udp_socket_close. cbv zeta. do 2 anyw. reflexivity.
    - intros w' a _. destruct (release_socket _ _); [reflexivity|exact I].
    - intros w' e H. exact H.
  Qed.
  Lemma nb_sclose t w : ne i n w (fun _ r => tt_refused r = false) (tcp_socket_close t).
  Proof. unfold tcp_socket_close. cbv zeta. do 2 anyw. reflexivity. Qed.
  Lemma nb_tclose d t w : ne i n w (fun _ x => tt_refused (snd x) = false) (tcp_close d t).
  Proof.
    unfold tcp_close. eapply ne_try; [apply nb_sclose| |].
    - intros w' a _. destruct (release_socket _ _); [reflexivity|exact I].
    - intros w' e H. exact H.
  Qed.
  Lemma nb_reopen t w : ne i n w (fun _ r => tt_refused r = false) (tcp_reopen t).
  Proof. unfold tcp_reopen. cbv zeta. do 5 anyw. reflexivity. Qed.
  Lemma nb_wait fuel t : forall w, ne i n w (fun _ r => tt_refused r = false) (tcp_connect_wait fuel t).
  Proof.
    induction fuel as [|fuel IH]; intros w; cbn [tcp_connect_wait]; [exact I|]. anyw.
    destruct (status_try_from _) as [[]|]; try apply IH; [|reflexivity].
    eapply ne_try; [apply nb_sclose|intros w' x _; apply nb_reopen|intros w' e H; exact H].
  Qed.
  Definition mode_only (r : res unit (nberr terr)) : Prop := nt_refused r = true -> r = Err (NbOther TUnsupportedMode).
  Lemma nb_tconnect fuel t r w : ne i n w (fun _ x => mode_only x) (tcp_connect fuel t (V4 r)).
  Proof.
    unfold tcp_connect, mode_only. eapply ne_try with (G := fun _ x => tt_refused x = false).
    - unfold tcp_open. cbv zeta. do 6 anyw. reflexivity.
    - intros w' a _. eapply ne_try with (G := fun _ x => tt_refused x = true -> x = Err TUnsupportedMode).
      + unfold tcp_socket_connect. anyw.
        assert (D : forall w, ne i n w (fun _ x => tt_refused x = true -> x = Err TUnsupportedMode) (tcp_do_connect fuel t r)).
        { intros wa. unfold tcp_do_connect. cbv zeta. do 3 anyw. eapply ne_mono; [|apply nb_wait]. cbn beta. congruence. }
        assert (C : forall w, ne i n w (fun _ x => tt_refused x = true -> x = Err TUnsupportedMode)
          (try a <- tcp_socket_close t else Err ;; try b <- tcp_reopen t else Err ;; tcp_do_connect fuel t r)).
        { intros wa. eapply ne_try; [apply nb_sclose|intros ? ? _|intros ? ? H E; cbn in H, E; congruence].
          eapply ne_try; [apply nb_reopen|intros ? ? _; apply D|intros ? ? H E; cbn in H, E; congruence]. }
        destruct (status_try_from _) as [[]|]; first [now intros _|apply C|apply D].
      + intros; discriminate.
      + intros ? ? H E. specialize (H E). injection H as ->. reflexivity.
    - intros w' e H E. cbn in H, E. congruence.
  Qed.
End Bus.

Lemma update_same h v l : lookup h l = Some v -> update h v l = l.
Proof.
  induction l as [|[k x] l IH]; cbn [lookup update]; [discriminate|]. destruct (Nat.eqb k h); [now intros [= ->]|]. intros H. now rewrite IH.
Qed.
Lemma put_same a h v : lookup h (handles a) = Some v -> put a h v = a.
Proof. intros H. unfold put. rewrite (update_same _ _ _ H). apply app_eta. Qed.
Lemma take_none d d' : take_socket d = (d', None) -> d' = d.
Proof. unfold take_socket. destruct (first_free _ _); [discriminate|]. now intros [= <-]. Qed.
